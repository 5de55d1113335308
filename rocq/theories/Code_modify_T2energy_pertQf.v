(** Generated by tools/transcribe.py from /repo/UT2/modify_T2energy_pertQf.py; do not edit. *)
From Coq Require Import String List QArith.
From Verif Require Import Interp.
Import ListNotations.
Open Scope string_scope.

(** /repo/UT2/modify_T2energy_pertQf.py:4-2778  def energy_pertQf *)
Definition energy_pertQf : fn := mkFn
  ["g"; "l2"; "t2"; "o"; "v"]
  [(*L5*) SAssign "g_aaaa" (EItem (EVar "g") "aaaa");
   (*L6*) SAssign "g_bbbb" (EItem (EVar "g") "bbbb");
   (*L7*) SAssign "g_abab" (EItem (EVar "g") "abab");
   (*L9*) SAssign "l2_aaaa" (EItem (EVar "l2") "aaaa");
   (*L10*) SAssign "l2_bbbb" (EItem (EVar "l2") "bbbb");
   (*L11*) SAssign "l2_abab" (EItem (EVar "l2") "abab");
   (*L13*) SAssign "t2_aaaa" (EItem (EVar "t2") "aaaa");
   (*L14*) SAssign "t2_bbbb" (EItem (EVar "t2") "bbbb");
   (*L15*) SAssign "t2_abab" (EItem (EVar "t2") "abab");
   (*L18*) SAssign "energy" (EScale (-1 # 8) (EEins "nmkl,ijba,kldc,dcjm,bain" [(ESlice (EVar "g_aaaa") [SV "o"; SV "o"; SV "o"; SV "o"]); (EVar "l2_aaaa"); (EVar "l2_aaaa"); (EVar "t2_aaaa"); (EVar "t2_aaaa")]));
   (*L21*) SAug true "energy" (EScale (-1 # 8) (EEins "nmkl,ijba,kldc,dcjm,bain" [(ESlice (EVar "g_abab") [SV "o"; SV "o"; SV "o"; SV "o"]); (EVar "l2_aaaa"); (EVar "l2_abab"); (EVar "t2_abab"); (EVar "t2_aaaa")]));
   (*L24*) SAug true "energy" (EScale (-1 # 8) (EEins "nmkl,ijba,klcd,cdjm,bain" [(ESlice (EVar "g_abab") [SV "o"; SV "o"; SV "o"; SV "o"]); (EVar "l2_aaaa"); (EVar "l2_abab"); (EVar "t2_abab"); (EVar "t2_aaaa")]));
   (*L27*) SAug true "energy" (EScale (-1 # 8) (EEins "nmlk,ijba,lkdc,dcjm,bain" [(ESlice (EVar "g_abab") [SV "o"; SV "o"; SV "o"; SV "o"]); (EVar "l2_aaaa"); (EVar "l2_abab"); (EVar "t2_abab"); (EVar "t2_aaaa")]));
   (*L30*) SAug true "energy" (EScale (-1 # 8) (EEins "nmlk,ijba,lkcd,cdjm,bain" [(ESlice (EVar "g_abab") [SV "o"; SV "o"; SV "o"; SV "o"]); (EVar "l2_aaaa"); (EVar "l2_abab"); (EVar "t2_abab"); (EVar "t2_aaaa")]));
   (*L33*) SAug true "energy" (EScale (-1 # 8) (EEins "mnkl,ijba,kldc,dcmj,bain" [(ESlice (EVar "g_abab") [SV "o"; SV "o"; SV "o"; SV "o"]); (EVar "l2_abab"); (EVar "l2_abab"); (EVar "t2_abab"); (EVar "t2_abab")]));
   (*L36*) SAug true "energy" (EScale (-1 # 8) (EEins "mnkl,ijba,klcd,cdmj,bain" [(ESlice (EVar "g_abab") [SV "o"; SV "o"; SV "o"; SV "o"]); (EVar "l2_abab"); (EVar "l2_abab"); (EVar "t2_abab"); (EVar "t2_abab")]));
   (*L39*) SAug true "energy" (EScale (-1 # 8) (EEins "mnlk,ijba,lkdc,dcmj,bain" [(ESlice (EVar "g_abab") [SV "o"; SV "o"; SV "o"; SV "o"]); (EVar "l2_abab"); (EVar "l2_abab"); (EVar "t2_abab"); (EVar "t2_abab")]));
   (*L42*) SAug true "energy" (EScale (-1 # 8) (EEins "mnlk,ijba,lkcd,cdmj,bain" [(ESlice (EVar "g_abab") [SV "o"; SV "o"; SV "o"; SV "o"]); (EVar "l2_abab"); (EVar "l2_abab"); (EVar "t2_abab"); (EVar "t2_abab")]));
   (*L45*) SAug true "energy" (EScale (-1 # 8) (EEins "nmkl,ijba,kldc,dcjm,bain" [(ESlice (EVar "g_bbbb") [SV "o"; SV "o"; SV "o"; SV "o"]); (EVar "l2_abab"); (EVar "l2_bbbb"); (EVar "t2_bbbb"); (EVar "t2_abab")]));
   (*L48*) SAug true "energy" (EScale (-1 # 8) (EEins "mnkl,ijab,kldc,dcmj,abin" [(ESlice (EVar "g_abab") [SV "o"; SV "o"; SV "o"; SV "o"]); (EVar "l2_abab"); (EVar "l2_abab"); (EVar "t2_abab"); (EVar "t2_abab")]));
   (*L51*) SAug true "energy" (EScale (-1 # 8) (EEins "mnkl,ijab,klcd,cdmj,abin" [(ESlice (EVar "g_abab") [SV "o"; SV "o"; SV "o"; SV "o"]); (EVar "l2_abab"); (EVar "l2_abab"); (EVar "t2_abab"); (EVar "t2_abab")]));
   (*L54*) SAug true "energy" (EScale (-1 # 8) (EEins "mnlk,ijab,lkdc,dcmj,abin" [(ESlice (EVar "g_abab") [SV "o"; SV "o"; SV "o"; SV "o"]); (EVar "l2_abab"); (EVar "l2_abab"); (EVar "t2_abab"); (EVar "t2_abab")]));
   (*L57*) SAug true "energy" (EScale (-1 # 8) (EEins "mnlk,ijab,lkcd,cdmj,abin" [(ESlice (EVar "g_abab") [SV "o"; SV "o"; SV "o"; SV "o"]); (EVar "l2_abab"); (EVar "l2_abab"); (EVar "t2_abab"); (EVar "t2_abab")]));
   (*L60*) SAug true "energy" (EScale (-1 # 8) (EEins "nmkl,ijab,kldc,dcjm,abin" [(ESlice (EVar "g_bbbb") [SV "o"; SV "o"; SV "o"; SV "o"]); (EVar "l2_abab"); (EVar "l2_bbbb"); (EVar "t2_bbbb"); (EVar "t2_abab")]));
   (*L63*) SAug true "energy" (EScale (-1 # 8) (EEins "nmkl,jiba,kldc,dcjm,bani" [(ESlice (EVar "g_aaaa") [SV "o"; SV "o"; SV "o"; SV "o"]); (EVar "l2_abab"); (EVar "l2_aaaa"); (EVar "t2_aaaa"); (EVar "t2_abab")]));
   (*L66*) SAug true "energy" (EScale (-1 # 8) (EEins "nmkl,jiba,kldc,dcjm,bani" [(ESlice (EVar "g_abab") [SV "o"; SV "o"; SV "o"; SV "o"]); (EVar "l2_abab"); (EVar "l2_abab"); (EVar "t2_abab"); (EVar "t2_abab")]));
   (*L69*) SAug true "energy" (EScale (-1 # 8) (EEins "nmkl,jiba,klcd,cdjm,bani" [(ESlice (EVar "g_abab") [SV "o"; SV "o"; SV "o"; SV "o"]); (EVar "l2_abab"); (EVar "l2_abab"); (EVar "t2_abab"); (EVar "t2_abab")]));
   (*L72*) SAug true "energy" (EScale (-1 # 8) (EEins "nmlk,jiba,lkdc,dcjm,bani" [(ESlice (EVar "g_abab") [SV "o"; SV "o"; SV "o"; SV "o"]); (EVar "l2_abab"); (EVar "l2_abab"); (EVar "t2_abab"); (EVar "t2_abab")]));
   (*L75*) SAug true "energy" (EScale (-1 # 8) (EEins "nmlk,jiba,lkcd,cdjm,bani" [(ESlice (EVar "g_abab") [SV "o"; SV "o"; SV "o"; SV "o"]); (EVar "l2_abab"); (EVar "l2_abab"); (EVar "t2_abab"); (EVar "t2_abab")]));
   (*L78*) SAug true "energy" (EScale (-1 # 8) (EEins "nmkl,jiab,kldc,dcjm,abni" [(ESlice (EVar "g_aaaa") [SV "o"; SV "o"; SV "o"; SV "o"]); (EVar "l2_abab"); (EVar "l2_aaaa"); (EVar "t2_aaaa"); (EVar "t2_abab")]));
   (*L81*) SAug true "energy" (EScale (-1 # 8) (EEins "nmkl,jiab,kldc,dcjm,abni" [(ESlice (EVar "g_abab") [SV "o"; SV "o"; SV "o"; SV "o"]); (EVar "l2_abab"); (EVar "l2_abab"); (EVar "t2_abab"); (EVar "t2_abab")]));
   (*L84*) SAug true "energy" (EScale (-1 # 8) (EEins "nmkl,jiab,klcd,cdjm,abni" [(ESlice (EVar "g_abab") [SV "o"; SV "o"; SV "o"; SV "o"]); (EVar "l2_abab"); (EVar "l2_abab"); (EVar "t2_abab"); (EVar "t2_abab")]));
   (*L87*) SAug true "energy" (EScale (-1 # 8) (EEins "nmlk,jiab,lkdc,dcjm,abni" [(ESlice (EVar "g_abab") [SV "o"; SV "o"; SV "o"; SV "o"]); (EVar "l2_abab"); (EVar "l2_abab"); (EVar "t2_abab"); (EVar "t2_abab")]));
   (*L90*) SAug true "energy" (EScale (-1 # 8) (EEins "nmlk,jiab,lkcd,cdjm,abni" [(ESlice (EVar "g_abab") [SV "o"; SV "o"; SV "o"; SV "o"]); (EVar "l2_abab"); (EVar "l2_abab"); (EVar "t2_abab"); (EVar "t2_abab")]));
   (*L93*) SAug true "energy" (EScale (-1 # 8) (EEins "mnkl,ijba,kldc,dcmj,bain" [(ESlice (EVar "g_abab") [SV "o"; SV "o"; SV "o"; SV "o"]); (EVar "l2_bbbb"); (EVar "l2_abab"); (EVar "t2_abab"); (EVar "t2_bbbb")]));
   (*L96*) SAug true "energy" (EScale (-1 # 8) (EEins "mnkl,ijba,klcd,cdmj,bain" [(ESlice (EVar "g_abab") [SV "o"; SV "o"; SV "o"; SV "o"]); (EVar "l2_bbbb"); (EVar "l2_abab"); (EVar "t2_abab"); (EVar "t2_bbbb")]));
   (*L99*) SAug true "energy" (EScale (-1 # 8) (EEins "mnlk,ijba,lkdc,dcmj,bain" [(ESlice (EVar "g_abab") [SV "o"; SV "o"; SV "o"; SV "o"]); (EVar "l2_bbbb"); (EVar "l2_abab"); (EVar "t2_abab"); (EVar "t2_bbbb")]));
   (*L102*) SAug true "energy" (EScale (-1 # 8) (EEins "mnlk,ijba,lkcd,cdmj,bain" [(ESlice (EVar "g_abab") [SV "o"; SV "o"; SV "o"; SV "o"]); (EVar "l2_bbbb"); (EVar "l2_abab"); (EVar "t2_abab"); (EVar "t2_bbbb")]));
   (*L105*) SAug true "energy" (EScale (-1 # 8) (EEins "nmkl,ijba,kldc,dcjm,bain" [(ESlice (EVar "g_bbbb") [SV "o"; SV "o"; SV "o"; SV "o"]); (EVar "l2_bbbb"); (EVar "l2_bbbb"); (EVar "t2_bbbb"); (EVar "t2_bbbb")]));
   (*L108*) SAug true "energy" (EScale (1 # 4) (EEins "nmkl,ijba,kldc,dbjm,cain" [(ESlice (EVar "g_aaaa") [SV "o"; SV "o"; SV "o"; SV "o"]); (EVar "l2_aaaa"); (EVar "l2_aaaa"); (EVar "t2_aaaa"); (EVar "t2_aaaa")]));
   (*L111*) SAug true "energy" (EScale (1 # 4) (EEins "mnkl,ijba,kldc,dbjm,acin" [(ESlice (EVar "g_abab") [SV "o"; SV "o"; SV "o"; SV "o"]); (EVar "l2_aaaa"); (EVar "l2_abab"); (EVar "t2_aaaa"); (EVar "t2_abab")]));
   (*L114*) SAug true "energy" (EScale (1 # 4) (EEins "nmkl,ijba,klcd,bdjm,cain" [(ESlice (EVar "g_abab") [SV "o"; SV "o"; SV "o"; SV "o"]); (EVar "l2_aaaa"); (EVar "l2_abab"); (EVar "t2_abab"); (EVar "t2_aaaa")]));
   (*L117*) SAug true "energy" (EScale (1 # 4) (EEins "mnlk,ijba,lkdc,dbjm,acin" [(ESlice (EVar "g_abab") [SV "o"; SV "o"; SV "o"; SV "o"]); (EVar "l2_aaaa"); (EVar "l2_abab"); (EVar "t2_aaaa"); (EVar "t2_abab")]));
   (*L120*) SAug true "energy" (EScale (1 # 4) (EEins "nmlk,ijba,lkcd,bdjm,cain" [(ESlice (EVar "g_abab") [SV "o"; SV "o"; SV "o"; SV "o"]); (EVar "l2_aaaa"); (EVar "l2_abab"); (EVar "t2_abab"); (EVar "t2_aaaa")]));
   (*L123*) SAug true "energy" (EScale (1 # 4) (EEins "nmkl,ijba,kldc,bdjm,acin" [(ESlice (EVar "g_bbbb") [SV "o"; SV "o"; SV "o"; SV "o"]); (EVar "l2_aaaa"); (EVar "l2_bbbb"); (EVar "t2_abab"); (EVar "t2_abab")]));
   (*L126*) SAug true "energy" (EScale (1 # 4) (EEins "mnkl,ijba,klcd,bdmj,cain" [(ESlice (EVar "g_abab") [SV "o"; SV "o"; SV "o"; SV "o"]); (EVar "l2_abab"); (EVar "l2_abab"); (EVar "t2_abab"); (EVar "t2_abab")]));
   (*L129*) SAug true "energy" (EScale (1 # 4) (EEins "mnlk,ijba,lkcd,bdmj,cain" [(ESlice (EVar "g_abab") [SV "o"; SV "o"; SV "o"; SV "o"]); (EVar "l2_abab"); (EVar "l2_abab"); (EVar "t2_abab"); (EVar "t2_abab")]));
   (*L132*) SAug true "energy" (EScale (1 # 4) (EEins "nmkl,ijab,kldc,dbmj,cain" [(ESlice (EVar "g_aaaa") [SV "o"; SV "o"; SV "o"; SV "o"]); (EVar "l2_abab"); (EVar "l2_aaaa"); (EVar "t2_abab"); (EVar "t2_aaaa")]));
   (*L135*) SAug true "energy" (EScale (1 # 4) (EEins "mnkl,ijab,kldc,dbmj,acin" [(ESlice (EVar "g_abab") [SV "o"; SV "o"; SV "o"; SV "o"]); (EVar "l2_abab"); (EVar "l2_abab"); (EVar "t2_abab"); (EVar "t2_abab")]));
   (*L138*) SAug true "energy" (EScale (1 # 4) (EEins "nmkl,ijab,klcd,dbjm,cain" [(ESlice (EVar "g_abab") [SV "o"; SV "o"; SV "o"; SV "o"]); (EVar "l2_abab"); (EVar "l2_abab"); (EVar "t2_bbbb"); (EVar "t2_aaaa")]));
   (*L141*) SAug true "energy" (EScale (1 # 4) (EEins "mnlk,ijab,lkdc,dbmj,acin" [(ESlice (EVar "g_abab") [SV "o"; SV "o"; SV "o"; SV "o"]); (EVar "l2_abab"); (EVar "l2_abab"); (EVar "t2_abab"); (EVar "t2_abab")]));
   (*L144*) SAug true "energy" (EScale (1 # 4) (EEins "nmlk,ijab,lkcd,dbjm,cain" [(ESlice (EVar "g_abab") [SV "o"; SV "o"; SV "o"; SV "o"]); (EVar "l2_abab"); (EVar "l2_abab"); (EVar "t2_bbbb"); (EVar "t2_aaaa")]));
   (*L147*) SAug true "energy" (EScale (1 # 4) (EEins "nmkl,ijab,kldc,dbjm,acin" [(ESlice (EVar "g_bbbb") [SV "o"; SV "o"; SV "o"; SV "o"]); (EVar "l2_abab"); (EVar "l2_bbbb"); (EVar "t2_bbbb"); (EVar "t2_abab")]));
   (*L150*) SAug true "energy" (EScale (1 # 4) (EEins "nmkl,jiba,kldc,dbjm,cani" [(ESlice (EVar "g_aaaa") [SV "o"; SV "o"; SV "o"; SV "o"]); (EVar "l2_abab"); (EVar "l2_aaaa"); (EVar "t2_aaaa"); (EVar "t2_abab")]));
   (*L153*) SAug true "energy" (EScale (1 # 4) (EEins "mnkl,jiba,kldc,dbjm,cain" [(ESlice (EVar "g_abab") [SV "o"; SV "o"; SV "o"; SV "o"]); (EVar "l2_abab"); (EVar "l2_abab"); (EVar "t2_aaaa"); (EVar "t2_bbbb")]));
   (*L156*) SAug true "energy" (EScale (1 # 4) (EEins "nmkl,jiba,klcd,bdjm,cani" [(ESlice (EVar "g_abab") [SV "o"; SV "o"; SV "o"; SV "o"]); (EVar "l2_abab"); (EVar "l2_abab"); (EVar "t2_abab"); (EVar "t2_abab")]));
   (*L159*) SAug true "energy" (EScale (1 # 4) (EEins "mnlk,jiba,lkdc,dbjm,cain" [(ESlice (EVar "g_abab") [SV "o"; SV "o"; SV "o"; SV "o"]); (EVar "l2_abab"); (EVar "l2_abab"); (EVar "t2_aaaa"); (EVar "t2_bbbb")]));
   (*L162*) SAug true "energy" (EScale (1 # 4) (EEins "nmlk,jiba,lkcd,bdjm,cani" [(ESlice (EVar "g_abab") [SV "o"; SV "o"; SV "o"; SV "o"]); (EVar "l2_abab"); (EVar "l2_abab"); (EVar "t2_abab"); (EVar "t2_abab")]));
   (*L165*) SAug true "energy" (EScale (1 # 4) (EEins "nmkl,jiba,kldc,bdjm,cain" [(ESlice (EVar "g_bbbb") [SV "o"; SV "o"; SV "o"; SV "o"]); (EVar "l2_abab"); (EVar "l2_bbbb"); (EVar "t2_abab"); (EVar "t2_bbbb")]));
   (*L168*) SAug true "energy" (EScale (1 # 4) (EEins "nmkl,jiab,kldc,dbjm,acni" [(ESlice (EVar "g_abab") [SV "o"; SV "o"; SV "o"; SV "o"]); (EVar "l2_abab"); (EVar "l2_abab"); (EVar "t2_abab"); (EVar "t2_abab")]));
   (*L171*) SAug true "energy" (EScale (1 # 4) (EEins "nmlk,jiab,lkdc,dbjm,acni" [(ESlice (EVar "g_abab") [SV "o"; SV "o"; SV "o"; SV "o"]); (EVar "l2_abab"); (EVar "l2_abab"); (EVar "t2_abab"); (EVar "t2_abab")]));
   (*L174*) SAug true "energy" (EScale (1 # 4) (EEins "nmkl,ijba,kldc,dbmj,cani" [(ESlice (EVar "g_aaaa") [SV "o"; SV "o"; SV "o"; SV "o"]); (EVar "l2_bbbb"); (EVar "l2_aaaa"); (EVar "t2_abab"); (EVar "t2_abab")]));
   (*L177*) SAug true "energy" (EScale (1 # 4) (EEins "mnkl,ijba,kldc,dbmj,cain" [(ESlice (EVar "g_abab") [SV "o"; SV "o"; SV "o"; SV "o"]); (EVar "l2_bbbb"); (EVar "l2_abab"); (EVar "t2_abab"); (EVar "t2_bbbb")]));
   (*L180*) SAug true "energy" (EScale (1 # 4) (EEins "nmkl,ijba,klcd,dbjm,cani" [(ESlice (EVar "g_abab") [SV "o"; SV "o"; SV "o"; SV "o"]); (EVar "l2_bbbb"); (EVar "l2_abab"); (EVar "t2_bbbb"); (EVar "t2_abab")]));
   (*L183*) SAug true "energy" (EScale (1 # 4) (EEins "mnlk,ijba,lkdc,dbmj,cain" [(ESlice (EVar "g_abab") [SV "o"; SV "o"; SV "o"; SV "o"]); (EVar "l2_bbbb"); (EVar "l2_abab"); (EVar "t2_abab"); (EVar "t2_bbbb")]));
   (*L186*) SAug true "energy" (EScale (1 # 4) (EEins "nmlk,ijba,lkcd,dbjm,cani" [(ESlice (EVar "g_abab") [SV "o"; SV "o"; SV "o"; SV "o"]); (EVar "l2_bbbb"); (EVar "l2_abab"); (EVar "t2_bbbb"); (EVar "t2_abab")]));
   (*L189*) SAug true "energy" (EScale (1 # 4) (EEins "nmkl,ijba,kldc,dbjm,cain" [(ESlice (EVar "g_bbbb") [SV "o"; SV "o"; SV "o"; SV "o"]); (EVar "l2_bbbb"); (EVar "l2_bbbb"); (EVar "t2_bbbb"); (EVar "t2_bbbb")]));
   (*L192*) SAug true "energy" (EScale (1 # 4) (EEins "nmjl,ijba,kldc,dckm,bain" [(ESlice (EVar "g_aaaa") [SV "o"; SV "o"; SV "o"; SV "o"]); (EVar "l2_aaaa"); (EVar "l2_aaaa"); (EVar "t2_aaaa"); (EVar "t2_aaaa")]));
   (*L195*) SAug true "energy" (EScale (1 # 4) (EEins "nmjl,ijba,kldc,dckm,bain" [(ESlice (EVar "g_abab") [SV "o"; SV "o"; SV "o"; SV "o"]); (EVar "l2_aaaa"); (EVar "l2_abab"); (EVar "t2_abab"); (EVar "t2_aaaa")]));
   (*L198*) SAug true "energy" (EScale (1 # 4) (EEins "nmjl,ijba,klcd,cdkm,bain" [(ESlice (EVar "g_abab") [SV "o"; SV "o"; SV "o"; SV "o"]); (EVar "l2_aaaa"); (EVar "l2_abab"); (EVar "t2_abab"); (EVar "t2_aaaa")]));
   (*L201*) SAug true "energy" (EScale (1 # 4) (EEins "nmjl,ijba,lkdc,dcmk,bain" [(ESlice (EVar "g_aaaa") [SV "o"; SV "o"; SV "o"; SV "o"]); (EVar "l2_aaaa"); (EVar "l2_abab"); (EVar "t2_abab"); (EVar "t2_aaaa")]));
   (*L204*) SAug true "energy" (EScale (1 # 4) (EEins "nmjl,ijba,lkcd,cdmk,bain" [(ESlice (EVar "g_aaaa") [SV "o"; SV "o"; SV "o"; SV "o"]); (EVar "l2_aaaa"); (EVar "l2_abab"); (EVar "t2_abab"); (EVar "t2_aaaa")]));
   (*L207*) SAug true "energy" (EScale (1 # 4) (EEins "nmjl,ijba,kldc,dckm,bain" [(ESlice (EVar "g_abab") [SV "o"; SV "o"; SV "o"; SV "o"]); (EVar "l2_aaaa"); (EVar "l2_bbbb"); (EVar "t2_bbbb"); (EVar "t2_aaaa")]));
   (*L210*) SAug true "energy" (EScale (1 # 4) (EEins "mnlj,ijba,kldc,dckm,bain" [(ESlice (EVar "g_abab") [SV "o"; SV "o"; SV "o"; SV "o"]); (EVar "l2_abab"); (EVar "l2_aaaa"); (EVar "t2_aaaa"); (EVar "t2_abab")]));
   (*L213*) SAug true "energy" (EScale (1 # 4) (EEins "nmjl,ijba,kldc,dckm,bain" [(ESlice (EVar "g_bbbb") [SV "o"; SV "o"; SV "o"; SV "o"]); (EVar "l2_abab"); (EVar "l2_abab"); (EVar "t2_abab"); (EVar "t2_abab")]));
   (*L216*) SAug true "energy" (EScale (1 # 4) (EEins "nmjl,ijba,klcd,cdkm,bain" [(ESlice (EVar "g_bbbb") [SV "o"; SV "o"; SV "o"; SV "o"]); (EVar "l2_abab"); (EVar "l2_abab"); (EVar "t2_abab"); (EVar "t2_abab")]));
   (*L219*) SAug true "energy" (EScale (1 # 4) (EEins "mnlj,ijba,lkdc,dcmk,bain" [(ESlice (EVar "g_abab") [SV "o"; SV "o"; SV "o"; SV "o"]); (EVar "l2_abab"); (EVar "l2_abab"); (EVar "t2_abab"); (EVar "t2_abab")]));
   (*L222*) SAug true "energy" (EScale (1 # 4) (EEins "mnlj,ijba,lkcd,cdmk,bain" [(ESlice (EVar "g_abab") [SV "o"; SV "o"; SV "o"; SV "o"]); (EVar "l2_abab"); (EVar "l2_abab"); (EVar "t2_abab"); (EVar "t2_abab")]));
   (*L225*) SAug true "energy" (EScale (1 # 4) (EEins "nmjl,ijba,kldc,dckm,bain" [(ESlice (EVar "g_bbbb") [SV "o"; SV "o"; SV "o"; SV "o"]); (EVar "l2_abab"); (EVar "l2_bbbb"); (EVar "t2_bbbb"); (EVar "t2_abab")]));
   (*L228*) SAug true "energy" (EScale (1 # 4) (EEins "mnlj,ijab,kldc,dckm,abin" [(ESlice (EVar "g_abab") [SV "o"; SV "o"; SV "o"; SV "o"]); (EVar "l2_abab"); (EVar "l2_aaaa"); (EVar "t2_aaaa"); (EVar "t2_abab")]));
   (*L231*) SAug true "energy" (EScale (1 # 4) (EEins "nmjl,ijab,kldc,dckm,abin" [(ESlice (EVar "g_bbbb") [SV "o"; SV "o"; SV "o"; SV "o"]); (EVar "l2_abab"); (EVar "l2_abab"); (EVar "t2_abab"); (EVar "t2_abab")]));
   (*L234*) SAug true "energy" (EScale (1 # 4) (EEins "nmjl,ijab,klcd,cdkm,abin" [(ESlice (EVar "g_bbbb") [SV "o"; SV "o"; SV "o"; SV "o"]); (EVar "l2_abab"); (EVar "l2_abab"); (EVar "t2_abab"); (EVar "t2_abab")]));
   (*L237*) SAug true "energy" (EScale (1 # 4) (EEins "mnlj,ijab,lkdc,dcmk,abin" [(ESlice (EVar "g_abab") [SV "o"; SV "o"; SV "o"; SV "o"]); (EVar "l2_abab"); (EVar "l2_abab"); (EVar "t2_abab"); (EVar "t2_abab")]));
   (*L240*) SAug true "energy" (EScale (1 # 4) (EEins "mnlj,ijab,lkcd,cdmk,abin" [(ESlice (EVar "g_abab") [SV "o"; SV "o"; SV "o"; SV "o"]); (EVar "l2_abab"); (EVar "l2_abab"); (EVar "t2_abab"); (EVar "t2_abab")]));
   (*L243*) SAug true "energy" (EScale (1 # 4) (EEins "nmjl,ijab,kldc,dckm,abin" [(ESlice (EVar "g_bbbb") [SV "o"; SV "o"; SV "o"; SV "o"]); (EVar "l2_abab"); (EVar "l2_bbbb"); (EVar "t2_bbbb"); (EVar "t2_abab")]));
   (*L246*) SAug true "energy" (EScale (1 # 4) (EEins "nmjl,jiba,kldc,dckm,bani" [(ESlice (EVar "g_aaaa") [SV "o"; SV "o"; SV "o"; SV "o"]); (EVar "l2_abab"); (EVar "l2_aaaa"); (EVar "t2_aaaa"); (EVar "t2_abab")]));
   (*L249*) SAug true "energy" (EScale (1 # 4) (EEins "nmjl,jiba,kldc,dckm,bani" [(ESlice (EVar "g_abab") [SV "o"; SV "o"; SV "o"; SV "o"]); (EVar "l2_abab"); (EVar "l2_abab"); (EVar "t2_abab"); (EVar "t2_abab")]));
   (*L252*) SAug true "energy" (EScale (1 # 4) (EEins "nmjl,jiba,klcd,cdkm,bani" [(ESlice (EVar "g_abab") [SV "o"; SV "o"; SV "o"; SV "o"]); (EVar "l2_abab"); (EVar "l2_abab"); (EVar "t2_abab"); (EVar "t2_abab")]));
   (*L255*) SAug true "energy" (EScale (1 # 4) (EEins "nmjl,jiba,lkdc,dcmk,bani" [(ESlice (EVar "g_aaaa") [SV "o"; SV "o"; SV "o"; SV "o"]); (EVar "l2_abab"); (EVar "l2_abab"); (EVar "t2_abab"); (EVar "t2_abab")]));
   (*L258*) SAug true "energy" (EScale (1 # 4) (EEins "nmjl,jiba,lkcd,cdmk,bani" [(ESlice (EVar "g_aaaa") [SV "o"; SV "o"; SV "o"; SV "o"]); (EVar "l2_abab"); (EVar "l2_abab"); (EVar "t2_abab"); (EVar "t2_abab")]));
   (*L261*) SAug true "energy" (EScale (1 # 4) (EEins "nmjl,jiba,kldc,dckm,bani" [(ESlice (EVar "g_abab") [SV "o"; SV "o"; SV "o"; SV "o"]); (EVar "l2_abab"); (EVar "l2_bbbb"); (EVar "t2_bbbb"); (EVar "t2_abab")]));
   (*L264*) SAug true "energy" (EScale (1 # 4) (EEins "nmjl,jiab,kldc,dckm,abni" [(ESlice (EVar "g_aaaa") [SV "o"; SV "o"; SV "o"; SV "o"]); (EVar "l2_abab"); (EVar "l2_aaaa"); (EVar "t2_aaaa"); (EVar "t2_abab")]));
   (*L267*) SAug true "energy" (EScale (1 # 4) (EEins "nmjl,jiab,kldc,dckm,abni" [(ESlice (EVar "g_abab") [SV "o"; SV "o"; SV "o"; SV "o"]); (EVar "l2_abab"); (EVar "l2_abab"); (EVar "t2_abab"); (EVar "t2_abab")]));
   (*L270*) SAug true "energy" (EScale (1 # 4) (EEins "nmjl,jiab,klcd,cdkm,abni" [(ESlice (EVar "g_abab") [SV "o"; SV "o"; SV "o"; SV "o"]); (EVar "l2_abab"); (EVar "l2_abab"); (EVar "t2_abab"); (EVar "t2_abab")]));
   (*L273*) SAug true "energy" (EScale (1 # 4) (EEins "nmjl,jiab,lkdc,dcmk,abni" [(ESlice (EVar "g_aaaa") [SV "o"; SV "o"; SV "o"; SV "o"]); (EVar "l2_abab"); (EVar "l2_abab"); (EVar "t2_abab"); (EVar "t2_abab")]));
   (*L276*) SAug true "energy" (EScale (1 # 4) (EEins "nmjl,jiab,lkcd,cdmk,abni" [(ESlice (EVar "g_aaaa") [SV "o"; SV "o"; SV "o"; SV "o"]); (EVar "l2_abab"); (EVar "l2_abab"); (EVar "t2_abab"); (EVar "t2_abab")]));
   (*L279*) SAug true "energy" (EScale (1 # 4) (EEins "nmjl,jiab,kldc,dckm,abni" [(ESlice (EVar "g_abab") [SV "o"; SV "o"; SV "o"; SV "o"]); (EVar "l2_abab"); (EVar "l2_bbbb"); (EVar "t2_bbbb"); (EVar "t2_abab")]));
   (*L282*) SAug true "energy" (EScale (1 # 4) (EEins "mnlj,ijba,kldc,dckm,bain" [(ESlice (EVar "g_abab") [SV "o"; SV "o"; SV "o"; SV "o"]); (EVar "l2_bbbb"); (EVar "l2_aaaa"); (EVar "t2_aaaa"); (EVar "t2_bbbb")]));
   (*L285*) SAug true "energy" (EScale (1 # 4) (EEins "nmjl,ijba,kldc,dckm,bain" [(ESlice (EVar "g_bbbb") [SV "o"; SV "o"; SV "o"; SV "o"]); (EVar "l2_bbbb"); (EVar "l2_abab"); (EVar "t2_abab"); (EVar "t2_bbbb")]));
   (*L288*) SAug true "energy" (EScale (1 # 4) (EEins "nmjl,ijba,klcd,cdkm,bain" [(ESlice (EVar "g_bbbb") [SV "o"; SV "o"; SV "o"; SV "o"]); (EVar "l2_bbbb"); (EVar "l2_abab"); (EVar "t2_abab"); (EVar "t2_bbbb")]));
   (*L291*) SAug true "energy" (EScale (1 # 4) (EEins "mnlj,ijba,lkdc,dcmk,bain" [(ESlice (EVar "g_abab") [SV "o"; SV "o"; SV "o"; SV "o"]); (EVar "l2_bbbb"); (EVar "l2_abab"); (EVar "t2_abab"); (EVar "t2_bbbb")]));
   (*L294*) SAug true "energy" (EScale (1 # 4) (EEins "mnlj,ijba,lkcd,cdmk,bain" [(ESlice (EVar "g_abab") [SV "o"; SV "o"; SV "o"; SV "o"]); (EVar "l2_bbbb"); (EVar "l2_abab"); (EVar "t2_abab"); (EVar "t2_bbbb")]));
   (*L297*) SAug true "energy" (EScale (1 # 4) (EEins "nmjl,ijba,kldc,dckm,bain" [(ESlice (EVar "g_bbbb") [SV "o"; SV "o"; SV "o"; SV "o"]); (EVar "l2_bbbb"); (EVar "l2_bbbb"); (EVar "t2_bbbb"); (EVar "t2_bbbb")]));
   (*L300*) SAug true "energy" (EScale (-1 # 4) (EEins "nmjl,ijba,kldc,dcim,bakn" [(ESlice (EVar "g_aaaa") [SV "o"; SV "o"; SV "o"; SV "o"]); (EVar "l2_aaaa"); (EVar "l2_aaaa"); (EVar "t2_aaaa"); (EVar "t2_aaaa")]));
   (*L303*) SAug true "energy" (EScale (-1 # 4) (EEins "nmjl,ijba,kldc,dcim,bakn" [(ESlice (EVar "g_abab") [SV "o"; SV "o"; SV "o"; SV "o"]); (EVar "l2_aaaa"); (EVar "l2_abab"); (EVar "t2_abab"); (EVar "t2_aaaa")]));
   (*L306*) SAug true "energy" (EScale (-1 # 4) (EEins "nmjl,ijba,klcd,cdim,bakn" [(ESlice (EVar "g_abab") [SV "o"; SV "o"; SV "o"; SV "o"]); (EVar "l2_aaaa"); (EVar "l2_abab"); (EVar "t2_abab"); (EVar "t2_aaaa")]));
   (*L309*) SAug true "energy" (EScale (-1 # 4) (EEins "mnlj,ijba,kldc,dcim,bakn" [(ESlice (EVar "g_abab") [SV "o"; SV "o"; SV "o"; SV "o"]); (EVar "l2_abab"); (EVar "l2_aaaa"); (EVar "t2_aaaa"); (EVar "t2_abab")]));
   (*L312*) SAug true "energy" (EScale (-1 # 4) (EEins "nmjl,ijba,kldc,dcim,bakn" [(ESlice (EVar "g_bbbb") [SV "o"; SV "o"; SV "o"; SV "o"]); (EVar "l2_abab"); (EVar "l2_abab"); (EVar "t2_abab"); (EVar "t2_abab")]));
   (*L315*) SAug true "energy" (EScale (-1 # 4) (EEins "nmjl,ijba,klcd,cdim,bakn" [(ESlice (EVar "g_bbbb") [SV "o"; SV "o"; SV "o"; SV "o"]); (EVar "l2_abab"); (EVar "l2_abab"); (EVar "t2_abab"); (EVar "t2_abab")]));
   (*L318*) SAug true "energy" (EScale (1 # 4) (EEins "nmlj,ijba,lkdc,dcim,bank" [(ESlice (EVar "g_abab") [SV "o"; SV "o"; SV "o"; SV "o"]); (EVar "l2_abab"); (EVar "l2_abab"); (EVar "t2_abab"); (EVar "t2_abab")]));
   (*L321*) SAug true "energy" (EScale (1 # 4) (EEins "nmlj,ijba,lkcd,cdim,bank" [(ESlice (EVar "g_abab") [SV "o"; SV "o"; SV "o"; SV "o"]); (EVar "l2_abab"); (EVar "l2_abab"); (EVar "t2_abab"); (EVar "t2_abab")]));
   (*L324*) SAug true "energy" (EScale (-1 # 4) (EEins "mnlj,ijab,kldc,dcim,abkn" [(ESlice (EVar "g_abab") [SV "o"; SV "o"; SV "o"; SV "o"]); (EVar "l2_abab"); (EVar "l2_aaaa"); (EVar "t2_aaaa"); (EVar "t2_abab")]));
   (*L327*) SAug true "energy" (EScale (-1 # 4) (EEins "nmjl,ijab,kldc,dcim,abkn" [(ESlice (EVar "g_bbbb") [SV "o"; SV "o"; SV "o"; SV "o"]); (EVar "l2_abab"); (EVar "l2_abab"); (EVar "t2_abab"); (EVar "t2_abab")]));
   (*L330*) SAug true "energy" (EScale (-1 # 4) (EEins "nmjl,ijab,klcd,cdim,abkn" [(ESlice (EVar "g_bbbb") [SV "o"; SV "o"; SV "o"; SV "o"]); (EVar "l2_abab"); (EVar "l2_abab"); (EVar "t2_abab"); (EVar "t2_abab")]));
   (*L333*) SAug true "energy" (EScale (1 # 4) (EEins "nmlj,ijab,lkdc,dcim,abnk" [(ESlice (EVar "g_abab") [SV "o"; SV "o"; SV "o"; SV "o"]); (EVar "l2_abab"); (EVar "l2_abab"); (EVar "t2_abab"); (EVar "t2_abab")]));
   (*L336*) SAug true "energy" (EScale (1 # 4) (EEins "nmlj,ijab,lkcd,cdim,abnk" [(ESlice (EVar "g_abab") [SV "o"; SV "o"; SV "o"; SV "o"]); (EVar "l2_abab"); (EVar "l2_abab"); (EVar "t2_abab"); (EVar "t2_abab")]));
   (*L339*) SAug true "energy" (EScale (1 # 4) (EEins "mnjl,jiba,kldc,dcmi,bakn" [(ESlice (EVar "g_abab") [SV "o"; SV "o"; SV "o"; SV "o"]); (EVar "l2_abab"); (EVar "l2_abab"); (EVar "t2_abab"); (EVar "t2_abab")]));
   (*L342*) SAug true "energy" (EScale (1 # 4) (EEins "mnjl,jiba,klcd,cdmi,bakn" [(ESlice (EVar "g_abab") [SV "o"; SV "o"; SV "o"; SV "o"]); (EVar "l2_abab"); (EVar "l2_abab"); (EVar "t2_abab"); (EVar "t2_abab")]));
   (*L345*) SAug true "energy" (EScale (-1 # 4) (EEins "nmjl,jiba,lkdc,dcmi,bank" [(ESlice (EVar "g_aaaa") [SV "o"; SV "o"; SV "o"; SV "o"]); (EVar "l2_abab"); (EVar "l2_abab"); (EVar "t2_abab"); (EVar "t2_abab")]));
   (*L348*) SAug true "energy" (EScale (-1 # 4) (EEins "nmjl,jiba,lkcd,cdmi,bank" [(ESlice (EVar "g_aaaa") [SV "o"; SV "o"; SV "o"; SV "o"]); (EVar "l2_abab"); (EVar "l2_abab"); (EVar "t2_abab"); (EVar "t2_abab")]));
   (*L351*) SAug true "energy" (EScale (-1 # 4) (EEins "nmjl,jiba,kldc,dcim,bank" [(ESlice (EVar "g_abab") [SV "o"; SV "o"; SV "o"; SV "o"]); (EVar "l2_abab"); (EVar "l2_bbbb"); (EVar "t2_bbbb"); (EVar "t2_abab")]));
   (*L354*) SAug true "energy" (EScale (1 # 4) (EEins "mnjl,jiab,kldc,dcmi,abkn" [(ESlice (EVar "g_abab") [SV "o"; SV "o"; SV "o"; SV "o"]); (EVar "l2_abab"); (EVar "l2_abab"); (EVar "t2_abab"); (EVar "t2_abab")]));
   (*L357*) SAug true "energy" (EScale (1 # 4) (EEins "mnjl,jiab,klcd,cdmi,abkn" [(ESlice (EVar "g_abab") [SV "o"; SV "o"; SV "o"; SV "o"]); (EVar "l2_abab"); (EVar "l2_abab"); (EVar "t2_abab"); (EVar "t2_abab")]));
   (*L360*) SAug true "energy" (EScale (-1 # 4) (EEins "nmjl,jiab,lkdc,dcmi,abnk" [(ESlice (EVar "g_aaaa") [SV "o"; SV "o"; SV "o"; SV "o"]); (EVar "l2_abab"); (EVar "l2_abab"); (EVar "t2_abab"); (EVar "t2_abab")]));
   (*L363*) SAug true "energy" (EScale (-1 # 4) (EEins "nmjl,jiab,lkcd,cdmi,abnk" [(ESlice (EVar "g_aaaa") [SV "o"; SV "o"; SV "o"; SV "o"]); (EVar "l2_abab"); (EVar "l2_abab"); (EVar "t2_abab"); (EVar "t2_abab")]));
   (*L366*) SAug true "energy" (EScale (-1 # 4) (EEins "nmjl,jiab,kldc,dcim,abnk" [(ESlice (EVar "g_abab") [SV "o"; SV "o"; SV "o"; SV "o"]); (EVar "l2_abab"); (EVar "l2_bbbb"); (EVar "t2_bbbb"); (EVar "t2_abab")]));
   (*L369*) SAug true "energy" (EScale (-1 # 4) (EEins "mnlj,ijba,lkdc,dcmi,bakn" [(ESlice (EVar "g_abab") [SV "o"; SV "o"; SV "o"; SV "o"]); (EVar "l2_bbbb"); (EVar "l2_abab"); (EVar "t2_abab"); (EVar "t2_bbbb")]));
   (*L372*) SAug true "energy" (EScale (-1 # 4) (EEins "mnlj,ijba,lkcd,cdmi,bakn" [(ESlice (EVar "g_abab") [SV "o"; SV "o"; SV "o"; SV "o"]); (EVar "l2_bbbb"); (EVar "l2_abab"); (EVar "t2_abab"); (EVar "t2_bbbb")]));
   (*L375*) SAug true "energy" (EScale (-1 # 4) (EEins "nmjl,ijba,kldc,dcim,bakn" [(ESlice (EVar "g_bbbb") [SV "o"; SV "o"; SV "o"; SV "o"]); (EVar "l2_bbbb"); (EVar "l2_bbbb"); (EVar "t2_bbbb"); (EVar "t2_bbbb")]));
   (*L378*) SAug true "energy" (EScale (-1 # 2) (EEins "nmjl,ijba,kldc,dbkm,cain" [(ESlice (EVar "g_aaaa") [SV "o"; SV "o"; SV "o"; SV "o"]); (EVar "l2_aaaa"); (EVar "l2_aaaa"); (EVar "t2_aaaa"); (EVar "t2_aaaa")]));
   (*L381*) SAug true "energy" (EScale (-1 # 2) (EEins "mnjl,ijba,kldc,dbkm,acin" [(ESlice (EVar "g_abab") [SV "o"; SV "o"; SV "o"; SV "o"]); (EVar "l2_aaaa"); (EVar "l2_abab"); (EVar "t2_aaaa"); (EVar "t2_abab")]));
   (*L384*) SAug true "energy" (EScale (-1 # 2) (EEins "nmjl,ijba,klcd,bdkm,cain" [(ESlice (EVar "g_abab") [SV "o"; SV "o"; SV "o"; SV "o"]); (EVar "l2_aaaa"); (EVar "l2_abab"); (EVar "t2_abab"); (EVar "t2_aaaa")]));
   (*L387*) SAug true "energy" (EScale (-1 # 2) (EEins "nmjl,ijba,lkcd,bdmk,cain" [(ESlice (EVar "g_aaaa") [SV "o"; SV "o"; SV "o"; SV "o"]); (EVar "l2_aaaa"); (EVar "l2_abab"); (EVar "t2_abab"); (EVar "t2_aaaa")]));
   (*L390*) SAug true "energy" (EScale (-1 # 2) (EEins "mnjl,ijba,kldc,bdmk,acin" [(ESlice (EVar "g_abab") [SV "o"; SV "o"; SV "o"; SV "o"]); (EVar "l2_aaaa"); (EVar "l2_bbbb"); (EVar "t2_abab"); (EVar "t2_abab")]));
   (*L393*) SAug true "energy" (EScale (-1 # 2) (EEins "mnlj,ijba,kldc,dbkm,cain" [(ESlice (EVar "g_abab") [SV "o"; SV "o"; SV "o"; SV "o"]); (EVar "l2_abab"); (EVar "l2_aaaa"); (EVar "t2_aaaa"); (EVar "t2_abab")]));
   (*L396*) SAug true "energy" (EScale (-1 # 2) (EEins "nmjl,ijba,klcd,bdkm,cain" [(ESlice (EVar "g_bbbb") [SV "o"; SV "o"; SV "o"; SV "o"]); (EVar "l2_abab"); (EVar "l2_abab"); (EVar "t2_abab"); (EVar "t2_abab")]));
   (*L399*) SAug true "energy" (EScale (-1 # 2) (EEins "mnlj,ijba,lkcd,bdmk,cain" [(ESlice (EVar "g_abab") [SV "o"; SV "o"; SV "o"; SV "o"]); (EVar "l2_abab"); (EVar "l2_abab"); (EVar "t2_abab"); (EVar "t2_abab")]));
   (*L402*) SAug true "energy" (EScale (-1 # 2) (EEins "nmlj,ijab,kldc,dbkm,cain" [(ESlice (EVar "g_abab") [SV "o"; SV "o"; SV "o"; SV "o"]); (EVar "l2_abab"); (EVar "l2_aaaa"); (EVar "t2_abab"); (EVar "t2_aaaa")]));
   (*L405*) SAug true "energy" (EScale (-1 # 2) (EEins "nmjl,ijab,kldc,dbkm,acin" [(ESlice (EVar "g_bbbb") [SV "o"; SV "o"; SV "o"; SV "o"]); (EVar "l2_abab"); (EVar "l2_abab"); (EVar "t2_abab"); (EVar "t2_abab")]));
   (*L408*) SAug true "energy" (EScale (-1 # 2) (EEins "mnlj,ijab,lkdc,dbmk,acin" [(ESlice (EVar "g_abab") [SV "o"; SV "o"; SV "o"; SV "o"]); (EVar "l2_abab"); (EVar "l2_abab"); (EVar "t2_abab"); (EVar "t2_abab")]));
   (*L411*) SAug true "energy" (EScale (-1 # 2) (EEins "nmlj,ijab,lkcd,dbkm,cain" [(ESlice (EVar "g_abab") [SV "o"; SV "o"; SV "o"; SV "o"]); (EVar "l2_abab"); (EVar "l2_abab"); (EVar "t2_bbbb"); (EVar "t2_aaaa")]));
   (*L414*) SAug true "energy" (EScale (-1 # 2) (EEins "nmjl,ijab,kldc,dbkm,acin" [(ESlice (EVar "g_bbbb") [SV "o"; SV "o"; SV "o"; SV "o"]); (EVar "l2_abab"); (EVar "l2_bbbb"); (EVar "t2_bbbb"); (EVar "t2_abab")]));
   (*L417*) SAug true "energy" (EScale (-1 # 2) (EEins "nmjl,jiba,kldc,dbkm,cani" [(ESlice (EVar "g_aaaa") [SV "o"; SV "o"; SV "o"; SV "o"]); (EVar "l2_abab"); (EVar "l2_aaaa"); (EVar "t2_aaaa"); (EVar "t2_abab")]));
   (*L420*) SAug true "energy" (EScale (-1 # 2) (EEins "mnjl,jiba,kldc,dbkm,cain" [(ESlice (EVar "g_abab") [SV "o"; SV "o"; SV "o"; SV "o"]); (EVar "l2_abab"); (EVar "l2_abab"); (EVar "t2_aaaa"); (EVar "t2_bbbb")]));
   (*L423*) SAug true "energy" (EScale (-1 # 2) (EEins "nmjl,jiba,klcd,bdkm,cani" [(ESlice (EVar "g_abab") [SV "o"; SV "o"; SV "o"; SV "o"]); (EVar "l2_abab"); (EVar "l2_abab"); (EVar "t2_abab"); (EVar "t2_abab")]));
   (*L426*) SAug true "energy" (EScale (-1 # 2) (EEins "nmjl,jiba,lkcd,bdmk,cani" [(ESlice (EVar "g_aaaa") [SV "o"; SV "o"; SV "o"; SV "o"]); (EVar "l2_abab"); (EVar "l2_abab"); (EVar "t2_abab"); (EVar "t2_abab")]));
   (*L429*) SAug true "energy" (EScale (-1 # 2) (EEins "mnjl,jiba,kldc,bdmk,cain" [(ESlice (EVar "g_abab") [SV "o"; SV "o"; SV "o"; SV "o"]); (EVar "l2_abab"); (EVar "l2_bbbb"); (EVar "t2_abab"); (EVar "t2_bbbb")]));
   (*L432*) SAug true "energy" (EScale (-1 # 2) (EEins "nmjl,jiab,kldc,dbkm,acni" [(ESlice (EVar "g_abab") [SV "o"; SV "o"; SV "o"; SV "o"]); (EVar "l2_abab"); (EVar "l2_abab"); (EVar "t2_abab"); (EVar "t2_abab")]));
   (*L435*) SAug true "energy" (EScale (-1 # 2) (EEins "nmjl,jiab,lkdc,dbmk,acni" [(ESlice (EVar "g_aaaa") [SV "o"; SV "o"; SV "o"; SV "o"]); (EVar "l2_abab"); (EVar "l2_abab"); (EVar "t2_abab"); (EVar "t2_abab")]));
   (*L438*) SAug true "energy" (EScale (-1 # 2) (EEins "nmjl,jiab,kldc,dbkm,acni" [(ESlice (EVar "g_abab") [SV "o"; SV "o"; SV "o"; SV "o"]); (EVar "l2_abab"); (EVar "l2_bbbb"); (EVar "t2_bbbb"); (EVar "t2_abab")]));
   (*L441*) SAug true "energy" (EScale (-1 # 2) (EEins "nmlj,ijba,kldc,dbkm,cani" [(ESlice (EVar "g_abab") [SV "o"; SV "o"; SV "o"; SV "o"]); (EVar "l2_bbbb"); (EVar "l2_aaaa"); (EVar "t2_abab"); (EVar "t2_abab")]));
   (*L444*) SAug true "energy" (EScale (-1 # 2) (EEins "nmjl,ijba,kldc,dbkm,cain" [(ESlice (EVar "g_bbbb") [SV "o"; SV "o"; SV "o"; SV "o"]); (EVar "l2_bbbb"); (EVar "l2_abab"); (EVar "t2_abab"); (EVar "t2_bbbb")]));
   (*L447*) SAug true "energy" (EScale (-1 # 2) (EEins "mnlj,ijba,lkdc,dbmk,cain" [(ESlice (EVar "g_abab") [SV "o"; SV "o"; SV "o"; SV "o"]); (EVar "l2_bbbb"); (EVar "l2_abab"); (EVar "t2_abab"); (EVar "t2_bbbb")]));
   (*L450*) SAug true "energy" (EScale (-1 # 2) (EEins "nmlj,ijba,lkcd,dbkm,cani" [(ESlice (EVar "g_abab") [SV "o"; SV "o"; SV "o"; SV "o"]); (EVar "l2_bbbb"); (EVar "l2_abab"); (EVar "t2_bbbb"); (EVar "t2_abab")]));
   (*L453*) SAug true "energy" (EScale (-1 # 2) (EEins "nmjl,ijba,kldc,dbkm,cain" [(ESlice (EVar "g_bbbb") [SV "o"; SV "o"; SV "o"; SV "o"]); (EVar "l2_bbbb"); (EVar "l2_bbbb"); (EVar "t2_bbbb"); (EVar "t2_bbbb")]));
   (*L456*) SAug true "energy" (EScale (1 # 2) (EEins "nmjl,ijba,kldc,dbim,cakn" [(ESlice (EVar "g_aaaa") [SV "o"; SV "o"; SV "o"; SV "o"]); (EVar "l2_aaaa"); (EVar "l2_aaaa"); (EVar "t2_aaaa"); (EVar "t2_aaaa")]));
   (*L459*) SAug true "energy" (EScale (1 # 2) (EEins "mnjl,ijba,kldc,dbim,ackn" [(ESlice (EVar "g_abab") [SV "o"; SV "o"; SV "o"; SV "o"]); (EVar "l2_aaaa"); (EVar "l2_abab"); (EVar "t2_aaaa"); (EVar "t2_abab")]));
   (*L462*) SAug true "energy" (EScale (1 # 2) (EEins "nmjl,ijba,klcd,bdim,cakn" [(ESlice (EVar "g_abab") [SV "o"; SV "o"; SV "o"; SV "o"]); (EVar "l2_aaaa"); (EVar "l2_abab"); (EVar "t2_abab"); (EVar "t2_aaaa")]));
   (*L465*) SAug true "energy" (EScale (-1 # 2) (EEins "nmjl,ijba,lkdc,dbim,acnk" [(ESlice (EVar "g_aaaa") [SV "o"; SV "o"; SV "o"; SV "o"]); (EVar "l2_aaaa"); (EVar "l2_abab"); (EVar "t2_aaaa"); (EVar "t2_abab")]));
   (*L468*) SAug true "energy" (EScale (-1 # 2) (EEins "nmjl,ijba,kldc,bdim,acnk" [(ESlice (EVar "g_abab") [SV "o"; SV "o"; SV "o"; SV "o"]); (EVar "l2_aaaa"); (EVar "l2_bbbb"); (EVar "t2_abab"); (EVar "t2_abab")]));
   (*L471*) SAug true "energy" (EScale (1 # 2) (EEins "mnlj,ijba,kldc,dbim,cakn" [(ESlice (EVar "g_abab") [SV "o"; SV "o"; SV "o"; SV "o"]); (EVar "l2_abab"); (EVar "l2_aaaa"); (EVar "t2_aaaa"); (EVar "t2_abab")]));
   (*L474*) SAug true "energy" (EScale (1 # 2) (EEins "nmjl,ijba,klcd,bdim,cakn" [(ESlice (EVar "g_bbbb") [SV "o"; SV "o"; SV "o"; SV "o"]); (EVar "l2_abab"); (EVar "l2_abab"); (EVar "t2_abab"); (EVar "t2_abab")]));
   (*L477*) SAug true "energy" (EScale (-1 # 2) (EEins "mnlj,ijba,lkdc,dbim,cakn" [(ESlice (EVar "g_abab") [SV "o"; SV "o"; SV "o"; SV "o"]); (EVar "l2_abab"); (EVar "l2_abab"); (EVar "t2_aaaa"); (EVar "t2_bbbb")]));
   (*L480*) SAug true "energy" (EScale (-1 # 2) (EEins "nmlj,ijba,lkcd,bdim,cank" [(ESlice (EVar "g_abab") [SV "o"; SV "o"; SV "o"; SV "o"]); (EVar "l2_abab"); (EVar "l2_abab"); (EVar "t2_abab"); (EVar "t2_abab")]));
   (*L483*) SAug true "energy" (EScale (-1 # 2) (EEins "nmjl,ijba,kldc,bdim,cakn" [(ESlice (EVar "g_bbbb") [SV "o"; SV "o"; SV "o"; SV "o"]); (EVar "l2_abab"); (EVar "l2_bbbb"); (EVar "t2_abab"); (EVar "t2_bbbb")]));
   (*L486*) SAug true "energy" (EScale (1 # 2) (EEins "nmlj,ijab,kldc,dbim,cakn" [(ESlice (EVar "g_abab") [SV "o"; SV "o"; SV "o"; SV "o"]); (EVar "l2_abab"); (EVar "l2_aaaa"); (EVar "t2_abab"); (EVar "t2_aaaa")]));
   (*L489*) SAug true "energy" (EScale (1 # 2) (EEins "nmjl,ijab,kldc,dbim,ackn" [(ESlice (EVar "g_bbbb") [SV "o"; SV "o"; SV "o"; SV "o"]); (EVar "l2_abab"); (EVar "l2_abab"); (EVar "t2_abab"); (EVar "t2_abab")]));
   (*L492*) SAug true "energy" (EScale (-1 # 2) (EEins "nmlj,ijab,lkdc,dbim,acnk" [(ESlice (EVar "g_abab") [SV "o"; SV "o"; SV "o"; SV "o"]); (EVar "l2_abab"); (EVar "l2_abab"); (EVar "t2_abab"); (EVar "t2_abab")]));
   (*L495*) SAug true "energy" (EScale (-1 # 2) (EEins "mnjl,jiba,klcd,bdmi,cakn" [(ESlice (EVar "g_abab") [SV "o"; SV "o"; SV "o"; SV "o"]); (EVar "l2_abab"); (EVar "l2_abab"); (EVar "t2_abab"); (EVar "t2_abab")]));
   (*L498*) SAug true "energy" (EScale (1 # 2) (EEins "nmjl,jiba,lkcd,bdmi,cank" [(ESlice (EVar "g_aaaa") [SV "o"; SV "o"; SV "o"; SV "o"]); (EVar "l2_abab"); (EVar "l2_abab"); (EVar "t2_abab"); (EVar "t2_abab")]));
   (*L501*) SAug true "energy" (EScale (1 # 2) (EEins "mnjl,jiba,kldc,bdmi,cakn" [(ESlice (EVar "g_abab") [SV "o"; SV "o"; SV "o"; SV "o"]); (EVar "l2_abab"); (EVar "l2_bbbb"); (EVar "t2_abab"); (EVar "t2_bbbb")]));
   (*L504*) SAug true "energy" (EScale (-1 # 2) (EEins "nmjl,jiab,kldc,dbmi,cakn" [(ESlice (EVar "g_aaaa") [SV "o"; SV "o"; SV "o"; SV "o"]); (EVar "l2_abab"); (EVar "l2_aaaa"); (EVar "t2_abab"); (EVar "t2_aaaa")]));
   (*L507*) SAug true "energy" (EScale (-1 # 2) (EEins "mnjl,jiab,kldc,dbmi,ackn" [(ESlice (EVar "g_abab") [SV "o"; SV "o"; SV "o"; SV "o"]); (EVar "l2_abab"); (EVar "l2_abab"); (EVar "t2_abab"); (EVar "t2_abab")]));
   (*L510*) SAug true "energy" (EScale (-1 # 2) (EEins "nmjl,jiab,klcd,dbim,cakn" [(ESlice (EVar "g_abab") [SV "o"; SV "o"; SV "o"; SV "o"]); (EVar "l2_abab"); (EVar "l2_abab"); (EVar "t2_bbbb"); (EVar "t2_aaaa")]));
   (*L513*) SAug true "energy" (EScale (1 # 2) (EEins "nmjl,jiab,lkdc,dbmi,acnk" [(ESlice (EVar "g_aaaa") [SV "o"; SV "o"; SV "o"; SV "o"]); (EVar "l2_abab"); (EVar "l2_abab"); (EVar "t2_abab"); (EVar "t2_abab")]));
   (*L516*) SAug true "energy" (EScale (1 # 2) (EEins "nmjl,jiab,kldc,dbim,acnk" [(ESlice (EVar "g_abab") [SV "o"; SV "o"; SV "o"; SV "o"]); (EVar "l2_abab"); (EVar "l2_bbbb"); (EVar "t2_bbbb"); (EVar "t2_abab")]));
   (*L519*) SAug true "energy" (EScale (-1 # 2) (EEins "mnlj,ijba,kldc,dbmi,cakn" [(ESlice (EVar "g_abab") [SV "o"; SV "o"; SV "o"; SV "o"]); (EVar "l2_bbbb"); (EVar "l2_aaaa"); (EVar "t2_abab"); (EVar "t2_abab")]));
   (*L522*) SAug true "energy" (EScale (-1 # 2) (EEins "nmjl,ijba,klcd,dbim,cakn" [(ESlice (EVar "g_bbbb") [SV "o"; SV "o"; SV "o"; SV "o"]); (EVar "l2_bbbb"); (EVar "l2_abab"); (EVar "t2_bbbb"); (EVar "t2_abab")]));
   (*L525*) SAug true "energy" (EScale (1 # 2) (EEins "mnlj,ijba,lkdc,dbmi,cakn" [(ESlice (EVar "g_abab") [SV "o"; SV "o"; SV "o"; SV "o"]); (EVar "l2_bbbb"); (EVar "l2_abab"); (EVar "t2_abab"); (EVar "t2_bbbb")]));
   (*L528*) SAug true "energy" (EScale (1 # 2) (EEins "nmlj,ijba,lkcd,dbim,cank" [(ESlice (EVar "g_abab") [SV "o"; SV "o"; SV "o"; SV "o"]); (EVar "l2_bbbb"); (EVar "l2_abab"); (EVar "t2_bbbb"); (EVar "t2_abab")]));
   (*L531*) SAug true "energy" (EScale (1 # 2) (EEins "nmjl,ijba,kldc,dbim,cakn" [(ESlice (EVar "g_bbbb") [SV "o"; SV "o"; SV "o"; SV "o"]); (EVar "l2_bbbb"); (EVar "l2_bbbb"); (EVar "t2_bbbb"); (EVar "t2_bbbb")]));
   (*L534*) SAug true "energy" (EScale (-1 # 8) (EEins "nmij,ijba,kldc,dclm,bakn" [(ESlice (EVar "g_aaaa") [SV "o"; SV "o"; SV "o"; SV "o"]); (EVar "l2_aaaa"); (EVar "l2_aaaa"); (EVar "t2_aaaa"); (EVar "t2_aaaa")]));
   (*L537*) SAug true "energy" (EScale (1 # 8) (EEins "nmij,ijba,kldc,dcml,bakn" [(ESlice (EVar "g_aaaa") [SV "o"; SV "o"; SV "o"; SV "o"]); (EVar "l2_aaaa"); (EVar "l2_abab"); (EVar "t2_abab"); (EVar "t2_aaaa")]));
   (*L540*) SAug true "energy" (EScale (1 # 8) (EEins "nmij,ijba,klcd,cdml,bakn" [(ESlice (EVar "g_aaaa") [SV "o"; SV "o"; SV "o"; SV "o"]); (EVar "l2_aaaa"); (EVar "l2_abab"); (EVar "t2_abab"); (EVar "t2_aaaa")]));
   (*L543*) SAug true "energy" (EScale (1 # 8) (EEins "mnij,ijba,kldc,dclm,bakn" [(ESlice (EVar "g_abab") [SV "o"; SV "o"; SV "o"; SV "o"]); (EVar "l2_abab"); (EVar "l2_aaaa"); (EVar "t2_aaaa"); (EVar "t2_abab")]));
   (*L546*) SAug true "energy" (EScale (-1 # 8) (EEins "mnij,ijba,kldc,dcml,bakn" [(ESlice (EVar "g_abab") [SV "o"; SV "o"; SV "o"; SV "o"]); (EVar "l2_abab"); (EVar "l2_abab"); (EVar "t2_abab"); (EVar "t2_abab")]));
   (*L549*) SAug true "energy" (EScale (-1 # 8) (EEins "mnij,ijba,klcd,cdml,bakn" [(ESlice (EVar "g_abab") [SV "o"; SV "o"; SV "o"; SV "o"]); (EVar "l2_abab"); (EVar "l2_abab"); (EVar "t2_abab"); (EVar "t2_abab")]));
   (*L552*) SAug true "energy" (EScale (-1 # 8) (EEins "nmij,ijba,lkdc,dclm,bank" [(ESlice (EVar "g_abab") [SV "o"; SV "o"; SV "o"; SV "o"]); (EVar "l2_abab"); (EVar "l2_abab"); (EVar "t2_abab"); (EVar "t2_abab")]));
   (*L555*) SAug true "energy" (EScale (-1 # 8) (EEins "nmij,ijba,lkcd,cdlm,bank" [(ESlice (EVar "g_abab") [SV "o"; SV "o"; SV "o"; SV "o"]); (EVar "l2_abab"); (EVar "l2_abab"); (EVar "t2_abab"); (EVar "t2_abab")]));
   (*L558*) SAug true "energy" (EScale (1 # 8) (EEins "nmij,ijba,kldc,dclm,bank" [(ESlice (EVar "g_abab") [SV "o"; SV "o"; SV "o"; SV "o"]); (EVar "l2_abab"); (EVar "l2_bbbb"); (EVar "t2_bbbb"); (EVar "t2_abab")]));
   (*L561*) SAug true "energy" (EScale (1 # 8) (EEins "mnij,ijab,kldc,dclm,abkn" [(ESlice (EVar "g_abab") [SV "o"; SV "o"; SV "o"; SV "o"]); (EVar "l2_abab"); (EVar "l2_aaaa"); (EVar "t2_aaaa"); (EVar "t2_abab")]));
   (*L564*) SAug true "energy" (EScale (-1 # 8) (EEins "mnij,ijab,kldc,dcml,abkn" [(ESlice (EVar "g_abab") [SV "o"; SV "o"; SV "o"; SV "o"]); (EVar "l2_abab"); (EVar "l2_abab"); (EVar "t2_abab"); (EVar "t2_abab")]));
   (*L567*) SAug true "energy" (EScale (-1 # 8) (EEins "mnij,ijab,klcd,cdml,abkn" [(ESlice (EVar "g_abab") [SV "o"; SV "o"; SV "o"; SV "o"]); (EVar "l2_abab"); (EVar "l2_abab"); (EVar "t2_abab"); (EVar "t2_abab")]));
   (*L570*) SAug true "energy" (EScale (-1 # 8) (EEins "nmij,ijab,lkdc,dclm,abnk" [(ESlice (EVar "g_abab") [SV "o"; SV "o"; SV "o"; SV "o"]); (EVar "l2_abab"); (EVar "l2_abab"); (EVar "t2_abab"); (EVar "t2_abab")]));
   (*L573*) SAug true "energy" (EScale (-1 # 8) (EEins "nmij,ijab,lkcd,cdlm,abnk" [(ESlice (EVar "g_abab") [SV "o"; SV "o"; SV "o"; SV "o"]); (EVar "l2_abab"); (EVar "l2_abab"); (EVar "t2_abab"); (EVar "t2_abab")]));
   (*L576*) SAug true "energy" (EScale (1 # 8) (EEins "nmij,ijab,kldc,dclm,abnk" [(ESlice (EVar "g_abab") [SV "o"; SV "o"; SV "o"; SV "o"]); (EVar "l2_abab"); (EVar "l2_bbbb"); (EVar "t2_bbbb"); (EVar "t2_abab")]));
   (*L579*) SAug true "energy" (EScale (1 # 8) (EEins "mnji,jiba,kldc,dclm,bakn" [(ESlice (EVar "g_abab") [SV "o"; SV "o"; SV "o"; SV "o"]); (EVar "l2_abab"); (EVar "l2_aaaa"); (EVar "t2_aaaa"); (EVar "t2_abab")]));
   (*L582*) SAug true "energy" (EScale (-1 # 8) (EEins "mnji,jiba,kldc,dcml,bakn" [(ESlice (EVar "g_abab") [SV "o"; SV "o"; SV "o"; SV "o"]); (EVar "l2_abab"); (EVar "l2_abab"); (EVar "t2_abab"); (EVar "t2_abab")]));
   (*L585*) SAug true "energy" (EScale (-1 # 8) (EEins "mnji,jiba,klcd,cdml,bakn" [(ESlice (EVar "g_abab") [SV "o"; SV "o"; SV "o"; SV "o"]); (EVar "l2_abab"); (EVar "l2_abab"); (EVar "t2_abab"); (EVar "t2_abab")]));
   (*L588*) SAug true "energy" (EScale (-1 # 8) (EEins "nmji,jiba,lkdc,dclm,bank" [(ESlice (EVar "g_abab") [SV "o"; SV "o"; SV "o"; SV "o"]); (EVar "l2_abab"); (EVar "l2_abab"); (EVar "t2_abab"); (EVar "t2_abab")]));
   (*L591*) SAug true "energy" (EScale (-1 # 8) (EEins "nmji,jiba,lkcd,cdlm,bank" [(ESlice (EVar "g_abab") [SV "o"; SV "o"; SV "o"; SV "o"]); (EVar "l2_abab"); (EVar "l2_abab"); (EVar "t2_abab"); (EVar "t2_abab")]));
   (*L594*) SAug true "energy" (EScale (1 # 8) (EEins "nmji,jiba,kldc,dclm,bank" [(ESlice (EVar "g_abab") [SV "o"; SV "o"; SV "o"; SV "o"]); (EVar "l2_abab"); (EVar "l2_bbbb"); (EVar "t2_bbbb"); (EVar "t2_abab")]));
   (*L597*) SAug true "energy" (EScale (1 # 8) (EEins "mnji,jiab,kldc,dclm,abkn" [(ESlice (EVar "g_abab") [SV "o"; SV "o"; SV "o"; SV "o"]); (EVar "l2_abab"); (EVar "l2_aaaa"); (EVar "t2_aaaa"); (EVar "t2_abab")]));
   (*L600*) SAug true "energy" (EScale (-1 # 8) (EEins "mnji,jiab,kldc,dcml,abkn" [(ESlice (EVar "g_abab") [SV "o"; SV "o"; SV "o"; SV "o"]); (EVar "l2_abab"); (EVar "l2_abab"); (EVar "t2_abab"); (EVar "t2_abab")]));
   (*L603*) SAug true "energy" (EScale (-1 # 8) (EEins "mnji,jiab,klcd,cdml,abkn" [(ESlice (EVar "g_abab") [SV "o"; SV "o"; SV "o"; SV "o"]); (EVar "l2_abab"); (EVar "l2_abab"); (EVar "t2_abab"); (EVar "t2_abab")]));
   (*L606*) SAug true "energy" (EScale (-1 # 8) (EEins "nmji,jiab,lkdc,dclm,abnk" [(ESlice (EVar "g_abab") [SV "o"; SV "o"; SV "o"; SV "o"]); (EVar "l2_abab"); (EVar "l2_abab"); (EVar "t2_abab"); (EVar "t2_abab")]));
   (*L609*) SAug true "energy" (EScale (-1 # 8) (EEins "nmji,jiab,lkcd,cdlm,abnk" [(ESlice (EVar "g_abab") [SV "o"; SV "o"; SV "o"; SV "o"]); (EVar "l2_abab"); (EVar "l2_abab"); (EVar "t2_abab"); (EVar "t2_abab")]));
   (*L612*) SAug true "energy" (EScale (1 # 8) (EEins "nmji,jiab,kldc,dclm,abnk" [(ESlice (EVar "g_abab") [SV "o"; SV "o"; SV "o"; SV "o"]); (EVar "l2_abab"); (EVar "l2_bbbb"); (EVar "t2_bbbb"); (EVar "t2_abab")]));
   (*L615*) SAug true "energy" (EScale (1 # 8) (EEins "nmij,ijba,lkdc,dclm,bakn" [(ESlice (EVar "g_bbbb") [SV "o"; SV "o"; SV "o"; SV "o"]); (EVar "l2_bbbb"); (EVar "l2_abab"); (EVar "t2_abab"); (EVar "t2_bbbb")]));
   (*L618*) SAug true "energy" (EScale (1 # 8) (EEins "nmij,ijba,lkcd,cdlm,bakn" [(ESlice (EVar "g_bbbb") [SV "o"; SV "o"; SV "o"; SV "o"]); (EVar "l2_bbbb"); (EVar "l2_abab"); (EVar "t2_abab"); (EVar "t2_bbbb")]));
   (*L621*) SAug true "energy" (EScale (-1 # 8) (EEins "nmij,ijba,kldc,dclm,bakn" [(ESlice (EVar "g_bbbb") [SV "o"; SV "o"; SV "o"; SV "o"]); (EVar "l2_bbbb"); (EVar "l2_bbbb"); (EVar "t2_bbbb"); (EVar "t2_bbbb")]));
   (*L624*) SAug true "energy" (EScale (1 # 4) (EEins "nmij,ijba,kldc,dblm,cakn" [(ESlice (EVar "g_aaaa") [SV "o"; SV "o"; SV "o"; SV "o"]); (EVar "l2_aaaa"); (EVar "l2_aaaa"); (EVar "t2_aaaa"); (EVar "t2_aaaa")]));
   (*L627*) SAug true "energy" (EScale (-1 # 4) (EEins "nmij,ijba,klcd,bdml,cakn" [(ESlice (EVar "g_aaaa") [SV "o"; SV "o"; SV "o"; SV "o"]); (EVar "l2_aaaa"); (EVar "l2_abab"); (EVar "t2_abab"); (EVar "t2_aaaa")]));
   (*L630*) SAug true "energy" (EScale (-1 # 4) (EEins "nmij,ijba,lkdc,dblm,acnk" [(ESlice (EVar "g_aaaa") [SV "o"; SV "o"; SV "o"; SV "o"]); (EVar "l2_aaaa"); (EVar "l2_abab"); (EVar "t2_aaaa"); (EVar "t2_abab")]));
   (*L633*) SAug true "energy" (EScale (1 # 4) (EEins "nmij,ijba,kldc,bdml,acnk" [(ESlice (EVar "g_aaaa") [SV "o"; SV "o"; SV "o"; SV "o"]); (EVar "l2_aaaa"); (EVar "l2_bbbb"); (EVar "t2_abab"); (EVar "t2_abab")]));
   (*L636*) SAug true "energy" (EScale (-1 # 4) (EEins "mnij,ijba,kldc,dblm,cakn" [(ESlice (EVar "g_abab") [SV "o"; SV "o"; SV "o"; SV "o"]); (EVar "l2_abab"); (EVar "l2_aaaa"); (EVar "t2_aaaa"); (EVar "t2_abab")]));
   (*L639*) SAug true "energy" (EScale (1 # 4) (EEins "mnij,ijba,klcd,bdml,cakn" [(ESlice (EVar "g_abab") [SV "o"; SV "o"; SV "o"; SV "o"]); (EVar "l2_abab"); (EVar "l2_abab"); (EVar "t2_abab"); (EVar "t2_abab")]));
   (*L642*) SAug true "energy" (EScale (1 # 4) (EEins "mnij,ijba,lkdc,dblm,cakn" [(ESlice (EVar "g_abab") [SV "o"; SV "o"; SV "o"; SV "o"]); (EVar "l2_abab"); (EVar "l2_abab"); (EVar "t2_aaaa"); (EVar "t2_bbbb")]));
   (*L645*) SAug true "energy" (EScale (1 # 4) (EEins "nmij,ijba,lkcd,bdlm,cank" [(ESlice (EVar "g_abab") [SV "o"; SV "o"; SV "o"; SV "o"]); (EVar "l2_abab"); (EVar "l2_abab"); (EVar "t2_abab"); (EVar "t2_abab")]));
   (*L648*) SAug true "energy" (EScale (-1 # 4) (EEins "mnij,ijba,kldc,bdml,cakn" [(ESlice (EVar "g_abab") [SV "o"; SV "o"; SV "o"; SV "o"]); (EVar "l2_abab"); (EVar "l2_bbbb"); (EVar "t2_abab"); (EVar "t2_bbbb")]));
   (*L651*) SAug true "energy" (EScale (-1 # 4) (EEins "nmij,ijab,kldc,dblm,cakn" [(ESlice (EVar "g_abab") [SV "o"; SV "o"; SV "o"; SV "o"]); (EVar "l2_abab"); (EVar "l2_aaaa"); (EVar "t2_abab"); (EVar "t2_aaaa")]));
   (*L654*) SAug true "energy" (EScale (1 # 4) (EEins "mnij,ijab,kldc,dbml,ackn" [(ESlice (EVar "g_abab") [SV "o"; SV "o"; SV "o"; SV "o"]); (EVar "l2_abab"); (EVar "l2_abab"); (EVar "t2_abab"); (EVar "t2_abab")]));
   (*L657*) SAug true "energy" (EScale (1 # 4) (EEins "nmij,ijab,klcd,dblm,cakn" [(ESlice (EVar "g_abab") [SV "o"; SV "o"; SV "o"; SV "o"]); (EVar "l2_abab"); (EVar "l2_abab"); (EVar "t2_bbbb"); (EVar "t2_aaaa")]));
   (*L660*) SAug true "energy" (EScale (1 # 4) (EEins "nmij,ijab,lkdc,dblm,acnk" [(ESlice (EVar "g_abab") [SV "o"; SV "o"; SV "o"; SV "o"]); (EVar "l2_abab"); (EVar "l2_abab"); (EVar "t2_abab"); (EVar "t2_abab")]));
   (*L663*) SAug true "energy" (EScale (-1 # 4) (EEins "nmij,ijab,kldc,dblm,acnk" [(ESlice (EVar "g_abab") [SV "o"; SV "o"; SV "o"; SV "o"]); (EVar "l2_abab"); (EVar "l2_bbbb"); (EVar "t2_bbbb"); (EVar "t2_abab")]));
   (*L666*) SAug true "energy" (EScale (-1 # 4) (EEins "mnji,jiba,kldc,dblm,cakn" [(ESlice (EVar "g_abab") [SV "o"; SV "o"; SV "o"; SV "o"]); (EVar "l2_abab"); (EVar "l2_aaaa"); (EVar "t2_aaaa"); (EVar "t2_abab")]));
   (*L669*) SAug true "energy" (EScale (1 # 4) (EEins "mnji,jiba,klcd,bdml,cakn" [(ESlice (EVar "g_abab") [SV "o"; SV "o"; SV "o"; SV "o"]); (EVar "l2_abab"); (EVar "l2_abab"); (EVar "t2_abab"); (EVar "t2_abab")]));
   (*L672*) SAug true "energy" (EScale (1 # 4) (EEins "mnji,jiba,lkdc,dblm,cakn" [(ESlice (EVar "g_abab") [SV "o"; SV "o"; SV "o"; SV "o"]); (EVar "l2_abab"); (EVar "l2_abab"); (EVar "t2_aaaa"); (EVar "t2_bbbb")]));
   (*L675*) SAug true "energy" (EScale (1 # 4) (EEins "nmji,jiba,lkcd,bdlm,cank" [(ESlice (EVar "g_abab") [SV "o"; SV "o"; SV "o"; SV "o"]); (EVar "l2_abab"); (EVar "l2_abab"); (EVar "t2_abab"); (EVar "t2_abab")]));
   (*L678*) SAug true "energy" (EScale (-1 # 4) (EEins "mnji,jiba,kldc,bdml,cakn" [(ESlice (EVar "g_abab") [SV "o"; SV "o"; SV "o"; SV "o"]); (EVar "l2_abab"); (EVar "l2_bbbb"); (EVar "t2_abab"); (EVar "t2_bbbb")]));
   (*L681*) SAug true "energy" (EScale (-1 # 4) (EEins "nmji,jiab,kldc,dblm,cakn" [(ESlice (EVar "g_abab") [SV "o"; SV "o"; SV "o"; SV "o"]); (EVar "l2_abab"); (EVar "l2_aaaa"); (EVar "t2_abab"); (EVar "t2_aaaa")]));
   (*L684*) SAug true "energy" (EScale (1 # 4) (EEins "mnji,jiab,kldc,dbml,ackn" [(ESlice (EVar "g_abab") [SV "o"; SV "o"; SV "o"; SV "o"]); (EVar "l2_abab"); (EVar "l2_abab"); (EVar "t2_abab"); (EVar "t2_abab")]));
   (*L687*) SAug true "energy" (EScale (1 # 4) (EEins "nmji,jiab,klcd,dblm,cakn" [(ESlice (EVar "g_abab") [SV "o"; SV "o"; SV "o"; SV "o"]); (EVar "l2_abab"); (EVar "l2_abab"); (EVar "t2_bbbb"); (EVar "t2_aaaa")]));
   (*L690*) SAug true "energy" (EScale (1 # 4) (EEins "nmji,jiab,lkdc,dblm,acnk" [(ESlice (EVar "g_abab") [SV "o"; SV "o"; SV "o"; SV "o"]); (EVar "l2_abab"); (EVar "l2_abab"); (EVar "t2_abab"); (EVar "t2_abab")]));
   (*L693*) SAug true "energy" (EScale (-1 # 4) (EEins "nmji,jiab,kldc,dblm,acnk" [(ESlice (EVar "g_abab") [SV "o"; SV "o"; SV "o"; SV "o"]); (EVar "l2_abab"); (EVar "l2_bbbb"); (EVar "t2_bbbb"); (EVar "t2_abab")]));
   (*L696*) SAug true "energy" (EScale (1 # 4) (EEins "nmij,ijba,kldc,dblm,cakn" [(ESlice (EVar "g_bbbb") [SV "o"; SV "o"; SV "o"; SV "o"]); (EVar "l2_bbbb"); (EVar "l2_aaaa"); (EVar "t2_abab"); (EVar "t2_abab")]));
   (*L699*) SAug true "energy" (EScale (-1 # 4) (EEins "nmij,ijba,klcd,dblm,cakn" [(ESlice (EVar "g_bbbb") [SV "o"; SV "o"; SV "o"; SV "o"]); (EVar "l2_bbbb"); (EVar "l2_abab"); (EVar "t2_bbbb"); (EVar "t2_abab")]));
   (*L702*) SAug true "energy" (EScale (-1 # 4) (EEins "nmij,ijba,lkdc,dblm,cakn" [(ESlice (EVar "g_bbbb") [SV "o"; SV "o"; SV "o"; SV "o"]); (EVar "l2_bbbb"); (EVar "l2_abab"); (EVar "t2_abab"); (EVar "t2_bbbb")]));
   (*L705*) SAug true "energy" (EScale (1 # 4) (EEins "nmij,ijba,kldc,dblm,cakn" [(ESlice (EVar "g_bbbb") [SV "o"; SV "o"; SV "o"; SV "o"]); (EVar "l2_bbbb"); (EVar "l2_bbbb"); (EVar "t2_bbbb"); (EVar "t2_bbbb")]));
   (*L708*) SAug true "energy" (EScale (1 # 2) (EEins "mdel,ijba,kldc,ecjk,baim" [(ESlice (EVar "g_aaaa") [SV "o"; SV "v"; SV "v"; SV "o"]); (EVar "l2_aaaa"); (EVar "l2_aaaa"); (EVar "t2_aaaa"); (EVar "t2_aaaa")]));
   (*L711*) SAug true "energy" (EScale (-1 # 2) (EEins "mdel,ijba,klcd,ecjk,baim" [(ESlice (EVar "g_abab") [SV "o"; SV "v"; SV "v"; SV "o"]); (EVar "l2_aaaa"); (EVar "l2_abab"); (EVar "t2_aaaa"); (EVar "t2_aaaa")]));
   (*L714*) SAug true "energy" (EScale (-1 # 2) (EEins "mdel,ijba,lkdc,ecjk,baim" [(ESlice (EVar "g_aaaa") [SV "o"; SV "v"; SV "v"; SV "o"]); (EVar "l2_aaaa"); (EVar "l2_abab"); (EVar "t2_abab"); (EVar "t2_aaaa")]));
   (*L717*) SAug true "energy" (EScale (1 # 2) (EEins "mdle,ijba,lkcd,cejk,baim" [(ESlice (EVar "g_abab") [SV "o"; SV "v"; SV "o"; SV "v"]); (EVar "l2_aaaa"); (EVar "l2_abab"); (EVar "t2_abab"); (EVar "t2_aaaa")]));
   (*L720*) SAug true "energy" (EScale (1 # 2) (EEins "mdel,ijba,kldc,ecjk,baim" [(ESlice (EVar "g_abab") [SV "o"; SV "v"; SV "v"; SV "o"]); (EVar "l2_aaaa"); (EVar "l2_bbbb"); (EVar "t2_abab"); (EVar "t2_aaaa")]));
   (*L723*) SAug true "energy" (EScale (1 # 2) (EEins "dmle,ijba,kldc,cekj,baim" [(ESlice (EVar "g_abab") [SV "v"; SV "o"; SV "o"; SV "v"]); (EVar "l2_abab"); (EVar "l2_aaaa"); (EVar "t2_abab"); (EVar "t2_abab")]));
   (*L726*) SAug true "energy" (EScale (1 # 2) (EEins "dmel,ijba,kldc,eckj,baim" [(ESlice (EVar "g_abab") [SV "v"; SV "o"; SV "v"; SV "o"]); (EVar "l2_abab"); (EVar "l2_abab"); (EVar "t2_abab"); (EVar "t2_abab")]));
   (*L729*) SAug true "energy" (EScale (-1 # 2) (EEins "mdel,ijba,klcd,cekj,baim" [(ESlice (EVar "g_bbbb") [SV "o"; SV "v"; SV "v"; SV "o"]); (EVar "l2_abab"); (EVar "l2_abab"); (EVar "t2_abab"); (EVar "t2_abab")]));
   (*L732*) SAug true "energy" (EScale (-1 # 2) (EEins "dmle,ijba,lkdc,ecjk,baim" [(ESlice (EVar "g_abab") [SV "v"; SV "o"; SV "o"; SV "v"]); (EVar "l2_abab"); (EVar "l2_abab"); (EVar "t2_bbbb"); (EVar "t2_abab")]));
   (*L735*) SAug true "energy" (EScale (1 # 2) (EEins "mdel,ijba,kldc,ecjk,baim" [(ESlice (EVar "g_bbbb") [SV "o"; SV "v"; SV "v"; SV "o"]); (EVar "l2_abab"); (EVar "l2_bbbb"); (EVar "t2_bbbb"); (EVar "t2_abab")]));
   (*L738*) SAug true "energy" (EScale (1 # 2) (EEins "dmle,ijab,kldc,cekj,abim" [(ESlice (EVar "g_abab") [SV "v"; SV "o"; SV "o"; SV "v"]); (EVar "l2_abab"); (EVar "l2_aaaa"); (EVar "t2_abab"); (EVar "t2_abab")]));
   (*L741*) SAug true "energy" (EScale (1 # 2) (EEins "dmel,ijab,kldc,eckj,abim" [(ESlice (EVar "g_abab") [SV "v"; SV "o"; SV "v"; SV "o"]); (EVar "l2_abab"); (EVar "l2_abab"); (EVar "t2_abab"); (EVar "t2_abab")]));
   (*L744*) SAug true "energy" (EScale (-1 # 2) (EEins "mdel,ijab,klcd,cekj,abim" [(ESlice (EVar "g_bbbb") [SV "o"; SV "v"; SV "v"; SV "o"]); (EVar "l2_abab"); (EVar "l2_abab"); (EVar "t2_abab"); (EVar "t2_abab")]));
   (*L747*) SAug true "energy" (EScale (-1 # 2) (EEins "dmle,ijab,lkdc,ecjk,abim" [(ESlice (EVar "g_abab") [SV "v"; SV "o"; SV "o"; SV "v"]); (EVar "l2_abab"); (EVar "l2_abab"); (EVar "t2_bbbb"); (EVar "t2_abab")]));
   (*L750*) SAug true "energy" (EScale (1 # 2) (EEins "mdel,ijab,kldc,ecjk,abim" [(ESlice (EVar "g_bbbb") [SV "o"; SV "v"; SV "v"; SV "o"]); (EVar "l2_abab"); (EVar "l2_bbbb"); (EVar "t2_bbbb"); (EVar "t2_abab")]));
   (*L753*) SAug true "energy" (EScale (1 # 2) (EEins "mdel,jiba,kldc,ecjk,bami" [(ESlice (EVar "g_aaaa") [SV "o"; SV "v"; SV "v"; SV "o"]); (EVar "l2_abab"); (EVar "l2_aaaa"); (EVar "t2_aaaa"); (EVar "t2_abab")]));
   (*L756*) SAug true "energy" (EScale (-1 # 2) (EEins "mdel,jiba,klcd,ecjk,bami" [(ESlice (EVar "g_abab") [SV "o"; SV "v"; SV "v"; SV "o"]); (EVar "l2_abab"); (EVar "l2_abab"); (EVar "t2_aaaa"); (EVar "t2_abab")]));
   (*L759*) SAug true "energy" (EScale (-1 # 2) (EEins "mdel,jiba,lkdc,ecjk,bami" [(ESlice (EVar "g_aaaa") [SV "o"; SV "v"; SV "v"; SV "o"]); (EVar "l2_abab"); (EVar "l2_abab"); (EVar "t2_abab"); (EVar "t2_abab")]));
   (*L762*) SAug true "energy" (EScale (1 # 2) (EEins "mdle,jiba,lkcd,cejk,bami" [(ESlice (EVar "g_abab") [SV "o"; SV "v"; SV "o"; SV "v"]); (EVar "l2_abab"); (EVar "l2_abab"); (EVar "t2_abab"); (EVar "t2_abab")]));
   (*L765*) SAug true "energy" (EScale (1 # 2) (EEins "mdel,jiba,kldc,ecjk,bami" [(ESlice (EVar "g_abab") [SV "o"; SV "v"; SV "v"; SV "o"]); (EVar "l2_abab"); (EVar "l2_bbbb"); (EVar "t2_abab"); (EVar "t2_abab")]));
   (*L768*) SAug true "energy" (EScale (1 # 2) (EEins "mdel,jiab,kldc,ecjk,abmi" [(ESlice (EVar "g_aaaa") [SV "o"; SV "v"; SV "v"; SV "o"]); (EVar "l2_abab"); (EVar "l2_aaaa"); (EVar "t2_aaaa"); (EVar "t2_abab")]));
   (*L771*) SAug true "energy" (EScale (-1 # 2) (EEins "mdel,jiab,klcd,ecjk,abmi" [(ESlice (EVar "g_abab") [SV "o"; SV "v"; SV "v"; SV "o"]); (EVar "l2_abab"); (EVar "l2_abab"); (EVar "t2_aaaa"); (EVar "t2_abab")]));
   (*L774*) SAug true "energy" (EScale (-1 # 2) (EEins "mdel,jiab,lkdc,ecjk,abmi" [(ESlice (EVar "g_aaaa") [SV "o"; SV "v"; SV "v"; SV "o"]); (EVar "l2_abab"); (EVar "l2_abab"); (EVar "t2_abab"); (EVar "t2_abab")]));
   (*L777*) SAug true "energy" (EScale (1 # 2) (EEins "mdle,jiab,lkcd,cejk,abmi" [(ESlice (EVar "g_abab") [SV "o"; SV "v"; SV "o"; SV "v"]); (EVar "l2_abab"); (EVar "l2_abab"); (EVar "t2_abab"); (EVar "t2_abab")]));
   (*L780*) SAug true "energy" (EScale (1 # 2) (EEins "mdel,jiab,kldc,ecjk,abmi" [(ESlice (EVar "g_abab") [SV "o"; SV "v"; SV "v"; SV "o"]); (EVar "l2_abab"); (EVar "l2_bbbb"); (EVar "t2_abab"); (EVar "t2_abab")]));
   (*L783*) SAug true "energy" (EScale (1 # 2) (EEins "dmle,ijba,kldc,cekj,baim" [(ESlice (EVar "g_abab") [SV "v"; SV "o"; SV "o"; SV "v"]); (EVar "l2_bbbb"); (EVar "l2_aaaa"); (EVar "t2_abab"); (EVar "t2_bbbb")]));
   (*L786*) SAug true "energy" (EScale (1 # 2) (EEins "dmel,ijba,kldc,eckj,baim" [(ESlice (EVar "g_abab") [SV "v"; SV "o"; SV "v"; SV "o"]); (EVar "l2_bbbb"); (EVar "l2_abab"); (EVar "t2_abab"); (EVar "t2_bbbb")]));
   (*L789*) SAug true "energy" (EScale (-1 # 2) (EEins "mdel,ijba,klcd,cekj,baim" [(ESlice (EVar "g_bbbb") [SV "o"; SV "v"; SV "v"; SV "o"]); (EVar "l2_bbbb"); (EVar "l2_abab"); (EVar "t2_abab"); (EVar "t2_bbbb")]));
   (*L792*) SAug true "energy" (EScale (-1 # 2) (EEins "dmle,ijba,lkdc,ecjk,baim" [(ESlice (EVar "g_abab") [SV "v"; SV "o"; SV "o"; SV "v"]); (EVar "l2_bbbb"); (EVar "l2_abab"); (EVar "t2_bbbb"); (EVar "t2_bbbb")]));
   (*L795*) SAug true "energy" (EScale (1 # 2) (EEins "mdel,ijba,kldc,ecjk,baim" [(ESlice (EVar "g_bbbb") [SV "o"; SV "v"; SV "v"; SV "o"]); (EVar "l2_bbbb"); (EVar "l2_bbbb"); (EVar "t2_bbbb"); (EVar "t2_bbbb")]));
   (*L798*) SAug true "energy" (EScale (1 # 4) (EEins "mdel,ijba,kldc,ecij,bakm" [(ESlice (EVar "g_aaaa") [SV "o"; SV "v"; SV "v"; SV "o"]); (EVar "l2_aaaa"); (EVar "l2_aaaa"); (EVar "t2_aaaa"); (EVar "t2_aaaa")]));
   (*L801*) SAug true "energy" (EScale (-1 # 4) (EEins "mdel,ijba,klcd,ecij,bakm" [(ESlice (EVar "g_abab") [SV "o"; SV "v"; SV "v"; SV "o"]); (EVar "l2_aaaa"); (EVar "l2_abab"); (EVar "t2_aaaa"); (EVar "t2_aaaa")]));
   (*L804*) SAug true "energy" (EScale (-1 # 4) (EEins "dmle,ijba,kldc,ceij,bakm" [(ESlice (EVar "g_abab") [SV "v"; SV "o"; SV "o"; SV "v"]); (EVar "l2_abab"); (EVar "l2_aaaa"); (EVar "t2_abab"); (EVar "t2_abab")]));
   (*L807*) SAug true "energy" (EScale (-1 # 4) (EEins "dmel,ijba,kldc,ecij,bakm" [(ESlice (EVar "g_abab") [SV "v"; SV "o"; SV "v"; SV "o"]); (EVar "l2_abab"); (EVar "l2_abab"); (EVar "t2_abab"); (EVar "t2_abab")]));
   (*L810*) SAug true "energy" (EScale (1 # 4) (EEins "mdel,ijba,klcd,ceij,bakm" [(ESlice (EVar "g_bbbb") [SV "o"; SV "v"; SV "v"; SV "o"]); (EVar "l2_abab"); (EVar "l2_abab"); (EVar "t2_abab"); (EVar "t2_abab")]));
   (*L813*) SAug true "energy" (EScale (1 # 4) (EEins "mdel,ijba,lkdc,ecij,bamk" [(ESlice (EVar "g_aaaa") [SV "o"; SV "v"; SV "v"; SV "o"]); (EVar "l2_abab"); (EVar "l2_abab"); (EVar "t2_abab"); (EVar "t2_abab")]));
   (*L816*) SAug true "energy" (EScale (-1 # 4) (EEins "mdle,ijba,lkcd,ceij,bamk" [(ESlice (EVar "g_abab") [SV "o"; SV "v"; SV "o"; SV "v"]); (EVar "l2_abab"); (EVar "l2_abab"); (EVar "t2_abab"); (EVar "t2_abab")]));
   (*L819*) SAug true "energy" (EScale (-1 # 4) (EEins "mdel,ijba,kldc,ecij,bamk" [(ESlice (EVar "g_abab") [SV "o"; SV "v"; SV "v"; SV "o"]); (EVar "l2_abab"); (EVar "l2_bbbb"); (EVar "t2_abab"); (EVar "t2_abab")]));
   (*L822*) SAug true "energy" (EScale (-1 # 4) (EEins "dmle,ijab,kldc,ceij,abkm" [(ESlice (EVar "g_abab") [SV "v"; SV "o"; SV "o"; SV "v"]); (EVar "l2_abab"); (EVar "l2_aaaa"); (EVar "t2_abab"); (EVar "t2_abab")]));
   (*L825*) SAug true "energy" (EScale (-1 # 4) (EEins "dmel,ijab,kldc,ecij,abkm" [(ESlice (EVar "g_abab") [SV "v"; SV "o"; SV "v"; SV "o"]); (EVar "l2_abab"); (EVar "l2_abab"); (EVar "t2_abab"); (EVar "t2_abab")]));
   (*L828*) SAug true "energy" (EScale (1 # 4) (EEins "mdel,ijab,klcd,ceij,abkm" [(ESlice (EVar "g_bbbb") [SV "o"; SV "v"; SV "v"; SV "o"]); (EVar "l2_abab"); (EVar "l2_abab"); (EVar "t2_abab"); (EVar "t2_abab")]));
   (*L831*) SAug true "energy" (EScale (1 # 4) (EEins "mdel,ijab,lkdc,ecij,abmk" [(ESlice (EVar "g_aaaa") [SV "o"; SV "v"; SV "v"; SV "o"]); (EVar "l2_abab"); (EVar "l2_abab"); (EVar "t2_abab"); (EVar "t2_abab")]));
   (*L834*) SAug true "energy" (EScale (-1 # 4) (EEins "mdle,ijab,lkcd,ceij,abmk" [(ESlice (EVar "g_abab") [SV "o"; SV "v"; SV "o"; SV "v"]); (EVar "l2_abab"); (EVar "l2_abab"); (EVar "t2_abab"); (EVar "t2_abab")]));
   (*L837*) SAug true "energy" (EScale (-1 # 4) (EEins "mdel,ijab,kldc,ecij,abmk" [(ESlice (EVar "g_abab") [SV "o"; SV "v"; SV "v"; SV "o"]); (EVar "l2_abab"); (EVar "l2_bbbb"); (EVar "t2_abab"); (EVar "t2_abab")]));
   (*L840*) SAug true "energy" (EScale (-1 # 4) (EEins "dmle,jiba,kldc,ceji,bakm" [(ESlice (EVar "g_abab") [SV "v"; SV "o"; SV "o"; SV "v"]); (EVar "l2_abab"); (EVar "l2_aaaa"); (EVar "t2_abab"); (EVar "t2_abab")]));
   (*L843*) SAug true "energy" (EScale (-1 # 4) (EEins "dmel,jiba,kldc,ecji,bakm" [(ESlice (EVar "g_abab") [SV "v"; SV "o"; SV "v"; SV "o"]); (EVar "l2_abab"); (EVar "l2_abab"); (EVar "t2_abab"); (EVar "t2_abab")]));
   (*L846*) SAug true "energy" (EScale (1 # 4) (EEins "mdel,jiba,klcd,ceji,bakm" [(ESlice (EVar "g_bbbb") [SV "o"; SV "v"; SV "v"; SV "o"]); (EVar "l2_abab"); (EVar "l2_abab"); (EVar "t2_abab"); (EVar "t2_abab")]));
   (*L849*) SAug true "energy" (EScale (1 # 4) (EEins "mdel,jiba,lkdc,ecji,bamk" [(ESlice (EVar "g_aaaa") [SV "o"; SV "v"; SV "v"; SV "o"]); (EVar "l2_abab"); (EVar "l2_abab"); (EVar "t2_abab"); (EVar "t2_abab")]));
   (*L852*) SAug true "energy" (EScale (-1 # 4) (EEins "mdle,jiba,lkcd,ceji,bamk" [(ESlice (EVar "g_abab") [SV "o"; SV "v"; SV "o"; SV "v"]); (EVar "l2_abab"); (EVar "l2_abab"); (EVar "t2_abab"); (EVar "t2_abab")]));
   (*L855*) SAug true "energy" (EScale (-1 # 4) (EEins "mdel,jiba,kldc,ecji,bamk" [(ESlice (EVar "g_abab") [SV "o"; SV "v"; SV "v"; SV "o"]); (EVar "l2_abab"); (EVar "l2_bbbb"); (EVar "t2_abab"); (EVar "t2_abab")]));
   (*L858*) SAug true "energy" (EScale (-1 # 4) (EEins "dmle,jiab,kldc,ceji,abkm" [(ESlice (EVar "g_abab") [SV "v"; SV "o"; SV "o"; SV "v"]); (EVar "l2_abab"); (EVar "l2_aaaa"); (EVar "t2_abab"); (EVar "t2_abab")]));
   (*L861*) SAug true "energy" (EScale (-1 # 4) (EEins "dmel,jiab,kldc,ecji,abkm" [(ESlice (EVar "g_abab") [SV "v"; SV "o"; SV "v"; SV "o"]); (EVar "l2_abab"); (EVar "l2_abab"); (EVar "t2_abab"); (EVar "t2_abab")]));
   (*L864*) SAug true "energy" (EScale (1 # 4) (EEins "mdel,jiab,klcd,ceji,abkm" [(ESlice (EVar "g_bbbb") [SV "o"; SV "v"; SV "v"; SV "o"]); (EVar "l2_abab"); (EVar "l2_abab"); (EVar "t2_abab"); (EVar "t2_abab")]));
   (*L867*) SAug true "energy" (EScale (1 # 4) (EEins "mdel,jiab,lkdc,ecji,abmk" [(ESlice (EVar "g_aaaa") [SV "o"; SV "v"; SV "v"; SV "o"]); (EVar "l2_abab"); (EVar "l2_abab"); (EVar "t2_abab"); (EVar "t2_abab")]));
   (*L870*) SAug true "energy" (EScale (-1 # 4) (EEins "mdle,jiab,lkcd,ceji,abmk" [(ESlice (EVar "g_abab") [SV "o"; SV "v"; SV "o"; SV "v"]); (EVar "l2_abab"); (EVar "l2_abab"); (EVar "t2_abab"); (EVar "t2_abab")]));
   (*L873*) SAug true "energy" (EScale (-1 # 4) (EEins "mdel,jiab,kldc,ecji,abmk" [(ESlice (EVar "g_abab") [SV "o"; SV "v"; SV "v"; SV "o"]); (EVar "l2_abab"); (EVar "l2_bbbb"); (EVar "t2_abab"); (EVar "t2_abab")]));
   (*L876*) SAug true "energy" (EScale (-1 # 4) (EEins "dmle,ijba,lkdc,ecij,bakm" [(ESlice (EVar "g_abab") [SV "v"; SV "o"; SV "o"; SV "v"]); (EVar "l2_bbbb"); (EVar "l2_abab"); (EVar "t2_bbbb"); (EVar "t2_bbbb")]));
   (*L879*) SAug true "energy" (EScale (1 # 4) (EEins "mdel,ijba,kldc,ecij,bakm" [(ESlice (EVar "g_bbbb") [SV "o"; SV "v"; SV "v"; SV "o"]); (EVar "l2_bbbb"); (EVar "l2_bbbb"); (EVar "t2_bbbb"); (EVar "t2_bbbb")]));
   (*L882*) SAug true "energy" (EScale (-1 # 1) (EEins "mdel,ijba,kldc,ebjk,caim" [(ESlice (EVar "g_aaaa") [SV "o"; SV "v"; SV "v"; SV "o"]); (EVar "l2_aaaa"); (EVar "l2_aaaa"); (EVar "t2_aaaa"); (EVar "t2_aaaa")]));
   (*L885*) SAug true "energy" (EScale (-1 # 1) (EEins "dmel,ijba,kldc,ebjk,acim" [(ESlice (EVar "g_abab") [SV "v"; SV "o"; SV "v"; SV "o"]); (EVar "l2_aaaa"); (EVar "l2_abab"); (EVar "t2_aaaa"); (EVar "t2_abab")]));
   (*L888*) SAug true "energy" (EScale (1 # 1) (EEins "mdel,ijba,klcd,ebjk,caim" [(ESlice (EVar "g_abab") [SV "o"; SV "v"; SV "v"; SV "o"]); (EVar "l2_aaaa"); (EVar "l2_abab"); (EVar "t2_aaaa"); (EVar "t2_aaaa")]));
   (*L891*) SAug true "energy" (EScale (1 # 1) (EEins "dmle,ijba,lkdc,bejk,acim" [(ESlice (EVar "g_abab") [SV "v"; SV "o"; SV "o"; SV "v"]); (EVar "l2_aaaa"); (EVar "l2_abab"); (EVar "t2_abab"); (EVar "t2_abab")]));
   (*L894*) SAug true "energy" (EScale (-1 # 1) (EEins "mdle,ijba,lkcd,bejk,caim" [(ESlice (EVar "g_abab") [SV "o"; SV "v"; SV "o"; SV "v"]); (EVar "l2_aaaa"); (EVar "l2_abab"); (EVar "t2_abab"); (EVar "t2_aaaa")]));
   (*L897*) SAug true "energy" (EScale (-1 # 1) (EEins "mdel,ijba,kldc,bejk,acim" [(ESlice (EVar "g_bbbb") [SV "o"; SV "v"; SV "v"; SV "o"]); (EVar "l2_aaaa"); (EVar "l2_bbbb"); (EVar "t2_abab"); (EVar "t2_abab")]));
   (*L900*) SAug true "energy" (EScale (-1 # 1) (EEins "dmle,ijba,kldc,bekj,caim" [(ESlice (EVar "g_abab") [SV "v"; SV "o"; SV "o"; SV "v"]); (EVar "l2_abab"); (EVar "l2_aaaa"); (EVar "t2_abab"); (EVar "t2_abab")]));
   (*L903*) SAug true "energy" (EScale (1 # 1) (EEins "mdel,ijba,klcd,bekj,caim" [(ESlice (EVar "g_bbbb") [SV "o"; SV "v"; SV "v"; SV "o"]); (EVar "l2_abab"); (EVar "l2_abab"); (EVar "t2_abab"); (EVar "t2_abab")]));
   (*L906*) SAug true "energy" (EScale (-1 # 1) (EEins "mdel,ijab,kldc,ebkj,caim" [(ESlice (EVar "g_aaaa") [SV "o"; SV "v"; SV "v"; SV "o"]); (EVar "l2_abab"); (EVar "l2_aaaa"); (EVar "t2_abab"); (EVar "t2_aaaa")]));
   (*L909*) SAug true "energy" (EScale (-1 # 1) (EEins "dmel,ijab,kldc,ebkj,acim" [(ESlice (EVar "g_abab") [SV "v"; SV "o"; SV "v"; SV "o"]); (EVar "l2_abab"); (EVar "l2_abab"); (EVar "t2_abab"); (EVar "t2_abab")]));
   (*L912*) SAug true "energy" (EScale (1 # 1) (EEins "mdel,ijab,klcd,ebkj,caim" [(ESlice (EVar "g_abab") [SV "o"; SV "v"; SV "v"; SV "o"]); (EVar "l2_abab"); (EVar "l2_abab"); (EVar "t2_abab"); (EVar "t2_aaaa")]));
   (*L915*) SAug true "energy" (EScale (1 # 1) (EEins "dmle,ijab,lkdc,ebjk,acim" [(ESlice (EVar "g_abab") [SV "v"; SV "o"; SV "o"; SV "v"]); (EVar "l2_abab"); (EVar "l2_abab"); (EVar "t2_bbbb"); (EVar "t2_abab")]));
   (*L918*) SAug true "energy" (EScale (-1 # 1) (EEins "mdle,ijab,lkcd,ebjk,caim" [(ESlice (EVar "g_abab") [SV "o"; SV "v"; SV "o"; SV "v"]); (EVar "l2_abab"); (EVar "l2_abab"); (EVar "t2_bbbb"); (EVar "t2_aaaa")]));
   (*L921*) SAug true "energy" (EScale (-1 # 1) (EEins "mdel,ijab,kldc,ebjk,acim" [(ESlice (EVar "g_bbbb") [SV "o"; SV "v"; SV "v"; SV "o"]); (EVar "l2_abab"); (EVar "l2_bbbb"); (EVar "t2_bbbb"); (EVar "t2_abab")]));
   (*L924*) SAug true "energy" (EScale (-1 # 1) (EEins "mdel,jiba,kldc,ebjk,cami" [(ESlice (EVar "g_aaaa") [SV "o"; SV "v"; SV "v"; SV "o"]); (EVar "l2_abab"); (EVar "l2_aaaa"); (EVar "t2_aaaa"); (EVar "t2_abab")]));
   (*L927*) SAug true "energy" (EScale (-1 # 1) (EEins "dmel,jiba,kldc,ebjk,caim" [(ESlice (EVar "g_abab") [SV "v"; SV "o"; SV "v"; SV "o"]); (EVar "l2_abab"); (EVar "l2_abab"); (EVar "t2_aaaa"); (EVar "t2_bbbb")]));
   (*L930*) SAug true "energy" (EScale (1 # 1) (EEins "mdel,jiba,klcd,ebjk,cami" [(ESlice (EVar "g_abab") [SV "o"; SV "v"; SV "v"; SV "o"]); (EVar "l2_abab"); (EVar "l2_abab"); (EVar "t2_aaaa"); (EVar "t2_abab")]));
   (*L933*) SAug true "energy" (EScale (1 # 1) (EEins "dmle,jiba,lkdc,bejk,caim" [(ESlice (EVar "g_abab") [SV "v"; SV "o"; SV "o"; SV "v"]); (EVar "l2_abab"); (EVar "l2_abab"); (EVar "t2_abab"); (EVar "t2_bbbb")]));
   (*L936*) SAug true "energy" (EScale (-1 # 1) (EEins "mdle,jiba,lkcd,bejk,cami" [(ESlice (EVar "g_abab") [SV "o"; SV "v"; SV "o"; SV "v"]); (EVar "l2_abab"); (EVar "l2_abab"); (EVar "t2_abab"); (EVar "t2_abab")]));
   (*L939*) SAug true "energy" (EScale (-1 # 1) (EEins "mdel,jiba,kldc,bejk,caim" [(ESlice (EVar "g_bbbb") [SV "o"; SV "v"; SV "v"; SV "o"]); (EVar "l2_abab"); (EVar "l2_bbbb"); (EVar "t2_abab"); (EVar "t2_bbbb")]));
   (*L942*) SAug true "energy" (EScale (1 # 1) (EEins "mdel,jiab,lkdc,ebjk,acmi" [(ESlice (EVar "g_aaaa") [SV "o"; SV "v"; SV "v"; SV "o"]); (EVar "l2_abab"); (EVar "l2_abab"); (EVar "t2_abab"); (EVar "t2_abab")]));
   (*L945*) SAug true "energy" (EScale (-1 # 1) (EEins "mdel,jiab,kldc,ebjk,acmi" [(ESlice (EVar "g_abab") [SV "o"; SV "v"; SV "v"; SV "o"]); (EVar "l2_abab"); (EVar "l2_bbbb"); (EVar "t2_abab"); (EVar "t2_abab")]));
   (*L948*) SAug true "energy" (EScale (-1 # 1) (EEins "mdel,ijba,kldc,ebkj,cami" [(ESlice (EVar "g_aaaa") [SV "o"; SV "v"; SV "v"; SV "o"]); (EVar "l2_bbbb"); (EVar "l2_aaaa"); (EVar "t2_abab"); (EVar "t2_abab")]));
   (*L951*) SAug true "energy" (EScale (-1 # 1) (EEins "dmel,ijba,kldc,ebkj,caim" [(ESlice (EVar "g_abab") [SV "v"; SV "o"; SV "v"; SV "o"]); (EVar "l2_bbbb"); (EVar "l2_abab"); (EVar "t2_abab"); (EVar "t2_bbbb")]));
   (*L954*) SAug true "energy" (EScale (1 # 1) (EEins "mdel,ijba,klcd,ebkj,cami" [(ESlice (EVar "g_abab") [SV "o"; SV "v"; SV "v"; SV "o"]); (EVar "l2_bbbb"); (EVar "l2_abab"); (EVar "t2_abab"); (EVar "t2_abab")]));
   (*L957*) SAug true "energy" (EScale (1 # 1) (EEins "dmle,ijba,lkdc,ebjk,caim" [(ESlice (EVar "g_abab") [SV "v"; SV "o"; SV "o"; SV "v"]); (EVar "l2_bbbb"); (EVar "l2_abab"); (EVar "t2_bbbb"); (EVar "t2_bbbb")]));
   (*L960*) SAug true "energy" (EScale (-1 # 1) (EEins "mdle,ijba,lkcd,ebjk,cami" [(ESlice (EVar "g_abab") [SV "o"; SV "v"; SV "o"; SV "v"]); (EVar "l2_bbbb"); (EVar "l2_abab"); (EVar "t2_bbbb"); (EVar "t2_abab")]));
   (*L963*) SAug true "energy" (EScale (-1 # 1) (EEins "mdel,ijba,kldc,ebjk,caim" [(ESlice (EVar "g_bbbb") [SV "o"; SV "v"; SV "v"; SV "o"]); (EVar "l2_bbbb"); (EVar "l2_bbbb"); (EVar "t2_bbbb"); (EVar "t2_bbbb")]));
   (*L966*) SAug true "energy" (EScale (-1 # 2) (EEins "mdel,ijba,kldc,ebij,cakm" [(ESlice (EVar "g_aaaa") [SV "o"; SV "v"; SV "v"; SV "o"]); (EVar "l2_aaaa"); (EVar "l2_aaaa"); (EVar "t2_aaaa"); (EVar "t2_aaaa")]));
   (*L969*) SAug true "energy" (EScale (-1 # 2) (EEins "dmel,ijba,kldc,ebij,ackm" [(ESlice (EVar "g_abab") [SV "v"; SV "o"; SV "v"; SV "o"]); (EVar "l2_aaaa"); (EVar "l2_abab"); (EVar "t2_aaaa"); (EVar "t2_abab")]));
   (*L972*) SAug true "energy" (EScale (1 # 2) (EEins "mdel,ijba,klcd,ebij,cakm" [(ESlice (EVar "g_abab") [SV "o"; SV "v"; SV "v"; SV "o"]); (EVar "l2_aaaa"); (EVar "l2_abab"); (EVar "t2_aaaa"); (EVar "t2_aaaa")]));
   (*L975*) SAug true "energy" (EScale (1 # 2) (EEins "mdel,ijba,lkdc,ebij,acmk" [(ESlice (EVar "g_aaaa") [SV "o"; SV "v"; SV "v"; SV "o"]); (EVar "l2_aaaa"); (EVar "l2_abab"); (EVar "t2_aaaa"); (EVar "t2_abab")]));
   (*L978*) SAug true "energy" (EScale (-1 # 2) (EEins "mdel,ijba,kldc,ebij,acmk" [(ESlice (EVar "g_abab") [SV "o"; SV "v"; SV "v"; SV "o"]); (EVar "l2_aaaa"); (EVar "l2_bbbb"); (EVar "t2_aaaa"); (EVar "t2_abab")]));
   (*L981*) SAug true "energy" (EScale (1 # 2) (EEins "dmle,ijba,kldc,beij,cakm" [(ESlice (EVar "g_abab") [SV "v"; SV "o"; SV "o"; SV "v"]); (EVar "l2_abab"); (EVar "l2_aaaa"); (EVar "t2_abab"); (EVar "t2_abab")]));
   (*L984*) SAug true "energy" (EScale (-1 # 2) (EEins "mdel,ijba,klcd,beij,cakm" [(ESlice (EVar "g_bbbb") [SV "o"; SV "v"; SV "v"; SV "o"]); (EVar "l2_abab"); (EVar "l2_abab"); (EVar "t2_abab"); (EVar "t2_abab")]));
   (*L987*) SAug true "energy" (EScale (-1 # 2) (EEins "dmle,ijba,lkdc,beij,cakm" [(ESlice (EVar "g_abab") [SV "v"; SV "o"; SV "o"; SV "v"]); (EVar "l2_abab"); (EVar "l2_abab"); (EVar "t2_abab"); (EVar "t2_bbbb")]));
   (*L990*) SAug true "energy" (EScale (1 # 2) (EEins "mdle,ijba,lkcd,beij,camk" [(ESlice (EVar "g_abab") [SV "o"; SV "v"; SV "o"; SV "v"]); (EVar "l2_abab"); (EVar "l2_abab"); (EVar "t2_abab"); (EVar "t2_abab")]));
   (*L993*) SAug true "energy" (EScale (1 # 2) (EEins "mdel,ijba,kldc,beij,cakm" [(ESlice (EVar "g_bbbb") [SV "o"; SV "v"; SV "v"; SV "o"]); (EVar "l2_abab"); (EVar "l2_bbbb"); (EVar "t2_abab"); (EVar "t2_bbbb")]));
   (*L996*) SAug true "energy" (EScale (1 # 2) (EEins "mdel,ijab,kldc,ebij,cakm" [(ESlice (EVar "g_aaaa") [SV "o"; SV "v"; SV "v"; SV "o"]); (EVar "l2_abab"); (EVar "l2_aaaa"); (EVar "t2_abab"); (EVar "t2_aaaa")]));
   (*L999*) SAug true "energy" (EScale (1 # 2) (EEins "dmel,ijab,kldc,ebij,ackm" [(ESlice (EVar "g_abab") [SV "v"; SV "o"; SV "v"; SV "o"]); (EVar "l2_abab"); (EVar "l2_abab"); (EVar "t2_abab"); (EVar "t2_abab")]));
   (*L1002*) SAug true "energy" (EScale (-1 # 2) (EEins "mdel,ijab,klcd,ebij,cakm" [(ESlice (EVar "g_abab") [SV "o"; SV "v"; SV "v"; SV "o"]); (EVar "l2_abab"); (EVar "l2_abab"); (EVar "t2_abab"); (EVar "t2_aaaa")]));
   (*L1005*) SAug true "energy" (EScale (-1 # 2) (EEins "mdel,ijab,lkdc,ebij,acmk" [(ESlice (EVar "g_aaaa") [SV "o"; SV "v"; SV "v"; SV "o"]); (EVar "l2_abab"); (EVar "l2_abab"); (EVar "t2_abab"); (EVar "t2_abab")]));
   (*L1008*) SAug true "energy" (EScale (1 # 2) (EEins "mdel,ijab,kldc,ebij,acmk" [(ESlice (EVar "g_abab") [SV "o"; SV "v"; SV "v"; SV "o"]); (EVar "l2_abab"); (EVar "l2_bbbb"); (EVar "t2_abab"); (EVar "t2_abab")]));
   (*L1011*) SAug true "energy" (EScale (1 # 2) (EEins "dmle,jiba,kldc,beji,cakm" [(ESlice (EVar "g_abab") [SV "v"; SV "o"; SV "o"; SV "v"]); (EVar "l2_abab"); (EVar "l2_aaaa"); (EVar "t2_abab"); (EVar "t2_abab")]));
   (*L1014*) SAug true "energy" (EScale (-1 # 2) (EEins "mdel,jiba,klcd,beji,cakm" [(ESlice (EVar "g_bbbb") [SV "o"; SV "v"; SV "v"; SV "o"]); (EVar "l2_abab"); (EVar "l2_abab"); (EVar "t2_abab"); (EVar "t2_abab")]));
   (*L1017*) SAug true "energy" (EScale (-1 # 2) (EEins "dmle,jiba,lkdc,beji,cakm" [(ESlice (EVar "g_abab") [SV "v"; SV "o"; SV "o"; SV "v"]); (EVar "l2_abab"); (EVar "l2_abab"); (EVar "t2_abab"); (EVar "t2_bbbb")]));
   (*L1020*) SAug true "energy" (EScale (1 # 2) (EEins "mdle,jiba,lkcd,beji,camk" [(ESlice (EVar "g_abab") [SV "o"; SV "v"; SV "o"; SV "v"]); (EVar "l2_abab"); (EVar "l2_abab"); (EVar "t2_abab"); (EVar "t2_abab")]));
   (*L1023*) SAug true "energy" (EScale (1 # 2) (EEins "mdel,jiba,kldc,beji,cakm" [(ESlice (EVar "g_bbbb") [SV "o"; SV "v"; SV "v"; SV "o"]); (EVar "l2_abab"); (EVar "l2_bbbb"); (EVar "t2_abab"); (EVar "t2_bbbb")]));
   (*L1026*) SAug true "energy" (EScale (1 # 2) (EEins "mdel,jiab,kldc,ebji,cakm" [(ESlice (EVar "g_aaaa") [SV "o"; SV "v"; SV "v"; SV "o"]); (EVar "l2_abab"); (EVar "l2_aaaa"); (EVar "t2_abab"); (EVar "t2_aaaa")]));
   (*L1029*) SAug true "energy" (EScale (1 # 2) (EEins "dmel,jiab,kldc,ebji,ackm" [(ESlice (EVar "g_abab") [SV "v"; SV "o"; SV "v"; SV "o"]); (EVar "l2_abab"); (EVar "l2_abab"); (EVar "t2_abab"); (EVar "t2_abab")]));
   (*L1032*) SAug true "energy" (EScale (-1 # 2) (EEins "mdel,jiab,klcd,ebji,cakm" [(ESlice (EVar "g_abab") [SV "o"; SV "v"; SV "v"; SV "o"]); (EVar "l2_abab"); (EVar "l2_abab"); (EVar "t2_abab"); (EVar "t2_aaaa")]));
   (*L1035*) SAug true "energy" (EScale (-1 # 2) (EEins "mdel,jiab,lkdc,ebji,acmk" [(ESlice (EVar "g_aaaa") [SV "o"; SV "v"; SV "v"; SV "o"]); (EVar "l2_abab"); (EVar "l2_abab"); (EVar "t2_abab"); (EVar "t2_abab")]));
   (*L1038*) SAug true "energy" (EScale (1 # 2) (EEins "mdel,jiab,kldc,ebji,acmk" [(ESlice (EVar "g_abab") [SV "o"; SV "v"; SV "v"; SV "o"]); (EVar "l2_abab"); (EVar "l2_bbbb"); (EVar "t2_abab"); (EVar "t2_abab")]));
   (*L1041*) SAug true "energy" (EScale (-1 # 2) (EEins "dmle,ijba,kldc,ebij,cakm" [(ESlice (EVar "g_abab") [SV "v"; SV "o"; SV "o"; SV "v"]); (EVar "l2_bbbb"); (EVar "l2_aaaa"); (EVar "t2_bbbb"); (EVar "t2_abab")]));
   (*L1044*) SAug true "energy" (EScale (1 # 2) (EEins "mdel,ijba,klcd,ebij,cakm" [(ESlice (EVar "g_bbbb") [SV "o"; SV "v"; SV "v"; SV "o"]); (EVar "l2_bbbb"); (EVar "l2_abab"); (EVar "t2_bbbb"); (EVar "t2_abab")]));
   (*L1047*) SAug true "energy" (EScale (1 # 2) (EEins "dmle,ijba,lkdc,ebij,cakm" [(ESlice (EVar "g_abab") [SV "v"; SV "o"; SV "o"; SV "v"]); (EVar "l2_bbbb"); (EVar "l2_abab"); (EVar "t2_bbbb"); (EVar "t2_bbbb")]));
   (*L1050*) SAug true "energy" (EScale (-1 # 2) (EEins "mdle,ijba,lkcd,ebij,camk" [(ESlice (EVar "g_abab") [SV "o"; SV "v"; SV "o"; SV "v"]); (EVar "l2_bbbb"); (EVar "l2_abab"); (EVar "t2_bbbb"); (EVar "t2_abab")]));
   (*L1053*) SAug true "energy" (EScale (-1 # 2) (EEins "mdel,ijba,kldc,ebij,cakm" [(ESlice (EVar "g_bbbb") [SV "o"; SV "v"; SV "v"; SV "o"]); (EVar "l2_bbbb"); (EVar "l2_bbbb"); (EVar "t2_bbbb"); (EVar "t2_bbbb")]));
   (*L1056*) SAug true "energy" (EScale (1 # 4) (EEins "mdej,ijba,kldc,eckl,baim" [(ESlice (EVar "g_aaaa") [SV "o"; SV "v"; SV "v"; SV "o"]); (EVar "l2_aaaa"); (EVar "l2_aaaa"); (EVar "t2_aaaa"); (EVar "t2_aaaa")]));
   (*L1059*) SAug true "energy" (EScale (1 # 4) (EEins "mdej,ijba,kldc,eckl,baim" [(ESlice (EVar "g_aaaa") [SV "o"; SV "v"; SV "v"; SV "o"]); (EVar "l2_aaaa"); (EVar "l2_abab"); (EVar "t2_abab"); (EVar "t2_aaaa")]));
   (*L1062*) SAug true "energy" (EScale (-1 # 4) (EEins "mdje,ijba,klcd,cekl,baim" [(ESlice (EVar "g_abab") [SV "o"; SV "v"; SV "o"; SV "v"]); (EVar "l2_aaaa"); (EVar "l2_abab"); (EVar "t2_abab"); (EVar "t2_aaaa")]));
   (*L1065*) SAug true "energy" (EScale (1 # 4) (EEins "mdej,ijba,lkdc,eclk,baim" [(ESlice (EVar "g_aaaa") [SV "o"; SV "v"; SV "v"; SV "o"]); (EVar "l2_aaaa"); (EVar "l2_abab"); (EVar "t2_abab"); (EVar "t2_aaaa")]));
   (*L1068*) SAug true "energy" (EScale (-1 # 4) (EEins "mdje,ijba,lkcd,celk,baim" [(ESlice (EVar "g_abab") [SV "o"; SV "v"; SV "o"; SV "v"]); (EVar "l2_aaaa"); (EVar "l2_abab"); (EVar "t2_abab"); (EVar "t2_aaaa")]));
   (*L1071*) SAug true "energy" (EScale (-1 # 4) (EEins "mdje,ijba,kldc,eckl,baim" [(ESlice (EVar "g_abab") [SV "o"; SV "v"; SV "o"; SV "v"]); (EVar "l2_aaaa"); (EVar "l2_bbbb"); (EVar "t2_bbbb"); (EVar "t2_aaaa")]));
   (*L1074*) SAug true "energy" (EScale (-1 # 4) (EEins "dmej,ijba,kldc,eckl,baim" [(ESlice (EVar "g_abab") [SV "v"; SV "o"; SV "v"; SV "o"]); (EVar "l2_abab"); (EVar "l2_aaaa"); (EVar "t2_aaaa"); (EVar "t2_abab")]));
   (*L1077*) SAug true "energy" (EScale (-1 # 4) (EEins "dmej,ijba,kldc,eckl,baim" [(ESlice (EVar "g_abab") [SV "v"; SV "o"; SV "v"; SV "o"]); (EVar "l2_abab"); (EVar "l2_abab"); (EVar "t2_abab"); (EVar "t2_abab")]));
   (*L1080*) SAug true "energy" (EScale (1 # 4) (EEins "mdej,ijba,klcd,cekl,baim" [(ESlice (EVar "g_bbbb") [SV "o"; SV "v"; SV "v"; SV "o"]); (EVar "l2_abab"); (EVar "l2_abab"); (EVar "t2_abab"); (EVar "t2_abab")]));
   (*L1083*) SAug true "energy" (EScale (-1 # 4) (EEins "dmej,ijba,lkdc,eclk,baim" [(ESlice (EVar "g_abab") [SV "v"; SV "o"; SV "v"; SV "o"]); (EVar "l2_abab"); (EVar "l2_abab"); (EVar "t2_abab"); (EVar "t2_abab")]));
   (*L1086*) SAug true "energy" (EScale (1 # 4) (EEins "mdej,ijba,lkcd,celk,baim" [(ESlice (EVar "g_bbbb") [SV "o"; SV "v"; SV "v"; SV "o"]); (EVar "l2_abab"); (EVar "l2_abab"); (EVar "t2_abab"); (EVar "t2_abab")]));
   (*L1089*) SAug true "energy" (EScale (1 # 4) (EEins "mdej,ijba,kldc,eckl,baim" [(ESlice (EVar "g_bbbb") [SV "o"; SV "v"; SV "v"; SV "o"]); (EVar "l2_abab"); (EVar "l2_bbbb"); (EVar "t2_bbbb"); (EVar "t2_abab")]));
   (*L1092*) SAug true "energy" (EScale (-1 # 4) (EEins "dmej,ijab,kldc,eckl,abim" [(ESlice (EVar "g_abab") [SV "v"; SV "o"; SV "v"; SV "o"]); (EVar "l2_abab"); (EVar "l2_aaaa"); (EVar "t2_aaaa"); (EVar "t2_abab")]));
   (*L1095*) SAug true "energy" (EScale (-1 # 4) (EEins "dmej,ijab,kldc,eckl,abim" [(ESlice (EVar "g_abab") [SV "v"; SV "o"; SV "v"; SV "o"]); (EVar "l2_abab"); (EVar "l2_abab"); (EVar "t2_abab"); (EVar "t2_abab")]));
   (*L1098*) SAug true "energy" (EScale (1 # 4) (EEins "mdej,ijab,klcd,cekl,abim" [(ESlice (EVar "g_bbbb") [SV "o"; SV "v"; SV "v"; SV "o"]); (EVar "l2_abab"); (EVar "l2_abab"); (EVar "t2_abab"); (EVar "t2_abab")]));
   (*L1101*) SAug true "energy" (EScale (-1 # 4) (EEins "dmej,ijab,lkdc,eclk,abim" [(ESlice (EVar "g_abab") [SV "v"; SV "o"; SV "v"; SV "o"]); (EVar "l2_abab"); (EVar "l2_abab"); (EVar "t2_abab"); (EVar "t2_abab")]));
   (*L1104*) SAug true "energy" (EScale (1 # 4) (EEins "mdej,ijab,lkcd,celk,abim" [(ESlice (EVar "g_bbbb") [SV "o"; SV "v"; SV "v"; SV "o"]); (EVar "l2_abab"); (EVar "l2_abab"); (EVar "t2_abab"); (EVar "t2_abab")]));
   (*L1107*) SAug true "energy" (EScale (1 # 4) (EEins "mdej,ijab,kldc,eckl,abim" [(ESlice (EVar "g_bbbb") [SV "o"; SV "v"; SV "v"; SV "o"]); (EVar "l2_abab"); (EVar "l2_bbbb"); (EVar "t2_bbbb"); (EVar "t2_abab")]));
   (*L1110*) SAug true "energy" (EScale (1 # 4) (EEins "mdej,jiba,kldc,eckl,bami" [(ESlice (EVar "g_aaaa") [SV "o"; SV "v"; SV "v"; SV "o"]); (EVar "l2_abab"); (EVar "l2_aaaa"); (EVar "t2_aaaa"); (EVar "t2_abab")]));
   (*L1113*) SAug true "energy" (EScale (1 # 4) (EEins "mdej,jiba,kldc,eckl,bami" [(ESlice (EVar "g_aaaa") [SV "o"; SV "v"; SV "v"; SV "o"]); (EVar "l2_abab"); (EVar "l2_abab"); (EVar "t2_abab"); (EVar "t2_abab")]));
   (*L1116*) SAug true "energy" (EScale (-1 # 4) (EEins "mdje,jiba,klcd,cekl,bami" [(ESlice (EVar "g_abab") [SV "o"; SV "v"; SV "o"; SV "v"]); (EVar "l2_abab"); (EVar "l2_abab"); (EVar "t2_abab"); (EVar "t2_abab")]));
   (*L1119*) SAug true "energy" (EScale (1 # 4) (EEins "mdej,jiba,lkdc,eclk,bami" [(ESlice (EVar "g_aaaa") [SV "o"; SV "v"; SV "v"; SV "o"]); (EVar "l2_abab"); (EVar "l2_abab"); (EVar "t2_abab"); (EVar "t2_abab")]));
   (*L1122*) SAug true "energy" (EScale (-1 # 4) (EEins "mdje,jiba,lkcd,celk,bami" [(ESlice (EVar "g_abab") [SV "o"; SV "v"; SV "o"; SV "v"]); (EVar "l2_abab"); (EVar "l2_abab"); (EVar "t2_abab"); (EVar "t2_abab")]));
   (*L1125*) SAug true "energy" (EScale (-1 # 4) (EEins "mdje,jiba,kldc,eckl,bami" [(ESlice (EVar "g_abab") [SV "o"; SV "v"; SV "o"; SV "v"]); (EVar "l2_abab"); (EVar "l2_bbbb"); (EVar "t2_bbbb"); (EVar "t2_abab")]));
   (*L1128*) SAug true "energy" (EScale (1 # 4) (EEins "mdej,jiab,kldc,eckl,abmi" [(ESlice (EVar "g_aaaa") [SV "o"; SV "v"; SV "v"; SV "o"]); (EVar "l2_abab"); (EVar "l2_aaaa"); (EVar "t2_aaaa"); (EVar "t2_abab")]));
   (*L1131*) SAug true "energy" (EScale (1 # 4) (EEins "mdej,jiab,kldc,eckl,abmi" [(ESlice (EVar "g_aaaa") [SV "o"; SV "v"; SV "v"; SV "o"]); (EVar "l2_abab"); (EVar "l2_abab"); (EVar "t2_abab"); (EVar "t2_abab")]));
   (*L1134*) SAug true "energy" (EScale (-1 # 4) (EEins "mdje,jiab,klcd,cekl,abmi" [(ESlice (EVar "g_abab") [SV "o"; SV "v"; SV "o"; SV "v"]); (EVar "l2_abab"); (EVar "l2_abab"); (EVar "t2_abab"); (EVar "t2_abab")]));
   (*L1137*) SAug true "energy" (EScale (1 # 4) (EEins "mdej,jiab,lkdc,eclk,abmi" [(ESlice (EVar "g_aaaa") [SV "o"; SV "v"; SV "v"; SV "o"]); (EVar "l2_abab"); (EVar "l2_abab"); (EVar "t2_abab"); (EVar "t2_abab")]));
   (*L1140*) SAug true "energy" (EScale (-1 # 4) (EEins "mdje,jiab,lkcd,celk,abmi" [(ESlice (EVar "g_abab") [SV "o"; SV "v"; SV "o"; SV "v"]); (EVar "l2_abab"); (EVar "l2_abab"); (EVar "t2_abab"); (EVar "t2_abab")]));
   (*L1143*) SAug true "energy" (EScale (-1 # 4) (EEins "mdje,jiab,kldc,eckl,abmi" [(ESlice (EVar "g_abab") [SV "o"; SV "v"; SV "o"; SV "v"]); (EVar "l2_abab"); (EVar "l2_bbbb"); (EVar "t2_bbbb"); (EVar "t2_abab")]));
   (*L1146*) SAug true "energy" (EScale (-1 # 4) (EEins "dmej,ijba,kldc,eckl,baim" [(ESlice (EVar "g_abab") [SV "v"; SV "o"; SV "v"; SV "o"]); (EVar "l2_bbbb"); (EVar "l2_aaaa"); (EVar "t2_aaaa"); (EVar "t2_bbbb")]));
   (*L1149*) SAug true "energy" (EScale (-1 # 4) (EEins "dmej,ijba,kldc,eckl,baim" [(ESlice (EVar "g_abab") [SV "v"; SV "o"; SV "v"; SV "o"]); (EVar "l2_bbbb"); (EVar "l2_abab"); (EVar "t2_abab"); (EVar "t2_bbbb")]));
   (*L1152*) SAug true "energy" (EScale (1 # 4) (EEins "mdej,ijba,klcd,cekl,baim" [(ESlice (EVar "g_bbbb") [SV "o"; SV "v"; SV "v"; SV "o"]); (EVar "l2_bbbb"); (EVar "l2_abab"); (EVar "t2_abab"); (EVar "t2_bbbb")]));
   (*L1155*) SAug true "energy" (EScale (-1 # 4) (EEins "dmej,ijba,lkdc,eclk,baim" [(ESlice (EVar "g_abab") [SV "v"; SV "o"; SV "v"; SV "o"]); (EVar "l2_bbbb"); (EVar "l2_abab"); (EVar "t2_abab"); (EVar "t2_bbbb")]));
   (*L1158*) SAug true "energy" (EScale (1 # 4) (EEins "mdej,ijba,lkcd,celk,baim" [(ESlice (EVar "g_bbbb") [SV "o"; SV "v"; SV "v"; SV "o"]); (EVar "l2_bbbb"); (EVar "l2_abab"); (EVar "t2_abab"); (EVar "t2_bbbb")]));
   (*L1161*) SAug true "energy" (EScale (1 # 4) (EEins "mdej,ijba,kldc,eckl,baim" [(ESlice (EVar "g_bbbb") [SV "o"; SV "v"; SV "v"; SV "o"]); (EVar "l2_bbbb"); (EVar "l2_bbbb"); (EVar "t2_bbbb"); (EVar "t2_bbbb")]));
   (*L1164*) SAug true "energy" (EScale (-1 # 2) (EEins "mdej,ijba,kldc,ecil,bakm" [(ESlice (EVar "g_aaaa") [SV "o"; SV "v"; SV "v"; SV "o"]); (EVar "l2_aaaa"); (EVar "l2_aaaa"); (EVar "t2_aaaa"); (EVar "t2_aaaa")]));
   (*L1167*) SAug true "energy" (EScale (-1 # 2) (EEins "mdej,ijba,kldc,ecil,bakm" [(ESlice (EVar "g_aaaa") [SV "o"; SV "v"; SV "v"; SV "o"]); (EVar "l2_aaaa"); (EVar "l2_abab"); (EVar "t2_abab"); (EVar "t2_aaaa")]));
   (*L1170*) SAug true "energy" (EScale (1 # 2) (EEins "mdje,ijba,klcd,ceil,bakm" [(ESlice (EVar "g_abab") [SV "o"; SV "v"; SV "o"; SV "v"]); (EVar "l2_aaaa"); (EVar "l2_abab"); (EVar "t2_abab"); (EVar "t2_aaaa")]));
   (*L1173*) SAug true "energy" (EScale (1 # 2) (EEins "dmej,ijba,kldc,ecil,bakm" [(ESlice (EVar "g_abab") [SV "v"; SV "o"; SV "v"; SV "o"]); (EVar "l2_abab"); (EVar "l2_aaaa"); (EVar "t2_aaaa"); (EVar "t2_abab")]));
   (*L1176*) SAug true "energy" (EScale (1 # 2) (EEins "dmej,ijba,kldc,ecil,bakm" [(ESlice (EVar "g_abab") [SV "v"; SV "o"; SV "v"; SV "o"]); (EVar "l2_abab"); (EVar "l2_abab"); (EVar "t2_abab"); (EVar "t2_abab")]));
   (*L1179*) SAug true "energy" (EScale (-1 # 2) (EEins "mdej,ijba,klcd,ceil,bakm" [(ESlice (EVar "g_bbbb") [SV "o"; SV "v"; SV "v"; SV "o"]); (EVar "l2_abab"); (EVar "l2_abab"); (EVar "t2_abab"); (EVar "t2_abab")]));
   (*L1182*) SAug true "energy" (EScale (1 # 2) (EEins "mdej,ijba,lkcd,ecil,bamk" [(ESlice (EVar "g_abab") [SV "o"; SV "v"; SV "v"; SV "o"]); (EVar "l2_abab"); (EVar "l2_abab"); (EVar "t2_aaaa"); (EVar "t2_abab")]));
   (*L1185*) SAug true "energy" (EScale (1 # 2) (EEins "mdej,ijba,kldc,ecil,bamk" [(ESlice (EVar "g_abab") [SV "o"; SV "v"; SV "v"; SV "o"]); (EVar "l2_abab"); (EVar "l2_bbbb"); (EVar "t2_abab"); (EVar "t2_abab")]));
   (*L1188*) SAug true "energy" (EScale (1 # 2) (EEins "dmej,ijab,kldc,ecil,abkm" [(ESlice (EVar "g_abab") [SV "v"; SV "o"; SV "v"; SV "o"]); (EVar "l2_abab"); (EVar "l2_aaaa"); (EVar "t2_aaaa"); (EVar "t2_abab")]));
   (*L1191*) SAug true "energy" (EScale (1 # 2) (EEins "dmej,ijab,kldc,ecil,abkm" [(ESlice (EVar "g_abab") [SV "v"; SV "o"; SV "v"; SV "o"]); (EVar "l2_abab"); (EVar "l2_abab"); (EVar "t2_abab"); (EVar "t2_abab")]));
   (*L1194*) SAug true "energy" (EScale (-1 # 2) (EEins "mdej,ijab,klcd,ceil,abkm" [(ESlice (EVar "g_bbbb") [SV "o"; SV "v"; SV "v"; SV "o"]); (EVar "l2_abab"); (EVar "l2_abab"); (EVar "t2_abab"); (EVar "t2_abab")]));
   (*L1197*) SAug true "energy" (EScale (1 # 2) (EEins "mdej,ijab,lkcd,ecil,abmk" [(ESlice (EVar "g_abab") [SV "o"; SV "v"; SV "v"; SV "o"]); (EVar "l2_abab"); (EVar "l2_abab"); (EVar "t2_aaaa"); (EVar "t2_abab")]));
   (*L1200*) SAug true "energy" (EScale (1 # 2) (EEins "mdej,ijab,kldc,ecil,abmk" [(ESlice (EVar "g_abab") [SV "o"; SV "v"; SV "v"; SV "o"]); (EVar "l2_abab"); (EVar "l2_bbbb"); (EVar "t2_abab"); (EVar "t2_abab")]));
   (*L1203*) SAug true "energy" (EScale (1 # 2) (EEins "dmje,jiba,kldc,celi,bakm" [(ESlice (EVar "g_abab") [SV "v"; SV "o"; SV "o"; SV "v"]); (EVar "l2_abab"); (EVar "l2_aaaa"); (EVar "t2_abab"); (EVar "t2_abab")]));
   (*L1206*) SAug true "energy" (EScale (1 # 2) (EEins "dmje,jiba,kldc,ecil,bakm" [(ESlice (EVar "g_abab") [SV "v"; SV "o"; SV "o"; SV "v"]); (EVar "l2_abab"); (EVar "l2_abab"); (EVar "t2_bbbb"); (EVar "t2_abab")]));
   (*L1209*) SAug true "energy" (EScale (-1 # 2) (EEins "mdej,jiba,lkdc,ecli,bamk" [(ESlice (EVar "g_aaaa") [SV "o"; SV "v"; SV "v"; SV "o"]); (EVar "l2_abab"); (EVar "l2_abab"); (EVar "t2_abab"); (EVar "t2_abab")]));
   (*L1212*) SAug true "energy" (EScale (1 # 2) (EEins "mdje,jiba,lkcd,celi,bamk" [(ESlice (EVar "g_abab") [SV "o"; SV "v"; SV "o"; SV "v"]); (EVar "l2_abab"); (EVar "l2_abab"); (EVar "t2_abab"); (EVar "t2_abab")]));
   (*L1215*) SAug true "energy" (EScale (1 # 2) (EEins "mdje,jiba,kldc,ecil,bamk" [(ESlice (EVar "g_abab") [SV "o"; SV "v"; SV "o"; SV "v"]); (EVar "l2_abab"); (EVar "l2_bbbb"); (EVar "t2_bbbb"); (EVar "t2_abab")]));
   (*L1218*) SAug true "energy" (EScale (1 # 2) (EEins "dmje,jiab,kldc,celi,abkm" [(ESlice (EVar "g_abab") [SV "v"; SV "o"; SV "o"; SV "v"]); (EVar "l2_abab"); (EVar "l2_aaaa"); (EVar "t2_abab"); (EVar "t2_abab")]));
   (*L1221*) SAug true "energy" (EScale (1 # 2) (EEins "dmje,jiab,kldc,ecil,abkm" [(ESlice (EVar "g_abab") [SV "v"; SV "o"; SV "o"; SV "v"]); (EVar "l2_abab"); (EVar "l2_abab"); (EVar "t2_bbbb"); (EVar "t2_abab")]));
   (*L1224*) SAug true "energy" (EScale (-1 # 2) (EEins "mdej,jiab,lkdc,ecli,abmk" [(ESlice (EVar "g_aaaa") [SV "o"; SV "v"; SV "v"; SV "o"]); (EVar "l2_abab"); (EVar "l2_abab"); (EVar "t2_abab"); (EVar "t2_abab")]));
   (*L1227*) SAug true "energy" (EScale (1 # 2) (EEins "mdje,jiab,lkcd,celi,abmk" [(ESlice (EVar "g_abab") [SV "o"; SV "v"; SV "o"; SV "v"]); (EVar "l2_abab"); (EVar "l2_abab"); (EVar "t2_abab"); (EVar "t2_abab")]));
   (*L1230*) SAug true "energy" (EScale (1 # 2) (EEins "mdje,jiab,kldc,ecil,abmk" [(ESlice (EVar "g_abab") [SV "o"; SV "v"; SV "o"; SV "v"]); (EVar "l2_abab"); (EVar "l2_bbbb"); (EVar "t2_bbbb"); (EVar "t2_abab")]));
   (*L1233*) SAug true "energy" (EScale (1 # 2) (EEins "dmej,ijba,lkdc,ecli,bakm" [(ESlice (EVar "g_abab") [SV "v"; SV "o"; SV "v"; SV "o"]); (EVar "l2_bbbb"); (EVar "l2_abab"); (EVar "t2_abab"); (EVar "t2_bbbb")]));
   (*L1236*) SAug true "energy" (EScale (-1 # 2) (EEins "mdej,ijba,lkcd,celi,bakm" [(ESlice (EVar "g_bbbb") [SV "o"; SV "v"; SV "v"; SV "o"]); (EVar "l2_bbbb"); (EVar "l2_abab"); (EVar "t2_abab"); (EVar "t2_bbbb")]));
   (*L1239*) SAug true "energy" (EScale (-1 # 2) (EEins "mdej,ijba,kldc,ecil,bakm" [(ESlice (EVar "g_bbbb") [SV "o"; SV "v"; SV "v"; SV "o"]); (EVar "l2_bbbb"); (EVar "l2_bbbb"); (EVar "t2_bbbb"); (EVar "t2_bbbb")]));
   (*L1242*) SAug true "energy" (EScale (-1 # 2) (EEins "mdej,ijba,kldc,ebkl,caim" [(ESlice (EVar "g_aaaa") [SV "o"; SV "v"; SV "v"; SV "o"]); (EVar "l2_aaaa"); (EVar "l2_aaaa"); (EVar "t2_aaaa"); (EVar "t2_aaaa")]));
   (*L1245*) SAug true "energy" (EScale (-1 # 2) (EEins "dmje,ijba,kldc,bekl,acim" [(ESlice (EVar "g_abab") [SV "v"; SV "o"; SV "o"; SV "v"]); (EVar "l2_aaaa"); (EVar "l2_abab"); (EVar "t2_abab"); (EVar "t2_abab")]));
   (*L1248*) SAug true "energy" (EScale (1 # 2) (EEins "mdje,ijba,klcd,bekl,caim" [(ESlice (EVar "g_abab") [SV "o"; SV "v"; SV "o"; SV "v"]); (EVar "l2_aaaa"); (EVar "l2_abab"); (EVar "t2_abab"); (EVar "t2_aaaa")]));
   (*L1251*) SAug true "energy" (EScale (-1 # 2) (EEins "dmje,ijba,lkdc,belk,acim" [(ESlice (EVar "g_abab") [SV "v"; SV "o"; SV "o"; SV "v"]); (EVar "l2_aaaa"); (EVar "l2_abab"); (EVar "t2_abab"); (EVar "t2_abab")]));
   (*L1254*) SAug true "energy" (EScale (1 # 2) (EEins "mdje,ijba,lkcd,belk,caim" [(ESlice (EVar "g_abab") [SV "o"; SV "v"; SV "o"; SV "v"]); (EVar "l2_aaaa"); (EVar "l2_abab"); (EVar "t2_abab"); (EVar "t2_aaaa")]));
   (*L1257*) SAug true "energy" (EScale (1 # 2) (EEins "dmej,ijba,kldc,ebkl,caim" [(ESlice (EVar "g_abab") [SV "v"; SV "o"; SV "v"; SV "o"]); (EVar "l2_abab"); (EVar "l2_aaaa"); (EVar "t2_aaaa"); (EVar "t2_abab")]));
   (*L1260*) SAug true "energy" (EScale (-1 # 2) (EEins "mdej,ijba,klcd,bekl,caim" [(ESlice (EVar "g_bbbb") [SV "o"; SV "v"; SV "v"; SV "o"]); (EVar "l2_abab"); (EVar "l2_abab"); (EVar "t2_abab"); (EVar "t2_abab")]));
   (*L1263*) SAug true "energy" (EScale (-1 # 2) (EEins "mdej,ijba,lkcd,belk,caim" [(ESlice (EVar "g_bbbb") [SV "o"; SV "v"; SV "v"; SV "o"]); (EVar "l2_abab"); (EVar "l2_abab"); (EVar "t2_abab"); (EVar "t2_abab")]));
   (*L1266*) SAug true "energy" (EScale (1 # 2) (EEins "dmej,ijab,kldc,ebkl,acim" [(ESlice (EVar "g_abab") [SV "v"; SV "o"; SV "v"; SV "o"]); (EVar "l2_abab"); (EVar "l2_abab"); (EVar "t2_abab"); (EVar "t2_abab")]));
   (*L1269*) SAug true "energy" (EScale (-1 # 2) (EEins "mdej,ijab,klcd,ebkl,caim" [(ESlice (EVar "g_abab") [SV "o"; SV "v"; SV "v"; SV "o"]); (EVar "l2_abab"); (EVar "l2_abab"); (EVar "t2_abab"); (EVar "t2_aaaa")]));
   (*L1272*) SAug true "energy" (EScale (1 # 2) (EEins "dmej,ijab,lkdc,eblk,acim" [(ESlice (EVar "g_abab") [SV "v"; SV "o"; SV "v"; SV "o"]); (EVar "l2_abab"); (EVar "l2_abab"); (EVar "t2_abab"); (EVar "t2_abab")]));
   (*L1275*) SAug true "energy" (EScale (-1 # 2) (EEins "mdej,ijab,lkcd,eblk,caim" [(ESlice (EVar "g_abab") [SV "o"; SV "v"; SV "v"; SV "o"]); (EVar "l2_abab"); (EVar "l2_abab"); (EVar "t2_abab"); (EVar "t2_aaaa")]));
   (*L1278*) SAug true "energy" (EScale (-1 # 2) (EEins "mdej,ijab,kldc,ebkl,acim" [(ESlice (EVar "g_bbbb") [SV "o"; SV "v"; SV "v"; SV "o"]); (EVar "l2_abab"); (EVar "l2_bbbb"); (EVar "t2_bbbb"); (EVar "t2_abab")]));
   (*L1281*) SAug true "energy" (EScale (-1 # 2) (EEins "mdej,jiba,kldc,ebkl,cami" [(ESlice (EVar "g_aaaa") [SV "o"; SV "v"; SV "v"; SV "o"]); (EVar "l2_abab"); (EVar "l2_aaaa"); (EVar "t2_aaaa"); (EVar "t2_abab")]));
   (*L1284*) SAug true "energy" (EScale (-1 # 2) (EEins "dmje,jiba,kldc,bekl,caim" [(ESlice (EVar "g_abab") [SV "v"; SV "o"; SV "o"; SV "v"]); (EVar "l2_abab"); (EVar "l2_abab"); (EVar "t2_abab"); (EVar "t2_bbbb")]));
   (*L1287*) SAug true "energy" (EScale (1 # 2) (EEins "mdje,jiba,klcd,bekl,cami" [(ESlice (EVar "g_abab") [SV "o"; SV "v"; SV "o"; SV "v"]); (EVar "l2_abab"); (EVar "l2_abab"); (EVar "t2_abab"); (EVar "t2_abab")]));
   (*L1290*) SAug true "energy" (EScale (-1 # 2) (EEins "dmje,jiba,lkdc,belk,caim" [(ESlice (EVar "g_abab") [SV "v"; SV "o"; SV "o"; SV "v"]); (EVar "l2_abab"); (EVar "l2_abab"); (EVar "t2_abab"); (EVar "t2_bbbb")]));
   (*L1293*) SAug true "energy" (EScale (1 # 2) (EEins "mdje,jiba,lkcd,belk,cami" [(ESlice (EVar "g_abab") [SV "o"; SV "v"; SV "o"; SV "v"]); (EVar "l2_abab"); (EVar "l2_abab"); (EVar "t2_abab"); (EVar "t2_abab")]));
   (*L1296*) SAug true "energy" (EScale (-1 # 2) (EEins "mdej,jiab,kldc,ebkl,acmi" [(ESlice (EVar "g_aaaa") [SV "o"; SV "v"; SV "v"; SV "o"]); (EVar "l2_abab"); (EVar "l2_abab"); (EVar "t2_abab"); (EVar "t2_abab")]));
   (*L1299*) SAug true "energy" (EScale (-1 # 2) (EEins "mdej,jiab,lkdc,eblk,acmi" [(ESlice (EVar "g_aaaa") [SV "o"; SV "v"; SV "v"; SV "o"]); (EVar "l2_abab"); (EVar "l2_abab"); (EVar "t2_abab"); (EVar "t2_abab")]));
   (*L1302*) SAug true "energy" (EScale (1 # 2) (EEins "mdje,jiab,kldc,ebkl,acmi" [(ESlice (EVar "g_abab") [SV "o"; SV "v"; SV "o"; SV "v"]); (EVar "l2_abab"); (EVar "l2_bbbb"); (EVar "t2_bbbb"); (EVar "t2_abab")]));
   (*L1305*) SAug true "energy" (EScale (1 # 2) (EEins "dmej,ijba,kldc,ebkl,caim" [(ESlice (EVar "g_abab") [SV "v"; SV "o"; SV "v"; SV "o"]); (EVar "l2_bbbb"); (EVar "l2_abab"); (EVar "t2_abab"); (EVar "t2_bbbb")]));
   (*L1308*) SAug true "energy" (EScale (-1 # 2) (EEins "mdej,ijba,klcd,ebkl,cami" [(ESlice (EVar "g_abab") [SV "o"; SV "v"; SV "v"; SV "o"]); (EVar "l2_bbbb"); (EVar "l2_abab"); (EVar "t2_abab"); (EVar "t2_abab")]));
   (*L1311*) SAug true "energy" (EScale (1 # 2) (EEins "dmej,ijba,lkdc,eblk,caim" [(ESlice (EVar "g_abab") [SV "v"; SV "o"; SV "v"; SV "o"]); (EVar "l2_bbbb"); (EVar "l2_abab"); (EVar "t2_abab"); (EVar "t2_bbbb")]));
   (*L1314*) SAug true "energy" (EScale (-1 # 2) (EEins "mdej,ijba,lkcd,eblk,cami" [(ESlice (EVar "g_abab") [SV "o"; SV "v"; SV "v"; SV "o"]); (EVar "l2_bbbb"); (EVar "l2_abab"); (EVar "t2_abab"); (EVar "t2_abab")]));
   (*L1317*) SAug true "energy" (EScale (-1 # 2) (EEins "mdej,ijba,kldc,ebkl,caim" [(ESlice (EVar "g_bbbb") [SV "o"; SV "v"; SV "v"; SV "o"]); (EVar "l2_bbbb"); (EVar "l2_bbbb"); (EVar "t2_bbbb"); (EVar "t2_bbbb")]));
   (*L1320*) SAug true "energy" (EScale (1 # 1) (EEins "mdej,ijba,kldc,ebil,cakm" [(ESlice (EVar "g_aaaa") [SV "o"; SV "v"; SV "v"; SV "o"]); (EVar "l2_aaaa"); (EVar "l2_aaaa"); (EVar "t2_aaaa"); (EVar "t2_aaaa")]));
   (*L1323*) SAug true "energy" (EScale (1 # 1) (EEins "dmje,ijba,kldc,beil,ackm" [(ESlice (EVar "g_abab") [SV "v"; SV "o"; SV "o"; SV "v"]); (EVar "l2_aaaa"); (EVar "l2_abab"); (EVar "t2_abab"); (EVar "t2_abab")]));
   (*L1326*) SAug true "energy" (EScale (-1 # 1) (EEins "mdje,ijba,klcd,beil,cakm" [(ESlice (EVar "g_abab") [SV "o"; SV "v"; SV "o"; SV "v"]); (EVar "l2_aaaa"); (EVar "l2_abab"); (EVar "t2_abab"); (EVar "t2_aaaa")]));
   (*L1329*) SAug true "energy" (EScale (-1 # 1) (EEins "mdej,ijba,lkdc,ebil,acmk" [(ESlice (EVar "g_aaaa") [SV "o"; SV "v"; SV "v"; SV "o"]); (EVar "l2_aaaa"); (EVar "l2_abab"); (EVar "t2_aaaa"); (EVar "t2_abab")]));
   (*L1332*) SAug true "energy" (EScale (1 # 1) (EEins "mdje,ijba,kldc,beil,acmk" [(ESlice (EVar "g_abab") [SV "o"; SV "v"; SV "o"; SV "v"]); (EVar "l2_aaaa"); (EVar "l2_bbbb"); (EVar "t2_abab"); (EVar "t2_abab")]));
   (*L1335*) SAug true "energy" (EScale (-1 # 1) (EEins "dmej,ijba,kldc,ebil,cakm" [(ESlice (EVar "g_abab") [SV "v"; SV "o"; SV "v"; SV "o"]); (EVar "l2_abab"); (EVar "l2_aaaa"); (EVar "t2_aaaa"); (EVar "t2_abab")]));
   (*L1338*) SAug true "energy" (EScale (1 # 1) (EEins "mdej,ijba,klcd,beil,cakm" [(ESlice (EVar "g_bbbb") [SV "o"; SV "v"; SV "v"; SV "o"]); (EVar "l2_abab"); (EVar "l2_abab"); (EVar "t2_abab"); (EVar "t2_abab")]));
   (*L1341*) SAug true "energy" (EScale (1 # 1) (EEins "dmej,ijba,lkdc,ebil,cakm" [(ESlice (EVar "g_abab") [SV "v"; SV "o"; SV "v"; SV "o"]); (EVar "l2_abab"); (EVar "l2_abab"); (EVar "t2_aaaa"); (EVar "t2_bbbb")]));
   (*L1344*) SAug true "energy" (EScale (-1 # 1) (EEins "mdej,ijba,lkcd,ebil,camk" [(ESlice (EVar "g_abab") [SV "o"; SV "v"; SV "v"; SV "o"]); (EVar "l2_abab"); (EVar "l2_abab"); (EVar "t2_aaaa"); (EVar "t2_abab")]));
   (*L1347*) SAug true "energy" (EScale (-1 # 1) (EEins "mdej,ijba,kldc,beil,cakm" [(ESlice (EVar "g_bbbb") [SV "o"; SV "v"; SV "v"; SV "o"]); (EVar "l2_abab"); (EVar "l2_bbbb"); (EVar "t2_abab"); (EVar "t2_bbbb")]));
   (*L1350*) SAug true "energy" (EScale (-1 # 1) (EEins "dmej,ijab,kldc,ebil,ackm" [(ESlice (EVar "g_abab") [SV "v"; SV "o"; SV "v"; SV "o"]); (EVar "l2_abab"); (EVar "l2_abab"); (EVar "t2_abab"); (EVar "t2_abab")]));
   (*L1353*) SAug true "energy" (EScale (1 # 1) (EEins "mdej,ijab,klcd,ebil,cakm" [(ESlice (EVar "g_abab") [SV "o"; SV "v"; SV "v"; SV "o"]); (EVar "l2_abab"); (EVar "l2_abab"); (EVar "t2_abab"); (EVar "t2_aaaa")]));
   (*L1356*) SAug true "energy" (EScale (-1 # 1) (EEins "mdej,ijab,kldc,ebil,acmk" [(ESlice (EVar "g_abab") [SV "o"; SV "v"; SV "v"; SV "o"]); (EVar "l2_abab"); (EVar "l2_bbbb"); (EVar "t2_abab"); (EVar "t2_abab")]));
   (*L1359*) SAug true "energy" (EScale (-1 # 1) (EEins "dmje,jiba,kldc,beli,cakm" [(ESlice (EVar "g_abab") [SV "v"; SV "o"; SV "o"; SV "v"]); (EVar "l2_abab"); (EVar "l2_aaaa"); (EVar "t2_abab"); (EVar "t2_abab")]));
   (*L1362*) SAug true "energy" (EScale (1 # 1) (EEins "dmje,jiba,lkdc,beli,cakm" [(ESlice (EVar "g_abab") [SV "v"; SV "o"; SV "o"; SV "v"]); (EVar "l2_abab"); (EVar "l2_abab"); (EVar "t2_abab"); (EVar "t2_bbbb")]));
   (*L1365*) SAug true "energy" (EScale (-1 # 1) (EEins "mdje,jiba,lkcd,beli,camk" [(ESlice (EVar "g_abab") [SV "o"; SV "v"; SV "o"; SV "v"]); (EVar "l2_abab"); (EVar "l2_abab"); (EVar "t2_abab"); (EVar "t2_abab")]));
   (*L1368*) SAug true "energy" (EScale (-1 # 1) (EEins "mdej,jiab,kldc,ebli,cakm" [(ESlice (EVar "g_aaaa") [SV "o"; SV "v"; SV "v"; SV "o"]); (EVar "l2_abab"); (EVar "l2_aaaa"); (EVar "t2_abab"); (EVar "t2_aaaa")]));
   (*L1371*) SAug true "energy" (EScale (-1 # 1) (EEins "dmje,jiab,kldc,ebil,ackm" [(ESlice (EVar "g_abab") [SV "v"; SV "o"; SV "o"; SV "v"]); (EVar "l2_abab"); (EVar "l2_abab"); (EVar "t2_bbbb"); (EVar "t2_abab")]));
   (*L1374*) SAug true "energy" (EScale (1 # 1) (EEins "mdje,jiab,klcd,ebil,cakm" [(ESlice (EVar "g_abab") [SV "o"; SV "v"; SV "o"; SV "v"]); (EVar "l2_abab"); (EVar "l2_abab"); (EVar "t2_bbbb"); (EVar "t2_aaaa")]));
   (*L1377*) SAug true "energy" (EScale (1 # 1) (EEins "mdej,jiab,lkdc,ebli,acmk" [(ESlice (EVar "g_aaaa") [SV "o"; SV "v"; SV "v"; SV "o"]); (EVar "l2_abab"); (EVar "l2_abab"); (EVar "t2_abab"); (EVar "t2_abab")]));
   (*L1380*) SAug true "energy" (EScale (-1 # 1) (EEins "mdje,jiab,kldc,ebil,acmk" [(ESlice (EVar "g_abab") [SV "o"; SV "v"; SV "o"; SV "v"]); (EVar "l2_abab"); (EVar "l2_bbbb"); (EVar "t2_bbbb"); (EVar "t2_abab")]));
   (*L1383*) SAug true "energy" (EScale (1 # 1) (EEins "dmej,ijba,kldc,ebli,cakm" [(ESlice (EVar "g_abab") [SV "v"; SV "o"; SV "v"; SV "o"]); (EVar "l2_bbbb"); (EVar "l2_aaaa"); (EVar "t2_abab"); (EVar "t2_abab")]));
   (*L1386*) SAug true "energy" (EScale (-1 # 1) (EEins "mdej,ijba,klcd,ebil,cakm" [(ESlice (EVar "g_bbbb") [SV "o"; SV "v"; SV "v"; SV "o"]); (EVar "l2_bbbb"); (EVar "l2_abab"); (EVar "t2_bbbb"); (EVar "t2_abab")]));
   (*L1389*) SAug true "energy" (EScale (-1 # 1) (EEins "dmej,ijba,lkdc,ebli,cakm" [(ESlice (EVar "g_abab") [SV "v"; SV "o"; SV "v"; SV "o"]); (EVar "l2_bbbb"); (EVar "l2_abab"); (EVar "t2_abab"); (EVar "t2_bbbb")]));
   (*L1392*) SAug true "energy" (EScale (1 # 1) (EEins "mdej,ijba,lkcd,ebli,camk" [(ESlice (EVar "g_abab") [SV "o"; SV "v"; SV "v"; SV "o"]); (EVar "l2_bbbb"); (EVar "l2_abab"); (EVar "t2_abab"); (EVar "t2_abab")]));
   (*L1395*) SAug true "energy" (EScale (1 # 1) (EEins "mdej,ijba,kldc,ebil,cakm" [(ESlice (EVar "g_bbbb") [SV "o"; SV "v"; SV "v"; SV "o"]); (EVar "l2_bbbb"); (EVar "l2_bbbb"); (EVar "t2_bbbb"); (EVar "t2_bbbb")]));
   (*L1398*) SAug true "energy" (EScale (1 # 1) (EEins "mbel,ijba,kldc,edjk,caim" [(ESlice (EVar "g_aaaa") [SV "o"; SV "v"; SV "v"; SV "o"]); (EVar "l2_aaaa"); (EVar "l2_aaaa"); (EVar "t2_aaaa"); (EVar "t2_aaaa")]));
   (*L1401*) SAug true "energy" (EScale (1 # 1) (EEins "bmel,ijba,kldc,edjk,acim" [(ESlice (EVar "g_abab") [SV "v"; SV "o"; SV "v"; SV "o"]); (EVar "l2_aaaa"); (EVar "l2_abab"); (EVar "t2_aaaa"); (EVar "t2_abab")]));
   (*L1404*) SAug true "energy" (EScale (-1 # 1) (EEins "bmle,ijba,lkdc,dejk,acim" [(ESlice (EVar "g_abab") [SV "v"; SV "o"; SV "o"; SV "v"]); (EVar "l2_aaaa"); (EVar "l2_abab"); (EVar "t2_abab"); (EVar "t2_abab")]));
   (*L1407*) SAug true "energy" (EScale (1 # 1) (EEins "mbel,ijba,lkcd,edjk,caim" [(ESlice (EVar "g_aaaa") [SV "o"; SV "v"; SV "v"; SV "o"]); (EVar "l2_aaaa"); (EVar "l2_abab"); (EVar "t2_abab"); (EVar "t2_aaaa")]));
   (*L1410*) SAug true "energy" (EScale (1 # 1) (EEins "bmel,ijba,kldc,edjk,acim" [(ESlice (EVar "g_abab") [SV "v"; SV "o"; SV "v"; SV "o"]); (EVar "l2_aaaa"); (EVar "l2_bbbb"); (EVar "t2_abab"); (EVar "t2_abab")]));
   (*L1413*) SAug true "energy" (EScale (1 # 1) (EEins "bmle,ijba,kldc,dekj,caim" [(ESlice (EVar "g_abab") [SV "v"; SV "o"; SV "o"; SV "v"]); (EVar "l2_abab"); (EVar "l2_aaaa"); (EVar "t2_abab"); (EVar "t2_abab")]));
   (*L1416*) SAug true "energy" (EScale (-1 # 1) (EEins "bmel,ijba,klcd,edkj,caim" [(ESlice (EVar "g_abab") [SV "v"; SV "o"; SV "v"; SV "o"]); (EVar "l2_abab"); (EVar "l2_abab"); (EVar "t2_abab"); (EVar "t2_abab")]));
   (*L1419*) SAug true "energy" (EScale (1 # 1) (EEins "bmle,ijba,lkcd,edjk,caim" [(ESlice (EVar "g_abab") [SV "v"; SV "o"; SV "o"; SV "v"]); (EVar "l2_abab"); (EVar "l2_abab"); (EVar "t2_bbbb"); (EVar "t2_abab")]));
   (*L1422*) SAug true "energy" (EScale (1 # 1) (EEins "mble,ijab,kldc,dekj,caim" [(ESlice (EVar "g_abab") [SV "o"; SV "v"; SV "o"; SV "v"]); (EVar "l2_abab"); (EVar "l2_aaaa"); (EVar "t2_abab"); (EVar "t2_aaaa")]));
   (*L1425*) SAug true "energy" (EScale (1 # 1) (EEins "mbel,ijab,kldc,dekj,acim" [(ESlice (EVar "g_bbbb") [SV "o"; SV "v"; SV "v"; SV "o"]); (EVar "l2_abab"); (EVar "l2_abab"); (EVar "t2_abab"); (EVar "t2_abab")]));
   (*L1428*) SAug true "energy" (EScale (-1 # 1) (EEins "mbel,ijab,klcd,edkj,caim" [(ESlice (EVar "g_abab") [SV "o"; SV "v"; SV "v"; SV "o"]); (EVar "l2_abab"); (EVar "l2_abab"); (EVar "t2_abab"); (EVar "t2_aaaa")]));
   (*L1431*) SAug true "energy" (EScale (1 # 1) (EEins "mble,ijab,lkcd,edjk,caim" [(ESlice (EVar "g_abab") [SV "o"; SV "v"; SV "o"; SV "v"]); (EVar "l2_abab"); (EVar "l2_abab"); (EVar "t2_bbbb"); (EVar "t2_aaaa")]));
   (*L1434*) SAug true "energy" (EScale (1 # 1) (EEins "mbel,ijab,kldc,edjk,acim" [(ESlice (EVar "g_bbbb") [SV "o"; SV "v"; SV "v"; SV "o"]); (EVar "l2_abab"); (EVar "l2_bbbb"); (EVar "t2_bbbb"); (EVar "t2_abab")]));
   (*L1437*) SAug true "energy" (EScale (1 # 1) (EEins "mbel,jiba,kldc,edjk,cami" [(ESlice (EVar "g_aaaa") [SV "o"; SV "v"; SV "v"; SV "o"]); (EVar "l2_abab"); (EVar "l2_aaaa"); (EVar "t2_aaaa"); (EVar "t2_abab")]));
   (*L1440*) SAug true "energy" (EScale (1 # 1) (EEins "bmel,jiba,kldc,edjk,caim" [(ESlice (EVar "g_abab") [SV "v"; SV "o"; SV "v"; SV "o"]); (EVar "l2_abab"); (EVar "l2_abab"); (EVar "t2_aaaa"); (EVar "t2_bbbb")]));
   (*L1443*) SAug true "energy" (EScale (-1 # 1) (EEins "bmle,jiba,lkdc,dejk,caim" [(ESlice (EVar "g_abab") [SV "v"; SV "o"; SV "o"; SV "v"]); (EVar "l2_abab"); (EVar "l2_abab"); (EVar "t2_abab"); (EVar "t2_bbbb")]));
   (*L1446*) SAug true "energy" (EScale (1 # 1) (EEins "mbel,jiba,lkcd,edjk,cami" [(ESlice (EVar "g_aaaa") [SV "o"; SV "v"; SV "v"; SV "o"]); (EVar "l2_abab"); (EVar "l2_abab"); (EVar "t2_abab"); (EVar "t2_abab")]));
   (*L1449*) SAug true "energy" (EScale (1 # 1) (EEins "bmel,jiba,kldc,edjk,caim" [(ESlice (EVar "g_abab") [SV "v"; SV "o"; SV "v"; SV "o"]); (EVar "l2_abab"); (EVar "l2_bbbb"); (EVar "t2_abab"); (EVar "t2_bbbb")]));
   (*L1452*) SAug true "energy" (EScale (1 # 1) (EEins "mbel,jiab,kldc,edjk,acmi" [(ESlice (EVar "g_abab") [SV "o"; SV "v"; SV "v"; SV "o"]); (EVar "l2_abab"); (EVar "l2_abab"); (EVar "t2_aaaa"); (EVar "t2_abab")]));
   (*L1455*) SAug true "energy" (EScale (-1 # 1) (EEins "mble,jiab,lkdc,dejk,acmi" [(ESlice (EVar "g_abab") [SV "o"; SV "v"; SV "o"; SV "v"]); (EVar "l2_abab"); (EVar "l2_abab"); (EVar "t2_abab"); (EVar "t2_abab")]));
   (*L1458*) SAug true "energy" (EScale (1 # 1) (EEins "mbel,jiab,kldc,edjk,acmi" [(ESlice (EVar "g_abab") [SV "o"; SV "v"; SV "v"; SV "o"]); (EVar "l2_abab"); (EVar "l2_bbbb"); (EVar "t2_abab"); (EVar "t2_abab")]));
   (*L1461*) SAug true "energy" (EScale (1 # 1) (EEins "mble,ijba,kldc,dekj,cami" [(ESlice (EVar "g_abab") [SV "o"; SV "v"; SV "o"; SV "v"]); (EVar "l2_bbbb"); (EVar "l2_aaaa"); (EVar "t2_abab"); (EVar "t2_abab")]));
   (*L1464*) SAug true "energy" (EScale (1 # 1) (EEins "mbel,ijba,kldc,dekj,caim" [(ESlice (EVar "g_bbbb") [SV "o"; SV "v"; SV "v"; SV "o"]); (EVar "l2_bbbb"); (EVar "l2_abab"); (EVar "t2_abab"); (EVar "t2_bbbb")]));
   (*L1467*) SAug true "energy" (EScale (-1 # 1) (EEins "mbel,ijba,klcd,edkj,cami" [(ESlice (EVar "g_abab") [SV "o"; SV "v"; SV "v"; SV "o"]); (EVar "l2_bbbb"); (EVar "l2_abab"); (EVar "t2_abab"); (EVar "t2_abab")]));
   (*L1470*) SAug true "energy" (EScale (1 # 1) (EEins "mble,ijba,lkcd,edjk,cami" [(ESlice (EVar "g_abab") [SV "o"; SV "v"; SV "o"; SV "v"]); (EVar "l2_bbbb"); (EVar "l2_abab"); (EVar "t2_bbbb"); (EVar "t2_abab")]));
   (*L1473*) SAug true "energy" (EScale (1 # 1) (EEins "mbel,ijba,kldc,edjk,caim" [(ESlice (EVar "g_bbbb") [SV "o"; SV "v"; SV "v"; SV "o"]); (EVar "l2_bbbb"); (EVar "l2_bbbb"); (EVar "t2_bbbb"); (EVar "t2_bbbb")]));
   (*L1476*) SAug true "energy" (EScale (1 # 2) (EEins "mbel,ijba,kldc,edij,cakm" [(ESlice (EVar "g_aaaa") [SV "o"; SV "v"; SV "v"; SV "o"]); (EVar "l2_aaaa"); (EVar "l2_aaaa"); (EVar "t2_aaaa"); (EVar "t2_aaaa")]));
   (*L1479*) SAug true "energy" (EScale (1 # 2) (EEins "bmel,ijba,kldc,edij,ackm" [(ESlice (EVar "g_abab") [SV "v"; SV "o"; SV "v"; SV "o"]); (EVar "l2_aaaa"); (EVar "l2_abab"); (EVar "t2_aaaa"); (EVar "t2_abab")]));
   (*L1482*) SAug true "energy" (EScale (-1 # 2) (EEins "mbel,ijba,lkdc,edij,acmk" [(ESlice (EVar "g_aaaa") [SV "o"; SV "v"; SV "v"; SV "o"]); (EVar "l2_aaaa"); (EVar "l2_abab"); (EVar "t2_aaaa"); (EVar "t2_abab")]));
   (*L1485*) SAug true "energy" (EScale (-1 # 2) (EEins "bmle,ijba,kldc,deij,cakm" [(ESlice (EVar "g_abab") [SV "v"; SV "o"; SV "o"; SV "v"]); (EVar "l2_abab"); (EVar "l2_aaaa"); (EVar "t2_abab"); (EVar "t2_abab")]));
   (*L1488*) SAug true "energy" (EScale (1 # 2) (EEins "bmel,ijba,klcd,edij,cakm" [(ESlice (EVar "g_abab") [SV "v"; SV "o"; SV "v"; SV "o"]); (EVar "l2_abab"); (EVar "l2_abab"); (EVar "t2_abab"); (EVar "t2_abab")]));
   (*L1491*) SAug true "energy" (EScale (1 # 2) (EEins "bmle,ijba,lkdc,deij,cakm" [(ESlice (EVar "g_abab") [SV "v"; SV "o"; SV "o"; SV "v"]); (EVar "l2_abab"); (EVar "l2_abab"); (EVar "t2_abab"); (EVar "t2_bbbb")]));
   (*L1494*) SAug true "energy" (EScale (-1 # 2) (EEins "mbel,ijba,lkcd,edij,camk" [(ESlice (EVar "g_aaaa") [SV "o"; SV "v"; SV "v"; SV "o"]); (EVar "l2_abab"); (EVar "l2_abab"); (EVar "t2_abab"); (EVar "t2_abab")]));
   (*L1497*) SAug true "energy" (EScale (-1 # 2) (EEins "bmel,ijba,kldc,edij,cakm" [(ESlice (EVar "g_abab") [SV "v"; SV "o"; SV "v"; SV "o"]); (EVar "l2_abab"); (EVar "l2_bbbb"); (EVar "t2_abab"); (EVar "t2_bbbb")]));
   (*L1500*) SAug true "energy" (EScale (-1 # 2) (EEins "mble,ijab,kldc,deij,cakm" [(ESlice (EVar "g_abab") [SV "o"; SV "v"; SV "o"; SV "v"]); (EVar "l2_abab"); (EVar "l2_aaaa"); (EVar "t2_abab"); (EVar "t2_aaaa")]));
   (*L1503*) SAug true "energy" (EScale (-1 # 2) (EEins "mbel,ijab,kldc,deij,ackm" [(ESlice (EVar "g_bbbb") [SV "o"; SV "v"; SV "v"; SV "o"]); (EVar "l2_abab"); (EVar "l2_abab"); (EVar "t2_abab"); (EVar "t2_abab")]));
   (*L1506*) SAug true "energy" (EScale (1 # 2) (EEins "mbel,ijab,klcd,edij,cakm" [(ESlice (EVar "g_abab") [SV "o"; SV "v"; SV "v"; SV "o"]); (EVar "l2_abab"); (EVar "l2_abab"); (EVar "t2_abab"); (EVar "t2_aaaa")]));
   (*L1509*) SAug true "energy" (EScale (1 # 2) (EEins "mble,ijab,lkdc,deij,acmk" [(ESlice (EVar "g_abab") [SV "o"; SV "v"; SV "o"; SV "v"]); (EVar "l2_abab"); (EVar "l2_abab"); (EVar "t2_abab"); (EVar "t2_abab")]));
   (*L1512*) SAug true "energy" (EScale (-1 # 2) (EEins "mbel,ijab,kldc,edij,acmk" [(ESlice (EVar "g_abab") [SV "o"; SV "v"; SV "v"; SV "o"]); (EVar "l2_abab"); (EVar "l2_bbbb"); (EVar "t2_abab"); (EVar "t2_abab")]));
   (*L1515*) SAug true "energy" (EScale (-1 # 2) (EEins "bmle,jiba,kldc,deji,cakm" [(ESlice (EVar "g_abab") [SV "v"; SV "o"; SV "o"; SV "v"]); (EVar "l2_abab"); (EVar "l2_aaaa"); (EVar "t2_abab"); (EVar "t2_abab")]));
   (*L1518*) SAug true "energy" (EScale (1 # 2) (EEins "bmel,jiba,klcd,edji,cakm" [(ESlice (EVar "g_abab") [SV "v"; SV "o"; SV "v"; SV "o"]); (EVar "l2_abab"); (EVar "l2_abab"); (EVar "t2_abab"); (EVar "t2_abab")]));
   (*L1521*) SAug true "energy" (EScale (1 # 2) (EEins "bmle,jiba,lkdc,deji,cakm" [(ESlice (EVar "g_abab") [SV "v"; SV "o"; SV "o"; SV "v"]); (EVar "l2_abab"); (EVar "l2_abab"); (EVar "t2_abab"); (EVar "t2_bbbb")]));
   (*L1524*) SAug true "energy" (EScale (-1 # 2) (EEins "mbel,jiba,lkcd,edji,camk" [(ESlice (EVar "g_aaaa") [SV "o"; SV "v"; SV "v"; SV "o"]); (EVar "l2_abab"); (EVar "l2_abab"); (EVar "t2_abab"); (EVar "t2_abab")]));
   (*L1527*) SAug true "energy" (EScale (-1 # 2) (EEins "bmel,jiba,kldc,edji,cakm" [(ESlice (EVar "g_abab") [SV "v"; SV "o"; SV "v"; SV "o"]); (EVar "l2_abab"); (EVar "l2_bbbb"); (EVar "t2_abab"); (EVar "t2_bbbb")]));
   (*L1530*) SAug true "energy" (EScale (-1 # 2) (EEins "mble,jiab,kldc,deji,cakm" [(ESlice (EVar "g_abab") [SV "o"; SV "v"; SV "o"; SV "v"]); (EVar "l2_abab"); (EVar "l2_aaaa"); (EVar "t2_abab"); (EVar "t2_aaaa")]));
   (*L1533*) SAug true "energy" (EScale (-1 # 2) (EEins "mbel,jiab,kldc,deji,ackm" [(ESlice (EVar "g_bbbb") [SV "o"; SV "v"; SV "v"; SV "o"]); (EVar "l2_abab"); (EVar "l2_abab"); (EVar "t2_abab"); (EVar "t2_abab")]));
   (*L1536*) SAug true "energy" (EScale (1 # 2) (EEins "mbel,jiab,klcd,edji,cakm" [(ESlice (EVar "g_abab") [SV "o"; SV "v"; SV "v"; SV "o"]); (EVar "l2_abab"); (EVar "l2_abab"); (EVar "t2_abab"); (EVar "t2_aaaa")]));
   (*L1539*) SAug true "energy" (EScale (1 # 2) (EEins "mble,jiab,lkdc,deji,acmk" [(ESlice (EVar "g_abab") [SV "o"; SV "v"; SV "o"; SV "v"]); (EVar "l2_abab"); (EVar "l2_abab"); (EVar "t2_abab"); (EVar "t2_abab")]));
   (*L1542*) SAug true "energy" (EScale (-1 # 2) (EEins "mbel,jiab,kldc,edji,acmk" [(ESlice (EVar "g_abab") [SV "o"; SV "v"; SV "v"; SV "o"]); (EVar "l2_abab"); (EVar "l2_bbbb"); (EVar "t2_abab"); (EVar "t2_abab")]));
   (*L1545*) SAug true "energy" (EScale (-1 # 2) (EEins "mbel,ijba,klcd,edij,cakm" [(ESlice (EVar "g_bbbb") [SV "o"; SV "v"; SV "v"; SV "o"]); (EVar "l2_bbbb"); (EVar "l2_abab"); (EVar "t2_bbbb"); (EVar "t2_abab")]));
   (*L1548*) SAug true "energy" (EScale (1 # 2) (EEins "mble,ijba,lkcd,edij,camk" [(ESlice (EVar "g_abab") [SV "o"; SV "v"; SV "o"; SV "v"]); (EVar "l2_bbbb"); (EVar "l2_abab"); (EVar "t2_bbbb"); (EVar "t2_abab")]));
   (*L1551*) SAug true "energy" (EScale (1 # 2) (EEins "mbel,ijba,kldc,edij,cakm" [(ESlice (EVar "g_bbbb") [SV "o"; SV "v"; SV "v"; SV "o"]); (EVar "l2_bbbb"); (EVar "l2_bbbb"); (EVar "t2_bbbb"); (EVar "t2_bbbb")]));
   (*L1554*) SAug true "energy" (EScale (1 # 2) (EEins "mbel,ijba,kldc,eajk,dcim" [(ESlice (EVar "g_aaaa") [SV "o"; SV "v"; SV "v"; SV "o"]); (EVar "l2_aaaa"); (EVar "l2_aaaa"); (EVar "t2_aaaa"); (EVar "t2_aaaa")]));
   (*L1557*) SAug true "energy" (EScale (-1 # 2) (EEins "bmel,ijba,kldc,eajk,dcim" [(ESlice (EVar "g_abab") [SV "v"; SV "o"; SV "v"; SV "o"]); (EVar "l2_aaaa"); (EVar "l2_abab"); (EVar "t2_aaaa"); (EVar "t2_abab")]));
   (*L1560*) SAug true "energy" (EScale (-1 # 2) (EEins "bmel,ijba,klcd,eajk,cdim" [(ESlice (EVar "g_abab") [SV "v"; SV "o"; SV "v"; SV "o"]); (EVar "l2_aaaa"); (EVar "l2_abab"); (EVar "t2_aaaa"); (EVar "t2_abab")]));
   (*L1563*) SAug true "energy" (EScale (1 # 2) (EEins "bmle,ijba,lkdc,aejk,dcim" [(ESlice (EVar "g_abab") [SV "v"; SV "o"; SV "o"; SV "v"]); (EVar "l2_aaaa"); (EVar "l2_abab"); (EVar "t2_abab"); (EVar "t2_abab")]));
   (*L1566*) SAug true "energy" (EScale (1 # 2) (EEins "bmle,ijba,lkcd,aejk,cdim" [(ESlice (EVar "g_abab") [SV "v"; SV "o"; SV "o"; SV "v"]); (EVar "l2_aaaa"); (EVar "l2_abab"); (EVar "t2_abab"); (EVar "t2_abab")]));
   (*L1569*) SAug true "energy" (EScale (-1 # 2) (EEins "mbel,ijba,kldc,eakj,dcim" [(ESlice (EVar "g_aaaa") [SV "o"; SV "v"; SV "v"; SV "o"]); (EVar "l2_abab"); (EVar "l2_aaaa"); (EVar "t2_abab"); (EVar "t2_aaaa")]));
   (*L1572*) SAug true "energy" (EScale (1 # 2) (EEins "bmel,ijba,kldc,eakj,dcim" [(ESlice (EVar "g_abab") [SV "v"; SV "o"; SV "v"; SV "o"]); (EVar "l2_abab"); (EVar "l2_abab"); (EVar "t2_abab"); (EVar "t2_abab")]));
   (*L1575*) SAug true "energy" (EScale (1 # 2) (EEins "bmel,ijba,klcd,eakj,cdim" [(ESlice (EVar "g_abab") [SV "v"; SV "o"; SV "v"; SV "o"]); (EVar "l2_abab"); (EVar "l2_abab"); (EVar "t2_abab"); (EVar "t2_abab")]));
   (*L1578*) SAug true "energy" (EScale (-1 # 2) (EEins "bmle,ijba,lkdc,eajk,dcim" [(ESlice (EVar "g_abab") [SV "v"; SV "o"; SV "o"; SV "v"]); (EVar "l2_abab"); (EVar "l2_abab"); (EVar "t2_bbbb"); (EVar "t2_abab")]));
   (*L1581*) SAug true "energy" (EScale (-1 # 2) (EEins "bmle,ijba,lkcd,eajk,cdim" [(ESlice (EVar "g_abab") [SV "v"; SV "o"; SV "o"; SV "v"]); (EVar "l2_abab"); (EVar "l2_abab"); (EVar "t2_bbbb"); (EVar "t2_abab")]));
   (*L1584*) SAug true "energy" (EScale (1 # 2) (EEins "mble,ijab,kldc,aekj,dcim" [(ESlice (EVar "g_abab") [SV "o"; SV "v"; SV "o"; SV "v"]); (EVar "l2_abab"); (EVar "l2_aaaa"); (EVar "t2_abab"); (EVar "t2_aaaa")]));
   (*L1587*) SAug true "energy" (EScale (-1 # 2) (EEins "mbel,ijab,kldc,aekj,dcim" [(ESlice (EVar "g_bbbb") [SV "o"; SV "v"; SV "v"; SV "o"]); (EVar "l2_abab"); (EVar "l2_abab"); (EVar "t2_abab"); (EVar "t2_abab")]));
   (*L1590*) SAug true "energy" (EScale (-1 # 2) (EEins "mbel,ijab,klcd,aekj,cdim" [(ESlice (EVar "g_bbbb") [SV "o"; SV "v"; SV "v"; SV "o"]); (EVar "l2_abab"); (EVar "l2_abab"); (EVar "t2_abab"); (EVar "t2_abab")]));
   (*L1593*) SAug true "energy" (EScale (-1 # 2) (EEins "mbel,jiba,lkdc,eajk,dcmi" [(ESlice (EVar "g_aaaa") [SV "o"; SV "v"; SV "v"; SV "o"]); (EVar "l2_abab"); (EVar "l2_abab"); (EVar "t2_abab"); (EVar "t2_abab")]));
   (*L1596*) SAug true "energy" (EScale (-1 # 2) (EEins "mbel,jiba,lkcd,eajk,cdmi" [(ESlice (EVar "g_aaaa") [SV "o"; SV "v"; SV "v"; SV "o"]); (EVar "l2_abab"); (EVar "l2_abab"); (EVar "t2_abab"); (EVar "t2_abab")]));
   (*L1599*) SAug true "energy" (EScale (1 # 2) (EEins "bmel,jiba,kldc,eajk,dcim" [(ESlice (EVar "g_abab") [SV "v"; SV "o"; SV "v"; SV "o"]); (EVar "l2_abab"); (EVar "l2_bbbb"); (EVar "t2_abab"); (EVar "t2_bbbb")]));
   (*L1602*) SAug true "energy" (EScale (-1 # 2) (EEins "mbel,jiab,kldc,eajk,dcmi" [(ESlice (EVar "g_abab") [SV "o"; SV "v"; SV "v"; SV "o"]); (EVar "l2_abab"); (EVar "l2_abab"); (EVar "t2_aaaa"); (EVar "t2_abab")]));
   (*L1605*) SAug true "energy" (EScale (-1 # 2) (EEins "mbel,jiab,klcd,eajk,cdmi" [(ESlice (EVar "g_abab") [SV "o"; SV "v"; SV "v"; SV "o"]); (EVar "l2_abab"); (EVar "l2_abab"); (EVar "t2_aaaa"); (EVar "t2_abab")]));
   (*L1608*) SAug true "energy" (EScale (1 # 2) (EEins "mble,jiab,lkdc,aejk,dcmi" [(ESlice (EVar "g_abab") [SV "o"; SV "v"; SV "o"; SV "v"]); (EVar "l2_abab"); (EVar "l2_abab"); (EVar "t2_abab"); (EVar "t2_abab")]));
   (*L1611*) SAug true "energy" (EScale (1 # 2) (EEins "mble,jiab,lkcd,aejk,cdmi" [(ESlice (EVar "g_abab") [SV "o"; SV "v"; SV "o"; SV "v"]); (EVar "l2_abab"); (EVar "l2_abab"); (EVar "t2_abab"); (EVar "t2_abab")]));
   (*L1614*) SAug true "energy" (EScale (-1 # 2) (EEins "mbel,jiab,kldc,aejk,dcim" [(ESlice (EVar "g_bbbb") [SV "o"; SV "v"; SV "v"; SV "o"]); (EVar "l2_abab"); (EVar "l2_bbbb"); (EVar "t2_abab"); (EVar "t2_bbbb")]));
   (*L1617*) SAug true "energy" (EScale (1 # 2) (EEins "mbel,ijba,kldc,eakj,dcmi" [(ESlice (EVar "g_abab") [SV "o"; SV "v"; SV "v"; SV "o"]); (EVar "l2_bbbb"); (EVar "l2_abab"); (EVar "t2_abab"); (EVar "t2_abab")]));
   (*L1620*) SAug true "energy" (EScale (1 # 2) (EEins "mbel,ijba,klcd,eakj,cdmi" [(ESlice (EVar "g_abab") [SV "o"; SV "v"; SV "v"; SV "o"]); (EVar "l2_bbbb"); (EVar "l2_abab"); (EVar "t2_abab"); (EVar "t2_abab")]));
   (*L1623*) SAug true "energy" (EScale (-1 # 2) (EEins "mble,ijba,lkdc,eajk,dcmi" [(ESlice (EVar "g_abab") [SV "o"; SV "v"; SV "o"; SV "v"]); (EVar "l2_bbbb"); (EVar "l2_abab"); (EVar "t2_bbbb"); (EVar "t2_abab")]));
   (*L1626*) SAug true "energy" (EScale (-1 # 2) (EEins "mble,ijba,lkcd,eajk,cdmi" [(ESlice (EVar "g_abab") [SV "o"; SV "v"; SV "o"; SV "v"]); (EVar "l2_bbbb"); (EVar "l2_abab"); (EVar "t2_bbbb"); (EVar "t2_abab")]));
   (*L1629*) SAug true "energy" (EScale (1 # 2) (EEins "mbel,ijba,kldc,eajk,dcim" [(ESlice (EVar "g_bbbb") [SV "o"; SV "v"; SV "v"; SV "o"]); (EVar "l2_bbbb"); (EVar "l2_bbbb"); (EVar "t2_bbbb"); (EVar "t2_bbbb")]));
   (*L1632*) SAug true "energy" (EScale (1 # 4) (EEins "mbel,ijba,kldc,eaij,dckm" [(ESlice (EVar "g_aaaa") [SV "o"; SV "v"; SV "v"; SV "o"]); (EVar "l2_aaaa"); (EVar "l2_aaaa"); (EVar "t2_aaaa"); (EVar "t2_aaaa")]));
   (*L1635*) SAug true "energy" (EScale (-1 # 4) (EEins "bmel,ijba,kldc,eaij,dckm" [(ESlice (EVar "g_abab") [SV "v"; SV "o"; SV "v"; SV "o"]); (EVar "l2_aaaa"); (EVar "l2_abab"); (EVar "t2_aaaa"); (EVar "t2_abab")]));
   (*L1638*) SAug true "energy" (EScale (-1 # 4) (EEins "bmel,ijba,klcd,eaij,cdkm" [(ESlice (EVar "g_abab") [SV "v"; SV "o"; SV "v"; SV "o"]); (EVar "l2_aaaa"); (EVar "l2_abab"); (EVar "t2_aaaa"); (EVar "t2_abab")]));
   (*L1641*) SAug true "energy" (EScale (1 # 4) (EEins "mbel,ijba,lkdc,eaij,dcmk" [(ESlice (EVar "g_aaaa") [SV "o"; SV "v"; SV "v"; SV "o"]); (EVar "l2_aaaa"); (EVar "l2_abab"); (EVar "t2_aaaa"); (EVar "t2_abab")]));
   (*L1644*) SAug true "energy" (EScale (1 # 4) (EEins "mbel,ijba,lkcd,eaij,cdmk" [(ESlice (EVar "g_aaaa") [SV "o"; SV "v"; SV "v"; SV "o"]); (EVar "l2_aaaa"); (EVar "l2_abab"); (EVar "t2_aaaa"); (EVar "t2_abab")]));
   (*L1647*) SAug true "energy" (EScale (-1 # 4) (EEins "bmel,ijba,kldc,eaij,dckm" [(ESlice (EVar "g_abab") [SV "v"; SV "o"; SV "v"; SV "o"]); (EVar "l2_aaaa"); (EVar "l2_bbbb"); (EVar "t2_aaaa"); (EVar "t2_bbbb")]));
   (*L1650*) SAug true "energy" (EScale (1 # 4) (EEins "mbel,ijba,kldc,eaij,dckm" [(ESlice (EVar "g_aaaa") [SV "o"; SV "v"; SV "v"; SV "o"]); (EVar "l2_abab"); (EVar "l2_aaaa"); (EVar "t2_abab"); (EVar "t2_aaaa")]));
   (*L1653*) SAug true "energy" (EScale (-1 # 4) (EEins "bmel,ijba,kldc,eaij,dckm" [(ESlice (EVar "g_abab") [SV "v"; SV "o"; SV "v"; SV "o"]); (EVar "l2_abab"); (EVar "l2_abab"); (EVar "t2_abab"); (EVar "t2_abab")]));
   (*L1656*) SAug true "energy" (EScale (-1 # 4) (EEins "bmel,ijba,klcd,eaij,cdkm" [(ESlice (EVar "g_abab") [SV "v"; SV "o"; SV "v"; SV "o"]); (EVar "l2_abab"); (EVar "l2_abab"); (EVar "t2_abab"); (EVar "t2_abab")]));
   (*L1659*) SAug true "energy" (EScale (1 # 4) (EEins "mbel,ijba,lkdc,eaij,dcmk" [(ESlice (EVar "g_aaaa") [SV "o"; SV "v"; SV "v"; SV "o"]); (EVar "l2_abab"); (EVar "l2_abab"); (EVar "t2_abab"); (EVar "t2_abab")]));
   (*L1662*) SAug true "energy" (EScale (1 # 4) (EEins "mbel,ijba,lkcd,eaij,cdmk" [(ESlice (EVar "g_aaaa") [SV "o"; SV "v"; SV "v"; SV "o"]); (EVar "l2_abab"); (EVar "l2_abab"); (EVar "t2_abab"); (EVar "t2_abab")]));
   (*L1665*) SAug true "energy" (EScale (-1 # 4) (EEins "bmel,ijba,kldc,eaij,dckm" [(ESlice (EVar "g_abab") [SV "v"; SV "o"; SV "v"; SV "o"]); (EVar "l2_abab"); (EVar "l2_bbbb"); (EVar "t2_abab"); (EVar "t2_bbbb")]));
   (*L1668*) SAug true "energy" (EScale (-1 # 4) (EEins "mble,ijab,kldc,aeij,dckm" [(ESlice (EVar "g_abab") [SV "o"; SV "v"; SV "o"; SV "v"]); (EVar "l2_abab"); (EVar "l2_aaaa"); (EVar "t2_abab"); (EVar "t2_aaaa")]));
   (*L1671*) SAug true "energy" (EScale (1 # 4) (EEins "mbel,ijab,kldc,aeij,dckm" [(ESlice (EVar "g_bbbb") [SV "o"; SV "v"; SV "v"; SV "o"]); (EVar "l2_abab"); (EVar "l2_abab"); (EVar "t2_abab"); (EVar "t2_abab")]));
   (*L1674*) SAug true "energy" (EScale (1 # 4) (EEins "mbel,ijab,klcd,aeij,cdkm" [(ESlice (EVar "g_bbbb") [SV "o"; SV "v"; SV "v"; SV "o"]); (EVar "l2_abab"); (EVar "l2_abab"); (EVar "t2_abab"); (EVar "t2_abab")]));
   (*L1677*) SAug true "energy" (EScale (-1 # 4) (EEins "mble,ijab,lkdc,aeij,dcmk" [(ESlice (EVar "g_abab") [SV "o"; SV "v"; SV "o"; SV "v"]); (EVar "l2_abab"); (EVar "l2_abab"); (EVar "t2_abab"); (EVar "t2_abab")]));
   (*L1680*) SAug true "energy" (EScale (-1 # 4) (EEins "mble,ijab,lkcd,aeij,cdmk" [(ESlice (EVar "g_abab") [SV "o"; SV "v"; SV "o"; SV "v"]); (EVar "l2_abab"); (EVar "l2_abab"); (EVar "t2_abab"); (EVar "t2_abab")]));
   (*L1683*) SAug true "energy" (EScale (1 # 4) (EEins "mbel,ijab,kldc,aeij,dckm" [(ESlice (EVar "g_bbbb") [SV "o"; SV "v"; SV "v"; SV "o"]); (EVar "l2_abab"); (EVar "l2_bbbb"); (EVar "t2_abab"); (EVar "t2_bbbb")]));
   (*L1686*) SAug true "energy" (EScale (1 # 4) (EEins "mbel,jiba,kldc,eaji,dckm" [(ESlice (EVar "g_aaaa") [SV "o"; SV "v"; SV "v"; SV "o"]); (EVar "l2_abab"); (EVar "l2_aaaa"); (EVar "t2_abab"); (EVar "t2_aaaa")]));
   (*L1689*) SAug true "energy" (EScale (-1 # 4) (EEins "bmel,jiba,kldc,eaji,dckm" [(ESlice (EVar "g_abab") [SV "v"; SV "o"; SV "v"; SV "o"]); (EVar "l2_abab"); (EVar "l2_abab"); (EVar "t2_abab"); (EVar "t2_abab")]));
   (*L1692*) SAug true "energy" (EScale (-1 # 4) (EEins "bmel,jiba,klcd,eaji,cdkm" [(ESlice (EVar "g_abab") [SV "v"; SV "o"; SV "v"; SV "o"]); (EVar "l2_abab"); (EVar "l2_abab"); (EVar "t2_abab"); (EVar "t2_abab")]));
   (*L1695*) SAug true "energy" (EScale (1 # 4) (EEins "mbel,jiba,lkdc,eaji,dcmk" [(ESlice (EVar "g_aaaa") [SV "o"; SV "v"; SV "v"; SV "o"]); (EVar "l2_abab"); (EVar "l2_abab"); (EVar "t2_abab"); (EVar "t2_abab")]));
   (*L1698*) SAug true "energy" (EScale (1 # 4) (EEins "mbel,jiba,lkcd,eaji,cdmk" [(ESlice (EVar "g_aaaa") [SV "o"; SV "v"; SV "v"; SV "o"]); (EVar "l2_abab"); (EVar "l2_abab"); (EVar "t2_abab"); (EVar "t2_abab")]));
   (*L1701*) SAug true "energy" (EScale (-1 # 4) (EEins "bmel,jiba,kldc,eaji,dckm" [(ESlice (EVar "g_abab") [SV "v"; SV "o"; SV "v"; SV "o"]); (EVar "l2_abab"); (EVar "l2_bbbb"); (EVar "t2_abab"); (EVar "t2_bbbb")]));
   (*L1704*) SAug true "energy" (EScale (-1 # 4) (EEins "mble,jiab,kldc,aeji,dckm" [(ESlice (EVar "g_abab") [SV "o"; SV "v"; SV "o"; SV "v"]); (EVar "l2_abab"); (EVar "l2_aaaa"); (EVar "t2_abab"); (EVar "t2_aaaa")]));
   (*L1707*) SAug true "energy" (EScale (1 # 4) (EEins "mbel,jiab,kldc,aeji,dckm" [(ESlice (EVar "g_bbbb") [SV "o"; SV "v"; SV "v"; SV "o"]); (EVar "l2_abab"); (EVar "l2_abab"); (EVar "t2_abab"); (EVar "t2_abab")]));
   (*L1710*) SAug true "energy" (EScale (1 # 4) (EEins "mbel,jiab,klcd,aeji,cdkm" [(ESlice (EVar "g_bbbb") [SV "o"; SV "v"; SV "v"; SV "o"]); (EVar "l2_abab"); (EVar "l2_abab"); (EVar "t2_abab"); (EVar "t2_abab")]));
   (*L1713*) SAug true "energy" (EScale (-1 # 4) (EEins "mble,jiab,lkdc,aeji,dcmk" [(ESlice (EVar "g_abab") [SV "o"; SV "v"; SV "o"; SV "v"]); (EVar "l2_abab"); (EVar "l2_abab"); (EVar "t2_abab"); (EVar "t2_abab")]));
   (*L1716*) SAug true "energy" (EScale (-1 # 4) (EEins "mble,jiab,lkcd,aeji,cdmk" [(ESlice (EVar "g_abab") [SV "o"; SV "v"; SV "o"; SV "v"]); (EVar "l2_abab"); (EVar "l2_abab"); (EVar "t2_abab"); (EVar "t2_abab")]));
   (*L1719*) SAug true "energy" (EScale (1 # 4) (EEins "mbel,jiab,kldc,aeji,dckm" [(ESlice (EVar "g_bbbb") [SV "o"; SV "v"; SV "v"; SV "o"]); (EVar "l2_abab"); (EVar "l2_bbbb"); (EVar "t2_abab"); (EVar "t2_bbbb")]));
   (*L1722*) SAug true "energy" (EScale (-1 # 4) (EEins "mble,ijba,kldc,eaij,dckm" [(ESlice (EVar "g_abab") [SV "o"; SV "v"; SV "o"; SV "v"]); (EVar "l2_bbbb"); (EVar "l2_aaaa"); (EVar "t2_bbbb"); (EVar "t2_aaaa")]));
   (*L1725*) SAug true "energy" (EScale (1 # 4) (EEins "mbel,ijba,kldc,eaij,dckm" [(ESlice (EVar "g_bbbb") [SV "o"; SV "v"; SV "v"; SV "o"]); (EVar "l2_bbbb"); (EVar "l2_abab"); (EVar "t2_bbbb"); (EVar "t2_abab")]));
   (*L1728*) SAug true "energy" (EScale (1 # 4) (EEins "mbel,ijba,klcd,eaij,cdkm" [(ESlice (EVar "g_bbbb") [SV "o"; SV "v"; SV "v"; SV "o"]); (EVar "l2_bbbb"); (EVar "l2_abab"); (EVar "t2_bbbb"); (EVar "t2_abab")]));
   (*L1731*) SAug true "energy" (EScale (-1 # 4) (EEins "mble,ijba,lkdc,eaij,dcmk" [(ESlice (EVar "g_abab") [SV "o"; SV "v"; SV "o"; SV "v"]); (EVar "l2_bbbb"); (EVar "l2_abab"); (EVar "t2_bbbb"); (EVar "t2_abab")]));
   (*L1734*) SAug true "energy" (EScale (-1 # 4) (EEins "mble,ijba,lkcd,eaij,cdmk" [(ESlice (EVar "g_abab") [SV "o"; SV "v"; SV "o"; SV "v"]); (EVar "l2_bbbb"); (EVar "l2_abab"); (EVar "t2_bbbb"); (EVar "t2_abab")]));
   (*L1737*) SAug true "energy" (EScale (1 # 4) (EEins "mbel,ijba,kldc,eaij,dckm" [(ESlice (EVar "g_bbbb") [SV "o"; SV "v"; SV "v"; SV "o"]); (EVar "l2_bbbb"); (EVar "l2_bbbb"); (EVar "t2_bbbb"); (EVar "t2_bbbb")]));
   (*L1740*) SAug true "energy" (EScale (1 # 2) (EEins "mbej,ijba,kldc,edkl,caim" [(ESlice (EVar "g_aaaa") [SV "o"; SV "v"; SV "v"; SV "o"]); (EVar "l2_aaaa"); (EVar "l2_aaaa"); (EVar "t2_aaaa"); (EVar "t2_aaaa")]));
   (*L1743*) SAug true "energy" (EScale (1 # 2) (EEins "bmje,ijba,kldc,dekl,acim" [(ESlice (EVar "g_abab") [SV "v"; SV "o"; SV "o"; SV "v"]); (EVar "l2_aaaa"); (EVar "l2_abab"); (EVar "t2_abab"); (EVar "t2_abab")]));
   (*L1746*) SAug true "energy" (EScale (-1 # 2) (EEins "mbej,ijba,klcd,edkl,caim" [(ESlice (EVar "g_aaaa") [SV "o"; SV "v"; SV "v"; SV "o"]); (EVar "l2_aaaa"); (EVar "l2_abab"); (EVar "t2_abab"); (EVar "t2_aaaa")]));
   (*L1749*) SAug true "energy" (EScale (1 # 2) (EEins "bmje,ijba,lkdc,delk,acim" [(ESlice (EVar "g_abab") [SV "v"; SV "o"; SV "o"; SV "v"]); (EVar "l2_aaaa"); (EVar "l2_abab"); (EVar "t2_abab"); (EVar "t2_abab")]));
   (*L1752*) SAug true "energy" (EScale (-1 # 2) (EEins "mbej,ijba,lkcd,edlk,caim" [(ESlice (EVar "g_aaaa") [SV "o"; SV "v"; SV "v"; SV "o"]); (EVar "l2_aaaa"); (EVar "l2_abab"); (EVar "t2_abab"); (EVar "t2_aaaa")]));
   (*L1755*) SAug true "energy" (EScale (-1 # 2) (EEins "bmje,ijba,kldc,edkl,acim" [(ESlice (EVar "g_abab") [SV "v"; SV "o"; SV "o"; SV "v"]); (EVar "l2_aaaa"); (EVar "l2_bbbb"); (EVar "t2_bbbb"); (EVar "t2_abab")]));
   (*L1758*) SAug true "energy" (EScale (-1 # 2) (EEins "bmej,ijba,kldc,edkl,caim" [(ESlice (EVar "g_abab") [SV "v"; SV "o"; SV "v"; SV "o"]); (EVar "l2_abab"); (EVar "l2_aaaa"); (EVar "t2_aaaa"); (EVar "t2_abab")]));
   (*L1761*) SAug true "energy" (EScale (1 # 2) (EEins "bmej,ijba,klcd,edkl,caim" [(ESlice (EVar "g_abab") [SV "v"; SV "o"; SV "v"; SV "o"]); (EVar "l2_abab"); (EVar "l2_abab"); (EVar "t2_abab"); (EVar "t2_abab")]));
   (*L1764*) SAug true "energy" (EScale (1 # 2) (EEins "bmej,ijba,lkcd,edlk,caim" [(ESlice (EVar "g_abab") [SV "v"; SV "o"; SV "v"; SV "o"]); (EVar "l2_abab"); (EVar "l2_abab"); (EVar "t2_abab"); (EVar "t2_abab")]));
   (*L1767*) SAug true "energy" (EScale (-1 # 2) (EEins "mbej,ijab,kldc,edkl,caim" [(ESlice (EVar "g_abab") [SV "o"; SV "v"; SV "v"; SV "o"]); (EVar "l2_abab"); (EVar "l2_aaaa"); (EVar "t2_aaaa"); (EVar "t2_aaaa")]));
   (*L1770*) SAug true "energy" (EScale (-1 # 2) (EEins "mbej,ijab,kldc,dekl,acim" [(ESlice (EVar "g_bbbb") [SV "o"; SV "v"; SV "v"; SV "o"]); (EVar "l2_abab"); (EVar "l2_abab"); (EVar "t2_abab"); (EVar "t2_abab")]));
   (*L1773*) SAug true "energy" (EScale (1 # 2) (EEins "mbej,ijab,klcd,edkl,caim" [(ESlice (EVar "g_abab") [SV "o"; SV "v"; SV "v"; SV "o"]); (EVar "l2_abab"); (EVar "l2_abab"); (EVar "t2_abab"); (EVar "t2_aaaa")]));
   (*L1776*) SAug true "energy" (EScale (-1 # 2) (EEins "mbej,ijab,lkdc,delk,acim" [(ESlice (EVar "g_bbbb") [SV "o"; SV "v"; SV "v"; SV "o"]); (EVar "l2_abab"); (EVar "l2_abab"); (EVar "t2_abab"); (EVar "t2_abab")]));
   (*L1779*) SAug true "energy" (EScale (1 # 2) (EEins "mbej,ijab,lkcd,edlk,caim" [(ESlice (EVar "g_abab") [SV "o"; SV "v"; SV "v"; SV "o"]); (EVar "l2_abab"); (EVar "l2_abab"); (EVar "t2_abab"); (EVar "t2_aaaa")]));
   (*L1782*) SAug true "energy" (EScale (1 # 2) (EEins "mbej,ijab,kldc,edkl,acim" [(ESlice (EVar "g_bbbb") [SV "o"; SV "v"; SV "v"; SV "o"]); (EVar "l2_abab"); (EVar "l2_bbbb"); (EVar "t2_bbbb"); (EVar "t2_abab")]));
   (*L1785*) SAug true "energy" (EScale (1 # 2) (EEins "mbej,jiba,kldc,edkl,cami" [(ESlice (EVar "g_aaaa") [SV "o"; SV "v"; SV "v"; SV "o"]); (EVar "l2_abab"); (EVar "l2_aaaa"); (EVar "t2_aaaa"); (EVar "t2_abab")]));
   (*L1788*) SAug true "energy" (EScale (1 # 2) (EEins "bmje,jiba,kldc,dekl,caim" [(ESlice (EVar "g_abab") [SV "v"; SV "o"; SV "o"; SV "v"]); (EVar "l2_abab"); (EVar "l2_abab"); (EVar "t2_abab"); (EVar "t2_bbbb")]));
   (*L1791*) SAug true "energy" (EScale (-1 # 2) (EEins "mbej,jiba,klcd,edkl,cami" [(ESlice (EVar "g_aaaa") [SV "o"; SV "v"; SV "v"; SV "o"]); (EVar "l2_abab"); (EVar "l2_abab"); (EVar "t2_abab"); (EVar "t2_abab")]));
   (*L1794*) SAug true "energy" (EScale (1 # 2) (EEins "bmje,jiba,lkdc,delk,caim" [(ESlice (EVar "g_abab") [SV "v"; SV "o"; SV "o"; SV "v"]); (EVar "l2_abab"); (EVar "l2_abab"); (EVar "t2_abab"); (EVar "t2_bbbb")]));
   (*L1797*) SAug true "energy" (EScale (-1 # 2) (EEins "mbej,jiba,lkcd,edlk,cami" [(ESlice (EVar "g_aaaa") [SV "o"; SV "v"; SV "v"; SV "o"]); (EVar "l2_abab"); (EVar "l2_abab"); (EVar "t2_abab"); (EVar "t2_abab")]));
   (*L1800*) SAug true "energy" (EScale (-1 # 2) (EEins "bmje,jiba,kldc,edkl,caim" [(ESlice (EVar "g_abab") [SV "v"; SV "o"; SV "o"; SV "v"]); (EVar "l2_abab"); (EVar "l2_bbbb"); (EVar "t2_bbbb"); (EVar "t2_bbbb")]));
   (*L1803*) SAug true "energy" (EScale (1 # 2) (EEins "mbje,jiab,kldc,dekl,acmi" [(ESlice (EVar "g_abab") [SV "o"; SV "v"; SV "o"; SV "v"]); (EVar "l2_abab"); (EVar "l2_abab"); (EVar "t2_abab"); (EVar "t2_abab")]));
   (*L1806*) SAug true "energy" (EScale (1 # 2) (EEins "mbje,jiab,lkdc,delk,acmi" [(ESlice (EVar "g_abab") [SV "o"; SV "v"; SV "o"; SV "v"]); (EVar "l2_abab"); (EVar "l2_abab"); (EVar "t2_abab"); (EVar "t2_abab")]));
   (*L1809*) SAug true "energy" (EScale (-1 # 2) (EEins "mbje,jiab,kldc,edkl,acmi" [(ESlice (EVar "g_abab") [SV "o"; SV "v"; SV "o"; SV "v"]); (EVar "l2_abab"); (EVar "l2_bbbb"); (EVar "t2_bbbb"); (EVar "t2_abab")]));
   (*L1812*) SAug true "energy" (EScale (-1 # 2) (EEins "mbej,ijba,kldc,edkl,cami" [(ESlice (EVar "g_abab") [SV "o"; SV "v"; SV "v"; SV "o"]); (EVar "l2_bbbb"); (EVar "l2_aaaa"); (EVar "t2_aaaa"); (EVar "t2_abab")]));
   (*L1815*) SAug true "energy" (EScale (-1 # 2) (EEins "mbej,ijba,kldc,dekl,caim" [(ESlice (EVar "g_bbbb") [SV "o"; SV "v"; SV "v"; SV "o"]); (EVar "l2_bbbb"); (EVar "l2_abab"); (EVar "t2_abab"); (EVar "t2_bbbb")]));
   (*L1818*) SAug true "energy" (EScale (1 # 2) (EEins "mbej,ijba,klcd,edkl,cami" [(ESlice (EVar "g_abab") [SV "o"; SV "v"; SV "v"; SV "o"]); (EVar "l2_bbbb"); (EVar "l2_abab"); (EVar "t2_abab"); (EVar "t2_abab")]));
   (*L1821*) SAug true "energy" (EScale (-1 # 2) (EEins "mbej,ijba,lkdc,delk,caim" [(ESlice (EVar "g_bbbb") [SV "o"; SV "v"; SV "v"; SV "o"]); (EVar "l2_bbbb"); (EVar "l2_abab"); (EVar "t2_abab"); (EVar "t2_bbbb")]));
   (*L1824*) SAug true "energy" (EScale (1 # 2) (EEins "mbej,ijba,lkcd,edlk,cami" [(ESlice (EVar "g_abab") [SV "o"; SV "v"; SV "v"; SV "o"]); (EVar "l2_bbbb"); (EVar "l2_abab"); (EVar "t2_abab"); (EVar "t2_abab")]));
   (*L1827*) SAug true "energy" (EScale (1 # 2) (EEins "mbej,ijba,kldc,edkl,caim" [(ESlice (EVar "g_bbbb") [SV "o"; SV "v"; SV "v"; SV "o"]); (EVar "l2_bbbb"); (EVar "l2_bbbb"); (EVar "t2_bbbb"); (EVar "t2_bbbb")]));
   (*L1830*) SAug true "energy" (EScale (-1 # 1) (EEins "mbej,ijba,kldc,edil,cakm" [(ESlice (EVar "g_aaaa") [SV "o"; SV "v"; SV "v"; SV "o"]); (EVar "l2_aaaa"); (EVar "l2_aaaa"); (EVar "t2_aaaa"); (EVar "t2_aaaa")]));
   (*L1833*) SAug true "energy" (EScale (-1 # 1) (EEins "bmje,ijba,kldc,deil,ackm" [(ESlice (EVar "g_abab") [SV "v"; SV "o"; SV "o"; SV "v"]); (EVar "l2_aaaa"); (EVar "l2_abab"); (EVar "t2_abab"); (EVar "t2_abab")]));
   (*L1836*) SAug true "energy" (EScale (1 # 1) (EEins "mbej,ijba,klcd,edil,cakm" [(ESlice (EVar "g_aaaa") [SV "o"; SV "v"; SV "v"; SV "o"]); (EVar "l2_aaaa"); (EVar "l2_abab"); (EVar "t2_abab"); (EVar "t2_aaaa")]));
   (*L1839*) SAug true "energy" (EScale (1 # 1) (EEins "mbej,ijba,lkdc,edil,acmk" [(ESlice (EVar "g_aaaa") [SV "o"; SV "v"; SV "v"; SV "o"]); (EVar "l2_aaaa"); (EVar "l2_abab"); (EVar "t2_aaaa"); (EVar "t2_abab")]));
   (*L1842*) SAug true "energy" (EScale (-1 # 1) (EEins "mbej,ijba,kldc,edil,acmk" [(ESlice (EVar "g_aaaa") [SV "o"; SV "v"; SV "v"; SV "o"]); (EVar "l2_aaaa"); (EVar "l2_bbbb"); (EVar "t2_abab"); (EVar "t2_abab")]));
   (*L1845*) SAug true "energy" (EScale (1 # 1) (EEins "bmej,ijba,kldc,edil,cakm" [(ESlice (EVar "g_abab") [SV "v"; SV "o"; SV "v"; SV "o"]); (EVar "l2_abab"); (EVar "l2_aaaa"); (EVar "t2_aaaa"); (EVar "t2_abab")]));
   (*L1848*) SAug true "energy" (EScale (-1 # 1) (EEins "bmej,ijba,klcd,edil,cakm" [(ESlice (EVar "g_abab") [SV "v"; SV "o"; SV "v"; SV "o"]); (EVar "l2_abab"); (EVar "l2_abab"); (EVar "t2_abab"); (EVar "t2_abab")]));
   (*L1851*) SAug true "energy" (EScale (-1 # 1) (EEins "bmej,ijba,lkdc,edil,cakm" [(ESlice (EVar "g_abab") [SV "v"; SV "o"; SV "v"; SV "o"]); (EVar "l2_abab"); (EVar "l2_abab"); (EVar "t2_aaaa"); (EVar "t2_bbbb")]));
   (*L1854*) SAug true "energy" (EScale (1 # 1) (EEins "bmej,ijba,kldc,edil,cakm" [(ESlice (EVar "g_abab") [SV "v"; SV "o"; SV "v"; SV "o"]); (EVar "l2_abab"); (EVar "l2_bbbb"); (EVar "t2_abab"); (EVar "t2_bbbb")]));
   (*L1857*) SAug true "energy" (EScale (1 # 1) (EEins "mbej,ijab,kldc,edil,cakm" [(ESlice (EVar "g_abab") [SV "o"; SV "v"; SV "v"; SV "o"]); (EVar "l2_abab"); (EVar "l2_aaaa"); (EVar "t2_aaaa"); (EVar "t2_aaaa")]));
   (*L1860*) SAug true "energy" (EScale (1 # 1) (EEins "mbej,ijab,kldc,deil,ackm" [(ESlice (EVar "g_bbbb") [SV "o"; SV "v"; SV "v"; SV "o"]); (EVar "l2_abab"); (EVar "l2_abab"); (EVar "t2_abab"); (EVar "t2_abab")]));
   (*L1863*) SAug true "energy" (EScale (-1 # 1) (EEins "mbej,ijab,klcd,edil,cakm" [(ESlice (EVar "g_abab") [SV "o"; SV "v"; SV "v"; SV "o"]); (EVar "l2_abab"); (EVar "l2_abab"); (EVar "t2_abab"); (EVar "t2_aaaa")]));
   (*L1866*) SAug true "energy" (EScale (-1 # 1) (EEins "mbej,ijab,lkdc,edil,acmk" [(ESlice (EVar "g_abab") [SV "o"; SV "v"; SV "v"; SV "o"]); (EVar "l2_abab"); (EVar "l2_abab"); (EVar "t2_aaaa"); (EVar "t2_abab")]));
   (*L1869*) SAug true "energy" (EScale (1 # 1) (EEins "mbej,ijab,kldc,edil,acmk" [(ESlice (EVar "g_abab") [SV "o"; SV "v"; SV "v"; SV "o"]); (EVar "l2_abab"); (EVar "l2_bbbb"); (EVar "t2_abab"); (EVar "t2_abab")]));
   (*L1872*) SAug true "energy" (EScale (1 # 1) (EEins "bmje,jiba,kldc,deli,cakm" [(ESlice (EVar "g_abab") [SV "v"; SV "o"; SV "o"; SV "v"]); (EVar "l2_abab"); (EVar "l2_aaaa"); (EVar "t2_abab"); (EVar "t2_abab")]));
   (*L1875*) SAug true "energy" (EScale (-1 # 1) (EEins "bmje,jiba,klcd,edil,cakm" [(ESlice (EVar "g_abab") [SV "v"; SV "o"; SV "o"; SV "v"]); (EVar "l2_abab"); (EVar "l2_abab"); (EVar "t2_bbbb"); (EVar "t2_abab")]));
   (*L1878*) SAug true "energy" (EScale (-1 # 1) (EEins "bmje,jiba,lkdc,deli,cakm" [(ESlice (EVar "g_abab") [SV "v"; SV "o"; SV "o"; SV "v"]); (EVar "l2_abab"); (EVar "l2_abab"); (EVar "t2_abab"); (EVar "t2_bbbb")]));
   (*L1881*) SAug true "energy" (EScale (1 # 1) (EEins "mbej,jiba,lkcd,edli,camk" [(ESlice (EVar "g_aaaa") [SV "o"; SV "v"; SV "v"; SV "o"]); (EVar "l2_abab"); (EVar "l2_abab"); (EVar "t2_abab"); (EVar "t2_abab")]));
   (*L1884*) SAug true "energy" (EScale (1 # 1) (EEins "bmje,jiba,kldc,edil,cakm" [(ESlice (EVar "g_abab") [SV "v"; SV "o"; SV "o"; SV "v"]); (EVar "l2_abab"); (EVar "l2_bbbb"); (EVar "t2_bbbb"); (EVar "t2_bbbb")]));
   (*L1887*) SAug true "energy" (EScale (1 # 1) (EEins "mbje,jiab,kldc,deli,cakm" [(ESlice (EVar "g_abab") [SV "o"; SV "v"; SV "o"; SV "v"]); (EVar "l2_abab"); (EVar "l2_aaaa"); (EVar "t2_abab"); (EVar "t2_aaaa")]));
   (*L1890*) SAug true "energy" (EScale (-1 # 1) (EEins "mbje,jiab,klcd,edil,cakm" [(ESlice (EVar "g_abab") [SV "o"; SV "v"; SV "o"; SV "v"]); (EVar "l2_abab"); (EVar "l2_abab"); (EVar "t2_bbbb"); (EVar "t2_aaaa")]));
   (*L1893*) SAug true "energy" (EScale (-1 # 1) (EEins "mbje,jiab,lkdc,deli,acmk" [(ESlice (EVar "g_abab") [SV "o"; SV "v"; SV "o"; SV "v"]); (EVar "l2_abab"); (EVar "l2_abab"); (EVar "t2_abab"); (EVar "t2_abab")]));
   (*L1896*) SAug true "energy" (EScale (1 # 1) (EEins "mbje,jiab,kldc,edil,acmk" [(ESlice (EVar "g_abab") [SV "o"; SV "v"; SV "o"; SV "v"]); (EVar "l2_abab"); (EVar "l2_bbbb"); (EVar "t2_bbbb"); (EVar "t2_abab")]));
   (*L1899*) SAug true "energy" (EScale (-1 # 1) (EEins "mbej,ijba,kldc,deli,cakm" [(ESlice (EVar "g_bbbb") [SV "o"; SV "v"; SV "v"; SV "o"]); (EVar "l2_bbbb"); (EVar "l2_aaaa"); (EVar "t2_abab"); (EVar "t2_abab")]));
   (*L1902*) SAug true "energy" (EScale (1 # 1) (EEins "mbej,ijba,klcd,edil,cakm" [(ESlice (EVar "g_bbbb") [SV "o"; SV "v"; SV "v"; SV "o"]); (EVar "l2_bbbb"); (EVar "l2_abab"); (EVar "t2_bbbb"); (EVar "t2_abab")]));
   (*L1905*) SAug true "energy" (EScale (1 # 1) (EEins "mbej,ijba,lkdc,deli,cakm" [(ESlice (EVar "g_bbbb") [SV "o"; SV "v"; SV "v"; SV "o"]); (EVar "l2_bbbb"); (EVar "l2_abab"); (EVar "t2_abab"); (EVar "t2_bbbb")]));
   (*L1908*) SAug true "energy" (EScale (-1 # 1) (EEins "mbej,ijba,lkcd,edli,camk" [(ESlice (EVar "g_abab") [SV "o"; SV "v"; SV "v"; SV "o"]); (EVar "l2_bbbb"); (EVar "l2_abab"); (EVar "t2_abab"); (EVar "t2_abab")]));
   (*L1911*) SAug true "energy" (EScale (-1 # 1) (EEins "mbej,ijba,kldc,edil,cakm" [(ESlice (EVar "g_bbbb") [SV "o"; SV "v"; SV "v"; SV "o"]); (EVar "l2_bbbb"); (EVar "l2_bbbb"); (EVar "t2_bbbb"); (EVar "t2_bbbb")]));
   (*L1914*) SAug true "energy" (EScale (1 # 4) (EEins "mbej,ijba,kldc,eakl,dcim" [(ESlice (EVar "g_aaaa") [SV "o"; SV "v"; SV "v"; SV "o"]); (EVar "l2_aaaa"); (EVar "l2_aaaa"); (EVar "t2_aaaa"); (EVar "t2_aaaa")]));
   (*L1917*) SAug true "energy" (EScale (-1 # 4) (EEins "bmje,ijba,kldc,aekl,dcim" [(ESlice (EVar "g_abab") [SV "v"; SV "o"; SV "o"; SV "v"]); (EVar "l2_aaaa"); (EVar "l2_abab"); (EVar "t2_abab"); (EVar "t2_abab")]));
   (*L1920*) SAug true "energy" (EScale (-1 # 4) (EEins "bmje,ijba,klcd,aekl,cdim" [(ESlice (EVar "g_abab") [SV "v"; SV "o"; SV "o"; SV "v"]); (EVar "l2_aaaa"); (EVar "l2_abab"); (EVar "t2_abab"); (EVar "t2_abab")]));
   (*L1923*) SAug true "energy" (EScale (-1 # 4) (EEins "bmje,ijba,lkdc,aelk,dcim" [(ESlice (EVar "g_abab") [SV "v"; SV "o"; SV "o"; SV "v"]); (EVar "l2_aaaa"); (EVar "l2_abab"); (EVar "t2_abab"); (EVar "t2_abab")]));
   (*L1926*) SAug true "energy" (EScale (-1 # 4) (EEins "bmje,ijba,lkcd,aelk,cdim" [(ESlice (EVar "g_abab") [SV "v"; SV "o"; SV "o"; SV "v"]); (EVar "l2_aaaa"); (EVar "l2_abab"); (EVar "t2_abab"); (EVar "t2_abab")]));
   (*L1929*) SAug true "energy" (EScale (-1 # 4) (EEins "bmej,ijba,kldc,eakl,dcim" [(ESlice (EVar "g_abab") [SV "v"; SV "o"; SV "v"; SV "o"]); (EVar "l2_abab"); (EVar "l2_abab"); (EVar "t2_abab"); (EVar "t2_abab")]));
   (*L1932*) SAug true "energy" (EScale (-1 # 4) (EEins "bmej,ijba,klcd,eakl,cdim" [(ESlice (EVar "g_abab") [SV "v"; SV "o"; SV "v"; SV "o"]); (EVar "l2_abab"); (EVar "l2_abab"); (EVar "t2_abab"); (EVar "t2_abab")]));
   (*L1935*) SAug true "energy" (EScale (-1 # 4) (EEins "bmej,ijba,lkdc,ealk,dcim" [(ESlice (EVar "g_abab") [SV "v"; SV "o"; SV "v"; SV "o"]); (EVar "l2_abab"); (EVar "l2_abab"); (EVar "t2_abab"); (EVar "t2_abab")]));
   (*L1938*) SAug true "energy" (EScale (-1 # 4) (EEins "bmej,ijba,lkcd,ealk,cdim" [(ESlice (EVar "g_abab") [SV "v"; SV "o"; SV "v"; SV "o"]); (EVar "l2_abab"); (EVar "l2_abab"); (EVar "t2_abab"); (EVar "t2_abab")]));
   (*L1941*) SAug true "energy" (EScale (-1 # 4) (EEins "mbej,ijab,kldc,eakl,dcim" [(ESlice (EVar "g_abab") [SV "o"; SV "v"; SV "v"; SV "o"]); (EVar "l2_abab"); (EVar "l2_aaaa"); (EVar "t2_aaaa"); (EVar "t2_aaaa")]));
   (*L1944*) SAug true "energy" (EScale (1 # 4) (EEins "mbej,ijab,kldc,aekl,dcim" [(ESlice (EVar "g_bbbb") [SV "o"; SV "v"; SV "v"; SV "o"]); (EVar "l2_abab"); (EVar "l2_abab"); (EVar "t2_abab"); (EVar "t2_abab")]));
   (*L1947*) SAug true "energy" (EScale (1 # 4) (EEins "mbej,ijab,klcd,aekl,cdim" [(ESlice (EVar "g_bbbb") [SV "o"; SV "v"; SV "v"; SV "o"]); (EVar "l2_abab"); (EVar "l2_abab"); (EVar "t2_abab"); (EVar "t2_abab")]));
   (*L1950*) SAug true "energy" (EScale (1 # 4) (EEins "mbej,ijab,lkdc,aelk,dcim" [(ESlice (EVar "g_bbbb") [SV "o"; SV "v"; SV "v"; SV "o"]); (EVar "l2_abab"); (EVar "l2_abab"); (EVar "t2_abab"); (EVar "t2_abab")]));
   (*L1953*) SAug true "energy" (EScale (1 # 4) (EEins "mbej,ijab,lkcd,aelk,cdim" [(ESlice (EVar "g_bbbb") [SV "o"; SV "v"; SV "v"; SV "o"]); (EVar "l2_abab"); (EVar "l2_abab"); (EVar "t2_abab"); (EVar "t2_abab")]));
   (*L1956*) SAug true "energy" (EScale (1 # 4) (EEins "mbej,jiba,kldc,eakl,dcmi" [(ESlice (EVar "g_aaaa") [SV "o"; SV "v"; SV "v"; SV "o"]); (EVar "l2_abab"); (EVar "l2_abab"); (EVar "t2_abab"); (EVar "t2_abab")]));
   (*L1959*) SAug true "energy" (EScale (1 # 4) (EEins "mbej,jiba,klcd,eakl,cdmi" [(ESlice (EVar "g_aaaa") [SV "o"; SV "v"; SV "v"; SV "o"]); (EVar "l2_abab"); (EVar "l2_abab"); (EVar "t2_abab"); (EVar "t2_abab")]));
   (*L1962*) SAug true "energy" (EScale (1 # 4) (EEins "mbej,jiba,lkdc,ealk,dcmi" [(ESlice (EVar "g_aaaa") [SV "o"; SV "v"; SV "v"; SV "o"]); (EVar "l2_abab"); (EVar "l2_abab"); (EVar "t2_abab"); (EVar "t2_abab")]));
   (*L1965*) SAug true "energy" (EScale (1 # 4) (EEins "mbej,jiba,lkcd,ealk,cdmi" [(ESlice (EVar "g_aaaa") [SV "o"; SV "v"; SV "v"; SV "o"]); (EVar "l2_abab"); (EVar "l2_abab"); (EVar "t2_abab"); (EVar "t2_abab")]));
   (*L1968*) SAug true "energy" (EScale (-1 # 4) (EEins "bmje,jiba,kldc,eakl,dcim" [(ESlice (EVar "g_abab") [SV "v"; SV "o"; SV "o"; SV "v"]); (EVar "l2_abab"); (EVar "l2_bbbb"); (EVar "t2_bbbb"); (EVar "t2_bbbb")]));
   (*L1971*) SAug true "energy" (EScale (-1 # 4) (EEins "mbje,jiab,kldc,aekl,dcmi" [(ESlice (EVar "g_abab") [SV "o"; SV "v"; SV "o"; SV "v"]); (EVar "l2_abab"); (EVar "l2_abab"); (EVar "t2_abab"); (EVar "t2_abab")]));
   (*L1974*) SAug true "energy" (EScale (-1 # 4) (EEins "mbje,jiab,klcd,aekl,cdmi" [(ESlice (EVar "g_abab") [SV "o"; SV "v"; SV "o"; SV "v"]); (EVar "l2_abab"); (EVar "l2_abab"); (EVar "t2_abab"); (EVar "t2_abab")]));
   (*L1977*) SAug true "energy" (EScale (-1 # 4) (EEins "mbje,jiab,lkdc,aelk,dcmi" [(ESlice (EVar "g_abab") [SV "o"; SV "v"; SV "o"; SV "v"]); (EVar "l2_abab"); (EVar "l2_abab"); (EVar "t2_abab"); (EVar "t2_abab")]));
   (*L1980*) SAug true "energy" (EScale (-1 # 4) (EEins "mbje,jiab,lkcd,aelk,cdmi" [(ESlice (EVar "g_abab") [SV "o"; SV "v"; SV "o"; SV "v"]); (EVar "l2_abab"); (EVar "l2_abab"); (EVar "t2_abab"); (EVar "t2_abab")]));
   (*L1983*) SAug true "energy" (EScale (-1 # 4) (EEins "mbej,ijba,kldc,eakl,dcmi" [(ESlice (EVar "g_abab") [SV "o"; SV "v"; SV "v"; SV "o"]); (EVar "l2_bbbb"); (EVar "l2_abab"); (EVar "t2_abab"); (EVar "t2_abab")]));
   (*L1986*) SAug true "energy" (EScale (-1 # 4) (EEins "mbej,ijba,klcd,eakl,cdmi" [(ESlice (EVar "g_abab") [SV "o"; SV "v"; SV "v"; SV "o"]); (EVar "l2_bbbb"); (EVar "l2_abab"); (EVar "t2_abab"); (EVar "t2_abab")]));
   (*L1989*) SAug true "energy" (EScale (-1 # 4) (EEins "mbej,ijba,lkdc,ealk,dcmi" [(ESlice (EVar "g_abab") [SV "o"; SV "v"; SV "v"; SV "o"]); (EVar "l2_bbbb"); (EVar "l2_abab"); (EVar "t2_abab"); (EVar "t2_abab")]));
   (*L1992*) SAug true "energy" (EScale (-1 # 4) (EEins "mbej,ijba,lkcd,ealk,cdmi" [(ESlice (EVar "g_abab") [SV "o"; SV "v"; SV "v"; SV "o"]); (EVar "l2_bbbb"); (EVar "l2_abab"); (EVar "t2_abab"); (EVar "t2_abab")]));
   (*L1995*) SAug true "energy" (EScale (1 # 4) (EEins "mbej,ijba,kldc,eakl,dcim" [(ESlice (EVar "g_bbbb") [SV "o"; SV "v"; SV "v"; SV "o"]); (EVar "l2_bbbb"); (EVar "l2_bbbb"); (EVar "t2_bbbb"); (EVar "t2_bbbb")]));
   (*L1998*) SAug true "energy" (EScale (-1 # 2) (EEins "mbej,ijba,kldc,eail,dckm" [(ESlice (EVar "g_aaaa") [SV "o"; SV "v"; SV "v"; SV "o"]); (EVar "l2_aaaa"); (EVar "l2_aaaa"); (EVar "t2_aaaa"); (EVar "t2_aaaa")]));
   (*L2001*) SAug true "energy" (EScale (1 # 2) (EEins "bmje,ijba,kldc,aeil,dckm" [(ESlice (EVar "g_abab") [SV "v"; SV "o"; SV "o"; SV "v"]); (EVar "l2_aaaa"); (EVar "l2_abab"); (EVar "t2_abab"); (EVar "t2_abab")]));
   (*L2004*) SAug true "energy" (EScale (1 # 2) (EEins "bmje,ijba,klcd,aeil,cdkm" [(ESlice (EVar "g_abab") [SV "v"; SV "o"; SV "o"; SV "v"]); (EVar "l2_aaaa"); (EVar "l2_abab"); (EVar "t2_abab"); (EVar "t2_abab")]));
   (*L2007*) SAug true "energy" (EScale (-1 # 2) (EEins "mbej,ijba,lkdc,eail,dcmk" [(ESlice (EVar "g_aaaa") [SV "o"; SV "v"; SV "v"; SV "o"]); (EVar "l2_aaaa"); (EVar "l2_abab"); (EVar "t2_aaaa"); (EVar "t2_abab")]));
   (*L2010*) SAug true "energy" (EScale (-1 # 2) (EEins "mbej,ijba,lkcd,eail,cdmk" [(ESlice (EVar "g_aaaa") [SV "o"; SV "v"; SV "v"; SV "o"]); (EVar "l2_aaaa"); (EVar "l2_abab"); (EVar "t2_aaaa"); (EVar "t2_abab")]));
   (*L2013*) SAug true "energy" (EScale (1 # 2) (EEins "bmje,ijba,kldc,aeil,dckm" [(ESlice (EVar "g_abab") [SV "v"; SV "o"; SV "o"; SV "v"]); (EVar "l2_aaaa"); (EVar "l2_bbbb"); (EVar "t2_abab"); (EVar "t2_bbbb")]));
   (*L2016*) SAug true "energy" (EScale (1 # 2) (EEins "bmej,ijba,kldc,eail,dckm" [(ESlice (EVar "g_abab") [SV "v"; SV "o"; SV "v"; SV "o"]); (EVar "l2_abab"); (EVar "l2_abab"); (EVar "t2_abab"); (EVar "t2_abab")]));
   (*L2019*) SAug true "energy" (EScale (1 # 2) (EEins "bmej,ijba,klcd,eail,cdkm" [(ESlice (EVar "g_abab") [SV "v"; SV "o"; SV "v"; SV "o"]); (EVar "l2_abab"); (EVar "l2_abab"); (EVar "t2_abab"); (EVar "t2_abab")]));
   (*L2022*) SAug true "energy" (EScale (1 # 2) (EEins "bmej,ijba,kldc,eail,dckm" [(ESlice (EVar "g_abab") [SV "v"; SV "o"; SV "v"; SV "o"]); (EVar "l2_abab"); (EVar "l2_bbbb"); (EVar "t2_abab"); (EVar "t2_bbbb")]));
   (*L2025*) SAug true "energy" (EScale (1 # 2) (EEins "mbej,ijab,kldc,eail,dckm" [(ESlice (EVar "g_abab") [SV "o"; SV "v"; SV "v"; SV "o"]); (EVar "l2_abab"); (EVar "l2_aaaa"); (EVar "t2_aaaa"); (EVar "t2_aaaa")]));
   (*L2028*) SAug true "energy" (EScale (-1 # 2) (EEins "mbej,ijab,kldc,aeil,dckm" [(ESlice (EVar "g_bbbb") [SV "o"; SV "v"; SV "v"; SV "o"]); (EVar "l2_abab"); (EVar "l2_abab"); (EVar "t2_abab"); (EVar "t2_abab")]));
   (*L2031*) SAug true "energy" (EScale (-1 # 2) (EEins "mbej,ijab,klcd,aeil,cdkm" [(ESlice (EVar "g_bbbb") [SV "o"; SV "v"; SV "v"; SV "o"]); (EVar "l2_abab"); (EVar "l2_abab"); (EVar "t2_abab"); (EVar "t2_abab")]));
   (*L2034*) SAug true "energy" (EScale (1 # 2) (EEins "mbej,ijab,lkdc,eail,dcmk" [(ESlice (EVar "g_abab") [SV "o"; SV "v"; SV "v"; SV "o"]); (EVar "l2_abab"); (EVar "l2_abab"); (EVar "t2_aaaa"); (EVar "t2_abab")]));
   (*L2037*) SAug true "energy" (EScale (1 # 2) (EEins "mbej,ijab,lkcd,eail,cdmk" [(ESlice (EVar "g_abab") [SV "o"; SV "v"; SV "v"; SV "o"]); (EVar "l2_abab"); (EVar "l2_abab"); (EVar "t2_aaaa"); (EVar "t2_abab")]));
   (*L2040*) SAug true "energy" (EScale (-1 # 2) (EEins "mbej,ijab,kldc,aeil,dckm" [(ESlice (EVar "g_bbbb") [SV "o"; SV "v"; SV "v"; SV "o"]); (EVar "l2_abab"); (EVar "l2_bbbb"); (EVar "t2_abab"); (EVar "t2_bbbb")]));
   (*L2043*) SAug true "energy" (EScale (-1 # 2) (EEins "mbej,jiba,kldc,eali,dckm" [(ESlice (EVar "g_aaaa") [SV "o"; SV "v"; SV "v"; SV "o"]); (EVar "l2_abab"); (EVar "l2_aaaa"); (EVar "t2_abab"); (EVar "t2_aaaa")]));
   (*L2046*) SAug true "energy" (EScale (1 # 2) (EEins "bmje,jiba,kldc,eail,dckm" [(ESlice (EVar "g_abab") [SV "v"; SV "o"; SV "o"; SV "v"]); (EVar "l2_abab"); (EVar "l2_abab"); (EVar "t2_bbbb"); (EVar "t2_abab")]));
   (*L2049*) SAug true "energy" (EScale (1 # 2) (EEins "bmje,jiba,klcd,eail,cdkm" [(ESlice (EVar "g_abab") [SV "v"; SV "o"; SV "o"; SV "v"]); (EVar "l2_abab"); (EVar "l2_abab"); (EVar "t2_bbbb"); (EVar "t2_abab")]));
   (*L2052*) SAug true "energy" (EScale (-1 # 2) (EEins "mbej,jiba,lkdc,eali,dcmk" [(ESlice (EVar "g_aaaa") [SV "o"; SV "v"; SV "v"; SV "o"]); (EVar "l2_abab"); (EVar "l2_abab"); (EVar "t2_abab"); (EVar "t2_abab")]));
   (*L2055*) SAug true "energy" (EScale (-1 # 2) (EEins "mbej,jiba,lkcd,eali,cdmk" [(ESlice (EVar "g_aaaa") [SV "o"; SV "v"; SV "v"; SV "o"]); (EVar "l2_abab"); (EVar "l2_abab"); (EVar "t2_abab"); (EVar "t2_abab")]));
   (*L2058*) SAug true "energy" (EScale (1 # 2) (EEins "bmje,jiba,kldc,eail,dckm" [(ESlice (EVar "g_abab") [SV "v"; SV "o"; SV "o"; SV "v"]); (EVar "l2_abab"); (EVar "l2_bbbb"); (EVar "t2_bbbb"); (EVar "t2_bbbb")]));
   (*L2061*) SAug true "energy" (EScale (1 # 2) (EEins "mbje,jiab,kldc,aeli,dckm" [(ESlice (EVar "g_abab") [SV "o"; SV "v"; SV "o"; SV "v"]); (EVar "l2_abab"); (EVar "l2_aaaa"); (EVar "t2_abab"); (EVar "t2_aaaa")]));
   (*L2064*) SAug true "energy" (EScale (1 # 2) (EEins "mbje,jiab,lkdc,aeli,dcmk" [(ESlice (EVar "g_abab") [SV "o"; SV "v"; SV "o"; SV "v"]); (EVar "l2_abab"); (EVar "l2_abab"); (EVar "t2_abab"); (EVar "t2_abab")]));
   (*L2067*) SAug true "energy" (EScale (1 # 2) (EEins "mbje,jiab,lkcd,aeli,cdmk" [(ESlice (EVar "g_abab") [SV "o"; SV "v"; SV "o"; SV "v"]); (EVar "l2_abab"); (EVar "l2_abab"); (EVar "t2_abab"); (EVar "t2_abab")]));
   (*L2070*) SAug true "energy" (EScale (1 # 2) (EEins "mbej,ijba,kldc,eali,dckm" [(ESlice (EVar "g_abab") [SV "o"; SV "v"; SV "v"; SV "o"]); (EVar "l2_bbbb"); (EVar "l2_aaaa"); (EVar "t2_abab"); (EVar "t2_aaaa")]));
   (*L2073*) SAug true "energy" (EScale (-1 # 2) (EEins "mbej,ijba,kldc,eail,dckm" [(ESlice (EVar "g_bbbb") [SV "o"; SV "v"; SV "v"; SV "o"]); (EVar "l2_bbbb"); (EVar "l2_abab"); (EVar "t2_bbbb"); (EVar "t2_abab")]));
   (*L2076*) SAug true "energy" (EScale (-1 # 2) (EEins "mbej,ijba,klcd,eail,cdkm" [(ESlice (EVar "g_bbbb") [SV "o"; SV "v"; SV "v"; SV "o"]); (EVar "l2_bbbb"); (EVar "l2_abab"); (EVar "t2_bbbb"); (EVar "t2_abab")]));
   (*L2079*) SAug true "energy" (EScale (1 # 2) (EEins "mbej,ijba,lkdc,eali,dcmk" [(ESlice (EVar "g_abab") [SV "o"; SV "v"; SV "v"; SV "o"]); (EVar "l2_bbbb"); (EVar "l2_abab"); (EVar "t2_abab"); (EVar "t2_abab")]));
   (*L2082*) SAug true "energy" (EScale (1 # 2) (EEins "mbej,ijba,lkcd,eali,cdmk" [(ESlice (EVar "g_abab") [SV "o"; SV "v"; SV "v"; SV "o"]); (EVar "l2_bbbb"); (EVar "l2_abab"); (EVar "t2_abab"); (EVar "t2_abab")]));
   (*L2085*) SAug true "energy" (EScale (-1 # 2) (EEins "mbej,ijba,kldc,eail,dckm" [(ESlice (EVar "g_bbbb") [SV "o"; SV "v"; SV "v"; SV "o"]); (EVar "l2_bbbb"); (EVar "l2_bbbb"); (EVar "t2_bbbb"); (EVar "t2_bbbb")]));
   (*L2088*) SAug true "energy" (EScale (-1 # 8) (EEins "dcef,ijba,kldc,ebkl,faij" [(ESlice (EVar "g_aaaa") [SV "v"; SV "v"; SV "v"; SV "v"]); (EVar "l2_aaaa"); (EVar "l2_aaaa"); (EVar "t2_aaaa"); (EVar "t2_aaaa")]));
   (*L2091*) SAug true "energy" (EScale (-1 # 8) (EEins "dcfe,ijba,kldc,bekl,faij" [(ESlice (EVar "g_abab") [SV "v"; SV "v"; SV "v"; SV "v"]); (EVar "l2_aaaa"); (EVar "l2_abab"); (EVar "t2_abab"); (EVar "t2_aaaa")]));
   (*L2094*) SAug true "energy" (EScale (-1 # 8) (EEins "cdfe,ijba,klcd,bekl,faij" [(ESlice (EVar "g_abab") [SV "v"; SV "v"; SV "v"; SV "v"]); (EVar "l2_aaaa"); (EVar "l2_abab"); (EVar "t2_abab"); (EVar "t2_aaaa")]));
   (*L2097*) SAug true "energy" (EScale (-1 # 8) (EEins "dcfe,ijba,lkdc,belk,faij" [(ESlice (EVar "g_abab") [SV "v"; SV "v"; SV "v"; SV "v"]); (EVar "l2_aaaa"); (EVar "l2_abab"); (EVar "t2_abab"); (EVar "t2_aaaa")]));
   (*L2100*) SAug true "energy" (EScale (-1 # 8) (EEins "cdfe,ijba,lkcd,belk,faij" [(ESlice (EVar "g_abab") [SV "v"; SV "v"; SV "v"; SV "v"]); (EVar "l2_aaaa"); (EVar "l2_abab"); (EVar "t2_abab"); (EVar "t2_aaaa")]));
   (*L2103*) SAug true "energy" (EScale (-1 # 8) (EEins "dcef,ijba,kldc,ebkl,faij" [(ESlice (EVar "g_aaaa") [SV "v"; SV "v"; SV "v"; SV "v"]); (EVar "l2_abab"); (EVar "l2_aaaa"); (EVar "t2_aaaa"); (EVar "t2_abab")]));
   (*L2106*) SAug true "energy" (EScale (-1 # 8) (EEins "dcfe,ijba,kldc,bekl,faij" [(ESlice (EVar "g_abab") [SV "v"; SV "v"; SV "v"; SV "v"]); (EVar "l2_abab"); (EVar "l2_abab"); (EVar "t2_abab"); (EVar "t2_abab")]));
   (*L2109*) SAug true "energy" (EScale (-1 # 8) (EEins "cdfe,ijba,klcd,bekl,faij" [(ESlice (EVar "g_abab") [SV "v"; SV "v"; SV "v"; SV "v"]); (EVar "l2_abab"); (EVar "l2_abab"); (EVar "t2_abab"); (EVar "t2_abab")]));
   (*L2112*) SAug true "energy" (EScale (-1 # 8) (EEins "dcfe,ijba,lkdc,belk,faij" [(ESlice (EVar "g_abab") [SV "v"; SV "v"; SV "v"; SV "v"]); (EVar "l2_abab"); (EVar "l2_abab"); (EVar "t2_abab"); (EVar "t2_abab")]));
   (*L2115*) SAug true "energy" (EScale (-1 # 8) (EEins "cdfe,ijba,lkcd,belk,faij" [(ESlice (EVar "g_abab") [SV "v"; SV "v"; SV "v"; SV "v"]); (EVar "l2_abab"); (EVar "l2_abab"); (EVar "t2_abab"); (EVar "t2_abab")]));
   (*L2118*) SAug true "energy" (EScale (-1 # 8) (EEins "dcef,ijab,kldc,ebkl,afij" [(ESlice (EVar "g_abab") [SV "v"; SV "v"; SV "v"; SV "v"]); (EVar "l2_abab"); (EVar "l2_abab"); (EVar "t2_abab"); (EVar "t2_abab")]));
   (*L2121*) SAug true "energy" (EScale (-1 # 8) (EEins "cdef,ijab,klcd,ebkl,afij" [(ESlice (EVar "g_abab") [SV "v"; SV "v"; SV "v"; SV "v"]); (EVar "l2_abab"); (EVar "l2_abab"); (EVar "t2_abab"); (EVar "t2_abab")]));
   (*L2124*) SAug true "energy" (EScale (-1 # 8) (EEins "dcef,ijab,lkdc,eblk,afij" [(ESlice (EVar "g_abab") [SV "v"; SV "v"; SV "v"; SV "v"]); (EVar "l2_abab"); (EVar "l2_abab"); (EVar "t2_abab"); (EVar "t2_abab")]));
   (*L2127*) SAug true "energy" (EScale (-1 # 8) (EEins "cdef,ijab,lkcd,eblk,afij" [(ESlice (EVar "g_abab") [SV "v"; SV "v"; SV "v"; SV "v"]); (EVar "l2_abab"); (EVar "l2_abab"); (EVar "t2_abab"); (EVar "t2_abab")]));
   (*L2130*) SAug true "energy" (EScale (-1 # 8) (EEins "dcef,ijab,kldc,ebkl,afij" [(ESlice (EVar "g_bbbb") [SV "v"; SV "v"; SV "v"; SV "v"]); (EVar "l2_abab"); (EVar "l2_bbbb"); (EVar "t2_bbbb"); (EVar "t2_abab")]));
   (*L2133*) SAug true "energy" (EScale (-1 # 8) (EEins "dcef,jiba,kldc,ebkl,faji" [(ESlice (EVar "g_aaaa") [SV "v"; SV "v"; SV "v"; SV "v"]); (EVar "l2_abab"); (EVar "l2_aaaa"); (EVar "t2_aaaa"); (EVar "t2_abab")]));
   (*L2136*) SAug true "energy" (EScale (-1 # 8) (EEins "dcfe,jiba,kldc,bekl,faji" [(ESlice (EVar "g_abab") [SV "v"; SV "v"; SV "v"; SV "v"]); (EVar "l2_abab"); (EVar "l2_abab"); (EVar "t2_abab"); (EVar "t2_abab")]));
   (*L2139*) SAug true "energy" (EScale (-1 # 8) (EEins "cdfe,jiba,klcd,bekl,faji" [(ESlice (EVar "g_abab") [SV "v"; SV "v"; SV "v"; SV "v"]); (EVar "l2_abab"); (EVar "l2_abab"); (EVar "t2_abab"); (EVar "t2_abab")]));
   (*L2142*) SAug true "energy" (EScale (-1 # 8) (EEins "dcfe,jiba,lkdc,belk,faji" [(ESlice (EVar "g_abab") [SV "v"; SV "v"; SV "v"; SV "v"]); (EVar "l2_abab"); (EVar "l2_abab"); (EVar "t2_abab"); (EVar "t2_abab")]));
   (*L2145*) SAug true "energy" (EScale (-1 # 8) (EEins "cdfe,jiba,lkcd,belk,faji" [(ESlice (EVar "g_abab") [SV "v"; SV "v"; SV "v"; SV "v"]); (EVar "l2_abab"); (EVar "l2_abab"); (EVar "t2_abab"); (EVar "t2_abab")]));
   (*L2148*) SAug true "energy" (EScale (-1 # 8) (EEins "dcef,jiab,kldc,ebkl,afji" [(ESlice (EVar "g_abab") [SV "v"; SV "v"; SV "v"; SV "v"]); (EVar "l2_abab"); (EVar "l2_abab"); (EVar "t2_abab"); (EVar "t2_abab")]));
   (*L2151*) SAug true "energy" (EScale (-1 # 8) (EEins "cdef,jiab,klcd,ebkl,afji" [(ESlice (EVar "g_abab") [SV "v"; SV "v"; SV "v"; SV "v"]); (EVar "l2_abab"); (EVar "l2_abab"); (EVar "t2_abab"); (EVar "t2_abab")]));
   (*L2154*) SAug true "energy" (EScale (-1 # 8) (EEins "dcef,jiab,lkdc,eblk,afji" [(ESlice (EVar "g_abab") [SV "v"; SV "v"; SV "v"; SV "v"]); (EVar "l2_abab"); (EVar "l2_abab"); (EVar "t2_abab"); (EVar "t2_abab")]));
   (*L2157*) SAug true "energy" (EScale (-1 # 8) (EEins "cdef,jiab,lkcd,eblk,afji" [(ESlice (EVar "g_abab") [SV "v"; SV "v"; SV "v"; SV "v"]); (EVar "l2_abab"); (EVar "l2_abab"); (EVar "t2_abab"); (EVar "t2_abab")]));
   (*L2160*) SAug true "energy" (EScale (-1 # 8) (EEins "dcef,jiab,kldc,ebkl,afji" [(ESlice (EVar "g_bbbb") [SV "v"; SV "v"; SV "v"; SV "v"]); (EVar "l2_abab"); (EVar "l2_bbbb"); (EVar "t2_bbbb"); (EVar "t2_abab")]));
   (*L2163*) SAug true "energy" (EScale (-1 # 8) (EEins "dcef,ijba,kldc,ebkl,faij" [(ESlice (EVar "g_abab") [SV "v"; SV "v"; SV "v"; SV "v"]); (EVar "l2_bbbb"); (EVar "l2_abab"); (EVar "t2_abab"); (EVar "t2_bbbb")]));
   (*L2166*) SAug true "energy" (EScale (-1 # 8) (EEins "cdef,ijba,klcd,ebkl,faij" [(ESlice (EVar "g_abab") [SV "v"; SV "v"; SV "v"; SV "v"]); (EVar "l2_bbbb"); (EVar "l2_abab"); (EVar "t2_abab"); (EVar "t2_bbbb")]));
   (*L2169*) SAug true "energy" (EScale (-1 # 8) (EEins "dcef,ijba,lkdc,eblk,faij" [(ESlice (EVar "g_abab") [SV "v"; SV "v"; SV "v"; SV "v"]); (EVar "l2_bbbb"); (EVar "l2_abab"); (EVar "t2_abab"); (EVar "t2_bbbb")]));
   (*L2172*) SAug true "energy" (EScale (-1 # 8) (EEins "cdef,ijba,lkcd,eblk,faij" [(ESlice (EVar "g_abab") [SV "v"; SV "v"; SV "v"; SV "v"]); (EVar "l2_bbbb"); (EVar "l2_abab"); (EVar "t2_abab"); (EVar "t2_bbbb")]));
   (*L2175*) SAug true "energy" (EScale (-1 # 8) (EEins "dcef,ijba,kldc,ebkl,faij" [(ESlice (EVar "g_bbbb") [SV "v"; SV "v"; SV "v"; SV "v"]); (EVar "l2_bbbb"); (EVar "l2_bbbb"); (EVar "t2_bbbb"); (EVar "t2_bbbb")]));
   (*L2178*) SAug true "energy" (EScale (1 # 4) (EEins "dcef,ijba,kldc,ebjl,faik" [(ESlice (EVar "g_aaaa") [SV "v"; SV "v"; SV "v"; SV "v"]); (EVar "l2_aaaa"); (EVar "l2_aaaa"); (EVar "t2_aaaa"); (EVar "t2_aaaa")]));
   (*L2181*) SAug true "energy" (EScale (1 # 4) (EEins "dcfe,ijba,kldc,bejl,faik" [(ESlice (EVar "g_abab") [SV "v"; SV "v"; SV "v"; SV "v"]); (EVar "l2_aaaa"); (EVar "l2_abab"); (EVar "t2_abab"); (EVar "t2_aaaa")]));
   (*L2184*) SAug true "energy" (EScale (1 # 4) (EEins "cdfe,ijba,klcd,bejl,faik" [(ESlice (EVar "g_abab") [SV "v"; SV "v"; SV "v"; SV "v"]); (EVar "l2_aaaa"); (EVar "l2_abab"); (EVar "t2_abab"); (EVar "t2_aaaa")]));
   (*L2187*) SAug true "energy" (EScale (1 # 4) (EEins "dcef,ijba,lkdc,ebjl,afik" [(ESlice (EVar "g_abab") [SV "v"; SV "v"; SV "v"; SV "v"]); (EVar "l2_aaaa"); (EVar "l2_abab"); (EVar "t2_aaaa"); (EVar "t2_abab")]));
   (*L2190*) SAug true "energy" (EScale (1 # 4) (EEins "cdef,ijba,lkcd,ebjl,afik" [(ESlice (EVar "g_abab") [SV "v"; SV "v"; SV "v"; SV "v"]); (EVar "l2_aaaa"); (EVar "l2_abab"); (EVar "t2_aaaa"); (EVar "t2_abab")]));
   (*L2193*) SAug true "energy" (EScale (1 # 4) (EEins "dcef,ijba,kldc,bejl,afik" [(ESlice (EVar "g_bbbb") [SV "v"; SV "v"; SV "v"; SV "v"]); (EVar "l2_aaaa"); (EVar "l2_bbbb"); (EVar "t2_abab"); (EVar "t2_abab")]));
   (*L2196*) SAug true "energy" (EScale (1 # 4) (EEins "dcfe,ijba,lkdc,belj,faik" [(ESlice (EVar "g_abab") [SV "v"; SV "v"; SV "v"; SV "v"]); (EVar "l2_abab"); (EVar "l2_abab"); (EVar "t2_abab"); (EVar "t2_abab")]));
   (*L2199*) SAug true "energy" (EScale (1 # 4) (EEins "cdfe,ijba,lkcd,belj,faik" [(ESlice (EVar "g_abab") [SV "v"; SV "v"; SV "v"; SV "v"]); (EVar "l2_abab"); (EVar "l2_abab"); (EVar "t2_abab"); (EVar "t2_abab")]));
   (*L2202*) SAug true "energy" (EScale (1 # 4) (EEins "dcef,ijab,kldc,eblj,faik" [(ESlice (EVar "g_aaaa") [SV "v"; SV "v"; SV "v"; SV "v"]); (EVar "l2_abab"); (EVar "l2_aaaa"); (EVar "t2_abab"); (EVar "t2_aaaa")]));
   (*L2205*) SAug true "energy" (EScale (1 # 4) (EEins "dcfe,ijab,kldc,ebjl,faik" [(ESlice (EVar "g_abab") [SV "v"; SV "v"; SV "v"; SV "v"]); (EVar "l2_abab"); (EVar "l2_abab"); (EVar "t2_bbbb"); (EVar "t2_aaaa")]));
   (*L2208*) SAug true "energy" (EScale (1 # 4) (EEins "cdfe,ijab,klcd,ebjl,faik" [(ESlice (EVar "g_abab") [SV "v"; SV "v"; SV "v"; SV "v"]); (EVar "l2_abab"); (EVar "l2_abab"); (EVar "t2_bbbb"); (EVar "t2_aaaa")]));
   (*L2211*) SAug true "energy" (EScale (1 # 4) (EEins "dcef,ijab,lkdc,eblj,afik" [(ESlice (EVar "g_abab") [SV "v"; SV "v"; SV "v"; SV "v"]); (EVar "l2_abab"); (EVar "l2_abab"); (EVar "t2_abab"); (EVar "t2_abab")]));
   (*L2214*) SAug true "energy" (EScale (1 # 4) (EEins "cdef,ijab,lkcd,eblj,afik" [(ESlice (EVar "g_abab") [SV "v"; SV "v"; SV "v"; SV "v"]); (EVar "l2_abab"); (EVar "l2_abab"); (EVar "t2_abab"); (EVar "t2_abab")]));
   (*L2217*) SAug true "energy" (EScale (1 # 4) (EEins "dcef,ijab,kldc,ebjl,afik" [(ESlice (EVar "g_bbbb") [SV "v"; SV "v"; SV "v"; SV "v"]); (EVar "l2_abab"); (EVar "l2_bbbb"); (EVar "t2_bbbb"); (EVar "t2_abab")]));
   (*L2220*) SAug true "energy" (EScale (1 # 4) (EEins "dcef,jiba,kldc,ebjl,faki" [(ESlice (EVar "g_aaaa") [SV "v"; SV "v"; SV "v"; SV "v"]); (EVar "l2_abab"); (EVar "l2_aaaa"); (EVar "t2_aaaa"); (EVar "t2_abab")]));
   (*L2223*) SAug true "energy" (EScale (1 # 4) (EEins "dcfe,jiba,kldc,bejl,faki" [(ESlice (EVar "g_abab") [SV "v"; SV "v"; SV "v"; SV "v"]); (EVar "l2_abab"); (EVar "l2_abab"); (EVar "t2_abab"); (EVar "t2_abab")]));
   (*L2226*) SAug true "energy" (EScale (1 # 4) (EEins "cdfe,jiba,klcd,bejl,faki" [(ESlice (EVar "g_abab") [SV "v"; SV "v"; SV "v"; SV "v"]); (EVar "l2_abab"); (EVar "l2_abab"); (EVar "t2_abab"); (EVar "t2_abab")]));
   (*L2229*) SAug true "energy" (EScale (1 # 4) (EEins "dcef,jiba,lkdc,ebjl,faik" [(ESlice (EVar "g_abab") [SV "v"; SV "v"; SV "v"; SV "v"]); (EVar "l2_abab"); (EVar "l2_abab"); (EVar "t2_aaaa"); (EVar "t2_bbbb")]));
   (*L2232*) SAug true "energy" (EScale (1 # 4) (EEins "cdef,jiba,lkcd,ebjl,faik" [(ESlice (EVar "g_abab") [SV "v"; SV "v"; SV "v"; SV "v"]); (EVar "l2_abab"); (EVar "l2_abab"); (EVar "t2_aaaa"); (EVar "t2_bbbb")]));
   (*L2235*) SAug true "energy" (EScale (1 # 4) (EEins "dcef,jiba,kldc,bejl,faik" [(ESlice (EVar "g_bbbb") [SV "v"; SV "v"; SV "v"; SV "v"]); (EVar "l2_abab"); (EVar "l2_bbbb"); (EVar "t2_abab"); (EVar "t2_bbbb")]));
   (*L2238*) SAug true "energy" (EScale (1 # 4) (EEins "dcef,jiab,kldc,ebjl,afki" [(ESlice (EVar "g_abab") [SV "v"; SV "v"; SV "v"; SV "v"]); (EVar "l2_abab"); (EVar "l2_abab"); (EVar "t2_abab"); (EVar "t2_abab")]));
   (*L2241*) SAug true "energy" (EScale (1 # 4) (EEins "cdef,jiab,klcd,ebjl,afki" [(ESlice (EVar "g_abab") [SV "v"; SV "v"; SV "v"; SV "v"]); (EVar "l2_abab"); (EVar "l2_abab"); (EVar "t2_abab"); (EVar "t2_abab")]));
   (*L2244*) SAug true "energy" (EScale (1 # 4) (EEins "dcef,ijba,kldc,eblj,faki" [(ESlice (EVar "g_aaaa") [SV "v"; SV "v"; SV "v"; SV "v"]); (EVar "l2_bbbb"); (EVar "l2_aaaa"); (EVar "t2_abab"); (EVar "t2_abab")]));
   (*L2247*) SAug true "energy" (EScale (1 # 4) (EEins "dcfe,ijba,kldc,ebjl,faki" [(ESlice (EVar "g_abab") [SV "v"; SV "v"; SV "v"; SV "v"]); (EVar "l2_bbbb"); (EVar "l2_abab"); (EVar "t2_bbbb"); (EVar "t2_abab")]));
   (*L2250*) SAug true "energy" (EScale (1 # 4) (EEins "cdfe,ijba,klcd,ebjl,faki" [(ESlice (EVar "g_abab") [SV "v"; SV "v"; SV "v"; SV "v"]); (EVar "l2_bbbb"); (EVar "l2_abab"); (EVar "t2_bbbb"); (EVar "t2_abab")]));
   (*L2253*) SAug true "energy" (EScale (1 # 4) (EEins "dcef,ijba,lkdc,eblj,faik" [(ESlice (EVar "g_abab") [SV "v"; SV "v"; SV "v"; SV "v"]); (EVar "l2_bbbb"); (EVar "l2_abab"); (EVar "t2_abab"); (EVar "t2_bbbb")]));
   (*L2256*) SAug true "energy" (EScale (1 # 4) (EEins "cdef,ijba,lkcd,eblj,faik" [(ESlice (EVar "g_abab") [SV "v"; SV "v"; SV "v"; SV "v"]); (EVar "l2_bbbb"); (EVar "l2_abab"); (EVar "t2_abab"); (EVar "t2_bbbb")]));
   (*L2259*) SAug true "energy" (EScale (1 # 4) (EEins "dcef,ijba,kldc,ebjl,faik" [(ESlice (EVar "g_bbbb") [SV "v"; SV "v"; SV "v"; SV "v"]); (EVar "l2_bbbb"); (EVar "l2_bbbb"); (EVar "t2_bbbb"); (EVar "t2_bbbb")]));
   (*L2262*) SAug true "energy" (EScale (1 # 4) (EEins "dbef,ijba,kldc,eckl,faij" [(ESlice (EVar "g_aaaa") [SV "v"; SV "v"; SV "v"; SV "v"]); (EVar "l2_aaaa"); (EVar "l2_aaaa"); (EVar "t2_aaaa"); (EVar "t2_aaaa")]));
   (*L2265*) SAug true "energy" (EScale (1 # 4) (EEins "dbef,ijba,kldc,eckl,faij" [(ESlice (EVar "g_aaaa") [SV "v"; SV "v"; SV "v"; SV "v"]); (EVar "l2_aaaa"); (EVar "l2_abab"); (EVar "t2_abab"); (EVar "t2_aaaa")]));
   (*L2268*) SAug true "energy" (EScale (1 # 4) (EEins "bdfe,ijba,klcd,cekl,faij" [(ESlice (EVar "g_abab") [SV "v"; SV "v"; SV "v"; SV "v"]); (EVar "l2_aaaa"); (EVar "l2_abab"); (EVar "t2_abab"); (EVar "t2_aaaa")]));
   (*L2271*) SAug true "energy" (EScale (1 # 4) (EEins "dbef,ijba,lkdc,eclk,faij" [(ESlice (EVar "g_aaaa") [SV "v"; SV "v"; SV "v"; SV "v"]); (EVar "l2_aaaa"); (EVar "l2_abab"); (EVar "t2_abab"); (EVar "t2_aaaa")]));
   (*L2274*) SAug true "energy" (EScale (1 # 4) (EEins "bdfe,ijba,lkcd,celk,faij" [(ESlice (EVar "g_abab") [SV "v"; SV "v"; SV "v"; SV "v"]); (EVar "l2_aaaa"); (EVar "l2_abab"); (EVar "t2_abab"); (EVar "t2_aaaa")]));
   (*L2277*) SAug true "energy" (EScale (1 # 4) (EEins "bdfe,ijba,kldc,eckl,faij" [(ESlice (EVar "g_abab") [SV "v"; SV "v"; SV "v"; SV "v"]); (EVar "l2_aaaa"); (EVar "l2_bbbb"); (EVar "t2_bbbb"); (EVar "t2_aaaa")]));
   (*L2280*) SAug true "energy" (EScale (1 # 4) (EEins "dbef,ijba,kldc,eckl,faij" [(ESlice (EVar "g_aaaa") [SV "v"; SV "v"; SV "v"; SV "v"]); (EVar "l2_abab"); (EVar "l2_aaaa"); (EVar "t2_aaaa"); (EVar "t2_abab")]));
   (*L2283*) SAug true "energy" (EScale (1 # 4) (EEins "dbef,ijba,kldc,eckl,faij" [(ESlice (EVar "g_aaaa") [SV "v"; SV "v"; SV "v"; SV "v"]); (EVar "l2_abab"); (EVar "l2_abab"); (EVar "t2_abab"); (EVar "t2_abab")]));
   (*L2286*) SAug true "energy" (EScale (1 # 4) (EEins "bdfe,ijba,klcd,cekl,faij" [(ESlice (EVar "g_abab") [SV "v"; SV "v"; SV "v"; SV "v"]); (EVar "l2_abab"); (EVar "l2_abab"); (EVar "t2_abab"); (EVar "t2_abab")]));
   (*L2289*) SAug true "energy" (EScale (1 # 4) (EEins "dbef,ijba,lkdc,eclk,faij" [(ESlice (EVar "g_aaaa") [SV "v"; SV "v"; SV "v"; SV "v"]); (EVar "l2_abab"); (EVar "l2_abab"); (EVar "t2_abab"); (EVar "t2_abab")]));
   (*L2292*) SAug true "energy" (EScale (1 # 4) (EEins "bdfe,ijba,lkcd,celk,faij" [(ESlice (EVar "g_abab") [SV "v"; SV "v"; SV "v"; SV "v"]); (EVar "l2_abab"); (EVar "l2_abab"); (EVar "t2_abab"); (EVar "t2_abab")]));
   (*L2295*) SAug true "energy" (EScale (1 # 4) (EEins "bdfe,ijba,kldc,eckl,faij" [(ESlice (EVar "g_abab") [SV "v"; SV "v"; SV "v"; SV "v"]); (EVar "l2_abab"); (EVar "l2_bbbb"); (EVar "t2_bbbb"); (EVar "t2_abab")]));
   (*L2298*) SAug true "energy" (EScale (1 # 4) (EEins "dbef,ijab,kldc,eckl,afij" [(ESlice (EVar "g_abab") [SV "v"; SV "v"; SV "v"; SV "v"]); (EVar "l2_abab"); (EVar "l2_aaaa"); (EVar "t2_aaaa"); (EVar "t2_abab")]));
   (*L2301*) SAug true "energy" (EScale (1 # 4) (EEins "dbef,ijab,kldc,eckl,afij" [(ESlice (EVar "g_abab") [SV "v"; SV "v"; SV "v"; SV "v"]); (EVar "l2_abab"); (EVar "l2_abab"); (EVar "t2_abab"); (EVar "t2_abab")]));
   (*L2304*) SAug true "energy" (EScale (1 # 4) (EEins "dbef,ijab,klcd,cekl,afij" [(ESlice (EVar "g_bbbb") [SV "v"; SV "v"; SV "v"; SV "v"]); (EVar "l2_abab"); (EVar "l2_abab"); (EVar "t2_abab"); (EVar "t2_abab")]));
   (*L2307*) SAug true "energy" (EScale (1 # 4) (EEins "dbef,ijab,lkdc,eclk,afij" [(ESlice (EVar "g_abab") [SV "v"; SV "v"; SV "v"; SV "v"]); (EVar "l2_abab"); (EVar "l2_abab"); (EVar "t2_abab"); (EVar "t2_abab")]));
   (*L2310*) SAug true "energy" (EScale (1 # 4) (EEins "dbef,ijab,lkcd,celk,afij" [(ESlice (EVar "g_bbbb") [SV "v"; SV "v"; SV "v"; SV "v"]); (EVar "l2_abab"); (EVar "l2_abab"); (EVar "t2_abab"); (EVar "t2_abab")]));
   (*L2313*) SAug true "energy" (EScale (1 # 4) (EEins "dbef,ijab,kldc,eckl,afij" [(ESlice (EVar "g_bbbb") [SV "v"; SV "v"; SV "v"; SV "v"]); (EVar "l2_abab"); (EVar "l2_bbbb"); (EVar "t2_bbbb"); (EVar "t2_abab")]));
   (*L2316*) SAug true "energy" (EScale (1 # 4) (EEins "dbef,jiba,kldc,eckl,faji" [(ESlice (EVar "g_aaaa") [SV "v"; SV "v"; SV "v"; SV "v"]); (EVar "l2_abab"); (EVar "l2_aaaa"); (EVar "t2_aaaa"); (EVar "t2_abab")]));
   (*L2319*) SAug true "energy" (EScale (1 # 4) (EEins "dbef,jiba,kldc,eckl,faji" [(ESlice (EVar "g_aaaa") [SV "v"; SV "v"; SV "v"; SV "v"]); (EVar "l2_abab"); (EVar "l2_abab"); (EVar "t2_abab"); (EVar "t2_abab")]));
   (*L2322*) SAug true "energy" (EScale (1 # 4) (EEins "bdfe,jiba,klcd,cekl,faji" [(ESlice (EVar "g_abab") [SV "v"; SV "v"; SV "v"; SV "v"]); (EVar "l2_abab"); (EVar "l2_abab"); (EVar "t2_abab"); (EVar "t2_abab")]));
   (*L2325*) SAug true "energy" (EScale (1 # 4) (EEins "dbef,jiba,lkdc,eclk,faji" [(ESlice (EVar "g_aaaa") [SV "v"; SV "v"; SV "v"; SV "v"]); (EVar "l2_abab"); (EVar "l2_abab"); (EVar "t2_abab"); (EVar "t2_abab")]));
   (*L2328*) SAug true "energy" (EScale (1 # 4) (EEins "bdfe,jiba,lkcd,celk,faji" [(ESlice (EVar "g_abab") [SV "v"; SV "v"; SV "v"; SV "v"]); (EVar "l2_abab"); (EVar "l2_abab"); (EVar "t2_abab"); (EVar "t2_abab")]));
   (*L2331*) SAug true "energy" (EScale (1 # 4) (EEins "bdfe,jiba,kldc,eckl,faji" [(ESlice (EVar "g_abab") [SV "v"; SV "v"; SV "v"; SV "v"]); (EVar "l2_abab"); (EVar "l2_bbbb"); (EVar "t2_bbbb"); (EVar "t2_abab")]));
   (*L2334*) SAug true "energy" (EScale (1 # 4) (EEins "dbef,jiab,kldc,eckl,afji" [(ESlice (EVar "g_abab") [SV "v"; SV "v"; SV "v"; SV "v"]); (EVar "l2_abab"); (EVar "l2_aaaa"); (EVar "t2_aaaa"); (EVar "t2_abab")]));
   (*L2337*) SAug true "energy" (EScale (1 # 4) (EEins "dbef,jiab,kldc,eckl,afji" [(ESlice (EVar "g_abab") [SV "v"; SV "v"; SV "v"; SV "v"]); (EVar "l2_abab"); (EVar "l2_abab"); (EVar "t2_abab"); (EVar "t2_abab")]));
   (*L2340*) SAug true "energy" (EScale (1 # 4) (EEins "dbef,jiab,klcd,cekl,afji" [(ESlice (EVar "g_bbbb") [SV "v"; SV "v"; SV "v"; SV "v"]); (EVar "l2_abab"); (EVar "l2_abab"); (EVar "t2_abab"); (EVar "t2_abab")]));
   (*L2343*) SAug true "energy" (EScale (1 # 4) (EEins "dbef,jiab,lkdc,eclk,afji" [(ESlice (EVar "g_abab") [SV "v"; SV "v"; SV "v"; SV "v"]); (EVar "l2_abab"); (EVar "l2_abab"); (EVar "t2_abab"); (EVar "t2_abab")]));
   (*L2346*) SAug true "energy" (EScale (1 # 4) (EEins "dbef,jiab,lkcd,celk,afji" [(ESlice (EVar "g_bbbb") [SV "v"; SV "v"; SV "v"; SV "v"]); (EVar "l2_abab"); (EVar "l2_abab"); (EVar "t2_abab"); (EVar "t2_abab")]));
   (*L2349*) SAug true "energy" (EScale (1 # 4) (EEins "dbef,jiab,kldc,eckl,afji" [(ESlice (EVar "g_bbbb") [SV "v"; SV "v"; SV "v"; SV "v"]); (EVar "l2_abab"); (EVar "l2_bbbb"); (EVar "t2_bbbb"); (EVar "t2_abab")]));
   (*L2352*) SAug true "energy" (EScale (1 # 4) (EEins "dbef,ijba,kldc,eckl,faij" [(ESlice (EVar "g_abab") [SV "v"; SV "v"; SV "v"; SV "v"]); (EVar "l2_bbbb"); (EVar "l2_aaaa"); (EVar "t2_aaaa"); (EVar "t2_bbbb")]));
   (*L2355*) SAug true "energy" (EScale (1 # 4) (EEins "dbef,ijba,kldc,eckl,faij" [(ESlice (EVar "g_abab") [SV "v"; SV "v"; SV "v"; SV "v"]); (EVar "l2_bbbb"); (EVar "l2_abab"); (EVar "t2_abab"); (EVar "t2_bbbb")]));
   (*L2358*) SAug true "energy" (EScale (1 # 4) (EEins "dbef,ijba,klcd,cekl,faij" [(ESlice (EVar "g_bbbb") [SV "v"; SV "v"; SV "v"; SV "v"]); (EVar "l2_bbbb"); (EVar "l2_abab"); (EVar "t2_abab"); (EVar "t2_bbbb")]));
   (*L2361*) SAug true "energy" (EScale (1 # 4) (EEins "dbef,ijba,lkdc,eclk,faij" [(ESlice (EVar "g_abab") [SV "v"; SV "v"; SV "v"; SV "v"]); (EVar "l2_bbbb"); (EVar "l2_abab"); (EVar "t2_abab"); (EVar "t2_bbbb")]));
   (*L2364*) SAug true "energy" (EScale (1 # 4) (EEins "dbef,ijba,lkcd,celk,faij" [(ESlice (EVar "g_bbbb") [SV "v"; SV "v"; SV "v"; SV "v"]); (EVar "l2_bbbb"); (EVar "l2_abab"); (EVar "t2_abab"); (EVar "t2_bbbb")]));
   (*L2367*) SAug true "energy" (EScale (1 # 4) (EEins "dbef,ijba,kldc,eckl,faij" [(ESlice (EVar "g_bbbb") [SV "v"; SV "v"; SV "v"; SV "v"]); (EVar "l2_bbbb"); (EVar "l2_bbbb"); (EVar "t2_bbbb"); (EVar "t2_bbbb")]));
   (*L2370*) SAug true "energy" (EScale (-5 # 8) (EEins "dbef,ijba,kldc,ecjl,faik" [(ESlice (EVar "g_aaaa") [SV "v"; SV "v"; SV "v"; SV "v"]); (EVar "l2_aaaa"); (EVar "l2_aaaa"); (EVar "t2_aaaa"); (EVar "t2_aaaa")]));
   (*L2373*) SAug true "energy" (EScale (-5 # 8) (EEins "dbef,ijba,kldc,ecjl,faik" [(ESlice (EVar "g_aaaa") [SV "v"; SV "v"; SV "v"; SV "v"]); (EVar "l2_aaaa"); (EVar "l2_abab"); (EVar "t2_abab"); (EVar "t2_aaaa")]));
   (*L2376*) SAug true "energy" (EScale (-5 # 8) (EEins "bdfe,ijba,klcd,cejl,faik" [(ESlice (EVar "g_abab") [SV "v"; SV "v"; SV "v"; SV "v"]); (EVar "l2_aaaa"); (EVar "l2_abab"); (EVar "t2_abab"); (EVar "t2_aaaa")]));
   (*L2379*) SAug true "energy" (EScale (-5 # 8) (EEins "bdef,ijba,lkcd,ecjl,afik" [(ESlice (EVar "g_abab") [SV "v"; SV "v"; SV "v"; SV "v"]); (EVar "l2_aaaa"); (EVar "l2_abab"); (EVar "t2_aaaa"); (EVar "t2_abab")]));
   (*L2382*) SAug true "energy" (EScale (-5 # 8) (EEins "bdef,ijba,kldc,ecjl,afik" [(ESlice (EVar "g_abab") [SV "v"; SV "v"; SV "v"; SV "v"]); (EVar "l2_aaaa"); (EVar "l2_bbbb"); (EVar "t2_abab"); (EVar "t2_abab")]));
   (*L2385*) SAug true "energy" (EScale (-5 # 8) (EEins "dbef,ijba,lkdc,eclj,faik" [(ESlice (EVar "g_aaaa") [SV "v"; SV "v"; SV "v"; SV "v"]); (EVar "l2_abab"); (EVar "l2_abab"); (EVar "t2_abab"); (EVar "t2_abab")]));
   (*L2388*) SAug true "energy" (EScale (-5 # 8) (EEins "bdfe,ijba,lkcd,celj,faik" [(ESlice (EVar "g_abab") [SV "v"; SV "v"; SV "v"; SV "v"]); (EVar "l2_abab"); (EVar "l2_abab"); (EVar "t2_abab"); (EVar "t2_abab")]));
   (*L2391*) SAug true "energy" (EScale (-5 # 8) (EEins "bdfe,ijba,kldc,ecjl,faik" [(ESlice (EVar "g_abab") [SV "v"; SV "v"; SV "v"; SV "v"]); (EVar "l2_abab"); (EVar "l2_bbbb"); (EVar "t2_bbbb"); (EVar "t2_abab")]));
   (*L2394*) SAug true "energy" (EScale (-5 # 8) (EEins "dbfe,ijab,kldc,celj,faik" [(ESlice (EVar "g_abab") [SV "v"; SV "v"; SV "v"; SV "v"]); (EVar "l2_abab"); (EVar "l2_aaaa"); (EVar "t2_abab"); (EVar "t2_aaaa")]));
   (*L2397*) SAug true "energy" (EScale (-5 # 8) (EEins "dbfe,ijab,kldc,ecjl,faik" [(ESlice (EVar "g_abab") [SV "v"; SV "v"; SV "v"; SV "v"]); (EVar "l2_abab"); (EVar "l2_abab"); (EVar "t2_bbbb"); (EVar "t2_aaaa")]));
   (*L2400*) SAug true "energy" (EScale (-5 # 8) (EEins "dbef,ijab,lkdc,eclj,afik" [(ESlice (EVar "g_abab") [SV "v"; SV "v"; SV "v"; SV "v"]); (EVar "l2_abab"); (EVar "l2_abab"); (EVar "t2_abab"); (EVar "t2_abab")]));
   (*L2403*) SAug true "energy" (EScale (-5 # 8) (EEins "dbef,ijab,lkcd,celj,afik" [(ESlice (EVar "g_bbbb") [SV "v"; SV "v"; SV "v"; SV "v"]); (EVar "l2_abab"); (EVar "l2_abab"); (EVar "t2_abab"); (EVar "t2_abab")]));
   (*L2406*) SAug true "energy" (EScale (-5 # 8) (EEins "dbef,ijab,kldc,ecjl,afik" [(ESlice (EVar "g_bbbb") [SV "v"; SV "v"; SV "v"; SV "v"]); (EVar "l2_abab"); (EVar "l2_bbbb"); (EVar "t2_bbbb"); (EVar "t2_abab")]));
   (*L2409*) SAug true "energy" (EScale (-5 # 8) (EEins "dbef,jiba,kldc,ecjl,faki" [(ESlice (EVar "g_aaaa") [SV "v"; SV "v"; SV "v"; SV "v"]); (EVar "l2_abab"); (EVar "l2_aaaa"); (EVar "t2_aaaa"); (EVar "t2_abab")]));
   (*L2412*) SAug true "energy" (EScale (-5 # 8) (EEins "dbef,jiba,kldc,ecjl,faki" [(ESlice (EVar "g_aaaa") [SV "v"; SV "v"; SV "v"; SV "v"]); (EVar "l2_abab"); (EVar "l2_abab"); (EVar "t2_abab"); (EVar "t2_abab")]));
   (*L2415*) SAug true "energy" (EScale (-5 # 8) (EEins "bdfe,jiba,klcd,cejl,faki" [(ESlice (EVar "g_abab") [SV "v"; SV "v"; SV "v"; SV "v"]); (EVar "l2_abab"); (EVar "l2_abab"); (EVar "t2_abab"); (EVar "t2_abab")]));
   (*L2418*) SAug true "energy" (EScale (-5 # 8) (EEins "bdef,jiba,lkcd,ecjl,faik" [(ESlice (EVar "g_abab") [SV "v"; SV "v"; SV "v"; SV "v"]); (EVar "l2_abab"); (EVar "l2_abab"); (EVar "t2_aaaa"); (EVar "t2_bbbb")]));
   (*L2421*) SAug true "energy" (EScale (-5 # 8) (EEins "bdef,jiba,kldc,ecjl,faik" [(ESlice (EVar "g_abab") [SV "v"; SV "v"; SV "v"; SV "v"]); (EVar "l2_abab"); (EVar "l2_bbbb"); (EVar "t2_abab"); (EVar "t2_bbbb")]));
   (*L2424*) SAug true "energy" (EScale (-5 # 8) (EEins "dbef,jiab,kldc,ecjl,afki" [(ESlice (EVar "g_abab") [SV "v"; SV "v"; SV "v"; SV "v"]); (EVar "l2_abab"); (EVar "l2_aaaa"); (EVar "t2_aaaa"); (EVar "t2_abab")]));
   (*L2427*) SAug true "energy" (EScale (-5 # 8) (EEins "dbef,jiab,kldc,ecjl,afki" [(ESlice (EVar "g_abab") [SV "v"; SV "v"; SV "v"; SV "v"]); (EVar "l2_abab"); (EVar "l2_abab"); (EVar "t2_abab"); (EVar "t2_abab")]));
   (*L2430*) SAug true "energy" (EScale (-5 # 8) (EEins "dbef,jiab,klcd,cejl,afki" [(ESlice (EVar "g_bbbb") [SV "v"; SV "v"; SV "v"; SV "v"]); (EVar "l2_abab"); (EVar "l2_abab"); (EVar "t2_abab"); (EVar "t2_abab")]));
   (*L2433*) SAug true "energy" (EScale (-5 # 8) (EEins "dbfe,ijba,kldc,celj,faki" [(ESlice (EVar "g_abab") [SV "v"; SV "v"; SV "v"; SV "v"]); (EVar "l2_bbbb"); (EVar "l2_aaaa"); (EVar "t2_abab"); (EVar "t2_abab")]));
   (*L2436*) SAug true "energy" (EScale (-5 # 8) (EEins "dbfe,ijba,kldc,ecjl,faki" [(ESlice (EVar "g_abab") [SV "v"; SV "v"; SV "v"; SV "v"]); (EVar "l2_bbbb"); (EVar "l2_abab"); (EVar "t2_bbbb"); (EVar "t2_abab")]));
   (*L2439*) SAug true "energy" (EScale (-5 # 8) (EEins "dbef,ijba,lkdc,eclj,faik" [(ESlice (EVar "g_abab") [SV "v"; SV "v"; SV "v"; SV "v"]); (EVar "l2_bbbb"); (EVar "l2_abab"); (EVar "t2_abab"); (EVar "t2_bbbb")]));
   (*L2442*) SAug true "energy" (EScale (-5 # 8) (EEins "dbef,ijba,lkcd,celj,faik" [(ESlice (EVar "g_bbbb") [SV "v"; SV "v"; SV "v"; SV "v"]); (EVar "l2_bbbb"); (EVar "l2_abab"); (EVar "t2_abab"); (EVar "t2_bbbb")]));
   (*L2445*) SAug true "energy" (EScale (-5 # 8) (EEins "dbef,ijba,kldc,ecjl,faik" [(ESlice (EVar "g_bbbb") [SV "v"; SV "v"; SV "v"; SV "v"]); (EVar "l2_bbbb"); (EVar "l2_bbbb"); (EVar "t2_bbbb"); (EVar "t2_bbbb")]));
   (*L2448*) SAug true "energy" (EScale (1 # 4) (EEins "dbef,ijba,kldc,ecij,fakl" [(ESlice (EVar "g_aaaa") [SV "v"; SV "v"; SV "v"; SV "v"]); (EVar "l2_aaaa"); (EVar "l2_aaaa"); (EVar "t2_aaaa"); (EVar "t2_aaaa")]));
   (*L2451*) SAug true "energy" (EScale (-1 # 4) (EEins "bdef,ijba,klcd,ecij,afkl" [(ESlice (EVar "g_abab") [SV "v"; SV "v"; SV "v"; SV "v"]); (EVar "l2_aaaa"); (EVar "l2_abab"); (EVar "t2_aaaa"); (EVar "t2_abab")]));
   (*L2454*) SAug true "energy" (EScale (-1 # 4) (EEins "bdef,ijba,lkcd,ecij,aflk" [(ESlice (EVar "g_abab") [SV "v"; SV "v"; SV "v"; SV "v"]); (EVar "l2_aaaa"); (EVar "l2_abab"); (EVar "t2_aaaa"); (EVar "t2_abab")]));
   (*L2457*) SAug true "energy" (EScale (1 # 4) (EEins "dbef,ijba,kldc,ecij,fakl" [(ESlice (EVar "g_aaaa") [SV "v"; SV "v"; SV "v"; SV "v"]); (EVar "l2_abab"); (EVar "l2_abab"); (EVar "t2_abab"); (EVar "t2_abab")]));
   (*L2460*) SAug true "energy" (EScale (1 # 4) (EEins "bdfe,ijba,klcd,ceij,fakl" [(ESlice (EVar "g_abab") [SV "v"; SV "v"; SV "v"; SV "v"]); (EVar "l2_abab"); (EVar "l2_abab"); (EVar "t2_abab"); (EVar "t2_abab")]));
   (*L2463*) SAug true "energy" (EScale (1 # 4) (EEins "dbef,ijba,lkdc,ecij,falk" [(ESlice (EVar "g_aaaa") [SV "v"; SV "v"; SV "v"; SV "v"]); (EVar "l2_abab"); (EVar "l2_abab"); (EVar "t2_abab"); (EVar "t2_abab")]));
   (*L2466*) SAug true "energy" (EScale (1 # 4) (EEins "bdfe,ijba,lkcd,ceij,falk" [(ESlice (EVar "g_abab") [SV "v"; SV "v"; SV "v"; SV "v"]); (EVar "l2_abab"); (EVar "l2_abab"); (EVar "t2_abab"); (EVar "t2_abab")]));
   (*L2469*) SAug true "energy" (EScale (-1 # 4) (EEins "bdef,ijba,kldc,ecij,fakl" [(ESlice (EVar "g_abab") [SV "v"; SV "v"; SV "v"; SV "v"]); (EVar "l2_abab"); (EVar "l2_bbbb"); (EVar "t2_abab"); (EVar "t2_bbbb")]));
   (*L2472*) SAug true "energy" (EScale (-1 # 4) (EEins "dbfe,ijab,kldc,ceij,fakl" [(ESlice (EVar "g_abab") [SV "v"; SV "v"; SV "v"; SV "v"]); (EVar "l2_abab"); (EVar "l2_aaaa"); (EVar "t2_abab"); (EVar "t2_aaaa")]));
   (*L2475*) SAug true "energy" (EScale (1 # 4) (EEins "dbef,ijab,kldc,ecij,afkl" [(ESlice (EVar "g_abab") [SV "v"; SV "v"; SV "v"; SV "v"]); (EVar "l2_abab"); (EVar "l2_abab"); (EVar "t2_abab"); (EVar "t2_abab")]));
   (*L2478*) SAug true "energy" (EScale (1 # 4) (EEins "dbef,ijab,klcd,ceij,afkl" [(ESlice (EVar "g_bbbb") [SV "v"; SV "v"; SV "v"; SV "v"]); (EVar "l2_abab"); (EVar "l2_abab"); (EVar "t2_abab"); (EVar "t2_abab")]));
   (*L2481*) SAug true "energy" (EScale (1 # 4) (EEins "dbef,ijab,lkdc,ecij,aflk" [(ESlice (EVar "g_abab") [SV "v"; SV "v"; SV "v"; SV "v"]); (EVar "l2_abab"); (EVar "l2_abab"); (EVar "t2_abab"); (EVar "t2_abab")]));
   (*L2484*) SAug true "energy" (EScale (1 # 4) (EEins "dbef,ijab,lkcd,ceij,aflk" [(ESlice (EVar "g_bbbb") [SV "v"; SV "v"; SV "v"; SV "v"]); (EVar "l2_abab"); (EVar "l2_abab"); (EVar "t2_abab"); (EVar "t2_abab")]));
   (*L2487*) SAug true "energy" (EScale (1 # 4) (EEins "dbef,jiba,kldc,ecji,fakl" [(ESlice (EVar "g_aaaa") [SV "v"; SV "v"; SV "v"; SV "v"]); (EVar "l2_abab"); (EVar "l2_abab"); (EVar "t2_abab"); (EVar "t2_abab")]));
   (*L2490*) SAug true "energy" (EScale (1 # 4) (EEins "bdfe,jiba,klcd,ceji,fakl" [(ESlice (EVar "g_abab") [SV "v"; SV "v"; SV "v"; SV "v"]); (EVar "l2_abab"); (EVar "l2_abab"); (EVar "t2_abab"); (EVar "t2_abab")]));
   (*L2493*) SAug true "energy" (EScale (1 # 4) (EEins "dbef,jiba,lkdc,ecji,falk" [(ESlice (EVar "g_aaaa") [SV "v"; SV "v"; SV "v"; SV "v"]); (EVar "l2_abab"); (EVar "l2_abab"); (EVar "t2_abab"); (EVar "t2_abab")]));
   (*L2496*) SAug true "energy" (EScale (1 # 4) (EEins "bdfe,jiba,lkcd,ceji,falk" [(ESlice (EVar "g_abab") [SV "v"; SV "v"; SV "v"; SV "v"]); (EVar "l2_abab"); (EVar "l2_abab"); (EVar "t2_abab"); (EVar "t2_abab")]));
   (*L2499*) SAug true "energy" (EScale (-1 # 4) (EEins "bdef,jiba,kldc,ecji,fakl" [(ESlice (EVar "g_abab") [SV "v"; SV "v"; SV "v"; SV "v"]); (EVar "l2_abab"); (EVar "l2_bbbb"); (EVar "t2_abab"); (EVar "t2_bbbb")]));
   (*L2502*) SAug true "energy" (EScale (-1 # 4) (EEins "dbfe,jiab,kldc,ceji,fakl" [(ESlice (EVar "g_abab") [SV "v"; SV "v"; SV "v"; SV "v"]); (EVar "l2_abab"); (EVar "l2_aaaa"); (EVar "t2_abab"); (EVar "t2_aaaa")]));
   (*L2505*) SAug true "energy" (EScale (1 # 4) (EEins "dbef,jiab,kldc,ecji,afkl" [(ESlice (EVar "g_abab") [SV "v"; SV "v"; SV "v"; SV "v"]); (EVar "l2_abab"); (EVar "l2_abab"); (EVar "t2_abab"); (EVar "t2_abab")]));
   (*L2508*) SAug true "energy" (EScale (1 # 4) (EEins "dbef,jiab,klcd,ceji,afkl" [(ESlice (EVar "g_bbbb") [SV "v"; SV "v"; SV "v"; SV "v"]); (EVar "l2_abab"); (EVar "l2_abab"); (EVar "t2_abab"); (EVar "t2_abab")]));
   (*L2511*) SAug true "energy" (EScale (1 # 4) (EEins "dbef,jiab,lkdc,ecji,aflk" [(ESlice (EVar "g_abab") [SV "v"; SV "v"; SV "v"; SV "v"]); (EVar "l2_abab"); (EVar "l2_abab"); (EVar "t2_abab"); (EVar "t2_abab")]));
   (*L2514*) SAug true "energy" (EScale (1 # 4) (EEins "dbef,jiab,lkcd,ceji,aflk" [(ESlice (EVar "g_bbbb") [SV "v"; SV "v"; SV "v"; SV "v"]); (EVar "l2_abab"); (EVar "l2_abab"); (EVar "t2_abab"); (EVar "t2_abab")]));
   (*L2517*) SAug true "energy" (EScale (-1 # 4) (EEins "dbfe,ijba,kldc,ecij,fakl" [(ESlice (EVar "g_abab") [SV "v"; SV "v"; SV "v"; SV "v"]); (EVar "l2_bbbb"); (EVar "l2_abab"); (EVar "t2_bbbb"); (EVar "t2_abab")]));
   (*L2520*) SAug true "energy" (EScale (-1 # 4) (EEins "dbfe,ijba,lkdc,ecij,falk" [(ESlice (EVar "g_abab") [SV "v"; SV "v"; SV "v"; SV "v"]); (EVar "l2_bbbb"); (EVar "l2_abab"); (EVar "t2_bbbb"); (EVar "t2_abab")]));
   (*L2523*) SAug true "energy" (EScale (1 # 4) (EEins "dbef,ijba,kldc,ecij,fakl" [(ESlice (EVar "g_bbbb") [SV "v"; SV "v"; SV "v"; SV "v"]); (EVar "l2_bbbb"); (EVar "l2_bbbb"); (EVar "t2_bbbb"); (EVar "t2_bbbb")]));
   (*L2526*) SAug true "energy" (EScale (-3 # 8) (EEins "daef,ijba,kldc,ebjl,fcik" [(ESlice (EVar "g_aaaa") [SV "v"; SV "v"; SV "v"; SV "v"]); (EVar "l2_aaaa"); (EVar "l2_aaaa"); (EVar "t2_aaaa"); (EVar "t2_aaaa")]));
   (*L2529*) SAug true "energy" (EScale (-3 # 8) (EEins "adfe,ijba,klcd,bejl,fcik" [(ESlice (EVar "g_abab") [SV "v"; SV "v"; SV "v"; SV "v"]); (EVar "l2_aaaa"); (EVar "l2_abab"); (EVar "t2_abab"); (EVar "t2_aaaa")]));
   (*L2532*) SAug true "energy" (EScale (3 # 8) (EEins "daef,ijba,lkdc,ebjl,fcik" [(ESlice (EVar "g_aaaa") [SV "v"; SV "v"; SV "v"; SV "v"]); (EVar "l2_aaaa"); (EVar "l2_abab"); (EVar "t2_aaaa"); (EVar "t2_abab")]));
   (*L2535*) SAug true "energy" (EScale (-3 # 8) (EEins "adef,ijba,lkcd,ebjl,cfik" [(ESlice (EVar "g_abab") [SV "v"; SV "v"; SV "v"; SV "v"]); (EVar "l2_aaaa"); (EVar "l2_abab"); (EVar "t2_aaaa"); (EVar "t2_abab")]));
   (*L2538*) SAug true "energy" (EScale (3 # 8) (EEins "adfe,ijba,kldc,bejl,fcik" [(ESlice (EVar "g_abab") [SV "v"; SV "v"; SV "v"; SV "v"]); (EVar "l2_aaaa"); (EVar "l2_bbbb"); (EVar "t2_abab"); (EVar "t2_abab")]));
   (*L2541*) SAug true "energy" (EScale (3 # 8) (EEins "dafe,ijba,kldc,belj,fcik" [(ESlice (EVar "g_abab") [SV "v"; SV "v"; SV "v"; SV "v"]); (EVar "l2_abab"); (EVar "l2_aaaa"); (EVar "t2_abab"); (EVar "t2_aaaa")]));
   (*L2544*) SAug true "energy" (EScale (-3 # 8) (EEins "dafe,ijba,lkdc,belj,fcik" [(ESlice (EVar "g_abab") [SV "v"; SV "v"; SV "v"; SV "v"]); (EVar "l2_abab"); (EVar "l2_abab"); (EVar "t2_abab"); (EVar "t2_abab")]));
   (*L2547*) SAug true "energy" (EScale (3 # 8) (EEins "daef,ijba,lkcd,belj,cfik" [(ESlice (EVar "g_bbbb") [SV "v"; SV "v"; SV "v"; SV "v"]); (EVar "l2_abab"); (EVar "l2_abab"); (EVar "t2_abab"); (EVar "t2_abab")]));
   (*L2550*) SAug true "energy" (EScale (-3 # 8) (EEins "daef,ijab,kldc,eblj,fcik" [(ESlice (EVar "g_aaaa") [SV "v"; SV "v"; SV "v"; SV "v"]); (EVar "l2_abab"); (EVar "l2_aaaa"); (EVar "t2_abab"); (EVar "t2_aaaa")]));
   (*L2553*) SAug true "energy" (EScale (-3 # 8) (EEins "adfe,ijab,klcd,ebjl,fcik" [(ESlice (EVar "g_abab") [SV "v"; SV "v"; SV "v"; SV "v"]); (EVar "l2_abab"); (EVar "l2_abab"); (EVar "t2_bbbb"); (EVar "t2_aaaa")]));
   (*L2556*) SAug true "energy" (EScale (3 # 8) (EEins "daef,ijab,lkdc,eblj,fcik" [(ESlice (EVar "g_aaaa") [SV "v"; SV "v"; SV "v"; SV "v"]); (EVar "l2_abab"); (EVar "l2_abab"); (EVar "t2_abab"); (EVar "t2_abab")]));
   (*L2559*) SAug true "energy" (EScale (-3 # 8) (EEins "adef,ijab,lkcd,eblj,cfik" [(ESlice (EVar "g_abab") [SV "v"; SV "v"; SV "v"; SV "v"]); (EVar "l2_abab"); (EVar "l2_abab"); (EVar "t2_abab"); (EVar "t2_abab")]));
   (*L2562*) SAug true "energy" (EScale (3 # 8) (EEins "adfe,ijab,kldc,ebjl,fcik" [(ESlice (EVar "g_abab") [SV "v"; SV "v"; SV "v"; SV "v"]); (EVar "l2_abab"); (EVar "l2_bbbb"); (EVar "t2_bbbb"); (EVar "t2_abab")]));
   (*L2565*) SAug true "energy" (EScale (3 # 8) (EEins "daef,jiba,kldc,ebjl,cfki" [(ESlice (EVar "g_abab") [SV "v"; SV "v"; SV "v"; SV "v"]); (EVar "l2_abab"); (EVar "l2_aaaa"); (EVar "t2_aaaa"); (EVar "t2_abab")]));
   (*L2568*) SAug true "energy" (EScale (-3 # 8) (EEins "dafe,jiba,kldc,bejl,fcki" [(ESlice (EVar "g_abab") [SV "v"; SV "v"; SV "v"; SV "v"]); (EVar "l2_abab"); (EVar "l2_abab"); (EVar "t2_abab"); (EVar "t2_abab")]));
   (*L2571*) SAug true "energy" (EScale (3 # 8) (EEins "daef,jiba,klcd,bejl,cfki" [(ESlice (EVar "g_bbbb") [SV "v"; SV "v"; SV "v"; SV "v"]); (EVar "l2_abab"); (EVar "l2_abab"); (EVar "t2_abab"); (EVar "t2_abab")]));
   (*L2574*) SAug true "energy" (EScale (-3 # 8) (EEins "daef,jiba,lkdc,ebjl,fcik" [(ESlice (EVar "g_abab") [SV "v"; SV "v"; SV "v"; SV "v"]); (EVar "l2_abab"); (EVar "l2_abab"); (EVar "t2_aaaa"); (EVar "t2_bbbb")]));
   (*L2577*) SAug true "energy" (EScale (-3 # 8) (EEins "daef,jiba,kldc,bejl,fcik" [(ESlice (EVar "g_bbbb") [SV "v"; SV "v"; SV "v"; SV "v"]); (EVar "l2_abab"); (EVar "l2_bbbb"); (EVar "t2_abab"); (EVar "t2_bbbb")]));
   (*L2580*) SAug true "energy" (EScale (3 # 8) (EEins "daef,jiab,kldc,ebjl,fcki" [(ESlice (EVar "g_aaaa") [SV "v"; SV "v"; SV "v"; SV "v"]); (EVar "l2_abab"); (EVar "l2_abab"); (EVar "t2_abab"); (EVar "t2_abab")]));
   (*L2583*) SAug true "energy" (EScale (-3 # 8) (EEins "adef,jiab,klcd,ebjl,cfki" [(ESlice (EVar "g_abab") [SV "v"; SV "v"; SV "v"; SV "v"]); (EVar "l2_abab"); (EVar "l2_abab"); (EVar "t2_abab"); (EVar "t2_abab")]));
   (*L2586*) SAug true "energy" (EScale (3 # 8) (EEins "adef,jiab,kldc,ebjl,fcik" [(ESlice (EVar "g_abab") [SV "v"; SV "v"; SV "v"; SV "v"]); (EVar "l2_abab"); (EVar "l2_bbbb"); (EVar "t2_abab"); (EVar "t2_bbbb")]));
   (*L2589*) SAug true "energy" (EScale (3 # 8) (EEins "daef,ijba,kldc,eblj,cfki" [(ESlice (EVar "g_abab") [SV "v"; SV "v"; SV "v"; SV "v"]); (EVar "l2_bbbb"); (EVar "l2_aaaa"); (EVar "t2_abab"); (EVar "t2_abab")]));
   (*L2592*) SAug true "energy" (EScale (-3 # 8) (EEins "dafe,ijba,kldc,ebjl,fcki" [(ESlice (EVar "g_abab") [SV "v"; SV "v"; SV "v"; SV "v"]); (EVar "l2_bbbb"); (EVar "l2_abab"); (EVar "t2_bbbb"); (EVar "t2_abab")]));
   (*L2595*) SAug true "energy" (EScale (3 # 8) (EEins "daef,ijba,klcd,ebjl,cfki" [(ESlice (EVar "g_bbbb") [SV "v"; SV "v"; SV "v"; SV "v"]); (EVar "l2_bbbb"); (EVar "l2_abab"); (EVar "t2_bbbb"); (EVar "t2_abab")]));
   (*L2598*) SAug true "energy" (EScale (-3 # 8) (EEins "daef,ijba,lkdc,eblj,fcik" [(ESlice (EVar "g_abab") [SV "v"; SV "v"; SV "v"; SV "v"]); (EVar "l2_bbbb"); (EVar "l2_abab"); (EVar "t2_abab"); (EVar "t2_bbbb")]));
   (*L2601*) SAug true "energy" (EScale (-3 # 8) (EEins "daef,ijba,kldc,ebjl,fcik" [(ESlice (EVar "g_bbbb") [SV "v"; SV "v"; SV "v"; SV "v"]); (EVar "l2_bbbb"); (EVar "l2_bbbb"); (EVar "t2_bbbb"); (EVar "t2_bbbb")]));
   (*L2604*) SAug true "energy" (EScale (-1 # 8) (EEins "baef,ijba,kldc,edkl,fcij" [(ESlice (EVar "g_aaaa") [SV "v"; SV "v"; SV "v"; SV "v"]); (EVar "l2_aaaa"); (EVar "l2_aaaa"); (EVar "t2_aaaa"); (EVar "t2_aaaa")]));
   (*L2607*) SAug true "energy" (EScale (1 # 8) (EEins "baef,ijba,klcd,edkl,fcij" [(ESlice (EVar "g_aaaa") [SV "v"; SV "v"; SV "v"; SV "v"]); (EVar "l2_aaaa"); (EVar "l2_abab"); (EVar "t2_abab"); (EVar "t2_aaaa")]));
   (*L2610*) SAug true "energy" (EScale (1 # 8) (EEins "baef,ijba,lkcd,edlk,fcij" [(ESlice (EVar "g_aaaa") [SV "v"; SV "v"; SV "v"; SV "v"]); (EVar "l2_aaaa"); (EVar "l2_abab"); (EVar "t2_abab"); (EVar "t2_aaaa")]));
   (*L2613*) SAug true "energy" (EScale (1 # 8) (EEins "baef,ijba,kldc,edkl,cfij" [(ESlice (EVar "g_abab") [SV "v"; SV "v"; SV "v"; SV "v"]); (EVar "l2_abab"); (EVar "l2_aaaa"); (EVar "t2_aaaa"); (EVar "t2_abab")]));
   (*L2616*) SAug true "energy" (EScale (-1 # 8) (EEins "bafe,ijba,kldc,dekl,fcij" [(ESlice (EVar "g_abab") [SV "v"; SV "v"; SV "v"; SV "v"]); (EVar "l2_abab"); (EVar "l2_abab"); (EVar "t2_abab"); (EVar "t2_abab")]));
   (*L2619*) SAug true "energy" (EScale (-1 # 8) (EEins "baef,ijba,klcd,edkl,cfij" [(ESlice (EVar "g_abab") [SV "v"; SV "v"; SV "v"; SV "v"]); (EVar "l2_abab"); (EVar "l2_abab"); (EVar "t2_abab"); (EVar "t2_abab")]));
   (*L2622*) SAug true "energy" (EScale (-1 # 8) (EEins "bafe,ijba,lkdc,delk,fcij" [(ESlice (EVar "g_abab") [SV "v"; SV "v"; SV "v"; SV "v"]); (EVar "l2_abab"); (EVar "l2_abab"); (EVar "t2_abab"); (EVar "t2_abab")]));
   (*L2625*) SAug true "energy" (EScale (-1 # 8) (EEins "baef,ijba,lkcd,edlk,cfij" [(ESlice (EVar "g_abab") [SV "v"; SV "v"; SV "v"; SV "v"]); (EVar "l2_abab"); (EVar "l2_abab"); (EVar "t2_abab"); (EVar "t2_abab")]));
   (*L2628*) SAug true "energy" (EScale (1 # 8) (EEins "bafe,ijba,kldc,edkl,fcij" [(ESlice (EVar "g_abab") [SV "v"; SV "v"; SV "v"; SV "v"]); (EVar "l2_abab"); (EVar "l2_bbbb"); (EVar "t2_bbbb"); (EVar "t2_abab")]));
   (*L2631*) SAug true "energy" (EScale (1 # 8) (EEins "abef,ijab,kldc,edkl,cfij" [(ESlice (EVar "g_abab") [SV "v"; SV "v"; SV "v"; SV "v"]); (EVar "l2_abab"); (EVar "l2_aaaa"); (EVar "t2_aaaa"); (EVar "t2_abab")]));
   (*L2634*) SAug true "energy" (EScale (-1 # 8) (EEins "abfe,ijab,kldc,dekl,fcij" [(ESlice (EVar "g_abab") [SV "v"; SV "v"; SV "v"; SV "v"]); (EVar "l2_abab"); (EVar "l2_abab"); (EVar "t2_abab"); (EVar "t2_abab")]));
   (*L2637*) SAug true "energy" (EScale (-1 # 8) (EEins "abef,ijab,klcd,edkl,cfij" [(ESlice (EVar "g_abab") [SV "v"; SV "v"; SV "v"; SV "v"]); (EVar "l2_abab"); (EVar "l2_abab"); (EVar "t2_abab"); (EVar "t2_abab")]));
   (*L2640*) SAug true "energy" (EScale (-1 # 8) (EEins "abfe,ijab,lkdc,delk,fcij" [(ESlice (EVar "g_abab") [SV "v"; SV "v"; SV "v"; SV "v"]); (EVar "l2_abab"); (EVar "l2_abab"); (EVar "t2_abab"); (EVar "t2_abab")]));
   (*L2643*) SAug true "energy" (EScale (-1 # 8) (EEins "abef,ijab,lkcd,edlk,cfij" [(ESlice (EVar "g_abab") [SV "v"; SV "v"; SV "v"; SV "v"]); (EVar "l2_abab"); (EVar "l2_abab"); (EVar "t2_abab"); (EVar "t2_abab")]));
   (*L2646*) SAug true "energy" (EScale (1 # 8) (EEins "abfe,ijab,kldc,edkl,fcij" [(ESlice (EVar "g_abab") [SV "v"; SV "v"; SV "v"; SV "v"]); (EVar "l2_abab"); (EVar "l2_bbbb"); (EVar "t2_bbbb"); (EVar "t2_abab")]));
   (*L2649*) SAug true "energy" (EScale (1 # 8) (EEins "baef,jiba,kldc,edkl,cfji" [(ESlice (EVar "g_abab") [SV "v"; SV "v"; SV "v"; SV "v"]); (EVar "l2_abab"); (EVar "l2_aaaa"); (EVar "t2_aaaa"); (EVar "t2_abab")]));
   (*L2652*) SAug true "energy" (EScale (-1 # 8) (EEins "bafe,jiba,kldc,dekl,fcji" [(ESlice (EVar "g_abab") [SV "v"; SV "v"; SV "v"; SV "v"]); (EVar "l2_abab"); (EVar "l2_abab"); (EVar "t2_abab"); (EVar "t2_abab")]));
   (*L2655*) SAug true "energy" (EScale (-1 # 8) (EEins "baef,jiba,klcd,edkl,cfji" [(ESlice (EVar "g_abab") [SV "v"; SV "v"; SV "v"; SV "v"]); (EVar "l2_abab"); (EVar "l2_abab"); (EVar "t2_abab"); (EVar "t2_abab")]));
   (*L2658*) SAug true "energy" (EScale (-1 # 8) (EEins "bafe,jiba,lkdc,delk,fcji" [(ESlice (EVar "g_abab") [SV "v"; SV "v"; SV "v"; SV "v"]); (EVar "l2_abab"); (EVar "l2_abab"); (EVar "t2_abab"); (EVar "t2_abab")]));
   (*L2661*) SAug true "energy" (EScale (-1 # 8) (EEins "baef,jiba,lkcd,edlk,cfji" [(ESlice (EVar "g_abab") [SV "v"; SV "v"; SV "v"; SV "v"]); (EVar "l2_abab"); (EVar "l2_abab"); (EVar "t2_abab"); (EVar "t2_abab")]));
   (*L2664*) SAug true "energy" (EScale (1 # 8) (EEins "bafe,jiba,kldc,edkl,fcji" [(ESlice (EVar "g_abab") [SV "v"; SV "v"; SV "v"; SV "v"]); (EVar "l2_abab"); (EVar "l2_bbbb"); (EVar "t2_bbbb"); (EVar "t2_abab")]));
   (*L2667*) SAug true "energy" (EScale (1 # 8) (EEins "abef,jiab,kldc,edkl,cfji" [(ESlice (EVar "g_abab") [SV "v"; SV "v"; SV "v"; SV "v"]); (EVar "l2_abab"); (EVar "l2_aaaa"); (EVar "t2_aaaa"); (EVar "t2_abab")]));
   (*L2670*) SAug true "energy" (EScale (-1 # 8) (EEins "abfe,jiab,kldc,dekl,fcji" [(ESlice (EVar "g_abab") [SV "v"; SV "v"; SV "v"; SV "v"]); (EVar "l2_abab"); (EVar "l2_abab"); (EVar "t2_abab"); (EVar "t2_abab")]));
   (*L2673*) SAug true "energy" (EScale (-1 # 8) (EEins "abef,jiab,klcd,edkl,cfji" [(ESlice (EVar "g_abab") [SV "v"; SV "v"; SV "v"; SV "v"]); (EVar "l2_abab"); (EVar "l2_abab"); (EVar "t2_abab"); (EVar "t2_abab")]));
   (*L2676*) SAug true "energy" (EScale (-1 # 8) (EEins "abfe,jiab,lkdc,delk,fcji" [(ESlice (EVar "g_abab") [SV "v"; SV "v"; SV "v"; SV "v"]); (EVar "l2_abab"); (EVar "l2_abab"); (EVar "t2_abab"); (EVar "t2_abab")]));
   (*L2679*) SAug true "energy" (EScale (-1 # 8) (EEins "abef,jiab,lkcd,edlk,cfji" [(ESlice (EVar "g_abab") [SV "v"; SV "v"; SV "v"; SV "v"]); (EVar "l2_abab"); (EVar "l2_abab"); (EVar "t2_abab"); (EVar "t2_abab")]));
   (*L2682*) SAug true "energy" (EScale (1 # 8) (EEins "abfe,jiab,kldc,edkl,fcji" [(ESlice (EVar "g_abab") [SV "v"; SV "v"; SV "v"; SV "v"]); (EVar "l2_abab"); (EVar "l2_bbbb"); (EVar "t2_bbbb"); (EVar "t2_abab")]));
   (*L2685*) SAug true "energy" (EScale (1 # 8) (EEins "baef,ijba,kldc,dekl,fcij" [(ESlice (EVar "g_bbbb") [SV "v"; SV "v"; SV "v"; SV "v"]); (EVar "l2_bbbb"); (EVar "l2_abab"); (EVar "t2_abab"); (EVar "t2_bbbb")]));
   (*L2688*) SAug true "energy" (EScale (1 # 8) (EEins "baef,ijba,lkdc,delk,fcij" [(ESlice (EVar "g_bbbb") [SV "v"; SV "v"; SV "v"; SV "v"]); (EVar "l2_bbbb"); (EVar "l2_abab"); (EVar "t2_abab"); (EVar "t2_bbbb")]));
   (*L2691*) SAug true "energy" (EScale (-1 # 8) (EEins "baef,ijba,kldc,edkl,fcij" [(ESlice (EVar "g_bbbb") [SV "v"; SV "v"; SV "v"; SV "v"]); (EVar "l2_bbbb"); (EVar "l2_bbbb"); (EVar "t2_bbbb"); (EVar "t2_bbbb")]));
   (*L2694*) SAug true "energy" (EScale (1 # 4) (EEins "baef,ijba,kldc,edjl,fcik" [(ESlice (EVar "g_aaaa") [SV "v"; SV "v"; SV "v"; SV "v"]); (EVar "l2_aaaa"); (EVar "l2_aaaa"); (EVar "t2_aaaa"); (EVar "t2_aaaa")]));
   (*L2697*) SAug true "energy" (EScale (-1 # 4) (EEins "baef,ijba,klcd,edjl,fcik" [(ESlice (EVar "g_aaaa") [SV "v"; SV "v"; SV "v"; SV "v"]); (EVar "l2_aaaa"); (EVar "l2_abab"); (EVar "t2_abab"); (EVar "t2_aaaa")]));
   (*L2700*) SAug true "energy" (EScale (-1 # 4) (EEins "baef,ijba,lkdc,edjl,fcik" [(ESlice (EVar "g_aaaa") [SV "v"; SV "v"; SV "v"; SV "v"]); (EVar "l2_aaaa"); (EVar "l2_abab"); (EVar "t2_aaaa"); (EVar "t2_abab")]));
   (*L2703*) SAug true "energy" (EScale (1 # 4) (EEins "baef,ijba,kldc,edjl,fcik" [(ESlice (EVar "g_aaaa") [SV "v"; SV "v"; SV "v"; SV "v"]); (EVar "l2_aaaa"); (EVar "l2_bbbb"); (EVar "t2_abab"); (EVar "t2_abab")]));
   (*L2706*) SAug true "energy" (EScale (-1 # 4) (EEins "bafe,ijba,kldc,delj,fcik" [(ESlice (EVar "g_abab") [SV "v"; SV "v"; SV "v"; SV "v"]); (EVar "l2_abab"); (EVar "l2_aaaa"); (EVar "t2_abab"); (EVar "t2_aaaa")]));
   (*L2709*) SAug true "energy" (EScale (1 # 4) (EEins "bafe,ijba,klcd,edjl,fcik" [(ESlice (EVar "g_abab") [SV "v"; SV "v"; SV "v"; SV "v"]); (EVar "l2_abab"); (EVar "l2_abab"); (EVar "t2_bbbb"); (EVar "t2_aaaa")]));
   (*L2712*) SAug true "energy" (EScale (1 # 4) (EEins "bafe,ijba,lkdc,delj,fcik" [(ESlice (EVar "g_abab") [SV "v"; SV "v"; SV "v"; SV "v"]); (EVar "l2_abab"); (EVar "l2_abab"); (EVar "t2_abab"); (EVar "t2_abab")]));
   (*L2715*) SAug true "energy" (EScale (1 # 4) (EEins "baef,ijba,lkcd,edlj,cfik" [(ESlice (EVar "g_abab") [SV "v"; SV "v"; SV "v"; SV "v"]); (EVar "l2_abab"); (EVar "l2_abab"); (EVar "t2_abab"); (EVar "t2_abab")]));
   (*L2718*) SAug true "energy" (EScale (-1 # 4) (EEins "bafe,ijba,kldc,edjl,fcik" [(ESlice (EVar "g_abab") [SV "v"; SV "v"; SV "v"; SV "v"]); (EVar "l2_abab"); (EVar "l2_bbbb"); (EVar "t2_bbbb"); (EVar "t2_abab")]));
   (*L2721*) SAug true "energy" (EScale (-1 # 4) (EEins "abfe,ijab,kldc,delj,fcik" [(ESlice (EVar "g_abab") [SV "v"; SV "v"; SV "v"; SV "v"]); (EVar "l2_abab"); (EVar "l2_aaaa"); (EVar "t2_abab"); (EVar "t2_aaaa")]));
   (*L2724*) SAug true "energy" (EScale (1 # 4) (EEins "abfe,ijab,klcd,edjl,fcik" [(ESlice (EVar "g_abab") [SV "v"; SV "v"; SV "v"; SV "v"]); (EVar "l2_abab"); (EVar "l2_abab"); (EVar "t2_bbbb"); (EVar "t2_aaaa")]));
   (*L2727*) SAug true "energy" (EScale (1 # 4) (EEins "abfe,ijab,lkdc,delj,fcik" [(ESlice (EVar "g_abab") [SV "v"; SV "v"; SV "v"; SV "v"]); (EVar "l2_abab"); (EVar "l2_abab"); (EVar "t2_abab"); (EVar "t2_abab")]));
   (*L2730*) SAug true "energy" (EScale (1 # 4) (EEins "abef,ijab,lkcd,edlj,cfik" [(ESlice (EVar "g_abab") [SV "v"; SV "v"; SV "v"; SV "v"]); (EVar "l2_abab"); (EVar "l2_abab"); (EVar "t2_abab"); (EVar "t2_abab")]));
   (*L2733*) SAug true "energy" (EScale (-1 # 4) (EEins "abfe,ijab,kldc,edjl,fcik" [(ESlice (EVar "g_abab") [SV "v"; SV "v"; SV "v"; SV "v"]); (EVar "l2_abab"); (EVar "l2_bbbb"); (EVar "t2_bbbb"); (EVar "t2_abab")]));
   (*L2736*) SAug true "energy" (EScale (-1 # 4) (EEins "baef,jiba,kldc,edjl,cfki" [(ESlice (EVar "g_abab") [SV "v"; SV "v"; SV "v"; SV "v"]); (EVar "l2_abab"); (EVar "l2_aaaa"); (EVar "t2_aaaa"); (EVar "t2_abab")]));
   (*L2739*) SAug true "energy" (EScale (1 # 4) (EEins "bafe,jiba,kldc,dejl,fcki" [(ESlice (EVar "g_abab") [SV "v"; SV "v"; SV "v"; SV "v"]); (EVar "l2_abab"); (EVar "l2_abab"); (EVar "t2_abab"); (EVar "t2_abab")]));
   (*L2742*) SAug true "energy" (EScale (1 # 4) (EEins "baef,jiba,klcd,edjl,cfki" [(ESlice (EVar "g_abab") [SV "v"; SV "v"; SV "v"; SV "v"]); (EVar "l2_abab"); (EVar "l2_abab"); (EVar "t2_abab"); (EVar "t2_abab")]));
   (*L2745*) SAug true "energy" (EScale (1 # 4) (EEins "baef,jiba,lkdc,edjl,fcik" [(ESlice (EVar "g_abab") [SV "v"; SV "v"; SV "v"; SV "v"]); (EVar "l2_abab"); (EVar "l2_abab"); (EVar "t2_aaaa"); (EVar "t2_bbbb")]));
   (*L2748*) SAug true "energy" (EScale (-1 # 4) (EEins "baef,jiba,kldc,edjl,fcik" [(ESlice (EVar "g_abab") [SV "v"; SV "v"; SV "v"; SV "v"]); (EVar "l2_abab"); (EVar "l2_bbbb"); (EVar "t2_abab"); (EVar "t2_bbbb")]));
   (*L2751*) SAug true "energy" (EScale (-1 # 4) (EEins "abef,jiab,kldc,edjl,cfki" [(ESlice (EVar "g_abab") [SV "v"; SV "v"; SV "v"; SV "v"]); (EVar "l2_abab"); (EVar "l2_aaaa"); (EVar "t2_aaaa"); (EVar "t2_abab")]));
   (*L2754*) SAug true "energy" (EScale (1 # 4) (EEins "abfe,jiab,kldc,dejl,fcki" [(ESlice (EVar "g_abab") [SV "v"; SV "v"; SV "v"; SV "v"]); (EVar "l2_abab"); (EVar "l2_abab"); (EVar "t2_abab"); (EVar "t2_abab")]));
   (*L2757*) SAug true "energy" (EScale (1 # 4) (EEins "abef,jiab,klcd,edjl,cfki" [(ESlice (EVar "g_abab") [SV "v"; SV "v"; SV "v"; SV "v"]); (EVar "l2_abab"); (EVar "l2_abab"); (EVar "t2_abab"); (EVar "t2_abab")]));
   (*L2760*) SAug true "energy" (EScale (1 # 4) (EEins "abef,jiab,lkdc,edjl,fcik" [(ESlice (EVar "g_abab") [SV "v"; SV "v"; SV "v"; SV "v"]); (EVar "l2_abab"); (EVar "l2_abab"); (EVar "t2_aaaa"); (EVar "t2_bbbb")]));
   (*L2763*) SAug true "energy" (EScale (-1 # 4) (EEins "abef,jiab,kldc,edjl,fcik" [(ESlice (EVar "g_abab") [SV "v"; SV "v"; SV "v"; SV "v"]); (EVar "l2_abab"); (EVar "l2_bbbb"); (EVar "t2_abab"); (EVar "t2_bbbb")]));
   (*L2766*) SAug true "energy" (EScale (1 # 4) (EEins "baef,ijba,kldc,delj,cfki" [(ESlice (EVar "g_bbbb") [SV "v"; SV "v"; SV "v"; SV "v"]); (EVar "l2_bbbb"); (EVar "l2_aaaa"); (EVar "t2_abab"); (EVar "t2_abab")]));
   (*L2769*) SAug true "energy" (EScale (-1 # 4) (EEins "baef,ijba,klcd,edjl,cfki" [(ESlice (EVar "g_bbbb") [SV "v"; SV "v"; SV "v"; SV "v"]); (EVar "l2_bbbb"); (EVar "l2_abab"); (EVar "t2_bbbb"); (EVar "t2_abab")]));
   (*L2772*) SAug true "energy" (EScale (-1 # 4) (EEins "baef,ijba,lkdc,delj,fcik" [(ESlice (EVar "g_bbbb") [SV "v"; SV "v"; SV "v"; SV "v"]); (EVar "l2_bbbb"); (EVar "l2_abab"); (EVar "t2_abab"); (EVar "t2_bbbb")]));
   (*L2775*) SAug true "energy" (EScale (1 # 4) (EEins "baef,ijba,kldc,edjl,fcik" [(ESlice (EVar "g_bbbb") [SV "v"; SV "v"; SV "v"; SV "v"]); (EVar "l2_bbbb"); (EVar "l2_bbbb"); (EVar "t2_bbbb"); (EVar "t2_bbbb")]))]
  (*L2778*) (EVar "energy").
