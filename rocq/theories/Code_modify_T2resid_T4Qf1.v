(** Generated by tools/transcribe.py from /repo/UT2/modify_T2resid_T4Qf1.py; do not edit. *)
From Coq Require Import String List QArith.
From Verif Require Import Interp.
Import ListNotations.
Open Scope string_scope.

(** /repo/UT2/modify_T2resid_T4Qf1.py:6-611  def residQf1_aaaa *)
Definition residQf1_aaaa : fn := mkFn
  ["g"; "l2"; "t2"; "o"; "v"]
  [(*L8*) SAssign "g_aaaa" (EItem (EVar "g") "aaaa");
   (*L9*) SAssign "g_bbbb" (EItem (EVar "g") "bbbb");
   (*L10*) SAssign "g_abab" (EItem (EVar "g") "abab");
   (*L12*) SAssign "l2_aaaa" (EItem (EVar "l2") "aaaa");
   (*L13*) SAssign "l2_bbbb" (EItem (EVar "l2") "bbbb");
   (*L14*) SAssign "l2_abab" (EItem (EVar "l2") "abab");
   (*L16*) SAssign "t2_aaaa" (EItem (EVar "t2") "aaaa");
   (*L17*) SAssign "t2_bbbb" (EItem (EVar "t2") "bbbb");
   (*L18*) SAssign "t2_abab" (EItem (EVar "t2") "abab");
   (*L21*) SAssign "contracted_intermediate" (EScale (-1 # 4) (EEins "nmkl,kldc,dcjm,abin->abij" [(ESlice (EVar "g_aaaa") [SV "o"; SV "o"; SV "o"; SV "o"]); (EVar "l2_aaaa"); (EVar "t2_aaaa"); (EVar "t2_aaaa")]));
   (*L22*) SAssign "double_res" (EAdd (EScale (1 # 1) (EVar "contracted_intermediate")) (EScale (-1 # 1) (EEins "abij->abji" [(EVar "contracted_intermediate")])));
   (*L25*) SAssign "contracted_intermediate" (EScale (-1 # 4) (EEins "nmkl,kldc,dcjm,abin->abij" [(ESlice (EVar "g_abab") [SV "o"; SV "o"; SV "o"; SV "o"]); (EVar "l2_abab"); (EVar "t2_abab"); (EVar "t2_aaaa")]));
   (*L26*) SAug true "double_res" (EAdd (EScale (1 # 1) (EVar "contracted_intermediate")) (EScale (-1 # 1) (EEins "abij->abji" [(EVar "contracted_intermediate")])));
   (*L29*) SAssign "contracted_intermediate" (EScale (-1 # 4) (EEins "nmkl,klcd,cdjm,abin->abij" [(ESlice (EVar "g_abab") [SV "o"; SV "o"; SV "o"; SV "o"]); (EVar "l2_abab"); (EVar "t2_abab"); (EVar "t2_aaaa")]));
   (*L30*) SAug true "double_res" (EAdd (EScale (1 # 1) (EVar "contracted_intermediate")) (EScale (-1 # 1) (EEins "abij->abji" [(EVar "contracted_intermediate")])));
   (*L33*) SAssign "contracted_intermediate" (EScale (-1 # 4) (EEins "nmlk,lkdc,dcjm,abin->abij" [(ESlice (EVar "g_abab") [SV "o"; SV "o"; SV "o"; SV "o"]); (EVar "l2_abab"); (EVar "t2_abab"); (EVar "t2_aaaa")]));
   (*L34*) SAug true "double_res" (EAdd (EScale (1 # 1) (EVar "contracted_intermediate")) (EScale (-1 # 1) (EEins "abij->abji" [(EVar "contracted_intermediate")])));
   (*L37*) SAssign "contracted_intermediate" (EScale (-1 # 4) (EEins "nmlk,lkcd,cdjm,abin->abij" [(ESlice (EVar "g_abab") [SV "o"; SV "o"; SV "o"; SV "o"]); (EVar "l2_abab"); (EVar "t2_abab"); (EVar "t2_aaaa")]));
   (*L38*) SAug true "double_res" (EAdd (EScale (1 # 1) (EVar "contracted_intermediate")) (EScale (-1 # 1) (EEins "abij->abji" [(EVar "contracted_intermediate")])));
   (*L41*) SAssign "contracted_intermediate" (EScale (1 # 2) (EEins "nmkl,kldc,dajm,cbin->abij" [(ESlice (EVar "g_aaaa") [SV "o"; SV "o"; SV "o"; SV "o"]); (EVar "l2_aaaa"); (EVar "t2_aaaa"); (EVar "t2_aaaa")]));
   (*L42*) SAug true "double_res" (EAdd (EScale (1 # 1) (EVar "contracted_intermediate")) (EScale (-1 # 1) (EEins "abij->abji" [(EVar "contracted_intermediate")])));
   (*L45*) SAssign "contracted_intermediate" (EScale (1 # 2) (EEins "mnkl,kldc,dajm,bcin->abij" [(ESlice (EVar "g_abab") [SV "o"; SV "o"; SV "o"; SV "o"]); (EVar "l2_abab"); (EVar "t2_aaaa"); (EVar "t2_abab")]));
   (*L46*) SAug true "double_res" (EAdd (EScale (1 # 1) (EVar "contracted_intermediate")) (EScale (-1 # 1) (EEins "abij->abji" [(EVar "contracted_intermediate")])));
   (*L49*) SAssign "contracted_intermediate" (EScale (1 # 2) (EEins "nmkl,klcd,adjm,cbin->abij" [(ESlice (EVar "g_abab") [SV "o"; SV "o"; SV "o"; SV "o"]); (EVar "l2_abab"); (EVar "t2_abab"); (EVar "t2_aaaa")]));
   (*L50*) SAug true "double_res" (EAdd (EScale (1 # 1) (EVar "contracted_intermediate")) (EScale (-1 # 1) (EEins "abij->abji" [(EVar "contracted_intermediate")])));
   (*L53*) SAssign "contracted_intermediate" (EScale (1 # 2) (EEins "mnlk,lkdc,dajm,bcin->abij" [(ESlice (EVar "g_abab") [SV "o"; SV "o"; SV "o"; SV "o"]); (EVar "l2_abab"); (EVar "t2_aaaa"); (EVar "t2_abab")]));
   (*L54*) SAug true "double_res" (EAdd (EScale (1 # 1) (EVar "contracted_intermediate")) (EScale (-1 # 1) (EEins "abij->abji" [(EVar "contracted_intermediate")])));
   (*L57*) SAssign "contracted_intermediate" (EScale (1 # 2) (EEins "nmlk,lkcd,adjm,cbin->abij" [(ESlice (EVar "g_abab") [SV "o"; SV "o"; SV "o"; SV "o"]); (EVar "l2_abab"); (EVar "t2_abab"); (EVar "t2_aaaa")]));
   (*L58*) SAug true "double_res" (EAdd (EScale (1 # 1) (EVar "contracted_intermediate")) (EScale (-1 # 1) (EEins "abij->abji" [(EVar "contracted_intermediate")])));
   (*L61*) SAssign "contracted_intermediate" (EScale (1 # 2) (EEins "nmkl,kldc,adjm,bcin->abij" [(ESlice (EVar "g_bbbb") [SV "o"; SV "o"; SV "o"; SV "o"]); (EVar "l2_bbbb"); (EVar "t2_abab"); (EVar "t2_abab")]));
   (*L62*) SAug true "double_res" (EAdd (EScale (1 # 1) (EVar "contracted_intermediate")) (EScale (-1 # 1) (EEins "abij->abji" [(EVar "contracted_intermediate")])));
   (*L65*) SAssign "contracted_intermediate" (EScale (1 # 2) (EEins "nmjl,kldc,dckm,abin->abij" [(ESlice (EVar "g_aaaa") [SV "o"; SV "o"; SV "o"; SV "o"]); (EVar "l2_aaaa"); (EVar "t2_aaaa"); (EVar "t2_aaaa")]));
   (*L66*) SAug true "double_res" (EAdd (EScale (1 # 1) (EVar "contracted_intermediate")) (EScale (-1 # 1) (EEins "abij->abji" [(EVar "contracted_intermediate")])));
   (*L69*) SAssign "contracted_intermediate" (EScale (1 # 2) (EEins "nmjl,kldc,dckm,abin->abij" [(ESlice (EVar "g_abab") [SV "o"; SV "o"; SV "o"; SV "o"]); (EVar "l2_abab"); (EVar "t2_abab"); (EVar "t2_aaaa")]));
   (*L70*) SAug true "double_res" (EAdd (EScale (1 # 1) (EVar "contracted_intermediate")) (EScale (-1 # 1) (EEins "abij->abji" [(EVar "contracted_intermediate")])));
   (*L73*) SAssign "contracted_intermediate" (EScale (1 # 2) (EEins "nmjl,klcd,cdkm,abin->abij" [(ESlice (EVar "g_abab") [SV "o"; SV "o"; SV "o"; SV "o"]); (EVar "l2_abab"); (EVar "t2_abab"); (EVar "t2_aaaa")]));
   (*L74*) SAug true "double_res" (EAdd (EScale (1 # 1) (EVar "contracted_intermediate")) (EScale (-1 # 1) (EEins "abij->abji" [(EVar "contracted_intermediate")])));
   (*L77*) SAssign "contracted_intermediate" (EScale (1 # 2) (EEins "nmjl,lkdc,dcmk,abin->abij" [(ESlice (EVar "g_aaaa") [SV "o"; SV "o"; SV "o"; SV "o"]); (EVar "l2_abab"); (EVar "t2_abab"); (EVar "t2_aaaa")]));
   (*L78*) SAug true "double_res" (EAdd (EScale (1 # 1) (EVar "contracted_intermediate")) (EScale (-1 # 1) (EEins "abij->abji" [(EVar "contracted_intermediate")])));
   (*L81*) SAssign "contracted_intermediate" (EScale (1 # 2) (EEins "nmjl,lkcd,cdmk,abin->abij" [(ESlice (EVar "g_aaaa") [SV "o"; SV "o"; SV "o"; SV "o"]); (EVar "l2_abab"); (EVar "t2_abab"); (EVar "t2_aaaa")]));
   (*L82*) SAug true "double_res" (EAdd (EScale (1 # 1) (EVar "contracted_intermediate")) (EScale (-1 # 1) (EEins "abij->abji" [(EVar "contracted_intermediate")])));
   (*L85*) SAssign "contracted_intermediate" (EScale (1 # 2) (EEins "nmjl,kldc,dckm,abin->abij" [(ESlice (EVar "g_abab") [SV "o"; SV "o"; SV "o"; SV "o"]); (EVar "l2_bbbb"); (EVar "t2_bbbb"); (EVar "t2_aaaa")]));
   (*L86*) SAug true "double_res" (EAdd (EScale (1 # 1) (EVar "contracted_intermediate")) (EScale (-1 # 1) (EEins "abij->abji" [(EVar "contracted_intermediate")])));
   (*L89*) SAssign "contracted_intermediate" (EScale (-1 # 2) (EEins "nmjl,kldc,dcim,abkn->abij" [(ESlice (EVar "g_aaaa") [SV "o"; SV "o"; SV "o"; SV "o"]); (EVar "l2_aaaa"); (EVar "t2_aaaa"); (EVar "t2_aaaa")]));
   (*L90*) SAug true "double_res" (EAdd (EScale (1 # 1) (EVar "contracted_intermediate")) (EScale (-1 # 1) (EEins "abij->abji" [(EVar "contracted_intermediate")])));
   (*L93*) SAssign "contracted_intermediate" (EScale (-1 # 2) (EEins "nmjl,kldc,dcim,abkn->abij" [(ESlice (EVar "g_abab") [SV "o"; SV "o"; SV "o"; SV "o"]); (EVar "l2_abab"); (EVar "t2_abab"); (EVar "t2_aaaa")]));
   (*L94*) SAug true "double_res" (EAdd (EScale (1 # 1) (EVar "contracted_intermediate")) (EScale (-1 # 1) (EEins "abij->abji" [(EVar "contracted_intermediate")])));
   (*L97*) SAssign "contracted_intermediate" (EScale (-1 # 2) (EEins "nmjl,klcd,cdim,abkn->abij" [(ESlice (EVar "g_abab") [SV "o"; SV "o"; SV "o"; SV "o"]); (EVar "l2_abab"); (EVar "t2_abab"); (EVar "t2_aaaa")]));
   (*L98*) SAug true "double_res" (EAdd (EScale (1 # 1) (EVar "contracted_intermediate")) (EScale (-1 # 1) (EEins "abij->abji" [(EVar "contracted_intermediate")])));
   (*L101*) SAssign "contracted_intermediate" (EScale (-1 # 1) (EEins "nmjl,kldc,dakm,cbin->abij" [(ESlice (EVar "g_aaaa") [SV "o"; SV "o"; SV "o"; SV "o"]); (EVar "l2_aaaa"); (EVar "t2_aaaa"); (EVar "t2_aaaa")]));
   (*L102*) SAug true "double_res" (EAdd (EScale (1 # 1) (EVar "contracted_intermediate")) (EScale (-1 # 1) (EEins "abij->abji" [(EVar "contracted_intermediate")])));
   (*L105*) SAssign "contracted_intermediate" (EScale (-1 # 1) (EEins "mnjl,kldc,dakm,bcin->abij" [(ESlice (EVar "g_abab") [SV "o"; SV "o"; SV "o"; SV "o"]); (EVar "l2_abab"); (EVar "t2_aaaa"); (EVar "t2_abab")]));
   (*L106*) SAug true "double_res" (EAdd (EScale (1 # 1) (EVar "contracted_intermediate")) (EScale (-1 # 1) (EEins "abij->abji" [(EVar "contracted_intermediate")])));
   (*L109*) SAssign "contracted_intermediate" (EScale (-1 # 1) (EEins "nmjl,klcd,adkm,cbin->abij" [(ESlice (EVar "g_abab") [SV "o"; SV "o"; SV "o"; SV "o"]); (EVar "l2_abab"); (EVar "t2_abab"); (EVar "t2_aaaa")]));
   (*L110*) SAug true "double_res" (EAdd (EScale (1 # 1) (EVar "contracted_intermediate")) (EScale (-1 # 1) (EEins "abij->abji" [(EVar "contracted_intermediate")])));
   (*L113*) SAssign "contracted_intermediate" (EScale (-1 # 1) (EEins "nmjl,lkcd,admk,cbin->abij" [(ESlice (EVar "g_aaaa") [SV "o"; SV "o"; SV "o"; SV "o"]); (EVar "l2_abab"); (EVar "t2_abab"); (EVar "t2_aaaa")]));
   (*L114*) SAug true "double_res" (EAdd (EScale (1 # 1) (EVar "contracted_intermediate")) (EScale (-1 # 1) (EEins "abij->abji" [(EVar "contracted_intermediate")])));
   (*L117*) SAssign "contracted_intermediate" (EScale (-1 # 1) (EEins "mnjl,kldc,admk,bcin->abij" [(ESlice (EVar "g_abab") [SV "o"; SV "o"; SV "o"; SV "o"]); (EVar "l2_bbbb"); (EVar "t2_abab"); (EVar "t2_abab")]));
   (*L118*) SAug true "double_res" (EAdd (EScale (1 # 1) (EVar "contracted_intermediate")) (EScale (-1 # 1) (EEins "abij->abji" [(EVar "contracted_intermediate")])));
   (*L121*) SAssign "contracted_intermediate" (EScale (1 # 1) (EEins "nmjl,kldc,daim,cbkn->abij" [(ESlice (EVar "g_aaaa") [SV "o"; SV "o"; SV "o"; SV "o"]); (EVar "l2_aaaa"); (EVar "t2_aaaa"); (EVar "t2_aaaa")]));
   (*L122*) SAug true "double_res" (EAdd (EScale (1 # 1) (EVar "contracted_intermediate")) (EScale (-1 # 1) (EEins "abij->abji" [(EVar "contracted_intermediate")])));
   (*L125*) SAssign "contracted_intermediate" (EScale (1 # 1) (EEins "mnjl,kldc,daim,bckn->abij" [(ESlice (EVar "g_abab") [SV "o"; SV "o"; SV "o"; SV "o"]); (EVar "l2_abab"); (EVar "t2_aaaa"); (EVar "t2_abab")]));
   (*L126*) SAug true "double_res" (EAdd (EScale (1 # 1) (EVar "contracted_intermediate")) (EScale (-1 # 1) (EEins "abij->abji" [(EVar "contracted_intermediate")])));
   (*L129*) SAssign "contracted_intermediate" (EScale (1 # 1) (EEins "nmjl,klcd,adim,cbkn->abij" [(ESlice (EVar "g_abab") [SV "o"; SV "o"; SV "o"; SV "o"]); (EVar "l2_abab"); (EVar "t2_abab"); (EVar "t2_aaaa")]));
   (*L130*) SAug true "double_res" (EAdd (EScale (1 # 1) (EVar "contracted_intermediate")) (EScale (-1 # 1) (EEins "abij->abji" [(EVar "contracted_intermediate")])));
   (*L133*) SAssign "contracted_intermediate" (EScale (-1 # 1) (EEins "nmjl,lkdc,daim,bcnk->abij" [(ESlice (EVar "g_aaaa") [SV "o"; SV "o"; SV "o"; SV "o"]); (EVar "l2_abab"); (EVar "t2_aaaa"); (EVar "t2_abab")]));
   (*L134*) SAug true "double_res" (EAdd (EScale (1 # 1) (EVar "contracted_intermediate")) (EScale (-1 # 1) (EEins "abij->abji" [(EVar "contracted_intermediate")])));
   (*L137*) SAssign "contracted_intermediate" (EScale (-1 # 1) (EEins "nmjl,kldc,adim,bcnk->abij" [(ESlice (EVar "g_abab") [SV "o"; SV "o"; SV "o"; SV "o"]); (EVar "l2_bbbb"); (EVar "t2_abab"); (EVar "t2_abab")]));
   (*L138*) SAug true "double_res" (EAdd (EScale (1 # 1) (EVar "contracted_intermediate")) (EScale (-1 # 1) (EEins "abij->abji" [(EVar "contracted_intermediate")])));
   (*L141*) SAug true "double_res" (EScale (-1 # 2) (EEins "nmij,kldc,dclm,abkn->abij" [(ESlice (EVar "g_aaaa") [SV "o"; SV "o"; SV "o"; SV "o"]); (EVar "l2_aaaa"); (EVar "t2_aaaa"); (EVar "t2_aaaa")]));
   (*L144*) SAug true "double_res" (EScale (1 # 2) (EEins "nmij,kldc,dcml,abkn->abij" [(ESlice (EVar "g_aaaa") [SV "o"; SV "o"; SV "o"; SV "o"]); (EVar "l2_abab"); (EVar "t2_abab"); (EVar "t2_aaaa")]));
   (*L147*) SAug true "double_res" (EScale (1 # 2) (EEins "nmij,klcd,cdml,abkn->abij" [(ESlice (EVar "g_aaaa") [SV "o"; SV "o"; SV "o"; SV "o"]); (EVar "l2_abab"); (EVar "t2_abab"); (EVar "t2_aaaa")]));
   (*L150*) SAssign "contracted_intermediate" (EScale (1 # 2) (EEins "nmij,kldc,dalm,cbkn->abij" [(ESlice (EVar "g_aaaa") [SV "o"; SV "o"; SV "o"; SV "o"]); (EVar "l2_aaaa"); (EVar "t2_aaaa"); (EVar "t2_aaaa")]));
   (*L151*) SAug true "double_res" (EAdd (EScale (1 # 1) (EVar "contracted_intermediate")) (EScale (-1 # 1) (EEins "abij->baij" [(EVar "contracted_intermediate")])));
   (*L154*) SAssign "contracted_intermediate" (EScale (-1 # 2) (EEins "nmij,klcd,adml,cbkn->abij" [(ESlice (EVar "g_aaaa") [SV "o"; SV "o"; SV "o"; SV "o"]); (EVar "l2_abab"); (EVar "t2_abab"); (EVar "t2_aaaa")]));
   (*L155*) SAug true "double_res" (EAdd (EScale (1 # 1) (EVar "contracted_intermediate")) (EScale (-1 # 1) (EEins "abij->baij" [(EVar "contracted_intermediate")])));
   (*L158*) SAssign "contracted_intermediate" (EScale (-1 # 2) (EEins "nmij,lkdc,dalm,bcnk->abij" [(ESlice (EVar "g_aaaa") [SV "o"; SV "o"; SV "o"; SV "o"]); (EVar "l2_abab"); (EVar "t2_aaaa"); (EVar "t2_abab")]));
   (*L159*) SAug true "double_res" (EAdd (EScale (1 # 1) (EVar "contracted_intermediate")) (EScale (-1 # 1) (EEins "abij->baij" [(EVar "contracted_intermediate")])));
   (*L162*) SAssign "contracted_intermediate" (EScale (1 # 2) (EEins "nmij,kldc,adml,bcnk->abij" [(ESlice (EVar "g_aaaa") [SV "o"; SV "o"; SV "o"; SV "o"]); (EVar "l2_bbbb"); (EVar "t2_abab"); (EVar "t2_abab")]));
   (*L163*) SAug true "double_res" (EAdd (EScale (1 # 1) (EVar "contracted_intermediate")) (EScale (-1 # 1) (EEins "abij->baij" [(EVar "contracted_intermediate")])));
   (*L166*) SAssign "contracted_intermediate" (EScale (1 # 1) (EEins "mdel,kldc,ecjk,abim->abij" [(ESlice (EVar "g_aaaa") [SV "o"; SV "v"; SV "v"; SV "o"]); (EVar "l2_aaaa"); (EVar "t2_aaaa"); (EVar "t2_aaaa")]));
   (*L167*) SAug true "double_res" (EAdd (EScale (1 # 1) (EVar "contracted_intermediate")) (EScale (-1 # 1) (EEins "abij->abji" [(EVar "contracted_intermediate")])));
   (*L170*) SAssign "contracted_intermediate" (EScale (-1 # 1) (EEins "mdel,klcd,ecjk,abim->abij" [(ESlice (EVar "g_abab") [SV "o"; SV "v"; SV "v"; SV "o"]); (EVar "l2_abab"); (EVar "t2_aaaa"); (EVar "t2_aaaa")]));
   (*L171*) SAug true "double_res" (EAdd (EScale (1 # 1) (EVar "contracted_intermediate")) (EScale (-1 # 1) (EEins "abij->abji" [(EVar "contracted_intermediate")])));
   (*L174*) SAssign "contracted_intermediate" (EScale (-1 # 1) (EEins "mdel,lkdc,ecjk,abim->abij" [(ESlice (EVar "g_aaaa") [SV "o"; SV "v"; SV "v"; SV "o"]); (EVar "l2_abab"); (EVar "t2_abab"); (EVar "t2_aaaa")]));
   (*L175*) SAug true "double_res" (EAdd (EScale (1 # 1) (EVar "contracted_intermediate")) (EScale (-1 # 1) (EEins "abij->abji" [(EVar "contracted_intermediate")])));
   (*L178*) SAssign "contracted_intermediate" (EScale (1 # 1) (EEins "mdle,lkcd,cejk,abim->abij" [(ESlice (EVar "g_abab") [SV "o"; SV "v"; SV "o"; SV "v"]); (EVar "l2_abab"); (EVar "t2_abab"); (EVar "t2_aaaa")]));
   (*L179*) SAug true "double_res" (EAdd (EScale (1 # 1) (EVar "contracted_intermediate")) (EScale (-1 # 1) (EEins "abij->abji" [(EVar "contracted_intermediate")])));
   (*L182*) SAssign "contracted_intermediate" (EScale (1 # 1) (EEins "mdel,kldc,ecjk,abim->abij" [(ESlice (EVar "g_abab") [SV "o"; SV "v"; SV "v"; SV "o"]); (EVar "l2_bbbb"); (EVar "t2_abab"); (EVar "t2_aaaa")]));
   (*L183*) SAug true "double_res" (EAdd (EScale (1 # 1) (EVar "contracted_intermediate")) (EScale (-1 # 1) (EEins "abij->abji" [(EVar "contracted_intermediate")])));
   (*L186*) SAug true "double_res" (EScale (1 # 1) (EEins "mdel,kldc,ecij,abkm->abij" [(ESlice (EVar "g_aaaa") [SV "o"; SV "v"; SV "v"; SV "o"]); (EVar "l2_aaaa"); (EVar "t2_aaaa"); (EVar "t2_aaaa")]));
   (*L189*) SAug true "double_res" (EScale (-1 # 1) (EEins "mdel,klcd,ecij,abkm->abij" [(ESlice (EVar "g_abab") [SV "o"; SV "v"; SV "v"; SV "o"]); (EVar "l2_abab"); (EVar "t2_aaaa"); (EVar "t2_aaaa")]));
   (*L192*) SAssign "contracted_intermediate" (EScale (-1 # 1) (EEins "mdel,kldc,eajk,cbim->abij" [(ESlice (EVar "g_aaaa") [SV "o"; SV "v"; SV "v"; SV "o"]); (EVar "l2_aaaa"); (EVar "t2_aaaa"); (EVar "t2_aaaa")]));
   (*L193*) SAug true "double_res" (EAdd (EAdd (EAdd (EScale (1 # 1) (EVar "contracted_intermediate")) (EScale (-1 # 1) (EEins "abij->abji" [(EVar "contracted_intermediate")]))) (EScale (-1 # 1) (EEins "abij->baij" [(EVar "contracted_intermediate")]))) (EScale (1 # 1) (EEins "abij->baji" [(EVar "contracted_intermediate")])));
   (*L196*) SAssign "contracted_intermediate" (EScale (-1 # 1) (EEins "dmel,kldc,eajk,bcim->abij" [(ESlice (EVar "g_abab") [SV "v"; SV "o"; SV "v"; SV "o"]); (EVar "l2_abab"); (EVar "t2_aaaa"); (EVar "t2_abab")]));
   (*L197*) SAug true "double_res" (EAdd (EAdd (EAdd (EScale (1 # 1) (EVar "contracted_intermediate")) (EScale (-1 # 1) (EEins "abij->abji" [(EVar "contracted_intermediate")]))) (EScale (-1 # 1) (EEins "abij->baij" [(EVar "contracted_intermediate")]))) (EScale (1 # 1) (EEins "abij->baji" [(EVar "contracted_intermediate")])));
   (*L200*) SAssign "contracted_intermediate" (EScale (1 # 1) (EEins "mdel,klcd,eajk,cbim->abij" [(ESlice (EVar "g_abab") [SV "o"; SV "v"; SV "v"; SV "o"]); (EVar "l2_abab"); (EVar "t2_aaaa"); (EVar "t2_aaaa")]));
   (*L201*) SAug true "double_res" (EAdd (EAdd (EAdd (EScale (1 # 1) (EVar "contracted_intermediate")) (EScale (-1 # 1) (EEins "abij->abji" [(EVar "contracted_intermediate")]))) (EScale (-1 # 1) (EEins "abij->baij" [(EVar "contracted_intermediate")]))) (EScale (1 # 1) (EEins "abij->baji" [(EVar "contracted_intermediate")])));
   (*L204*) SAssign "contracted_intermediate" (EScale (1 # 1) (EEins "dmle,lkdc,aejk,bcim->abij" [(ESlice (EVar "g_abab") [SV "v"; SV "o"; SV "o"; SV "v"]); (EVar "l2_abab"); (EVar "t2_abab"); (EVar "t2_abab")]));
   (*L205*) SAug true "double_res" (EAdd (EAdd (EAdd (EScale (1 # 1) (EVar "contracted_intermediate")) (EScale (-1 # 1) (EEins "abij->abji" [(EVar "contracted_intermediate")]))) (EScale (-1 # 1) (EEins "abij->baij" [(EVar "contracted_intermediate")]))) (EScale (1 # 1) (EEins "abij->baji" [(EVar "contracted_intermediate")])));
   (*L208*) SAssign "contracted_intermediate" (EScale (-1 # 1) (EEins "mdle,lkcd,aejk,cbim->abij" [(ESlice (EVar "g_abab") [SV "o"; SV "v"; SV "o"; SV "v"]); (EVar "l2_abab"); (EVar "t2_abab"); (EVar "t2_aaaa")]));
   (*L209*) SAug true "double_res" (EAdd (EAdd (EAdd (EScale (1 # 1) (EVar "contracted_intermediate")) (EScale (-1 # 1) (EEins "abij->abji" [(EVar "contracted_intermediate")]))) (EScale (-1 # 1) (EEins "abij->baij" [(EVar "contracted_intermediate")]))) (EScale (1 # 1) (EEins "abij->baji" [(EVar "contracted_intermediate")])));
   (*L212*) SAssign "contracted_intermediate" (EScale (-1 # 1) (EEins "mdel,kldc,aejk,bcim->abij" [(ESlice (EVar "g_bbbb") [SV "o"; SV "v"; SV "v"; SV "o"]); (EVar "l2_bbbb"); (EVar "t2_abab"); (EVar "t2_abab")]));
   (*L213*) SAug true "double_res" (EAdd (EAdd (EAdd (EScale (1 # 1) (EVar "contracted_intermediate")) (EScale (-1 # 1) (EEins "abij->abji" [(EVar "contracted_intermediate")]))) (EScale (-1 # 1) (EEins "abij->baij" [(EVar "contracted_intermediate")]))) (EScale (1 # 1) (EEins "abij->baji" [(EVar "contracted_intermediate")])));
   (*L216*) SAssign "contracted_intermediate" (EScale (-1 # 1) (EEins "mdel,kldc,eaij,cbkm->abij" [(ESlice (EVar "g_aaaa") [SV "o"; SV "v"; SV "v"; SV "o"]); (EVar "l2_aaaa"); (EVar "t2_aaaa"); (EVar "t2_aaaa")]));
   (*L217*) SAug true "double_res" (EAdd (EScale (1 # 1) (EVar "contracted_intermediate")) (EScale (-1 # 1) (EEins "abij->baij" [(EVar "contracted_intermediate")])));
   (*L220*) SAssign "contracted_intermediate" (EScale (-1 # 1) (EEins "dmel,kldc,eaij,bckm->abij" [(ESlice (EVar "g_abab") [SV "v"; SV "o"; SV "v"; SV "o"]); (EVar "l2_abab"); (EVar "t2_aaaa"); (EVar "t2_abab")]));
   (*L221*) SAug true "double_res" (EAdd (EScale (1 # 1) (EVar "contracted_intermediate")) (EScale (-1 # 1) (EEins "abij->baij" [(EVar "contracted_intermediate")])));
   (*L224*) SAssign "contracted_intermediate" (EScale (1 # 1) (EEins "mdel,klcd,eaij,cbkm->abij" [(ESlice (EVar "g_abab") [SV "o"; SV "v"; SV "v"; SV "o"]); (EVar "l2_abab"); (EVar "t2_aaaa"); (EVar "t2_aaaa")]));
   (*L225*) SAug true "double_res" (EAdd (EScale (1 # 1) (EVar "contracted_intermediate")) (EScale (-1 # 1) (EEins "abij->baij" [(EVar "contracted_intermediate")])));
   (*L228*) SAssign "contracted_intermediate" (EScale (1 # 1) (EEins "mdel,lkdc,eaij,bcmk->abij" [(ESlice (EVar "g_aaaa") [SV "o"; SV "v"; SV "v"; SV "o"]); (EVar "l2_abab"); (EVar "t2_aaaa"); (EVar "t2_abab")]));
   (*L229*) SAug true "double_res" (EAdd (EScale (1 # 1) (EVar "contracted_intermediate")) (EScale (-1 # 1) (EEins "abij->baij" [(EVar "contracted_intermediate")])));
   (*L232*) SAssign "contracted_intermediate" (EScale (-1 # 1) (EEins "mdel,kldc,eaij,bcmk->abij" [(ESlice (EVar "g_abab") [SV "o"; SV "v"; SV "v"; SV "o"]); (EVar "l2_bbbb"); (EVar "t2_aaaa"); (EVar "t2_abab")]));
   (*L233*) SAug true "double_res" (EAdd (EScale (1 # 1) (EVar "contracted_intermediate")) (EScale (-1 # 1) (EEins "abij->baij" [(EVar "contracted_intermediate")])));
   (*L236*) SAssign "contracted_intermediate" (EScale (1 # 2) (EEins "mdej,kldc,eckl,abim->abij" [(ESlice (EVar "g_aaaa") [SV "o"; SV "v"; SV "v"; SV "o"]); (EVar "l2_aaaa"); (EVar "t2_aaaa"); (EVar "t2_aaaa")]));
   (*L237*) SAug true "double_res" (EAdd (EScale (1 # 1) (EVar "contracted_intermediate")) (EScale (-1 # 1) (EEins "abij->abji" [(EVar "contracted_intermediate")])));
   (*L240*) SAssign "contracted_intermediate" (EScale (1 # 2) (EEins "mdej,kldc,eckl,abim->abij" [(ESlice (EVar "g_aaaa") [SV "o"; SV "v"; SV "v"; SV "o"]); (EVar "l2_abab"); (EVar "t2_abab"); (EVar "t2_aaaa")]));
   (*L241*) SAug true "double_res" (EAdd (EScale (1 # 1) (EVar "contracted_intermediate")) (EScale (-1 # 1) (EEins "abij->abji" [(EVar "contracted_intermediate")])));
   (*L244*) SAssign "contracted_intermediate" (EScale (-1 # 2) (EEins "mdje,klcd,cekl,abim->abij" [(ESlice (EVar "g_abab") [SV "o"; SV "v"; SV "o"; SV "v"]); (EVar "l2_abab"); (EVar "t2_abab"); (EVar "t2_aaaa")]));
   (*L245*) SAug true "double_res" (EAdd (EScale (1 # 1) (EVar "contracted_intermediate")) (EScale (-1 # 1) (EEins "abij->abji" [(EVar "contracted_intermediate")])));
   (*L248*) SAssign "contracted_intermediate" (EScale (1 # 2) (EEins "mdej,lkdc,eclk,abim->abij" [(ESlice (EVar "g_aaaa") [SV "o"; SV "v"; SV "v"; SV "o"]); (EVar "l2_abab"); (EVar "t2_abab"); (EVar "t2_aaaa")]));
   (*L249*) SAug true "double_res" (EAdd (EScale (1 # 1) (EVar "contracted_intermediate")) (EScale (-1 # 1) (EEins "abij->abji" [(EVar "contracted_intermediate")])));
   (*L252*) SAssign "contracted_intermediate" (EScale (-1 # 2) (EEins "mdje,lkcd,celk,abim->abij" [(ESlice (EVar "g_abab") [SV "o"; SV "v"; SV "o"; SV "v"]); (EVar "l2_abab"); (EVar "t2_abab"); (EVar "t2_aaaa")]));
   (*L253*) SAug true "double_res" (EAdd (EScale (1 # 1) (EVar "contracted_intermediate")) (EScale (-1 # 1) (EEins "abij->abji" [(EVar "contracted_intermediate")])));
   (*L256*) SAssign "contracted_intermediate" (EScale (-1 # 2) (EEins "mdje,kldc,eckl,abim->abij" [(ESlice (EVar "g_abab") [SV "o"; SV "v"; SV "o"; SV "v"]); (EVar "l2_bbbb"); (EVar "t2_bbbb"); (EVar "t2_aaaa")]));
   (*L257*) SAug true "double_res" (EAdd (EScale (1 # 1) (EVar "contracted_intermediate")) (EScale (-1 # 1) (EEins "abij->abji" [(EVar "contracted_intermediate")])));
   (*L260*) SAssign "contracted_intermediate" (EScale (-1 # 1) (EEins "mdej,kldc,ecil,abkm->abij" [(ESlice (EVar "g_aaaa") [SV "o"; SV "v"; SV "v"; SV "o"]); (EVar "l2_aaaa"); (EVar "t2_aaaa"); (EVar "t2_aaaa")]));
   (*L261*) SAug true "double_res" (EAdd (EScale (1 # 1) (EVar "contracted_intermediate")) (EScale (-1 # 1) (EEins "abij->abji" [(EVar "contracted_intermediate")])));
   (*L264*) SAssign "contracted_intermediate" (EScale (-1 # 1) (EEins "mdej,kldc,ecil,abkm->abij" [(ESlice (EVar "g_aaaa") [SV "o"; SV "v"; SV "v"; SV "o"]); (EVar "l2_abab"); (EVar "t2_abab"); (EVar "t2_aaaa")]));
   (*L265*) SAug true "double_res" (EAdd (EScale (1 # 1) (EVar "contracted_intermediate")) (EScale (-1 # 1) (EEins "abij->abji" [(EVar "contracted_intermediate")])));
   (*L268*) SAssign "contracted_intermediate" (EScale (1 # 1) (EEins "mdje,klcd,ceil,abkm->abij" [(ESlice (EVar "g_abab") [SV "o"; SV "v"; SV "o"; SV "v"]); (EVar "l2_abab"); (EVar "t2_abab"); (EVar "t2_aaaa")]));
   (*L269*) SAug true "double_res" (EAdd (EScale (1 # 1) (EVar "contracted_intermediate")) (EScale (-1 # 1) (EEins "abij->abji" [(EVar "contracted_intermediate")])));
   (*L272*) SAssign "contracted_intermediate" (EScale (-1 # 2) (EEins "mdej,kldc,eakl,cbim->abij" [(ESlice (EVar "g_aaaa") [SV "o"; SV "v"; SV "v"; SV "o"]); (EVar "l2_aaaa"); (EVar "t2_aaaa"); (EVar "t2_aaaa")]));
   (*L273*) SAug true "double_res" (EAdd (EAdd (EAdd (EScale (1 # 1) (EVar "contracted_intermediate")) (EScale (-1 # 1) (EEins "abij->abji" [(EVar "contracted_intermediate")]))) (EScale (-1 # 1) (EEins "abij->baij" [(EVar "contracted_intermediate")]))) (EScale (1 # 1) (EEins "abij->baji" [(EVar "contracted_intermediate")])));
   (*L276*) SAssign "contracted_intermediate" (EScale (-1 # 2) (EEins "dmje,kldc,aekl,bcim->abij" [(ESlice (EVar "g_abab") [SV "v"; SV "o"; SV "o"; SV "v"]); (EVar "l2_abab"); (EVar "t2_abab"); (EVar "t2_abab")]));
   (*L277*) SAug true "double_res" (EAdd (EAdd (EAdd (EScale (1 # 1) (EVar "contracted_intermediate")) (EScale (-1 # 1) (EEins "abij->abji" [(EVar "contracted_intermediate")]))) (EScale (-1 # 1) (EEins "abij->baij" [(EVar "contracted_intermediate")]))) (EScale (1 # 1) (EEins "abij->baji" [(EVar "contracted_intermediate")])));
   (*L280*) SAssign "contracted_intermediate" (EScale (1 # 2) (EEins "mdje,klcd,aekl,cbim->abij" [(ESlice (EVar "g_abab") [SV "o"; SV "v"; SV "o"; SV "v"]); (EVar "l2_abab"); (EVar "t2_abab"); (EVar "t2_aaaa")]));
   (*L281*) SAug true "double_res" (EAdd (EAdd (EAdd (EScale (1 # 1) (EVar "contracted_intermediate")) (EScale (-1 # 1) (EEins "abij->abji" [(EVar "contracted_intermediate")]))) (EScale (-1 # 1) (EEins "abij->baij" [(EVar "contracted_intermediate")]))) (EScale (1 # 1) (EEins "abij->baji" [(EVar "contracted_intermediate")])));
   (*L284*) SAssign "contracted_intermediate" (EScale (-1 # 2) (EEins "dmje,lkdc,aelk,bcim->abij" [(ESlice (EVar "g_abab") [SV "v"; SV "o"; SV "o"; SV "v"]); (EVar "l2_abab"); (EVar "t2_abab"); (EVar "t2_abab")]));
   (*L285*) SAug true "double_res" (EAdd (EAdd (EAdd (EScale (1 # 1) (EVar "contracted_intermediate")) (EScale (-1 # 1) (EEins "abij->abji" [(EVar "contracted_intermediate")]))) (EScale (-1 # 1) (EEins "abij->baij" [(EVar "contracted_intermediate")]))) (EScale (1 # 1) (EEins "abij->baji" [(EVar "contracted_intermediate")])));
   (*L288*) SAssign "contracted_intermediate" (EScale (1 # 2) (EEins "mdje,lkcd,aelk,cbim->abij" [(ESlice (EVar "g_abab") [SV "o"; SV "v"; SV "o"; SV "v"]); (EVar "l2_abab"); (EVar "t2_abab"); (EVar "t2_aaaa")]));
   (*L289*) SAug true "double_res" (EAdd (EAdd (EAdd (EScale (1 # 1) (EVar "contracted_intermediate")) (EScale (-1 # 1) (EEins "abij->abji" [(EVar "contracted_intermediate")]))) (EScale (-1 # 1) (EEins "abij->baij" [(EVar "contracted_intermediate")]))) (EScale (1 # 1) (EEins "abij->baji" [(EVar "contracted_intermediate")])));
   (*L292*) SAssign "contracted_intermediate" (EScale (1 # 1) (EEins "mdej,kldc,eail,cbkm->abij" [(ESlice (EVar "g_aaaa") [SV "o"; SV "v"; SV "v"; SV "o"]); (EVar "l2_aaaa"); (EVar "t2_aaaa"); (EVar "t2_aaaa")]));
   (*L293*) SAug true "double_res" (EAdd (EAdd (EAdd (EScale (1 # 1) (EVar "contracted_intermediate")) (EScale (-1 # 1) (EEins "abij->abji" [(EVar "contracted_intermediate")]))) (EScale (-1 # 1) (EEins "abij->baij" [(EVar "contracted_intermediate")]))) (EScale (1 # 1) (EEins "abij->baji" [(EVar "contracted_intermediate")])));
   (*L296*) SAssign "contracted_intermediate" (EScale (1 # 1) (EEins "dmje,kldc,aeil,bckm->abij" [(ESlice (EVar "g_abab") [SV "v"; SV "o"; SV "o"; SV "v"]); (EVar "l2_abab"); (EVar "t2_abab"); (EVar "t2_abab")]));
   (*L297*) SAug true "double_res" (EAdd (EAdd (EAdd (EScale (1 # 1) (EVar "contracted_intermediate")) (EScale (-1 # 1) (EEins "abij->abji" [(EVar "contracted_intermediate")]))) (EScale (-1 # 1) (EEins "abij->baij" [(EVar "contracted_intermediate")]))) (EScale (1 # 1) (EEins "abij->baji" [(EVar "contracted_intermediate")])));
   (*L300*) SAssign "contracted_intermediate" (EScale (-1 # 1) (EEins "mdje,klcd,aeil,cbkm->abij" [(ESlice (EVar "g_abab") [SV "o"; SV "v"; SV "o"; SV "v"]); (EVar "l2_abab"); (EVar "t2_abab"); (EVar "t2_aaaa")]));
   (*L301*) SAug true "double_res" (EAdd (EAdd (EAdd (EScale (1 # 1) (EVar "contracted_intermediate")) (EScale (-1 # 1) (EEins "abij->abji" [(EVar "contracted_intermediate")]))) (EScale (-1 # 1) (EEins "abij->baij" [(EVar "contracted_intermediate")]))) (EScale (1 # 1) (EEins "abij->baji" [(EVar "contracted_intermediate")])));
   (*L304*) SAssign "contracted_intermediate" (EScale (-1 # 1) (EEins "mdej,lkdc,eail,bcmk->abij" [(ESlice (EVar "g_aaaa") [SV "o"; SV "v"; SV "v"; SV "o"]); (EVar "l2_abab"); (EVar "t2_aaaa"); (EVar "t2_abab")]));
   (*L305*) SAug true "double_res" (EAdd (EAdd (EAdd (EScale (1 # 1) (EVar "contracted_intermediate")) (EScale (-1 # 1) (EEins "abij->abji" [(EVar "contracted_intermediate")]))) (EScale (-1 # 1) (EEins "abij->baij" [(EVar "contracted_intermediate")]))) (EScale (1 # 1) (EEins "abij->baji" [(EVar "contracted_intermediate")])));
   (*L308*) SAssign "contracted_intermediate" (EScale (1 # 1) (EEins "mdje,kldc,aeil,bcmk->abij" [(ESlice (EVar "g_abab") [SV "o"; SV "v"; SV "o"; SV "v"]); (EVar "l2_bbbb"); (EVar "t2_abab"); (EVar "t2_abab")]));
   (*L309*) SAug true "double_res" (EAdd (EAdd (EAdd (EScale (1 # 1) (EVar "contracted_intermediate")) (EScale (-1 # 1) (EEins "abij->abji" [(EVar "contracted_intermediate")]))) (EScale (-1 # 1) (EEins "abij->baij" [(EVar "contracted_intermediate")]))) (EScale (1 # 1) (EEins "abij->baji" [(EVar "contracted_intermediate")])));
   (*L312*) SAssign "contracted_intermediate" (EScale (1 # 1) (EEins "mael,kldc,edjk,cbim->abij" [(ESlice (EVar "g_aaaa") [SV "o"; SV "v"; SV "v"; SV "o"]); (EVar "l2_aaaa"); (EVar "t2_aaaa"); (EVar "t2_aaaa")]));
   (*L313*) SAug true "double_res" (EAdd (EAdd (EAdd (EScale (1 # 1) (EVar "contracted_intermediate")) (EScale (-1 # 1) (EEins "abij->abji" [(EVar "contracted_intermediate")]))) (EScale (-1 # 1) (EEins "abij->baij" [(EVar "contracted_intermediate")]))) (EScale (1 # 1) (EEins "abij->baji" [(EVar "contracted_intermediate")])));
   (*L316*) SAssign "contracted_intermediate" (EScale (1 # 1) (EEins "amel,kldc,edjk,bcim->abij" [(ESlice (EVar "g_abab") [SV "v"; SV "o"; SV "v"; SV "o"]); (EVar "l2_abab"); (EVar "t2_aaaa"); (EVar "t2_abab")]));
   (*L317*) SAug true "double_res" (EAdd (EAdd (EAdd (EScale (1 # 1) (EVar "contracted_intermediate")) (EScale (-1 # 1) (EEins "abij->abji" [(EVar "contracted_intermediate")]))) (EScale (-1 # 1) (EEins "abij->baij" [(EVar "contracted_intermediate")]))) (EScale (1 # 1) (EEins "abij->baji" [(EVar "contracted_intermediate")])));
   (*L320*) SAssign "contracted_intermediate" (EScale (-1 # 1) (EEins "amle,lkdc,dejk,bcim->abij" [(ESlice (EVar "g_abab") [SV "v"; SV "o"; SV "o"; SV "v"]); (EVar "l2_abab"); (EVar "t2_abab"); (EVar "t2_abab")]));
   (*L321*) SAug true "double_res" (EAdd (EAdd (EAdd (EScale (1 # 1) (EVar "contracted_intermediate")) (EScale (-1 # 1) (EEins "abij->abji" [(EVar "contracted_intermediate")]))) (EScale (-1 # 1) (EEins "abij->baij" [(EVar "contracted_intermediate")]))) (EScale (1 # 1) (EEins "abij->baji" [(EVar "contracted_intermediate")])));
   (*L324*) SAssign "contracted_intermediate" (EScale (1 # 1) (EEins "mael,lkcd,edjk,cbim->abij" [(ESlice (EVar "g_aaaa") [SV "o"; SV "v"; SV "v"; SV "o"]); (EVar "l2_abab"); (EVar "t2_abab"); (EVar "t2_aaaa")]));
   (*L325*) SAug true "double_res" (EAdd (EAdd (EAdd (EScale (1 # 1) (EVar "contracted_intermediate")) (EScale (-1 # 1) (EEins "abij->abji" [(EVar "contracted_intermediate")]))) (EScale (-1 # 1) (EEins "abij->baij" [(EVar "contracted_intermediate")]))) (EScale (1 # 1) (EEins "abij->baji" [(EVar "contracted_intermediate")])));
   (*L328*) SAssign "contracted_intermediate" (EScale (1 # 1) (EEins "amel,kldc,edjk,bcim->abij" [(ESlice (EVar "g_abab") [SV "v"; SV "o"; SV "v"; SV "o"]); (EVar "l2_bbbb"); (EVar "t2_abab"); (EVar "t2_abab")]));
   (*L329*) SAug true "double_res" (EAdd (EAdd (EAdd (EScale (1 # 1) (EVar "contracted_intermediate")) (EScale (-1 # 1) (EEins "abij->abji" [(EVar "contracted_intermediate")]))) (EScale (-1 # 1) (EEins "abij->baij" [(EVar "contracted_intermediate")]))) (EScale (1 # 1) (EEins "abij->baji" [(EVar "contracted_intermediate")])));
   (*L332*) SAssign "contracted_intermediate" (EScale (1 # 1) (EEins "mael,kldc,edij,cbkm->abij" [(ESlice (EVar "g_aaaa") [SV "o"; SV "v"; SV "v"; SV "o"]); (EVar "l2_aaaa"); (EVar "t2_aaaa"); (EVar "t2_aaaa")]));
   (*L333*) SAug true "double_res" (EAdd (EScale (1 # 1) (EVar "contracted_intermediate")) (EScale (-1 # 1) (EEins "abij->baij" [(EVar "contracted_intermediate")])));
   (*L336*) SAssign "contracted_intermediate" (EScale (1 # 1) (EEins "amel,kldc,edij,bckm->abij" [(ESlice (EVar "g_abab") [SV "v"; SV "o"; SV "v"; SV "o"]); (EVar "l2_abab"); (EVar "t2_aaaa"); (EVar "t2_abab")]));
   (*L337*) SAug true "double_res" (EAdd (EScale (1 # 1) (EVar "contracted_intermediate")) (EScale (-1 # 1) (EEins "abij->baij" [(EVar "contracted_intermediate")])));
   (*L340*) SAssign "contracted_intermediate" (EScale (-1 # 1) (EEins "mael,lkdc,edij,bcmk->abij" [(ESlice (EVar "g_aaaa") [SV "o"; SV "v"; SV "v"; SV "o"]); (EVar "l2_abab"); (EVar "t2_aaaa"); (EVar "t2_abab")]));
   (*L341*) SAug true "double_res" (EAdd (EScale (1 # 1) (EVar "contracted_intermediate")) (EScale (-1 # 1) (EEins "abij->baij" [(EVar "contracted_intermediate")])));
   (*L344*) SAssign "contracted_intermediate" (EScale (1 # 2) (EEins "mael,kldc,ebjk,dcim->abij" [(ESlice (EVar "g_aaaa") [SV "o"; SV "v"; SV "v"; SV "o"]); (EVar "l2_aaaa"); (EVar "t2_aaaa"); (EVar "t2_aaaa")]));
   (*L345*) SAug true "double_res" (EAdd (EAdd (EAdd (EScale (1 # 1) (EVar "contracted_intermediate")) (EScale (-1 # 1) (EEins "abij->abji" [(EVar "contracted_intermediate")]))) (EScale (-1 # 1) (EEins "abij->baij" [(EVar "contracted_intermediate")]))) (EScale (1 # 1) (EEins "abij->baji" [(EVar "contracted_intermediate")])));
   (*L348*) SAssign "contracted_intermediate" (EScale (-1 # 2) (EEins "amel,kldc,ebjk,dcim->abij" [(ESlice (EVar "g_abab") [SV "v"; SV "o"; SV "v"; SV "o"]); (EVar "l2_abab"); (EVar "t2_aaaa"); (EVar "t2_abab")]));
   (*L349*) SAug true "double_res" (EAdd (EAdd (EAdd (EScale (1 # 1) (EVar "contracted_intermediate")) (EScale (-1 # 1) (EEins "abij->abji" [(EVar "contracted_intermediate")]))) (EScale (-1 # 1) (EEins "abij->baij" [(EVar "contracted_intermediate")]))) (EScale (1 # 1) (EEins "abij->baji" [(EVar "contracted_intermediate")])));
   (*L352*) SAssign "contracted_intermediate" (EScale (-1 # 2) (EEins "amel,klcd,ebjk,cdim->abij" [(ESlice (EVar "g_abab") [SV "v"; SV "o"; SV "v"; SV "o"]); (EVar "l2_abab"); (EVar "t2_aaaa"); (EVar "t2_abab")]));
   (*L353*) SAug true "double_res" (EAdd (EAdd (EAdd (EScale (1 # 1) (EVar "contracted_intermediate")) (EScale (-1 # 1) (EEins "abij->abji" [(EVar "contracted_intermediate")]))) (EScale (-1 # 1) (EEins "abij->baij" [(EVar "contracted_intermediate")]))) (EScale (1 # 1) (EEins "abij->baji" [(EVar "contracted_intermediate")])));
   (*L356*) SAssign "contracted_intermediate" (EScale (1 # 2) (EEins "amle,lkdc,bejk,dcim->abij" [(ESlice (EVar "g_abab") [SV "v"; SV "o"; SV "o"; SV "v"]); (EVar "l2_abab"); (EVar "t2_abab"); (EVar "t2_abab")]));
   (*L357*) SAug true "double_res" (EAdd (EAdd (EAdd (EScale (1 # 1) (EVar "contracted_intermediate")) (EScale (-1 # 1) (EEins "abij->abji" [(EVar "contracted_intermediate")]))) (EScale (-1 # 1) (EEins "abij->baij" [(EVar "contracted_intermediate")]))) (EScale (1 # 1) (EEins "abij->baji" [(EVar "contracted_intermediate")])));
   (*L360*) SAssign "contracted_intermediate" (EScale (1 # 2) (EEins "amle,lkcd,bejk,cdim->abij" [(ESlice (EVar "g_abab") [SV "v"; SV "o"; SV "o"; SV "v"]); (EVar "l2_abab"); (EVar "t2_abab"); (EVar "t2_abab")]));
   (*L361*) SAug true "double_res" (EAdd (EAdd (EAdd (EScale (1 # 1) (EVar "contracted_intermediate")) (EScale (-1 # 1) (EEins "abij->abji" [(EVar "contracted_intermediate")]))) (EScale (-1 # 1) (EEins "abij->baij" [(EVar "contracted_intermediate")]))) (EScale (1 # 1) (EEins "abij->baji" [(EVar "contracted_intermediate")])));
   (*L364*) SAssign "contracted_intermediate" (EScale (1 # 2) (EEins "mael,kldc,ebij,dckm->abij" [(ESlice (EVar "g_aaaa") [SV "o"; SV "v"; SV "v"; SV "o"]); (EVar "l2_aaaa"); (EVar "t2_aaaa"); (EVar "t2_aaaa")]));
   (*L365*) SAug true "double_res" (EAdd (EScale (1 # 1) (EVar "contracted_intermediate")) (EScale (-1 # 1) (EEins "abij->baij" [(EVar "contracted_intermediate")])));
   (*L368*) SAssign "contracted_intermediate" (EScale (-1 # 2) (EEins "amel,kldc,ebij,dckm->abij" [(ESlice (EVar "g_abab") [SV "v"; SV "o"; SV "v"; SV "o"]); (EVar "l2_abab"); (EVar "t2_aaaa"); (EVar "t2_abab")]));
   (*L369*) SAug true "double_res" (EAdd (EScale (1 # 1) (EVar "contracted_intermediate")) (EScale (-1 # 1) (EEins "abij->baij" [(EVar "contracted_intermediate")])));
   (*L372*) SAssign "contracted_intermediate" (EScale (-1 # 2) (EEins "amel,klcd,ebij,cdkm->abij" [(ESlice (EVar "g_abab") [SV "v"; SV "o"; SV "v"; SV "o"]); (EVar "l2_abab"); (EVar "t2_aaaa"); (EVar "t2_abab")]));
   (*L373*) SAug true "double_res" (EAdd (EScale (1 # 1) (EVar "contracted_intermediate")) (EScale (-1 # 1) (EEins "abij->baij" [(EVar "contracted_intermediate")])));
   (*L376*) SAssign "contracted_intermediate" (EScale (1 # 2) (EEins "mael,lkdc,ebij,dcmk->abij" [(ESlice (EVar "g_aaaa") [SV "o"; SV "v"; SV "v"; SV "o"]); (EVar "l2_abab"); (EVar "t2_aaaa"); (EVar "t2_abab")]));
   (*L377*) SAug true "double_res" (EAdd (EScale (1 # 1) (EVar "contracted_intermediate")) (EScale (-1 # 1) (EEins "abij->baij" [(EVar "contracted_intermediate")])));
   (*L380*) SAssign "contracted_intermediate" (EScale (1 # 2) (EEins "mael,lkcd,ebij,cdmk->abij" [(ESlice (EVar "g_aaaa") [SV "o"; SV "v"; SV "v"; SV "o"]); (EVar "l2_abab"); (EVar "t2_aaaa"); (EVar "t2_abab")]));
   (*L381*) SAug true "double_res" (EAdd (EScale (1 # 1) (EVar "contracted_intermediate")) (EScale (-1 # 1) (EEins "abij->baij" [(EVar "contracted_intermediate")])));
   (*L384*) SAssign "contracted_intermediate" (EScale (-1 # 2) (EEins "amel,kldc,ebij,dckm->abij" [(ESlice (EVar "g_abab") [SV "v"; SV "o"; SV "v"; SV "o"]); (EVar "l2_bbbb"); (EVar "t2_aaaa"); (EVar "t2_bbbb")]));
   (*L385*) SAug true "double_res" (EAdd (EScale (1 # 1) (EVar "contracted_intermediate")) (EScale (-1 # 1) (EEins "abij->baij" [(EVar "contracted_intermediate")])));
   (*L388*) SAssign "contracted_intermediate" (EScale (1 # 2) (EEins "maej,kldc,edkl,cbim->abij" [(ESlice (EVar "g_aaaa") [SV "o"; SV "v"; SV "v"; SV "o"]); (EVar "l2_aaaa"); (EVar "t2_aaaa"); (EVar "t2_aaaa")]));
   (*L389*) SAug true "double_res" (EAdd (EAdd (EAdd (EScale (1 # 1) (EVar "contracted_intermediate")) (EScale (-1 # 1) (EEins "abij->abji" [(EVar "contracted_intermediate")]))) (EScale (-1 # 1) (EEins "abij->baij" [(EVar "contracted_intermediate")]))) (EScale (1 # 1) (EEins "abij->baji" [(EVar "contracted_intermediate")])));
   (*L392*) SAssign "contracted_intermediate" (EScale (1 # 2) (EEins "amje,kldc,dekl,bcim->abij" [(ESlice (EVar "g_abab") [SV "v"; SV "o"; SV "o"; SV "v"]); (EVar "l2_abab"); (EVar "t2_abab"); (EVar "t2_abab")]));
   (*L393*) SAug true "double_res" (EAdd (EAdd (EAdd (EScale (1 # 1) (EVar "contracted_intermediate")) (EScale (-1 # 1) (EEins "abij->abji" [(EVar "contracted_intermediate")]))) (EScale (-1 # 1) (EEins "abij->baij" [(EVar "contracted_intermediate")]))) (EScale (1 # 1) (EEins "abij->baji" [(EVar "contracted_intermediate")])));
   (*L396*) SAssign "contracted_intermediate" (EScale (-1 # 2) (EEins "maej,klcd,edkl,cbim->abij" [(ESlice (EVar "g_aaaa") [SV "o"; SV "v"; SV "v"; SV "o"]); (EVar "l2_abab"); (EVar "t2_abab"); (EVar "t2_aaaa")]));
   (*L397*) SAug true "double_res" (EAdd (EAdd (EAdd (EScale (1 # 1) (EVar "contracted_intermediate")) (EScale (-1 # 1) (EEins "abij->abji" [(EVar "contracted_intermediate")]))) (EScale (-1 # 1) (EEins "abij->baij" [(EVar "contracted_intermediate")]))) (EScale (1 # 1) (EEins "abij->baji" [(EVar "contracted_intermediate")])));
   (*L400*) SAssign "contracted_intermediate" (EScale (1 # 2) (EEins "amje,lkdc,delk,bcim->abij" [(ESlice (EVar "g_abab") [SV "v"; SV "o"; SV "o"; SV "v"]); (EVar "l2_abab"); (EVar "t2_abab"); (EVar "t2_abab")]));
   (*L401*) SAug true "double_res" (EAdd (EAdd (EAdd (EScale (1 # 1) (EVar "contracted_intermediate")) (EScale (-1 # 1) (EEins "abij->abji" [(EVar "contracted_intermediate")]))) (EScale (-1 # 1) (EEins "abij->baij" [(EVar "contracted_intermediate")]))) (EScale (1 # 1) (EEins "abij->baji" [(EVar "contracted_intermediate")])));
   (*L404*) SAssign "contracted_intermediate" (EScale (-1 # 2) (EEins "maej,lkcd,edlk,cbim->abij" [(ESlice (EVar "g_aaaa") [SV "o"; SV "v"; SV "v"; SV "o"]); (EVar "l2_abab"); (EVar "t2_abab"); (EVar "t2_aaaa")]));
   (*L405*) SAug true "double_res" (EAdd (EAdd (EAdd (EScale (1 # 1) (EVar "contracted_intermediate")) (EScale (-1 # 1) (EEins "abij->abji" [(EVar "contracted_intermediate")]))) (EScale (-1 # 1) (EEins "abij->baij" [(EVar "contracted_intermediate")]))) (EScale (1 # 1) (EEins "abij->baji" [(EVar "contracted_intermediate")])));
   (*L408*) SAssign "contracted_intermediate" (EScale (-1 # 2) (EEins "amje,kldc,edkl,bcim->abij" [(ESlice (EVar "g_abab") [SV "v"; SV "o"; SV "o"; SV "v"]); (EVar "l2_bbbb"); (EVar "t2_bbbb"); (EVar "t2_abab")]));
   (*L409*) SAug true "double_res" (EAdd (EAdd (EAdd (EScale (1 # 1) (EVar "contracted_intermediate")) (EScale (-1 # 1) (EEins "abij->abji" [(EVar "contracted_intermediate")]))) (EScale (-1 # 1) (EEins "abij->baij" [(EVar "contracted_intermediate")]))) (EScale (1 # 1) (EEins "abij->baji" [(EVar "contracted_intermediate")])));
   (*L412*) SAssign "contracted_intermediate" (EScale (-1 # 1) (EEins "maej,kldc,edil,cbkm->abij" [(ESlice (EVar "g_aaaa") [SV "o"; SV "v"; SV "v"; SV "o"]); (EVar "l2_aaaa"); (EVar "t2_aaaa"); (EVar "t2_aaaa")]));
   (*L413*) SAug true "double_res" (EAdd (EAdd (EAdd (EScale (1 # 1) (EVar "contracted_intermediate")) (EScale (-1 # 1) (EEins "abij->abji" [(EVar "contracted_intermediate")]))) (EScale (-1 # 1) (EEins "abij->baij" [(EVar "contracted_intermediate")]))) (EScale (1 # 1) (EEins "abij->baji" [(EVar "contracted_intermediate")])));
   (*L416*) SAssign "contracted_intermediate" (EScale (-1 # 1) (EEins "amje,kldc,deil,bckm->abij" [(ESlice (EVar "g_abab") [SV "v"; SV "o"; SV "o"; SV "v"]); (EVar "l2_abab"); (EVar "t2_abab"); (EVar "t2_abab")]));
   (*L417*) SAug true "double_res" (EAdd (EAdd (EAdd (EScale (1 # 1) (EVar "contracted_intermediate")) (EScale (-1 # 1) (EEins "abij->abji" [(EVar "contracted_intermediate")]))) (EScale (-1 # 1) (EEins "abij->baij" [(EVar "contracted_intermediate")]))) (EScale (1 # 1) (EEins "abij->baji" [(EVar "contracted_intermediate")])));
   (*L420*) SAssign "contracted_intermediate" (EScale (1 # 1) (EEins "maej,klcd,edil,cbkm->abij" [(ESlice (EVar "g_aaaa") [SV "o"; SV "v"; SV "v"; SV "o"]); (EVar "l2_abab"); (EVar "t2_abab"); (EVar "t2_aaaa")]));
   (*L421*) SAug true "double_res" (EAdd (EAdd (EAdd (EScale (1 # 1) (EVar "contracted_intermediate")) (EScale (-1 # 1) (EEins "abij->abji" [(EVar "contracted_intermediate")]))) (EScale (-1 # 1) (EEins "abij->baij" [(EVar "contracted_intermediate")]))) (EScale (1 # 1) (EEins "abij->baji" [(EVar "contracted_intermediate")])));
   (*L424*) SAssign "contracted_intermediate" (EScale (1 # 1) (EEins "maej,lkdc,edil,bcmk->abij" [(ESlice (EVar "g_aaaa") [SV "o"; SV "v"; SV "v"; SV "o"]); (EVar "l2_abab"); (EVar "t2_aaaa"); (EVar "t2_abab")]));
   (*L425*) SAug true "double_res" (EAdd (EAdd (EAdd (EScale (1 # 1) (EVar "contracted_intermediate")) (EScale (-1 # 1) (EEins "abij->abji" [(EVar "contracted_intermediate")]))) (EScale (-1 # 1) (EEins "abij->baij" [(EVar "contracted_intermediate")]))) (EScale (1 # 1) (EEins "abij->baji" [(EVar "contracted_intermediate")])));
   (*L428*) SAssign "contracted_intermediate" (EScale (-1 # 1) (EEins "maej,kldc,edil,bcmk->abij" [(ESlice (EVar "g_aaaa") [SV "o"; SV "v"; SV "v"; SV "o"]); (EVar "l2_bbbb"); (EVar "t2_abab"); (EVar "t2_abab")]));
   (*L429*) SAug true "double_res" (EAdd (EAdd (EAdd (EScale (1 # 1) (EVar "contracted_intermediate")) (EScale (-1 # 1) (EEins "abij->abji" [(EVar "contracted_intermediate")]))) (EScale (-1 # 1) (EEins "abij->baij" [(EVar "contracted_intermediate")]))) (EScale (1 # 1) (EEins "abij->baji" [(EVar "contracted_intermediate")])));
   (*L432*) SAssign "contracted_intermediate" (EScale (1 # 4) (EEins "maej,kldc,ebkl,dcim->abij" [(ESlice (EVar "g_aaaa") [SV "o"; SV "v"; SV "v"; SV "o"]); (EVar "l2_aaaa"); (EVar "t2_aaaa"); (EVar "t2_aaaa")]));
   (*L433*) SAug true "double_res" (EAdd (EAdd (EAdd (EScale (1 # 1) (EVar "contracted_intermediate")) (EScale (-1 # 1) (EEins "abij->abji" [(EVar "contracted_intermediate")]))) (EScale (-1 # 1) (EEins "abij->baij" [(EVar "contracted_intermediate")]))) (EScale (1 # 1) (EEins "abij->baji" [(EVar "contracted_intermediate")])));
   (*L436*) SAssign "contracted_intermediate" (EScale (-1 # 4) (EEins "amje,kldc,bekl,dcim->abij" [(ESlice (EVar "g_abab") [SV "v"; SV "o"; SV "o"; SV "v"]); (EVar "l2_abab"); (EVar "t2_abab"); (EVar "t2_abab")]));
   (*L437*) SAug true "double_res" (EAdd (EAdd (EAdd (EScale (1 # 1) (EVar "contracted_intermediate")) (EScale (-1 # 1) (EEins "abij->abji" [(EVar "contracted_intermediate")]))) (EScale (-1 # 1) (EEins "abij->baij" [(EVar "contracted_intermediate")]))) (EScale (1 # 1) (EEins "abij->baji" [(EVar "contracted_intermediate")])));
   (*L440*) SAssign "contracted_intermediate" (EScale (-1 # 4) (EEins "amje,klcd,bekl,cdim->abij" [(ESlice (EVar "g_abab") [SV "v"; SV "o"; SV "o"; SV "v"]); (EVar "l2_abab"); (EVar "t2_abab"); (EVar "t2_abab")]));
   (*L441*) SAug true "double_res" (EAdd (EAdd (EAdd (EScale (1 # 1) (EVar "contracted_intermediate")) (EScale (-1 # 1) (EEins "abij->abji" [(EVar "contracted_intermediate")]))) (EScale (-1 # 1) (EEins "abij->baij" [(EVar "contracted_intermediate")]))) (EScale (1 # 1) (EEins "abij->baji" [(EVar "contracted_intermediate")])));
   (*L444*) SAssign "contracted_intermediate" (EScale (-1 # 4) (EEins "amje,lkdc,belk,dcim->abij" [(ESlice (EVar "g_abab") [SV "v"; SV "o"; SV "o"; SV "v"]); (EVar "l2_abab"); (EVar "t2_abab"); (EVar "t2_abab")]));
   (*L445*) SAug true "double_res" (EAdd (EAdd (EAdd (EScale (1 # 1) (EVar "contracted_intermediate")) (EScale (-1 # 1) (EEins "abij->abji" [(EVar "contracted_intermediate")]))) (EScale (-1 # 1) (EEins "abij->baij" [(EVar "contracted_intermediate")]))) (EScale (1 # 1) (EEins "abij->baji" [(EVar "contracted_intermediate")])));
   (*L448*) SAssign "contracted_intermediate" (EScale (-1 # 4) (EEins "amje,lkcd,belk,cdim->abij" [(ESlice (EVar "g_abab") [SV "v"; SV "o"; SV "o"; SV "v"]); (EVar "l2_abab"); (EVar "t2_abab"); (EVar "t2_abab")]));
   (*L449*) SAug true "double_res" (EAdd (EAdd (EAdd (EScale (1 # 1) (EVar "contracted_intermediate")) (EScale (-1 # 1) (EEins "abij->abji" [(EVar "contracted_intermediate")]))) (EScale (-1 # 1) (EEins "abij->baij" [(EVar "contracted_intermediate")]))) (EScale (1 # 1) (EEins "abij->baji" [(EVar "contracted_intermediate")])));
   (*L452*) SAssign "contracted_intermediate" (EScale (-1 # 2) (EEins "maej,kldc,ebil,dckm->abij" [(ESlice (EVar "g_aaaa") [SV "o"; SV "v"; SV "v"; SV "o"]); (EVar "l2_aaaa"); (EVar "t2_aaaa"); (EVar "t2_aaaa")]));
   (*L453*) SAug true "double_res" (EAdd (EAdd (EAdd (EScale (1 # 1) (EVar "contracted_intermediate")) (EScale (-1 # 1) (EEins "abij->abji" [(EVar "contracted_intermediate")]))) (EScale (-1 # 1) (EEins "abij->baij" [(EVar "contracted_intermediate")]))) (EScale (1 # 1) (EEins "abij->baji" [(EVar "contracted_intermediate")])));
   (*L456*) SAssign "contracted_intermediate" (EScale (1 # 2) (EEins "amje,kldc,beil,dckm->abij" [(ESlice (EVar "g_abab") [SV "v"; SV "o"; SV "o"; SV "v"]); (EVar "l2_abab"); (EVar "t2_abab"); (EVar "t2_abab")]));
   (*L457*) SAug true "double_res" (EAdd (EAdd (EAdd (EScale (1 # 1) (EVar "contracted_intermediate")) (EScale (-1 # 1) (EEins "abij->abji" [(EVar "contracted_intermediate")]))) (EScale (-1 # 1) (EEins "abij->baij" [(EVar "contracted_intermediate")]))) (EScale (1 # 1) (EEins "abij->baji" [(EVar "contracted_intermediate")])));
   (*L460*) SAssign "contracted_intermediate" (EScale (1 # 2) (EEins "amje,klcd,beil,cdkm->abij" [(ESlice (EVar "g_abab") [SV "v"; SV "o"; SV "o"; SV "v"]); (EVar "l2_abab"); (EVar "t2_abab"); (EVar "t2_abab")]));
   (*L461*) SAug true "double_res" (EAdd (EAdd (EAdd (EScale (1 # 1) (EVar "contracted_intermediate")) (EScale (-1 # 1) (EEins "abij->abji" [(EVar "contracted_intermediate")]))) (EScale (-1 # 1) (EEins "abij->baij" [(EVar "contracted_intermediate")]))) (EScale (1 # 1) (EEins "abij->baji" [(EVar "contracted_intermediate")])));
   (*L464*) SAssign "contracted_intermediate" (EScale (-1 # 2) (EEins "maej,lkdc,ebil,dcmk->abij" [(ESlice (EVar "g_aaaa") [SV "o"; SV "v"; SV "v"; SV "o"]); (EVar "l2_abab"); (EVar "t2_aaaa"); (EVar "t2_abab")]));
   (*L465*) SAug true "double_res" (EAdd (EAdd (EAdd (EScale (1 # 1) (EVar "contracted_intermediate")) (EScale (-1 # 1) (EEins "abij->abji" [(EVar "contracted_intermediate")]))) (EScale (-1 # 1) (EEins "abij->baij" [(EVar "contracted_intermediate")]))) (EScale (1 # 1) (EEins "abij->baji" [(EVar "contracted_intermediate")])));
   (*L468*) SAssign "contracted_intermediate" (EScale (-1 # 2) (EEins "maej,lkcd,ebil,cdmk->abij" [(ESlice (EVar "g_aaaa") [SV "o"; SV "v"; SV "v"; SV "o"]); (EVar "l2_abab"); (EVar "t2_aaaa"); (EVar "t2_abab")]));
   (*L469*) SAug true "double_res" (EAdd (EAdd (EAdd (EScale (1 # 1) (EVar "contracted_intermediate")) (EScale (-1 # 1) (EEins "abij->abji" [(EVar "contracted_intermediate")]))) (EScale (-1 # 1) (EEins "abij->baij" [(EVar "contracted_intermediate")]))) (EScale (1 # 1) (EEins "abij->baji" [(EVar "contracted_intermediate")])));
   (*L472*) SAssign "contracted_intermediate" (EScale (1 # 2) (EEins "amje,kldc,beil,dckm->abij" [(ESlice (EVar "g_abab") [SV "v"; SV "o"; SV "o"; SV "v"]); (EVar "l2_bbbb"); (EVar "t2_abab"); (EVar "t2_bbbb")]));
   (*L473*) SAug true "double_res" (EAdd (EAdd (EAdd (EScale (1 # 1) (EVar "contracted_intermediate")) (EScale (-1 # 1) (EEins "abij->abji" [(EVar "contracted_intermediate")]))) (EScale (-1 # 1) (EEins "abij->baij" [(EVar "contracted_intermediate")]))) (EScale (1 # 1) (EEins "abij->baji" [(EVar "contracted_intermediate")])));
   (*L476*) SAug true "double_res" (EScale (-1 # 4) (EEins "dcef,kldc,eakl,fbij->abij" [(ESlice (EVar "g_aaaa") [SV "v"; SV "v"; SV "v"; SV "v"]); (EVar "l2_aaaa"); (EVar "t2_aaaa"); (EVar "t2_aaaa")]));
   (*L479*) SAug true "double_res" (EScale (-1 # 4) (EEins "dcfe,kldc,aekl,fbij->abij" [(ESlice (EVar "g_abab") [SV "v"; SV "v"; SV "v"; SV "v"]); (EVar "l2_abab"); (EVar "t2_abab"); (EVar "t2_aaaa")]));
   (*L482*) SAug true "double_res" (EScale (-1 # 4) (EEins "cdfe,klcd,aekl,fbij->abij" [(ESlice (EVar "g_abab") [SV "v"; SV "v"; SV "v"; SV "v"]); (EVar "l2_abab"); (EVar "t2_abab"); (EVar "t2_aaaa")]));
   (*L485*) SAug true "double_res" (EScale (-1 # 4) (EEins "dcfe,lkdc,aelk,fbij->abij" [(ESlice (EVar "g_abab") [SV "v"; SV "v"; SV "v"; SV "v"]); (EVar "l2_abab"); (EVar "t2_abab"); (EVar "t2_aaaa")]));
   (*L488*) SAug true "double_res" (EScale (-1 # 4) (EEins "cdfe,lkcd,aelk,fbij->abij" [(ESlice (EVar "g_abab") [SV "v"; SV "v"; SV "v"; SV "v"]); (EVar "l2_abab"); (EVar "t2_abab"); (EVar "t2_aaaa")]));
   (*L491*) SAssign "contracted_intermediate" (EScale (1 # 2) (EEins "dcef,kldc,eajl,fbik->abij" [(ESlice (EVar "g_aaaa") [SV "v"; SV "v"; SV "v"; SV "v"]); (EVar "l2_aaaa"); (EVar "t2_aaaa"); (EVar "t2_aaaa")]));
   (*L492*) SAug true "double_res" (EAdd (EScale (1 # 1) (EVar "contracted_intermediate")) (EScale (-1 # 1) (EEins "abij->abji" [(EVar "contracted_intermediate")])));
   (*L495*) SAssign "contracted_intermediate" (EScale (1 # 2) (EEins "dcfe,kldc,aejl,fbik->abij" [(ESlice (EVar "g_abab") [SV "v"; SV "v"; SV "v"; SV "v"]); (EVar "l2_abab"); (EVar "t2_abab"); (EVar "t2_aaaa")]));
   (*L496*) SAug true "double_res" (EAdd (EScale (1 # 1) (EVar "contracted_intermediate")) (EScale (-1 # 1) (EEins "abij->abji" [(EVar "contracted_intermediate")])));
   (*L499*) SAssign "contracted_intermediate" (EScale (1 # 2) (EEins "cdfe,klcd,aejl,fbik->abij" [(ESlice (EVar "g_abab") [SV "v"; SV "v"; SV "v"; SV "v"]); (EVar "l2_abab"); (EVar "t2_abab"); (EVar "t2_aaaa")]));
   (*L500*) SAug true "double_res" (EAdd (EScale (1 # 1) (EVar "contracted_intermediate")) (EScale (-1 # 1) (EEins "abij->abji" [(EVar "contracted_intermediate")])));
   (*L503*) SAssign "contracted_intermediate" (EScale (1 # 2) (EEins "dcef,lkdc,eajl,bfik->abij" [(ESlice (EVar "g_abab") [SV "v"; SV "v"; SV "v"; SV "v"]); (EVar "l2_abab"); (EVar "t2_aaaa"); (EVar "t2_abab")]));
   (*L504*) SAug true "double_res" (EAdd (EScale (1 # 1) (EVar "contracted_intermediate")) (EScale (-1 # 1) (EEins "abij->abji" [(EVar "contracted_intermediate")])));
   (*L507*) SAssign "contracted_intermediate" (EScale (1 # 2) (EEins "cdef,lkcd,eajl,bfik->abij" [(ESlice (EVar "g_abab") [SV "v"; SV "v"; SV "v"; SV "v"]); (EVar "l2_abab"); (EVar "t2_aaaa"); (EVar "t2_abab")]));
   (*L508*) SAug true "double_res" (EAdd (EScale (1 # 1) (EVar "contracted_intermediate")) (EScale (-1 # 1) (EEins "abij->abji" [(EVar "contracted_intermediate")])));
   (*L511*) SAssign "contracted_intermediate" (EScale (1 # 2) (EEins "dcef,kldc,aejl,bfik->abij" [(ESlice (EVar "g_bbbb") [SV "v"; SV "v"; SV "v"; SV "v"]); (EVar "l2_bbbb"); (EVar "t2_abab"); (EVar "t2_abab")]));
   (*L512*) SAug true "double_res" (EAdd (EScale (1 # 1) (EVar "contracted_intermediate")) (EScale (-1 # 1) (EEins "abij->abji" [(EVar "contracted_intermediate")])));
   (*L515*) SAug true "double_res" (EScale (-1 # 4) (EEins "dcef,kldc,eaij,fbkl->abij" [(ESlice (EVar "g_aaaa") [SV "v"; SV "v"; SV "v"; SV "v"]); (EVar "l2_aaaa"); (EVar "t2_aaaa"); (EVar "t2_aaaa")]));
   (*L518*) SAug true "double_res" (EScale (1 # 4) (EEins "dcef,kldc,eaij,bfkl->abij" [(ESlice (EVar "g_abab") [SV "v"; SV "v"; SV "v"; SV "v"]); (EVar "l2_abab"); (EVar "t2_aaaa"); (EVar "t2_abab")]));
   (*L521*) SAug true "double_res" (EScale (1 # 4) (EEins "cdef,klcd,eaij,bfkl->abij" [(ESlice (EVar "g_abab") [SV "v"; SV "v"; SV "v"; SV "v"]); (EVar "l2_abab"); (EVar "t2_aaaa"); (EVar "t2_abab")]));
   (*L524*) SAug true "double_res" (EScale (1 # 4) (EEins "dcef,lkdc,eaij,bflk->abij" [(ESlice (EVar "g_abab") [SV "v"; SV "v"; SV "v"; SV "v"]); (EVar "l2_abab"); (EVar "t2_aaaa"); (EVar "t2_abab")]));
   (*L527*) SAug true "double_res" (EScale (1 # 4) (EEins "cdef,lkcd,eaij,bflk->abij" [(ESlice (EVar "g_abab") [SV "v"; SV "v"; SV "v"; SV "v"]); (EVar "l2_abab"); (EVar "t2_aaaa"); (EVar "t2_abab")]));
   (*L530*) SAssign "contracted_intermediate" (EScale (1 # 2) (EEins "daef,kldc,eckl,fbij->abij" [(ESlice (EVar "g_aaaa") [SV "v"; SV "v"; SV "v"; SV "v"]); (EVar "l2_aaaa"); (EVar "t2_aaaa"); (EVar "t2_aaaa")]));
   (*L531*) SAug true "double_res" (EAdd (EScale (1 # 1) (EVar "contracted_intermediate")) (EScale (-1 # 1) (EEins "abij->baij" [(EVar "contracted_intermediate")])));
   (*L534*) SAssign "contracted_intermediate" (EScale (1 # 2) (EEins "daef,kldc,eckl,fbij->abij" [(ESlice (EVar "g_aaaa") [SV "v"; SV "v"; SV "v"; SV "v"]); (EVar "l2_abab"); (EVar "t2_abab"); (EVar "t2_aaaa")]));
   (*L535*) SAug true "double_res" (EAdd (EScale (1 # 1) (EVar "contracted_intermediate")) (EScale (-1 # 1) (EEins "abij->baij" [(EVar "contracted_intermediate")])));
   (*L538*) SAssign "contracted_intermediate" (EScale (1 # 2) (EEins "adfe,klcd,cekl,fbij->abij" [(ESlice (EVar "g_abab") [SV "v"; SV "v"; SV "v"; SV "v"]); (EVar "l2_abab"); (EVar "t2_abab"); (EVar "t2_aaaa")]));
   (*L539*) SAug true "double_res" (EAdd (EScale (1 # 1) (EVar "contracted_intermediate")) (EScale (-1 # 1) (EEins "abij->baij" [(EVar "contracted_intermediate")])));
   (*L542*) SAssign "contracted_intermediate" (EScale (1 # 2) (EEins "daef,lkdc,eclk,fbij->abij" [(ESlice (EVar "g_aaaa") [SV "v"; SV "v"; SV "v"; SV "v"]); (EVar "l2_abab"); (EVar "t2_abab"); (EVar "t2_aaaa")]));
   (*L543*) SAug true "double_res" (EAdd (EScale (1 # 1) (EVar "contracted_intermediate")) (EScale (-1 # 1) (EEins "abij->baij" [(EVar "contracted_intermediate")])));
   (*L546*) SAssign "contracted_intermediate" (EScale (1 # 2) (EEins "adfe,lkcd,celk,fbij->abij" [(ESlice (EVar "g_abab") [SV "v"; SV "v"; SV "v"; SV "v"]); (EVar "l2_abab"); (EVar "t2_abab"); (EVar "t2_aaaa")]));
   (*L547*) SAug true "double_res" (EAdd (EScale (1 # 1) (EVar "contracted_intermediate")) (EScale (-1 # 1) (EEins "abij->baij" [(EVar "contracted_intermediate")])));
   (*L550*) SAssign "contracted_intermediate" (EScale (1 # 2) (EEins "adfe,kldc,eckl,fbij->abij" [(ESlice (EVar "g_abab") [SV "v"; SV "v"; SV "v"; SV "v"]); (EVar "l2_bbbb"); (EVar "t2_bbbb"); (EVar "t2_aaaa")]));
   (*L551*) SAug true "double_res" (EAdd (EScale (1 # 1) (EVar "contracted_intermediate")) (EScale (-1 # 1) (EEins "abij->baij" [(EVar "contracted_intermediate")])));
   (*L554*) SAssign "contracted_intermediate" (EScale (-1 # 1) (EEins "daef,kldc,ecjl,fbik->abij" [(ESlice (EVar "g_aaaa") [SV "v"; SV "v"; SV "v"; SV "v"]); (EVar "l2_aaaa"); (EVar "t2_aaaa"); (EVar "t2_aaaa")]));
   (*L555*) SAug true "double_res" (EAdd (EAdd (EAdd (EScale (1 # 1) (EVar "contracted_intermediate")) (EScale (-1 # 1) (EEins "abij->abji" [(EVar "contracted_intermediate")]))) (EScale (-1 # 1) (EEins "abij->baij" [(EVar "contracted_intermediate")]))) (EScale (1 # 1) (EEins "abij->baji" [(EVar "contracted_intermediate")])));
   (*L558*) SAssign "contracted_intermediate" (EScale (-1 # 1) (EEins "daef,kldc,ecjl,fbik->abij" [(ESlice (EVar "g_aaaa") [SV "v"; SV "v"; SV "v"; SV "v"]); (EVar "l2_abab"); (EVar "t2_abab"); (EVar "t2_aaaa")]));
   (*L559*) SAug true "double_res" (EAdd (EAdd (EAdd (EScale (1 # 1) (EVar "contracted_intermediate")) (EScale (-1 # 1) (EEins "abij->abji" [(EVar "contracted_intermediate")]))) (EScale (-1 # 1) (EEins "abij->baij" [(EVar "contracted_intermediate")]))) (EScale (1 # 1) (EEins "abij->baji" [(EVar "contracted_intermediate")])));
   (*L562*) SAssign "contracted_intermediate" (EScale (-1 # 1) (EEins "adfe,klcd,cejl,fbik->abij" [(ESlice (EVar "g_abab") [SV "v"; SV "v"; SV "v"; SV "v"]); (EVar "l2_abab"); (EVar "t2_abab"); (EVar "t2_aaaa")]));
   (*L563*) SAug true "double_res" (EAdd (EAdd (EAdd (EScale (1 # 1) (EVar "contracted_intermediate")) (EScale (-1 # 1) (EEins "abij->abji" [(EVar "contracted_intermediate")]))) (EScale (-1 # 1) (EEins "abij->baij" [(EVar "contracted_intermediate")]))) (EScale (1 # 1) (EEins "abij->baji" [(EVar "contracted_intermediate")])));
   (*L566*) SAssign "contracted_intermediate" (EScale (-1 # 1) (EEins "adef,lkcd,ecjl,bfik->abij" [(ESlice (EVar "g_abab") [SV "v"; SV "v"; SV "v"; SV "v"]); (EVar "l2_abab"); (EVar "t2_aaaa"); (EVar "t2_abab")]));
   (*L567*) SAug true "double_res" (EAdd (EAdd (EAdd (EScale (1 # 1) (EVar "contracted_intermediate")) (EScale (-1 # 1) (EEins "abij->abji" [(EVar "contracted_intermediate")]))) (EScale (-1 # 1) (EEins "abij->baij" [(EVar "contracted_intermediate")]))) (EScale (1 # 1) (EEins "abij->baji" [(EVar "contracted_intermediate")])));
   (*L570*) SAssign "contracted_intermediate" (EScale (-1 # 1) (EEins "adef,kldc,ecjl,bfik->abij" [(ESlice (EVar "g_abab") [SV "v"; SV "v"; SV "v"; SV "v"]); (EVar "l2_bbbb"); (EVar "t2_abab"); (EVar "t2_abab")]));
   (*L571*) SAug true "double_res" (EAdd (EAdd (EAdd (EScale (1 # 1) (EVar "contracted_intermediate")) (EScale (-1 # 1) (EEins "abij->abji" [(EVar "contracted_intermediate")]))) (EScale (-1 # 1) (EEins "abij->baij" [(EVar "contracted_intermediate")]))) (EScale (1 # 1) (EEins "abij->baji" [(EVar "contracted_intermediate")])));
   (*L574*) SAssign "contracted_intermediate" (EScale (1 # 2) (EEins "daef,kldc,ecij,fbkl->abij" [(ESlice (EVar "g_aaaa") [SV "v"; SV "v"; SV "v"; SV "v"]); (EVar "l2_aaaa"); (EVar "t2_aaaa"); (EVar "t2_aaaa")]));
   (*L575*) SAug true "double_res" (EAdd (EScale (1 # 1) (EVar "contracted_intermediate")) (EScale (-1 # 1) (EEins "abij->baij" [(EVar "contracted_intermediate")])));
   (*L578*) SAssign "contracted_intermediate" (EScale (-1 # 2) (EEins "adef,klcd,ecij,bfkl->abij" [(ESlice (EVar "g_abab") [SV "v"; SV "v"; SV "v"; SV "v"]); (EVar "l2_abab"); (EVar "t2_aaaa"); (EVar "t2_abab")]));
   (*L579*) SAug true "double_res" (EAdd (EScale (1 # 1) (EVar "contracted_intermediate")) (EScale (-1 # 1) (EEins "abij->baij" [(EVar "contracted_intermediate")])));
   (*L582*) SAssign "contracted_intermediate" (EScale (-1 # 2) (EEins "adef,lkcd,ecij,bflk->abij" [(ESlice (EVar "g_abab") [SV "v"; SV "v"; SV "v"; SV "v"]); (EVar "l2_abab"); (EVar "t2_aaaa"); (EVar "t2_abab")]));
   (*L583*) SAug true "double_res" (EAdd (EScale (1 # 1) (EVar "contracted_intermediate")) (EScale (-1 # 1) (EEins "abij->baij" [(EVar "contracted_intermediate")])));
   (*L586*) SAug true "double_res" (EScale (-1 # 2) (EEins "abef,kldc,edkl,fcij->abij" [(ESlice (EVar "g_aaaa") [SV "v"; SV "v"; SV "v"; SV "v"]); (EVar "l2_aaaa"); (EVar "t2_aaaa"); (EVar "t2_aaaa")]));
   (*L589*) SAug true "double_res" (EScale (1 # 2) (EEins "abef,klcd,edkl,fcij->abij" [(ESlice (EVar "g_aaaa") [SV "v"; SV "v"; SV "v"; SV "v"]); (EVar "l2_abab"); (EVar "t2_abab"); (EVar "t2_aaaa")]));
   (*L592*) SAug true "double_res" (EScale (1 # 2) (EEins "abef,lkcd,edlk,fcij->abij" [(ESlice (EVar "g_aaaa") [SV "v"; SV "v"; SV "v"; SV "v"]); (EVar "l2_abab"); (EVar "t2_abab"); (EVar "t2_aaaa")]));
   (*L595*) SAssign "contracted_intermediate" (EScale (1 # 2) (EEins "abef,kldc,edjl,fcik->abij" [(ESlice (EVar "g_aaaa") [SV "v"; SV "v"; SV "v"; SV "v"]); (EVar "l2_aaaa"); (EVar "t2_aaaa"); (EVar "t2_aaaa")]));
   (*L596*) SAug true "double_res" (EAdd (EScale (1 # 1) (EVar "contracted_intermediate")) (EScale (-1 # 1) (EEins "abij->abji" [(EVar "contracted_intermediate")])));
   (*L599*) SAssign "contracted_intermediate" (EScale (-1 # 2) (EEins "abef,klcd,edjl,fcik->abij" [(ESlice (EVar "g_aaaa") [SV "v"; SV "v"; SV "v"; SV "v"]); (EVar "l2_abab"); (EVar "t2_abab"); (EVar "t2_aaaa")]));
   (*L600*) SAug true "double_res" (EAdd (EScale (1 # 1) (EVar "contracted_intermediate")) (EScale (-1 # 1) (EEins "abij->abji" [(EVar "contracted_intermediate")])));
   (*L603*) SAssign "contracted_intermediate" (EScale (-1 # 2) (EEins "abef,lkdc,edjl,fcik->abij" [(ESlice (EVar "g_aaaa") [SV "v"; SV "v"; SV "v"; SV "v"]); (EVar "l2_abab"); (EVar "t2_aaaa"); (EVar "t2_abab")]));
   (*L604*) SAug true "double_res" (EAdd (EScale (1 # 1) (EVar "contracted_intermediate")) (EScale (-1 # 1) (EEins "abij->abji" [(EVar "contracted_intermediate")])));
   (*L607*) SAssign "contracted_intermediate" (EScale (1 # 2) (EEins "abef,kldc,edjl,fcik->abij" [(ESlice (EVar "g_aaaa") [SV "v"; SV "v"; SV "v"; SV "v"]); (EVar "l2_bbbb"); (EVar "t2_abab"); (EVar "t2_abab")]));
   (*L608*) SAug true "double_res" (EAdd (EScale (1 # 1) (EVar "contracted_intermediate")) (EScale (-1 # 1) (EEins "abij->abji" [(EVar "contracted_intermediate")])))]
  (*L611*) (EVar "double_res").

(** /repo/UT2/modify_T2resid_T4Qf1.py:615-1220  def residQf1_bbbb *)
Definition residQf1_bbbb : fn := mkFn
  ["g"; "l2"; "t2"; "o"; "v"]
  [(*L616*) SAssign "g_aaaa" (EItem (EVar "g") "aaaa");
   (*L617*) SAssign "g_bbbb" (EItem (EVar "g") "bbbb");
   (*L618*) SAssign "g_abab" (EItem (EVar "g") "abab");
   (*L620*) SAssign "l2_aaaa" (EItem (EVar "l2") "aaaa");
   (*L621*) SAssign "l2_bbbb" (EItem (EVar "l2") "bbbb");
   (*L622*) SAssign "l2_abab" (EItem (EVar "l2") "abab");
   (*L624*) SAssign "t2_aaaa" (EItem (EVar "t2") "aaaa");
   (*L625*) SAssign "t2_bbbb" (EItem (EVar "t2") "bbbb");
   (*L626*) SAssign "t2_abab" (EItem (EVar "t2") "abab");
   (*L629*) SAssign "contracted_intermediate" (EScale (-1 # 4) (EEins "mnkl,kldc,dcmj,abin->abij" [(ESlice (EVar "g_abab") [SV "o"; SV "o"; SV "o"; SV "o"]); (EVar "l2_abab"); (EVar "t2_abab"); (EVar "t2_bbbb")]));
   (*L630*) SAssign "double_res" (EAdd (EScale (1 # 1) (EVar "contracted_intermediate")) (EScale (-1 # 1) (EEins "abij->abji" [(EVar "contracted_intermediate")])));
   (*L633*) SAssign "contracted_intermediate" (EScale (-1 # 4) (EEins "mnkl,klcd,cdmj,abin->abij" [(ESlice (EVar "g_abab") [SV "o"; SV "o"; SV "o"; SV "o"]); (EVar "l2_abab"); (EVar "t2_abab"); (EVar "t2_bbbb")]));
   (*L634*) SAug true "double_res" (EAdd (EScale (1 # 1) (EVar "contracted_intermediate")) (EScale (-1 # 1) (EEins "abij->abji" [(EVar "contracted_intermediate")])));
   (*L637*) SAssign "contracted_intermediate" (EScale (-1 # 4) (EEins "mnlk,lkdc,dcmj,abin->abij" [(ESlice (EVar "g_abab") [SV "o"; SV "o"; SV "o"; SV "o"]); (EVar "l2_abab"); (EVar "t2_abab"); (EVar "t2_bbbb")]));
   (*L638*) SAug true "double_res" (EAdd (EScale (1 # 1) (EVar "contracted_intermediate")) (EScale (-1 # 1) (EEins "abij->abji" [(EVar "contracted_intermediate")])));
   (*L641*) SAssign "contracted_intermediate" (EScale (-1 # 4) (EEins "mnlk,lkcd,cdmj,abin->abij" [(ESlice (EVar "g_abab") [SV "o"; SV "o"; SV "o"; SV "o"]); (EVar "l2_abab"); (EVar "t2_abab"); (EVar "t2_bbbb")]));
   (*L642*) SAug true "double_res" (EAdd (EScale (1 # 1) (EVar "contracted_intermediate")) (EScale (-1 # 1) (EEins "abij->abji" [(EVar "contracted_intermediate")])));
   (*L645*) SAssign "contracted_intermediate" (EScale (-1 # 4) (EEins "nmkl,kldc,dcjm,abin->abij" [(ESlice (EVar "g_bbbb") [SV "o"; SV "o"; SV "o"; SV "o"]); (EVar "l2_bbbb"); (EVar "t2_bbbb"); (EVar "t2_bbbb")]));
   (*L646*) SAug true "double_res" (EAdd (EScale (1 # 1) (EVar "contracted_intermediate")) (EScale (-1 # 1) (EEins "abij->abji" [(EVar "contracted_intermediate")])));
   (*L649*) SAssign "contracted_intermediate" (EScale (1 # 2) (EEins "nmkl,kldc,damj,cbni->abij" [(ESlice (EVar "g_aaaa") [SV "o"; SV "o"; SV "o"; SV "o"]); (EVar "l2_aaaa"); (EVar "t2_abab"); (EVar "t2_abab")]));
   (*L650*) SAug true "double_res" (EAdd (EScale (1 # 1) (EVar "contracted_intermediate")) (EScale (-1 # 1) (EEins "abij->abji" [(EVar "contracted_intermediate")])));
   (*L653*) SAssign "contracted_intermediate" (EScale (1 # 2) (EEins "mnkl,kldc,damj,cbin->abij" [(ESlice (EVar "g_abab") [SV "o"; SV "o"; SV "o"; SV "o"]); (EVar "l2_abab"); (EVar "t2_abab"); (EVar "t2_bbbb")]));
   (*L654*) SAug true "double_res" (EAdd (EScale (1 # 1) (EVar "contracted_intermediate")) (EScale (-1 # 1) (EEins "abij->abji" [(EVar "contracted_intermediate")])));
   (*L657*) SAssign "contracted_intermediate" (EScale (1 # 2) (EEins "nmkl,klcd,dajm,cbni->abij" [(ESlice (EVar "g_abab") [SV "o"; SV "o"; SV "o"; SV "o"]); (EVar "l2_abab"); (EVar "t2_bbbb"); (EVar "t2_abab")]));
   (*L658*) SAug true "double_res" (EAdd (EScale (1 # 1) (EVar "contracted_intermediate")) (EScale (-1 # 1) (EEins "abij->abji" [(EVar "contracted_intermediate")])));
   (*L661*) SAssign "contracted_intermediate" (EScale (1 # 2) (EEins "mnlk,lkdc,damj,cbin->abij" [(ESlice (EVar "g_abab") [SV "o"; SV "o"; SV "o"; SV "o"]); (EVar "l2_abab"); (EVar "t2_abab"); (EVar "t2_bbbb")]));
   (*L662*) SAug true "double_res" (EAdd (EScale (1 # 1) (EVar "contracted_intermediate")) (EScale (-1 # 1) (EEins "abij->abji" [(EVar "contracted_intermediate")])));
   (*L665*) SAssign "contracted_intermediate" (EScale (1 # 2) (EEins "nmlk,lkcd,dajm,cbni->abij" [(ESlice (EVar "g_abab") [SV "o"; SV "o"; SV "o"; SV "o"]); (EVar "l2_abab"); (EVar "t2_bbbb"); (EVar "t2_abab")]));
   (*L666*) SAug true "double_res" (EAdd (EScale (1 # 1) (EVar "contracted_intermediate")) (EScale (-1 # 1) (EEins "abij->abji" [(EVar "contracted_intermediate")])));
   (*L669*) SAssign "contracted_intermediate" (EScale (1 # 2) (EEins "nmkl,kldc,dajm,cbin->abij" [(ESlice (EVar "g_bbbb") [SV "o"; SV "o"; SV "o"; SV "o"]); (EVar "l2_bbbb"); (EVar "t2_bbbb"); (EVar "t2_bbbb")]));
   (*L670*) SAug true "double_res" (EAdd (EScale (1 # 1) (EVar "contracted_intermediate")) (EScale (-1 # 1) (EEins "abij->abji" [(EVar "contracted_intermediate")])));
   (*L673*) SAssign "contracted_intermediate" (EScale (1 # 2) (EEins "mnlj,kldc,dckm,abin->abij" [(ESlice (EVar "g_abab") [SV "o"; SV "o"; SV "o"; SV "o"]); (EVar "l2_aaaa"); (EVar "t2_aaaa"); (EVar "t2_bbbb")]));
   (*L674*) SAug true "double_res" (EAdd (EScale (1 # 1) (EVar "contracted_intermediate")) (EScale (-1 # 1) (EEins "abij->abji" [(EVar "contracted_intermediate")])));
   (*L677*) SAssign "contracted_intermediate" (EScale (1 # 2) (EEins "nmjl,kldc,dckm,abin->abij" [(ESlice (EVar "g_bbbb") [SV "o"; SV "o"; SV "o"; SV "o"]); (EVar "l2_abab"); (EVar "t2_abab"); (EVar "t2_bbbb")]));
   (*L678*) SAug true "double_res" (EAdd (EScale (1 # 1) (EVar "contracted_intermediate")) (EScale (-1 # 1) (EEins "abij->abji" [(EVar "contracted_intermediate")])));
   (*L681*) SAssign "contracted_intermediate" (EScale (1 # 2) (EEins "nmjl,klcd,cdkm,abin->abij" [(ESlice (EVar "g_bbbb") [SV "o"; SV "o"; SV "o"; SV "o"]); (EVar "l2_abab"); (EVar "t2_abab"); (EVar "t2_bbbb")]));
   (*L682*) SAug true "double_res" (EAdd (EScale (1 # 1) (EVar "contracted_intermediate")) (EScale (-1 # 1) (EEins "abij->abji" [(EVar "contracted_intermediate")])));
   (*L685*) SAssign "contracted_intermediate" (EScale (1 # 2) (EEins "mnlj,lkdc,dcmk,abin->abij" [(ESlice (EVar "g_abab") [SV "o"; SV "o"; SV "o"; SV "o"]); (EVar "l2_abab"); (EVar "t2_abab"); (EVar "t2_bbbb")]));
   (*L686*) SAug true "double_res" (EAdd (EScale (1 # 1) (EVar "contracted_intermediate")) (EScale (-1 # 1) (EEins "abij->abji" [(EVar "contracted_intermediate")])));
   (*L689*) SAssign "contracted_intermediate" (EScale (1 # 2) (EEins "mnlj,lkcd,cdmk,abin->abij" [(ESlice (EVar "g_abab") [SV "o"; SV "o"; SV "o"; SV "o"]); (EVar "l2_abab"); (EVar "t2_abab"); (EVar "t2_bbbb")]));
   (*L690*) SAug true "double_res" (EAdd (EScale (1 # 1) (EVar "contracted_intermediate")) (EScale (-1 # 1) (EEins "abij->abji" [(EVar "contracted_intermediate")])));
   (*L693*) SAssign "contracted_intermediate" (EScale (1 # 2) (EEins "nmjl,kldc,dckm,abin->abij" [(ESlice (EVar "g_bbbb") [SV "o"; SV "o"; SV "o"; SV "o"]); (EVar "l2_bbbb"); (EVar "t2_bbbb"); (EVar "t2_bbbb")]));
   (*L694*) SAug true "double_res" (EAdd (EScale (1 # 1) (EVar "contracted_intermediate")) (EScale (-1 # 1) (EEins "abij->abji" [(EVar "contracted_intermediate")])));
   (*L697*) SAssign "contracted_intermediate" (EScale (-1 # 2) (EEins "mnlj,lkdc,dcmi,abkn->abij" [(ESlice (EVar "g_abab") [SV "o"; SV "o"; SV "o"; SV "o"]); (EVar "l2_abab"); (EVar "t2_abab"); (EVar "t2_bbbb")]));
   (*L698*) SAug true "double_res" (EAdd (EScale (1 # 1) (EVar "contracted_intermediate")) (EScale (-1 # 1) (EEins "abij->abji" [(EVar "contracted_intermediate")])));
   (*L701*) SAssign "contracted_intermediate" (EScale (-1 # 2) (EEins "mnlj,lkcd,cdmi,abkn->abij" [(ESlice (EVar "g_abab") [SV "o"; SV "o"; SV "o"; SV "o"]); (EVar "l2_abab"); (EVar "t2_abab"); (EVar "t2_bbbb")]));
   (*L702*) SAug true "double_res" (EAdd (EScale (1 # 1) (EVar "contracted_intermediate")) (EScale (-1 # 1) (EEins "abij->abji" [(EVar "contracted_intermediate")])));
   (*L705*) SAssign "contracted_intermediate" (EScale (-1 # 2) (EEins "nmjl,kldc,dcim,abkn->abij" [(ESlice (EVar "g_bbbb") [SV "o"; SV "o"; SV "o"; SV "o"]); (EVar "l2_bbbb"); (EVar "t2_bbbb"); (EVar "t2_bbbb")]));
   (*L706*) SAug true "double_res" (EAdd (EScale (1 # 1) (EVar "contracted_intermediate")) (EScale (-1 # 1) (EEins "abij->abji" [(EVar "contracted_intermediate")])));
   (*L709*) SAssign "contracted_intermediate" (EScale (-1 # 1) (EEins "nmlj,kldc,dakm,cbni->abij" [(ESlice (EVar "g_abab") [SV "o"; SV "o"; SV "o"; SV "o"]); (EVar "l2_aaaa"); (EVar "t2_abab"); (EVar "t2_abab")]));
   (*L710*) SAug true "double_res" (EAdd (EScale (1 # 1) (EVar "contracted_intermediate")) (EScale (-1 # 1) (EEins "abij->abji" [(EVar "contracted_intermediate")])));
   (*L713*) SAssign "contracted_intermediate" (EScale (-1 # 1) (EEins "nmjl,kldc,dakm,cbin->abij" [(ESlice (EVar "g_bbbb") [SV "o"; SV "o"; SV "o"; SV "o"]); (EVar "l2_abab"); (EVar "t2_abab"); (EVar "t2_bbbb")]));
   (*L714*) SAug true "double_res" (EAdd (EScale (1 # 1) (EVar "contracted_intermediate")) (EScale (-1 # 1) (EEins "abij->abji" [(EVar "contracted_intermediate")])));
   (*L717*) SAssign "contracted_intermediate" (EScale (-1 # 1) (EEins "mnlj,lkdc,damk,cbin->abij" [(ESlice (EVar "g_abab") [SV "o"; SV "o"; SV "o"; SV "o"]); (EVar "l2_abab"); (EVar "t2_abab"); (EVar "t2_bbbb")]));
   (*L718*) SAug true "double_res" (EAdd (EScale (1 # 1) (EVar "contracted_intermediate")) (EScale (-1 # 1) (EEins "abij->abji" [(EVar "contracted_intermediate")])));
   (*L721*) SAssign "contracted_intermediate" (EScale (-1 # 1) (EEins "nmlj,lkcd,dakm,cbni->abij" [(ESlice (EVar "g_abab") [SV "o"; SV "o"; SV "o"; SV "o"]); (EVar "l2_abab"); (EVar "t2_bbbb"); (EVar "t2_abab")]));
   (*L722*) SAug true "double_res" (EAdd (EScale (1 # 1) (EVar "contracted_intermediate")) (EScale (-1 # 1) (EEins "abij->abji" [(EVar "contracted_intermediate")])));
   (*L725*) SAssign "contracted_intermediate" (EScale (-1 # 1) (EEins "nmjl,kldc,dakm,cbin->abij" [(ESlice (EVar "g_bbbb") [SV "o"; SV "o"; SV "o"; SV "o"]); (EVar "l2_bbbb"); (EVar "t2_bbbb"); (EVar "t2_bbbb")]));
   (*L726*) SAug true "double_res" (EAdd (EScale (1 # 1) (EVar "contracted_intermediate")) (EScale (-1 # 1) (EEins "abij->abji" [(EVar "contracted_intermediate")])));
   (*L729*) SAssign "contracted_intermediate" (EScale (-1 # 1) (EEins "mnlj,kldc,dami,cbkn->abij" [(ESlice (EVar "g_abab") [SV "o"; SV "o"; SV "o"; SV "o"]); (EVar "l2_aaaa"); (EVar "t2_abab"); (EVar "t2_abab")]));
   (*L730*) SAug true "double_res" (EAdd (EScale (1 # 1) (EVar "contracted_intermediate")) (EScale (-1 # 1) (EEins "abij->abji" [(EVar "contracted_intermediate")])));
   (*L733*) SAssign "contracted_intermediate" (EScale (-1 # 1) (EEins "nmjl,klcd,daim,cbkn->abij" [(ESlice (EVar "g_bbbb") [SV "o"; SV "o"; SV "o"; SV "o"]); (EVar "l2_abab"); (EVar "t2_bbbb"); (EVar "t2_abab")]));
   (*L734*) SAug true "double_res" (EAdd (EScale (1 # 1) (EVar "contracted_intermediate")) (EScale (-1 # 1) (EEins "abij->abji" [(EVar "contracted_intermediate")])));
   (*L737*) SAssign "contracted_intermediate" (EScale (1 # 1) (EEins "mnlj,lkdc,dami,cbkn->abij" [(ESlice (EVar "g_abab") [SV "o"; SV "o"; SV "o"; SV "o"]); (EVar "l2_abab"); (EVar "t2_abab"); (EVar "t2_bbbb")]));
   (*L738*) SAug true "double_res" (EAdd (EScale (1 # 1) (EVar "contracted_intermediate")) (EScale (-1 # 1) (EEins "abij->abji" [(EVar "contracted_intermediate")])));
   (*L741*) SAssign "contracted_intermediate" (EScale (1 # 1) (EEins "nmlj,lkcd,daim,cbnk->abij" [(ESlice (EVar "g_abab") [SV "o"; SV "o"; SV "o"; SV "o"]); (EVar "l2_abab"); (EVar "t2_bbbb"); (EVar "t2_abab")]));
   (*L742*) SAug true "double_res" (EAdd (EScale (1 # 1) (EVar "contracted_intermediate")) (EScale (-1 # 1) (EEins "abij->abji" [(EVar "contracted_intermediate")])));
   (*L745*) SAssign "contracted_intermediate" (EScale (1 # 1) (EEins "nmjl,kldc,daim,cbkn->abij" [(ESlice (EVar "g_bbbb") [SV "o"; SV "o"; SV "o"; SV "o"]); (EVar "l2_bbbb"); (EVar "t2_bbbb"); (EVar "t2_bbbb")]));
   (*L746*) SAug true "double_res" (EAdd (EScale (1 # 1) (EVar "contracted_intermediate")) (EScale (-1 # 1) (EEins "abij->abji" [(EVar "contracted_intermediate")])));
   (*L749*) SAug true "double_res" (EScale (1 # 2) (EEins "nmij,lkdc,dclm,abkn->abij" [(ESlice (EVar "g_bbbb") [SV "o"; SV "o"; SV "o"; SV "o"]); (EVar "l2_abab"); (EVar "t2_abab"); (EVar "t2_bbbb")]));
   (*L752*) SAug true "double_res" (EScale (1 # 2) (EEins "nmij,lkcd,cdlm,abkn->abij" [(ESlice (EVar "g_bbbb") [SV "o"; SV "o"; SV "o"; SV "o"]); (EVar "l2_abab"); (EVar "t2_abab"); (EVar "t2_bbbb")]));
   (*L755*) SAug true "double_res" (EScale (-1 # 2) (EEins "nmij,kldc,dclm,abkn->abij" [(ESlice (EVar "g_bbbb") [SV "o"; SV "o"; SV "o"; SV "o"]); (EVar "l2_bbbb"); (EVar "t2_bbbb"); (EVar "t2_bbbb")]));
   (*L758*) SAssign "contracted_intermediate" (EScale (1 # 2) (EEins "nmij,kldc,dalm,cbkn->abij" [(ESlice (EVar "g_bbbb") [SV "o"; SV "o"; SV "o"; SV "o"]); (EVar "l2_aaaa"); (EVar "t2_abab"); (EVar "t2_abab")]));
   (*L759*) SAug true "double_res" (EAdd (EScale (1 # 1) (EVar "contracted_intermediate")) (EScale (-1 # 1) (EEins "abij->baij" [(EVar "contracted_intermediate")])));
   (*L762*) SAssign "contracted_intermediate" (EScale (-1 # 2) (EEins "nmij,klcd,dalm,cbkn->abij" [(ESlice (EVar "g_bbbb") [SV "o"; SV "o"; SV "o"; SV "o"]); (EVar "l2_abab"); (EVar "t2_bbbb"); (EVar "t2_abab")]));
   (*L763*) SAug true "double_res" (EAdd (EScale (1 # 1) (EVar "contracted_intermediate")) (EScale (-1 # 1) (EEins "abij->baij" [(EVar "contracted_intermediate")])));
   (*L766*) SAssign "contracted_intermediate" (EScale (-1 # 2) (EEins "nmij,lkdc,dalm,cbkn->abij" [(ESlice (EVar "g_bbbb") [SV "o"; SV "o"; SV "o"; SV "o"]); (EVar "l2_abab"); (EVar "t2_abab"); (EVar "t2_bbbb")]));
   (*L767*) SAug true "double_res" (EAdd (EScale (1 # 1) (EVar "contracted_intermediate")) (EScale (-1 # 1) (EEins "abij->baij" [(EVar "contracted_intermediate")])));
   (*L770*) SAssign "contracted_intermediate" (EScale (1 # 2) (EEins "nmij,kldc,dalm,cbkn->abij" [(ESlice (EVar "g_bbbb") [SV "o"; SV "o"; SV "o"; SV "o"]); (EVar "l2_bbbb"); (EVar "t2_bbbb"); (EVar "t2_bbbb")]));
   (*L771*) SAug true "double_res" (EAdd (EScale (1 # 1) (EVar "contracted_intermediate")) (EScale (-1 # 1) (EEins "abij->baij" [(EVar "contracted_intermediate")])));
   (*L774*) SAssign "contracted_intermediate" (EScale (1 # 1) (EEins "dmle,kldc,cekj,abim->abij" [(ESlice (EVar "g_abab") [SV "v"; SV "o"; SV "o"; SV "v"]); (EVar "l2_aaaa"); (EVar "t2_abab"); (EVar "t2_bbbb")]));
   (*L775*) SAug true "double_res" (EAdd (EScale (1 # 1) (EVar "contracted_intermediate")) (EScale (-1 # 1) (EEins "abij->abji" [(EVar "contracted_intermediate")])));
   (*L778*) SAssign "contracted_intermediate" (EScale (1 # 1) (EEins "dmel,kldc,eckj,abim->abij" [(ESlice (EVar "g_abab") [SV "v"; SV "o"; SV "v"; SV "o"]); (EVar "l2_abab"); (EVar "t2_abab"); (EVar "t2_bbbb")]));
   (*L779*) SAug true "double_res" (EAdd (EScale (1 # 1) (EVar "contracted_intermediate")) (EScale (-1 # 1) (EEins "abij->abji" [(EVar "contracted_intermediate")])));
   (*L782*) SAssign "contracted_intermediate" (EScale (-1 # 1) (EEins "mdel,klcd,cekj,abim->abij" [(ESlice (EVar "g_bbbb") [SV "o"; SV "v"; SV "v"; SV "o"]); (EVar "l2_abab"); (EVar "t2_abab"); (EVar "t2_bbbb")]));
   (*L783*) SAug true "double_res" (EAdd (EScale (1 # 1) (EVar "contracted_intermediate")) (EScale (-1 # 1) (EEins "abij->abji" [(EVar "contracted_intermediate")])));
   (*L786*) SAssign "contracted_intermediate" (EScale (-1 # 1) (EEins "dmle,lkdc,ecjk,abim->abij" [(ESlice (EVar "g_abab") [SV "v"; SV "o"; SV "o"; SV "v"]); (EVar "l2_abab"); (EVar "t2_bbbb"); (EVar "t2_bbbb")]));
   (*L787*) SAug true "double_res" (EAdd (EScale (1 # 1) (EVar "contracted_intermediate")) (EScale (-1 # 1) (EEins "abij->abji" [(EVar "contracted_intermediate")])));
   (*L790*) SAssign "contracted_intermediate" (EScale (1 # 1) (EEins "mdel,kldc,ecjk,abim->abij" [(ESlice (EVar "g_bbbb") [SV "o"; SV "v"; SV "v"; SV "o"]); (EVar "l2_bbbb"); (EVar "t2_bbbb"); (EVar "t2_bbbb")]));
   (*L791*) SAug true "double_res" (EAdd (EScale (1 # 1) (EVar "contracted_intermediate")) (EScale (-1 # 1) (EEins "abij->abji" [(EVar "contracted_intermediate")])));
   (*L794*) SAug true "double_res" (EScale (-1 # 1) (EEins "dmle,lkdc,ecij,abkm->abij" [(ESlice (EVar "g_abab") [SV "v"; SV "o"; SV "o"; SV "v"]); (EVar "l2_abab"); (EVar "t2_bbbb"); (EVar "t2_bbbb")]));
   (*L797*) SAug true "double_res" (EScale (1 # 1) (EEins "mdel,kldc,ecij,abkm->abij" [(ESlice (EVar "g_bbbb") [SV "o"; SV "v"; SV "v"; SV "o"]); (EVar "l2_bbbb"); (EVar "t2_bbbb"); (EVar "t2_bbbb")]));
   (*L800*) SAssign "contracted_intermediate" (EScale (-1 # 1) (EEins "mdel,kldc,eakj,cbmi->abij" [(ESlice (EVar "g_aaaa") [SV "o"; SV "v"; SV "v"; SV "o"]); (EVar "l2_aaaa"); (EVar "t2_abab"); (EVar "t2_abab")]));
   (*L801*) SAug true "double_res" (EAdd (EAdd (EAdd (EScale (1 # 1) (EVar "contracted_intermediate")) (EScale (-1 # 1) (EEins "abij->abji" [(EVar "contracted_intermediate")]))) (EScale (-1 # 1) (EEins "abij->baij" [(EVar "contracted_intermediate")]))) (EScale (1 # 1) (EEins "abij->baji" [(EVar "contracted_intermediate")])));
   (*L804*) SAssign "contracted_intermediate" (EScale (-1 # 1) (EEins "dmel,kldc,eakj,cbim->abij" [(ESlice (EVar "g_abab") [SV "v"; SV "o"; SV "v"; SV "o"]); (EVar "l2_abab"); (EVar "t2_abab"); (EVar "t2_bbbb")]));
   (*L805*) SAug true "double_res" (EAdd (EAdd (EAdd (EScale (1 # 1) (EVar "contracted_intermediate")) (EScale (-1 # 1) (EEins "abij->abji" [(EVar "contracted_intermediate")]))) (EScale (-1 # 1) (EEins "abij->baij" [(EVar "contracted_intermediate")]))) (EScale (1 # 1) (EEins "abij->baji" [(EVar "contracted_intermediate")])));
   (*L808*) SAssign "contracted_intermediate" (EScale (1 # 1) (EEins "mdel,klcd,eakj,cbmi->abij" [(ESlice (EVar "g_abab") [SV "o"; SV "v"; SV "v"; SV "o"]); (EVar "l2_abab"); (EVar "t2_abab"); (EVar "t2_abab")]));
   (*L809*) SAug true "double_res" (EAdd (EAdd (EAdd (EScale (1 # 1) (EVar "contracted_intermediate")) (EScale (-1 # 1) (EEins "abij->abji" [(EVar "contracted_intermediate")]))) (EScale (-1 # 1) (EEins "abij->baij" [(EVar "contracted_intermediate")]))) (EScale (1 # 1) (EEins "abij->baji" [(EVar "contracted_intermediate")])));
   (*L812*) SAssign "contracted_intermediate" (EScale (1 # 1) (EEins "dmle,lkdc,eajk,cbim->abij" [(ESlice (EVar "g_abab") [SV "v"; SV "o"; SV "o"; SV "v"]); (EVar "l2_abab"); (EVar "t2_bbbb"); (EVar "t2_bbbb")]));
   (*L813*) SAug true "double_res" (EAdd (EAdd (EAdd (EScale (1 # 1) (EVar "contracted_intermediate")) (EScale (-1 # 1) (EEins "abij->abji" [(EVar "contracted_intermediate")]))) (EScale (-1 # 1) (EEins "abij->baij" [(EVar "contracted_intermediate")]))) (EScale (1 # 1) (EEins "abij->baji" [(EVar "contracted_intermediate")])));
   (*L816*) SAssign "contracted_intermediate" (EScale (-1 # 1) (EEins "mdle,lkcd,eajk,cbmi->abij" [(ESlice (EVar "g_abab") [SV "o"; SV "v"; SV "o"; SV "v"]); (EVar "l2_abab"); (EVar "t2_bbbb"); (EVar "t2_abab")]));
   (*L817*) SAug true "double_res" (EAdd (EAdd (EAdd (EScale (1 # 1) (EVar "contracted_intermediate")) (EScale (-1 # 1) (EEins "abij->abji" [(EVar "contracted_intermediate")]))) (EScale (-1 # 1) (EEins "abij->baij" [(EVar "contracted_intermediate")]))) (EScale (1 # 1) (EEins "abij->baji" [(EVar "contracted_intermediate")])));
   (*L820*) SAssign "contracted_intermediate" (EScale (-1 # 1) (EEins "mdel,kldc,eajk,cbim->abij" [(ESlice (EVar "g_bbbb") [SV "o"; SV "v"; SV "v"; SV "o"]); (EVar "l2_bbbb"); (EVar "t2_bbbb"); (EVar "t2_bbbb")]));
   (*L821*) SAug true "double_res" (EAdd (EAdd (EAdd (EScale (1 # 1) (EVar "contracted_intermediate")) (EScale (-1 # 1) (EEins "abij->abji" [(EVar "contracted_intermediate")]))) (EScale (-1 # 1) (EEins "abij->baij" [(EVar "contracted_intermediate")]))) (EScale (1 # 1) (EEins "abij->baji" [(EVar "contracted_intermediate")])));
   (*L824*) SAssign "contracted_intermediate" (EScale (-1 # 1) (EEins "dmle,kldc,eaij,cbkm->abij" [(ESlice (EVar "g_abab") [SV "v"; SV "o"; SV "o"; SV "v"]); (EVar "l2_aaaa"); (EVar "t2_bbbb"); (EVar "t2_abab")]));
   (*L825*) SAug true "double_res" (EAdd (EScale (1 # 1) (EVar "contracted_intermediate")) (EScale (-1 # 1) (EEins "abij->baij" [(EVar "contracted_intermediate")])));
   (*L828*) SAssign "contracted_intermediate" (EScale (1 # 1) (EEins "mdel,klcd,eaij,cbkm->abij" [(ESlice (EVar "g_bbbb") [SV "o"; SV "v"; SV "v"; SV "o"]); (EVar "l2_abab"); (EVar "t2_bbbb"); (EVar "t2_abab")]));
   (*L829*) SAug true "double_res" (EAdd (EScale (1 # 1) (EVar "contracted_intermediate")) (EScale (-1 # 1) (EEins "abij->baij" [(EVar "contracted_intermediate")])));
   (*L832*) SAssign "contracted_intermediate" (EScale (1 # 1) (EEins "dmle,lkdc,eaij,cbkm->abij" [(ESlice (EVar "g_abab") [SV "v"; SV "o"; SV "o"; SV "v"]); (EVar "l2_abab"); (EVar "t2_bbbb"); (EVar "t2_bbbb")]));
   (*L833*) SAug true "double_res" (EAdd (EScale (1 # 1) (EVar "contracted_intermediate")) (EScale (-1 # 1) (EEins "abij->baij" [(EVar "contracted_intermediate")])));
   (*L836*) SAssign "contracted_intermediate" (EScale (-1 # 1) (EEins "mdle,lkcd,eaij,cbmk->abij" [(ESlice (EVar "g_abab") [SV "o"; SV "v"; SV "o"; SV "v"]); (EVar "l2_abab"); (EVar "t2_bbbb"); (EVar "t2_abab")]));
   (*L837*) SAug true "double_res" (EAdd (EScale (1 # 1) (EVar "contracted_intermediate")) (EScale (-1 # 1) (EEins "abij->baij" [(EVar "contracted_intermediate")])));
   (*L840*) SAssign "contracted_intermediate" (EScale (-1 # 1) (EEins "mdel,kldc,eaij,cbkm->abij" [(ESlice (EVar "g_bbbb") [SV "o"; SV "v"; SV "v"; SV "o"]); (EVar "l2_bbbb"); (EVar "t2_bbbb"); (EVar "t2_bbbb")]));
   (*L841*) SAug true "double_res" (EAdd (EScale (1 # 1) (EVar "contracted_intermediate")) (EScale (-1 # 1) (EEins "abij->baij" [(EVar "contracted_intermediate")])));
   (*L844*) SAssign "contracted_intermediate" (EScale (-1 # 2) (EEins "dmej,kldc,eckl,abim->abij" [(ESlice (EVar "g_abab") [SV "v"; SV "o"; SV "v"; SV "o"]); (EVar "l2_aaaa"); (EVar "t2_aaaa"); (EVar "t2_bbbb")]));
   (*L845*) SAug true "double_res" (EAdd (EScale (1 # 1) (EVar "contracted_intermediate")) (EScale (-1 # 1) (EEins "abij->abji" [(EVar "contracted_intermediate")])));
   (*L848*) SAssign "contracted_intermediate" (EScale (-1 # 2) (EEins "dmej,kldc,eckl,abim->abij" [(ESlice (EVar "g_abab") [SV "v"; SV "o"; SV "v"; SV "o"]); (EVar "l2_abab"); (EVar "t2_abab"); (EVar "t2_bbbb")]));
   (*L849*) SAug true "double_res" (EAdd (EScale (1 # 1) (EVar "contracted_intermediate")) (EScale (-1 # 1) (EEins "abij->abji" [(EVar "contracted_intermediate")])));
   (*L852*) SAssign "contracted_intermediate" (EScale (1 # 2) (EEins "mdej,klcd,cekl,abim->abij" [(ESlice (EVar "g_bbbb") [SV "o"; SV "v"; SV "v"; SV "o"]); (EVar "l2_abab"); (EVar "t2_abab"); (EVar "t2_bbbb")]));
   (*L853*) SAug true "double_res" (EAdd (EScale (1 # 1) (EVar "contracted_intermediate")) (EScale (-1 # 1) (EEins "abij->abji" [(EVar "contracted_intermediate")])));
   (*L856*) SAssign "contracted_intermediate" (EScale (-1 # 2) (EEins "dmej,lkdc,eclk,abim->abij" [(ESlice (EVar "g_abab") [SV "v"; SV "o"; SV "v"; SV "o"]); (EVar "l2_abab"); (EVar "t2_abab"); (EVar "t2_bbbb")]));
   (*L857*) SAug true "double_res" (EAdd (EScale (1 # 1) (EVar "contracted_intermediate")) (EScale (-1 # 1) (EEins "abij->abji" [(EVar "contracted_intermediate")])));
   (*L860*) SAssign "contracted_intermediate" (EScale (1 # 2) (EEins "mdej,lkcd,celk,abim->abij" [(ESlice (EVar "g_bbbb") [SV "o"; SV "v"; SV "v"; SV "o"]); (EVar "l2_abab"); (EVar "t2_abab"); (EVar "t2_bbbb")]));
   (*L861*) SAug true "double_res" (EAdd (EScale (1 # 1) (EVar "contracted_intermediate")) (EScale (-1 # 1) (EEins "abij->abji" [(EVar "contracted_intermediate")])));
   (*L864*) SAssign "contracted_intermediate" (EScale (1 # 2) (EEins "mdej,kldc,eckl,abim->abij" [(ESlice (EVar "g_bbbb") [SV "o"; SV "v"; SV "v"; SV "o"]); (EVar "l2_bbbb"); (EVar "t2_bbbb"); (EVar "t2_bbbb")]));
   (*L865*) SAug true "double_res" (EAdd (EScale (1 # 1) (EVar "contracted_intermediate")) (EScale (-1 # 1) (EEins "abij->abji" [(EVar "contracted_intermediate")])));
   (*L868*) SAssign "contracted_intermediate" (EScale (1 # 1) (EEins "dmej,lkdc,ecli,abkm->abij" [(ESlice (EVar "g_abab") [SV "v"; SV "o"; SV "v"; SV "o"]); (EVar "l2_abab"); (EVar "t2_abab"); (EVar "t2_bbbb")]));
   (*L869*) SAug true "double_res" (EAdd (EScale (1 # 1) (EVar "contracted_intermediate")) (EScale (-1 # 1) (EEins "abij->abji" [(EVar "contracted_intermediate")])));
   (*L872*) SAssign "contracted_intermediate" (EScale (-1 # 1) (EEins "mdej,lkcd,celi,abkm->abij" [(ESlice (EVar "g_bbbb") [SV "o"; SV "v"; SV "v"; SV "o"]); (EVar "l2_abab"); (EVar "t2_abab"); (EVar "t2_bbbb")]));
   (*L873*) SAug true "double_res" (EAdd (EScale (1 # 1) (EVar "contracted_intermediate")) (EScale (-1 # 1) (EEins "abij->abji" [(EVar "contracted_intermediate")])));
   (*L876*) SAssign "contracted_intermediate" (EScale (-1 # 1) (EEins "mdej,kldc,ecil,abkm->abij" [(ESlice (EVar "g_bbbb") [SV "o"; SV "v"; SV "v"; SV "o"]); (EVar "l2_bbbb"); (EVar "t2_bbbb"); (EVar "t2_bbbb")]));
   (*L877*) SAug true "double_res" (EAdd (EScale (1 # 1) (EVar "contracted_intermediate")) (EScale (-1 # 1) (EEins "abij->abji" [(EVar "contracted_intermediate")])));
   (*L880*) SAssign "contracted_intermediate" (EScale (1 # 2) (EEins "dmej,kldc,eakl,cbim->abij" [(ESlice (EVar "g_abab") [SV "v"; SV "o"; SV "v"; SV "o"]); (EVar "l2_abab"); (EVar "t2_abab"); (EVar "t2_bbbb")]));
   (*L881*) SAug true "double_res" (EAdd (EAdd (EAdd (EScale (1 # 1) (EVar "contracted_intermediate")) (EScale (-1 # 1) (EEins "abij->abji" [(EVar "contracted_intermediate")]))) (EScale (-1 # 1) (EEins "abij->baij" [(EVar "contracted_intermediate")]))) (EScale (1 # 1) (EEins "abij->baji" [(EVar "contracted_intermediate")])));
   (*L884*) SAssign "contracted_intermediate" (EScale (-1 # 2) (EEins "mdej,klcd,eakl,cbmi->abij" [(ESlice (EVar "g_abab") [SV "o"; SV "v"; SV "v"; SV "o"]); (EVar "l2_abab"); (EVar "t2_abab"); (EVar "t2_abab")]));
   (*L885*) SAug true "double_res" (EAdd (EAdd (EAdd (EScale (1 # 1) (EVar "contracted_intermediate")) (EScale (-1 # 1) (EEins "abij->abji" [(EVar "contracted_intermediate")]))) (EScale (-1 # 1) (EEins "abij->baij" [(EVar "contracted_intermediate")]))) (EScale (1 # 1) (EEins "abij->baji" [(EVar "contracted_intermediate")])));
   (*L888*) SAssign "contracted_intermediate" (EScale (1 # 2) (EEins "dmej,lkdc,ealk,cbim->abij" [(ESlice (EVar "g_abab") [SV "v"; SV "o"; SV "v"; SV "o"]); (EVar "l2_abab"); (EVar "t2_abab"); (EVar "t2_bbbb")]));
   (*L889*) SAug true "double_res" (EAdd (EAdd (EAdd (EScale (1 # 1) (EVar "contracted_intermediate")) (EScale (-1 # 1) (EEins "abij->abji" [(EVar "contracted_intermediate")]))) (EScale (-1 # 1) (EEins "abij->baij" [(EVar "contracted_intermediate")]))) (EScale (1 # 1) (EEins "abij->baji" [(EVar "contracted_intermediate")])));
   (*L892*) SAssign "contracted_intermediate" (EScale (-1 # 2) (EEins "mdej,lkcd,ealk,cbmi->abij" [(ESlice (EVar "g_abab") [SV "o"; SV "v"; SV "v"; SV "o"]); (EVar "l2_abab"); (EVar "t2_abab"); (EVar "t2_abab")]));
   (*L893*) SAug true "double_res" (EAdd (EAdd (EAdd (EScale (1 # 1) (EVar "contracted_intermediate")) (EScale (-1 # 1) (EEins "abij->abji" [(EVar "contracted_intermediate")]))) (EScale (-1 # 1) (EEins "abij->baij" [(EVar "contracted_intermediate")]))) (EScale (1 # 1) (EEins "abij->baji" [(EVar "contracted_intermediate")])));
   (*L896*) SAssign "contracted_intermediate" (EScale (-1 # 2) (EEins "mdej,kldc,eakl,cbim->abij" [(ESlice (EVar "g_bbbb") [SV "o"; SV "v"; SV "v"; SV "o"]); (EVar "l2_bbbb"); (EVar "t2_bbbb"); (EVar "t2_bbbb")]));
   (*L897*) SAug true "double_res" (EAdd (EAdd (EAdd (EScale (1 # 1) (EVar "contracted_intermediate")) (EScale (-1 # 1) (EEins "abij->abji" [(EVar "contracted_intermediate")]))) (EScale (-1 # 1) (EEins "abij->baij" [(EVar "contracted_intermediate")]))) (EScale (1 # 1) (EEins "abij->baji" [(EVar "contracted_intermediate")])));
   (*L900*) SAssign "contracted_intermediate" (EScale (1 # 1) (EEins "dmej,kldc,eali,cbkm->abij" [(ESlice (EVar "g_abab") [SV "v"; SV "o"; SV "v"; SV "o"]); (EVar "l2_aaaa"); (EVar "t2_abab"); (EVar "t2_abab")]));
   (*L901*) SAug true "double_res" (EAdd (EAdd (EAdd (EScale (1 # 1) (EVar "contracted_intermediate")) (EScale (-1 # 1) (EEins "abij->abji" [(EVar "contracted_intermediate")]))) (EScale (-1 # 1) (EEins "abij->baij" [(EVar "contracted_intermediate")]))) (EScale (1 # 1) (EEins "abij->baji" [(EVar "contracted_intermediate")])));
   (*L904*) SAssign "contracted_intermediate" (EScale (-1 # 1) (EEins "mdej,klcd,eail,cbkm->abij" [(ESlice (EVar "g_bbbb") [SV "o"; SV "v"; SV "v"; SV "o"]); (EVar "l2_abab"); (EVar "t2_bbbb"); (EVar "t2_abab")]));
   (*L905*) SAug true "double_res" (EAdd (EAdd (EAdd (EScale (1 # 1) (EVar "contracted_intermediate")) (EScale (-1 # 1) (EEins "abij->abji" [(EVar "contracted_intermediate")]))) (EScale (-1 # 1) (EEins "abij->baij" [(EVar "contracted_intermediate")]))) (EScale (1 # 1) (EEins "abij->baji" [(EVar "contracted_intermediate")])));
   (*L908*) SAssign "contracted_intermediate" (EScale (-1 # 1) (EEins "dmej,lkdc,eali,cbkm->abij" [(ESlice (EVar "g_abab") [SV "v"; SV "o"; SV "v"; SV "o"]); (EVar "l2_abab"); (EVar "t2_abab"); (EVar "t2_bbbb")]));
   (*L909*) SAug true "double_res" (EAdd (EAdd (EAdd (EScale (1 # 1) (EVar "contracted_intermediate")) (EScale (-1 # 1) (EEins "abij->abji" [(EVar "contracted_intermediate")]))) (EScale (-1 # 1) (EEins "abij->baij" [(EVar "contracted_intermediate")]))) (EScale (1 # 1) (EEins "abij->baji" [(EVar "contracted_intermediate")])));
   (*L912*) SAssign "contracted_intermediate" (EScale (1 # 1) (EEins "mdej,lkcd,eali,cbmk->abij" [(ESlice (EVar "g_abab") [SV "o"; SV "v"; SV "v"; SV "o"]); (EVar "l2_abab"); (EVar "t2_abab"); (EVar "t2_abab")]));
   (*L913*) SAug true "double_res" (EAdd (EAdd (EAdd (EScale (1 # 1) (EVar "contracted_intermediate")) (EScale (-1 # 1) (EEins "abij->abji" [(EVar "contracted_intermediate")]))) (EScale (-1 # 1) (EEins "abij->baij" [(EVar "contracted_intermediate")]))) (EScale (1 # 1) (EEins "abij->baji" [(EVar "contracted_intermediate")])));
   (*L916*) SAssign "contracted_intermediate" (EScale (1 # 1) (EEins "mdej,kldc,eail,cbkm->abij" [(ESlice (EVar "g_bbbb") [SV "o"; SV "v"; SV "v"; SV "o"]); (EVar "l2_bbbb"); (EVar "t2_bbbb"); (EVar "t2_bbbb")]));
   (*L917*) SAug true "double_res" (EAdd (EAdd (EAdd (EScale (1 # 1) (EVar "contracted_intermediate")) (EScale (-1 # 1) (EEins "abij->abji" [(EVar "contracted_intermediate")]))) (EScale (-1 # 1) (EEins "abij->baij" [(EVar "contracted_intermediate")]))) (EScale (1 # 1) (EEins "abij->baji" [(EVar "contracted_intermediate")])));
   (*L920*) SAssign "contracted_intermediate" (EScale (1 # 1) (EEins "male,kldc,dekj,cbmi->abij" [(ESlice (EVar "g_abab") [SV "o"; SV "v"; SV "o"; SV "v"]); (EVar "l2_aaaa"); (EVar "t2_abab"); (EVar "t2_abab")]));
   (*L921*) SAug true "double_res" (EAdd (EAdd (EAdd (EScale (1 # 1) (EVar "contracted_intermediate")) (EScale (-1 # 1) (EEins "abij->abji" [(EVar "contracted_intermediate")]))) (EScale (-1 # 1) (EEins "abij->baij" [(EVar "contracted_intermediate")]))) (EScale (1 # 1) (EEins "abij->baji" [(EVar "contracted_intermediate")])));
   (*L924*) SAssign "contracted_intermediate" (EScale (1 # 1) (EEins "mael,kldc,dekj,cbim->abij" [(ESlice (EVar "g_bbbb") [SV "o"; SV "v"; SV "v"; SV "o"]); (EVar "l2_abab"); (EVar "t2_abab"); (EVar "t2_bbbb")]));
   (*L925*) SAug true "double_res" (EAdd (EAdd (EAdd (EScale (1 # 1) (EVar "contracted_intermediate")) (EScale (-1 # 1) (EEins "abij->abji" [(EVar "contracted_intermediate")]))) (EScale (-1 # 1) (EEins "abij->baij" [(EVar "contracted_intermediate")]))) (EScale (1 # 1) (EEins "abij->baji" [(EVar "contracted_intermediate")])));
   (*L928*) SAssign "contracted_intermediate" (EScale (-1 # 1) (EEins "mael,klcd,edkj,cbmi->abij" [(ESlice (EVar "g_abab") [SV "o"; SV "v"; SV "v"; SV "o"]); (EVar "l2_abab"); (EVar "t2_abab"); (EVar "t2_abab")]));
   (*L929*) SAug true "double_res" (EAdd (EAdd (EAdd (EScale (1 # 1) (EVar "contracted_intermediate")) (EScale (-1 # 1) (EEins "abij->abji" [(EVar "contracted_intermediate")]))) (EScale (-1 # 1) (EEins "abij->baij" [(EVar "contracted_intermediate")]))) (EScale (1 # 1) (EEins "abij->baji" [(EVar "contracted_intermediate")])));
   (*L932*) SAssign "contracted_intermediate" (EScale (1 # 1) (EEins "male,lkcd,edjk,cbmi->abij" [(ESlice (EVar "g_abab") [SV "o"; SV "v"; SV "o"; SV "v"]); (EVar "l2_abab"); (EVar "t2_bbbb"); (EVar "t2_abab")]));
   (*L933*) SAug true "double_res" (EAdd (EAdd (EAdd (EScale (1 # 1) (EVar "contracted_intermediate")) (EScale (-1 # 1) (EEins "abij->abji" [(EVar "contracted_intermediate")]))) (EScale (-1 # 1) (EEins "abij->baij" [(EVar "contracted_intermediate")]))) (EScale (1 # 1) (EEins "abij->baji" [(EVar "contracted_intermediate")])));
   (*L936*) SAssign "contracted_intermediate" (EScale (1 # 1) (EEins "mael,kldc,edjk,cbim->abij" [(ESlice (EVar "g_bbbb") [SV "o"; SV "v"; SV "v"; SV "o"]); (EVar "l2_bbbb"); (EVar "t2_bbbb"); (EVar "t2_bbbb")]));
   (*L937*) SAug true "double_res" (EAdd (EAdd (EAdd (EScale (1 # 1) (EVar "contracted_intermediate")) (EScale (-1 # 1) (EEins "abij->abji" [(EVar "contracted_intermediate")]))) (EScale (-1 # 1) (EEins "abij->baij" [(EVar "contracted_intermediate")]))) (EScale (1 # 1) (EEins "abij->baji" [(EVar "contracted_intermediate")])));
   (*L940*) SAssign "contracted_intermediate" (EScale (-1 # 1) (EEins "mael,klcd,edij,cbkm->abij" [(ESlice (EVar "g_bbbb") [SV "o"; SV "v"; SV "v"; SV "o"]); (EVar "l2_abab"); (EVar "t2_bbbb"); (EVar "t2_abab")]));
   (*L941*) SAug true "double_res" (EAdd (EScale (1 # 1) (EVar "contracted_intermediate")) (EScale (-1 # 1) (EEins "abij->baij" [(EVar "contracted_intermediate")])));
   (*L944*) SAssign "contracted_intermediate" (EScale (1 # 1) (EEins "male,lkcd,edij,cbmk->abij" [(ESlice (EVar "g_abab") [SV "o"; SV "v"; SV "o"; SV "v"]); (EVar "l2_abab"); (EVar "t2_bbbb"); (EVar "t2_abab")]));
   (*L945*) SAug true "double_res" (EAdd (EScale (1 # 1) (EVar "contracted_intermediate")) (EScale (-1 # 1) (EEins "abij->baij" [(EVar "contracted_intermediate")])));
   (*L948*) SAssign "contracted_intermediate" (EScale (1 # 1) (EEins "mael,kldc,edij,cbkm->abij" [(ESlice (EVar "g_bbbb") [SV "o"; SV "v"; SV "v"; SV "o"]); (EVar "l2_bbbb"); (EVar "t2_bbbb"); (EVar "t2_bbbb")]));
   (*L949*) SAug true "double_res" (EAdd (EScale (1 # 1) (EVar "contracted_intermediate")) (EScale (-1 # 1) (EEins "abij->baij" [(EVar "contracted_intermediate")])));
   (*L952*) SAssign "contracted_intermediate" (EScale (1 # 2) (EEins "mael,kldc,ebkj,dcmi->abij" [(ESlice (EVar "g_abab") [SV "o"; SV "v"; SV "v"; SV "o"]); (EVar "l2_abab"); (EVar "t2_abab"); (EVar "t2_abab")]));
   (*L953*) SAug true "double_res" (EAdd (EAdd (EAdd (EScale (1 # 1) (EVar "contracted_intermediate")) (EScale (-1 # 1) (EEins "abij->abji" [(EVar "contracted_intermediate")]))) (EScale (-1 # 1) (EEins "abij->baij" [(EVar "contracted_intermediate")]))) (EScale (1 # 1) (EEins "abij->baji" [(EVar "contracted_intermediate")])));
   (*L956*) SAssign "contracted_intermediate" (EScale (1 # 2) (EEins "mael,klcd,ebkj,cdmi->abij" [(ESlice (EVar "g_abab") [SV "o"; SV "v"; SV "v"; SV "o"]); (EVar "l2_abab"); (EVar "t2_abab"); (EVar "t2_abab")]));
   (*L957*) SAug true "double_res" (EAdd (EAdd (EAdd (EScale (1 # 1) (EVar "contracted_intermediate")) (EScale (-1 # 1) (EEins "abij->abji" [(EVar "contracted_intermediate")]))) (EScale (-1 # 1) (EEins "abij->baij" [(EVar "contracted_intermediate")]))) (EScale (1 # 1) (EEins "abij->baji" [(EVar "contracted_intermediate")])));
   (*L960*) SAssign "contracted_intermediate" (EScale (-1 # 2) (EEins "male,lkdc,ebjk,dcmi->abij" [(ESlice (EVar "g_abab") [SV "o"; SV "v"; SV "o"; SV "v"]); (EVar "l2_abab"); (EVar "t2_bbbb"); (EVar "t2_abab")]));
   (*L961*) SAug true "double_res" (EAdd (EAdd (EAdd (EScale (1 # 1) (EVar "contracted_intermediate")) (EScale (-1 # 1) (EEins "abij->abji" [(EVar "contracted_intermediate")]))) (EScale (-1 # 1) (EEins "abij->baij" [(EVar "contracted_intermediate")]))) (EScale (1 # 1) (EEins "abij->baji" [(EVar "contracted_intermediate")])));
   (*L964*) SAssign "contracted_intermediate" (EScale (-1 # 2) (EEins "male,lkcd,ebjk,cdmi->abij" [(ESlice (EVar "g_abab") [SV "o"; SV "v"; SV "o"; SV "v"]); (EVar "l2_abab"); (EVar "t2_bbbb"); (EVar "t2_abab")]));
   (*L965*) SAug true "double_res" (EAdd (EAdd (EAdd (EScale (1 # 1) (EVar "contracted_intermediate")) (EScale (-1 # 1) (EEins "abij->abji" [(EVar "contracted_intermediate")]))) (EScale (-1 # 1) (EEins "abij->baij" [(EVar "contracted_intermediate")]))) (EScale (1 # 1) (EEins "abij->baji" [(EVar "contracted_intermediate")])));
   (*L968*) SAssign "contracted_intermediate" (EScale (1 # 2) (EEins "mael,kldc,ebjk,dcim->abij" [(ESlice (EVar "g_bbbb") [SV "o"; SV "v"; SV "v"; SV "o"]); (EVar "l2_bbbb"); (EVar "t2_bbbb"); (EVar "t2_bbbb")]));
   (*L969*) SAug true "double_res" (EAdd (EAdd (EAdd (EScale (1 # 1) (EVar "contracted_intermediate")) (EScale (-1 # 1) (EEins "abij->abji" [(EVar "contracted_intermediate")]))) (EScale (-1 # 1) (EEins "abij->baij" [(EVar "contracted_intermediate")]))) (EScale (1 # 1) (EEins "abij->baji" [(EVar "contracted_intermediate")])));
   (*L972*) SAssign "contracted_intermediate" (EScale (-1 # 2) (EEins "male,kldc,ebij,dckm->abij" [(ESlice (EVar "g_abab") [SV "o"; SV "v"; SV "o"; SV "v"]); (EVar "l2_aaaa"); (EVar "t2_bbbb"); (EVar "t2_aaaa")]));
   (*L973*) SAug true "double_res" (EAdd (EScale (1 # 1) (EVar "contracted_intermediate")) (EScale (-1 # 1) (EEins "abij->baij" [(EVar "contracted_intermediate")])));
   (*L976*) SAssign "contracted_intermediate" (EScale (1 # 2) (EEins "mael,kldc,ebij,dckm->abij" [(ESlice (EVar "g_bbbb") [SV "o"; SV "v"; SV "v"; SV "o"]); (EVar "l2_abab"); (EVar "t2_bbbb"); (EVar "t2_abab")]));
   (*L977*) SAug true "double_res" (EAdd (EScale (1 # 1) (EVar "contracted_intermediate")) (EScale (-1 # 1) (EEins "abij->baij" [(EVar "contracted_intermediate")])));
   (*L980*) SAssign "contracted_intermediate" (EScale (1 # 2) (EEins "mael,klcd,ebij,cdkm->abij" [(ESlice (EVar "g_bbbb") [SV "o"; SV "v"; SV "v"; SV "o"]); (EVar "l2_abab"); (EVar "t2_bbbb"); (EVar "t2_abab")]));
   (*L981*) SAug true "double_res" (EAdd (EScale (1 # 1) (EVar "contracted_intermediate")) (EScale (-1 # 1) (EEins "abij->baij" [(EVar "contracted_intermediate")])));
   (*L984*) SAssign "contracted_intermediate" (EScale (-1 # 2) (EEins "male,lkdc,ebij,dcmk->abij" [(ESlice (EVar "g_abab") [SV "o"; SV "v"; SV "o"; SV "v"]); (EVar "l2_abab"); (EVar "t2_bbbb"); (EVar "t2_abab")]));
   (*L985*) SAug true "double_res" (EAdd (EScale (1 # 1) (EVar "contracted_intermediate")) (EScale (-1 # 1) (EEins "abij->baij" [(EVar "contracted_intermediate")])));
   (*L988*) SAssign "contracted_intermediate" (EScale (-1 # 2) (EEins "male,lkcd,ebij,cdmk->abij" [(ESlice (EVar "g_abab") [SV "o"; SV "v"; SV "o"; SV "v"]); (EVar "l2_abab"); (EVar "t2_bbbb"); (EVar "t2_abab")]));
   (*L989*) SAug true "double_res" (EAdd (EScale (1 # 1) (EVar "contracted_intermediate")) (EScale (-1 # 1) (EEins "abij->baij" [(EVar "contracted_intermediate")])));
   (*L992*) SAssign "contracted_intermediate" (EScale (1 # 2) (EEins "mael,kldc,ebij,dckm->abij" [(ESlice (EVar "g_bbbb") [SV "o"; SV "v"; SV "v"; SV "o"]); (EVar "l2_bbbb"); (EVar "t2_bbbb"); (EVar "t2_bbbb")]));
   (*L993*) SAug true "double_res" (EAdd (EScale (1 # 1) (EVar "contracted_intermediate")) (EScale (-1 # 1) (EEins "abij->baij" [(EVar "contracted_intermediate")])));
   (*L996*) SAssign "contracted_intermediate" (EScale (-1 # 2) (EEins "maej,kldc,edkl,cbmi->abij" [(ESlice (EVar "g_abab") [SV "o"; SV "v"; SV "v"; SV "o"]); (EVar "l2_aaaa"); (EVar "t2_aaaa"); (EVar "t2_abab")]));
   (*L997*) SAug true "double_res" (EAdd (EAdd (EAdd (EScale (1 # 1) (EVar "contracted_intermediate")) (EScale (-1 # 1) (EEins "abij->abji" [(EVar "contracted_intermediate")]))) (EScale (-1 # 1) (EEins "abij->baij" [(EVar "contracted_intermediate")]))) (EScale (1 # 1) (EEins "abij->baji" [(EVar "contracted_intermediate")])));
   (*L1000*) SAssign "contracted_intermediate" (EScale (-1 # 2) (EEins "maej,kldc,dekl,cbim->abij" [(ESlice (EVar "g_bbbb") [SV "o"; SV "v"; SV "v"; SV "o"]); (EVar "l2_abab"); (EVar "t2_abab"); (EVar "t2_bbbb")]));
   (*L1001*) SAug true "double_res" (EAdd (EAdd (EAdd (EScale (1 # 1) (EVar "contracted_intermediate")) (EScale (-1 # 1) (EEins "abij->abji" [(EVar "contracted_intermediate")]))) (EScale (-1 # 1) (EEins "abij->baij" [(EVar "contracted_intermediate")]))) (EScale (1 # 1) (EEins "abij->baji" [(EVar "contracted_intermediate")])));
   (*L1004*) SAssign "contracted_intermediate" (EScale (1 # 2) (EEins "maej,klcd,edkl,cbmi->abij" [(ESlice (EVar "g_abab") [SV "o"; SV "v"; SV "v"; SV "o"]); (EVar "l2_abab"); (EVar "t2_abab"); (EVar "t2_abab")]));
   (*L1005*) SAug true "double_res" (EAdd (EAdd (EAdd (EScale (1 # 1) (EVar "contracted_intermediate")) (EScale (-1 # 1) (EEins "abij->abji" [(EVar "contracted_intermediate")]))) (EScale (-1 # 1) (EEins "abij->baij" [(EVar "contracted_intermediate")]))) (EScale (1 # 1) (EEins "abij->baji" [(EVar "contracted_intermediate")])));
   (*L1008*) SAssign "contracted_intermediate" (EScale (-1 # 2) (EEins "maej,lkdc,delk,cbim->abij" [(ESlice (EVar "g_bbbb") [SV "o"; SV "v"; SV "v"; SV "o"]); (EVar "l2_abab"); (EVar "t2_abab"); (EVar "t2_bbbb")]));
   (*L1009*) SAug true "double_res" (EAdd (EAdd (EAdd (EScale (1 # 1) (EVar "contracted_intermediate")) (EScale (-1 # 1) (EEins "abij->abji" [(EVar "contracted_intermediate")]))) (EScale (-1 # 1) (EEins "abij->baij" [(EVar "contracted_intermediate")]))) (EScale (1 # 1) (EEins "abij->baji" [(EVar "contracted_intermediate")])));
   (*L1012*) SAssign "contracted_intermediate" (EScale (1 # 2) (EEins "maej,lkcd,edlk,cbmi->abij" [(ESlice (EVar "g_abab") [SV "o"; SV "v"; SV "v"; SV "o"]); (EVar "l2_abab"); (EVar "t2_abab"); (EVar "t2_abab")]));
   (*L1013*) SAug true "double_res" (EAdd (EAdd (EAdd (EScale (1 # 1) (EVar "contracted_intermediate")) (EScale (-1 # 1) (EEins "abij->abji" [(EVar "contracted_intermediate")]))) (EScale (-1 # 1) (EEins "abij->baij" [(EVar "contracted_intermediate")]))) (EScale (1 # 1) (EEins "abij->baji" [(EVar "contracted_intermediate")])));
   (*L1016*) SAssign "contracted_intermediate" (EScale (1 # 2) (EEins "maej,kldc,edkl,cbim->abij" [(ESlice (EVar "g_bbbb") [SV "o"; SV "v"; SV "v"; SV "o"]); (EVar "l2_bbbb"); (EVar "t2_bbbb"); (EVar "t2_bbbb")]));
   (*L1017*) SAug true "double_res" (EAdd (EAdd (EAdd (EScale (1 # 1) (EVar "contracted_intermediate")) (EScale (-1 # 1) (EEins "abij->abji" [(EVar "contracted_intermediate")]))) (EScale (-1 # 1) (EEins "abij->baij" [(EVar "contracted_intermediate")]))) (EScale (1 # 1) (EEins "abij->baji" [(EVar "contracted_intermediate")])));
   (*L1020*) SAssign "contracted_intermediate" (EScale (-1 # 1) (EEins "maej,kldc,deli,cbkm->abij" [(ESlice (EVar "g_bbbb") [SV "o"; SV "v"; SV "v"; SV "o"]); (EVar "l2_aaaa"); (EVar "t2_abab"); (EVar "t2_abab")]));
   (*L1021*) SAug true "double_res" (EAdd (EAdd (EAdd (EScale (1 # 1) (EVar "contracted_intermediate")) (EScale (-1 # 1) (EEins "abij->abji" [(EVar "contracted_intermediate")]))) (EScale (-1 # 1) (EEins "abij->baij" [(EVar "contracted_intermediate")]))) (EScale (1 # 1) (EEins "abij->baji" [(EVar "contracted_intermediate")])));
   (*L1024*) SAssign "contracted_intermediate" (EScale (1 # 1) (EEins "maej,klcd,edil,cbkm->abij" [(ESlice (EVar "g_bbbb") [SV "o"; SV "v"; SV "v"; SV "o"]); (EVar "l2_abab"); (EVar "t2_bbbb"); (EVar "t2_abab")]));
   (*L1025*) SAug true "double_res" (EAdd (EAdd (EAdd (EScale (1 # 1) (EVar "contracted_intermediate")) (EScale (-1 # 1) (EEins "abij->abji" [(EVar "contracted_intermediate")]))) (EScale (-1 # 1) (EEins "abij->baij" [(EVar "contracted_intermediate")]))) (EScale (1 # 1) (EEins "abij->baji" [(EVar "contracted_intermediate")])));
   (*L1028*) SAssign "contracted_intermediate" (EScale (1 # 1) (EEins "maej,lkdc,deli,cbkm->abij" [(ESlice (EVar "g_bbbb") [SV "o"; SV "v"; SV "v"; SV "o"]); (EVar "l2_abab"); (EVar "t2_abab"); (EVar "t2_bbbb")]));
   (*L1029*) SAug true "double_res" (EAdd (EAdd (EAdd (EScale (1 # 1) (EVar "contracted_intermediate")) (EScale (-1 # 1) (EEins "abij->abji" [(EVar "contracted_intermediate")]))) (EScale (-1 # 1) (EEins "abij->baij" [(EVar "contracted_intermediate")]))) (EScale (1 # 1) (EEins "abij->baji" [(EVar "contracted_intermediate")])));
   (*L1032*) SAssign "contracted_intermediate" (EScale (-1 # 1) (EEins "maej,lkcd,edli,cbmk->abij" [(ESlice (EVar "g_abab") [SV "o"; SV "v"; SV "v"; SV "o"]); (EVar "l2_abab"); (EVar "t2_abab"); (EVar "t2_abab")]));
   (*L1033*) SAug true "double_res" (EAdd (EAdd (EAdd (EScale (1 # 1) (EVar "contracted_intermediate")) (EScale (-1 # 1) (EEins "abij->abji" [(EVar "contracted_intermediate")]))) (EScale (-1 # 1) (EEins "abij->baij" [(EVar "contracted_intermediate")]))) (EScale (1 # 1) (EEins "abij->baji" [(EVar "contracted_intermediate")])));
   (*L1036*) SAssign "contracted_intermediate" (EScale (-1 # 1) (EEins "maej,kldc,edil,cbkm->abij" [(ESlice (EVar "g_bbbb") [SV "o"; SV "v"; SV "v"; SV "o"]); (EVar "l2_bbbb"); (EVar "t2_bbbb"); (EVar "t2_bbbb")]));
   (*L1037*) SAug true "double_res" (EAdd (EAdd (EAdd (EScale (1 # 1) (EVar "contracted_intermediate")) (EScale (-1 # 1) (EEins "abij->abji" [(EVar "contracted_intermediate")]))) (EScale (-1 # 1) (EEins "abij->baij" [(EVar "contracted_intermediate")]))) (EScale (1 # 1) (EEins "abij->baji" [(EVar "contracted_intermediate")])));
   (*L1040*) SAssign "contracted_intermediate" (EScale (-1 # 4) (EEins "maej,kldc,ebkl,dcmi->abij" [(ESlice (EVar "g_abab") [SV "o"; SV "v"; SV "v"; SV "o"]); (EVar "l2_abab"); (EVar "t2_abab"); (EVar "t2_abab")]));
   (*L1041*) SAug true "double_res" (EAdd (EAdd (EAdd (EScale (1 # 1) (EVar "contracted_intermediate")) (EScale (-1 # 1) (EEins "abij->abji" [(EVar "contracted_intermediate")]))) (EScale (-1 # 1) (EEins "abij->baij" [(EVar "contracted_intermediate")]))) (EScale (1 # 1) (EEins "abij->baji" [(EVar "contracted_intermediate")])));
   (*L1044*) SAssign "contracted_intermediate" (EScale (-1 # 4) (EEins "maej,klcd,ebkl,cdmi->abij" [(ESlice (EVar "g_abab") [SV "o"; SV "v"; SV "v"; SV "o"]); (EVar "l2_abab"); (EVar "t2_abab"); (EVar "t2_abab")]));
   (*L1045*) SAug true "double_res" (EAdd (EAdd (EAdd (EScale (1 # 1) (EVar "contracted_intermediate")) (EScale (-1 # 1) (EEins "abij->abji" [(EVar "contracted_intermediate")]))) (EScale (-1 # 1) (EEins "abij->baij" [(EVar "contracted_intermediate")]))) (EScale (1 # 1) (EEins "abij->baji" [(EVar "contracted_intermediate")])));
   (*L1048*) SAssign "contracted_intermediate" (EScale (-1 # 4) (EEins "maej,lkdc,eblk,dcmi->abij" [(ESlice (EVar "g_abab") [SV "o"; SV "v"; SV "v"; SV "o"]); (EVar "l2_abab"); (EVar "t2_abab"); (EVar "t2_abab")]));
   (*L1049*) SAug true "double_res" (EAdd (EAdd (EAdd (EScale (1 # 1) (EVar "contracted_intermediate")) (EScale (-1 # 1) (EEins "abij->abji" [(EVar "contracted_intermediate")]))) (EScale (-1 # 1) (EEins "abij->baij" [(EVar "contracted_intermediate")]))) (EScale (1 # 1) (EEins "abij->baji" [(EVar "contracted_intermediate")])));
   (*L1052*) SAssign "contracted_intermediate" (EScale (-1 # 4) (EEins "maej,lkcd,eblk,cdmi->abij" [(ESlice (EVar "g_abab") [SV "o"; SV "v"; SV "v"; SV "o"]); (EVar "l2_abab"); (EVar "t2_abab"); (EVar "t2_abab")]));
   (*L1053*) SAug true "double_res" (EAdd (EAdd (EAdd (EScale (1 # 1) (EVar "contracted_intermediate")) (EScale (-1 # 1) (EEins "abij->abji" [(EVar "contracted_intermediate")]))) (EScale (-1 # 1) (EEins "abij->baij" [(EVar "contracted_intermediate")]))) (EScale (1 # 1) (EEins "abij->baji" [(EVar "contracted_intermediate")])));
   (*L1056*) SAssign "contracted_intermediate" (EScale (1 # 4) (EEins "maej,kldc,ebkl,dcim->abij" [(ESlice (EVar "g_bbbb") [SV "o"; SV "v"; SV "v"; SV "o"]); (EVar "l2_bbbb"); (EVar "t2_bbbb"); (EVar "t2_bbbb")]));
   (*L1057*) SAug true "double_res" (EAdd (EAdd (EAdd (EScale (1 # 1) (EVar "contracted_intermediate")) (EScale (-1 # 1) (EEins "abij->abji" [(EVar "contracted_intermediate")]))) (EScale (-1 # 1) (EEins "abij->baij" [(EVar "contracted_intermediate")]))) (EScale (1 # 1) (EEins "abij->baji" [(EVar "contracted_intermediate")])));
   (*L1060*) SAssign "contracted_intermediate" (EScale (1 # 2) (EEins "maej,kldc,ebli,dckm->abij" [(ESlice (EVar "g_abab") [SV "o"; SV "v"; SV "v"; SV "o"]); (EVar "l2_aaaa"); (EVar "t2_abab"); (EVar "t2_aaaa")]));
   (*L1061*) SAug true "double_res" (EAdd (EAdd (EAdd (EScale (1 # 1) (EVar "contracted_intermediate")) (EScale (-1 # 1) (EEins "abij->abji" [(EVar "contracted_intermediate")]))) (EScale (-1 # 1) (EEins "abij->baij" [(EVar "contracted_intermediate")]))) (EScale (1 # 1) (EEins "abij->baji" [(EVar "contracted_intermediate")])));
   (*L1064*) SAssign "contracted_intermediate" (EScale (-1 # 2) (EEins "maej,kldc,ebil,dckm->abij" [(ESlice (EVar "g_bbbb") [SV "o"; SV "v"; SV "v"; SV "o"]); (EVar "l2_abab"); (EVar "t2_bbbb"); (EVar "t2_abab")]));
   (*L1065*) SAug true "double_res" (EAdd (EAdd (EAdd (EScale (1 # 1) (EVar "contracted_intermediate")) (EScale (-1 # 1) (EEins "abij->abji" [(EVar "contracted_intermediate")]))) (EScale (-1 # 1) (EEins "abij->baij" [(EVar "contracted_intermediate")]))) (EScale (1 # 1) (EEins "abij->baji" [(EVar "contracted_intermediate")])));
   (*L1068*) SAssign "contracted_intermediate" (EScale (-1 # 2) (EEins "maej,klcd,ebil,cdkm->abij" [(ESlice (EVar "g_bbbb") [SV "o"; SV "v"; SV "v"; SV "o"]); (EVar "l2_abab"); (EVar "t2_bbbb"); (EVar "t2_abab")]));
   (*L1069*) SAug true "double_res" (EAdd (EAdd (EAdd (EScale (1 # 1) (EVar "contracted_intermediate")) (EScale (-1 # 1) (EEins "abij->abji" [(EVar "contracted_intermediate")]))) (EScale (-1 # 1) (EEins "abij->baij" [(EVar "contracted_intermediate")]))) (EScale (1 # 1) (EEins "abij->baji" [(EVar "contracted_intermediate")])));
   (*L1072*) SAssign "contracted_intermediate" (EScale (1 # 2) (EEins "maej,lkdc,ebli,dcmk->abij" [(ESlice (EVar "g_abab") [SV "o"; SV "v"; SV "v"; SV "o"]); (EVar "l2_abab"); (EVar "t2_abab"); (EVar "t2_abab")]));
   (*L1073*) SAug true "double_res" (EAdd (EAdd (EAdd (EScale (1 # 1) (EVar "contracted_intermediate")) (EScale (-1 # 1) (EEins "abij->abji" [(EVar "contracted_intermediate")]))) (EScale (-1 # 1) (EEins "abij->baij" [(EVar "contracted_intermediate")]))) (EScale (1 # 1) (EEins "abij->baji" [(EVar "contracted_intermediate")])));
   (*L1076*) SAssign "contracted_intermediate" (EScale (1 # 2) (EEins "maej,lkcd,ebli,cdmk->abij" [(ESlice (EVar "g_abab") [SV "o"; SV "v"; SV "v"; SV "o"]); (EVar "l2_abab"); (EVar "t2_abab"); (EVar "t2_abab")]));
   (*L1077*) SAug true "double_res" (EAdd (EAdd (EAdd (EScale (1 # 1) (EVar "contracted_intermediate")) (EScale (-1 # 1) (EEins "abij->abji" [(EVar "contracted_intermediate")]))) (EScale (-1 # 1) (EEins "abij->baij" [(EVar "contracted_intermediate")]))) (EScale (1 # 1) (EEins "abij->baji" [(EVar "contracted_intermediate")])));
   (*L1080*) SAssign "contracted_intermediate" (EScale (-1 # 2) (EEins "maej,kldc,ebil,dckm->abij" [(ESlice (EVar "g_bbbb") [SV "o"; SV "v"; SV "v"; SV "o"]); (EVar "l2_bbbb"); (EVar "t2_bbbb"); (EVar "t2_bbbb")]));
   (*L1081*) SAug true "double_res" (EAdd (EAdd (EAdd (EScale (1 # 1) (EVar "contracted_intermediate")) (EScale (-1 # 1) (EEins "abij->abji" [(EVar "contracted_intermediate")]))) (EScale (-1 # 1) (EEins "abij->baij" [(EVar "contracted_intermediate")]))) (EScale (1 # 1) (EEins "abij->baji" [(EVar "contracted_intermediate")])));
   (*L1084*) SAug true "double_res" (EScale (-1 # 4) (EEins "dcef,kldc,eakl,fbij->abij" [(ESlice (EVar "g_abab") [SV "v"; SV "v"; SV "v"; SV "v"]); (EVar "l2_abab"); (EVar "t2_abab"); (EVar "t2_bbbb")]));
   (*L1087*) SAug true "double_res" (EScale (-1 # 4) (EEins "cdef,klcd,eakl,fbij->abij" [(ESlice (EVar "g_abab") [SV "v"; SV "v"; SV "v"; SV "v"]); (EVar "l2_abab"); (EVar "t2_abab"); (EVar "t2_bbbb")]));
   (*L1090*) SAug true "double_res" (EScale (-1 # 4) (EEins "dcef,lkdc,ealk,fbij->abij" [(ESlice (EVar "g_abab") [SV "v"; SV "v"; SV "v"; SV "v"]); (EVar "l2_abab"); (EVar "t2_abab"); (EVar "t2_bbbb")]));
   (*L1093*) SAug true "double_res" (EScale (-1 # 4) (EEins "cdef,lkcd,ealk,fbij->abij" [(ESlice (EVar "g_abab") [SV "v"; SV "v"; SV "v"; SV "v"]); (EVar "l2_abab"); (EVar "t2_abab"); (EVar "t2_bbbb")]));
   (*L1096*) SAug true "double_res" (EScale (-1 # 4) (EEins "dcef,kldc,eakl,fbij->abij" [(ESlice (EVar "g_bbbb") [SV "v"; SV "v"; SV "v"; SV "v"]); (EVar "l2_bbbb"); (EVar "t2_bbbb"); (EVar "t2_bbbb")]));
   (*L1099*) SAssign "contracted_intermediate" (EScale (1 # 2) (EEins "dcef,kldc,ealj,fbki->abij" [(ESlice (EVar "g_aaaa") [SV "v"; SV "v"; SV "v"; SV "v"]); (EVar "l2_aaaa"); (EVar "t2_abab"); (EVar "t2_abab")]));
   (*L1100*) SAug true "double_res" (EAdd (EScale (1 # 1) (EVar "contracted_intermediate")) (EScale (-1 # 1) (EEins "abij->abji" [(EVar "contracted_intermediate")])));
   (*L1103*) SAssign "contracted_intermediate" (EScale (1 # 2) (EEins "dcfe,kldc,eajl,fbki->abij" [(ESlice (EVar "g_abab") [SV "v"; SV "v"; SV "v"; SV "v"]); (EVar "l2_abab"); (EVar "t2_bbbb"); (EVar "t2_abab")]));
   (*L1104*) SAug true "double_res" (EAdd (EScale (1 # 1) (EVar "contracted_intermediate")) (EScale (-1 # 1) (EEins "abij->abji" [(EVar "contracted_intermediate")])));
   (*L1107*) SAssign "contracted_intermediate" (EScale (1 # 2) (EEins "cdfe,klcd,eajl,fbki->abij" [(ESlice (EVar "g_abab") [SV "v"; SV "v"; SV "v"; SV "v"]); (EVar "l2_abab"); (EVar "t2_bbbb"); (EVar "t2_abab")]));
   (*L1108*) SAug true "double_res" (EAdd (EScale (1 # 1) (EVar "contracted_intermediate")) (EScale (-1 # 1) (EEins "abij->abji" [(EVar "contracted_intermediate")])));
   (*L1111*) SAssign "contracted_intermediate" (EScale (1 # 2) (EEins "dcef,lkdc,ealj,fbik->abij" [(ESlice (EVar "g_abab") [SV "v"; SV "v"; SV "v"; SV "v"]); (EVar "l2_abab"); (EVar "t2_abab"); (EVar "t2_bbbb")]));
   (*L1112*) SAug true "double_res" (EAdd (EScale (1 # 1) (EVar "contracted_intermediate")) (EScale (-1 # 1) (EEins "abij->abji" [(EVar "contracted_intermediate")])));
   (*L1115*) SAssign "contracted_intermediate" (EScale (1 # 2) (EEins "cdef,lkcd,ealj,fbik->abij" [(ESlice (EVar "g_abab") [SV "v"; SV "v"; SV "v"; SV "v"]); (EVar "l2_abab"); (EVar "t2_abab"); (EVar "t2_bbbb")]));
   (*L1116*) SAug true "double_res" (EAdd (EScale (1 # 1) (EVar "contracted_intermediate")) (EScale (-1 # 1) (EEins "abij->abji" [(EVar "contracted_intermediate")])));
   (*L1119*) SAssign "contracted_intermediate" (EScale (1 # 2) (EEins "dcef,kldc,eajl,fbik->abij" [(ESlice (EVar "g_bbbb") [SV "v"; SV "v"; SV "v"; SV "v"]); (EVar "l2_bbbb"); (EVar "t2_bbbb"); (EVar "t2_bbbb")]));
   (*L1120*) SAug true "double_res" (EAdd (EScale (1 # 1) (EVar "contracted_intermediate")) (EScale (-1 # 1) (EEins "abij->abji" [(EVar "contracted_intermediate")])));
   (*L1123*) SAug true "double_res" (EScale (1 # 4) (EEins "dcfe,kldc,eaij,fbkl->abij" [(ESlice (EVar "g_abab") [SV "v"; SV "v"; SV "v"; SV "v"]); (EVar "l2_abab"); (EVar "t2_bbbb"); (EVar "t2_abab")]));
   (*L1126*) SAug true "double_res" (EScale (1 # 4) (EEins "cdfe,klcd,eaij,fbkl->abij" [(ESlice (EVar "g_abab") [SV "v"; SV "v"; SV "v"; SV "v"]); (EVar "l2_abab"); (EVar "t2_bbbb"); (EVar "t2_abab")]));
   (*L1129*) SAug true "double_res" (EScale (1 # 4) (EEins "dcfe,lkdc,eaij,fblk->abij" [(ESlice (EVar "g_abab") [SV "v"; SV "v"; SV "v"; SV "v"]); (EVar "l2_abab"); (EVar "t2_bbbb"); (EVar "t2_abab")]));
   (*L1132*) SAug true "double_res" (EScale (1 # 4) (EEins "cdfe,lkcd,eaij,fblk->abij" [(ESlice (EVar "g_abab") [SV "v"; SV "v"; SV "v"; SV "v"]); (EVar "l2_abab"); (EVar "t2_bbbb"); (EVar "t2_abab")]));
   (*L1135*) SAug true "double_res" (EScale (-1 # 4) (EEins "dcef,kldc,eaij,fbkl->abij" [(ESlice (EVar "g_bbbb") [SV "v"; SV "v"; SV "v"; SV "v"]); (EVar "l2_bbbb"); (EVar "t2_bbbb"); (EVar "t2_bbbb")]));
   (*L1138*) SAssign "contracted_intermediate" (EScale (1 # 2) (EEins "daef,kldc,eckl,fbij->abij" [(ESlice (EVar "g_abab") [SV "v"; SV "v"; SV "v"; SV "v"]); (EVar "l2_aaaa"); (EVar "t2_aaaa"); (EVar "t2_bbbb")]));
   (*L1139*) SAug true "double_res" (EAdd (EScale (1 # 1) (EVar "contracted_intermediate")) (EScale (-1 # 1) (EEins "abij->baij" [(EVar "contracted_intermediate")])));
   (*L1142*) SAssign "contracted_intermediate" (EScale (1 # 2) (EEins "daef,kldc,eckl,fbij->abij" [(ESlice (EVar "g_abab") [SV "v"; SV "v"; SV "v"; SV "v"]); (EVar "l2_abab"); (EVar "t2_abab"); (EVar "t2_bbbb")]));
   (*L1143*) SAug true "double_res" (EAdd (EScale (1 # 1) (EVar "contracted_intermediate")) (EScale (-1 # 1) (EEins "abij->baij" [(EVar "contracted_intermediate")])));
   (*L1146*) SAssign "contracted_intermediate" (EScale (1 # 2) (EEins "daef,klcd,cekl,fbij->abij" [(ESlice (EVar "g_bbbb") [SV "v"; SV "v"; SV "v"; SV "v"]); (EVar "l2_abab"); (EVar "t2_abab"); (EVar "t2_bbbb")]));
   (*L1147*) SAug true "double_res" (EAdd (EScale (1 # 1) (EVar "contracted_intermediate")) (EScale (-1 # 1) (EEins "abij->baij" [(EVar "contracted_intermediate")])));
   (*L1150*) SAssign "contracted_intermediate" (EScale (1 # 2) (EEins "daef,lkdc,eclk,fbij->abij" [(ESlice (EVar "g_abab") [SV "v"; SV "v"; SV "v"; SV "v"]); (EVar "l2_abab"); (EVar "t2_abab"); (EVar "t2_bbbb")]));
   (*L1151*) SAug true "double_res" (EAdd (EScale (1 # 1) (EVar "contracted_intermediate")) (EScale (-1 # 1) (EEins "abij->baij" [(EVar "contracted_intermediate")])));
   (*L1154*) SAssign "contracted_intermediate" (EScale (1 # 2) (EEins "daef,lkcd,celk,fbij->abij" [(ESlice (EVar "g_bbbb") [SV "v"; SV "v"; SV "v"; SV "v"]); (EVar "l2_abab"); (EVar "t2_abab"); (EVar "t2_bbbb")]));
   (*L1155*) SAug true "double_res" (EAdd (EScale (1 # 1) (EVar "contracted_intermediate")) (EScale (-1 # 1) (EEins "abij->baij" [(EVar "contracted_intermediate")])));
   (*L1158*) SAssign "contracted_intermediate" (EScale (1 # 2) (EEins "daef,kldc,eckl,fbij->abij" [(ESlice (EVar "g_bbbb") [SV "v"; SV "v"; SV "v"; SV "v"]); (EVar "l2_bbbb"); (EVar "t2_bbbb"); (EVar "t2_bbbb")]));
   (*L1159*) SAug true "double_res" (EAdd (EScale (1 # 1) (EVar "contracted_intermediate")) (EScale (-1 # 1) (EEins "abij->baij" [(EVar "contracted_intermediate")])));
   (*L1162*) SAssign "contracted_intermediate" (EScale (-1 # 1) (EEins "dafe,kldc,celj,fbki->abij" [(ESlice (EVar "g_abab") [SV "v"; SV "v"; SV "v"; SV "v"]); (EVar "l2_aaaa"); (EVar "t2_abab"); (EVar "t2_abab")]));
   (*L1163*) SAug true "double_res" (EAdd (EAdd (EAdd (EScale (1 # 1) (EVar "contracted_intermediate")) (EScale (-1 # 1) (EEins "abij->abji" [(EVar "contracted_intermediate")]))) (EScale (-1 # 1) (EEins "abij->baij" [(EVar "contracted_intermediate")]))) (EScale (1 # 1) (EEins "abij->baji" [(EVar "contracted_intermediate")])));
   (*L1166*) SAssign "contracted_intermediate" (EScale (-1 # 1) (EEins "dafe,kldc,ecjl,fbki->abij" [(ESlice (EVar "g_abab") [SV "v"; SV "v"; SV "v"; SV "v"]); (EVar "l2_abab"); (EVar "t2_bbbb"); (EVar "t2_abab")]));
   (*L1167*) SAug true "double_res" (EAdd (EAdd (EAdd (EScale (1 # 1) (EVar "contracted_intermediate")) (EScale (-1 # 1) (EEins "abij->abji" [(EVar "contracted_intermediate")]))) (EScale (-1 # 1) (EEins "abij->baij" [(EVar "contracted_intermediate")]))) (EScale (1 # 1) (EEins "abij->baji" [(EVar "contracted_intermediate")])));
   (*L1170*) SAssign "contracted_intermediate" (EScale (-1 # 1) (EEins "daef,lkdc,eclj,fbik->abij" [(ESlice (EVar "g_abab") [SV "v"; SV "v"; SV "v"; SV "v"]); (EVar "l2_abab"); (EVar "t2_abab"); (EVar "t2_bbbb")]));
   (*L1171*) SAug true "double_res" (EAdd (EAdd (EAdd (EScale (1 # 1) (EVar "contracted_intermediate")) (EScale (-1 # 1) (EEins "abij->abji" [(EVar "contracted_intermediate")]))) (EScale (-1 # 1) (EEins "abij->baij" [(EVar "contracted_intermediate")]))) (EScale (1 # 1) (EEins "abij->baji" [(EVar "contracted_intermediate")])));
   (*L1174*) SAssign "contracted_intermediate" (EScale (-1 # 1) (EEins "daef,lkcd,celj,fbik->abij" [(ESlice (EVar "g_bbbb") [SV "v"; SV "v"; SV "v"; SV "v"]); (EVar "l2_abab"); (EVar "t2_abab"); (EVar "t2_bbbb")]));
   (*L1175*) SAug true "double_res" (EAdd (EAdd (EAdd (EScale (1 # 1) (EVar "contracted_intermediate")) (EScale (-1 # 1) (EEins "abij->abji" [(EVar "contracted_intermediate")]))) (EScale (-1 # 1) (EEins "abij->baij" [(EVar "contracted_intermediate")]))) (EScale (1 # 1) (EEins "abij->baji" [(EVar "contracted_intermediate")])));
   (*L1178*) SAssign "contracted_intermediate" (EScale (-1 # 1) (EEins "daef,kldc,ecjl,fbik->abij" [(ESlice (EVar "g_bbbb") [SV "v"; SV "v"; SV "v"; SV "v"]); (EVar "l2_bbbb"); (EVar "t2_bbbb"); (EVar "t2_bbbb")]));
   (*L1179*) SAug true "double_res" (EAdd (EAdd (EAdd (EScale (1 # 1) (EVar "contracted_intermediate")) (EScale (-1 # 1) (EEins "abij->abji" [(EVar "contracted_intermediate")]))) (EScale (-1 # 1) (EEins "abij->baij" [(EVar "contracted_intermediate")]))) (EScale (1 # 1) (EEins "abij->baji" [(EVar "contracted_intermediate")])));
   (*L1182*) SAssign "contracted_intermediate" (EScale (-1 # 2) (EEins "dafe,kldc,ecij,fbkl->abij" [(ESlice (EVar "g_abab") [SV "v"; SV "v"; SV "v"; SV "v"]); (EVar "l2_abab"); (EVar "t2_bbbb"); (EVar "t2_abab")]));
   (*L1183*) SAug true "double_res" (EAdd (EScale (1 # 1) (EVar "contracted_intermediate")) (EScale (-1 # 1) (EEins "abij->baij" [(EVar "contracted_intermediate")])));
   (*L1186*) SAssign "contracted_intermediate" (EScale (-1 # 2) (EEins "dafe,lkdc,ecij,fblk->abij" [(ESlice (EVar "g_abab") [SV "v"; SV "v"; SV "v"; SV "v"]); (EVar "l2_abab"); (EVar "t2_bbbb"); (EVar "t2_abab")]));
   (*L1187*) SAug true "double_res" (EAdd (EScale (1 # 1) (EVar "contracted_intermediate")) (EScale (-1 # 1) (EEins "abij->baij" [(EVar "contracted_intermediate")])));
   (*L1190*) SAssign "contracted_intermediate" (EScale (1 # 2) (EEins "daef,kldc,ecij,fbkl->abij" [(ESlice (EVar "g_bbbb") [SV "v"; SV "v"; SV "v"; SV "v"]); (EVar "l2_bbbb"); (EVar "t2_bbbb"); (EVar "t2_bbbb")]));
   (*L1191*) SAug true "double_res" (EAdd (EScale (1 # 1) (EVar "contracted_intermediate")) (EScale (-1 # 1) (EEins "abij->baij" [(EVar "contracted_intermediate")])));
   (*L1194*) SAug true "double_res" (EScale (1 # 2) (EEins "abef,kldc,dekl,fcij->abij" [(ESlice (EVar "g_bbbb") [SV "v"; SV "v"; SV "v"; SV "v"]); (EVar "l2_abab"); (EVar "t2_abab"); (EVar "t2_bbbb")]));
   (*L1197*) SAug true "double_res" (EScale (1 # 2) (EEins "abef,lkdc,delk,fcij->abij" [(ESlice (EVar "g_bbbb") [SV "v"; SV "v"; SV "v"; SV "v"]); (EVar "l2_abab"); (EVar "t2_abab"); (EVar "t2_bbbb")]));
   (*L1200*) SAug true "double_res" (EScale (-1 # 2) (EEins "abef,kldc,edkl,fcij->abij" [(ESlice (EVar "g_bbbb") [SV "v"; SV "v"; SV "v"; SV "v"]); (EVar "l2_bbbb"); (EVar "t2_bbbb"); (EVar "t2_bbbb")]));
   (*L1203*) SAssign "contracted_intermediate" (EScale (1 # 2) (EEins "abef,kldc,delj,cfki->abij" [(ESlice (EVar "g_bbbb") [SV "v"; SV "v"; SV "v"; SV "v"]); (EVar "l2_aaaa"); (EVar "t2_abab"); (EVar "t2_abab")]));
   (*L1204*) SAug true "double_res" (EAdd (EScale (1 # 1) (EVar "contracted_intermediate")) (EScale (-1 # 1) (EEins "abij->abji" [(EVar "contracted_intermediate")])));
   (*L1207*) SAssign "contracted_intermediate" (EScale (-1 # 2) (EEins "abef,klcd,edjl,cfki->abij" [(ESlice (EVar "g_bbbb") [SV "v"; SV "v"; SV "v"; SV "v"]); (EVar "l2_abab"); (EVar "t2_bbbb"); (EVar "t2_abab")]));
   (*L1208*) SAug true "double_res" (EAdd (EScale (1 # 1) (EVar "contracted_intermediate")) (EScale (-1 # 1) (EEins "abij->abji" [(EVar "contracted_intermediate")])));
   (*L1211*) SAssign "contracted_intermediate" (EScale (-1 # 2) (EEins "abef,lkdc,delj,fcik->abij" [(ESlice (EVar "g_bbbb") [SV "v"; SV "v"; SV "v"; SV "v"]); (EVar "l2_abab"); (EVar "t2_abab"); (EVar "t2_bbbb")]));
   (*L1212*) SAug true "double_res" (EAdd (EScale (1 # 1) (EVar "contracted_intermediate")) (EScale (-1 # 1) (EEins "abij->abji" [(EVar "contracted_intermediate")])));
   (*L1215*) SAssign "contracted_intermediate" (EScale (1 # 2) (EEins "abef,kldc,edjl,fcik->abij" [(ESlice (EVar "g_bbbb") [SV "v"; SV "v"; SV "v"; SV "v"]); (EVar "l2_bbbb"); (EVar "t2_bbbb"); (EVar "t2_bbbb")]));
   (*L1216*) SAug true "double_res" (EAdd (EScale (1 # 1) (EVar "contracted_intermediate")) (EScale (-1 # 1) (EEins "abij->abji" [(EVar "contracted_intermediate")])))]
  (*L1220*) (EVar "double_res").

(** /repo/UT2/modify_T2resid_T4Qf1.py:1222-2335  def residQf1_abab *)
Definition residQf1_abab : fn := mkFn
  ["g"; "l2"; "t2"; "o"; "v"]
  [(*L1224*) SAssign "g_aaaa" (EItem (EVar "g") "aaaa");
   (*L1225*) SAssign "g_bbbb" (EItem (EVar "g") "bbbb");
   (*L1226*) SAssign "g_abab" (EItem (EVar "g") "abab");
   (*L1228*) SAssign "l2_aaaa" (EItem (EVar "l2") "aaaa");
   (*L1229*) SAssign "l2_bbbb" (EItem (EVar "l2") "bbbb");
   (*L1230*) SAssign "l2_abab" (EItem (EVar "l2") "abab");
   (*L1232*) SAssign "t2_aaaa" (EItem (EVar "t2") "aaaa");
   (*L1233*) SAssign "t2_bbbb" (EItem (EVar "t2") "bbbb");
   (*L1234*) SAssign "t2_abab" (EItem (EVar "t2") "abab");
   (*L1237*) SAssign "double_res" (EScale (-1 # 4) (EEins "mnkl,kldc,dcmj,abin->abij" [(ESlice (EVar "g_abab") [SV "o"; SV "o"; SV "o"; SV "o"]); (EVar "l2_abab"); (EVar "t2_abab"); (EVar "t2_abab")]));
   (*L1240*) SAug true "double_res" (EScale (-1 # 4) (EEins "mnkl,klcd,cdmj,abin->abij" [(ESlice (EVar "g_abab") [SV "o"; SV "o"; SV "o"; SV "o"]); (EVar "l2_abab"); (EVar "t2_abab"); (EVar "t2_abab")]));
   (*L1243*) SAug true "double_res" (EScale (-1 # 4) (EEins "mnlk,lkdc,dcmj,abin->abij" [(ESlice (EVar "g_abab") [SV "o"; SV "o"; SV "o"; SV "o"]); (EVar "l2_abab"); (EVar "t2_abab"); (EVar "t2_abab")]));
   (*L1246*) SAug true "double_res" (EScale (-1 # 4) (EEins "mnlk,lkcd,cdmj,abin->abij" [(ESlice (EVar "g_abab") [SV "o"; SV "o"; SV "o"; SV "o"]); (EVar "l2_abab"); (EVar "t2_abab"); (EVar "t2_abab")]));
   (*L1249*) SAug true "double_res" (EScale (-1 # 4) (EEins "nmkl,kldc,dcjm,abin->abij" [(ESlice (EVar "g_bbbb") [SV "o"; SV "o"; SV "o"; SV "o"]); (EVar "l2_bbbb"); (EVar "t2_bbbb"); (EVar "t2_abab")]));
   (*L1252*) SAug true "double_res" (EScale (-1 # 4) (EEins "nmkl,kldc,dcim,abnj->abij" [(ESlice (EVar "g_aaaa") [SV "o"; SV "o"; SV "o"; SV "o"]); (EVar "l2_aaaa"); (EVar "t2_aaaa"); (EVar "t2_abab")]));
   (*L1255*) SAug true "double_res" (EScale (-1 # 4) (EEins "nmkl,kldc,dcim,abnj->abij" [(ESlice (EVar "g_abab") [SV "o"; SV "o"; SV "o"; SV "o"]); (EVar "l2_abab"); (EVar "t2_abab"); (EVar "t2_abab")]));
   (*L1258*) SAug true "double_res" (EScale (-1 # 4) (EEins "nmkl,klcd,cdim,abnj->abij" [(ESlice (EVar "g_abab") [SV "o"; SV "o"; SV "o"; SV "o"]); (EVar "l2_abab"); (EVar "t2_abab"); (EVar "t2_abab")]));
   (*L1261*) SAug true "double_res" (EScale (-1 # 4) (EEins "nmlk,lkdc,dcim,abnj->abij" [(ESlice (EVar "g_abab") [SV "o"; SV "o"; SV "o"; SV "o"]); (EVar "l2_abab"); (EVar "t2_abab"); (EVar "t2_abab")]));
   (*L1264*) SAug true "double_res" (EScale (-1 # 4) (EEins "nmlk,lkcd,cdim,abnj->abij" [(ESlice (EVar "g_abab") [SV "o"; SV "o"; SV "o"; SV "o"]); (EVar "l2_abab"); (EVar "t2_abab"); (EVar "t2_abab")]));
   (*L1267*) SAug true "double_res" (EScale (1 # 2) (EEins "mnkl,klcd,admj,cbin->abij" [(ESlice (EVar "g_abab") [SV "o"; SV "o"; SV "o"; SV "o"]); (EVar "l2_abab"); (EVar "t2_abab"); (EVar "t2_abab")]));
   (*L1270*) SAug true "double_res" (EScale (1 # 2) (EEins "mnlk,lkcd,admj,cbin->abij" [(ESlice (EVar "g_abab") [SV "o"; SV "o"; SV "o"; SV "o"]); (EVar "l2_abab"); (EVar "t2_abab"); (EVar "t2_abab")]));
   (*L1273*) SAug true "double_res" (EScale (1 # 2) (EEins "nmkl,kldc,daim,cbnj->abij" [(ESlice (EVar "g_aaaa") [SV "o"; SV "o"; SV "o"; SV "o"]); (EVar "l2_aaaa"); (EVar "t2_aaaa"); (EVar "t2_abab")]));
   (*L1276*) SAug true "double_res" (EScale (1 # 2) (EEins "mnkl,kldc,daim,cbjn->abij" [(ESlice (EVar "g_abab") [SV "o"; SV "o"; SV "o"; SV "o"]); (EVar "l2_abab"); (EVar "t2_aaaa"); (EVar "t2_bbbb")]));
   (*L1279*) SAug true "double_res" (EScale (1 # 2) (EEins "nmkl,klcd,adim,cbnj->abij" [(ESlice (EVar "g_abab") [SV "o"; SV "o"; SV "o"; SV "o"]); (EVar "l2_abab"); (EVar "t2_abab"); (EVar "t2_abab")]));
   (*L1282*) SAug true "double_res" (EScale (1 # 2) (EEins "mnlk,lkdc,daim,cbjn->abij" [(ESlice (EVar "g_abab") [SV "o"; SV "o"; SV "o"; SV "o"]); (EVar "l2_abab"); (EVar "t2_aaaa"); (EVar "t2_bbbb")]));
   (*L1285*) SAug true "double_res" (EScale (1 # 2) (EEins "nmlk,lkcd,adim,cbnj->abij" [(ESlice (EVar "g_abab") [SV "o"; SV "o"; SV "o"; SV "o"]); (EVar "l2_abab"); (EVar "t2_abab"); (EVar "t2_abab")]));
   (*L1288*) SAug true "double_res" (EScale (1 # 2) (EEins "nmkl,kldc,adim,cbjn->abij" [(ESlice (EVar "g_bbbb") [SV "o"; SV "o"; SV "o"; SV "o"]); (EVar "l2_bbbb"); (EVar "t2_abab"); (EVar "t2_bbbb")]));
   (*L1291*) SAug true "double_res" (EScale (1 # 2) (EEins "mnlj,kldc,dckm,abin->abij" [(ESlice (EVar "g_abab") [SV "o"; SV "o"; SV "o"; SV "o"]); (EVar "l2_aaaa"); (EVar "t2_aaaa"); (EVar "t2_abab")]));
   (*L1294*) SAug true "double_res" (EScale (1 # 2) (EEins "nmjl,kldc,dckm,abin->abij" [(ESlice (EVar "g_bbbb") [SV "o"; SV "o"; SV "o"; SV "o"]); (EVar "l2_abab"); (EVar "t2_abab"); (EVar "t2_abab")]));
   (*L1297*) SAug true "double_res" (EScale (1 # 2) (EEins "nmjl,klcd,cdkm,abin->abij" [(ESlice (EVar "g_bbbb") [SV "o"; SV "o"; SV "o"; SV "o"]); (EVar "l2_abab"); (EVar "t2_abab"); (EVar "t2_abab")]));
   (*L1300*) SAug true "double_res" (EScale (1 # 2) (EEins "mnlj,lkdc,dcmk,abin->abij" [(ESlice (EVar "g_abab") [SV "o"; SV "o"; SV "o"; SV "o"]); (EVar "l2_abab"); (EVar "t2_abab"); (EVar "t2_abab")]));
   (*L1303*) SAug true "double_res" (EScale (1 # 2) (EEins "mnlj,lkcd,cdmk,abin->abij" [(ESlice (EVar "g_abab") [SV "o"; SV "o"; SV "o"; SV "o"]); (EVar "l2_abab"); (EVar "t2_abab"); (EVar "t2_abab")]));
   (*L1306*) SAug true "double_res" (EScale (1 # 2) (EEins "nmjl,kldc,dckm,abin->abij" [(ESlice (EVar "g_bbbb") [SV "o"; SV "o"; SV "o"; SV "o"]); (EVar "l2_bbbb"); (EVar "t2_bbbb"); (EVar "t2_abab")]));
   (*L1309*) SAug true "double_res" (EScale (1 # 2) (EEins "nmil,kldc,dckm,abnj->abij" [(ESlice (EVar "g_aaaa") [SV "o"; SV "o"; SV "o"; SV "o"]); (EVar "l2_aaaa"); (EVar "t2_aaaa"); (EVar "t2_abab")]));
   (*L1312*) SAug true "double_res" (EScale (1 # 2) (EEins "nmil,kldc,dckm,abnj->abij" [(ESlice (EVar "g_abab") [SV "o"; SV "o"; SV "o"; SV "o"]); (EVar "l2_abab"); (EVar "t2_abab"); (EVar "t2_abab")]));
   (*L1315*) SAug true "double_res" (EScale (1 # 2) (EEins "nmil,klcd,cdkm,abnj->abij" [(ESlice (EVar "g_abab") [SV "o"; SV "o"; SV "o"; SV "o"]); (EVar "l2_abab"); (EVar "t2_abab"); (EVar "t2_abab")]));
   (*L1318*) SAug true "double_res" (EScale (1 # 2) (EEins "nmil,lkdc,dcmk,abnj->abij" [(ESlice (EVar "g_aaaa") [SV "o"; SV "o"; SV "o"; SV "o"]); (EVar "l2_abab"); (EVar "t2_abab"); (EVar "t2_abab")]));
   (*L1321*) SAug true "double_res" (EScale (1 # 2) (EEins "nmil,lkcd,cdmk,abnj->abij" [(ESlice (EVar "g_aaaa") [SV "o"; SV "o"; SV "o"; SV "o"]); (EVar "l2_abab"); (EVar "t2_abab"); (EVar "t2_abab")]));
   (*L1324*) SAug true "double_res" (EScale (1 # 2) (EEins "nmil,kldc,dckm,abnj->abij" [(ESlice (EVar "g_abab") [SV "o"; SV "o"; SV "o"; SV "o"]); (EVar "l2_bbbb"); (EVar "t2_bbbb"); (EVar "t2_abab")]));
   (*L1327*) SAug true "double_res" (EScale (-1 # 2) (EEins "mnlj,kldc,dcim,abkn->abij" [(ESlice (EVar "g_abab") [SV "o"; SV "o"; SV "o"; SV "o"]); (EVar "l2_aaaa"); (EVar "t2_aaaa"); (EVar "t2_abab")]));
   (*L1330*) SAug true "double_res" (EScale (-1 # 2) (EEins "nmjl,kldc,dcim,abkn->abij" [(ESlice (EVar "g_bbbb") [SV "o"; SV "o"; SV "o"; SV "o"]); (EVar "l2_abab"); (EVar "t2_abab"); (EVar "t2_abab")]));
   (*L1333*) SAug true "double_res" (EScale (-1 # 2) (EEins "nmjl,klcd,cdim,abkn->abij" [(ESlice (EVar "g_bbbb") [SV "o"; SV "o"; SV "o"; SV "o"]); (EVar "l2_abab"); (EVar "t2_abab"); (EVar "t2_abab")]));
   (*L1336*) SAug true "double_res" (EScale (1 # 2) (EEins "nmlj,lkdc,dcim,abnk->abij" [(ESlice (EVar "g_abab") [SV "o"; SV "o"; SV "o"; SV "o"]); (EVar "l2_abab"); (EVar "t2_abab"); (EVar "t2_abab")]));
   (*L1339*) SAug true "double_res" (EScale (1 # 2) (EEins "nmlj,lkcd,cdim,abnk->abij" [(ESlice (EVar "g_abab") [SV "o"; SV "o"; SV "o"; SV "o"]); (EVar "l2_abab"); (EVar "t2_abab"); (EVar "t2_abab")]));
   (*L1342*) SAug true "double_res" (EScale (1 # 2) (EEins "mnil,kldc,dcmj,abkn->abij" [(ESlice (EVar "g_abab") [SV "o"; SV "o"; SV "o"; SV "o"]); (EVar "l2_abab"); (EVar "t2_abab"); (EVar "t2_abab")]));
   (*L1345*) SAug true "double_res" (EScale (1 # 2) (EEins "mnil,klcd,cdmj,abkn->abij" [(ESlice (EVar "g_abab") [SV "o"; SV "o"; SV "o"; SV "o"]); (EVar "l2_abab"); (EVar "t2_abab"); (EVar "t2_abab")]));
   (*L1348*) SAug true "double_res" (EScale (-1 # 2) (EEins "nmil,lkdc,dcmj,abnk->abij" [(ESlice (EVar "g_aaaa") [SV "o"; SV "o"; SV "o"; SV "o"]); (EVar "l2_abab"); (EVar "t2_abab"); (EVar "t2_abab")]));
   (*L1351*) SAug true "double_res" (EScale (-1 # 2) (EEins "nmil,lkcd,cdmj,abnk->abij" [(ESlice (EVar "g_aaaa") [SV "o"; SV "o"; SV "o"; SV "o"]); (EVar "l2_abab"); (EVar "t2_abab"); (EVar "t2_abab")]));
   (*L1354*) SAug true "double_res" (EScale (-1 # 2) (EEins "nmil,kldc,dcjm,abnk->abij" [(ESlice (EVar "g_abab") [SV "o"; SV "o"; SV "o"; SV "o"]); (EVar "l2_bbbb"); (EVar "t2_bbbb"); (EVar "t2_abab")]));
   (*L1357*) SAug true "double_res" (EScale (-1 # 1) (EEins "mnlj,kldc,dakm,cbin->abij" [(ESlice (EVar "g_abab") [SV "o"; SV "o"; SV "o"; SV "o"]); (EVar "l2_aaaa"); (EVar "t2_aaaa"); (EVar "t2_abab")]));
   (*L1360*) SAug true "double_res" (EScale (-1 # 1) (EEins "nmjl,klcd,adkm,cbin->abij" [(ESlice (EVar "g_bbbb") [SV "o"; SV "o"; SV "o"; SV "o"]); (EVar "l2_abab"); (EVar "t2_abab"); (EVar "t2_abab")]));
   (*L1363*) SAug true "double_res" (EScale (-1 # 1) (EEins "mnlj,lkcd,admk,cbin->abij" [(ESlice (EVar "g_abab") [SV "o"; SV "o"; SV "o"; SV "o"]); (EVar "l2_abab"); (EVar "t2_abab"); (EVar "t2_abab")]));
   (*L1366*) SAug true "double_res" (EScale (-1 # 1) (EEins "nmil,kldc,dakm,cbnj->abij" [(ESlice (EVar "g_aaaa") [SV "o"; SV "o"; SV "o"; SV "o"]); (EVar "l2_aaaa"); (EVar "t2_aaaa"); (EVar "t2_abab")]));
   (*L1369*) SAug true "double_res" (EScale (-1 # 1) (EEins "mnil,kldc,dakm,cbjn->abij" [(ESlice (EVar "g_abab") [SV "o"; SV "o"; SV "o"; SV "o"]); (EVar "l2_abab"); (EVar "t2_aaaa"); (EVar "t2_bbbb")]));
   (*L1372*) SAug true "double_res" (EScale (-1 # 1) (EEins "nmil,klcd,adkm,cbnj->abij" [(ESlice (EVar "g_abab") [SV "o"; SV "o"; SV "o"; SV "o"]); (EVar "l2_abab"); (EVar "t2_abab"); (EVar "t2_abab")]));
   (*L1375*) SAug true "double_res" (EScale (-1 # 1) (EEins "nmil,lkcd,admk,cbnj->abij" [(ESlice (EVar "g_aaaa") [SV "o"; SV "o"; SV "o"; SV "o"]); (EVar "l2_abab"); (EVar "t2_abab"); (EVar "t2_abab")]));
   (*L1378*) SAug true "double_res" (EScale (-1 # 1) (EEins "mnil,kldc,admk,cbjn->abij" [(ESlice (EVar "g_abab") [SV "o"; SV "o"; SV "o"; SV "o"]); (EVar "l2_bbbb"); (EVar "t2_abab"); (EVar "t2_bbbb")]));
   (*L1381*) SAug true "double_res" (EScale (1 # 1) (EEins "mnlj,kldc,daim,cbkn->abij" [(ESlice (EVar "g_abab") [SV "o"; SV "o"; SV "o"; SV "o"]); (EVar "l2_aaaa"); (EVar "t2_aaaa"); (EVar "t2_abab")]));
   (*L1384*) SAug true "double_res" (EScale (1 # 1) (EEins "nmjl,klcd,adim,cbkn->abij" [(ESlice (EVar "g_bbbb") [SV "o"; SV "o"; SV "o"; SV "o"]); (EVar "l2_abab"); (EVar "t2_abab"); (EVar "t2_abab")]));
   (*L1387*) SAug true "double_res" (EScale (-1 # 1) (EEins "mnlj,lkdc,daim,cbkn->abij" [(ESlice (EVar "g_abab") [SV "o"; SV "o"; SV "o"; SV "o"]); (EVar "l2_abab"); (EVar "t2_aaaa"); (EVar "t2_bbbb")]));
   (*L1390*) SAug true "double_res" (EScale (-1 # 1) (EEins "nmlj,lkcd,adim,cbnk->abij" [(ESlice (EVar "g_abab") [SV "o"; SV "o"; SV "o"; SV "o"]); (EVar "l2_abab"); (EVar "t2_abab"); (EVar "t2_abab")]));
   (*L1393*) SAug true "double_res" (EScale (-1 # 1) (EEins "nmjl,kldc,adim,cbkn->abij" [(ESlice (EVar "g_bbbb") [SV "o"; SV "o"; SV "o"; SV "o"]); (EVar "l2_bbbb"); (EVar "t2_abab"); (EVar "t2_bbbb")]));
   (*L1396*) SAug true "double_res" (EScale (-1 # 1) (EEins "mnil,klcd,admj,cbkn->abij" [(ESlice (EVar "g_abab") [SV "o"; SV "o"; SV "o"; SV "o"]); (EVar "l2_abab"); (EVar "t2_abab"); (EVar "t2_abab")]));
   (*L1399*) SAug true "double_res" (EScale (1 # 1) (EEins "nmil,lkcd,admj,cbnk->abij" [(ESlice (EVar "g_aaaa") [SV "o"; SV "o"; SV "o"; SV "o"]); (EVar "l2_abab"); (EVar "t2_abab"); (EVar "t2_abab")]));
   (*L1402*) SAug true "double_res" (EScale (1 # 1) (EEins "mnil,kldc,admj,cbkn->abij" [(ESlice (EVar "g_abab") [SV "o"; SV "o"; SV "o"; SV "o"]); (EVar "l2_bbbb"); (EVar "t2_abab"); (EVar "t2_bbbb")]));
   (*L1405*) SAug true "double_res" (EScale (1 # 2) (EEins "mnij,kldc,dclm,abkn->abij" [(ESlice (EVar "g_abab") [SV "o"; SV "o"; SV "o"; SV "o"]); (EVar "l2_aaaa"); (EVar "t2_aaaa"); (EVar "t2_abab")]));
   (*L1408*) SAug true "double_res" (EScale (-1 # 2) (EEins "mnij,kldc,dcml,abkn->abij" [(ESlice (EVar "g_abab") [SV "o"; SV "o"; SV "o"; SV "o"]); (EVar "l2_abab"); (EVar "t2_abab"); (EVar "t2_abab")]));
   (*L1411*) SAug true "double_res" (EScale (-1 # 2) (EEins "mnij,klcd,cdml,abkn->abij" [(ESlice (EVar "g_abab") [SV "o"; SV "o"; SV "o"; SV "o"]); (EVar "l2_abab"); (EVar "t2_abab"); (EVar "t2_abab")]));
   (*L1414*) SAug true "double_res" (EScale (-1 # 2) (EEins "nmij,lkdc,dclm,abnk->abij" [(ESlice (EVar "g_abab") [SV "o"; SV "o"; SV "o"; SV "o"]); (EVar "l2_abab"); (EVar "t2_abab"); (EVar "t2_abab")]));
   (*L1417*) SAug true "double_res" (EScale (-1 # 2) (EEins "nmij,lkcd,cdlm,abnk->abij" [(ESlice (EVar "g_abab") [SV "o"; SV "o"; SV "o"; SV "o"]); (EVar "l2_abab"); (EVar "t2_abab"); (EVar "t2_abab")]));
   (*L1420*) SAug true "double_res" (EScale (1 # 2) (EEins "nmij,kldc,dclm,abnk->abij" [(ESlice (EVar "g_abab") [SV "o"; SV "o"; SV "o"; SV "o"]); (EVar "l2_bbbb"); (EVar "t2_bbbb"); (EVar "t2_abab")]));
   (*L1423*) SAug true "double_res" (EScale (-1 # 2) (EEins "mnij,kldc,dalm,cbkn->abij" [(ESlice (EVar "g_abab") [SV "o"; SV "o"; SV "o"; SV "o"]); (EVar "l2_aaaa"); (EVar "t2_aaaa"); (EVar "t2_abab")]));
   (*L1426*) SAug true "double_res" (EScale (1 # 2) (EEins "mnij,klcd,adml,cbkn->abij" [(ESlice (EVar "g_abab") [SV "o"; SV "o"; SV "o"; SV "o"]); (EVar "l2_abab"); (EVar "t2_abab"); (EVar "t2_abab")]));
   (*L1429*) SAug true "double_res" (EScale (1 # 2) (EEins "mnij,lkdc,dalm,cbkn->abij" [(ESlice (EVar "g_abab") [SV "o"; SV "o"; SV "o"; SV "o"]); (EVar "l2_abab"); (EVar "t2_aaaa"); (EVar "t2_bbbb")]));
   (*L1432*) SAug true "double_res" (EScale (1 # 2) (EEins "nmij,lkcd,adlm,cbnk->abij" [(ESlice (EVar "g_abab") [SV "o"; SV "o"; SV "o"; SV "o"]); (EVar "l2_abab"); (EVar "t2_abab"); (EVar "t2_abab")]));
   (*L1435*) SAug true "double_res" (EScale (-1 # 2) (EEins "mnij,kldc,adml,cbkn->abij" [(ESlice (EVar "g_abab") [SV "o"; SV "o"; SV "o"; SV "o"]); (EVar "l2_bbbb"); (EVar "t2_abab"); (EVar "t2_bbbb")]));
   (*L1438*) SAug true "double_res" (EScale (-1 # 2) (EEins "nmij,kldc,dblm,cakn->abij" [(ESlice (EVar "g_abab") [SV "o"; SV "o"; SV "o"; SV "o"]); (EVar "l2_aaaa"); (EVar "t2_abab"); (EVar "t2_aaaa")]));
   (*L1441*) SAug true "double_res" (EScale (1 # 2) (EEins "mnij,kldc,dbml,ackn->abij" [(ESlice (EVar "g_abab") [SV "o"; SV "o"; SV "o"; SV "o"]); (EVar "l2_abab"); (EVar "t2_abab"); (EVar "t2_abab")]));
   (*L1444*) SAug true "double_res" (EScale (1 # 2) (EEins "nmij,klcd,dblm,cakn->abij" [(ESlice (EVar "g_abab") [SV "o"; SV "o"; SV "o"; SV "o"]); (EVar "l2_abab"); (EVar "t2_bbbb"); (EVar "t2_aaaa")]));
   (*L1447*) SAug true "double_res" (EScale (1 # 2) (EEins "nmij,lkdc,dblm,acnk->abij" [(ESlice (EVar "g_abab") [SV "o"; SV "o"; SV "o"; SV "o"]); (EVar "l2_abab"); (EVar "t2_abab"); (EVar "t2_abab")]));
   (*L1450*) SAug true "double_res" (EScale (-1 # 2) (EEins "nmij,kldc,dblm,acnk->abij" [(ESlice (EVar "g_abab") [SV "o"; SV "o"; SV "o"; SV "o"]); (EVar "l2_bbbb"); (EVar "t2_bbbb"); (EVar "t2_abab")]));
   (*L1453*) SAug true "double_res" (EScale (1 # 1) (EEins "dmle,kldc,cekj,abim->abij" [(ESlice (EVar "g_abab") [SV "v"; SV "o"; SV "o"; SV "v"]); (EVar "l2_aaaa"); (EVar "t2_abab"); (EVar "t2_abab")]));
   (*L1456*) SAug true "double_res" (EScale (1 # 1) (EEins "dmel,kldc,eckj,abim->abij" [(ESlice (EVar "g_abab") [SV "v"; SV "o"; SV "v"; SV "o"]); (EVar "l2_abab"); (EVar "t2_abab"); (EVar "t2_abab")]));
   (*L1459*) SAug true "double_res" (EScale (-1 # 1) (EEins "mdel,klcd,cekj,abim->abij" [(ESlice (EVar "g_bbbb") [SV "o"; SV "v"; SV "v"; SV "o"]); (EVar "l2_abab"); (EVar "t2_abab"); (EVar "t2_abab")]));
   (*L1462*) SAug true "double_res" (EScale (-1 # 1) (EEins "dmle,lkdc,ecjk,abim->abij" [(ESlice (EVar "g_abab") [SV "v"; SV "o"; SV "o"; SV "v"]); (EVar "l2_abab"); (EVar "t2_bbbb"); (EVar "t2_abab")]));
   (*L1465*) SAug true "double_res" (EScale (1 # 1) (EEins "mdel,kldc,ecjk,abim->abij" [(ESlice (EVar "g_bbbb") [SV "o"; SV "v"; SV "v"; SV "o"]); (EVar "l2_bbbb"); (EVar "t2_bbbb"); (EVar "t2_abab")]));
   (*L1468*) SAug true "double_res" (EScale (1 # 1) (EEins "mdel,kldc,ecik,abmj->abij" [(ESlice (EVar "g_aaaa") [SV "o"; SV "v"; SV "v"; SV "o"]); (EVar "l2_aaaa"); (EVar "t2_aaaa"); (EVar "t2_abab")]));
   (*L1471*) SAug true "double_res" (EScale (-1 # 1) (EEins "mdel,klcd,ecik,abmj->abij" [(ESlice (EVar "g_abab") [SV "o"; SV "v"; SV "v"; SV "o"]); (EVar "l2_abab"); (EVar "t2_aaaa"); (EVar "t2_abab")]));
   (*L1474*) SAug true "double_res" (EScale (-1 # 1) (EEins "mdel,lkdc,ecik,abmj->abij" [(ESlice (EVar "g_aaaa") [SV "o"; SV "v"; SV "v"; SV "o"]); (EVar "l2_abab"); (EVar "t2_abab"); (EVar "t2_abab")]));
   (*L1477*) SAug true "double_res" (EScale (1 # 1) (EEins "mdle,lkcd,ceik,abmj->abij" [(ESlice (EVar "g_abab") [SV "o"; SV "v"; SV "o"; SV "v"]); (EVar "l2_abab"); (EVar "t2_abab"); (EVar "t2_abab")]));
   (*L1480*) SAug true "double_res" (EScale (1 # 1) (EEins "mdel,kldc,ecik,abmj->abij" [(ESlice (EVar "g_abab") [SV "o"; SV "v"; SV "v"; SV "o"]); (EVar "l2_bbbb"); (EVar "t2_abab"); (EVar "t2_abab")]));
   (*L1483*) SAug true "double_res" (EScale (-1 # 1) (EEins "dmle,kldc,ceij,abkm->abij" [(ESlice (EVar "g_abab") [SV "v"; SV "o"; SV "o"; SV "v"]); (EVar "l2_aaaa"); (EVar "t2_abab"); (EVar "t2_abab")]));
   (*L1486*) SAug true "double_res" (EScale (-1 # 1) (EEins "dmel,kldc,ecij,abkm->abij" [(ESlice (EVar "g_abab") [SV "v"; SV "o"; SV "v"; SV "o"]); (EVar "l2_abab"); (EVar "t2_abab"); (EVar "t2_abab")]));
   (*L1489*) SAug true "double_res" (EScale (1 # 1) (EEins "mdel,klcd,ceij,abkm->abij" [(ESlice (EVar "g_bbbb") [SV "o"; SV "v"; SV "v"; SV "o"]); (EVar "l2_abab"); (EVar "t2_abab"); (EVar "t2_abab")]));
   (*L1492*) SAug true "double_res" (EScale (1 # 1) (EEins "mdel,lkdc,ecij,abmk->abij" [(ESlice (EVar "g_aaaa") [SV "o"; SV "v"; SV "v"; SV "o"]); (EVar "l2_abab"); (EVar "t2_abab"); (EVar "t2_abab")]));
   (*L1495*) SAug true "double_res" (EScale (-1 # 1) (EEins "mdle,lkcd,ceij,abmk->abij" [(ESlice (EVar "g_abab") [SV "o"; SV "v"; SV "o"; SV "v"]); (EVar "l2_abab"); (EVar "t2_abab"); (EVar "t2_abab")]));
   (*L1498*) SAug true "double_res" (EScale (-1 # 1) (EEins "mdel,kldc,ecij,abmk->abij" [(ESlice (EVar "g_abab") [SV "o"; SV "v"; SV "v"; SV "o"]); (EVar "l2_bbbb"); (EVar "t2_abab"); (EVar "t2_abab")]));
   (*L1501*) SAug true "double_res" (EScale (-1 # 1) (EEins "dmle,kldc,aekj,cbim->abij" [(ESlice (EVar "g_abab") [SV "v"; SV "o"; SV "o"; SV "v"]); (EVar "l2_aaaa"); (EVar "t2_abab"); (EVar "t2_abab")]));
   (*L1504*) SAug true "double_res" (EScale (1 # 1) (EEins "mdel,klcd,aekj,cbim->abij" [(ESlice (EVar "g_bbbb") [SV "o"; SV "v"; SV "v"; SV "o"]); (EVar "l2_abab"); (EVar "t2_abab"); (EVar "t2_abab")]));
   (*L1507*) SAug true "double_res" (EScale (-1 # 1) (EEins "mdel,kldc,ebkj,caim->abij" [(ESlice (EVar "g_aaaa") [SV "o"; SV "v"; SV "v"; SV "o"]); (EVar "l2_aaaa"); (EVar "t2_abab"); (EVar "t2_aaaa")]));
   (*L1510*) SAug true "double_res" (EScale (-1 # 1) (EEins "dmel,kldc,ebkj,acim->abij" [(ESlice (EVar "g_abab") [SV "v"; SV "o"; SV "v"; SV "o"]); (EVar "l2_abab"); (EVar "t2_abab"); (EVar "t2_abab")]));
   (*L1513*) SAug true "double_res" (EScale (1 # 1) (EEins "mdel,klcd,ebkj,caim->abij" [(ESlice (EVar "g_abab") [SV "o"; SV "v"; SV "v"; SV "o"]); (EVar "l2_abab"); (EVar "t2_abab"); (EVar "t2_aaaa")]));
   (*L1516*) SAug true "double_res" (EScale (1 # 1) (EEins "dmle,lkdc,ebjk,acim->abij" [(ESlice (EVar "g_abab") [SV "v"; SV "o"; SV "o"; SV "v"]); (EVar "l2_abab"); (EVar "t2_bbbb"); (EVar "t2_abab")]));
   (*L1519*) SAug true "double_res" (EScale (-1 # 1) (EEins "mdle,lkcd,ebjk,caim->abij" [(ESlice (EVar "g_abab") [SV "o"; SV "v"; SV "o"; SV "v"]); (EVar "l2_abab"); (EVar "t2_bbbb"); (EVar "t2_aaaa")]));
   (*L1522*) SAug true "double_res" (EScale (-1 # 1) (EEins "mdel,kldc,ebjk,acim->abij" [(ESlice (EVar "g_bbbb") [SV "o"; SV "v"; SV "v"; SV "o"]); (EVar "l2_bbbb"); (EVar "t2_bbbb"); (EVar "t2_abab")]));
   (*L1525*) SAug true "double_res" (EScale (-1 # 1) (EEins "mdel,kldc,eaik,cbmj->abij" [(ESlice (EVar "g_aaaa") [SV "o"; SV "v"; SV "v"; SV "o"]); (EVar "l2_aaaa"); (EVar "t2_aaaa"); (EVar "t2_abab")]));
   (*L1528*) SAug true "double_res" (EScale (-1 # 1) (EEins "dmel,kldc,eaik,cbjm->abij" [(ESlice (EVar "g_abab") [SV "v"; SV "o"; SV "v"; SV "o"]); (EVar "l2_abab"); (EVar "t2_aaaa"); (EVar "t2_bbbb")]));
   (*L1531*) SAug true "double_res" (EScale (1 # 1) (EEins "mdel,klcd,eaik,cbmj->abij" [(ESlice (EVar "g_abab") [SV "o"; SV "v"; SV "v"; SV "o"]); (EVar "l2_abab"); (EVar "t2_aaaa"); (EVar "t2_abab")]));
   (*L1534*) SAug true "double_res" (EScale (1 # 1) (EEins "dmle,lkdc,aeik,cbjm->abij" [(ESlice (EVar "g_abab") [SV "v"; SV "o"; SV "o"; SV "v"]); (EVar "l2_abab"); (EVar "t2_abab"); (EVar "t2_bbbb")]));
   (*L1537*) SAug true "double_res" (EScale (-1 # 1) (EEins "mdle,lkcd,aeik,cbmj->abij" [(ESlice (EVar "g_abab") [SV "o"; SV "v"; SV "o"; SV "v"]); (EVar "l2_abab"); (EVar "t2_abab"); (EVar "t2_abab")]));
   (*L1540*) SAug true "double_res" (EScale (-1 # 1) (EEins "mdel,kldc,aeik,cbjm->abij" [(ESlice (EVar "g_bbbb") [SV "o"; SV "v"; SV "v"; SV "o"]); (EVar "l2_bbbb"); (EVar "t2_abab"); (EVar "t2_bbbb")]));
   (*L1543*) SAug true "double_res" (EScale (1 # 1) (EEins "mdel,lkdc,ebik,acmj->abij" [(ESlice (EVar "g_aaaa") [SV "o"; SV "v"; SV "v"; SV "o"]); (EVar "l2_abab"); (EVar "t2_abab"); (EVar "t2_abab")]));
   (*L1546*) SAug true "double_res" (EScale (-1 # 1) (EEins "mdel,kldc,ebik,acmj->abij" [(ESlice (EVar "g_abab") [SV "o"; SV "v"; SV "v"; SV "o"]); (EVar "l2_bbbb"); (EVar "t2_abab"); (EVar "t2_abab")]));
   (*L1549*) SAug true "double_res" (EScale (1 # 1) (EEins "dmle,kldc,aeij,cbkm->abij" [(ESlice (EVar "g_abab") [SV "v"; SV "o"; SV "o"; SV "v"]); (EVar "l2_aaaa"); (EVar "t2_abab"); (EVar "t2_abab")]));
   (*L1552*) SAug true "double_res" (EScale (-1 # 1) (EEins "mdel,klcd,aeij,cbkm->abij" [(ESlice (EVar "g_bbbb") [SV "o"; SV "v"; SV "v"; SV "o"]); (EVar "l2_abab"); (EVar "t2_abab"); (EVar "t2_abab")]));
   (*L1555*) SAug true "double_res" (EScale (-1 # 1) (EEins "dmle,lkdc,aeij,cbkm->abij" [(ESlice (EVar "g_abab") [SV "v"; SV "o"; SV "o"; SV "v"]); (EVar "l2_abab"); (EVar "t2_abab"); (EVar "t2_bbbb")]));
   (*L1558*) SAug true "double_res" (EScale (1 # 1) (EEins "mdle,lkcd,aeij,cbmk->abij" [(ESlice (EVar "g_abab") [SV "o"; SV "v"; SV "o"; SV "v"]); (EVar "l2_abab"); (EVar "t2_abab"); (EVar "t2_abab")]));
   (*L1561*) SAug true "double_res" (EScale (1 # 1) (EEins "mdel,kldc,aeij,cbkm->abij" [(ESlice (EVar "g_bbbb") [SV "o"; SV "v"; SV "v"; SV "o"]); (EVar "l2_bbbb"); (EVar "t2_abab"); (EVar "t2_bbbb")]));
   (*L1564*) SAug true "double_res" (EScale (1 # 1) (EEins "mdel,kldc,ebij,cakm->abij" [(ESlice (EVar "g_aaaa") [SV "o"; SV "v"; SV "v"; SV "o"]); (EVar "l2_aaaa"); (EVar "t2_abab"); (EVar "t2_aaaa")]));
   (*L1567*) SAug true "double_res" (EScale (1 # 1) (EEins "dmel,kldc,ebij,ackm->abij" [(ESlice (EVar "g_abab") [SV "v"; SV "o"; SV "v"; SV "o"]); (EVar "l2_abab"); (EVar "t2_abab"); (EVar "t2_abab")]));
   (*L1570*) SAug true "double_res" (EScale (-1 # 1) (EEins "mdel,klcd,ebij,cakm->abij" [(ESlice (EVar "g_abab") [SV "o"; SV "v"; SV "v"; SV "o"]); (EVar "l2_abab"); (EVar "t2_abab"); (EVar "t2_aaaa")]));
   (*L1573*) SAug true "double_res" (EScale (-1 # 1) (EEins "mdel,lkdc,ebij,acmk->abij" [(ESlice (EVar "g_aaaa") [SV "o"; SV "v"; SV "v"; SV "o"]); (EVar "l2_abab"); (EVar "t2_abab"); (EVar "t2_abab")]));
   (*L1576*) SAug true "double_res" (EScale (1 # 1) (EEins "mdel,kldc,ebij,acmk->abij" [(ESlice (EVar "g_abab") [SV "o"; SV "v"; SV "v"; SV "o"]); (EVar "l2_bbbb"); (EVar "t2_abab"); (EVar "t2_abab")]));
   (*L1579*) SAug true "double_res" (EScale (-1 # 2) (EEins "dmej,kldc,eckl,abim->abij" [(ESlice (EVar "g_abab") [SV "v"; SV "o"; SV "v"; SV "o"]); (EVar "l2_aaaa"); (EVar "t2_aaaa"); (EVar "t2_abab")]));
   (*L1582*) SAug true "double_res" (EScale (-1 # 2) (EEins "dmej,kldc,eckl,abim->abij" [(ESlice (EVar "g_abab") [SV "v"; SV "o"; SV "v"; SV "o"]); (EVar "l2_abab"); (EVar "t2_abab"); (EVar "t2_abab")]));
   (*L1585*) SAug true "double_res" (EScale (1 # 2) (EEins "mdej,klcd,cekl,abim->abij" [(ESlice (EVar "g_bbbb") [SV "o"; SV "v"; SV "v"; SV "o"]); (EVar "l2_abab"); (EVar "t2_abab"); (EVar "t2_abab")]));
   (*L1588*) SAug true "double_res" (EScale (-1 # 2) (EEins "dmej,lkdc,eclk,abim->abij" [(ESlice (EVar "g_abab") [SV "v"; SV "o"; SV "v"; SV "o"]); (EVar "l2_abab"); (EVar "t2_abab"); (EVar "t2_abab")]));
   (*L1591*) SAug true "double_res" (EScale (1 # 2) (EEins "mdej,lkcd,celk,abim->abij" [(ESlice (EVar "g_bbbb") [SV "o"; SV "v"; SV "v"; SV "o"]); (EVar "l2_abab"); (EVar "t2_abab"); (EVar "t2_abab")]));
   (*L1594*) SAug true "double_res" (EScale (1 # 2) (EEins "mdej,kldc,eckl,abim->abij" [(ESlice (EVar "g_bbbb") [SV "o"; SV "v"; SV "v"; SV "o"]); (EVar "l2_bbbb"); (EVar "t2_bbbb"); (EVar "t2_abab")]));
   (*L1597*) SAug true "double_res" (EScale (1 # 2) (EEins "mdei,kldc,eckl,abmj->abij" [(ESlice (EVar "g_aaaa") [SV "o"; SV "v"; SV "v"; SV "o"]); (EVar "l2_aaaa"); (EVar "t2_aaaa"); (EVar "t2_abab")]));
   (*L1600*) SAug true "double_res" (EScale (1 # 2) (EEins "mdei,kldc,eckl,abmj->abij" [(ESlice (EVar "g_aaaa") [SV "o"; SV "v"; SV "v"; SV "o"]); (EVar "l2_abab"); (EVar "t2_abab"); (EVar "t2_abab")]));
   (*L1603*) SAug true "double_res" (EScale (-1 # 2) (EEins "mdie,klcd,cekl,abmj->abij" [(ESlice (EVar "g_abab") [SV "o"; SV "v"; SV "o"; SV "v"]); (EVar "l2_abab"); (EVar "t2_abab"); (EVar "t2_abab")]));
   (*L1606*) SAug true "double_res" (EScale (1 # 2) (EEins "mdei,lkdc,eclk,abmj->abij" [(ESlice (EVar "g_aaaa") [SV "o"; SV "v"; SV "v"; SV "o"]); (EVar "l2_abab"); (EVar "t2_abab"); (EVar "t2_abab")]));
   (*L1609*) SAug true "double_res" (EScale (-1 # 2) (EEins "mdie,lkcd,celk,abmj->abij" [(ESlice (EVar "g_abab") [SV "o"; SV "v"; SV "o"; SV "v"]); (EVar "l2_abab"); (EVar "t2_abab"); (EVar "t2_abab")]));
   (*L1612*) SAug true "double_res" (EScale (-1 # 2) (EEins "mdie,kldc,eckl,abmj->abij" [(ESlice (EVar "g_abab") [SV "o"; SV "v"; SV "o"; SV "v"]); (EVar "l2_bbbb"); (EVar "t2_bbbb"); (EVar "t2_abab")]));
   (*L1615*) SAug true "double_res" (EScale (1 # 1) (EEins "dmej,kldc,ecil,abkm->abij" [(ESlice (EVar "g_abab") [SV "v"; SV "o"; SV "v"; SV "o"]); (EVar "l2_aaaa"); (EVar "t2_aaaa"); (EVar "t2_abab")]));
   (*L1618*) SAug true "double_res" (EScale (1 # 1) (EEins "dmej,kldc,ecil,abkm->abij" [(ESlice (EVar "g_abab") [SV "v"; SV "o"; SV "v"; SV "o"]); (EVar "l2_abab"); (EVar "t2_abab"); (EVar "t2_abab")]));
   (*L1621*) SAug true "double_res" (EScale (-1 # 1) (EEins "mdej,klcd,ceil,abkm->abij" [(ESlice (EVar "g_bbbb") [SV "o"; SV "v"; SV "v"; SV "o"]); (EVar "l2_abab"); (EVar "t2_abab"); (EVar "t2_abab")]));
   (*L1624*) SAug true "double_res" (EScale (1 # 1) (EEins "mdej,lkcd,ecil,abmk->abij" [(ESlice (EVar "g_abab") [SV "o"; SV "v"; SV "v"; SV "o"]); (EVar "l2_abab"); (EVar "t2_aaaa"); (EVar "t2_abab")]));
   (*L1627*) SAug true "double_res" (EScale (1 # 1) (EEins "mdej,kldc,ecil,abmk->abij" [(ESlice (EVar "g_abab") [SV "o"; SV "v"; SV "v"; SV "o"]); (EVar "l2_bbbb"); (EVar "t2_abab"); (EVar "t2_abab")]));
   (*L1630*) SAug true "double_res" (EScale (1 # 1) (EEins "dmie,kldc,celj,abkm->abij" [(ESlice (EVar "g_abab") [SV "v"; SV "o"; SV "o"; SV "v"]); (EVar "l2_aaaa"); (EVar "t2_abab"); (EVar "t2_abab")]));
   (*L1633*) SAug true "double_res" (EScale (1 # 1) (EEins "dmie,kldc,ecjl,abkm->abij" [(ESlice (EVar "g_abab") [SV "v"; SV "o"; SV "o"; SV "v"]); (EVar "l2_abab"); (EVar "t2_bbbb"); (EVar "t2_abab")]));
   (*L1636*) SAug true "double_res" (EScale (-1 # 1) (EEins "mdei,lkdc,eclj,abmk->abij" [(ESlice (EVar "g_aaaa") [SV "o"; SV "v"; SV "v"; SV "o"]); (EVar "l2_abab"); (EVar "t2_abab"); (EVar "t2_abab")]));
   (*L1639*) SAug true "double_res" (EScale (1 # 1) (EEins "mdie,lkcd,celj,abmk->abij" [(ESlice (EVar "g_abab") [SV "o"; SV "v"; SV "o"; SV "v"]); (EVar "l2_abab"); (EVar "t2_abab"); (EVar "t2_abab")]));
   (*L1642*) SAug true "double_res" (EScale (1 # 1) (EEins "mdie,kldc,ecjl,abmk->abij" [(ESlice (EVar "g_abab") [SV "o"; SV "v"; SV "o"; SV "v"]); (EVar "l2_bbbb"); (EVar "t2_bbbb"); (EVar "t2_abab")]));
   (*L1645*) SAug true "double_res" (EScale (1 # 2) (EEins "dmej,kldc,eakl,cbim->abij" [(ESlice (EVar "g_abab") [SV "v"; SV "o"; SV "v"; SV "o"]); (EVar "l2_aaaa"); (EVar "t2_aaaa"); (EVar "t2_abab")]));
   (*L1648*) SAug true "double_res" (EScale (-1 # 2) (EEins "mdej,klcd,aekl,cbim->abij" [(ESlice (EVar "g_bbbb") [SV "o"; SV "v"; SV "v"; SV "o"]); (EVar "l2_abab"); (EVar "t2_abab"); (EVar "t2_abab")]));
   (*L1651*) SAug true "double_res" (EScale (-1 # 2) (EEins "mdej,lkcd,aelk,cbim->abij" [(ESlice (EVar "g_bbbb") [SV "o"; SV "v"; SV "v"; SV "o"]); (EVar "l2_abab"); (EVar "t2_abab"); (EVar "t2_abab")]));
   (*L1654*) SAug true "double_res" (EScale (1 # 2) (EEins "dmej,kldc,ebkl,acim->abij" [(ESlice (EVar "g_abab") [SV "v"; SV "o"; SV "v"; SV "o"]); (EVar "l2_abab"); (EVar "t2_abab"); (EVar "t2_abab")]));
   (*L1657*) SAug true "double_res" (EScale (-1 # 2) (EEins "mdej,klcd,ebkl,caim->abij" [(ESlice (EVar "g_abab") [SV "o"; SV "v"; SV "v"; SV "o"]); (EVar "l2_abab"); (EVar "t2_abab"); (EVar "t2_aaaa")]));
   (*L1660*) SAug true "double_res" (EScale (1 # 2) (EEins "dmej,lkdc,eblk,acim->abij" [(ESlice (EVar "g_abab") [SV "v"; SV "o"; SV "v"; SV "o"]); (EVar "l2_abab"); (EVar "t2_abab"); (EVar "t2_abab")]));
   (*L1663*) SAug true "double_res" (EScale (-1 # 2) (EEins "mdej,lkcd,eblk,caim->abij" [(ESlice (EVar "g_abab") [SV "o"; SV "v"; SV "v"; SV "o"]); (EVar "l2_abab"); (EVar "t2_abab"); (EVar "t2_aaaa")]));
   (*L1666*) SAug true "double_res" (EScale (-1 # 2) (EEins "mdej,kldc,ebkl,acim->abij" [(ESlice (EVar "g_bbbb") [SV "o"; SV "v"; SV "v"; SV "o"]); (EVar "l2_bbbb"); (EVar "t2_bbbb"); (EVar "t2_abab")]));
   (*L1669*) SAug true "double_res" (EScale (-1 # 2) (EEins "mdei,kldc,eakl,cbmj->abij" [(ESlice (EVar "g_aaaa") [SV "o"; SV "v"; SV "v"; SV "o"]); (EVar "l2_aaaa"); (EVar "t2_aaaa"); (EVar "t2_abab")]));
   (*L1672*) SAug true "double_res" (EScale (-1 # 2) (EEins "dmie,kldc,aekl,cbjm->abij" [(ESlice (EVar "g_abab") [SV "v"; SV "o"; SV "o"; SV "v"]); (EVar "l2_abab"); (EVar "t2_abab"); (EVar "t2_bbbb")]));
   (*L1675*) SAug true "double_res" (EScale (1 # 2) (EEins "mdie,klcd,aekl,cbmj->abij" [(ESlice (EVar "g_abab") [SV "o"; SV "v"; SV "o"; SV "v"]); (EVar "l2_abab"); (EVar "t2_abab"); (EVar "t2_abab")]));
   (*L1678*) SAug true "double_res" (EScale (-1 # 2) (EEins "dmie,lkdc,aelk,cbjm->abij" [(ESlice (EVar "g_abab") [SV "v"; SV "o"; SV "o"; SV "v"]); (EVar "l2_abab"); (EVar "t2_abab"); (EVar "t2_bbbb")]));
   (*L1681*) SAug true "double_res" (EScale (1 # 2) (EEins "mdie,lkcd,aelk,cbmj->abij" [(ESlice (EVar "g_abab") [SV "o"; SV "v"; SV "o"; SV "v"]); (EVar "l2_abab"); (EVar "t2_abab"); (EVar "t2_abab")]));
   (*L1684*) SAug true "double_res" (EScale (-1 # 2) (EEins "mdei,kldc,ebkl,acmj->abij" [(ESlice (EVar "g_aaaa") [SV "o"; SV "v"; SV "v"; SV "o"]); (EVar "l2_abab"); (EVar "t2_abab"); (EVar "t2_abab")]));
   (*L1687*) SAug true "double_res" (EScale (-1 # 2) (EEins "mdei,lkdc,eblk,acmj->abij" [(ESlice (EVar "g_aaaa") [SV "o"; SV "v"; SV "v"; SV "o"]); (EVar "l2_abab"); (EVar "t2_abab"); (EVar "t2_abab")]));
   (*L1690*) SAug true "double_res" (EScale (1 # 2) (EEins "mdie,kldc,ebkl,acmj->abij" [(ESlice (EVar "g_abab") [SV "o"; SV "v"; SV "o"; SV "v"]); (EVar "l2_bbbb"); (EVar "t2_bbbb"); (EVar "t2_abab")]));
   (*L1693*) SAug true "double_res" (EScale (-1 # 1) (EEins "dmej,kldc,eail,cbkm->abij" [(ESlice (EVar "g_abab") [SV "v"; SV "o"; SV "v"; SV "o"]); (EVar "l2_aaaa"); (EVar "t2_aaaa"); (EVar "t2_abab")]));
   (*L1696*) SAug true "double_res" (EScale (1 # 1) (EEins "mdej,klcd,aeil,cbkm->abij" [(ESlice (EVar "g_bbbb") [SV "o"; SV "v"; SV "v"; SV "o"]); (EVar "l2_abab"); (EVar "t2_abab"); (EVar "t2_abab")]));
   (*L1699*) SAug true "double_res" (EScale (1 # 1) (EEins "dmej,lkdc,eail,cbkm->abij" [(ESlice (EVar "g_abab") [SV "v"; SV "o"; SV "v"; SV "o"]); (EVar "l2_abab"); (EVar "t2_aaaa"); (EVar "t2_bbbb")]));
   (*L1702*) SAug true "double_res" (EScale (-1 # 1) (EEins "mdej,lkcd,eail,cbmk->abij" [(ESlice (EVar "g_abab") [SV "o"; SV "v"; SV "v"; SV "o"]); (EVar "l2_abab"); (EVar "t2_aaaa"); (EVar "t2_abab")]));
   (*L1705*) SAug true "double_res" (EScale (-1 # 1) (EEins "mdej,kldc,aeil,cbkm->abij" [(ESlice (EVar "g_bbbb") [SV "o"; SV "v"; SV "v"; SV "o"]); (EVar "l2_bbbb"); (EVar "t2_abab"); (EVar "t2_bbbb")]));
   (*L1708*) SAug true "double_res" (EScale (-1 # 1) (EEins "dmej,kldc,ebil,ackm->abij" [(ESlice (EVar "g_abab") [SV "v"; SV "o"; SV "v"; SV "o"]); (EVar "l2_abab"); (EVar "t2_abab"); (EVar "t2_abab")]));
   (*L1711*) SAug true "double_res" (EScale (1 # 1) (EEins "mdej,klcd,ebil,cakm->abij" [(ESlice (EVar "g_abab") [SV "o"; SV "v"; SV "v"; SV "o"]); (EVar "l2_abab"); (EVar "t2_abab"); (EVar "t2_aaaa")]));
   (*L1714*) SAug true "double_res" (EScale (-1 # 1) (EEins "mdej,kldc,ebil,acmk->abij" [(ESlice (EVar "g_abab") [SV "o"; SV "v"; SV "v"; SV "o"]); (EVar "l2_bbbb"); (EVar "t2_abab"); (EVar "t2_abab")]));
   (*L1717*) SAug true "double_res" (EScale (-1 # 1) (EEins "dmie,kldc,aelj,cbkm->abij" [(ESlice (EVar "g_abab") [SV "v"; SV "o"; SV "o"; SV "v"]); (EVar "l2_aaaa"); (EVar "t2_abab"); (EVar "t2_abab")]));
   (*L1720*) SAug true "double_res" (EScale (1 # 1) (EEins "dmie,lkdc,aelj,cbkm->abij" [(ESlice (EVar "g_abab") [SV "v"; SV "o"; SV "o"; SV "v"]); (EVar "l2_abab"); (EVar "t2_abab"); (EVar "t2_bbbb")]));
   (*L1723*) SAug true "double_res" (EScale (-1 # 1) (EEins "mdie,lkcd,aelj,cbmk->abij" [(ESlice (EVar "g_abab") [SV "o"; SV "v"; SV "o"; SV "v"]); (EVar "l2_abab"); (EVar "t2_abab"); (EVar "t2_abab")]));
   (*L1726*) SAug true "double_res" (EScale (-1 # 1) (EEins "mdei,kldc,eblj,cakm->abij" [(ESlice (EVar "g_aaaa") [SV "o"; SV "v"; SV "v"; SV "o"]); (EVar "l2_aaaa"); (EVar "t2_abab"); (EVar "t2_aaaa")]));
   (*L1729*) SAug true "double_res" (EScale (-1 # 1) (EEins "dmie,kldc,ebjl,ackm->abij" [(ESlice (EVar "g_abab") [SV "v"; SV "o"; SV "o"; SV "v"]); (EVar "l2_abab"); (EVar "t2_bbbb"); (EVar "t2_abab")]));
   (*L1732*) SAug true "double_res" (EScale (1 # 1) (EEins "mdie,klcd,ebjl,cakm->abij" [(ESlice (EVar "g_abab") [SV "o"; SV "v"; SV "o"; SV "v"]); (EVar "l2_abab"); (EVar "t2_bbbb"); (EVar "t2_aaaa")]));
   (*L1735*) SAug true "double_res" (EScale (1 # 1) (EEins "mdei,lkdc,eblj,acmk->abij" [(ESlice (EVar "g_aaaa") [SV "o"; SV "v"; SV "v"; SV "o"]); (EVar "l2_abab"); (EVar "t2_abab"); (EVar "t2_abab")]));
   (*L1738*) SAug true "double_res" (EScale (-1 # 1) (EEins "mdie,kldc,ebjl,acmk->abij" [(ESlice (EVar "g_abab") [SV "o"; SV "v"; SV "o"; SV "v"]); (EVar "l2_bbbb"); (EVar "t2_bbbb"); (EVar "t2_abab")]));
   (*L1741*) SAug true "double_res" (EScale (1 # 1) (EEins "amle,kldc,dekj,cbim->abij" [(ESlice (EVar "g_abab") [SV "v"; SV "o"; SV "o"; SV "v"]); (EVar "l2_aaaa"); (EVar "t2_abab"); (EVar "t2_abab")]));
   (*L1744*) SAug true "double_res" (EScale (-1 # 1) (EEins "amel,klcd,edkj,cbim->abij" [(ESlice (EVar "g_abab") [SV "v"; SV "o"; SV "v"; SV "o"]); (EVar "l2_abab"); (EVar "t2_abab"); (EVar "t2_abab")]));
   (*L1747*) SAug true "double_res" (EScale (1 # 1) (EEins "amle,lkcd,edjk,cbim->abij" [(ESlice (EVar "g_abab") [SV "v"; SV "o"; SV "o"; SV "v"]); (EVar "l2_abab"); (EVar "t2_bbbb"); (EVar "t2_abab")]));
   (*L1750*) SAug true "double_res" (EScale (1 # 1) (EEins "mble,kldc,dekj,caim->abij" [(ESlice (EVar "g_abab") [SV "o"; SV "v"; SV "o"; SV "v"]); (EVar "l2_aaaa"); (EVar "t2_abab"); (EVar "t2_aaaa")]));
   (*L1753*) SAug true "double_res" (EScale (1 # 1) (EEins "mbel,kldc,dekj,acim->abij" [(ESlice (EVar "g_bbbb") [SV "o"; SV "v"; SV "v"; SV "o"]); (EVar "l2_abab"); (EVar "t2_abab"); (EVar "t2_abab")]));
   (*L1756*) SAug true "double_res" (EScale (-1 # 1) (EEins "mbel,klcd,edkj,caim->abij" [(ESlice (EVar "g_abab") [SV "o"; SV "v"; SV "v"; SV "o"]); (EVar "l2_abab"); (EVar "t2_abab"); (EVar "t2_aaaa")]));
   (*L1759*) SAug true "double_res" (EScale (1 # 1) (EEins "mble,lkcd,edjk,caim->abij" [(ESlice (EVar "g_abab") [SV "o"; SV "v"; SV "o"; SV "v"]); (EVar "l2_abab"); (EVar "t2_bbbb"); (EVar "t2_aaaa")]));
   (*L1762*) SAug true "double_res" (EScale (1 # 1) (EEins "mbel,kldc,edjk,acim->abij" [(ESlice (EVar "g_bbbb") [SV "o"; SV "v"; SV "v"; SV "o"]); (EVar "l2_bbbb"); (EVar "t2_bbbb"); (EVar "t2_abab")]));
   (*L1765*) SAug true "double_res" (EScale (1 # 1) (EEins "mael,kldc,edik,cbmj->abij" [(ESlice (EVar "g_aaaa") [SV "o"; SV "v"; SV "v"; SV "o"]); (EVar "l2_aaaa"); (EVar "t2_aaaa"); (EVar "t2_abab")]));
   (*L1768*) SAug true "double_res" (EScale (1 # 1) (EEins "amel,kldc,edik,cbjm->abij" [(ESlice (EVar "g_abab") [SV "v"; SV "o"; SV "v"; SV "o"]); (EVar "l2_abab"); (EVar "t2_aaaa"); (EVar "t2_bbbb")]));
   (*L1771*) SAug true "double_res" (EScale (-1 # 1) (EEins "amle,lkdc,deik,cbjm->abij" [(ESlice (EVar "g_abab") [SV "v"; SV "o"; SV "o"; SV "v"]); (EVar "l2_abab"); (EVar "t2_abab"); (EVar "t2_bbbb")]));
   (*L1774*) SAug true "double_res" (EScale (1 # 1) (EEins "mael,lkcd,edik,cbmj->abij" [(ESlice (EVar "g_aaaa") [SV "o"; SV "v"; SV "v"; SV "o"]); (EVar "l2_abab"); (EVar "t2_abab"); (EVar "t2_abab")]));
   (*L1777*) SAug true "double_res" (EScale (1 # 1) (EEins "amel,kldc,edik,cbjm->abij" [(ESlice (EVar "g_abab") [SV "v"; SV "o"; SV "v"; SV "o"]); (EVar "l2_bbbb"); (EVar "t2_abab"); (EVar "t2_bbbb")]));
   (*L1780*) SAug true "double_res" (EScale (1 # 1) (EEins "mbel,kldc,edik,acmj->abij" [(ESlice (EVar "g_abab") [SV "o"; SV "v"; SV "v"; SV "o"]); (EVar "l2_abab"); (EVar "t2_aaaa"); (EVar "t2_abab")]));
   (*L1783*) SAug true "double_res" (EScale (-1 # 1) (EEins "mble,lkdc,deik,acmj->abij" [(ESlice (EVar "g_abab") [SV "o"; SV "v"; SV "o"; SV "v"]); (EVar "l2_abab"); (EVar "t2_abab"); (EVar "t2_abab")]));
   (*L1786*) SAug true "double_res" (EScale (1 # 1) (EEins "mbel,kldc,edik,acmj->abij" [(ESlice (EVar "g_abab") [SV "o"; SV "v"; SV "v"; SV "o"]); (EVar "l2_bbbb"); (EVar "t2_abab"); (EVar "t2_abab")]));
   (*L1789*) SAug true "double_res" (EScale (-1 # 1) (EEins "amle,kldc,deij,cbkm->abij" [(ESlice (EVar "g_abab") [SV "v"; SV "o"; SV "o"; SV "v"]); (EVar "l2_aaaa"); (EVar "t2_abab"); (EVar "t2_abab")]));
   (*L1792*) SAug true "double_res" (EScale (1 # 1) (EEins "amel,klcd,edij,cbkm->abij" [(ESlice (EVar "g_abab") [SV "v"; SV "o"; SV "v"; SV "o"]); (EVar "l2_abab"); (EVar "t2_abab"); (EVar "t2_abab")]));
   (*L1795*) SAug true "double_res" (EScale (1 # 1) (EEins "amle,lkdc,deij,cbkm->abij" [(ESlice (EVar "g_abab") [SV "v"; SV "o"; SV "o"; SV "v"]); (EVar "l2_abab"); (EVar "t2_abab"); (EVar "t2_bbbb")]));
   (*L1798*) SAug true "double_res" (EScale (-1 # 1) (EEins "mael,lkcd,edij,cbmk->abij" [(ESlice (EVar "g_aaaa") [SV "o"; SV "v"; SV "v"; SV "o"]); (EVar "l2_abab"); (EVar "t2_abab"); (EVar "t2_abab")]));
   (*L1801*) SAug true "double_res" (EScale (-1 # 1) (EEins "amel,kldc,edij,cbkm->abij" [(ESlice (EVar "g_abab") [SV "v"; SV "o"; SV "v"; SV "o"]); (EVar "l2_bbbb"); (EVar "t2_abab"); (EVar "t2_bbbb")]));
   (*L1804*) SAug true "double_res" (EScale (-1 # 1) (EEins "mble,kldc,deij,cakm->abij" [(ESlice (EVar "g_abab") [SV "o"; SV "v"; SV "o"; SV "v"]); (EVar "l2_aaaa"); (EVar "t2_abab"); (EVar "t2_aaaa")]));
   (*L1807*) SAug true "double_res" (EScale (-1 # 1) (EEins "mbel,kldc,deij,ackm->abij" [(ESlice (EVar "g_bbbb") [SV "o"; SV "v"; SV "v"; SV "o"]); (EVar "l2_abab"); (EVar "t2_abab"); (EVar "t2_abab")]));
   (*L1810*) SAug true "double_res" (EScale (1 # 1) (EEins "mbel,klcd,edij,cakm->abij" [(ESlice (EVar "g_abab") [SV "o"; SV "v"; SV "v"; SV "o"]); (EVar "l2_abab"); (EVar "t2_abab"); (EVar "t2_aaaa")]));
   (*L1813*) SAug true "double_res" (EScale (1 # 1) (EEins "mble,lkdc,deij,acmk->abij" [(ESlice (EVar "g_abab") [SV "o"; SV "v"; SV "o"; SV "v"]); (EVar "l2_abab"); (EVar "t2_abab"); (EVar "t2_abab")]));
   (*L1816*) SAug true "double_res" (EScale (-1 # 1) (EEins "mbel,kldc,edij,acmk->abij" [(ESlice (EVar "g_abab") [SV "o"; SV "v"; SV "v"; SV "o"]); (EVar "l2_bbbb"); (EVar "t2_abab"); (EVar "t2_abab")]));
   (*L1819*) SAug true "double_res" (EScale (-1 # 2) (EEins "mael,kldc,ebkj,dcim->abij" [(ESlice (EVar "g_aaaa") [SV "o"; SV "v"; SV "v"; SV "o"]); (EVar "l2_aaaa"); (EVar "t2_abab"); (EVar "t2_aaaa")]));
   (*L1822*) SAug true "double_res" (EScale (1 # 2) (EEins "amel,kldc,ebkj,dcim->abij" [(ESlice (EVar "g_abab") [SV "v"; SV "o"; SV "v"; SV "o"]); (EVar "l2_abab"); (EVar "t2_abab"); (EVar "t2_abab")]));
   (*L1825*) SAug true "double_res" (EScale (1 # 2) (EEins "amel,klcd,ebkj,cdim->abij" [(ESlice (EVar "g_abab") [SV "v"; SV "o"; SV "v"; SV "o"]); (EVar "l2_abab"); (EVar "t2_abab"); (EVar "t2_abab")]));
   (*L1828*) SAug true "double_res" (EScale (-1 # 2) (EEins "amle,lkdc,ebjk,dcim->abij" [(ESlice (EVar "g_abab") [SV "v"; SV "o"; SV "o"; SV "v"]); (EVar "l2_abab"); (EVar "t2_bbbb"); (EVar "t2_abab")]));
   (*L1831*) SAug true "double_res" (EScale (-1 # 2) (EEins "amle,lkcd,ebjk,cdim->abij" [(ESlice (EVar "g_abab") [SV "v"; SV "o"; SV "o"; SV "v"]); (EVar "l2_abab"); (EVar "t2_bbbb"); (EVar "t2_abab")]));
   (*L1834*) SAug true "double_res" (EScale (1 # 2) (EEins "mble,kldc,aekj,dcim->abij" [(ESlice (EVar "g_abab") [SV "o"; SV "v"; SV "o"; SV "v"]); (EVar "l2_aaaa"); (EVar "t2_abab"); (EVar "t2_aaaa")]));
   (*L1837*) SAug true "double_res" (EScale (-1 # 2) (EEins "mbel,kldc,aekj,dcim->abij" [(ESlice (EVar "g_bbbb") [SV "o"; SV "v"; SV "v"; SV "o"]); (EVar "l2_abab"); (EVar "t2_abab"); (EVar "t2_abab")]));
   (*L1840*) SAug true "double_res" (EScale (-1 # 2) (EEins "mbel,klcd,aekj,cdim->abij" [(ESlice (EVar "g_bbbb") [SV "o"; SV "v"; SV "v"; SV "o"]); (EVar "l2_abab"); (EVar "t2_abab"); (EVar "t2_abab")]));
   (*L1843*) SAug true "double_res" (EScale (-1 # 2) (EEins "mael,lkdc,ebik,dcmj->abij" [(ESlice (EVar "g_aaaa") [SV "o"; SV "v"; SV "v"; SV "o"]); (EVar "l2_abab"); (EVar "t2_abab"); (EVar "t2_abab")]));
   (*L1846*) SAug true "double_res" (EScale (-1 # 2) (EEins "mael,lkcd,ebik,cdmj->abij" [(ESlice (EVar "g_aaaa") [SV "o"; SV "v"; SV "v"; SV "o"]); (EVar "l2_abab"); (EVar "t2_abab"); (EVar "t2_abab")]));
   (*L1849*) SAug true "double_res" (EScale (1 # 2) (EEins "amel,kldc,ebik,dcjm->abij" [(ESlice (EVar "g_abab") [SV "v"; SV "o"; SV "v"; SV "o"]); (EVar "l2_bbbb"); (EVar "t2_abab"); (EVar "t2_bbbb")]));
   (*L1852*) SAug true "double_res" (EScale (-1 # 2) (EEins "mbel,kldc,eaik,dcmj->abij" [(ESlice (EVar "g_abab") [SV "o"; SV "v"; SV "v"; SV "o"]); (EVar "l2_abab"); (EVar "t2_aaaa"); (EVar "t2_abab")]));
   (*L1855*) SAug true "double_res" (EScale (-1 # 2) (EEins "mbel,klcd,eaik,cdmj->abij" [(ESlice (EVar "g_abab") [SV "o"; SV "v"; SV "v"; SV "o"]); (EVar "l2_abab"); (EVar "t2_aaaa"); (EVar "t2_abab")]));
   (*L1858*) SAug true "double_res" (EScale (1 # 2) (EEins "mble,lkdc,aeik,dcmj->abij" [(ESlice (EVar "g_abab") [SV "o"; SV "v"; SV "o"; SV "v"]); (EVar "l2_abab"); (EVar "t2_abab"); (EVar "t2_abab")]));
   (*L1861*) SAug true "double_res" (EScale (1 # 2) (EEins "mble,lkcd,aeik,cdmj->abij" [(ESlice (EVar "g_abab") [SV "o"; SV "v"; SV "o"; SV "v"]); (EVar "l2_abab"); (EVar "t2_abab"); (EVar "t2_abab")]));
   (*L1864*) SAug true "double_res" (EScale (-1 # 2) (EEins "mbel,kldc,aeik,dcjm->abij" [(ESlice (EVar "g_bbbb") [SV "o"; SV "v"; SV "v"; SV "o"]); (EVar "l2_bbbb"); (EVar "t2_abab"); (EVar "t2_bbbb")]));
   (*L1867*) SAug true "double_res" (EScale (1 # 2) (EEins "mael,kldc,ebij,dckm->abij" [(ESlice (EVar "g_aaaa") [SV "o"; SV "v"; SV "v"; SV "o"]); (EVar "l2_aaaa"); (EVar "t2_abab"); (EVar "t2_aaaa")]));
   (*L1870*) SAug true "double_res" (EScale (-1 # 2) (EEins "amel,kldc,ebij,dckm->abij" [(ESlice (EVar "g_abab") [SV "v"; SV "o"; SV "v"; SV "o"]); (EVar "l2_abab"); (EVar "t2_abab"); (EVar "t2_abab")]));
   (*L1873*) SAug true "double_res" (EScale (-1 # 2) (EEins "amel,klcd,ebij,cdkm->abij" [(ESlice (EVar "g_abab") [SV "v"; SV "o"; SV "v"; SV "o"]); (EVar "l2_abab"); (EVar "t2_abab"); (EVar "t2_abab")]));
   (*L1876*) SAug true "double_res" (EScale (1 # 2) (EEins "mael,lkdc,ebij,dcmk->abij" [(ESlice (EVar "g_aaaa") [SV "o"; SV "v"; SV "v"; SV "o"]); (EVar "l2_abab"); (EVar "t2_abab"); (EVar "t2_abab")]));
   (*L1879*) SAug true "double_res" (EScale (1 # 2) (EEins "mael,lkcd,ebij,cdmk->abij" [(ESlice (EVar "g_aaaa") [SV "o"; SV "v"; SV "v"; SV "o"]); (EVar "l2_abab"); (EVar "t2_abab"); (EVar "t2_abab")]));
   (*L1882*) SAug true "double_res" (EScale (-1 # 2) (EEins "amel,kldc,ebij,dckm->abij" [(ESlice (EVar "g_abab") [SV "v"; SV "o"; SV "v"; SV "o"]); (EVar "l2_bbbb"); (EVar "t2_abab"); (EVar "t2_bbbb")]));
   (*L1885*) SAug true "double_res" (EScale (-1 # 2) (EEins "mble,kldc,aeij,dckm->abij" [(ESlice (EVar "g_abab") [SV "o"; SV "v"; SV "o"; SV "v"]); (EVar "l2_aaaa"); (EVar "t2_abab"); (EVar "t2_aaaa")]));
   (*L1888*) SAug true "double_res" (EScale (1 # 2) (EEins "mbel,kldc,aeij,dckm->abij" [(ESlice (EVar "g_bbbb") [SV "o"; SV "v"; SV "v"; SV "o"]); (EVar "l2_abab"); (EVar "t2_abab"); (EVar "t2_abab")]));
   (*L1891*) SAug true "double_res" (EScale (1 # 2) (EEins "mbel,klcd,aeij,cdkm->abij" [(ESlice (EVar "g_bbbb") [SV "o"; SV "v"; SV "v"; SV "o"]); (EVar "l2_abab"); (EVar "t2_abab"); (EVar "t2_abab")]));
   (*L1894*) SAug true "double_res" (EScale (-1 # 2) (EEins "mble,lkdc,aeij,dcmk->abij" [(ESlice (EVar "g_abab") [SV "o"; SV "v"; SV "o"; SV "v"]); (EVar "l2_abab"); (EVar "t2_abab"); (EVar "t2_abab")]));
   (*L1897*) SAug true "double_res" (EScale (-1 # 2) (EEins "mble,lkcd,aeij,cdmk->abij" [(ESlice (EVar "g_abab") [SV "o"; SV "v"; SV "o"; SV "v"]); (EVar "l2_abab"); (EVar "t2_abab"); (EVar "t2_abab")]));
   (*L1900*) SAug true "double_res" (EScale (1 # 2) (EEins "mbel,kldc,aeij,dckm->abij" [(ESlice (EVar "g_bbbb") [SV "o"; SV "v"; SV "v"; SV "o"]); (EVar "l2_bbbb"); (EVar "t2_abab"); (EVar "t2_bbbb")]));
   (*L1903*) SAug true "double_res" (EScale (-1 # 2) (EEins "amej,kldc,edkl,cbim->abij" [(ESlice (EVar "g_abab") [SV "v"; SV "o"; SV "v"; SV "o"]); (EVar "l2_aaaa"); (EVar "t2_aaaa"); (EVar "t2_abab")]));
   (*L1906*) SAug true "double_res" (EScale (1 # 2) (EEins "amej,klcd,edkl,cbim->abij" [(ESlice (EVar "g_abab") [SV "v"; SV "o"; SV "v"; SV "o"]); (EVar "l2_abab"); (EVar "t2_abab"); (EVar "t2_abab")]));
   (*L1909*) SAug true "double_res" (EScale (1 # 2) (EEins "amej,lkcd,edlk,cbim->abij" [(ESlice (EVar "g_abab") [SV "v"; SV "o"; SV "v"; SV "o"]); (EVar "l2_abab"); (EVar "t2_abab"); (EVar "t2_abab")]));
   (*L1912*) SAug true "double_res" (EScale (-1 # 2) (EEins "mbej,kldc,edkl,caim->abij" [(ESlice (EVar "g_abab") [SV "o"; SV "v"; SV "v"; SV "o"]); (EVar "l2_aaaa"); (EVar "t2_aaaa"); (EVar "t2_aaaa")]));
   (*L1915*) SAug true "double_res" (EScale (-1 # 2) (EEins "mbej,kldc,dekl,acim->abij" [(ESlice (EVar "g_bbbb") [SV "o"; SV "v"; SV "v"; SV "o"]); (EVar "l2_abab"); (EVar "t2_abab"); (EVar "t2_abab")]));
   (*L1918*) SAug true "double_res" (EScale (1 # 2) (EEins "mbej,klcd,edkl,caim->abij" [(ESlice (EVar "g_abab") [SV "o"; SV "v"; SV "v"; SV "o"]); (EVar "l2_abab"); (EVar "t2_abab"); (EVar "t2_aaaa")]));
   (*L1921*) SAug true "double_res" (EScale (-1 # 2) (EEins "mbej,lkdc,delk,acim->abij" [(ESlice (EVar "g_bbbb") [SV "o"; SV "v"; SV "v"; SV "o"]); (EVar "l2_abab"); (EVar "t2_abab"); (EVar "t2_abab")]));
   (*L1924*) SAug true "double_res" (EScale (1 # 2) (EEins "mbej,lkcd,edlk,caim->abij" [(ESlice (EVar "g_abab") [SV "o"; SV "v"; SV "v"; SV "o"]); (EVar "l2_abab"); (EVar "t2_abab"); (EVar "t2_aaaa")]));
   (*L1927*) SAug true "double_res" (EScale (1 # 2) (EEins "mbej,kldc,edkl,acim->abij" [(ESlice (EVar "g_bbbb") [SV "o"; SV "v"; SV "v"; SV "o"]); (EVar "l2_bbbb"); (EVar "t2_bbbb"); (EVar "t2_abab")]));
   (*L1930*) SAug true "double_res" (EScale (1 # 2) (EEins "maei,kldc,edkl,cbmj->abij" [(ESlice (EVar "g_aaaa") [SV "o"; SV "v"; SV "v"; SV "o"]); (EVar "l2_aaaa"); (EVar "t2_aaaa"); (EVar "t2_abab")]));
   (*L1933*) SAug true "double_res" (EScale (1 # 2) (EEins "amie,kldc,dekl,cbjm->abij" [(ESlice (EVar "g_abab") [SV "v"; SV "o"; SV "o"; SV "v"]); (EVar "l2_abab"); (EVar "t2_abab"); (EVar "t2_bbbb")]));
   (*L1936*) SAug true "double_res" (EScale (-1 # 2) (EEins "maei,klcd,edkl,cbmj->abij" [(ESlice (EVar "g_aaaa") [SV "o"; SV "v"; SV "v"; SV "o"]); (EVar "l2_abab"); (EVar "t2_abab"); (EVar "t2_abab")]));
   (*L1939*) SAug true "double_res" (EScale (1 # 2) (EEins "amie,lkdc,delk,cbjm->abij" [(ESlice (EVar "g_abab") [SV "v"; SV "o"; SV "o"; SV "v"]); (EVar "l2_abab"); (EVar "t2_abab"); (EVar "t2_bbbb")]));
   (*L1942*) SAug true "double_res" (EScale (-1 # 2) (EEins "maei,lkcd,edlk,cbmj->abij" [(ESlice (EVar "g_aaaa") [SV "o"; SV "v"; SV "v"; SV "o"]); (EVar "l2_abab"); (EVar "t2_abab"); (EVar "t2_abab")]));
   (*L1945*) SAug true "double_res" (EScale (-1 # 2) (EEins "amie,kldc,edkl,cbjm->abij" [(ESlice (EVar "g_abab") [SV "v"; SV "o"; SV "o"; SV "v"]); (EVar "l2_bbbb"); (EVar "t2_bbbb"); (EVar "t2_bbbb")]));
   (*L1948*) SAug true "double_res" (EScale (1 # 2) (EEins "mbie,kldc,dekl,acmj->abij" [(ESlice (EVar "g_abab") [SV "o"; SV "v"; SV "o"; SV "v"]); (EVar "l2_abab"); (EVar "t2_abab"); (EVar "t2_abab")]));
   (*L1951*) SAug true "double_res" (EScale (1 # 2) (EEins "mbie,lkdc,delk,acmj->abij" [(ESlice (EVar "g_abab") [SV "o"; SV "v"; SV "o"; SV "v"]); (EVar "l2_abab"); (EVar "t2_abab"); (EVar "t2_abab")]));
   (*L1954*) SAug true "double_res" (EScale (-1 # 2) (EEins "mbie,kldc,edkl,acmj->abij" [(ESlice (EVar "g_abab") [SV "o"; SV "v"; SV "o"; SV "v"]); (EVar "l2_bbbb"); (EVar "t2_bbbb"); (EVar "t2_abab")]));
   (*L1957*) SAug true "double_res" (EScale (1 # 1) (EEins "amej,kldc,edil,cbkm->abij" [(ESlice (EVar "g_abab") [SV "v"; SV "o"; SV "v"; SV "o"]); (EVar "l2_aaaa"); (EVar "t2_aaaa"); (EVar "t2_abab")]));
   (*L1960*) SAug true "double_res" (EScale (-1 # 1) (EEins "amej,klcd,edil,cbkm->abij" [(ESlice (EVar "g_abab") [SV "v"; SV "o"; SV "v"; SV "o"]); (EVar "l2_abab"); (EVar "t2_abab"); (EVar "t2_abab")]));
   (*L1963*) SAug true "double_res" (EScale (-1 # 1) (EEins "amej,lkdc,edil,cbkm->abij" [(ESlice (EVar "g_abab") [SV "v"; SV "o"; SV "v"; SV "o"]); (EVar "l2_abab"); (EVar "t2_aaaa"); (EVar "t2_bbbb")]));
   (*L1966*) SAug true "double_res" (EScale (1 # 1) (EEins "amej,kldc,edil,cbkm->abij" [(ESlice (EVar "g_abab") [SV "v"; SV "o"; SV "v"; SV "o"]); (EVar "l2_bbbb"); (EVar "t2_abab"); (EVar "t2_bbbb")]));
   (*L1969*) SAug true "double_res" (EScale (1 # 1) (EEins "mbej,kldc,edil,cakm->abij" [(ESlice (EVar "g_abab") [SV "o"; SV "v"; SV "v"; SV "o"]); (EVar "l2_aaaa"); (EVar "t2_aaaa"); (EVar "t2_aaaa")]));
   (*L1972*) SAug true "double_res" (EScale (1 # 1) (EEins "mbej,kldc,deil,ackm->abij" [(ESlice (EVar "g_bbbb") [SV "o"; SV "v"; SV "v"; SV "o"]); (EVar "l2_abab"); (EVar "t2_abab"); (EVar "t2_abab")]));
   (*L1975*) SAug true "double_res" (EScale (-1 # 1) (EEins "mbej,klcd,edil,cakm->abij" [(ESlice (EVar "g_abab") [SV "o"; SV "v"; SV "v"; SV "o"]); (EVar "l2_abab"); (EVar "t2_abab"); (EVar "t2_aaaa")]));
   (*L1978*) SAug true "double_res" (EScale (-1 # 1) (EEins "mbej,lkdc,edil,acmk->abij" [(ESlice (EVar "g_abab") [SV "o"; SV "v"; SV "v"; SV "o"]); (EVar "l2_abab"); (EVar "t2_aaaa"); (EVar "t2_abab")]));
   (*L1981*) SAug true "double_res" (EScale (1 # 1) (EEins "mbej,kldc,edil,acmk->abij" [(ESlice (EVar "g_abab") [SV "o"; SV "v"; SV "v"; SV "o"]); (EVar "l2_bbbb"); (EVar "t2_abab"); (EVar "t2_abab")]));
   (*L1984*) SAug true "double_res" (EScale (1 # 1) (EEins "amie,kldc,delj,cbkm->abij" [(ESlice (EVar "g_abab") [SV "v"; SV "o"; SV "o"; SV "v"]); (EVar "l2_aaaa"); (EVar "t2_abab"); (EVar "t2_abab")]));
   (*L1987*) SAug true "double_res" (EScale (-1 # 1) (EEins "amie,klcd,edjl,cbkm->abij" [(ESlice (EVar "g_abab") [SV "v"; SV "o"; SV "o"; SV "v"]); (EVar "l2_abab"); (EVar "t2_bbbb"); (EVar "t2_abab")]));
   (*L1990*) SAug true "double_res" (EScale (-1 # 1) (EEins "amie,lkdc,delj,cbkm->abij" [(ESlice (EVar "g_abab") [SV "v"; SV "o"; SV "o"; SV "v"]); (EVar "l2_abab"); (EVar "t2_abab"); (EVar "t2_bbbb")]));
   (*L1993*) SAug true "double_res" (EScale (1 # 1) (EEins "maei,lkcd,edlj,cbmk->abij" [(ESlice (EVar "g_aaaa") [SV "o"; SV "v"; SV "v"; SV "o"]); (EVar "l2_abab"); (EVar "t2_abab"); (EVar "t2_abab")]));
   (*L1996*) SAug true "double_res" (EScale (1 # 1) (EEins "amie,kldc,edjl,cbkm->abij" [(ESlice (EVar "g_abab") [SV "v"; SV "o"; SV "o"; SV "v"]); (EVar "l2_bbbb"); (EVar "t2_bbbb"); (EVar "t2_bbbb")]));
   (*L1999*) SAug true "double_res" (EScale (1 # 1) (EEins "mbie,kldc,delj,cakm->abij" [(ESlice (EVar "g_abab") [SV "o"; SV "v"; SV "o"; SV "v"]); (EVar "l2_aaaa"); (EVar "t2_abab"); (EVar "t2_aaaa")]));
   (*L2002*) SAug true "double_res" (EScale (-1 # 1) (EEins "mbie,klcd,edjl,cakm->abij" [(ESlice (EVar "g_abab") [SV "o"; SV "v"; SV "o"; SV "v"]); (EVar "l2_abab"); (EVar "t2_bbbb"); (EVar "t2_aaaa")]));
   (*L2005*) SAug true "double_res" (EScale (-1 # 1) (EEins "mbie,lkdc,delj,acmk->abij" [(ESlice (EVar "g_abab") [SV "o"; SV "v"; SV "o"; SV "v"]); (EVar "l2_abab"); (EVar "t2_abab"); (EVar "t2_abab")]));
   (*L2008*) SAug true "double_res" (EScale (1 # 1) (EEins "mbie,kldc,edjl,acmk->abij" [(ESlice (EVar "g_abab") [SV "o"; SV "v"; SV "o"; SV "v"]); (EVar "l2_bbbb"); (EVar "t2_bbbb"); (EVar "t2_abab")]));
   (*L2011*) SAug true "double_res" (EScale (-1 # 4) (EEins "amej,kldc,ebkl,dcim->abij" [(ESlice (EVar "g_abab") [SV "v"; SV "o"; SV "v"; SV "o"]); (EVar "l2_abab"); (EVar "t2_abab"); (EVar "t2_abab")]));
   (*L2014*) SAug true "double_res" (EScale (-1 # 4) (EEins "amej,klcd,ebkl,cdim->abij" [(ESlice (EVar "g_abab") [SV "v"; SV "o"; SV "v"; SV "o"]); (EVar "l2_abab"); (EVar "t2_abab"); (EVar "t2_abab")]));
   (*L2017*) SAug true "double_res" (EScale (-1 # 4) (EEins "amej,lkdc,eblk,dcim->abij" [(ESlice (EVar "g_abab") [SV "v"; SV "o"; SV "v"; SV "o"]); (EVar "l2_abab"); (EVar "t2_abab"); (EVar "t2_abab")]));
   (*L2020*) SAug true "double_res" (EScale (-1 # 4) (EEins "amej,lkcd,eblk,cdim->abij" [(ESlice (EVar "g_abab") [SV "v"; SV "o"; SV "v"; SV "o"]); (EVar "l2_abab"); (EVar "t2_abab"); (EVar "t2_abab")]));
   (*L2023*) SAug true "double_res" (EScale (-1 # 4) (EEins "mbej,kldc,eakl,dcim->abij" [(ESlice (EVar "g_abab") [SV "o"; SV "v"; SV "v"; SV "o"]); (EVar "l2_aaaa"); (EVar "t2_aaaa"); (EVar "t2_aaaa")]));
   (*L2026*) SAug true "double_res" (EScale (1 # 4) (EEins "mbej,kldc,aekl,dcim->abij" [(ESlice (EVar "g_bbbb") [SV "o"; SV "v"; SV "v"; SV "o"]); (EVar "l2_abab"); (EVar "t2_abab"); (EVar "t2_abab")]));
   (*L2029*) SAug true "double_res" (EScale (1 # 4) (EEins "mbej,klcd,aekl,cdim->abij" [(ESlice (EVar "g_bbbb") [SV "o"; SV "v"; SV "v"; SV "o"]); (EVar "l2_abab"); (EVar "t2_abab"); (EVar "t2_abab")]));
   (*L2032*) SAug true "double_res" (EScale (1 # 4) (EEins "mbej,lkdc,aelk,dcim->abij" [(ESlice (EVar "g_bbbb") [SV "o"; SV "v"; SV "v"; SV "o"]); (EVar "l2_abab"); (EVar "t2_abab"); (EVar "t2_abab")]));
   (*L2035*) SAug true "double_res" (EScale (1 # 4) (EEins "mbej,lkcd,aelk,cdim->abij" [(ESlice (EVar "g_bbbb") [SV "o"; SV "v"; SV "v"; SV "o"]); (EVar "l2_abab"); (EVar "t2_abab"); (EVar "t2_abab")]));
   (*L2038*) SAug true "double_res" (EScale (1 # 4) (EEins "maei,kldc,ebkl,dcmj->abij" [(ESlice (EVar "g_aaaa") [SV "o"; SV "v"; SV "v"; SV "o"]); (EVar "l2_abab"); (EVar "t2_abab"); (EVar "t2_abab")]));
   (*L2041*) SAug true "double_res" (EScale (1 # 4) (EEins "maei,klcd,ebkl,cdmj->abij" [(ESlice (EVar "g_aaaa") [SV "o"; SV "v"; SV "v"; SV "o"]); (EVar "l2_abab"); (EVar "t2_abab"); (EVar "t2_abab")]));
   (*L2044*) SAug true "double_res" (EScale (1 # 4) (EEins "maei,lkdc,eblk,dcmj->abij" [(ESlice (EVar "g_aaaa") [SV "o"; SV "v"; SV "v"; SV "o"]); (EVar "l2_abab"); (EVar "t2_abab"); (EVar "t2_abab")]));
   (*L2047*) SAug true "double_res" (EScale (1 # 4) (EEins "maei,lkcd,eblk,cdmj->abij" [(ESlice (EVar "g_aaaa") [SV "o"; SV "v"; SV "v"; SV "o"]); (EVar "l2_abab"); (EVar "t2_abab"); (EVar "t2_abab")]));
   (*L2050*) SAug true "double_res" (EScale (-1 # 4) (EEins "amie,kldc,ebkl,dcjm->abij" [(ESlice (EVar "g_abab") [SV "v"; SV "o"; SV "o"; SV "v"]); (EVar "l2_bbbb"); (EVar "t2_bbbb"); (EVar "t2_bbbb")]));
   (*L2053*) SAug true "double_res" (EScale (-1 # 4) (EEins "mbie,kldc,aekl,dcmj->abij" [(ESlice (EVar "g_abab") [SV "o"; SV "v"; SV "o"; SV "v"]); (EVar "l2_abab"); (EVar "t2_abab"); (EVar "t2_abab")]));
   (*L2056*) SAug true "double_res" (EScale (-1 # 4) (EEins "mbie,klcd,aekl,cdmj->abij" [(ESlice (EVar "g_abab") [SV "o"; SV "v"; SV "o"; SV "v"]); (EVar "l2_abab"); (EVar "t2_abab"); (EVar "t2_abab")]));
   (*L2059*) SAug true "double_res" (EScale (-1 # 4) (EEins "mbie,lkdc,aelk,dcmj->abij" [(ESlice (EVar "g_abab") [SV "o"; SV "v"; SV "o"; SV "v"]); (EVar "l2_abab"); (EVar "t2_abab"); (EVar "t2_abab")]));
   (*L2062*) SAug true "double_res" (EScale (-1 # 4) (EEins "mbie,lkcd,aelk,cdmj->abij" [(ESlice (EVar "g_abab") [SV "o"; SV "v"; SV "o"; SV "v"]); (EVar "l2_abab"); (EVar "t2_abab"); (EVar "t2_abab")]));
   (*L2065*) SAug true "double_res" (EScale (1 # 2) (EEins "amej,kldc,ebil,dckm->abij" [(ESlice (EVar "g_abab") [SV "v"; SV "o"; SV "v"; SV "o"]); (EVar "l2_abab"); (EVar "t2_abab"); (EVar "t2_abab")]));
   (*L2068*) SAug true "double_res" (EScale (1 # 2) (EEins "amej,klcd,ebil,cdkm->abij" [(ESlice (EVar "g_abab") [SV "v"; SV "o"; SV "v"; SV "o"]); (EVar "l2_abab"); (EVar "t2_abab"); (EVar "t2_abab")]));
   (*L2071*) SAug true "double_res" (EScale (1 # 2) (EEins "amej,kldc,ebil,dckm->abij" [(ESlice (EVar "g_abab") [SV "v"; SV "o"; SV "v"; SV "o"]); (EVar "l2_bbbb"); (EVar "t2_abab"); (EVar "t2_bbbb")]));
   (*L2074*) SAug true "double_res" (EScale (1 # 2) (EEins "mbej,kldc,eail,dckm->abij" [(ESlice (EVar "g_abab") [SV "o"; SV "v"; SV "v"; SV "o"]); (EVar "l2_aaaa"); (EVar "t2_aaaa"); (EVar "t2_aaaa")]));
   (*L2077*) SAug true "double_res" (EScale (-1 # 2) (EEins "mbej,kldc,aeil,dckm->abij" [(ESlice (EVar "g_bbbb") [SV "o"; SV "v"; SV "v"; SV "o"]); (EVar "l2_abab"); (EVar "t2_abab"); (EVar "t2_abab")]));
   (*L2080*) SAug true "double_res" (EScale (-1 # 2) (EEins "mbej,klcd,aeil,cdkm->abij" [(ESlice (EVar "g_bbbb") [SV "o"; SV "v"; SV "v"; SV "o"]); (EVar "l2_abab"); (EVar "t2_abab"); (EVar "t2_abab")]));
   (*L2083*) SAug true "double_res" (EScale (1 # 2) (EEins "mbej,lkdc,eail,dcmk->abij" [(ESlice (EVar "g_abab") [SV "o"; SV "v"; SV "v"; SV "o"]); (EVar "l2_abab"); (EVar "t2_aaaa"); (EVar "t2_abab")]));
   (*L2086*) SAug true "double_res" (EScale (1 # 2) (EEins "mbej,lkcd,eail,cdmk->abij" [(ESlice (EVar "g_abab") [SV "o"; SV "v"; SV "v"; SV "o"]); (EVar "l2_abab"); (EVar "t2_aaaa"); (EVar "t2_abab")]));
   (*L2089*) SAug true "double_res" (EScale (-1 # 2) (EEins "mbej,kldc,aeil,dckm->abij" [(ESlice (EVar "g_bbbb") [SV "o"; SV "v"; SV "v"; SV "o"]); (EVar "l2_bbbb"); (EVar "t2_abab"); (EVar "t2_bbbb")]));
   (*L2092*) SAug true "double_res" (EScale (-1 # 2) (EEins "maei,kldc,eblj,dckm->abij" [(ESlice (EVar "g_aaaa") [SV "o"; SV "v"; SV "v"; SV "o"]); (EVar "l2_aaaa"); (EVar "t2_abab"); (EVar "t2_aaaa")]));
   (*L2095*) SAug true "double_res" (EScale (1 # 2) (EEins "amie,kldc,ebjl,dckm->abij" [(ESlice (EVar "g_abab") [SV "v"; SV "o"; SV "o"; SV "v"]); (EVar "l2_abab"); (EVar "t2_bbbb"); (EVar "t2_abab")]));
   (*L2098*) SAug true "double_res" (EScale (1 # 2) (EEins "amie,klcd,ebjl,cdkm->abij" [(ESlice (EVar "g_abab") [SV "v"; SV "o"; SV "o"; SV "v"]); (EVar "l2_abab"); (EVar "t2_bbbb"); (EVar "t2_abab")]));
   (*L2101*) SAug true "double_res" (EScale (-1 # 2) (EEins "maei,lkdc,eblj,dcmk->abij" [(ESlice (EVar "g_aaaa") [SV "o"; SV "v"; SV "v"; SV "o"]); (EVar "l2_abab"); (EVar "t2_abab"); (EVar "t2_abab")]));
   (*L2104*) SAug true "double_res" (EScale (-1 # 2) (EEins "maei,lkcd,eblj,cdmk->abij" [(ESlice (EVar "g_aaaa") [SV "o"; SV "v"; SV "v"; SV "o"]); (EVar "l2_abab"); (EVar "t2_abab"); (EVar "t2_abab")]));
   (*L2107*) SAug true "double_res" (EScale (1 # 2) (EEins "amie,kldc,ebjl,dckm->abij" [(ESlice (EVar "g_abab") [SV "v"; SV "o"; SV "o"; SV "v"]); (EVar "l2_bbbb"); (EVar "t2_bbbb"); (EVar "t2_bbbb")]));
   (*L2110*) SAug true "double_res" (EScale (1 # 2) (EEins "mbie,kldc,aelj,dckm->abij" [(ESlice (EVar "g_abab") [SV "o"; SV "v"; SV "o"; SV "v"]); (EVar "l2_aaaa"); (EVar "t2_abab"); (EVar "t2_aaaa")]));
   (*L2113*) SAug true "double_res" (EScale (1 # 2) (EEins "mbie,lkdc,aelj,dcmk->abij" [(ESlice (EVar "g_abab") [SV "o"; SV "v"; SV "o"; SV "v"]); (EVar "l2_abab"); (EVar "t2_abab"); (EVar "t2_abab")]));
   (*L2116*) SAug true "double_res" (EScale (1 # 2) (EEins "mbie,lkcd,aelj,cdmk->abij" [(ESlice (EVar "g_abab") [SV "o"; SV "v"; SV "o"; SV "v"]); (EVar "l2_abab"); (EVar "t2_abab"); (EVar "t2_abab")]));
   (*L2119*) SAug true "double_res" (EScale (-1 # 4) (EEins "dcef,kldc,eakl,fbij->abij" [(ESlice (EVar "g_aaaa") [SV "v"; SV "v"; SV "v"; SV "v"]); (EVar "l2_aaaa"); (EVar "t2_aaaa"); (EVar "t2_abab")]));
   (*L2122*) SAug true "double_res" (EScale (-1 # 4) (EEins "dcfe,kldc,aekl,fbij->abij" [(ESlice (EVar "g_abab") [SV "v"; SV "v"; SV "v"; SV "v"]); (EVar "l2_abab"); (EVar "t2_abab"); (EVar "t2_abab")]));
   (*L2125*) SAug true "double_res" (EScale (-1 # 4) (EEins "cdfe,klcd,aekl,fbij->abij" [(ESlice (EVar "g_abab") [SV "v"; SV "v"; SV "v"; SV "v"]); (EVar "l2_abab"); (EVar "t2_abab"); (EVar "t2_abab")]));
   (*L2128*) SAug true "double_res" (EScale (-1 # 4) (EEins "dcfe,lkdc,aelk,fbij->abij" [(ESlice (EVar "g_abab") [SV "v"; SV "v"; SV "v"; SV "v"]); (EVar "l2_abab"); (EVar "t2_abab"); (EVar "t2_abab")]));
   (*L2131*) SAug true "double_res" (EScale (-1 # 4) (EEins "cdfe,lkcd,aelk,fbij->abij" [(ESlice (EVar "g_abab") [SV "v"; SV "v"; SV "v"; SV "v"]); (EVar "l2_abab"); (EVar "t2_abab"); (EVar "t2_abab")]));
   (*L2134*) SAug true "double_res" (EScale (1 # 2) (EEins "dcfe,lkdc,aelj,fbik->abij" [(ESlice (EVar "g_abab") [SV "v"; SV "v"; SV "v"; SV "v"]); (EVar "l2_abab"); (EVar "t2_abab"); (EVar "t2_abab")]));
   (*L2137*) SAug true "double_res" (EScale (1 # 2) (EEins "cdfe,lkcd,aelj,fbik->abij" [(ESlice (EVar "g_abab") [SV "v"; SV "v"; SV "v"; SV "v"]); (EVar "l2_abab"); (EVar "t2_abab"); (EVar "t2_abab")]));
   (*L2140*) SAug true "double_res" (EScale (1 # 2) (EEins "dcef,kldc,eail,fbkj->abij" [(ESlice (EVar "g_aaaa") [SV "v"; SV "v"; SV "v"; SV "v"]); (EVar "l2_aaaa"); (EVar "t2_aaaa"); (EVar "t2_abab")]));
   (*L2143*) SAug true "double_res" (EScale (1 # 2) (EEins "dcfe,kldc,aeil,fbkj->abij" [(ESlice (EVar "g_abab") [SV "v"; SV "v"; SV "v"; SV "v"]); (EVar "l2_abab"); (EVar "t2_abab"); (EVar "t2_abab")]));
   (*L2146*) SAug true "double_res" (EScale (1 # 2) (EEins "cdfe,klcd,aeil,fbkj->abij" [(ESlice (EVar "g_abab") [SV "v"; SV "v"; SV "v"; SV "v"]); (EVar "l2_abab"); (EVar "t2_abab"); (EVar "t2_abab")]));
   (*L2149*) SAug true "double_res" (EScale (1 # 2) (EEins "dcef,lkdc,eail,fbjk->abij" [(ESlice (EVar "g_abab") [SV "v"; SV "v"; SV "v"; SV "v"]); (EVar "l2_abab"); (EVar "t2_aaaa"); (EVar "t2_bbbb")]));
   (*L2152*) SAug true "double_res" (EScale (1 # 2) (EEins "cdef,lkcd,eail,fbjk->abij" [(ESlice (EVar "g_abab") [SV "v"; SV "v"; SV "v"; SV "v"]); (EVar "l2_abab"); (EVar "t2_aaaa"); (EVar "t2_bbbb")]));
   (*L2155*) SAug true "double_res" (EScale (1 # 2) (EEins "dcef,kldc,aeil,fbjk->abij" [(ESlice (EVar "g_bbbb") [SV "v"; SV "v"; SV "v"; SV "v"]); (EVar "l2_bbbb"); (EVar "t2_abab"); (EVar "t2_bbbb")]));
   (*L2158*) SAug true "double_res" (EScale (-1 # 4) (EEins "dcfe,kldc,aeij,fbkl->abij" [(ESlice (EVar "g_abab") [SV "v"; SV "v"; SV "v"; SV "v"]); (EVar "l2_abab"); (EVar "t2_abab"); (EVar "t2_abab")]));
   (*L2161*) SAug true "double_res" (EScale (-1 # 4) (EEins "cdfe,klcd,aeij,fbkl->abij" [(ESlice (EVar "g_abab") [SV "v"; SV "v"; SV "v"; SV "v"]); (EVar "l2_abab"); (EVar "t2_abab"); (EVar "t2_abab")]));
   (*L2164*) SAug true "double_res" (EScale (-1 # 4) (EEins "dcfe,lkdc,aeij,fblk->abij" [(ESlice (EVar "g_abab") [SV "v"; SV "v"; SV "v"; SV "v"]); (EVar "l2_abab"); (EVar "t2_abab"); (EVar "t2_abab")]));
   (*L2167*) SAug true "double_res" (EScale (-1 # 4) (EEins "cdfe,lkcd,aeij,fblk->abij" [(ESlice (EVar "g_abab") [SV "v"; SV "v"; SV "v"; SV "v"]); (EVar "l2_abab"); (EVar "t2_abab"); (EVar "t2_abab")]));
   (*L2170*) SAug true "double_res" (EScale (1 # 4) (EEins "dcef,kldc,aeij,fbkl->abij" [(ESlice (EVar "g_bbbb") [SV "v"; SV "v"; SV "v"; SV "v"]); (EVar "l2_bbbb"); (EVar "t2_abab"); (EVar "t2_bbbb")]));
   (*L2173*) SAug true "double_res" (EScale (1 # 2) (EEins "daef,kldc,eckl,fbij->abij" [(ESlice (EVar "g_aaaa") [SV "v"; SV "v"; SV "v"; SV "v"]); (EVar "l2_aaaa"); (EVar "t2_aaaa"); (EVar "t2_abab")]));
   (*L2176*) SAug true "double_res" (EScale (1 # 2) (EEins "daef,kldc,eckl,fbij->abij" [(ESlice (EVar "g_aaaa") [SV "v"; SV "v"; SV "v"; SV "v"]); (EVar "l2_abab"); (EVar "t2_abab"); (EVar "t2_abab")]));
   (*L2179*) SAug true "double_res" (EScale (1 # 2) (EEins "adfe,klcd,cekl,fbij->abij" [(ESlice (EVar "g_abab") [SV "v"; SV "v"; SV "v"; SV "v"]); (EVar "l2_abab"); (EVar "t2_abab"); (EVar "t2_abab")]));
   (*L2182*) SAug true "double_res" (EScale (1 # 2) (EEins "daef,lkdc,eclk,fbij->abij" [(ESlice (EVar "g_aaaa") [SV "v"; SV "v"; SV "v"; SV "v"]); (EVar "l2_abab"); (EVar "t2_abab"); (EVar "t2_abab")]));
   (*L2185*) SAug true "double_res" (EScale (1 # 2) (EEins "adfe,lkcd,celk,fbij->abij" [(ESlice (EVar "g_abab") [SV "v"; SV "v"; SV "v"; SV "v"]); (EVar "l2_abab"); (EVar "t2_abab"); (EVar "t2_abab")]));
   (*L2188*) SAug true "double_res" (EScale (1 # 2) (EEins "adfe,kldc,eckl,fbij->abij" [(ESlice (EVar "g_abab") [SV "v"; SV "v"; SV "v"; SV "v"]); (EVar "l2_bbbb"); (EVar "t2_bbbb"); (EVar "t2_abab")]));
   (*L2191*) SAug true "double_res" (EScale (1 # 2) (EEins "dbef,kldc,eckl,afij->abij" [(ESlice (EVar "g_abab") [SV "v"; SV "v"; SV "v"; SV "v"]); (EVar "l2_aaaa"); (EVar "t2_aaaa"); (EVar "t2_abab")]));
   (*L2194*) SAug true "double_res" (EScale (1 # 2) (EEins "dbef,kldc,eckl,afij->abij" [(ESlice (EVar "g_abab") [SV "v"; SV "v"; SV "v"; SV "v"]); (EVar "l2_abab"); (EVar "t2_abab"); (EVar "t2_abab")]));
   (*L2197*) SAug true "double_res" (EScale (1 # 2) (EEins "dbef,klcd,cekl,afij->abij" [(ESlice (EVar "g_bbbb") [SV "v"; SV "v"; SV "v"; SV "v"]); (EVar "l2_abab"); (EVar "t2_abab"); (EVar "t2_abab")]));
   (*L2200*) SAug true "double_res" (EScale (1 # 2) (EEins "dbef,lkdc,eclk,afij->abij" [(ESlice (EVar "g_abab") [SV "v"; SV "v"; SV "v"; SV "v"]); (EVar "l2_abab"); (EVar "t2_abab"); (EVar "t2_abab")]));
   (*L2203*) SAug true "double_res" (EScale (1 # 2) (EEins "dbef,lkcd,celk,afij->abij" [(ESlice (EVar "g_bbbb") [SV "v"; SV "v"; SV "v"; SV "v"]); (EVar "l2_abab"); (EVar "t2_abab"); (EVar "t2_abab")]));
   (*L2206*) SAug true "double_res" (EScale (1 # 2) (EEins "dbef,kldc,eckl,afij->abij" [(ESlice (EVar "g_bbbb") [SV "v"; SV "v"; SV "v"; SV "v"]); (EVar "l2_bbbb"); (EVar "t2_bbbb"); (EVar "t2_abab")]));
   (*L2209*) SAug true "double_res" (EScale (-1 # 1) (EEins "daef,lkdc,eclj,fbik->abij" [(ESlice (EVar "g_aaaa") [SV "v"; SV "v"; SV "v"; SV "v"]); (EVar "l2_abab"); (EVar "t2_abab"); (EVar "t2_abab")]));
   (*L2212*) SAug true "double_res" (EScale (-1 # 1) (EEins "adfe,lkcd,celj,fbik->abij" [(ESlice (EVar "g_abab") [SV "v"; SV "v"; SV "v"; SV "v"]); (EVar "l2_abab"); (EVar "t2_abab"); (EVar "t2_abab")]));
   (*L2215*) SAug true "double_res" (EScale (-1 # 1) (EEins "adfe,kldc,ecjl,fbik->abij" [(ESlice (EVar "g_abab") [SV "v"; SV "v"; SV "v"; SV "v"]); (EVar "l2_bbbb"); (EVar "t2_bbbb"); (EVar "t2_abab")]));
   (*L2218*) SAug true "double_res" (EScale (-1 # 1) (EEins "dbfe,kldc,celj,faik->abij" [(ESlice (EVar "g_abab") [SV "v"; SV "v"; SV "v"; SV "v"]); (EVar "l2_aaaa"); (EVar "t2_abab"); (EVar "t2_aaaa")]));
   (*L2221*) SAug true "double_res" (EScale (-1 # 1) (EEins "dbfe,kldc,ecjl,faik->abij" [(ESlice (EVar "g_abab") [SV "v"; SV "v"; SV "v"; SV "v"]); (EVar "l2_abab"); (EVar "t2_bbbb"); (EVar "t2_aaaa")]));
   (*L2224*) SAug true "double_res" (EScale (-1 # 1) (EEins "dbef,lkdc,eclj,afik->abij" [(ESlice (EVar "g_abab") [SV "v"; SV "v"; SV "v"; SV "v"]); (EVar "l2_abab"); (EVar "t2_abab"); (EVar "t2_abab")]));
   (*L2227*) SAug true "double_res" (EScale (-1 # 1) (EEins "dbef,lkcd,celj,afik->abij" [(ESlice (EVar "g_bbbb") [SV "v"; SV "v"; SV "v"; SV "v"]); (EVar "l2_abab"); (EVar "t2_abab"); (EVar "t2_abab")]));
   (*L2230*) SAug true "double_res" (EScale (-1 # 1) (EEins "dbef,kldc,ecjl,afik->abij" [(ESlice (EVar "g_bbbb") [SV "v"; SV "v"; SV "v"; SV "v"]); (EVar "l2_bbbb"); (EVar "t2_bbbb"); (EVar "t2_abab")]));
   (*L2233*) SAug true "double_res" (EScale (-1 # 1) (EEins "daef,kldc,ecil,fbkj->abij" [(ESlice (EVar "g_aaaa") [SV "v"; SV "v"; SV "v"; SV "v"]); (EVar "l2_aaaa"); (EVar "t2_aaaa"); (EVar "t2_abab")]));
   (*L2236*) SAug true "double_res" (EScale (-1 # 1) (EEins "daef,kldc,ecil,fbkj->abij" [(ESlice (EVar "g_aaaa") [SV "v"; SV "v"; SV "v"; SV "v"]); (EVar "l2_abab"); (EVar "t2_abab"); (EVar "t2_abab")]));
   (*L2239*) SAug true "double_res" (EScale (-1 # 1) (EEins "adfe,klcd,ceil,fbkj->abij" [(ESlice (EVar "g_abab") [SV "v"; SV "v"; SV "v"; SV "v"]); (EVar "l2_abab"); (EVar "t2_abab"); (EVar "t2_abab")]));
   (*L2242*) SAug true "double_res" (EScale (-1 # 1) (EEins "adef,lkcd,ecil,fbjk->abij" [(ESlice (EVar "g_abab") [SV "v"; SV "v"; SV "v"; SV "v"]); (EVar "l2_abab"); (EVar "t2_aaaa"); (EVar "t2_bbbb")]));
   (*L2245*) SAug true "double_res" (EScale (-1 # 1) (EEins "adef,kldc,ecil,fbjk->abij" [(ESlice (EVar "g_abab") [SV "v"; SV "v"; SV "v"; SV "v"]); (EVar "l2_bbbb"); (EVar "t2_abab"); (EVar "t2_bbbb")]));
   (*L2248*) SAug true "double_res" (EScale (-1 # 1) (EEins "dbef,kldc,ecil,afkj->abij" [(ESlice (EVar "g_abab") [SV "v"; SV "v"; SV "v"; SV "v"]); (EVar "l2_aaaa"); (EVar "t2_aaaa"); (EVar "t2_abab")]));
   (*L2251*) SAug true "double_res" (EScale (-1 # 1) (EEins "dbef,kldc,ecil,afkj->abij" [(ESlice (EVar "g_abab") [SV "v"; SV "v"; SV "v"; SV "v"]); (EVar "l2_abab"); (EVar "t2_abab"); (EVar "t2_abab")]));
   (*L2254*) SAug true "double_res" (EScale (-1 # 1) (EEins "dbef,klcd,ceil,afkj->abij" [(ESlice (EVar "g_bbbb") [SV "v"; SV "v"; SV "v"; SV "v"]); (EVar "l2_abab"); (EVar "t2_abab"); (EVar "t2_abab")]));
   (*L2257*) SAug true "double_res" (EScale (1 # 2) (EEins "daef,kldc,ecij,fbkl->abij" [(ESlice (EVar "g_aaaa") [SV "v"; SV "v"; SV "v"; SV "v"]); (EVar "l2_abab"); (EVar "t2_abab"); (EVar "t2_abab")]));
   (*L2260*) SAug true "double_res" (EScale (1 # 2) (EEins "adfe,klcd,ceij,fbkl->abij" [(ESlice (EVar "g_abab") [SV "v"; SV "v"; SV "v"; SV "v"]); (EVar "l2_abab"); (EVar "t2_abab"); (EVar "t2_abab")]));
   (*L2263*) SAug true "double_res" (EScale (1 # 2) (EEins "daef,lkdc,ecij,fblk->abij" [(ESlice (EVar "g_aaaa") [SV "v"; SV "v"; SV "v"; SV "v"]); (EVar "l2_abab"); (EVar "t2_abab"); (EVar "t2_abab")]));
   (*L2266*) SAug true "double_res" (EScale (1 # 2) (EEins "adfe,lkcd,ceij,fblk->abij" [(ESlice (EVar "g_abab") [SV "v"; SV "v"; SV "v"; SV "v"]); (EVar "l2_abab"); (EVar "t2_abab"); (EVar "t2_abab")]));
   (*L2269*) SAug true "double_res" (EScale (-1 # 2) (EEins "adef,kldc,ecij,fbkl->abij" [(ESlice (EVar "g_abab") [SV "v"; SV "v"; SV "v"; SV "v"]); (EVar "l2_bbbb"); (EVar "t2_abab"); (EVar "t2_bbbb")]));
   (*L2272*) SAug true "double_res" (EScale (-1 # 2) (EEins "dbfe,kldc,ceij,fakl->abij" [(ESlice (EVar "g_abab") [SV "v"; SV "v"; SV "v"; SV "v"]); (EVar "l2_aaaa"); (EVar "t2_abab"); (EVar "t2_aaaa")]));
   (*L2275*) SAug true "double_res" (EScale (1 # 2) (EEins "dbef,kldc,ecij,afkl->abij" [(ESlice (EVar "g_abab") [SV "v"; SV "v"; SV "v"; SV "v"]); (EVar "l2_abab"); (EVar "t2_abab"); (EVar "t2_abab")]));
   (*L2278*) SAug true "double_res" (EScale (1 # 2) (EEins "dbef,klcd,ceij,afkl->abij" [(ESlice (EVar "g_bbbb") [SV "v"; SV "v"; SV "v"; SV "v"]); (EVar "l2_abab"); (EVar "t2_abab"); (EVar "t2_abab")]));
   (*L2281*) SAug true "double_res" (EScale (1 # 2) (EEins "dbef,lkdc,ecij,aflk->abij" [(ESlice (EVar "g_abab") [SV "v"; SV "v"; SV "v"; SV "v"]); (EVar "l2_abab"); (EVar "t2_abab"); (EVar "t2_abab")]));
   (*L2284*) SAug true "double_res" (EScale (1 # 2) (EEins "dbef,lkcd,ceij,aflk->abij" [(ESlice (EVar "g_bbbb") [SV "v"; SV "v"; SV "v"; SV "v"]); (EVar "l2_abab"); (EVar "t2_abab"); (EVar "t2_abab")]));
   (*L2287*) SAug true "double_res" (EScale (1 # 2) (EEins "abef,kldc,edkl,cfij->abij" [(ESlice (EVar "g_abab") [SV "v"; SV "v"; SV "v"; SV "v"]); (EVar "l2_aaaa"); (EVar "t2_aaaa"); (EVar "t2_abab")]));
   (*L2290*) SAug true "double_res" (EScale (-1 # 2) (EEins "abfe,kldc,dekl,fcij->abij" [(ESlice (EVar "g_abab") [SV "v"; SV "v"; SV "v"; SV "v"]); (EVar "l2_abab"); (EVar "t2_abab"); (EVar "t2_abab")]));
   (*L2293*) SAug true "double_res" (EScale (-1 # 2) (EEins "abef,klcd,edkl,cfij->abij" [(ESlice (EVar "g_abab") [SV "v"; SV "v"; SV "v"; SV "v"]); (EVar "l2_abab"); (EVar "t2_abab"); (EVar "t2_abab")]));
   (*L2296*) SAug true "double_res" (EScale (-1 # 2) (EEins "abfe,lkdc,delk,fcij->abij" [(ESlice (EVar "g_abab") [SV "v"; SV "v"; SV "v"; SV "v"]); (EVar "l2_abab"); (EVar "t2_abab"); (EVar "t2_abab")]));
   (*L2299*) SAug true "double_res" (EScale (-1 # 2) (EEins "abef,lkcd,edlk,cfij->abij" [(ESlice (EVar "g_abab") [SV "v"; SV "v"; SV "v"; SV "v"]); (EVar "l2_abab"); (EVar "t2_abab"); (EVar "t2_abab")]));
   (*L2302*) SAug true "double_res" (EScale (1 # 2) (EEins "abfe,kldc,edkl,fcij->abij" [(ESlice (EVar "g_abab") [SV "v"; SV "v"; SV "v"; SV "v"]); (EVar "l2_bbbb"); (EVar "t2_bbbb"); (EVar "t2_abab")]));
   (*L2305*) SAug true "double_res" (EScale (-1 # 2) (EEins "abfe,kldc,delj,fcik->abij" [(ESlice (EVar "g_abab") [SV "v"; SV "v"; SV "v"; SV "v"]); (EVar "l2_aaaa"); (EVar "t2_abab"); (EVar "t2_aaaa")]));
   (*L2308*) SAug true "double_res" (EScale (1 # 2) (EEins "abfe,klcd,edjl,fcik->abij" [(ESlice (EVar "g_abab") [SV "v"; SV "v"; SV "v"; SV "v"]); (EVar "l2_abab"); (EVar "t2_bbbb"); (EVar "t2_aaaa")]));
   (*L2311*) SAug true "double_res" (EScale (1 # 2) (EEins "abfe,lkdc,delj,fcik->abij" [(ESlice (EVar "g_abab") [SV "v"; SV "v"; SV "v"; SV "v"]); (EVar "l2_abab"); (EVar "t2_abab"); (EVar "t2_abab")]));
   (*L2314*) SAug true "double_res" (EScale (1 # 2) (EEins "abef,lkcd,edlj,cfik->abij" [(ESlice (EVar "g_abab") [SV "v"; SV "v"; SV "v"; SV "v"]); (EVar "l2_abab"); (EVar "t2_abab"); (EVar "t2_abab")]));
   (*L2317*) SAug true "double_res" (EScale (-1 # 2) (EEins "abfe,kldc,edjl,fcik->abij" [(ESlice (EVar "g_abab") [SV "v"; SV "v"; SV "v"; SV "v"]); (EVar "l2_bbbb"); (EVar "t2_bbbb"); (EVar "t2_abab")]));
   (*L2320*) SAug true "double_res" (EScale (-1 # 2) (EEins "abef,kldc,edil,cfkj->abij" [(ESlice (EVar "g_abab") [SV "v"; SV "v"; SV "v"; SV "v"]); (EVar "l2_aaaa"); (EVar "t2_aaaa"); (EVar "t2_abab")]));
   (*L2323*) SAug true "double_res" (EScale (1 # 2) (EEins "abfe,kldc,deil,fckj->abij" [(ESlice (EVar "g_abab") [SV "v"; SV "v"; SV "v"; SV "v"]); (EVar "l2_abab"); (EVar "t2_abab"); (EVar "t2_abab")]));
   (*L2326*) SAug true "double_res" (EScale (1 # 2) (EEins "abef,klcd,edil,cfkj->abij" [(ESlice (EVar "g_abab") [SV "v"; SV "v"; SV "v"; SV "v"]); (EVar "l2_abab"); (EVar "t2_abab"); (EVar "t2_abab")]));
   (*L2329*) SAug true "double_res" (EScale (1 # 2) (EEins "abef,lkdc,edil,fcjk->abij" [(ESlice (EVar "g_abab") [SV "v"; SV "v"; SV "v"; SV "v"]); (EVar "l2_abab"); (EVar "t2_aaaa"); (EVar "t2_bbbb")]));
   (*L2332*) SAug true "double_res" (EScale (-1 # 2) (EEins "abef,kldc,edil,fcjk->abij" [(ESlice (EVar "g_abab") [SV "v"; SV "v"; SV "v"; SV "v"]); (EVar "l2_bbbb"); (EVar "t2_abab"); (EVar "t2_bbbb")]))]
  (*L2335*) (EVar "double_res").
