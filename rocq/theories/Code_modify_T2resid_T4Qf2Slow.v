(** Generated by tools/transcribe.py from /repo/UT2/modify_T2resid_T4Qf2Slow.py; do not edit. *)
From Coq Require Import String List QArith.
From Verif Require Import Interp.
Import ListNotations.
Open Scope string_scope.

(** /repo/UT2/modify_T2resid_T4Qf2Slow.py:6-164  def residQf2_aaaa *)
Definition residQf2_aaaa : fn := mkFn
  ["g"; "l2"; "t2"; "o"; "v"]
  [(*L8*) SAssign "contracted_intermediate" (EScale (-1 # 8) (EEins "nmef,kldc,efkl,dcjm,abin->abij" [(ESlice (EVar "g") [SV "o"; SV "o"; SV "v"; SV "v"]); (EVar "l2"); (EVar "t2"); (EVar "t2"); (EVar "t2")]));
   (*L9*) SAssign "double_res" (EAdd (EScale (1 # 1) (EVar "contracted_intermediate")) (EScale (-1 # 1) (EEins "abij->abji" [(EVar "contracted_intermediate")])));
   (*L12*) SAssign "contracted_intermediate" (EScale (1 # 4) (EEins "nmef,kldc,efkl,dajm,cbin->abij" [(ESlice (EVar "g") [SV "o"; SV "o"; SV "v"; SV "v"]); (EVar "l2"); (EVar "t2"); (EVar "t2"); (EVar "t2")]));
   (*L13*) SAug true "double_res" (EAdd (EScale (1 # 1) (EVar "contracted_intermediate")) (EScale (-1 # 1) (EEins "abij->abji" [(EVar "contracted_intermediate")])));
   (*L16*) SAssign "contracted_intermediate" (EScale (1 # 4) (EEins "nmef,kldc,efjl,dckm,abin->abij" [(ESlice (EVar "g") [SV "o"; SV "o"; SV "v"; SV "v"]); (EVar "l2"); (EVar "t2"); (EVar "t2"); (EVar "t2")]));
   (*L17*) SAug true "double_res" (EAdd (EScale (1 # 1) (EVar "contracted_intermediate")) (EScale (-1 # 1) (EEins "abij->abji" [(EVar "contracted_intermediate")])));
   (*L20*) SAssign "contracted_intermediate" (EScale (-1 # 4) (EEins "nmef,kldc,efjl,dcim,abkn->abij" [(ESlice (EVar "g") [SV "o"; SV "o"; SV "v"; SV "v"]); (EVar "l2"); (EVar "t2"); (EVar "t2"); (EVar "t2")]));
   (*L21*) SAug true "double_res" (EAdd (EScale (1 # 1) (EVar "contracted_intermediate")) (EScale (-1 # 1) (EEins "abij->abji" [(EVar "contracted_intermediate")])));
   (*L24*) SAssign "contracted_intermediate" (EScale (-1 # 2) (EEins "nmef,kldc,efjl,dakm,cbin->abij" [(ESlice (EVar "g") [SV "o"; SV "o"; SV "v"; SV "v"]); (EVar "l2"); (EVar "t2"); (EVar "t2"); (EVar "t2")]));
   (*L25*) SAug true "double_res" (EAdd (EScale (1 # 1) (EVar "contracted_intermediate")) (EScale (-1 # 1) (EEins "abij->abji" [(EVar "contracted_intermediate")])));
   (*L28*) SAssign "contracted_intermediate" (EScale (1 # 2) (EEins "nmef,kldc,efjl,daim,cbkn->abij" [(ESlice (EVar "g") [SV "o"; SV "o"; SV "v"; SV "v"]); (EVar "l2"); (EVar "t2"); (EVar "t2"); (EVar "t2")]));
   (*L29*) SAug true "double_res" (EAdd (EScale (1 # 1) (EVar "contracted_intermediate")) (EScale (-1 # 1) (EEins "abij->abji" [(EVar "contracted_intermediate")])));
   (*L32*) SAug true "double_res" (EScale (-1 # 4) (EEins "nmef,kldc,efij,dclm,abkn->abij" [(ESlice (EVar "g") [SV "o"; SV "o"; SV "v"; SV "v"]); (EVar "l2"); (EVar "t2"); (EVar "t2"); (EVar "t2")]));
   (*L35*) SAssign "contracted_intermediate" (EScale (1 # 4) (EEins "nmef,kldc,efij,dalm,cbkn->abij" [(ESlice (EVar "g") [SV "o"; SV "o"; SV "v"; SV "v"]); (EVar "l2"); (EVar "t2"); (EVar "t2"); (EVar "t2")]));
   (*L36*) SAug true "double_res" (EAdd (EScale (1 # 1) (EVar "contracted_intermediate")) (EScale (-1 # 1) (EEins "abij->baij" [(EVar "contracted_intermediate")])));
   (*L39*) SAssign "contracted_intermediate" (EScale (1 # 2) (EEins "nmef,kldc,edlm,fcjk,abin->abij" [(ESlice (EVar "g") [SV "o"; SV "o"; SV "v"; SV "v"]); (EVar "l2"); (EVar "t2"); (EVar "t2"); (EVar "t2")]));
   (*L40*) SAug true "double_res" (EAdd (EScale (1 # 1) (EVar "contracted_intermediate")) (EScale (-1 # 1) (EEins "abij->abji" [(EVar "contracted_intermediate")])));
   (*L43*) SAug true "double_res" (EScale (1 # 1) (EEins "nmef,kldc,edlm,fcij,abkn->abij" [(ESlice (EVar "g") [SV "o"; SV "o"; SV "v"; SV "v"]); (EVar "l2"); (EVar "t2"); (EVar "t2"); (EVar "t2")]));
   (*L46*) SAssign "contracted_intermediate" (EScale (-3 # 4) (EEins "nmef,kldc,edlm,fajk,cbin->abij" [(ESlice (EVar "g") [SV "o"; SV "o"; SV "v"; SV "v"]); (EVar "l2"); (EVar "t2"); (EVar "t2"); (EVar "t2")]));
   (*L47*) SAug true "double_res" (EAdd (EAdd (EAdd (EScale (1 # 1) (EVar "contracted_intermediate")) (EScale (-1 # 1) (EEins "abij->abji" [(EVar "contracted_intermediate")]))) (EScale (-1 # 1) (EEins "abij->baij" [(EVar "contracted_intermediate")]))) (EScale (1 # 1) (EEins "abij->baji" [(EVar "contracted_intermediate")])));
   (*L50*) SAssign "contracted_intermediate" (EScale (-1 # 1) (EEins "nmef,kldc,edlm,faij,cbkn->abij" [(ESlice (EVar "g") [SV "o"; SV "o"; SV "v"; SV "v"]); (EVar "l2"); (EVar "t2"); (EVar "t2"); (EVar "t2")]));
   (*L51*) SAug true "double_res" (EAdd (EScale (1 # 1) (EVar "contracted_intermediate")) (EScale (-1 # 1) (EEins "abij->baij" [(EVar "contracted_intermediate")])));
   (*L54*) SAssign "contracted_intermediate" (EScale (1 # 2) (EEins "nmef,kldc,edjm,fckl,abin->abij" [(ESlice (EVar "g") [SV "o"; SV "o"; SV "v"; SV "v"]); (EVar "l2"); (EVar "t2"); (EVar "t2"); (EVar "t2")]));
   (*L55*) SAug true "double_res" (EAdd (EScale (1 # 1) (EVar "contracted_intermediate")) (EScale (-1 # 1) (EEins "abij->abji" [(EVar "contracted_intermediate")])));
   (*L58*) SAssign "contracted_intermediate" (EScale (-1 # 1) (EEins "nmef,kldc,edjm,fcil,abkn->abij" [(ESlice (EVar "g") [SV "o"; SV "o"; SV "v"; SV "v"]); (EVar "l2"); (EVar "t2"); (EVar "t2"); (EVar "t2")]));
   (*L59*) SAug true "double_res" (EAdd (EScale (1 # 1) (EVar "contracted_intermediate")) (EScale (-1 # 1) (EEins "abij->abji" [(EVar "contracted_intermediate")])));
   (*L62*) SAssign "contracted_intermediate" (EScale (-1 # 2) (EEins "nmef,kldc,edjm,fakl,cbin->abij" [(ESlice (EVar "g") [SV "o"; SV "o"; SV "v"; SV "v"]); (EVar "l2"); (EVar "t2"); (EVar "t2"); (EVar "t2")]));
   (*L63*) SAug true "double_res" (EAdd (EAdd (EAdd (EScale (1 # 1) (EVar "contracted_intermediate")) (EScale (-1 # 1) (EEins "abij->abji" [(EVar "contracted_intermediate")]))) (EScale (-1 # 1) (EEins "abij->baij" [(EVar "contracted_intermediate")]))) (EScale (1 # 1) (EEins "abij->baji" [(EVar "contracted_intermediate")])));
   (*L66*) SAssign "contracted_intermediate" (EScale (1 # 1) (EEins "nmef,kldc,edjm,fail,cbkn->abij" [(ESlice (EVar "g") [SV "o"; SV "o"; SV "v"; SV "v"]); (EVar "l2"); (EVar "t2"); (EVar "t2"); (EVar "t2")]));
   (*L67*) SAug true "double_res" (EAdd (EAdd (EAdd (EScale (1 # 1) (EVar "contracted_intermediate")) (EScale (-1 # 1) (EEins "abij->abji" [(EVar "contracted_intermediate")]))) (EScale (-1 # 1) (EEins "abij->baij" [(EVar "contracted_intermediate")]))) (EScale (1 # 1) (EEins "abij->baji" [(EVar "contracted_intermediate")])));
   (*L70*) SAug true "double_res" (EScale (-1 # 4) (EEins "nmef,kldc,edkl,fcij,abnm->abij" [(ESlice (EVar "g") [SV "o"; SV "o"; SV "v"; SV "v"]); (EVar "l2"); (EVar "t2"); (EVar "t2"); (EVar "t2")]));
   (*L73*) SAssign "contracted_intermediate" (EScale (-1 # 2) (EEins "nmef,kldc,edkl,fajm,cbin->abij" [(ESlice (EVar "g") [SV "o"; SV "o"; SV "v"; SV "v"]); (EVar "l2"); (EVar "t2"); (EVar "t2"); (EVar "t2")]));
   (*L74*) SAug true "double_res" (EAdd (EAdd (EAdd (EScale (1 # 1) (EVar "contracted_intermediate")) (EScale (-1 # 1) (EEins "abij->abji" [(EVar "contracted_intermediate")]))) (EScale (-1 # 1) (EEins "abij->baij" [(EVar "contracted_intermediate")]))) (EScale (1 # 1) (EEins "abij->baji" [(EVar "contracted_intermediate")])));
   (*L77*) SAssign "contracted_intermediate" (EScale (1 # 4) (EEins "nmef,kldc,edkl,faij,cbnm->abij" [(ESlice (EVar "g") [SV "o"; SV "o"; SV "v"; SV "v"]); (EVar "l2"); (EVar "t2"); (EVar "t2"); (EVar "t2")]));
   (*L78*) SAug true "double_res" (EAdd (EScale (1 # 1) (EVar "contracted_intermediate")) (EScale (-1 # 1) (EEins "abij->baij" [(EVar "contracted_intermediate")])));
   (*L81*) SAssign "contracted_intermediate" (EScale (-1 # 2) (EEins "nmef,kldc,edjl,fckm,abin->abij" [(ESlice (EVar "g") [SV "o"; SV "o"; SV "v"; SV "v"]); (EVar "l2"); (EVar "t2"); (EVar "t2"); (EVar "t2")]));
   (*L82*) SAug true "double_res" (EAdd (EScale (1 # 1) (EVar "contracted_intermediate")) (EScale (-1 # 1) (EEins "abij->abji" [(EVar "contracted_intermediate")])));
   (*L85*) SAssign "contracted_intermediate" (EScale (1 # 4) (EEins "nmef,kldc,edjl,fcik,abnm->abij" [(ESlice (EVar "g") [SV "o"; SV "o"; SV "v"; SV "v"]); (EVar "l2"); (EVar "t2"); (EVar "t2"); (EVar "t2")]));
   (*L86*) SAug true "double_res" (EAdd (EScale (1 # 1) (EVar "contracted_intermediate")) (EScale (-1 # 1) (EEins "abij->abji" [(EVar "contracted_intermediate")])));
   (*L89*) SAssign "contracted_intermediate" (EScale (91666666666667 # 100000000000000) (EEins "nmef,kldc,edjl,fakm,cbin->abij" [(ESlice (EVar "g") [SV "o"; SV "o"; SV "v"; SV "v"]); (EVar "l2"); (EVar "t2"); (EVar "t2"); (EVar "t2")]));
   (*L90*) SAug true "double_res" (EAdd (EAdd (EAdd (EScale (1 # 1) (EVar "contracted_intermediate")) (EScale (-1 # 1) (EEins "abij->abji" [(EVar "contracted_intermediate")]))) (EScale (-1 # 1) (EEins "abij->baij" [(EVar "contracted_intermediate")]))) (EScale (1 # 1) (EEins "abij->baji" [(EVar "contracted_intermediate")])));
   (*L93*) SAssign "contracted_intermediate" (EScale (-1 # 1) (EEins "nmef,kldc,edjl,faim,cbkn->abij" [(ESlice (EVar "g") [SV "o"; SV "o"; SV "v"; SV "v"]); (EVar "l2"); (EVar "t2"); (EVar "t2"); (EVar "t2")]));
   (*L94*) SAug true "double_res" (EAdd (EAdd (EAdd (EScale (1 # 1) (EVar "contracted_intermediate")) (EScale (-1 # 1) (EEins "abij->abji" [(EVar "contracted_intermediate")]))) (EScale (-1 # 1) (EEins "abij->baij" [(EVar "contracted_intermediate")]))) (EScale (1 # 1) (EEins "abij->baji" [(EVar "contracted_intermediate")])));
   (*L97*) SAssign "contracted_intermediate" (EScale (-1 # 2) (EEins "nmef,kldc,edjl,faik,cbnm->abij" [(ESlice (EVar "g") [SV "o"; SV "o"; SV "v"; SV "v"]); (EVar "l2"); (EVar "t2"); (EVar "t2"); (EVar "t2")]));
   (*L98*) SAug true "double_res" (EAdd (EAdd (EAdd (EScale (1 # 1) (EVar "contracted_intermediate")) (EScale (-1 # 1) (EEins "abij->abji" [(EVar "contracted_intermediate")]))) (EScale (-1 # 1) (EEins "abij->baij" [(EVar "contracted_intermediate")]))) (EScale (1 # 1) (EEins "abij->baji" [(EVar "contracted_intermediate")])));
   (*L101*) SAssign "contracted_intermediate" (EScale (-1 # 1) (EEins "nmef,kldc,edij,falm,cbkn->abij" [(ESlice (EVar "g") [SV "o"; SV "o"; SV "v"; SV "v"]); (EVar "l2"); (EVar "t2"); (EVar "t2"); (EVar "t2")]));
   (*L102*) SAug true "double_res" (EAdd (EScale (1 # 1) (EVar "contracted_intermediate")) (EScale (-1 # 1) (EEins "abij->baij" [(EVar "contracted_intermediate")])));
   (*L105*) SAssign "contracted_intermediate" (EScale (1 # 4) (EEins "nmef,kldc,edij,fakl,cbnm->abij" [(ESlice (EVar "g") [SV "o"; SV "o"; SV "v"; SV "v"]); (EVar "l2"); (EVar "t2"); (EVar "t2"); (EVar "t2")]));
   (*L106*) SAug true "double_res" (EAdd (EScale (1 # 1) (EVar "contracted_intermediate")) (EScale (-1 # 1) (EEins "abij->baij" [(EVar "contracted_intermediate")])));
   (*L109*) SAssign "contracted_intermediate" (EScale (1 # 2) (EEins "nmef,kldc,ealm,fbjk,dcin->abij" [(ESlice (EVar "g") [SV "o"; SV "o"; SV "v"; SV "v"]); (EVar "l2"); (EVar "t2"); (EVar "t2"); (EVar "t2")]));
   (*L110*) SAug true "double_res" (EAdd (EScale (1 # 1) (EVar "contracted_intermediate")) (EScale (-1 # 1) (EEins "abij->abji" [(EVar "contracted_intermediate")])));
   (*L113*) SAug true "double_res" (EScale (3 # 8) (EEins "nmef,kldc,ealm,fbij,dckn->abij" [(ESlice (EVar "g") [SV "o"; SV "o"; SV "v"; SV "v"]); (EVar "l2"); (EVar "t2"); (EVar "t2"); (EVar "t2")]));
   (*L116*) SAssign "contracted_intermediate" (EScale (1 # 4) (EEins "nmef,kldc,eajm,fbkl,dcin->abij" [(ESlice (EVar "g") [SV "o"; SV "o"; SV "v"; SV "v"]); (EVar "l2"); (EVar "t2"); (EVar "t2"); (EVar "t2")]));
   (*L117*) SAug true "double_res" (EAdd (EScale (1 # 1) (EVar "contracted_intermediate")) (EScale (-1 # 1) (EEins "abij->abji" [(EVar "contracted_intermediate")])));
   (*L120*) SAssign "contracted_intermediate" (EScale (-3 # 8) (EEins "nmef,kldc,eajm,fbil,dckn->abij" [(ESlice (EVar "g") [SV "o"; SV "o"; SV "v"; SV "v"]); (EVar "l2"); (EVar "t2"); (EVar "t2"); (EVar "t2")]));
   (*L121*) SAug true "double_res" (EAdd (EScale (1 # 1) (EVar "contracted_intermediate")) (EScale (-1 # 1) (EEins "abij->abji" [(EVar "contracted_intermediate")])));
   (*L124*) SAssign "contracted_intermediate" (EScale (1 # 4) (EEins "nmef,kldc,eakl,fbjm,dcin->abij" [(ESlice (EVar "g") [SV "o"; SV "o"; SV "v"; SV "v"]); (EVar "l2"); (EVar "t2"); (EVar "t2"); (EVar "t2")]));
   (*L125*) SAug true "double_res" (EAdd (EScale (1 # 1) (EVar "contracted_intermediate")) (EScale (-1 # 1) (EEins "abij->abji" [(EVar "contracted_intermediate")])));
   (*L128*) SAug true "double_res" (EScale (-1 # 8) (EEins "nmef,kldc,eakl,fbij,dcnm->abij" [(ESlice (EVar "g") [SV "o"; SV "o"; SV "v"; SV "v"]); (EVar "l2"); (EVar "t2"); (EVar "t2"); (EVar "t2")]));
   (*L131*) SAssign "contracted_intermediate" (EScale (-1 # 2) (EEins "nmef,kldc,eajl,fbkm,dcin->abij" [(ESlice (EVar "g") [SV "o"; SV "o"; SV "v"; SV "v"]); (EVar "l2"); (EVar "t2"); (EVar "t2"); (EVar "t2")]));
   (*L132*) SAug true "double_res" (EAdd (EScale (1 # 1) (EVar "contracted_intermediate")) (EScale (-1 # 1) (EEins "abij->abji" [(EVar "contracted_intermediate")])));
   (*L135*) SAssign "contracted_intermediate" (EScale (1 # 2) (EEins "nmef,kldc,eajl,fbim,dckn->abij" [(ESlice (EVar "g") [SV "o"; SV "o"; SV "v"; SV "v"]); (EVar "l2"); (EVar "t2"); (EVar "t2"); (EVar "t2")]));
   (*L136*) SAug true "double_res" (EAdd (EScale (1 # 1) (EVar "contracted_intermediate")) (EScale (-1 # 1) (EEins "abij->abji" [(EVar "contracted_intermediate")])));
   (*L139*) SAssign "contracted_intermediate" (EScale (1 # 4) (EEins "nmef,kldc,eajl,fbik,dcnm->abij" [(ESlice (EVar "g") [SV "o"; SV "o"; SV "v"; SV "v"]); (EVar "l2"); (EVar "t2"); (EVar "t2"); (EVar "t2")]));
   (*L140*) SAug true "double_res" (EAdd (EScale (1 # 1) (EVar "contracted_intermediate")) (EScale (-1 # 1) (EEins "abij->abji" [(EVar "contracted_intermediate")])));
   (*L143*) SAssign "contracted_intermediate" (EScale (1 # 4) (EEins "nmef,kldc,eajk,dbim,fcln->abij" [(ESlice (EVar "g") [SV "o"; SV "o"; SV "v"; SV "v"]); (EVar "l2"); (EVar "t2"); (EVar "t2"); (EVar "t2")]));
   (*L144*) SAug true "double_res" (EAdd (EAdd (EAdd (EScale (1 # 1) (EVar "contracted_intermediate")) (EScale (-1 # 1) (EEins "abij->abji" [(EVar "contracted_intermediate")]))) (EScale (-1 # 1) (EEins "abij->baij" [(EVar "contracted_intermediate")]))) (EScale (1 # 1) (EEins "abij->baji" [(EVar "contracted_intermediate")])));
   (*L147*) SAug true "double_res" (EScale (1 # 2) (EEins "nmef,kldc,eaij,fblm,dckn->abij" [(ESlice (EVar "g") [SV "o"; SV "o"; SV "v"; SV "v"]); (EVar "l2"); (EVar "t2"); (EVar "t2"); (EVar "t2")]));
   (*L150*) SAug true "double_res" (EScale (-1 # 8) (EEins "nmef,kldc,eaij,fbkl,dcnm->abij" [(ESlice (EVar "g") [SV "o"; SV "o"; SV "v"; SV "v"]); (EVar "l2"); (EVar "t2"); (EVar "t2"); (EVar "t2")]));
   (*L153*) SAssign "contracted_intermediate" (EScale (-1 # 8) (EEins "nmef,kldc,ebjk,dclm,fain->abij" [(ESlice (EVar "g") [SV "o"; SV "o"; SV "v"; SV "v"]); (EVar "l2"); (EVar "t2"); (EVar "t2"); (EVar "t2")]));
   (*L154*) SAug true "double_res" (EAdd (EScale (1 # 1) (EVar "contracted_intermediate")) (EScale (-1 # 1) (EEins "abij->abji" [(EVar "contracted_intermediate")])));
   (*L157*) SAug true "double_res" (EScale (-1 # 8) (EEins "nmef,kldc,ebij,dclm,fakn->abij" [(ESlice (EVar "g") [SV "o"; SV "o"; SV "v"; SV "v"]); (EVar "l2"); (EVar "t2"); (EVar "t2"); (EVar "t2")]));
   (*L160*) SAssign "contracted_intermediate" (EScale (-8333333333333 # 100000000000000) (EEins "nmef,kldc,dajm,ebkn,fcil->abij" [(ESlice (EVar "g") [SV "o"; SV "o"; SV "v"; SV "v"]); (EVar "l2"); (EVar "t2"); (EVar "t2"); (EVar "t2")]));
   (*L161*) SAug true "double_res" (EAdd (EAdd (EAdd (EScale (1 # 1) (EVar "contracted_intermediate")) (EScale (-1 # 1) (EEins "abij->abji" [(EVar "contracted_intermediate")]))) (EScale (-1 # 1) (EEins "abij->baij" [(EVar "contracted_intermediate")]))) (EScale (1 # 1) (EEins "abij->baji" [(EVar "contracted_intermediate")])))]
  (*L164*) (EVar "double_res").
