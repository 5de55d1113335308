(** Generated by tools/transcribe.py from /repo/UT2/modify_T2resid_T4Qf2.py; do not edit. *)
From Coq Require Import String List QArith.
From Verif Require Import Interp.
Import ListNotations.
Open Scope string_scope.

(** /repo/UT2/modify_T2resid_T4Qf2.py:6-1308  def residQf2_aaaa *)
Definition residQf2_aaaa : fn := mkFn
  ["g"; "l2"; "t2"; "o"; "v"]
  [(*L8*) SAssign "g_aaaa" (EItem (EVar "g") "aaaa");
   (*L9*) SAssign "g_bbbb" (EItem (EVar "g") "bbbb");
   (*L10*) SAssign "g_abab" (EItem (EVar "g") "abab");
   (*L12*) SAssign "l2_aaaa" (EItem (EVar "l2") "aaaa");
   (*L13*) SAssign "l2_bbbb" (EItem (EVar "l2") "bbbb");
   (*L14*) SAssign "l2_abab" (EItem (EVar "l2") "abab");
   (*L16*) SAssign "t2_aaaa" (EItem (EVar "t2") "aaaa");
   (*L17*) SAssign "t2_bbbb" (EItem (EVar "t2") "bbbb");
   (*L18*) SAssign "t2_abab" (EItem (EVar "t2") "abab");
   (*L20*) SAssign "contracted_intermediate" (EScale (-1 # 8) (EEins "nmef,kldc,efkl,dcjm,abin->abij" [(ESlice (EVar "g_aaaa") [SV "o"; SV "o"; SV "v"; SV "v"]); (EVar "l2_aaaa"); (EVar "t2_aaaa"); (EVar "t2_aaaa"); (EVar "t2_aaaa")]));
   (*L21*) SAssign "double_res" (EAdd (EScale (1 # 1) (EVar "contracted_intermediate")) (EScale (-1 # 1) (EEins "abij->abji" [(EVar "contracted_intermediate")])));
   (*L24*) SAssign "contracted_intermediate" (EScale (-1 # 8) (EEins "nmef,kldc,efkl,dcjm,abin->abij" [(ESlice (EVar "g_abab") [SV "o"; SV "o"; SV "v"; SV "v"]); (EVar "l2_abab"); (EVar "t2_abab"); (EVar "t2_abab"); (EVar "t2_aaaa")]));
   (*L25*) SAug true "double_res" (EAdd (EScale (1 # 1) (EVar "contracted_intermediate")) (EScale (-1 # 1) (EEins "abij->abji" [(EVar "contracted_intermediate")])));
   (*L28*) SAssign "contracted_intermediate" (EScale (-1 # 8) (EEins "nmfe,kldc,fekl,dcjm,abin->abij" [(ESlice (EVar "g_abab") [SV "o"; SV "o"; SV "v"; SV "v"]); (EVar "l2_abab"); (EVar "t2_abab"); (EVar "t2_abab"); (EVar "t2_aaaa")]));
   (*L29*) SAug true "double_res" (EAdd (EScale (1 # 1) (EVar "contracted_intermediate")) (EScale (-1 # 1) (EEins "abij->abji" [(EVar "contracted_intermediate")])));
   (*L32*) SAssign "contracted_intermediate" (EScale (-1 # 8) (EEins "nmef,klcd,efkl,cdjm,abin->abij" [(ESlice (EVar "g_abab") [SV "o"; SV "o"; SV "v"; SV "v"]); (EVar "l2_abab"); (EVar "t2_abab"); (EVar "t2_abab"); (EVar "t2_aaaa")]));
   (*L33*) SAug true "double_res" (EAdd (EScale (1 # 1) (EVar "contracted_intermediate")) (EScale (-1 # 1) (EEins "abij->abji" [(EVar "contracted_intermediate")])));
   (*L36*) SAssign "contracted_intermediate" (EScale (-1 # 8) (EEins "nmfe,klcd,fekl,cdjm,abin->abij" [(ESlice (EVar "g_abab") [SV "o"; SV "o"; SV "v"; SV "v"]); (EVar "l2_abab"); (EVar "t2_abab"); (EVar "t2_abab"); (EVar "t2_aaaa")]));
   (*L37*) SAug true "double_res" (EAdd (EScale (1 # 1) (EVar "contracted_intermediate")) (EScale (-1 # 1) (EEins "abij->abji" [(EVar "contracted_intermediate")])));
   (*L40*) SAssign "contracted_intermediate" (EScale (-1 # 8) (EEins "nmef,lkdc,eflk,dcjm,abin->abij" [(ESlice (EVar "g_abab") [SV "o"; SV "o"; SV "v"; SV "v"]); (EVar "l2_abab"); (EVar "t2_abab"); (EVar "t2_abab"); (EVar "t2_aaaa")]));
   (*L41*) SAug true "double_res" (EAdd (EScale (1 # 1) (EVar "contracted_intermediate")) (EScale (-1 # 1) (EEins "abij->abji" [(EVar "contracted_intermediate")])));
   (*L44*) SAssign "contracted_intermediate" (EScale (-1 # 8) (EEins "nmfe,lkdc,felk,dcjm,abin->abij" [(ESlice (EVar "g_abab") [SV "o"; SV "o"; SV "v"; SV "v"]); (EVar "l2_abab"); (EVar "t2_abab"); (EVar "t2_abab"); (EVar "t2_aaaa")]));
   (*L45*) SAug true "double_res" (EAdd (EScale (1 # 1) (EVar "contracted_intermediate")) (EScale (-1 # 1) (EEins "abij->abji" [(EVar "contracted_intermediate")])));
   (*L48*) SAssign "contracted_intermediate" (EScale (-1 # 8) (EEins "nmef,lkcd,eflk,cdjm,abin->abij" [(ESlice (EVar "g_abab") [SV "o"; SV "o"; SV "v"; SV "v"]); (EVar "l2_abab"); (EVar "t2_abab"); (EVar "t2_abab"); (EVar "t2_aaaa")]));
   (*L49*) SAug true "double_res" (EAdd (EScale (1 # 1) (EVar "contracted_intermediate")) (EScale (-1 # 1) (EEins "abij->abji" [(EVar "contracted_intermediate")])));
   (*L52*) SAssign "contracted_intermediate" (EScale (-1 # 8) (EEins "nmfe,lkcd,felk,cdjm,abin->abij" [(ESlice (EVar "g_abab") [SV "o"; SV "o"; SV "v"; SV "v"]); (EVar "l2_abab"); (EVar "t2_abab"); (EVar "t2_abab"); (EVar "t2_aaaa")]));
   (*L53*) SAug true "double_res" (EAdd (EScale (1 # 1) (EVar "contracted_intermediate")) (EScale (-1 # 1) (EEins "abij->abji" [(EVar "contracted_intermediate")])));
   (*L56*) SAssign "contracted_intermediate" (EScale (1 # 4) (EEins "nmef,kldc,efkl,dajm,cbin->abij" [(ESlice (EVar "g_aaaa") [SV "o"; SV "o"; SV "v"; SV "v"]); (EVar "l2_aaaa"); (EVar "t2_aaaa"); (EVar "t2_aaaa"); (EVar "t2_aaaa")]));
   (*L57*) SAug true "double_res" (EAdd (EScale (1 # 1) (EVar "contracted_intermediate")) (EScale (-1 # 1) (EEins "abij->abji" [(EVar "contracted_intermediate")])));
   (*L60*) SAssign "contracted_intermediate" (EScale (1 # 4) (EEins "mnef,kldc,efkl,dajm,bcin->abij" [(ESlice (EVar "g_abab") [SV "o"; SV "o"; SV "v"; SV "v"]); (EVar "l2_abab"); (EVar "t2_abab"); (EVar "t2_aaaa"); (EVar "t2_abab")]));
   (*L61*) SAug true "double_res" (EAdd (EScale (1 # 1) (EVar "contracted_intermediate")) (EScale (-1 # 1) (EEins "abij->abji" [(EVar "contracted_intermediate")])));
   (*L64*) SAssign "contracted_intermediate" (EScale (1 # 4) (EEins "mnfe,kldc,fekl,dajm,bcin->abij" [(ESlice (EVar "g_abab") [SV "o"; SV "o"; SV "v"; SV "v"]); (EVar "l2_abab"); (EVar "t2_abab"); (EVar "t2_aaaa"); (EVar "t2_abab")]));
   (*L65*) SAug true "double_res" (EAdd (EScale (1 # 1) (EVar "contracted_intermediate")) (EScale (-1 # 1) (EEins "abij->abji" [(EVar "contracted_intermediate")])));
   (*L68*) SAssign "contracted_intermediate" (EScale (1 # 4) (EEins "nmef,klcd,efkl,adjm,cbin->abij" [(ESlice (EVar "g_abab") [SV "o"; SV "o"; SV "v"; SV "v"]); (EVar "l2_abab"); (EVar "t2_abab"); (EVar "t2_abab"); (EVar "t2_aaaa")]));
   (*L69*) SAug true "double_res" (EAdd (EScale (1 # 1) (EVar "contracted_intermediate")) (EScale (-1 # 1) (EEins "abij->abji" [(EVar "contracted_intermediate")])));
   (*L72*) SAssign "contracted_intermediate" (EScale (1 # 4) (EEins "nmfe,klcd,fekl,adjm,cbin->abij" [(ESlice (EVar "g_abab") [SV "o"; SV "o"; SV "v"; SV "v"]); (EVar "l2_abab"); (EVar "t2_abab"); (EVar "t2_abab"); (EVar "t2_aaaa")]));
   (*L73*) SAug true "double_res" (EAdd (EScale (1 # 1) (EVar "contracted_intermediate")) (EScale (-1 # 1) (EEins "abij->abji" [(EVar "contracted_intermediate")])));
   (*L76*) SAssign "contracted_intermediate" (EScale (1 # 4) (EEins "mnef,lkdc,eflk,dajm,bcin->abij" [(ESlice (EVar "g_abab") [SV "o"; SV "o"; SV "v"; SV "v"]); (EVar "l2_abab"); (EVar "t2_abab"); (EVar "t2_aaaa"); (EVar "t2_abab")]));
   (*L77*) SAug true "double_res" (EAdd (EScale (1 # 1) (EVar "contracted_intermediate")) (EScale (-1 # 1) (EEins "abij->abji" [(EVar "contracted_intermediate")])));
   (*L80*) SAssign "contracted_intermediate" (EScale (1 # 4) (EEins "mnfe,lkdc,felk,dajm,bcin->abij" [(ESlice (EVar "g_abab") [SV "o"; SV "o"; SV "v"; SV "v"]); (EVar "l2_abab"); (EVar "t2_abab"); (EVar "t2_aaaa"); (EVar "t2_abab")]));
   (*L81*) SAug true "double_res" (EAdd (EScale (1 # 1) (EVar "contracted_intermediate")) (EScale (-1 # 1) (EEins "abij->abji" [(EVar "contracted_intermediate")])));
   (*L84*) SAssign "contracted_intermediate" (EScale (1 # 4) (EEins "nmef,lkcd,eflk,adjm,cbin->abij" [(ESlice (EVar "g_abab") [SV "o"; SV "o"; SV "v"; SV "v"]); (EVar "l2_abab"); (EVar "t2_abab"); (EVar "t2_abab"); (EVar "t2_aaaa")]));
   (*L85*) SAug true "double_res" (EAdd (EScale (1 # 1) (EVar "contracted_intermediate")) (EScale (-1 # 1) (EEins "abij->abji" [(EVar "contracted_intermediate")])));
   (*L88*) SAssign "contracted_intermediate" (EScale (1 # 4) (EEins "nmfe,lkcd,felk,adjm,cbin->abij" [(ESlice (EVar "g_abab") [SV "o"; SV "o"; SV "v"; SV "v"]); (EVar "l2_abab"); (EVar "t2_abab"); (EVar "t2_abab"); (EVar "t2_aaaa")]));
   (*L89*) SAug true "double_res" (EAdd (EScale (1 # 1) (EVar "contracted_intermediate")) (EScale (-1 # 1) (EEins "abij->abji" [(EVar "contracted_intermediate")])));
   (*L92*) SAssign "contracted_intermediate" (EScale (1 # 4) (EEins "nmef,kldc,efkl,adjm,bcin->abij" [(ESlice (EVar "g_bbbb") [SV "o"; SV "o"; SV "v"; SV "v"]); (EVar "l2_bbbb"); (EVar "t2_bbbb"); (EVar "t2_abab"); (EVar "t2_abab")]));
   (*L93*) SAug true "double_res" (EAdd (EScale (1 # 1) (EVar "contracted_intermediate")) (EScale (-1 # 1) (EEins "abij->abji" [(EVar "contracted_intermediate")])));
   (*L96*) SAssign "contracted_intermediate" (EScale (1 # 4) (EEins "nmef,kldc,efjl,dckm,abin->abij" [(ESlice (EVar "g_aaaa") [SV "o"; SV "o"; SV "v"; SV "v"]); (EVar "l2_aaaa"); (EVar "t2_aaaa"); (EVar "t2_aaaa"); (EVar "t2_aaaa")]));
   (*L97*) SAug true "double_res" (EAdd (EScale (1 # 1) (EVar "contracted_intermediate")) (EScale (-1 # 1) (EEins "abij->abji" [(EVar "contracted_intermediate")])));
   (*L100*) SAssign "contracted_intermediate" (EScale (1 # 4) (EEins "nmef,kldc,efjl,dckm,abin->abij" [(ESlice (EVar "g_abab") [SV "o"; SV "o"; SV "v"; SV "v"]); (EVar "l2_abab"); (EVar "t2_abab"); (EVar "t2_abab"); (EVar "t2_aaaa")]));
   (*L101*) SAug true "double_res" (EAdd (EScale (1 # 1) (EVar "contracted_intermediate")) (EScale (-1 # 1) (EEins "abij->abji" [(EVar "contracted_intermediate")])));
   (*L104*) SAssign "contracted_intermediate" (EScale (1 # 4) (EEins "nmfe,kldc,fejl,dckm,abin->abij" [(ESlice (EVar "g_abab") [SV "o"; SV "o"; SV "v"; SV "v"]); (EVar "l2_abab"); (EVar "t2_abab"); (EVar "t2_abab"); (EVar "t2_aaaa")]));
   (*L105*) SAug true "double_res" (EAdd (EScale (1 # 1) (EVar "contracted_intermediate")) (EScale (-1 # 1) (EEins "abij->abji" [(EVar "contracted_intermediate")])));
   (*L108*) SAssign "contracted_intermediate" (EScale (1 # 4) (EEins "nmef,klcd,efjl,cdkm,abin->abij" [(ESlice (EVar "g_abab") [SV "o"; SV "o"; SV "v"; SV "v"]); (EVar "l2_abab"); (EVar "t2_abab"); (EVar "t2_abab"); (EVar "t2_aaaa")]));
   (*L109*) SAug true "double_res" (EAdd (EScale (1 # 1) (EVar "contracted_intermediate")) (EScale (-1 # 1) (EEins "abij->abji" [(EVar "contracted_intermediate")])));
   (*L112*) SAssign "contracted_intermediate" (EScale (1 # 4) (EEins "nmfe,klcd,fejl,cdkm,abin->abij" [(ESlice (EVar "g_abab") [SV "o"; SV "o"; SV "v"; SV "v"]); (EVar "l2_abab"); (EVar "t2_abab"); (EVar "t2_abab"); (EVar "t2_aaaa")]));
   (*L113*) SAug true "double_res" (EAdd (EScale (1 # 1) (EVar "contracted_intermediate")) (EScale (-1 # 1) (EEins "abij->abji" [(EVar "contracted_intermediate")])));
   (*L116*) SAssign "contracted_intermediate" (EScale (1 # 4) (EEins "nmef,lkdc,efjl,dcmk,abin->abij" [(ESlice (EVar "g_aaaa") [SV "o"; SV "o"; SV "v"; SV "v"]); (EVar "l2_abab"); (EVar "t2_aaaa"); (EVar "t2_abab"); (EVar "t2_aaaa")]));
   (*L117*) SAug true "double_res" (EAdd (EScale (1 # 1) (EVar "contracted_intermediate")) (EScale (-1 # 1) (EEins "abij->abji" [(EVar "contracted_intermediate")])));
   (*L120*) SAssign "contracted_intermediate" (EScale (1 # 4) (EEins "nmef,lkcd,efjl,cdmk,abin->abij" [(ESlice (EVar "g_aaaa") [SV "o"; SV "o"; SV "v"; SV "v"]); (EVar "l2_abab"); (EVar "t2_aaaa"); (EVar "t2_abab"); (EVar "t2_aaaa")]));
   (*L121*) SAug true "double_res" (EAdd (EScale (1 # 1) (EVar "contracted_intermediate")) (EScale (-1 # 1) (EEins "abij->abji" [(EVar "contracted_intermediate")])));
   (*L124*) SAssign "contracted_intermediate" (EScale (1 # 4) (EEins "nmef,kldc,efjl,dckm,abin->abij" [(ESlice (EVar "g_abab") [SV "o"; SV "o"; SV "v"; SV "v"]); (EVar "l2_bbbb"); (EVar "t2_abab"); (EVar "t2_bbbb"); (EVar "t2_aaaa")]));
   (*L125*) SAug true "double_res" (EAdd (EScale (1 # 1) (EVar "contracted_intermediate")) (EScale (-1 # 1) (EEins "abij->abji" [(EVar "contracted_intermediate")])));
   (*L128*) SAssign "contracted_intermediate" (EScale (1 # 4) (EEins "nmfe,kldc,fejl,dckm,abin->abij" [(ESlice (EVar "g_abab") [SV "o"; SV "o"; SV "v"; SV "v"]); (EVar "l2_bbbb"); (EVar "t2_abab"); (EVar "t2_bbbb"); (EVar "t2_aaaa")]));
   (*L129*) SAug true "double_res" (EAdd (EScale (1 # 1) (EVar "contracted_intermediate")) (EScale (-1 # 1) (EEins "abij->abji" [(EVar "contracted_intermediate")])));
   (*L132*) SAssign "contracted_intermediate" (EScale (-1 # 4) (EEins "nmef,kldc,efjl,dcim,abkn->abij" [(ESlice (EVar "g_aaaa") [SV "o"; SV "o"; SV "v"; SV "v"]); (EVar "l2_aaaa"); (EVar "t2_aaaa"); (EVar "t2_aaaa"); (EVar "t2_aaaa")]));
   (*L133*) SAug true "double_res" (EAdd (EScale (1 # 1) (EVar "contracted_intermediate")) (EScale (-1 # 1) (EEins "abij->abji" [(EVar "contracted_intermediate")])));
   (*L136*) SAssign "contracted_intermediate" (EScale (-1 # 4) (EEins "nmef,kldc,efjl,dcim,abkn->abij" [(ESlice (EVar "g_abab") [SV "o"; SV "o"; SV "v"; SV "v"]); (EVar "l2_abab"); (EVar "t2_abab"); (EVar "t2_abab"); (EVar "t2_aaaa")]));
   (*L137*) SAug true "double_res" (EAdd (EScale (1 # 1) (EVar "contracted_intermediate")) (EScale (-1 # 1) (EEins "abij->abji" [(EVar "contracted_intermediate")])));
   (*L140*) SAssign "contracted_intermediate" (EScale (-1 # 4) (EEins "nmfe,kldc,fejl,dcim,abkn->abij" [(ESlice (EVar "g_abab") [SV "o"; SV "o"; SV "v"; SV "v"]); (EVar "l2_abab"); (EVar "t2_abab"); (EVar "t2_abab"); (EVar "t2_aaaa")]));
   (*L141*) SAug true "double_res" (EAdd (EScale (1 # 1) (EVar "contracted_intermediate")) (EScale (-1 # 1) (EEins "abij->abji" [(EVar "contracted_intermediate")])));
   (*L144*) SAssign "contracted_intermediate" (EScale (-1 # 4) (EEins "nmef,klcd,efjl,cdim,abkn->abij" [(ESlice (EVar "g_abab") [SV "o"; SV "o"; SV "v"; SV "v"]); (EVar "l2_abab"); (EVar "t2_abab"); (EVar "t2_abab"); (EVar "t2_aaaa")]));
   (*L145*) SAug true "double_res" (EAdd (EScale (1 # 1) (EVar "contracted_intermediate")) (EScale (-1 # 1) (EEins "abij->abji" [(EVar "contracted_intermediate")])));
   (*L148*) SAssign "contracted_intermediate" (EScale (-1 # 4) (EEins "nmfe,klcd,fejl,cdim,abkn->abij" [(ESlice (EVar "g_abab") [SV "o"; SV "o"; SV "v"; SV "v"]); (EVar "l2_abab"); (EVar "t2_abab"); (EVar "t2_abab"); (EVar "t2_aaaa")]));
   (*L149*) SAug true "double_res" (EAdd (EScale (1 # 1) (EVar "contracted_intermediate")) (EScale (-1 # 1) (EEins "abij->abji" [(EVar "contracted_intermediate")])));
   (*L152*) SAssign "contracted_intermediate" (EScale (-1 # 2) (EEins "nmef,kldc,efjl,dakm,cbin->abij" [(ESlice (EVar "g_aaaa") [SV "o"; SV "o"; SV "v"; SV "v"]); (EVar "l2_aaaa"); (EVar "t2_aaaa"); (EVar "t2_aaaa"); (EVar "t2_aaaa")]));
   (*L153*) SAug true "double_res" (EAdd (EScale (1 # 1) (EVar "contracted_intermediate")) (EScale (-1 # 1) (EEins "abij->abji" [(EVar "contracted_intermediate")])));
   (*L156*) SAssign "contracted_intermediate" (EScale (-1 # 2) (EEins "mnef,kldc,efjl,dakm,bcin->abij" [(ESlice (EVar "g_abab") [SV "o"; SV "o"; SV "v"; SV "v"]); (EVar "l2_abab"); (EVar "t2_abab"); (EVar "t2_aaaa"); (EVar "t2_abab")]));
   (*L157*) SAug true "double_res" (EAdd (EScale (1 # 1) (EVar "contracted_intermediate")) (EScale (-1 # 1) (EEins "abij->abji" [(EVar "contracted_intermediate")])));
   (*L160*) SAssign "contracted_intermediate" (EScale (-1 # 2) (EEins "mnfe,kldc,fejl,dakm,bcin->abij" [(ESlice (EVar "g_abab") [SV "o"; SV "o"; SV "v"; SV "v"]); (EVar "l2_abab"); (EVar "t2_abab"); (EVar "t2_aaaa"); (EVar "t2_abab")]));
   (*L161*) SAug true "double_res" (EAdd (EScale (1 # 1) (EVar "contracted_intermediate")) (EScale (-1 # 1) (EEins "abij->abji" [(EVar "contracted_intermediate")])));
   (*L164*) SAssign "contracted_intermediate" (EScale (-1 # 2) (EEins "nmef,klcd,efjl,adkm,cbin->abij" [(ESlice (EVar "g_abab") [SV "o"; SV "o"; SV "v"; SV "v"]); (EVar "l2_abab"); (EVar "t2_abab"); (EVar "t2_abab"); (EVar "t2_aaaa")]));
   (*L165*) SAug true "double_res" (EAdd (EScale (1 # 1) (EVar "contracted_intermediate")) (EScale (-1 # 1) (EEins "abij->abji" [(EVar "contracted_intermediate")])));
   (*L168*) SAssign "contracted_intermediate" (EScale (-1 # 2) (EEins "nmfe,klcd,fejl,adkm,cbin->abij" [(ESlice (EVar "g_abab") [SV "o"; SV "o"; SV "v"; SV "v"]); (EVar "l2_abab"); (EVar "t2_abab"); (EVar "t2_abab"); (EVar "t2_aaaa")]));
   (*L169*) SAug true "double_res" (EAdd (EScale (1 # 1) (EVar "contracted_intermediate")) (EScale (-1 # 1) (EEins "abij->abji" [(EVar "contracted_intermediate")])));
   (*L172*) SAssign "contracted_intermediate" (EScale (-1 # 2) (EEins "nmef,lkcd,efjl,admk,cbin->abij" [(ESlice (EVar "g_aaaa") [SV "o"; SV "o"; SV "v"; SV "v"]); (EVar "l2_abab"); (EVar "t2_aaaa"); (EVar "t2_abab"); (EVar "t2_aaaa")]));
   (*L173*) SAug true "double_res" (EAdd (EScale (1 # 1) (EVar "contracted_intermediate")) (EScale (-1 # 1) (EEins "abij->abji" [(EVar "contracted_intermediate")])));
   (*L176*) SAssign "contracted_intermediate" (EScale (-1 # 2) (EEins "mnef,kldc,efjl,admk,bcin->abij" [(ESlice (EVar "g_abab") [SV "o"; SV "o"; SV "v"; SV "v"]); (EVar "l2_bbbb"); (EVar "t2_abab"); (EVar "t2_abab"); (EVar "t2_abab")]));
   (*L177*) SAug true "double_res" (EAdd (EScale (1 # 1) (EVar "contracted_intermediate")) (EScale (-1 # 1) (EEins "abij->abji" [(EVar "contracted_intermediate")])));
   (*L180*) SAssign "contracted_intermediate" (EScale (-1 # 2) (EEins "mnfe,kldc,fejl,admk,bcin->abij" [(ESlice (EVar "g_abab") [SV "o"; SV "o"; SV "v"; SV "v"]); (EVar "l2_bbbb"); (EVar "t2_abab"); (EVar "t2_abab"); (EVar "t2_abab")]));
   (*L181*) SAug true "double_res" (EAdd (EScale (1 # 1) (EVar "contracted_intermediate")) (EScale (-1 # 1) (EEins "abij->abji" [(EVar "contracted_intermediate")])));
   (*L184*) SAssign "contracted_intermediate" (EScale (1 # 2) (EEins "nmef,kldc,efjl,daim,cbkn->abij" [(ESlice (EVar "g_aaaa") [SV "o"; SV "o"; SV "v"; SV "v"]); (EVar "l2_aaaa"); (EVar "t2_aaaa"); (EVar "t2_aaaa"); (EVar "t2_aaaa")]));
   (*L185*) SAug true "double_res" (EAdd (EScale (1 # 1) (EVar "contracted_intermediate")) (EScale (-1 # 1) (EEins "abij->abji" [(EVar "contracted_intermediate")])));
   (*L188*) SAssign "contracted_intermediate" (EScale (1 # 2) (EEins "mnef,kldc,efjl,daim,bckn->abij" [(ESlice (EVar "g_abab") [SV "o"; SV "o"; SV "v"; SV "v"]); (EVar "l2_abab"); (EVar "t2_abab"); (EVar "t2_aaaa"); (EVar "t2_abab")]));
   (*L189*) SAug true "double_res" (EAdd (EScale (1 # 1) (EVar "contracted_intermediate")) (EScale (-1 # 1) (EEins "abij->abji" [(EVar "contracted_intermediate")])));
   (*L192*) SAssign "contracted_intermediate" (EScale (1 # 2) (EEins "mnfe,kldc,fejl,daim,bckn->abij" [(ESlice (EVar "g_abab") [SV "o"; SV "o"; SV "v"; SV "v"]); (EVar "l2_abab"); (EVar "t2_abab"); (EVar "t2_aaaa"); (EVar "t2_abab")]));
   (*L193*) SAug true "double_res" (EAdd (EScale (1 # 1) (EVar "contracted_intermediate")) (EScale (-1 # 1) (EEins "abij->abji" [(EVar "contracted_intermediate")])));
   (*L196*) SAssign "contracted_intermediate" (EScale (1 # 2) (EEins "nmef,klcd,efjl,adim,cbkn->abij" [(ESlice (EVar "g_abab") [SV "o"; SV "o"; SV "v"; SV "v"]); (EVar "l2_abab"); (EVar "t2_abab"); (EVar "t2_abab"); (EVar "t2_aaaa")]));
   (*L197*) SAug true "double_res" (EAdd (EScale (1 # 1) (EVar "contracted_intermediate")) (EScale (-1 # 1) (EEins "abij->abji" [(EVar "contracted_intermediate")])));
   (*L200*) SAssign "contracted_intermediate" (EScale (1 # 2) (EEins "nmfe,klcd,fejl,adim,cbkn->abij" [(ESlice (EVar "g_abab") [SV "o"; SV "o"; SV "v"; SV "v"]); (EVar "l2_abab"); (EVar "t2_abab"); (EVar "t2_abab"); (EVar "t2_aaaa")]));
   (*L201*) SAug true "double_res" (EAdd (EScale (1 # 1) (EVar "contracted_intermediate")) (EScale (-1 # 1) (EEins "abij->abji" [(EVar "contracted_intermediate")])));
   (*L204*) SAssign "contracted_intermediate" (EScale (-1 # 2) (EEins "nmef,lkdc,efjl,daim,bcnk->abij" [(ESlice (EVar "g_aaaa") [SV "o"; SV "o"; SV "v"; SV "v"]); (EVar "l2_abab"); (EVar "t2_aaaa"); (EVar "t2_aaaa"); (EVar "t2_abab")]));
   (*L205*) SAug true "double_res" (EAdd (EScale (1 # 1) (EVar "contracted_intermediate")) (EScale (-1 # 1) (EEins "abij->abji" [(EVar "contracted_intermediate")])));
   (*L208*) SAssign "contracted_intermediate" (EScale (-1 # 2) (EEins "nmef,kldc,efjl,adim,bcnk->abij" [(ESlice (EVar "g_abab") [SV "o"; SV "o"; SV "v"; SV "v"]); (EVar "l2_bbbb"); (EVar "t2_abab"); (EVar "t2_abab"); (EVar "t2_abab")]));
   (*L209*) SAug true "double_res" (EAdd (EScale (1 # 1) (EVar "contracted_intermediate")) (EScale (-1 # 1) (EEins "abij->abji" [(EVar "contracted_intermediate")])));
   (*L212*) SAssign "contracted_intermediate" (EScale (-1 # 2) (EEins "nmfe,kldc,fejl,adim,bcnk->abij" [(ESlice (EVar "g_abab") [SV "o"; SV "o"; SV "v"; SV "v"]); (EVar "l2_bbbb"); (EVar "t2_abab"); (EVar "t2_abab"); (EVar "t2_abab")]));
   (*L213*) SAug true "double_res" (EAdd (EScale (1 # 1) (EVar "contracted_intermediate")) (EScale (-1 # 1) (EEins "abij->abji" [(EVar "contracted_intermediate")])));
   (*L216*) SAug true "double_res" (EScale (-1 # 4) (EEins "nmef,kldc,efij,dclm,abkn->abij" [(ESlice (EVar "g_aaaa") [SV "o"; SV "o"; SV "v"; SV "v"]); (EVar "l2_aaaa"); (EVar "t2_aaaa"); (EVar "t2_aaaa"); (EVar "t2_aaaa")]));
   (*L219*) SAug true "double_res" (EScale (1 # 4) (EEins "nmef,kldc,efij,dcml,abkn->abij" [(ESlice (EVar "g_aaaa") [SV "o"; SV "o"; SV "v"; SV "v"]); (EVar "l2_abab"); (EVar "t2_aaaa"); (EVar "t2_abab"); (EVar "t2_aaaa")]));
   (*L222*) SAug true "double_res" (EScale (1 # 4) (EEins "nmef,klcd,efij,cdml,abkn->abij" [(ESlice (EVar "g_aaaa") [SV "o"; SV "o"; SV "v"; SV "v"]); (EVar "l2_abab"); (EVar "t2_aaaa"); (EVar "t2_abab"); (EVar "t2_aaaa")]));
   (*L225*) SAssign "contracted_intermediate" (EScale (1 # 4) (EEins "nmef,kldc,efij,dalm,cbkn->abij" [(ESlice (EVar "g_aaaa") [SV "o"; SV "o"; SV "v"; SV "v"]); (EVar "l2_aaaa"); (EVar "t2_aaaa"); (EVar "t2_aaaa"); (EVar "t2_aaaa")]));
   (*L226*) SAug true "double_res" (EAdd (EScale (1 # 1) (EVar "contracted_intermediate")) (EScale (-1 # 1) (EEins "abij->baij" [(EVar "contracted_intermediate")])));
   (*L229*) SAssign "contracted_intermediate" (EScale (-1 # 4) (EEins "nmef,klcd,efij,adml,cbkn->abij" [(ESlice (EVar "g_aaaa") [SV "o"; SV "o"; SV "v"; SV "v"]); (EVar "l2_abab"); (EVar "t2_aaaa"); (EVar "t2_abab"); (EVar "t2_aaaa")]));
   (*L230*) SAug true "double_res" (EAdd (EScale (1 # 1) (EVar "contracted_intermediate")) (EScale (-1 # 1) (EEins "abij->baij" [(EVar "contracted_intermediate")])));
   (*L233*) SAssign "contracted_intermediate" (EScale (-1 # 4) (EEins "nmef,lkdc,efij,dalm,bcnk->abij" [(ESlice (EVar "g_aaaa") [SV "o"; SV "o"; SV "v"; SV "v"]); (EVar "l2_abab"); (EVar "t2_aaaa"); (EVar "t2_aaaa"); (EVar "t2_abab")]));
   (*L234*) SAug true "double_res" (EAdd (EScale (1 # 1) (EVar "contracted_intermediate")) (EScale (-1 # 1) (EEins "abij->baij" [(EVar "contracted_intermediate")])));
   (*L237*) SAssign "contracted_intermediate" (EScale (1 # 4) (EEins "nmef,kldc,efij,adml,bcnk->abij" [(ESlice (EVar "g_aaaa") [SV "o"; SV "o"; SV "v"; SV "v"]); (EVar "l2_bbbb"); (EVar "t2_aaaa"); (EVar "t2_abab"); (EVar "t2_abab")]));
   (*L238*) SAug true "double_res" (EAdd (EScale (1 # 1) (EVar "contracted_intermediate")) (EScale (-1 # 1) (EEins "abij->baij" [(EVar "contracted_intermediate")])));
   (*L241*) SAssign "contracted_intermediate" (EScale (1 # 2) (EEins "nmef,kldc,edlm,fcjk,abin->abij" [(ESlice (EVar "g_aaaa") [SV "o"; SV "o"; SV "v"; SV "v"]); (EVar "l2_aaaa"); (EVar "t2_aaaa"); (EVar "t2_aaaa"); (EVar "t2_aaaa")]));
   (*L242*) SAug true "double_res" (EAdd (EScale (1 # 1) (EVar "contracted_intermediate")) (EScale (-1 # 1) (EEins "abij->abji" [(EVar "contracted_intermediate")])));
   (*L245*) SAssign "contracted_intermediate" (EScale (1 # 2) (EEins "nmfe,kldc,delm,fcjk,abin->abij" [(ESlice (EVar "g_abab") [SV "o"; SV "o"; SV "v"; SV "v"]); (EVar "l2_aaaa"); (EVar "t2_abab"); (EVar "t2_aaaa"); (EVar "t2_aaaa")]));
   (*L246*) SAug true "double_res" (EAdd (EScale (1 # 1) (EVar "contracted_intermediate")) (EScale (-1 # 1) (EEins "abij->abji" [(EVar "contracted_intermediate")])));
   (*L249*) SAssign "contracted_intermediate" (EScale (1 # 2) (EEins "nmef,klcd,edml,fcjk,abin->abij" [(ESlice (EVar "g_aaaa") [SV "o"; SV "o"; SV "v"; SV "v"]); (EVar "l2_abab"); (EVar "t2_abab"); (EVar "t2_aaaa"); (EVar "t2_aaaa")]));
   (*L250*) SAug true "double_res" (EAdd (EScale (1 # 1) (EVar "contracted_intermediate")) (EScale (-1 # 1) (EEins "abij->abji" [(EVar "contracted_intermediate")])));
   (*L253*) SAssign "contracted_intermediate" (EScale (1 # 2) (EEins "nmfe,klcd,edlm,fcjk,abin->abij" [(ESlice (EVar "g_abab") [SV "o"; SV "o"; SV "v"; SV "v"]); (EVar "l2_abab"); (EVar "t2_bbbb"); (EVar "t2_aaaa"); (EVar "t2_aaaa")]));
   (*L254*) SAug true "double_res" (EAdd (EScale (1 # 1) (EVar "contracted_intermediate")) (EScale (-1 # 1) (EEins "abij->abji" [(EVar "contracted_intermediate")])));
   (*L257*) SAssign "contracted_intermediate" (EScale (-1 # 2) (EEins "nmef,lkdc,edlm,fcjk,abin->abij" [(ESlice (EVar "g_aaaa") [SV "o"; SV "o"; SV "v"; SV "v"]); (EVar "l2_abab"); (EVar "t2_aaaa"); (EVar "t2_abab"); (EVar "t2_aaaa")]));
   (*L258*) SAug true "double_res" (EAdd (EScale (1 # 1) (EVar "contracted_intermediate")) (EScale (-1 # 1) (EEins "abij->abji" [(EVar "contracted_intermediate")])));
   (*L261*) SAssign "contracted_intermediate" (EScale (-1 # 2) (EEins "nmfe,lkdc,delm,fcjk,abin->abij" [(ESlice (EVar "g_abab") [SV "o"; SV "o"; SV "v"; SV "v"]); (EVar "l2_abab"); (EVar "t2_abab"); (EVar "t2_abab"); (EVar "t2_aaaa")]));
   (*L262*) SAug true "double_res" (EAdd (EScale (1 # 1) (EVar "contracted_intermediate")) (EScale (-1 # 1) (EEins "abij->abji" [(EVar "contracted_intermediate")])));
   (*L265*) SAssign "contracted_intermediate" (EScale (-1 # 2) (EEins "nmef,lkcd,edlm,cfjk,abin->abij" [(ESlice (EVar "g_abab") [SV "o"; SV "o"; SV "v"; SV "v"]); (EVar "l2_abab"); (EVar "t2_abab"); (EVar "t2_abab"); (EVar "t2_aaaa")]));
   (*L266*) SAug true "double_res" (EAdd (EScale (1 # 1) (EVar "contracted_intermediate")) (EScale (-1 # 1) (EEins "abij->abji" [(EVar "contracted_intermediate")])));
   (*L269*) SAssign "contracted_intermediate" (EScale (-1 # 2) (EEins "nmef,kldc,edml,fcjk,abin->abij" [(ESlice (EVar "g_aaaa") [SV "o"; SV "o"; SV "v"; SV "v"]); (EVar "l2_bbbb"); (EVar "t2_abab"); (EVar "t2_abab"); (EVar "t2_aaaa")]));
   (*L270*) SAug true "double_res" (EAdd (EScale (1 # 1) (EVar "contracted_intermediate")) (EScale (-1 # 1) (EEins "abij->abji" [(EVar "contracted_intermediate")])));
   (*L273*) SAssign "contracted_intermediate" (EScale (-1 # 2) (EEins "nmfe,kldc,edlm,fcjk,abin->abij" [(ESlice (EVar "g_abab") [SV "o"; SV "o"; SV "v"; SV "v"]); (EVar "l2_bbbb"); (EVar "t2_bbbb"); (EVar "t2_abab"); (EVar "t2_aaaa")]));
   (*L274*) SAug true "double_res" (EAdd (EScale (1 # 1) (EVar "contracted_intermediate")) (EScale (-1 # 1) (EEins "abij->abji" [(EVar "contracted_intermediate")])));
   (*L277*) SAug true "double_res" (EScale (1 # 1) (EEins "nmef,kldc,edlm,fcij,abkn->abij" [(ESlice (EVar "g_aaaa") [SV "o"; SV "o"; SV "v"; SV "v"]); (EVar "l2_aaaa"); (EVar "t2_aaaa"); (EVar "t2_aaaa"); (EVar "t2_aaaa")]));
   (*L280*) SAug true "double_res" (EScale (1 # 1) (EEins "nmfe,kldc,delm,fcij,abkn->abij" [(ESlice (EVar "g_abab") [SV "o"; SV "o"; SV "v"; SV "v"]); (EVar "l2_aaaa"); (EVar "t2_abab"); (EVar "t2_aaaa"); (EVar "t2_aaaa")]));
   (*L283*) SAug true "double_res" (EScale (1 # 1) (EEins "nmef,klcd,edml,fcij,abkn->abij" [(ESlice (EVar "g_aaaa") [SV "o"; SV "o"; SV "v"; SV "v"]); (EVar "l2_abab"); (EVar "t2_abab"); (EVar "t2_aaaa"); (EVar "t2_aaaa")]));
   (*L286*) SAug true "double_res" (EScale (1 # 1) (EEins "nmfe,klcd,edlm,fcij,abkn->abij" [(ESlice (EVar "g_abab") [SV "o"; SV "o"; SV "v"; SV "v"]); (EVar "l2_abab"); (EVar "t2_bbbb"); (EVar "t2_aaaa"); (EVar "t2_aaaa")]));
   (*L289*) SAssign "contracted_intermediate" (EScale (-3 # 4) (EEins "nmef,kldc,edlm,fajk,cbin->abij" [(ESlice (EVar "g_aaaa") [SV "o"; SV "o"; SV "v"; SV "v"]); (EVar "l2_aaaa"); (EVar "t2_aaaa"); (EVar "t2_aaaa"); (EVar "t2_aaaa")]));
   (*L290*) SAug true "double_res" (EAdd (EAdd (EAdd (EScale (1 # 1) (EVar "contracted_intermediate")) (EScale (-1 # 1) (EEins "abij->abji" [(EVar "contracted_intermediate")]))) (EScale (-1 # 1) (EEins "abij->baij" [(EVar "contracted_intermediate")]))) (EScale (1 # 1) (EEins "abij->baji" [(EVar "contracted_intermediate")])));
   (*L293*) SAssign "contracted_intermediate" (EScale (-3 # 4) (EEins "nmfe,kldc,delm,fajk,cbin->abij" [(ESlice (EVar "g_abab") [SV "o"; SV "o"; SV "v"; SV "v"]); (EVar "l2_aaaa"); (EVar "t2_abab"); (EVar "t2_aaaa"); (EVar "t2_aaaa")]));
   (*L294*) SAug true "double_res" (EAdd (EAdd (EAdd (EScale (1 # 1) (EVar "contracted_intermediate")) (EScale (-1 # 1) (EEins "abij->abji" [(EVar "contracted_intermediate")]))) (EScale (-1 # 1) (EEins "abij->baij" [(EVar "contracted_intermediate")]))) (EScale (1 # 1) (EEins "abij->baji" [(EVar "contracted_intermediate")])));
   (*L297*) SAssign "contracted_intermediate" (EScale (3 # 4) (EEins "mnfe,kldc,deml,fajk,bcin->abij" [(ESlice (EVar "g_abab") [SV "o"; SV "o"; SV "v"; SV "v"]); (EVar "l2_abab"); (EVar "t2_abab"); (EVar "t2_aaaa"); (EVar "t2_abab")]));
   (*L298*) SAug true "double_res" (EAdd (EAdd (EAdd (EScale (1 # 1) (EVar "contracted_intermediate")) (EScale (-1 # 1) (EEins "abij->abji" [(EVar "contracted_intermediate")]))) (EScale (-1 # 1) (EEins "abij->baij" [(EVar "contracted_intermediate")]))) (EScale (1 # 1) (EEins "abij->baji" [(EVar "contracted_intermediate")])));
   (*L301*) SAssign "contracted_intermediate" (EScale (-3 # 4) (EEins "nmef,klcd,edml,fajk,cbin->abij" [(ESlice (EVar "g_aaaa") [SV "o"; SV "o"; SV "v"; SV "v"]); (EVar "l2_abab"); (EVar "t2_abab"); (EVar "t2_aaaa"); (EVar "t2_aaaa")]));
   (*L302*) SAug true "double_res" (EAdd (EAdd (EAdd (EScale (1 # 1) (EVar "contracted_intermediate")) (EScale (-1 # 1) (EEins "abij->abji" [(EVar "contracted_intermediate")]))) (EScale (-1 # 1) (EEins "abij->baij" [(EVar "contracted_intermediate")]))) (EScale (1 # 1) (EEins "abij->baji" [(EVar "contracted_intermediate")])));
   (*L305*) SAssign "contracted_intermediate" (EScale (-3 # 4) (EEins "nmfe,klcd,edlm,fajk,cbin->abij" [(ESlice (EVar "g_abab") [SV "o"; SV "o"; SV "v"; SV "v"]); (EVar "l2_abab"); (EVar "t2_bbbb"); (EVar "t2_aaaa"); (EVar "t2_aaaa")]));
   (*L306*) SAug true "double_res" (EAdd (EAdd (EAdd (EScale (1 # 1) (EVar "contracted_intermediate")) (EScale (-1 # 1) (EEins "abij->abji" [(EVar "contracted_intermediate")]))) (EScale (-1 # 1) (EEins "abij->baij" [(EVar "contracted_intermediate")]))) (EScale (1 # 1) (EEins "abij->baji" [(EVar "contracted_intermediate")])));
   (*L309*) SAssign "contracted_intermediate" (EScale (-3 # 4) (EEins "mnef,lkdc,edlm,afjk,bcin->abij" [(ESlice (EVar "g_abab") [SV "o"; SV "o"; SV "v"; SV "v"]); (EVar "l2_abab"); (EVar "t2_aaaa"); (EVar "t2_abab"); (EVar "t2_abab")]));
   (*L310*) SAug true "double_res" (EAdd (EAdd (EAdd (EScale (1 # 1) (EVar "contracted_intermediate")) (EScale (-1 # 1) (EEins "abij->abji" [(EVar "contracted_intermediate")]))) (EScale (-1 # 1) (EEins "abij->baij" [(EVar "contracted_intermediate")]))) (EScale (1 # 1) (EEins "abij->baji" [(EVar "contracted_intermediate")])));
   (*L313*) SAssign "contracted_intermediate" (EScale (-3 # 4) (EEins "nmef,lkdc,delm,afjk,bcin->abij" [(ESlice (EVar "g_bbbb") [SV "o"; SV "o"; SV "v"; SV "v"]); (EVar "l2_abab"); (EVar "t2_abab"); (EVar "t2_abab"); (EVar "t2_abab")]));
   (*L314*) SAug true "double_res" (EAdd (EAdd (EAdd (EScale (1 # 1) (EVar "contracted_intermediate")) (EScale (-1 # 1) (EEins "abij->abji" [(EVar "contracted_intermediate")]))) (EScale (-1 # 1) (EEins "abij->baij" [(EVar "contracted_intermediate")]))) (EScale (1 # 1) (EEins "abij->baji" [(EVar "contracted_intermediate")])));
   (*L317*) SAssign "contracted_intermediate" (EScale (3 # 4) (EEins "nmef,lkcd,edlm,afjk,cbin->abij" [(ESlice (EVar "g_abab") [SV "o"; SV "o"; SV "v"; SV "v"]); (EVar "l2_abab"); (EVar "t2_abab"); (EVar "t2_abab"); (EVar "t2_aaaa")]));
   (*L318*) SAug true "double_res" (EAdd (EAdd (EAdd (EScale (1 # 1) (EVar "contracted_intermediate")) (EScale (-1 # 1) (EEins "abij->abji" [(EVar "contracted_intermediate")]))) (EScale (-1 # 1) (EEins "abij->baij" [(EVar "contracted_intermediate")]))) (EScale (1 # 1) (EEins "abij->baji" [(EVar "contracted_intermediate")])));
   (*L321*) SAssign "contracted_intermediate" (EScale (-3 # 4) (EEins "mnef,kldc,edml,afjk,bcin->abij" [(ESlice (EVar "g_abab") [SV "o"; SV "o"; SV "v"; SV "v"]); (EVar "l2_bbbb"); (EVar "t2_abab"); (EVar "t2_abab"); (EVar "t2_abab")]));
   (*L322*) SAug true "double_res" (EAdd (EAdd (EAdd (EScale (1 # 1) (EVar "contracted_intermediate")) (EScale (-1 # 1) (EEins "abij->abji" [(EVar "contracted_intermediate")]))) (EScale (-1 # 1) (EEins "abij->baij" [(EVar "contracted_intermediate")]))) (EScale (1 # 1) (EEins "abij->baji" [(EVar "contracted_intermediate")])));
   (*L325*) SAssign "contracted_intermediate" (EScale (-3 # 4) (EEins "nmef,kldc,edlm,afjk,bcin->abij" [(ESlice (EVar "g_bbbb") [SV "o"; SV "o"; SV "v"; SV "v"]); (EVar "l2_bbbb"); (EVar "t2_bbbb"); (EVar "t2_abab"); (EVar "t2_abab")]));
   (*L326*) SAug true "double_res" (EAdd (EAdd (EAdd (EScale (1 # 1) (EVar "contracted_intermediate")) (EScale (-1 # 1) (EEins "abij->abji" [(EVar "contracted_intermediate")]))) (EScale (-1 # 1) (EEins "abij->baij" [(EVar "contracted_intermediate")]))) (EScale (1 # 1) (EEins "abij->baji" [(EVar "contracted_intermediate")])));
   (*L329*) SAssign "contracted_intermediate" (EScale (-1 # 1) (EEins "nmef,kldc,edlm,faij,cbkn->abij" [(ESlice (EVar "g_aaaa") [SV "o"; SV "o"; SV "v"; SV "v"]); (EVar "l2_aaaa"); (EVar "t2_aaaa"); (EVar "t2_aaaa"); (EVar "t2_aaaa")]));
   (*L330*) SAug true "double_res" (EAdd (EScale (1 # 1) (EVar "contracted_intermediate")) (EScale (-1 # 1) (EEins "abij->baij" [(EVar "contracted_intermediate")])));
   (*L333*) SAssign "contracted_intermediate" (EScale (-1 # 1) (EEins "nmfe,kldc,delm,faij,cbkn->abij" [(ESlice (EVar "g_abab") [SV "o"; SV "o"; SV "v"; SV "v"]); (EVar "l2_aaaa"); (EVar "t2_abab"); (EVar "t2_aaaa"); (EVar "t2_aaaa")]));
   (*L334*) SAug true "double_res" (EAdd (EScale (1 # 1) (EVar "contracted_intermediate")) (EScale (-1 # 1) (EEins "abij->baij" [(EVar "contracted_intermediate")])));
   (*L337*) SAssign "contracted_intermediate" (EScale (1 # 1) (EEins "mnfe,kldc,deml,faij,bckn->abij" [(ESlice (EVar "g_abab") [SV "o"; SV "o"; SV "v"; SV "v"]); (EVar "l2_abab"); (EVar "t2_abab"); (EVar "t2_aaaa"); (EVar "t2_abab")]));
   (*L338*) SAug true "double_res" (EAdd (EScale (1 # 1) (EVar "contracted_intermediate")) (EScale (-1 # 1) (EEins "abij->baij" [(EVar "contracted_intermediate")])));
   (*L341*) SAssign "contracted_intermediate" (EScale (-1 # 1) (EEins "nmef,klcd,edml,faij,cbkn->abij" [(ESlice (EVar "g_aaaa") [SV "o"; SV "o"; SV "v"; SV "v"]); (EVar "l2_abab"); (EVar "t2_abab"); (EVar "t2_aaaa"); (EVar "t2_aaaa")]));
   (*L342*) SAug true "double_res" (EAdd (EScale (1 # 1) (EVar "contracted_intermediate")) (EScale (-1 # 1) (EEins "abij->baij" [(EVar "contracted_intermediate")])));
   (*L345*) SAssign "contracted_intermediate" (EScale (-1 # 1) (EEins "nmfe,klcd,edlm,faij,cbkn->abij" [(ESlice (EVar "g_abab") [SV "o"; SV "o"; SV "v"; SV "v"]); (EVar "l2_abab"); (EVar "t2_bbbb"); (EVar "t2_aaaa"); (EVar "t2_aaaa")]));
   (*L346*) SAug true "double_res" (EAdd (EScale (1 # 1) (EVar "contracted_intermediate")) (EScale (-1 # 1) (EEins "abij->baij" [(EVar "contracted_intermediate")])));
   (*L349*) SAssign "contracted_intermediate" (EScale (1 # 1) (EEins "nmef,lkdc,edlm,faij,bcnk->abij" [(ESlice (EVar "g_aaaa") [SV "o"; SV "o"; SV "v"; SV "v"]); (EVar "l2_abab"); (EVar "t2_aaaa"); (EVar "t2_aaaa"); (EVar "t2_abab")]));
   (*L350*) SAug true "double_res" (EAdd (EScale (1 # 1) (EVar "contracted_intermediate")) (EScale (-1 # 1) (EEins "abij->baij" [(EVar "contracted_intermediate")])));
   (*L353*) SAssign "contracted_intermediate" (EScale (1 # 1) (EEins "nmfe,lkdc,delm,faij,bcnk->abij" [(ESlice (EVar "g_abab") [SV "o"; SV "o"; SV "v"; SV "v"]); (EVar "l2_abab"); (EVar "t2_abab"); (EVar "t2_aaaa"); (EVar "t2_abab")]));
   (*L354*) SAug true "double_res" (EAdd (EScale (1 # 1) (EVar "contracted_intermediate")) (EScale (-1 # 1) (EEins "abij->baij" [(EVar "contracted_intermediate")])));
   (*L357*) SAssign "contracted_intermediate" (EScale (1 # 1) (EEins "nmef,kldc,edml,faij,bcnk->abij" [(ESlice (EVar "g_aaaa") [SV "o"; SV "o"; SV "v"; SV "v"]); (EVar "l2_bbbb"); (EVar "t2_abab"); (EVar "t2_aaaa"); (EVar "t2_abab")]));
   (*L358*) SAug true "double_res" (EAdd (EScale (1 # 1) (EVar "contracted_intermediate")) (EScale (-1 # 1) (EEins "abij->baij" [(EVar "contracted_intermediate")])));
   (*L361*) SAssign "contracted_intermediate" (EScale (1 # 1) (EEins "nmfe,kldc,edlm,faij,bcnk->abij" [(ESlice (EVar "g_abab") [SV "o"; SV "o"; SV "v"; SV "v"]); (EVar "l2_bbbb"); (EVar "t2_bbbb"); (EVar "t2_aaaa"); (EVar "t2_abab")]));
   (*L362*) SAug true "double_res" (EAdd (EScale (1 # 1) (EVar "contracted_intermediate")) (EScale (-1 # 1) (EEins "abij->baij" [(EVar "contracted_intermediate")])));
   (*L365*) SAssign "contracted_intermediate" (EScale (1 # 2) (EEins "nmef,kldc,edjm,fckl,abin->abij" [(ESlice (EVar "g_aaaa") [SV "o"; SV "o"; SV "v"; SV "v"]); (EVar "l2_aaaa"); (EVar "t2_aaaa"); (EVar "t2_aaaa"); (EVar "t2_aaaa")]));
   (*L366*) SAug true "double_res" (EAdd (EScale (1 # 1) (EVar "contracted_intermediate")) (EScale (-1 # 1) (EEins "abij->abji" [(EVar "contracted_intermediate")])));
   (*L369*) SAssign "contracted_intermediate" (EScale (1 # 2) (EEins "nmfe,kldc,dejm,fckl,abin->abij" [(ESlice (EVar "g_abab") [SV "o"; SV "o"; SV "v"; SV "v"]); (EVar "l2_aaaa"); (EVar "t2_abab"); (EVar "t2_aaaa"); (EVar "t2_aaaa")]));
   (*L370*) SAug true "double_res" (EAdd (EScale (1 # 1) (EVar "contracted_intermediate")) (EScale (-1 # 1) (EEins "abij->abji" [(EVar "contracted_intermediate")])));
   (*L373*) SAssign "contracted_intermediate" (EScale (1 # 2) (EEins "nmef,kldc,edjm,fckl,abin->abij" [(ESlice (EVar "g_aaaa") [SV "o"; SV "o"; SV "v"; SV "v"]); (EVar "l2_abab"); (EVar "t2_aaaa"); (EVar "t2_abab"); (EVar "t2_aaaa")]));
   (*L374*) SAug true "double_res" (EAdd (EScale (1 # 1) (EVar "contracted_intermediate")) (EScale (-1 # 1) (EEins "abij->abji" [(EVar "contracted_intermediate")])));
   (*L377*) SAssign "contracted_intermediate" (EScale (1 # 2) (EEins "nmfe,kldc,dejm,fckl,abin->abij" [(ESlice (EVar "g_abab") [SV "o"; SV "o"; SV "v"; SV "v"]); (EVar "l2_abab"); (EVar "t2_abab"); (EVar "t2_abab"); (EVar "t2_aaaa")]));
   (*L378*) SAug true "double_res" (EAdd (EScale (1 # 1) (EVar "contracted_intermediate")) (EScale (-1 # 1) (EEins "abij->abji" [(EVar "contracted_intermediate")])));
   (*L381*) SAssign "contracted_intermediate" (EScale (1 # 2) (EEins "nmef,klcd,edjm,cfkl,abin->abij" [(ESlice (EVar "g_abab") [SV "o"; SV "o"; SV "v"; SV "v"]); (EVar "l2_abab"); (EVar "t2_abab"); (EVar "t2_abab"); (EVar "t2_aaaa")]));
   (*L382*) SAug true "double_res" (EAdd (EScale (1 # 1) (EVar "contracted_intermediate")) (EScale (-1 # 1) (EEins "abij->abji" [(EVar "contracted_intermediate")])));
   (*L385*) SAssign "contracted_intermediate" (EScale (1 # 2) (EEins "nmef,lkdc,edjm,fclk,abin->abij" [(ESlice (EVar "g_aaaa") [SV "o"; SV "o"; SV "v"; SV "v"]); (EVar "l2_abab"); (EVar "t2_aaaa"); (EVar "t2_abab"); (EVar "t2_aaaa")]));
   (*L386*) SAug true "double_res" (EAdd (EScale (1 # 1) (EVar "contracted_intermediate")) (EScale (-1 # 1) (EEins "abij->abji" [(EVar "contracted_intermediate")])));
   (*L389*) SAssign "contracted_intermediate" (EScale (1 # 2) (EEins "nmfe,lkdc,dejm,fclk,abin->abij" [(ESlice (EVar "g_abab") [SV "o"; SV "o"; SV "v"; SV "v"]); (EVar "l2_abab"); (EVar "t2_abab"); (EVar "t2_abab"); (EVar "t2_aaaa")]));
   (*L390*) SAug true "double_res" (EAdd (EScale (1 # 1) (EVar "contracted_intermediate")) (EScale (-1 # 1) (EEins "abij->abji" [(EVar "contracted_intermediate")])));
   (*L393*) SAssign "contracted_intermediate" (EScale (1 # 2) (EEins "nmef,lkcd,edjm,cflk,abin->abij" [(ESlice (EVar "g_abab") [SV "o"; SV "o"; SV "v"; SV "v"]); (EVar "l2_abab"); (EVar "t2_abab"); (EVar "t2_abab"); (EVar "t2_aaaa")]));
   (*L394*) SAug true "double_res" (EAdd (EScale (1 # 1) (EVar "contracted_intermediate")) (EScale (-1 # 1) (EEins "abij->abji" [(EVar "contracted_intermediate")])));
   (*L397*) SAssign "contracted_intermediate" (EScale (1 # 2) (EEins "nmef,kldc,edjm,fckl,abin->abij" [(ESlice (EVar "g_abab") [SV "o"; SV "o"; SV "v"; SV "v"]); (EVar "l2_bbbb"); (EVar "t2_abab"); (EVar "t2_bbbb"); (EVar "t2_aaaa")]));
   (*L398*) SAug true "double_res" (EAdd (EScale (1 # 1) (EVar "contracted_intermediate")) (EScale (-1 # 1) (EEins "abij->abji" [(EVar "contracted_intermediate")])));
   (*L401*) SAssign "contracted_intermediate" (EScale (-1 # 1) (EEins "nmef,kldc,edjm,fcil,abkn->abij" [(ESlice (EVar "g_aaaa") [SV "o"; SV "o"; SV "v"; SV "v"]); (EVar "l2_aaaa"); (EVar "t2_aaaa"); (EVar "t2_aaaa"); (EVar "t2_aaaa")]));
   (*L402*) SAug true "double_res" (EAdd (EScale (1 # 1) (EVar "contracted_intermediate")) (EScale (-1 # 1) (EEins "abij->abji" [(EVar "contracted_intermediate")])));
   (*L405*) SAssign "contracted_intermediate" (EScale (-1 # 1) (EEins "nmfe,kldc,dejm,fcil,abkn->abij" [(ESlice (EVar "g_abab") [SV "o"; SV "o"; SV "v"; SV "v"]); (EVar "l2_aaaa"); (EVar "t2_abab"); (EVar "t2_aaaa"); (EVar "t2_aaaa")]));
   (*L406*) SAug true "double_res" (EAdd (EScale (1 # 1) (EVar "contracted_intermediate")) (EScale (-1 # 1) (EEins "abij->abji" [(EVar "contracted_intermediate")])));
   (*L409*) SAssign "contracted_intermediate" (EScale (-1 # 1) (EEins "nmef,kldc,edjm,fcil,abkn->abij" [(ESlice (EVar "g_aaaa") [SV "o"; SV "o"; SV "v"; SV "v"]); (EVar "l2_abab"); (EVar "t2_aaaa"); (EVar "t2_abab"); (EVar "t2_aaaa")]));
   (*L410*) SAug true "double_res" (EAdd (EScale (1 # 1) (EVar "contracted_intermediate")) (EScale (-1 # 1) (EEins "abij->abji" [(EVar "contracted_intermediate")])));
   (*L413*) SAssign "contracted_intermediate" (EScale (-1 # 1) (EEins "nmfe,kldc,dejm,fcil,abkn->abij" [(ESlice (EVar "g_abab") [SV "o"; SV "o"; SV "v"; SV "v"]); (EVar "l2_abab"); (EVar "t2_abab"); (EVar "t2_abab"); (EVar "t2_aaaa")]));
   (*L414*) SAug true "double_res" (EAdd (EScale (1 # 1) (EVar "contracted_intermediate")) (EScale (-1 # 1) (EEins "abij->abji" [(EVar "contracted_intermediate")])));
   (*L417*) SAssign "contracted_intermediate" (EScale (-1 # 1) (EEins "nmef,klcd,edjm,cfil,abkn->abij" [(ESlice (EVar "g_abab") [SV "o"; SV "o"; SV "v"; SV "v"]); (EVar "l2_abab"); (EVar "t2_abab"); (EVar "t2_abab"); (EVar "t2_aaaa")]));
   (*L418*) SAug true "double_res" (EAdd (EScale (1 # 1) (EVar "contracted_intermediate")) (EScale (-1 # 1) (EEins "abij->abji" [(EVar "contracted_intermediate")])));
   (*L421*) SAssign "contracted_intermediate" (EScale (-1 # 2) (EEins "nmef,kldc,edjm,fakl,cbin->abij" [(ESlice (EVar "g_aaaa") [SV "o"; SV "o"; SV "v"; SV "v"]); (EVar "l2_aaaa"); (EVar "t2_aaaa"); (EVar "t2_aaaa"); (EVar "t2_aaaa")]));
   (*L422*) SAug true "double_res" (EAdd (EAdd (EAdd (EScale (1 # 1) (EVar "contracted_intermediate")) (EScale (-1 # 1) (EEins "abij->abji" [(EVar "contracted_intermediate")]))) (EScale (-1 # 1) (EEins "abij->baij" [(EVar "contracted_intermediate")]))) (EScale (1 # 1) (EEins "abij->baji" [(EVar "contracted_intermediate")])));
   (*L425*) SAssign "contracted_intermediate" (EScale (-1 # 2) (EEins "nmfe,kldc,dejm,fakl,cbin->abij" [(ESlice (EVar "g_abab") [SV "o"; SV "o"; SV "v"; SV "v"]); (EVar "l2_aaaa"); (EVar "t2_abab"); (EVar "t2_aaaa"); (EVar "t2_aaaa")]));
   (*L426*) SAug true "double_res" (EAdd (EAdd (EAdd (EScale (1 # 1) (EVar "contracted_intermediate")) (EScale (-1 # 1) (EEins "abij->abji" [(EVar "contracted_intermediate")]))) (EScale (-1 # 1) (EEins "abij->baij" [(EVar "contracted_intermediate")]))) (EScale (1 # 1) (EEins "abij->baji" [(EVar "contracted_intermediate")])));
   (*L429*) SAssign "contracted_intermediate" (EScale (1 # 2) (EEins "mnef,kldc,edjm,afkl,bcin->abij" [(ESlice (EVar "g_abab") [SV "o"; SV "o"; SV "v"; SV "v"]); (EVar "l2_abab"); (EVar "t2_aaaa"); (EVar "t2_abab"); (EVar "t2_abab")]));
   (*L430*) SAug true "double_res" (EAdd (EAdd (EAdd (EScale (1 # 1) (EVar "contracted_intermediate")) (EScale (-1 # 1) (EEins "abij->abji" [(EVar "contracted_intermediate")]))) (EScale (-1 # 1) (EEins "abij->baij" [(EVar "contracted_intermediate")]))) (EScale (1 # 1) (EEins "abij->baji" [(EVar "contracted_intermediate")])));
   (*L433*) SAssign "contracted_intermediate" (EScale (1 # 2) (EEins "nmef,kldc,dejm,afkl,bcin->abij" [(ESlice (EVar "g_bbbb") [SV "o"; SV "o"; SV "v"; SV "v"]); (EVar "l2_abab"); (EVar "t2_abab"); (EVar "t2_abab"); (EVar "t2_abab")]));
   (*L434*) SAug true "double_res" (EAdd (EAdd (EAdd (EScale (1 # 1) (EVar "contracted_intermediate")) (EScale (-1 # 1) (EEins "abij->abji" [(EVar "contracted_intermediate")]))) (EScale (-1 # 1) (EEins "abij->baij" [(EVar "contracted_intermediate")]))) (EScale (1 # 1) (EEins "abij->baji" [(EVar "contracted_intermediate")])));
   (*L437*) SAssign "contracted_intermediate" (EScale (-1 # 2) (EEins "nmef,klcd,edjm,afkl,cbin->abij" [(ESlice (EVar "g_abab") [SV "o"; SV "o"; SV "v"; SV "v"]); (EVar "l2_abab"); (EVar "t2_abab"); (EVar "t2_abab"); (EVar "t2_aaaa")]));
   (*L438*) SAug true "double_res" (EAdd (EAdd (EAdd (EScale (1 # 1) (EVar "contracted_intermediate")) (EScale (-1 # 1) (EEins "abij->abji" [(EVar "contracted_intermediate")]))) (EScale (-1 # 1) (EEins "abij->baij" [(EVar "contracted_intermediate")]))) (EScale (1 # 1) (EEins "abij->baji" [(EVar "contracted_intermediate")])));
   (*L441*) SAssign "contracted_intermediate" (EScale (1 # 2) (EEins "mnef,lkdc,edjm,aflk,bcin->abij" [(ESlice (EVar "g_abab") [SV "o"; SV "o"; SV "v"; SV "v"]); (EVar "l2_abab"); (EVar "t2_aaaa"); (EVar "t2_abab"); (EVar "t2_abab")]));
   (*L442*) SAug true "double_res" (EAdd (EAdd (EAdd (EScale (1 # 1) (EVar "contracted_intermediate")) (EScale (-1 # 1) (EEins "abij->abji" [(EVar "contracted_intermediate")]))) (EScale (-1 # 1) (EEins "abij->baij" [(EVar "contracted_intermediate")]))) (EScale (1 # 1) (EEins "abij->baji" [(EVar "contracted_intermediate")])));
   (*L445*) SAssign "contracted_intermediate" (EScale (1 # 2) (EEins "nmef,lkdc,dejm,aflk,bcin->abij" [(ESlice (EVar "g_bbbb") [SV "o"; SV "o"; SV "v"; SV "v"]); (EVar "l2_abab"); (EVar "t2_abab"); (EVar "t2_abab"); (EVar "t2_abab")]));
   (*L446*) SAug true "double_res" (EAdd (EAdd (EAdd (EScale (1 # 1) (EVar "contracted_intermediate")) (EScale (-1 # 1) (EEins "abij->abji" [(EVar "contracted_intermediate")]))) (EScale (-1 # 1) (EEins "abij->baij" [(EVar "contracted_intermediate")]))) (EScale (1 # 1) (EEins "abij->baji" [(EVar "contracted_intermediate")])));
   (*L449*) SAssign "contracted_intermediate" (EScale (-1 # 2) (EEins "nmef,lkcd,edjm,aflk,cbin->abij" [(ESlice (EVar "g_abab") [SV "o"; SV "o"; SV "v"; SV "v"]); (EVar "l2_abab"); (EVar "t2_abab"); (EVar "t2_abab"); (EVar "t2_aaaa")]));
   (*L450*) SAug true "double_res" (EAdd (EAdd (EAdd (EScale (1 # 1) (EVar "contracted_intermediate")) (EScale (-1 # 1) (EEins "abij->abji" [(EVar "contracted_intermediate")]))) (EScale (-1 # 1) (EEins "abij->baij" [(EVar "contracted_intermediate")]))) (EScale (1 # 1) (EEins "abij->baji" [(EVar "contracted_intermediate")])));
   (*L453*) SAssign "contracted_intermediate" (EScale (1 # 1) (EEins "nmef,kldc,edjm,fail,cbkn->abij" [(ESlice (EVar "g_aaaa") [SV "o"; SV "o"; SV "v"; SV "v"]); (EVar "l2_aaaa"); (EVar "t2_aaaa"); (EVar "t2_aaaa"); (EVar "t2_aaaa")]));
   (*L454*) SAug true "double_res" (EAdd (EAdd (EAdd (EScale (1 # 1) (EVar "contracted_intermediate")) (EScale (-1 # 1) (EEins "abij->abji" [(EVar "contracted_intermediate")]))) (EScale (-1 # 1) (EEins "abij->baij" [(EVar "contracted_intermediate")]))) (EScale (1 # 1) (EEins "abij->baji" [(EVar "contracted_intermediate")])));
   (*L457*) SAssign "contracted_intermediate" (EScale (1 # 1) (EEins "nmfe,kldc,dejm,fail,cbkn->abij" [(ESlice (EVar "g_abab") [SV "o"; SV "o"; SV "v"; SV "v"]); (EVar "l2_aaaa"); (EVar "t2_abab"); (EVar "t2_aaaa"); (EVar "t2_aaaa")]));
   (*L458*) SAug true "double_res" (EAdd (EAdd (EAdd (EScale (1 # 1) (EVar "contracted_intermediate")) (EScale (-1 # 1) (EEins "abij->abji" [(EVar "contracted_intermediate")]))) (EScale (-1 # 1) (EEins "abij->baij" [(EVar "contracted_intermediate")]))) (EScale (1 # 1) (EEins "abij->baji" [(EVar "contracted_intermediate")])));
   (*L461*) SAssign "contracted_intermediate" (EScale (-1 # 1) (EEins "mnef,kldc,edjm,afil,bckn->abij" [(ESlice (EVar "g_abab") [SV "o"; SV "o"; SV "v"; SV "v"]); (EVar "l2_abab"); (EVar "t2_aaaa"); (EVar "t2_abab"); (EVar "t2_abab")]));
   (*L462*) SAug true "double_res" (EAdd (EAdd (EAdd (EScale (1 # 1) (EVar "contracted_intermediate")) (EScale (-1 # 1) (EEins "abij->abji" [(EVar "contracted_intermediate")]))) (EScale (-1 # 1) (EEins "abij->baij" [(EVar "contracted_intermediate")]))) (EScale (1 # 1) (EEins "abij->baji" [(EVar "contracted_intermediate")])));
   (*L465*) SAssign "contracted_intermediate" (EScale (-1 # 1) (EEins "nmef,kldc,dejm,afil,bckn->abij" [(ESlice (EVar "g_bbbb") [SV "o"; SV "o"; SV "v"; SV "v"]); (EVar "l2_abab"); (EVar "t2_abab"); (EVar "t2_abab"); (EVar "t2_abab")]));
   (*L466*) SAug true "double_res" (EAdd (EAdd (EAdd (EScale (1 # 1) (EVar "contracted_intermediate")) (EScale (-1 # 1) (EEins "abij->abji" [(EVar "contracted_intermediate")]))) (EScale (-1 # 1) (EEins "abij->baij" [(EVar "contracted_intermediate")]))) (EScale (1 # 1) (EEins "abij->baji" [(EVar "contracted_intermediate")])));
   (*L469*) SAssign "contracted_intermediate" (EScale (1 # 1) (EEins "nmef,klcd,edjm,afil,cbkn->abij" [(ESlice (EVar "g_abab") [SV "o"; SV "o"; SV "v"; SV "v"]); (EVar "l2_abab"); (EVar "t2_abab"); (EVar "t2_abab"); (EVar "t2_aaaa")]));
   (*L470*) SAug true "double_res" (EAdd (EAdd (EAdd (EScale (1 # 1) (EVar "contracted_intermediate")) (EScale (-1 # 1) (EEins "abij->abji" [(EVar "contracted_intermediate")]))) (EScale (-1 # 1) (EEins "abij->baij" [(EVar "contracted_intermediate")]))) (EScale (1 # 1) (EEins "abij->baji" [(EVar "contracted_intermediate")])));
   (*L473*) SAssign "contracted_intermediate" (EScale (-1 # 1) (EEins "nmef,lkdc,edjm,fail,bcnk->abij" [(ESlice (EVar "g_aaaa") [SV "o"; SV "o"; SV "v"; SV "v"]); (EVar "l2_abab"); (EVar "t2_aaaa"); (EVar "t2_aaaa"); (EVar "t2_abab")]));
   (*L474*) SAug true "double_res" (EAdd (EAdd (EAdd (EScale (1 # 1) (EVar "contracted_intermediate")) (EScale (-1 # 1) (EEins "abij->abji" [(EVar "contracted_intermediate")]))) (EScale (-1 # 1) (EEins "abij->baij" [(EVar "contracted_intermediate")]))) (EScale (1 # 1) (EEins "abij->baji" [(EVar "contracted_intermediate")])));
   (*L477*) SAssign "contracted_intermediate" (EScale (-1 # 1) (EEins "nmfe,lkdc,dejm,fail,bcnk->abij" [(ESlice (EVar "g_abab") [SV "o"; SV "o"; SV "v"; SV "v"]); (EVar "l2_abab"); (EVar "t2_abab"); (EVar "t2_aaaa"); (EVar "t2_abab")]));
   (*L478*) SAug true "double_res" (EAdd (EAdd (EAdd (EScale (1 # 1) (EVar "contracted_intermediate")) (EScale (-1 # 1) (EEins "abij->abji" [(EVar "contracted_intermediate")]))) (EScale (-1 # 1) (EEins "abij->baij" [(EVar "contracted_intermediate")]))) (EScale (1 # 1) (EEins "abij->baji" [(EVar "contracted_intermediate")])));
   (*L481*) SAssign "contracted_intermediate" (EScale (-1 # 1) (EEins "nmef,kldc,edjm,afil,bcnk->abij" [(ESlice (EVar "g_abab") [SV "o"; SV "o"; SV "v"; SV "v"]); (EVar "l2_bbbb"); (EVar "t2_abab"); (EVar "t2_abab"); (EVar "t2_abab")]));
   (*L482*) SAug true "double_res" (EAdd (EAdd (EAdd (EScale (1 # 1) (EVar "contracted_intermediate")) (EScale (-1 # 1) (EEins "abij->abji" [(EVar "contracted_intermediate")]))) (EScale (-1 # 1) (EEins "abij->baij" [(EVar "contracted_intermediate")]))) (EScale (1 # 1) (EEins "abij->baji" [(EVar "contracted_intermediate")])));
   (*L485*) SAug true "double_res" (EScale (-1 # 4) (EEins "nmef,kldc,edkl,fcij,abnm->abij" [(ESlice (EVar "g_aaaa") [SV "o"; SV "o"; SV "v"; SV "v"]); (EVar "l2_aaaa"); (EVar "t2_aaaa"); (EVar "t2_aaaa"); (EVar "t2_aaaa")]));
   (*L488*) SAug true "double_res" (EScale (1 # 4) (EEins "nmef,klcd,edkl,fcij,abnm->abij" [(ESlice (EVar "g_aaaa") [SV "o"; SV "o"; SV "v"; SV "v"]); (EVar "l2_abab"); (EVar "t2_abab"); (EVar "t2_aaaa"); (EVar "t2_aaaa")]));
   (*L491*) SAug true "double_res" (EScale (1 # 4) (EEins "nmef,lkcd,edlk,fcij,abnm->abij" [(ESlice (EVar "g_aaaa") [SV "o"; SV "o"; SV "v"; SV "v"]); (EVar "l2_abab"); (EVar "t2_abab"); (EVar "t2_aaaa"); (EVar "t2_aaaa")]));
   (*L494*) SAssign "contracted_intermediate" (EScale (-1 # 2) (EEins "nmef,kldc,edkl,fajm,cbin->abij" [(ESlice (EVar "g_aaaa") [SV "o"; SV "o"; SV "v"; SV "v"]); (EVar "l2_aaaa"); (EVar "t2_aaaa"); (EVar "t2_aaaa"); (EVar "t2_aaaa")]));
   (*L495*) SAug true "double_res" (EAdd (EAdd (EAdd (EScale (1 # 1) (EVar "contracted_intermediate")) (EScale (-1 # 1) (EEins "abij->abji" [(EVar "contracted_intermediate")]))) (EScale (-1 # 1) (EEins "abij->baij" [(EVar "contracted_intermediate")]))) (EScale (1 # 1) (EEins "abij->baji" [(EVar "contracted_intermediate")])));
   (*L498*) SAssign "contracted_intermediate" (EScale (1 # 2) (EEins "nmef,kldc,edkl,afjm,cbin->abij" [(ESlice (EVar "g_abab") [SV "o"; SV "o"; SV "v"; SV "v"]); (EVar "l2_aaaa"); (EVar "t2_aaaa"); (EVar "t2_abab"); (EVar "t2_aaaa")]));
   (*L499*) SAug true "double_res" (EAdd (EAdd (EAdd (EScale (1 # 1) (EVar "contracted_intermediate")) (EScale (-1 # 1) (EEins "abij->abji" [(EVar "contracted_intermediate")]))) (EScale (-1 # 1) (EEins "abij->baij" [(EVar "contracted_intermediate")]))) (EScale (1 # 1) (EEins "abij->baji" [(EVar "contracted_intermediate")])));
   (*L502*) SAssign "contracted_intermediate" (EScale (-1 # 2) (EEins "mnfe,kldc,dekl,fajm,bcin->abij" [(ESlice (EVar "g_abab") [SV "o"; SV "o"; SV "v"; SV "v"]); (EVar "l2_abab"); (EVar "t2_abab"); (EVar "t2_aaaa"); (EVar "t2_abab")]));
   (*L503*) SAug true "double_res" (EAdd (EAdd (EAdd (EScale (1 # 1) (EVar "contracted_intermediate")) (EScale (-1 # 1) (EEins "abij->abji" [(EVar "contracted_intermediate")]))) (EScale (-1 # 1) (EEins "abij->baij" [(EVar "contracted_intermediate")]))) (EScale (1 # 1) (EEins "abij->baji" [(EVar "contracted_intermediate")])));
   (*L506*) SAssign "contracted_intermediate" (EScale (1 # 2) (EEins "nmef,kldc,dekl,afjm,bcin->abij" [(ESlice (EVar "g_bbbb") [SV "o"; SV "o"; SV "v"; SV "v"]); (EVar "l2_abab"); (EVar "t2_abab"); (EVar "t2_abab"); (EVar "t2_abab")]));
   (*L507*) SAug true "double_res" (EAdd (EAdd (EAdd (EScale (1 # 1) (EVar "contracted_intermediate")) (EScale (-1 # 1) (EEins "abij->abji" [(EVar "contracted_intermediate")]))) (EScale (-1 # 1) (EEins "abij->baij" [(EVar "contracted_intermediate")]))) (EScale (1 # 1) (EEins "abij->baji" [(EVar "contracted_intermediate")])));
   (*L510*) SAssign "contracted_intermediate" (EScale (1 # 2) (EEins "nmef,klcd,edkl,fajm,cbin->abij" [(ESlice (EVar "g_aaaa") [SV "o"; SV "o"; SV "v"; SV "v"]); (EVar "l2_abab"); (EVar "t2_abab"); (EVar "t2_aaaa"); (EVar "t2_aaaa")]));
   (*L511*) SAug true "double_res" (EAdd (EAdd (EAdd (EScale (1 # 1) (EVar "contracted_intermediate")) (EScale (-1 # 1) (EEins "abij->abji" [(EVar "contracted_intermediate")]))) (EScale (-1 # 1) (EEins "abij->baij" [(EVar "contracted_intermediate")]))) (EScale (1 # 1) (EEins "abij->baji" [(EVar "contracted_intermediate")])));
   (*L514*) SAssign "contracted_intermediate" (EScale (-1 # 2) (EEins "nmef,klcd,edkl,afjm,cbin->abij" [(ESlice (EVar "g_abab") [SV "o"; SV "o"; SV "v"; SV "v"]); (EVar "l2_abab"); (EVar "t2_abab"); (EVar "t2_abab"); (EVar "t2_aaaa")]));
   (*L515*) SAug true "double_res" (EAdd (EAdd (EAdd (EScale (1 # 1) (EVar "contracted_intermediate")) (EScale (-1 # 1) (EEins "abij->abji" [(EVar "contracted_intermediate")]))) (EScale (-1 # 1) (EEins "abij->baij" [(EVar "contracted_intermediate")]))) (EScale (1 # 1) (EEins "abij->baji" [(EVar "contracted_intermediate")])));
   (*L518*) SAssign "contracted_intermediate" (EScale (-1 # 2) (EEins "mnfe,lkdc,delk,fajm,bcin->abij" [(ESlice (EVar "g_abab") [SV "o"; SV "o"; SV "v"; SV "v"]); (EVar "l2_abab"); (EVar "t2_abab"); (EVar "t2_aaaa"); (EVar "t2_abab")]));
   (*L519*) SAug true "double_res" (EAdd (EAdd (EAdd (EScale (1 # 1) (EVar "contracted_intermediate")) (EScale (-1 # 1) (EEins "abij->abji" [(EVar "contracted_intermediate")]))) (EScale (-1 # 1) (EEins "abij->baij" [(EVar "contracted_intermediate")]))) (EScale (1 # 1) (EEins "abij->baji" [(EVar "contracted_intermediate")])));
   (*L522*) SAssign "contracted_intermediate" (EScale (1 # 2) (EEins "nmef,lkdc,delk,afjm,bcin->abij" [(ESlice (EVar "g_bbbb") [SV "o"; SV "o"; SV "v"; SV "v"]); (EVar "l2_abab"); (EVar "t2_abab"); (EVar "t2_abab"); (EVar "t2_abab")]));
   (*L523*) SAug true "double_res" (EAdd (EAdd (EAdd (EScale (1 # 1) (EVar "contracted_intermediate")) (EScale (-1 # 1) (EEins "abij->abji" [(EVar "contracted_intermediate")]))) (EScale (-1 # 1) (EEins "abij->baij" [(EVar "contracted_intermediate")]))) (EScale (1 # 1) (EEins "abij->baji" [(EVar "contracted_intermediate")])));
   (*L526*) SAssign "contracted_intermediate" (EScale (1 # 2) (EEins "nmef,lkcd,edlk,fajm,cbin->abij" [(ESlice (EVar "g_aaaa") [SV "o"; SV "o"; SV "v"; SV "v"]); (EVar "l2_abab"); (EVar "t2_abab"); (EVar "t2_aaaa"); (EVar "t2_aaaa")]));
   (*L527*) SAug true "double_res" (EAdd (EAdd (EAdd (EScale (1 # 1) (EVar "contracted_intermediate")) (EScale (-1 # 1) (EEins "abij->abji" [(EVar "contracted_intermediate")]))) (EScale (-1 # 1) (EEins "abij->baij" [(EVar "contracted_intermediate")]))) (EScale (1 # 1) (EEins "abij->baji" [(EVar "contracted_intermediate")])));
   (*L530*) SAssign "contracted_intermediate" (EScale (-1 # 2) (EEins "nmef,lkcd,edlk,afjm,cbin->abij" [(ESlice (EVar "g_abab") [SV "o"; SV "o"; SV "v"; SV "v"]); (EVar "l2_abab"); (EVar "t2_abab"); (EVar "t2_abab"); (EVar "t2_aaaa")]));
   (*L531*) SAug true "double_res" (EAdd (EAdd (EAdd (EScale (1 # 1) (EVar "contracted_intermediate")) (EScale (-1 # 1) (EEins "abij->abji" [(EVar "contracted_intermediate")]))) (EScale (-1 # 1) (EEins "abij->baij" [(EVar "contracted_intermediate")]))) (EScale (1 # 1) (EEins "abij->baji" [(EVar "contracted_intermediate")])));
   (*L534*) SAssign "contracted_intermediate" (EScale (1 # 2) (EEins "mnfe,kldc,edkl,fajm,bcin->abij" [(ESlice (EVar "g_abab") [SV "o"; SV "o"; SV "v"; SV "v"]); (EVar "l2_bbbb"); (EVar "t2_bbbb"); (EVar "t2_aaaa"); (EVar "t2_abab")]));
   (*L535*) SAug true "double_res" (EAdd (EAdd (EAdd (EScale (1 # 1) (EVar "contracted_intermediate")) (EScale (-1 # 1) (EEins "abij->abji" [(EVar "contracted_intermediate")]))) (EScale (-1 # 1) (EEins "abij->baij" [(EVar "contracted_intermediate")]))) (EScale (1 # 1) (EEins "abij->baji" [(EVar "contracted_intermediate")])));
   (*L538*) SAssign "contracted_intermediate" (EScale (-1 # 2) (EEins "nmef,kldc,edkl,afjm,bcin->abij" [(ESlice (EVar "g_bbbb") [SV "o"; SV "o"; SV "v"; SV "v"]); (EVar "l2_bbbb"); (EVar "t2_bbbb"); (EVar "t2_abab"); (EVar "t2_abab")]));
   (*L539*) SAug true "double_res" (EAdd (EAdd (EAdd (EScale (1 # 1) (EVar "contracted_intermediate")) (EScale (-1 # 1) (EEins "abij->abji" [(EVar "contracted_intermediate")]))) (EScale (-1 # 1) (EEins "abij->baij" [(EVar "contracted_intermediate")]))) (EScale (1 # 1) (EEins "abij->baji" [(EVar "contracted_intermediate")])));
   (*L542*) SAssign "contracted_intermediate" (EScale (1 # 4) (EEins "nmef,kldc,edkl,faij,cbnm->abij" [(ESlice (EVar "g_aaaa") [SV "o"; SV "o"; SV "v"; SV "v"]); (EVar "l2_aaaa"); (EVar "t2_aaaa"); (EVar "t2_aaaa"); (EVar "t2_aaaa")]));
   (*L543*) SAug true "double_res" (EAdd (EScale (1 # 1) (EVar "contracted_intermediate")) (EScale (-1 # 1) (EEins "abij->baij" [(EVar "contracted_intermediate")])));
   (*L546*) SAssign "contracted_intermediate" (EScale (-1 # 4) (EEins "nmfe,kldc,dekl,faij,bcnm->abij" [(ESlice (EVar "g_abab") [SV "o"; SV "o"; SV "v"; SV "v"]); (EVar "l2_abab"); (EVar "t2_abab"); (EVar "t2_aaaa"); (EVar "t2_abab")]));
   (*L547*) SAug true "double_res" (EAdd (EScale (1 # 1) (EVar "contracted_intermediate")) (EScale (-1 # 1) (EEins "abij->baij" [(EVar "contracted_intermediate")])));
   (*L550*) SAssign "contracted_intermediate" (EScale (-1 # 4) (EEins "mnfe,kldc,dekl,faij,bcmn->abij" [(ESlice (EVar "g_abab") [SV "o"; SV "o"; SV "v"; SV "v"]); (EVar "l2_abab"); (EVar "t2_abab"); (EVar "t2_aaaa"); (EVar "t2_abab")]));
   (*L551*) SAug true "double_res" (EAdd (EScale (1 # 1) (EVar "contracted_intermediate")) (EScale (-1 # 1) (EEins "abij->baij" [(EVar "contracted_intermediate")])));
   (*L554*) SAssign "contracted_intermediate" (EScale (-1 # 4) (EEins "nmef,klcd,edkl,faij,cbnm->abij" [(ESlice (EVar "g_aaaa") [SV "o"; SV "o"; SV "v"; SV "v"]); (EVar "l2_abab"); (EVar "t2_abab"); (EVar "t2_aaaa"); (EVar "t2_aaaa")]));
   (*L555*) SAug true "double_res" (EAdd (EScale (1 # 1) (EVar "contracted_intermediate")) (EScale (-1 # 1) (EEins "abij->baij" [(EVar "contracted_intermediate")])));
   (*L558*) SAssign "contracted_intermediate" (EScale (-1 # 4) (EEins "nmfe,lkdc,delk,faij,bcnm->abij" [(ESlice (EVar "g_abab") [SV "o"; SV "o"; SV "v"; SV "v"]); (EVar "l2_abab"); (EVar "t2_abab"); (EVar "t2_aaaa"); (EVar "t2_abab")]));
   (*L559*) SAug true "double_res" (EAdd (EScale (1 # 1) (EVar "contracted_intermediate")) (EScale (-1 # 1) (EEins "abij->baij" [(EVar "contracted_intermediate")])));
   (*L562*) SAssign "contracted_intermediate" (EScale (-1 # 4) (EEins "mnfe,lkdc,delk,faij,bcmn->abij" [(ESlice (EVar "g_abab") [SV "o"; SV "o"; SV "v"; SV "v"]); (EVar "l2_abab"); (EVar "t2_abab"); (EVar "t2_aaaa"); (EVar "t2_abab")]));
   (*L563*) SAug true "double_res" (EAdd (EScale (1 # 1) (EVar "contracted_intermediate")) (EScale (-1 # 1) (EEins "abij->baij" [(EVar "contracted_intermediate")])));
   (*L566*) SAssign "contracted_intermediate" (EScale (-1 # 4) (EEins "nmef,lkcd,edlk,faij,cbnm->abij" [(ESlice (EVar "g_aaaa") [SV "o"; SV "o"; SV "v"; SV "v"]); (EVar "l2_abab"); (EVar "t2_abab"); (EVar "t2_aaaa"); (EVar "t2_aaaa")]));
   (*L567*) SAug true "double_res" (EAdd (EScale (1 # 1) (EVar "contracted_intermediate")) (EScale (-1 # 1) (EEins "abij->baij" [(EVar "contracted_intermediate")])));
   (*L570*) SAssign "contracted_intermediate" (EScale (1 # 4) (EEins "nmfe,kldc,edkl,faij,bcnm->abij" [(ESlice (EVar "g_abab") [SV "o"; SV "o"; SV "v"; SV "v"]); (EVar "l2_bbbb"); (EVar "t2_bbbb"); (EVar "t2_aaaa"); (EVar "t2_abab")]));
   (*L571*) SAug true "double_res" (EAdd (EScale (1 # 1) (EVar "contracted_intermediate")) (EScale (-1 # 1) (EEins "abij->baij" [(EVar "contracted_intermediate")])));
   (*L574*) SAssign "contracted_intermediate" (EScale (1 # 4) (EEins "mnfe,kldc,edkl,faij,bcmn->abij" [(ESlice (EVar "g_abab") [SV "o"; SV "o"; SV "v"; SV "v"]); (EVar "l2_bbbb"); (EVar "t2_bbbb"); (EVar "t2_aaaa"); (EVar "t2_abab")]));
   (*L575*) SAug true "double_res" (EAdd (EScale (1 # 1) (EVar "contracted_intermediate")) (EScale (-1 # 1) (EEins "abij->baij" [(EVar "contracted_intermediate")])));
   (*L578*) SAssign "contracted_intermediate" (EScale (-1 # 2) (EEins "nmef,kldc,edjl,fckm,abin->abij" [(ESlice (EVar "g_aaaa") [SV "o"; SV "o"; SV "v"; SV "v"]); (EVar "l2_aaaa"); (EVar "t2_aaaa"); (EVar "t2_aaaa"); (EVar "t2_aaaa")]));
   (*L579*) SAug true "double_res" (EAdd (EScale (1 # 1) (EVar "contracted_intermediate")) (EScale (-1 # 1) (EEins "abij->abji" [(EVar "contracted_intermediate")])));
   (*L582*) SAssign "contracted_intermediate" (EScale (1 # 2) (EEins "nmef,kldc,edjl,cfkm,abin->abij" [(ESlice (EVar "g_abab") [SV "o"; SV "o"; SV "v"; SV "v"]); (EVar "l2_aaaa"); (EVar "t2_aaaa"); (EVar "t2_abab"); (EVar "t2_aaaa")]));
   (*L583*) SAug true "double_res" (EAdd (EScale (1 # 1) (EVar "contracted_intermediate")) (EScale (-1 # 1) (EEins "abij->abji" [(EVar "contracted_intermediate")])));
   (*L586*) SAssign "contracted_intermediate" (EScale (-1 # 2) (EEins "nmfe,kldc,dejl,fckm,abin->abij" [(ESlice (EVar "g_abab") [SV "o"; SV "o"; SV "v"; SV "v"]); (EVar "l2_abab"); (EVar "t2_abab"); (EVar "t2_abab"); (EVar "t2_aaaa")]));
   (*L587*) SAug true "double_res" (EAdd (EScale (1 # 1) (EVar "contracted_intermediate")) (EScale (-1 # 1) (EEins "abij->abji" [(EVar "contracted_intermediate")])));
   (*L590*) SAssign "contracted_intermediate" (EScale (1 # 2) (EEins "nmef,klcd,edjl,fckm,abin->abij" [(ESlice (EVar "g_aaaa") [SV "o"; SV "o"; SV "v"; SV "v"]); (EVar "l2_abab"); (EVar "t2_abab"); (EVar "t2_aaaa"); (EVar "t2_aaaa")]));
   (*L591*) SAug true "double_res" (EAdd (EScale (1 # 1) (EVar "contracted_intermediate")) (EScale (-1 # 1) (EEins "abij->abji" [(EVar "contracted_intermediate")])));
   (*L594*) SAssign "contracted_intermediate" (EScale (-1 # 2) (EEins "nmef,klcd,edjl,cfkm,abin->abij" [(ESlice (EVar "g_abab") [SV "o"; SV "o"; SV "v"; SV "v"]); (EVar "l2_abab"); (EVar "t2_abab"); (EVar "t2_abab"); (EVar "t2_aaaa")]));
   (*L595*) SAug true "double_res" (EAdd (EScale (1 # 1) (EVar "contracted_intermediate")) (EScale (-1 # 1) (EEins "abij->abji" [(EVar "contracted_intermediate")])));
   (*L598*) SAssign "contracted_intermediate" (EScale (-1 # 2) (EEins "nmef,lkdc,edjl,fcmk,abin->abij" [(ESlice (EVar "g_aaaa") [SV "o"; SV "o"; SV "v"; SV "v"]); (EVar "l2_abab"); (EVar "t2_aaaa"); (EVar "t2_abab"); (EVar "t2_aaaa")]));
   (*L599*) SAug true "double_res" (EAdd (EScale (1 # 1) (EVar "contracted_intermediate")) (EScale (-1 # 1) (EEins "abij->abji" [(EVar "contracted_intermediate")])));
   (*L602*) SAssign "contracted_intermediate" (EScale (1 # 2) (EEins "nmef,lkdc,edjl,fckm,abin->abij" [(ESlice (EVar "g_abab") [SV "o"; SV "o"; SV "v"; SV "v"]); (EVar "l2_abab"); (EVar "t2_aaaa"); (EVar "t2_bbbb"); (EVar "t2_aaaa")]));
   (*L603*) SAug true "double_res" (EAdd (EScale (1 # 1) (EVar "contracted_intermediate")) (EScale (-1 # 1) (EEins "abij->abji" [(EVar "contracted_intermediate")])));
   (*L606*) SAssign "contracted_intermediate" (EScale (1 # 2) (EEins "nmef,kldc,edjl,fcmk,abin->abij" [(ESlice (EVar "g_aaaa") [SV "o"; SV "o"; SV "v"; SV "v"]); (EVar "l2_bbbb"); (EVar "t2_abab"); (EVar "t2_abab"); (EVar "t2_aaaa")]));
   (*L607*) SAug true "double_res" (EAdd (EScale (1 # 1) (EVar "contracted_intermediate")) (EScale (-1 # 1) (EEins "abij->abji" [(EVar "contracted_intermediate")])));
   (*L610*) SAssign "contracted_intermediate" (EScale (-1 # 2) (EEins "nmef,kldc,edjl,fckm,abin->abij" [(ESlice (EVar "g_abab") [SV "o"; SV "o"; SV "v"; SV "v"]); (EVar "l2_bbbb"); (EVar "t2_abab"); (EVar "t2_bbbb"); (EVar "t2_aaaa")]));
   (*L611*) SAug true "double_res" (EAdd (EScale (1 # 1) (EVar "contracted_intermediate")) (EScale (-1 # 1) (EEins "abij->abji" [(EVar "contracted_intermediate")])));
   (*L614*) SAssign "contracted_intermediate" (EScale (1 # 4) (EEins "nmef,kldc,edjl,fcik,abnm->abij" [(ESlice (EVar "g_aaaa") [SV "o"; SV "o"; SV "v"; SV "v"]); (EVar "l2_aaaa"); (EVar "t2_aaaa"); (EVar "t2_aaaa"); (EVar "t2_aaaa")]));
   (*L615*) SAug true "double_res" (EAdd (EScale (1 # 1) (EVar "contracted_intermediate")) (EScale (-1 # 1) (EEins "abij->abji" [(EVar "contracted_intermediate")])));
   (*L618*) SAssign "contracted_intermediate" (EScale (-1 # 4) (EEins "nmef,klcd,edjl,fcik,abnm->abij" [(ESlice (EVar "g_aaaa") [SV "o"; SV "o"; SV "v"; SV "v"]); (EVar "l2_abab"); (EVar "t2_abab"); (EVar "t2_aaaa"); (EVar "t2_aaaa")]));
   (*L619*) SAug true "double_res" (EAdd (EScale (1 # 1) (EVar "contracted_intermediate")) (EScale (-1 # 1) (EEins "abij->abji" [(EVar "contracted_intermediate")])));
   (*L622*) SAssign "contracted_intermediate" (EScale (-1 # 4) (EEins "nmef,lkdc,edjl,fcik,abnm->abij" [(ESlice (EVar "g_aaaa") [SV "o"; SV "o"; SV "v"; SV "v"]); (EVar "l2_abab"); (EVar "t2_aaaa"); (EVar "t2_abab"); (EVar "t2_aaaa")]));
   (*L623*) SAug true "double_res" (EAdd (EScale (1 # 1) (EVar "contracted_intermediate")) (EScale (-1 # 1) (EEins "abij->abji" [(EVar "contracted_intermediate")])));
   (*L626*) SAssign "contracted_intermediate" (EScale (1 # 4) (EEins "nmef,kldc,edjl,fcik,abnm->abij" [(ESlice (EVar "g_aaaa") [SV "o"; SV "o"; SV "v"; SV "v"]); (EVar "l2_bbbb"); (EVar "t2_abab"); (EVar "t2_abab"); (EVar "t2_aaaa")]));
   (*L627*) SAug true "double_res" (EAdd (EScale (1 # 1) (EVar "contracted_intermediate")) (EScale (-1 # 1) (EEins "abij->abji" [(EVar "contracted_intermediate")])));
   (*L630*) SAssign "contracted_intermediate" (EScale (91666666666667 # 100000000000000) (EEins "nmef,kldc,edjl,fakm,cbin->abij" [(ESlice (EVar "g_aaaa") [SV "o"; SV "o"; SV "v"; SV "v"]); (EVar "l2_aaaa"); (EVar "t2_aaaa"); (EVar "t2_aaaa"); (EVar "t2_aaaa")]));
   (*L631*) SAug true "double_res" (EAdd (EAdd (EAdd (EScale (1 # 1) (EVar "contracted_intermediate")) (EScale (-1 # 1) (EEins "abij->abji" [(EVar "contracted_intermediate")]))) (EScale (-1 # 1) (EEins "abij->baij" [(EVar "contracted_intermediate")]))) (EScale (1 # 1) (EEins "abij->baji" [(EVar "contracted_intermediate")])));
   (*L634*) SAssign "contracted_intermediate" (EScale (-91666666666667 # 100000000000000) (EEins "nmef,kldc,edjl,afkm,cbin->abij" [(ESlice (EVar "g_abab") [SV "o"; SV "o"; SV "v"; SV "v"]); (EVar "l2_aaaa"); (EVar "t2_aaaa"); (EVar "t2_abab"); (EVar "t2_aaaa")]));
   (*L635*) SAug true "double_res" (EAdd (EAdd (EAdd (EScale (1 # 1) (EVar "contracted_intermediate")) (EScale (-1 # 1) (EEins "abij->abji" [(EVar "contracted_intermediate")]))) (EScale (-1 # 1) (EEins "abij->baij" [(EVar "contracted_intermediate")]))) (EScale (1 # 1) (EEins "abij->baji" [(EVar "contracted_intermediate")])));
   (*L638*) SAssign "contracted_intermediate" (EScale (91666666666667 # 100000000000000) (EEins "mnfe,kldc,dejl,fakm,bcin->abij" [(ESlice (EVar "g_abab") [SV "o"; SV "o"; SV "v"; SV "v"]); (EVar "l2_abab"); (EVar "t2_abab"); (EVar "t2_aaaa"); (EVar "t2_abab")]));
   (*L639*) SAug true "double_res" (EAdd (EAdd (EAdd (EScale (1 # 1) (EVar "contracted_intermediate")) (EScale (-1 # 1) (EEins "abij->abji" [(EVar "contracted_intermediate")]))) (EScale (-1 # 1) (EEins "abij->baij" [(EVar "contracted_intermediate")]))) (EScale (1 # 1) (EEins "abij->baji" [(EVar "contracted_intermediate")])));
   (*L642*) SAssign "contracted_intermediate" (EScale (-91666666666667 # 100000000000000) (EEins "nmef,kldc,dejl,afkm,bcin->abij" [(ESlice (EVar "g_bbbb") [SV "o"; SV "o"; SV "v"; SV "v"]); (EVar "l2_abab"); (EVar "t2_abab"); (EVar "t2_abab"); (EVar "t2_abab")]));
   (*L643*) SAug true "double_res" (EAdd (EAdd (EAdd (EScale (1 # 1) (EVar "contracted_intermediate")) (EScale (-1 # 1) (EEins "abij->abji" [(EVar "contracted_intermediate")]))) (EScale (-1 # 1) (EEins "abij->baij" [(EVar "contracted_intermediate")]))) (EScale (1 # 1) (EEins "abij->baji" [(EVar "contracted_intermediate")])));
   (*L646*) SAssign "contracted_intermediate" (EScale (-91666666666667 # 100000000000000) (EEins "nmef,klcd,edjl,fakm,cbin->abij" [(ESlice (EVar "g_aaaa") [SV "o"; SV "o"; SV "v"; SV "v"]); (EVar "l2_abab"); (EVar "t2_abab"); (EVar "t2_aaaa"); (EVar "t2_aaaa")]));
   (*L647*) SAug true "double_res" (EAdd (EAdd (EAdd (EScale (1 # 1) (EVar "contracted_intermediate")) (EScale (-1 # 1) (EEins "abij->abji" [(EVar "contracted_intermediate")]))) (EScale (-1 # 1) (EEins "abij->baij" [(EVar "contracted_intermediate")]))) (EScale (1 # 1) (EEins "abij->baji" [(EVar "contracted_intermediate")])));
   (*L650*) SAssign "contracted_intermediate" (EScale (91666666666667 # 100000000000000) (EEins "nmef,klcd,edjl,afkm,cbin->abij" [(ESlice (EVar "g_abab") [SV "o"; SV "o"; SV "v"; SV "v"]); (EVar "l2_abab"); (EVar "t2_abab"); (EVar "t2_abab"); (EVar "t2_aaaa")]));
   (*L651*) SAug true "double_res" (EAdd (EAdd (EAdd (EScale (1 # 1) (EVar "contracted_intermediate")) (EScale (-1 # 1) (EEins "abij->abji" [(EVar "contracted_intermediate")]))) (EScale (-1 # 1) (EEins "abij->baij" [(EVar "contracted_intermediate")]))) (EScale (1 # 1) (EEins "abij->baji" [(EVar "contracted_intermediate")])));
   (*L654*) SAssign "contracted_intermediate" (EScale (-91666666666667 # 100000000000000) (EEins "mnef,lkdc,edjl,afmk,bcin->abij" [(ESlice (EVar "g_abab") [SV "o"; SV "o"; SV "v"; SV "v"]); (EVar "l2_abab"); (EVar "t2_aaaa"); (EVar "t2_abab"); (EVar "t2_abab")]));
   (*L655*) SAug true "double_res" (EAdd (EAdd (EAdd (EScale (1 # 1) (EVar "contracted_intermediate")) (EScale (-1 # 1) (EEins "abij->abji" [(EVar "contracted_intermediate")]))) (EScale (-1 # 1) (EEins "abij->baij" [(EVar "contracted_intermediate")]))) (EScale (1 # 1) (EEins "abij->baji" [(EVar "contracted_intermediate")])));
   (*L658*) SAssign "contracted_intermediate" (EScale (91666666666667 # 100000000000000) (EEins "mnef,kldc,edjl,afmk,bcin->abij" [(ESlice (EVar "g_abab") [SV "o"; SV "o"; SV "v"; SV "v"]); (EVar "l2_bbbb"); (EVar "t2_abab"); (EVar "t2_abab"); (EVar "t2_abab")]));
   (*L659*) SAug true "double_res" (EAdd (EAdd (EAdd (EScale (1 # 1) (EVar "contracted_intermediate")) (EScale (-1 # 1) (EEins "abij->abji" [(EVar "contracted_intermediate")]))) (EScale (-1 # 1) (EEins "abij->baij" [(EVar "contracted_intermediate")]))) (EScale (1 # 1) (EEins "abij->baji" [(EVar "contracted_intermediate")])));
   (*L662*) SAssign "contracted_intermediate" (EScale (-1 # 1) (EEins "nmef,kldc,edjl,faim,cbkn->abij" [(ESlice (EVar "g_aaaa") [SV "o"; SV "o"; SV "v"; SV "v"]); (EVar "l2_aaaa"); (EVar "t2_aaaa"); (EVar "t2_aaaa"); (EVar "t2_aaaa")]));
   (*L663*) SAug true "double_res" (EAdd (EAdd (EAdd (EScale (1 # 1) (EVar "contracted_intermediate")) (EScale (-1 # 1) (EEins "abij->abji" [(EVar "contracted_intermediate")]))) (EScale (-1 # 1) (EEins "abij->baij" [(EVar "contracted_intermediate")]))) (EScale (1 # 1) (EEins "abij->baji" [(EVar "contracted_intermediate")])));
   (*L666*) SAssign "contracted_intermediate" (EScale (1 # 1) (EEins "nmef,kldc,edjl,afim,cbkn->abij" [(ESlice (EVar "g_abab") [SV "o"; SV "o"; SV "v"; SV "v"]); (EVar "l2_aaaa"); (EVar "t2_aaaa"); (EVar "t2_abab"); (EVar "t2_aaaa")]));
   (*L667*) SAug true "double_res" (EAdd (EAdd (EAdd (EScale (1 # 1) (EVar "contracted_intermediate")) (EScale (-1 # 1) (EEins "abij->abji" [(EVar "contracted_intermediate")]))) (EScale (-1 # 1) (EEins "abij->baij" [(EVar "contracted_intermediate")]))) (EScale (1 # 1) (EEins "abij->baji" [(EVar "contracted_intermediate")])));
   (*L670*) SAssign "contracted_intermediate" (EScale (-1 # 1) (EEins "mnfe,kldc,dejl,faim,bckn->abij" [(ESlice (EVar "g_abab") [SV "o"; SV "o"; SV "v"; SV "v"]); (EVar "l2_abab"); (EVar "t2_abab"); (EVar "t2_aaaa"); (EVar "t2_abab")]));
   (*L671*) SAug true "double_res" (EAdd (EAdd (EAdd (EScale (1 # 1) (EVar "contracted_intermediate")) (EScale (-1 # 1) (EEins "abij->abji" [(EVar "contracted_intermediate")]))) (EScale (-1 # 1) (EEins "abij->baij" [(EVar "contracted_intermediate")]))) (EScale (1 # 1) (EEins "abij->baji" [(EVar "contracted_intermediate")])));
   (*L674*) SAssign "contracted_intermediate" (EScale (1 # 1) (EEins "nmef,kldc,dejl,afim,bckn->abij" [(ESlice (EVar "g_bbbb") [SV "o"; SV "o"; SV "v"; SV "v"]); (EVar "l2_abab"); (EVar "t2_abab"); (EVar "t2_abab"); (EVar "t2_abab")]));
   (*L675*) SAug true "double_res" (EAdd (EAdd (EAdd (EScale (1 # 1) (EVar "contracted_intermediate")) (EScale (-1 # 1) (EEins "abij->abji" [(EVar "contracted_intermediate")]))) (EScale (-1 # 1) (EEins "abij->baij" [(EVar "contracted_intermediate")]))) (EScale (1 # 1) (EEins "abij->baji" [(EVar "contracted_intermediate")])));
   (*L678*) SAssign "contracted_intermediate" (EScale (1 # 1) (EEins "nmef,klcd,edjl,faim,cbkn->abij" [(ESlice (EVar "g_aaaa") [SV "o"; SV "o"; SV "v"; SV "v"]); (EVar "l2_abab"); (EVar "t2_abab"); (EVar "t2_aaaa"); (EVar "t2_aaaa")]));
   (*L679*) SAug true "double_res" (EAdd (EAdd (EAdd (EScale (1 # 1) (EVar "contracted_intermediate")) (EScale (-1 # 1) (EEins "abij->abji" [(EVar "contracted_intermediate")]))) (EScale (-1 # 1) (EEins "abij->baij" [(EVar "contracted_intermediate")]))) (EScale (1 # 1) (EEins "abij->baji" [(EVar "contracted_intermediate")])));
   (*L682*) SAssign "contracted_intermediate" (EScale (-1 # 1) (EEins "nmef,klcd,edjl,afim,cbkn->abij" [(ESlice (EVar "g_abab") [SV "o"; SV "o"; SV "v"; SV "v"]); (EVar "l2_abab"); (EVar "t2_abab"); (EVar "t2_abab"); (EVar "t2_aaaa")]));
   (*L683*) SAug true "double_res" (EAdd (EAdd (EAdd (EScale (1 # 1) (EVar "contracted_intermediate")) (EScale (-1 # 1) (EEins "abij->abji" [(EVar "contracted_intermediate")]))) (EScale (-1 # 1) (EEins "abij->baij" [(EVar "contracted_intermediate")]))) (EScale (1 # 1) (EEins "abij->baji" [(EVar "contracted_intermediate")])));
   (*L686*) SAssign "contracted_intermediate" (EScale (1 # 1) (EEins "nmef,lkdc,edjl,faim,bcnk->abij" [(ESlice (EVar "g_aaaa") [SV "o"; SV "o"; SV "v"; SV "v"]); (EVar "l2_abab"); (EVar "t2_aaaa"); (EVar "t2_aaaa"); (EVar "t2_abab")]));
   (*L687*) SAug true "double_res" (EAdd (EAdd (EAdd (EScale (1 # 1) (EVar "contracted_intermediate")) (EScale (-1 # 1) (EEins "abij->abji" [(EVar "contracted_intermediate")]))) (EScale (-1 # 1) (EEins "abij->baij" [(EVar "contracted_intermediate")]))) (EScale (1 # 1) (EEins "abij->baji" [(EVar "contracted_intermediate")])));
   (*L690*) SAssign "contracted_intermediate" (EScale (-1 # 1) (EEins "nmef,lkdc,edjl,afim,bcnk->abij" [(ESlice (EVar "g_abab") [SV "o"; SV "o"; SV "v"; SV "v"]); (EVar "l2_abab"); (EVar "t2_aaaa"); (EVar "t2_abab"); (EVar "t2_abab")]));
   (*L691*) SAug true "double_res" (EAdd (EAdd (EAdd (EScale (1 # 1) (EVar "contracted_intermediate")) (EScale (-1 # 1) (EEins "abij->abji" [(EVar "contracted_intermediate")]))) (EScale (-1 # 1) (EEins "abij->baij" [(EVar "contracted_intermediate")]))) (EScale (1 # 1) (EEins "abij->baji" [(EVar "contracted_intermediate")])));
   (*L694*) SAssign "contracted_intermediate" (EScale (-1 # 1) (EEins "nmef,kldc,edjl,faim,bcnk->abij" [(ESlice (EVar "g_aaaa") [SV "o"; SV "o"; SV "v"; SV "v"]); (EVar "l2_bbbb"); (EVar "t2_abab"); (EVar "t2_aaaa"); (EVar "t2_abab")]));
   (*L695*) SAug true "double_res" (EAdd (EAdd (EAdd (EScale (1 # 1) (EVar "contracted_intermediate")) (EScale (-1 # 1) (EEins "abij->abji" [(EVar "contracted_intermediate")]))) (EScale (-1 # 1) (EEins "abij->baij" [(EVar "contracted_intermediate")]))) (EScale (1 # 1) (EEins "abij->baji" [(EVar "contracted_intermediate")])));
   (*L698*) SAssign "contracted_intermediate" (EScale (1 # 1) (EEins "nmef,kldc,edjl,afim,bcnk->abij" [(ESlice (EVar "g_abab") [SV "o"; SV "o"; SV "v"; SV "v"]); (EVar "l2_bbbb"); (EVar "t2_abab"); (EVar "t2_abab"); (EVar "t2_abab")]));
   (*L699*) SAug true "double_res" (EAdd (EAdd (EAdd (EScale (1 # 1) (EVar "contracted_intermediate")) (EScale (-1 # 1) (EEins "abij->abji" [(EVar "contracted_intermediate")]))) (EScale (-1 # 1) (EEins "abij->baij" [(EVar "contracted_intermediate")]))) (EScale (1 # 1) (EEins "abij->baji" [(EVar "contracted_intermediate")])));
   (*L702*) SAssign "contracted_intermediate" (EScale (-1 # 2) (EEins "nmef,kldc,edjl,faik,cbnm->abij" [(ESlice (EVar "g_aaaa") [SV "o"; SV "o"; SV "v"; SV "v"]); (EVar "l2_aaaa"); (EVar "t2_aaaa"); (EVar "t2_aaaa"); (EVar "t2_aaaa")]));
   (*L703*) SAug true "double_res" (EAdd (EAdd (EAdd (EScale (1 # 1) (EVar "contracted_intermediate")) (EScale (-1 # 1) (EEins "abij->abji" [(EVar "contracted_intermediate")]))) (EScale (-1 # 1) (EEins "abij->baij" [(EVar "contracted_intermediate")]))) (EScale (1 # 1) (EEins "abij->baji" [(EVar "contracted_intermediate")])));
   (*L706*) SAssign "contracted_intermediate" (EScale (1 # 2) (EEins "nmfe,kldc,dejl,faik,bcnm->abij" [(ESlice (EVar "g_abab") [SV "o"; SV "o"; SV "v"; SV "v"]); (EVar "l2_abab"); (EVar "t2_abab"); (EVar "t2_aaaa"); (EVar "t2_abab")]));
   (*L707*) SAug true "double_res" (EAdd (EAdd (EAdd (EScale (1 # 1) (EVar "contracted_intermediate")) (EScale (-1 # 1) (EEins "abij->abji" [(EVar "contracted_intermediate")]))) (EScale (-1 # 1) (EEins "abij->baij" [(EVar "contracted_intermediate")]))) (EScale (1 # 1) (EEins "abij->baji" [(EVar "contracted_intermediate")])));
   (*L710*) SAssign "contracted_intermediate" (EScale (1 # 2) (EEins "mnfe,kldc,dejl,faik,bcmn->abij" [(ESlice (EVar "g_abab") [SV "o"; SV "o"; SV "v"; SV "v"]); (EVar "l2_abab"); (EVar "t2_abab"); (EVar "t2_aaaa"); (EVar "t2_abab")]));
   (*L711*) SAug true "double_res" (EAdd (EAdd (EAdd (EScale (1 # 1) (EVar "contracted_intermediate")) (EScale (-1 # 1) (EEins "abij->abji" [(EVar "contracted_intermediate")]))) (EScale (-1 # 1) (EEins "abij->baij" [(EVar "contracted_intermediate")]))) (EScale (1 # 1) (EEins "abij->baji" [(EVar "contracted_intermediate")])));
   (*L714*) SAssign "contracted_intermediate" (EScale (1 # 2) (EEins "nmef,klcd,edjl,faik,cbnm->abij" [(ESlice (EVar "g_aaaa") [SV "o"; SV "o"; SV "v"; SV "v"]); (EVar "l2_abab"); (EVar "t2_abab"); (EVar "t2_aaaa"); (EVar "t2_aaaa")]));
   (*L715*) SAug true "double_res" (EAdd (EAdd (EAdd (EScale (1 # 1) (EVar "contracted_intermediate")) (EScale (-1 # 1) (EEins "abij->abji" [(EVar "contracted_intermediate")]))) (EScale (-1 # 1) (EEins "abij->baij" [(EVar "contracted_intermediate")]))) (EScale (1 # 1) (EEins "abij->baji" [(EVar "contracted_intermediate")])));
   (*L718*) SAssign "contracted_intermediate" (EScale (1 # 2) (EEins "nmef,lkdc,edjl,afik,bcnm->abij" [(ESlice (EVar "g_abab") [SV "o"; SV "o"; SV "v"; SV "v"]); (EVar "l2_abab"); (EVar "t2_aaaa"); (EVar "t2_abab"); (EVar "t2_abab")]));
   (*L719*) SAug true "double_res" (EAdd (EAdd (EAdd (EScale (1 # 1) (EVar "contracted_intermediate")) (EScale (-1 # 1) (EEins "abij->abji" [(EVar "contracted_intermediate")]))) (EScale (-1 # 1) (EEins "abij->baij" [(EVar "contracted_intermediate")]))) (EScale (1 # 1) (EEins "abij->baji" [(EVar "contracted_intermediate")])));
   (*L722*) SAssign "contracted_intermediate" (EScale (1 # 2) (EEins "mnef,lkdc,edjl,afik,bcmn->abij" [(ESlice (EVar "g_abab") [SV "o"; SV "o"; SV "v"; SV "v"]); (EVar "l2_abab"); (EVar "t2_aaaa"); (EVar "t2_abab"); (EVar "t2_abab")]));
   (*L723*) SAug true "double_res" (EAdd (EAdd (EAdd (EScale (1 # 1) (EVar "contracted_intermediate")) (EScale (-1 # 1) (EEins "abij->abji" [(EVar "contracted_intermediate")]))) (EScale (-1 # 1) (EEins "abij->baij" [(EVar "contracted_intermediate")]))) (EScale (1 # 1) (EEins "abij->baji" [(EVar "contracted_intermediate")])));
   (*L726*) SAssign "contracted_intermediate" (EScale (-1 # 2) (EEins "nmef,kldc,edjl,afik,bcnm->abij" [(ESlice (EVar "g_abab") [SV "o"; SV "o"; SV "v"; SV "v"]); (EVar "l2_bbbb"); (EVar "t2_abab"); (EVar "t2_abab"); (EVar "t2_abab")]));
   (*L727*) SAug true "double_res" (EAdd (EAdd (EAdd (EScale (1 # 1) (EVar "contracted_intermediate")) (EScale (-1 # 1) (EEins "abij->abji" [(EVar "contracted_intermediate")]))) (EScale (-1 # 1) (EEins "abij->baij" [(EVar "contracted_intermediate")]))) (EScale (1 # 1) (EEins "abij->baji" [(EVar "contracted_intermediate")])));
   (*L730*) SAssign "contracted_intermediate" (EScale (-1 # 2) (EEins "mnef,kldc,edjl,afik,bcmn->abij" [(ESlice (EVar "g_abab") [SV "o"; SV "o"; SV "v"; SV "v"]); (EVar "l2_bbbb"); (EVar "t2_abab"); (EVar "t2_abab"); (EVar "t2_abab")]));
   (*L731*) SAug true "double_res" (EAdd (EAdd (EAdd (EScale (1 # 1) (EVar "contracted_intermediate")) (EScale (-1 # 1) (EEins "abij->abji" [(EVar "contracted_intermediate")]))) (EScale (-1 # 1) (EEins "abij->baij" [(EVar "contracted_intermediate")]))) (EScale (1 # 1) (EEins "abij->baji" [(EVar "contracted_intermediate")])));
   (*L734*) SAssign "contracted_intermediate" (EScale (-1 # 1) (EEins "nmef,kldc,edij,falm,cbkn->abij" [(ESlice (EVar "g_aaaa") [SV "o"; SV "o"; SV "v"; SV "v"]); (EVar "l2_aaaa"); (EVar "t2_aaaa"); (EVar "t2_aaaa"); (EVar "t2_aaaa")]));
   (*L735*) SAug true "double_res" (EAdd (EScale (1 # 1) (EVar "contracted_intermediate")) (EScale (-1 # 1) (EEins "abij->baij" [(EVar "contracted_intermediate")])));
   (*L738*) SAssign "contracted_intermediate" (EScale (1 # 1) (EEins "nmef,kldc,edij,aflm,cbkn->abij" [(ESlice (EVar "g_abab") [SV "o"; SV "o"; SV "v"; SV "v"]); (EVar "l2_aaaa"); (EVar "t2_aaaa"); (EVar "t2_abab"); (EVar "t2_aaaa")]));
   (*L739*) SAug true "double_res" (EAdd (EScale (1 # 1) (EVar "contracted_intermediate")) (EScale (-1 # 1) (EEins "abij->baij" [(EVar "contracted_intermediate")])));
   (*L742*) SAssign "contracted_intermediate" (EScale (-1 # 1) (EEins "mnef,kldc,edij,afml,bckn->abij" [(ESlice (EVar "g_abab") [SV "o"; SV "o"; SV "v"; SV "v"]); (EVar "l2_abab"); (EVar "t2_aaaa"); (EVar "t2_abab"); (EVar "t2_abab")]));
   (*L743*) SAug true "double_res" (EAdd (EScale (1 # 1) (EVar "contracted_intermediate")) (EScale (-1 # 1) (EEins "abij->baij" [(EVar "contracted_intermediate")])));
   (*L746*) SAssign "contracted_intermediate" (EScale (1 # 1) (EEins "nmef,lkdc,edij,falm,bcnk->abij" [(ESlice (EVar "g_aaaa") [SV "o"; SV "o"; SV "v"; SV "v"]); (EVar "l2_abab"); (EVar "t2_aaaa"); (EVar "t2_aaaa"); (EVar "t2_abab")]));
   (*L747*) SAug true "double_res" (EAdd (EScale (1 # 1) (EVar "contracted_intermediate")) (EScale (-1 # 1) (EEins "abij->baij" [(EVar "contracted_intermediate")])));
   (*L750*) SAssign "contracted_intermediate" (EScale (-1 # 1) (EEins "nmef,lkdc,edij,aflm,bcnk->abij" [(ESlice (EVar "g_abab") [SV "o"; SV "o"; SV "v"; SV "v"]); (EVar "l2_abab"); (EVar "t2_aaaa"); (EVar "t2_abab"); (EVar "t2_abab")]));
   (*L751*) SAug true "double_res" (EAdd (EScale (1 # 1) (EVar "contracted_intermediate")) (EScale (-1 # 1) (EEins "abij->baij" [(EVar "contracted_intermediate")])));
   (*L754*) SAssign "contracted_intermediate" (EScale (1 # 4) (EEins "nmef,kldc,edij,fakl,cbnm->abij" [(ESlice (EVar "g_aaaa") [SV "o"; SV "o"; SV "v"; SV "v"]); (EVar "l2_aaaa"); (EVar "t2_aaaa"); (EVar "t2_aaaa"); (EVar "t2_aaaa")]));
   (*L755*) SAug true "double_res" (EAdd (EScale (1 # 1) (EVar "contracted_intermediate")) (EScale (-1 # 1) (EEins "abij->baij" [(EVar "contracted_intermediate")])));
   (*L758*) SAssign "contracted_intermediate" (EScale (1 # 4) (EEins "nmef,kldc,edij,afkl,bcnm->abij" [(ESlice (EVar "g_abab") [SV "o"; SV "o"; SV "v"; SV "v"]); (EVar "l2_abab"); (EVar "t2_aaaa"); (EVar "t2_abab"); (EVar "t2_abab")]));
   (*L759*) SAug true "double_res" (EAdd (EScale (1 # 1) (EVar "contracted_intermediate")) (EScale (-1 # 1) (EEins "abij->baij" [(EVar "contracted_intermediate")])));
   (*L762*) SAssign "contracted_intermediate" (EScale (1 # 4) (EEins "mnef,kldc,edij,afkl,bcmn->abij" [(ESlice (EVar "g_abab") [SV "o"; SV "o"; SV "v"; SV "v"]); (EVar "l2_abab"); (EVar "t2_aaaa"); (EVar "t2_abab"); (EVar "t2_abab")]));
   (*L763*) SAug true "double_res" (EAdd (EScale (1 # 1) (EVar "contracted_intermediate")) (EScale (-1 # 1) (EEins "abij->baij" [(EVar "contracted_intermediate")])));
   (*L766*) SAssign "contracted_intermediate" (EScale (1 # 4) (EEins "nmef,lkdc,edij,aflk,bcnm->abij" [(ESlice (EVar "g_abab") [SV "o"; SV "o"; SV "v"; SV "v"]); (EVar "l2_abab"); (EVar "t2_aaaa"); (EVar "t2_abab"); (EVar "t2_abab")]));
   (*L767*) SAug true "double_res" (EAdd (EScale (1 # 1) (EVar "contracted_intermediate")) (EScale (-1 # 1) (EEins "abij->baij" [(EVar "contracted_intermediate")])));
   (*L770*) SAssign "contracted_intermediate" (EScale (1 # 4) (EEins "mnef,lkdc,edij,aflk,bcmn->abij" [(ESlice (EVar "g_abab") [SV "o"; SV "o"; SV "v"; SV "v"]); (EVar "l2_abab"); (EVar "t2_aaaa"); (EVar "t2_abab"); (EVar "t2_abab")]));
   (*L771*) SAug true "double_res" (EAdd (EScale (1 # 1) (EVar "contracted_intermediate")) (EScale (-1 # 1) (EEins "abij->baij" [(EVar "contracted_intermediate")])));
   (*L774*) SAssign "contracted_intermediate" (EScale (1 # 2) (EEins "nmef,kldc,ealm,fbjk,dcin->abij" [(ESlice (EVar "g_aaaa") [SV "o"; SV "o"; SV "v"; SV "v"]); (EVar "l2_aaaa"); (EVar "t2_aaaa"); (EVar "t2_aaaa"); (EVar "t2_aaaa")]));
   (*L775*) SAug true "double_res" (EAdd (EScale (1 # 1) (EVar "contracted_intermediate")) (EScale (-1 # 1) (EEins "abij->abji" [(EVar "contracted_intermediate")])));
   (*L778*) SAssign "contracted_intermediate" (EScale (1 # 2) (EEins "nmfe,kldc,aelm,fbjk,dcin->abij" [(ESlice (EVar "g_abab") [SV "o"; SV "o"; SV "v"; SV "v"]); (EVar "l2_aaaa"); (EVar "t2_abab"); (EVar "t2_aaaa"); (EVar "t2_aaaa")]));
   (*L779*) SAug true "double_res" (EAdd (EScale (1 # 1) (EVar "contracted_intermediate")) (EScale (-1 # 1) (EEins "abij->abji" [(EVar "contracted_intermediate")])));
   (*L782*) SAssign "contracted_intermediate" (EScale (1 # 2) (EEins "mnfe,kldc,aeml,fbjk,dcin->abij" [(ESlice (EVar "g_abab") [SV "o"; SV "o"; SV "v"; SV "v"]); (EVar "l2_abab"); (EVar "t2_abab"); (EVar "t2_aaaa"); (EVar "t2_abab")]));
   (*L783*) SAug true "double_res" (EAdd (EScale (1 # 1) (EVar "contracted_intermediate")) (EScale (-1 # 1) (EEins "abij->abji" [(EVar "contracted_intermediate")])));
   (*L786*) SAssign "contracted_intermediate" (EScale (1 # 2) (EEins "mnfe,klcd,aeml,fbjk,cdin->abij" [(ESlice (EVar "g_abab") [SV "o"; SV "o"; SV "v"; SV "v"]); (EVar "l2_abab"); (EVar "t2_abab"); (EVar "t2_aaaa"); (EVar "t2_abab")]));
   (*L787*) SAug true "double_res" (EAdd (EScale (1 # 1) (EVar "contracted_intermediate")) (EScale (-1 # 1) (EEins "abij->abji" [(EVar "contracted_intermediate")])));
   (*L790*) SAssign "contracted_intermediate" (EScale (-1 # 2) (EEins "mnef,lkdc,ealm,bfjk,dcin->abij" [(ESlice (EVar "g_abab") [SV "o"; SV "o"; SV "v"; SV "v"]); (EVar "l2_abab"); (EVar "t2_aaaa"); (EVar "t2_abab"); (EVar "t2_abab")]));
   (*L791*) SAug true "double_res" (EAdd (EScale (1 # 1) (EVar "contracted_intermediate")) (EScale (-1 # 1) (EEins "abij->abji" [(EVar "contracted_intermediate")])));
   (*L794*) SAssign "contracted_intermediate" (EScale (-1 # 2) (EEins "nmef,lkdc,aelm,bfjk,dcin->abij" [(ESlice (EVar "g_bbbb") [SV "o"; SV "o"; SV "v"; SV "v"]); (EVar "l2_abab"); (EVar "t2_abab"); (EVar "t2_abab"); (EVar "t2_abab")]));
   (*L795*) SAug true "double_res" (EAdd (EScale (1 # 1) (EVar "contracted_intermediate")) (EScale (-1 # 1) (EEins "abij->abji" [(EVar "contracted_intermediate")])));
   (*L798*) SAssign "contracted_intermediate" (EScale (-1 # 2) (EEins "mnef,lkcd,ealm,bfjk,cdin->abij" [(ESlice (EVar "g_abab") [SV "o"; SV "o"; SV "v"; SV "v"]); (EVar "l2_abab"); (EVar "t2_aaaa"); (EVar "t2_abab"); (EVar "t2_abab")]));
   (*L799*) SAug true "double_res" (EAdd (EScale (1 # 1) (EVar "contracted_intermediate")) (EScale (-1 # 1) (EEins "abij->abji" [(EVar "contracted_intermediate")])));
   (*L802*) SAssign "contracted_intermediate" (EScale (-1 # 2) (EEins "nmef,lkcd,aelm,bfjk,cdin->abij" [(ESlice (EVar "g_bbbb") [SV "o"; SV "o"; SV "v"; SV "v"]); (EVar "l2_abab"); (EVar "t2_abab"); (EVar "t2_abab"); (EVar "t2_abab")]));
   (*L803*) SAug true "double_res" (EAdd (EScale (1 # 1) (EVar "contracted_intermediate")) (EScale (-1 # 1) (EEins "abij->abji" [(EVar "contracted_intermediate")])));
   (*L806*) SAug true "double_res" (EScale (3 # 8) (EEins "nmef,kldc,ealm,fbij,dckn->abij" [(ESlice (EVar "g_aaaa") [SV "o"; SV "o"; SV "v"; SV "v"]); (EVar "l2_aaaa"); (EVar "t2_aaaa"); (EVar "t2_aaaa"); (EVar "t2_aaaa")]));
   (*L809*) SAug true "double_res" (EScale (3 # 8) (EEins "nmfe,kldc,aelm,fbij,dckn->abij" [(ESlice (EVar "g_abab") [SV "o"; SV "o"; SV "v"; SV "v"]); (EVar "l2_aaaa"); (EVar "t2_abab"); (EVar "t2_aaaa"); (EVar "t2_aaaa")]));
   (*L812*) SAug true "double_res" (EScale (3 # 8) (EEins "mnfe,kldc,aeml,fbij,dckn->abij" [(ESlice (EVar "g_abab") [SV "o"; SV "o"; SV "v"; SV "v"]); (EVar "l2_abab"); (EVar "t2_abab"); (EVar "t2_aaaa"); (EVar "t2_abab")]));
   (*L815*) SAug true "double_res" (EScale (3 # 8) (EEins "mnfe,klcd,aeml,fbij,cdkn->abij" [(ESlice (EVar "g_abab") [SV "o"; SV "o"; SV "v"; SV "v"]); (EVar "l2_abab"); (EVar "t2_abab"); (EVar "t2_aaaa"); (EVar "t2_abab")]));
   (*L818*) SAug true "double_res" (EScale (3 # 8) (EEins "nmef,lkdc,ealm,fbij,dcnk->abij" [(ESlice (EVar "g_aaaa") [SV "o"; SV "o"; SV "v"; SV "v"]); (EVar "l2_abab"); (EVar "t2_aaaa"); (EVar "t2_aaaa"); (EVar "t2_abab")]));
   (*L821*) SAug true "double_res" (EScale (3 # 8) (EEins "nmfe,lkdc,aelm,fbij,dcnk->abij" [(ESlice (EVar "g_abab") [SV "o"; SV "o"; SV "v"; SV "v"]); (EVar "l2_abab"); (EVar "t2_abab"); (EVar "t2_aaaa"); (EVar "t2_abab")]));
   (*L824*) SAug true "double_res" (EScale (3 # 8) (EEins "nmef,lkcd,ealm,fbij,cdnk->abij" [(ESlice (EVar "g_aaaa") [SV "o"; SV "o"; SV "v"; SV "v"]); (EVar "l2_abab"); (EVar "t2_aaaa"); (EVar "t2_aaaa"); (EVar "t2_abab")]));
   (*L827*) SAug true "double_res" (EScale (3 # 8) (EEins "nmfe,lkcd,aelm,fbij,cdnk->abij" [(ESlice (EVar "g_abab") [SV "o"; SV "o"; SV "v"; SV "v"]); (EVar "l2_abab"); (EVar "t2_abab"); (EVar "t2_aaaa"); (EVar "t2_abab")]));
   (*L830*) SAug true "double_res" (EScale (3 # 8) (EEins "mnfe,kldc,aeml,fbij,dckn->abij" [(ESlice (EVar "g_abab") [SV "o"; SV "o"; SV "v"; SV "v"]); (EVar "l2_bbbb"); (EVar "t2_abab"); (EVar "t2_aaaa"); (EVar "t2_bbbb")]));
   (*L833*) SAssign "contracted_intermediate" (EScale (1 # 4) (EEins "nmef,kldc,eajm,fbkl,dcin->abij" [(ESlice (EVar "g_aaaa") [SV "o"; SV "o"; SV "v"; SV "v"]); (EVar "l2_aaaa"); (EVar "t2_aaaa"); (EVar "t2_aaaa"); (EVar "t2_aaaa")]));
   (*L834*) SAug true "double_res" (EAdd (EScale (1 # 1) (EVar "contracted_intermediate")) (EScale (-1 # 1) (EEins "abij->abji" [(EVar "contracted_intermediate")])));
   (*L837*) SAssign "contracted_intermediate" (EScale (1 # 4) (EEins "nmfe,kldc,aejm,fbkl,dcin->abij" [(ESlice (EVar "g_abab") [SV "o"; SV "o"; SV "v"; SV "v"]); (EVar "l2_aaaa"); (EVar "t2_abab"); (EVar "t2_aaaa"); (EVar "t2_aaaa")]));
   (*L838*) SAug true "double_res" (EAdd (EScale (1 # 1) (EVar "contracted_intermediate")) (EScale (-1 # 1) (EEins "abij->abji" [(EVar "contracted_intermediate")])));
   (*L841*) SAssign "contracted_intermediate" (EScale (1 # 4) (EEins "mnef,kldc,eajm,bfkl,dcin->abij" [(ESlice (EVar "g_abab") [SV "o"; SV "o"; SV "v"; SV "v"]); (EVar "l2_abab"); (EVar "t2_aaaa"); (EVar "t2_abab"); (EVar "t2_abab")]));
   (*L842*) SAug true "double_res" (EAdd (EScale (1 # 1) (EVar "contracted_intermediate")) (EScale (-1 # 1) (EEins "abij->abji" [(EVar "contracted_intermediate")])));
   (*L845*) SAssign "contracted_intermediate" (EScale (1 # 4) (EEins "nmef,kldc,aejm,bfkl,dcin->abij" [(ESlice (EVar "g_bbbb") [SV "o"; SV "o"; SV "v"; SV "v"]); (EVar "l2_abab"); (EVar "t2_abab"); (EVar "t2_abab"); (EVar "t2_abab")]));
   (*L846*) SAug true "double_res" (EAdd (EScale (1 # 1) (EVar "contracted_intermediate")) (EScale (-1 # 1) (EEins "abij->abji" [(EVar "contracted_intermediate")])));
   (*L849*) SAssign "contracted_intermediate" (EScale (1 # 4) (EEins "mnef,klcd,eajm,bfkl,cdin->abij" [(ESlice (EVar "g_abab") [SV "o"; SV "o"; SV "v"; SV "v"]); (EVar "l2_abab"); (EVar "t2_aaaa"); (EVar "t2_abab"); (EVar "t2_abab")]));
   (*L850*) SAug true "double_res" (EAdd (EScale (1 # 1) (EVar "contracted_intermediate")) (EScale (-1 # 1) (EEins "abij->abji" [(EVar "contracted_intermediate")])));
   (*L853*) SAssign "contracted_intermediate" (EScale (1 # 4) (EEins "nmef,klcd,aejm,bfkl,cdin->abij" [(ESlice (EVar "g_bbbb") [SV "o"; SV "o"; SV "v"; SV "v"]); (EVar "l2_abab"); (EVar "t2_abab"); (EVar "t2_abab"); (EVar "t2_abab")]));
   (*L854*) SAug true "double_res" (EAdd (EScale (1 # 1) (EVar "contracted_intermediate")) (EScale (-1 # 1) (EEins "abij->abji" [(EVar "contracted_intermediate")])));
   (*L857*) SAssign "contracted_intermediate" (EScale (1 # 4) (EEins "mnef,lkdc,eajm,bflk,dcin->abij" [(ESlice (EVar "g_abab") [SV "o"; SV "o"; SV "v"; SV "v"]); (EVar "l2_abab"); (EVar "t2_aaaa"); (EVar "t2_abab"); (EVar "t2_abab")]));
   (*L858*) SAug true "double_res" (EAdd (EScale (1 # 1) (EVar "contracted_intermediate")) (EScale (-1 # 1) (EEins "abij->abji" [(EVar "contracted_intermediate")])));
   (*L861*) SAssign "contracted_intermediate" (EScale (1 # 4) (EEins "nmef,lkdc,aejm,bflk,dcin->abij" [(ESlice (EVar "g_bbbb") [SV "o"; SV "o"; SV "v"; SV "v"]); (EVar "l2_abab"); (EVar "t2_abab"); (EVar "t2_abab"); (EVar "t2_abab")]));
   (*L862*) SAug true "double_res" (EAdd (EScale (1 # 1) (EVar "contracted_intermediate")) (EScale (-1 # 1) (EEins "abij->abji" [(EVar "contracted_intermediate")])));
   (*L865*) SAssign "contracted_intermediate" (EScale (1 # 4) (EEins "mnef,lkcd,eajm,bflk,cdin->abij" [(ESlice (EVar "g_abab") [SV "o"; SV "o"; SV "v"; SV "v"]); (EVar "l2_abab"); (EVar "t2_aaaa"); (EVar "t2_abab"); (EVar "t2_abab")]));
   (*L866*) SAug true "double_res" (EAdd (EScale (1 # 1) (EVar "contracted_intermediate")) (EScale (-1 # 1) (EEins "abij->abji" [(EVar "contracted_intermediate")])));
   (*L869*) SAssign "contracted_intermediate" (EScale (1 # 4) (EEins "nmef,lkcd,aejm,bflk,cdin->abij" [(ESlice (EVar "g_bbbb") [SV "o"; SV "o"; SV "v"; SV "v"]); (EVar "l2_abab"); (EVar "t2_abab"); (EVar "t2_abab"); (EVar "t2_abab")]));
   (*L870*) SAug true "double_res" (EAdd (EScale (1 # 1) (EVar "contracted_intermediate")) (EScale (-1 # 1) (EEins "abij->abji" [(EVar "contracted_intermediate")])));
   (*L873*) SAssign "contracted_intermediate" (EScale (-3 # 8) (EEins "nmef,kldc,eajm,fbil,dckn->abij" [(ESlice (EVar "g_aaaa") [SV "o"; SV "o"; SV "v"; SV "v"]); (EVar "l2_aaaa"); (EVar "t2_aaaa"); (EVar "t2_aaaa"); (EVar "t2_aaaa")]));
   (*L874*) SAug true "double_res" (EAdd (EScale (1 # 1) (EVar "contracted_intermediate")) (EScale (-1 # 1) (EEins "abij->abji" [(EVar "contracted_intermediate")])));
   (*L877*) SAssign "contracted_intermediate" (EScale (-3 # 8) (EEins "nmfe,kldc,aejm,fbil,dckn->abij" [(ESlice (EVar "g_abab") [SV "o"; SV "o"; SV "v"; SV "v"]); (EVar "l2_aaaa"); (EVar "t2_abab"); (EVar "t2_aaaa"); (EVar "t2_aaaa")]));
   (*L878*) SAug true "double_res" (EAdd (EScale (1 # 1) (EVar "contracted_intermediate")) (EScale (-1 # 1) (EEins "abij->abji" [(EVar "contracted_intermediate")])));
   (*L881*) SAssign "contracted_intermediate" (EScale (-3 # 8) (EEins "mnef,kldc,eajm,bfil,dckn->abij" [(ESlice (EVar "g_abab") [SV "o"; SV "o"; SV "v"; SV "v"]); (EVar "l2_abab"); (EVar "t2_aaaa"); (EVar "t2_abab"); (EVar "t2_abab")]));
   (*L882*) SAug true "double_res" (EAdd (EScale (1 # 1) (EVar "contracted_intermediate")) (EScale (-1 # 1) (EEins "abij->abji" [(EVar "contracted_intermediate")])));
   (*L885*) SAssign "contracted_intermediate" (EScale (-3 # 8) (EEins "nmef,kldc,aejm,bfil,dckn->abij" [(ESlice (EVar "g_bbbb") [SV "o"; SV "o"; SV "v"; SV "v"]); (EVar "l2_abab"); (EVar "t2_abab"); (EVar "t2_abab"); (EVar "t2_abab")]));
   (*L886*) SAug true "double_res" (EAdd (EScale (1 # 1) (EVar "contracted_intermediate")) (EScale (-1 # 1) (EEins "abij->abji" [(EVar "contracted_intermediate")])));
   (*L889*) SAssign "contracted_intermediate" (EScale (-3 # 8) (EEins "mnef,klcd,eajm,bfil,cdkn->abij" [(ESlice (EVar "g_abab") [SV "o"; SV "o"; SV "v"; SV "v"]); (EVar "l2_abab"); (EVar "t2_aaaa"); (EVar "t2_abab"); (EVar "t2_abab")]));
   (*L890*) SAug true "double_res" (EAdd (EScale (1 # 1) (EVar "contracted_intermediate")) (EScale (-1 # 1) (EEins "abij->abji" [(EVar "contracted_intermediate")])));
   (*L893*) SAssign "contracted_intermediate" (EScale (-3 # 8) (EEins "nmef,klcd,aejm,bfil,cdkn->abij" [(ESlice (EVar "g_bbbb") [SV "o"; SV "o"; SV "v"; SV "v"]); (EVar "l2_abab"); (EVar "t2_abab"); (EVar "t2_abab"); (EVar "t2_abab")]));
   (*L894*) SAug true "double_res" (EAdd (EScale (1 # 1) (EVar "contracted_intermediate")) (EScale (-1 # 1) (EEins "abij->abji" [(EVar "contracted_intermediate")])));
   (*L897*) SAssign "contracted_intermediate" (EScale (-3 # 8) (EEins "nmef,lkdc,eajm,fbil,dcnk->abij" [(ESlice (EVar "g_aaaa") [SV "o"; SV "o"; SV "v"; SV "v"]); (EVar "l2_abab"); (EVar "t2_aaaa"); (EVar "t2_aaaa"); (EVar "t2_abab")]));
   (*L898*) SAug true "double_res" (EAdd (EScale (1 # 1) (EVar "contracted_intermediate")) (EScale (-1 # 1) (EEins "abij->abji" [(EVar "contracted_intermediate")])));
   (*L901*) SAssign "contracted_intermediate" (EScale (-3 # 8) (EEins "nmfe,lkdc,aejm,fbil,dcnk->abij" [(ESlice (EVar "g_abab") [SV "o"; SV "o"; SV "v"; SV "v"]); (EVar "l2_abab"); (EVar "t2_abab"); (EVar "t2_aaaa"); (EVar "t2_abab")]));
   (*L902*) SAug true "double_res" (EAdd (EScale (1 # 1) (EVar "contracted_intermediate")) (EScale (-1 # 1) (EEins "abij->abji" [(EVar "contracted_intermediate")])));
   (*L905*) SAssign "contracted_intermediate" (EScale (-3 # 8) (EEins "nmef,lkcd,eajm,fbil,cdnk->abij" [(ESlice (EVar "g_aaaa") [SV "o"; SV "o"; SV "v"; SV "v"]); (EVar "l2_abab"); (EVar "t2_aaaa"); (EVar "t2_aaaa"); (EVar "t2_abab")]));
   (*L906*) SAug true "double_res" (EAdd (EScale (1 # 1) (EVar "contracted_intermediate")) (EScale (-1 # 1) (EEins "abij->abji" [(EVar "contracted_intermediate")])));
   (*L909*) SAssign "contracted_intermediate" (EScale (-3 # 8) (EEins "nmfe,lkcd,aejm,fbil,cdnk->abij" [(ESlice (EVar "g_abab") [SV "o"; SV "o"; SV "v"; SV "v"]); (EVar "l2_abab"); (EVar "t2_abab"); (EVar "t2_aaaa"); (EVar "t2_abab")]));
   (*L910*) SAug true "double_res" (EAdd (EScale (1 # 1) (EVar "contracted_intermediate")) (EScale (-1 # 1) (EEins "abij->abji" [(EVar "contracted_intermediate")])));
   (*L913*) SAssign "contracted_intermediate" (EScale (-3 # 8) (EEins "mnef,kldc,eajm,bfil,dckn->abij" [(ESlice (EVar "g_abab") [SV "o"; SV "o"; SV "v"; SV "v"]); (EVar "l2_bbbb"); (EVar "t2_aaaa"); (EVar "t2_abab"); (EVar "t2_bbbb")]));
   (*L914*) SAug true "double_res" (EAdd (EScale (1 # 1) (EVar "contracted_intermediate")) (EScale (-1 # 1) (EEins "abij->abji" [(EVar "contracted_intermediate")])));
   (*L917*) SAssign "contracted_intermediate" (EScale (-3 # 8) (EEins "nmef,kldc,aejm,bfil,dckn->abij" [(ESlice (EVar "g_bbbb") [SV "o"; SV "o"; SV "v"; SV "v"]); (EVar "l2_bbbb"); (EVar "t2_abab"); (EVar "t2_abab"); (EVar "t2_bbbb")]));
   (*L918*) SAug true "double_res" (EAdd (EScale (1 # 1) (EVar "contracted_intermediate")) (EScale (-1 # 1) (EEins "abij->abji" [(EVar "contracted_intermediate")])));
   (*L921*) SAssign "contracted_intermediate" (EScale (1 # 4) (EEins "nmef,kldc,eakl,fbjm,dcin->abij" [(ESlice (EVar "g_aaaa") [SV "o"; SV "o"; SV "v"; SV "v"]); (EVar "l2_aaaa"); (EVar "t2_aaaa"); (EVar "t2_aaaa"); (EVar "t2_aaaa")]));
   (*L922*) SAug true "double_res" (EAdd (EScale (1 # 1) (EVar "contracted_intermediate")) (EScale (-1 # 1) (EEins "abij->abji" [(EVar "contracted_intermediate")])));
   (*L925*) SAssign "contracted_intermediate" (EScale (-1 # 4) (EEins "nmef,kldc,eakl,bfjm,dcin->abij" [(ESlice (EVar "g_abab") [SV "o"; SV "o"; SV "v"; SV "v"]); (EVar "l2_aaaa"); (EVar "t2_aaaa"); (EVar "t2_abab"); (EVar "t2_aaaa")]));
   (*L926*) SAug true "double_res" (EAdd (EScale (1 # 1) (EVar "contracted_intermediate")) (EScale (-1 # 1) (EEins "abij->abji" [(EVar "contracted_intermediate")])));
   (*L929*) SAssign "contracted_intermediate" (EScale (-1 # 4) (EEins "mnfe,kldc,aekl,fbjm,dcin->abij" [(ESlice (EVar "g_abab") [SV "o"; SV "o"; SV "v"; SV "v"]); (EVar "l2_abab"); (EVar "t2_abab"); (EVar "t2_aaaa"); (EVar "t2_abab")]));
   (*L930*) SAug true "double_res" (EAdd (EScale (1 # 1) (EVar "contracted_intermediate")) (EScale (-1 # 1) (EEins "abij->abji" [(EVar "contracted_intermediate")])));
   (*L933*) SAssign "contracted_intermediate" (EScale (1 # 4) (EEins "nmef,kldc,aekl,bfjm,dcin->abij" [(ESlice (EVar "g_bbbb") [SV "o"; SV "o"; SV "v"; SV "v"]); (EVar "l2_abab"); (EVar "t2_abab"); (EVar "t2_abab"); (EVar "t2_abab")]));
   (*L934*) SAug true "double_res" (EAdd (EScale (1 # 1) (EVar "contracted_intermediate")) (EScale (-1 # 1) (EEins "abij->abji" [(EVar "contracted_intermediate")])));
   (*L937*) SAssign "contracted_intermediate" (EScale (-1 # 4) (EEins "mnfe,klcd,aekl,fbjm,cdin->abij" [(ESlice (EVar "g_abab") [SV "o"; SV "o"; SV "v"; SV "v"]); (EVar "l2_abab"); (EVar "t2_abab"); (EVar "t2_aaaa"); (EVar "t2_abab")]));
   (*L938*) SAug true "double_res" (EAdd (EScale (1 # 1) (EVar "contracted_intermediate")) (EScale (-1 # 1) (EEins "abij->abji" [(EVar "contracted_intermediate")])));
   (*L941*) SAssign "contracted_intermediate" (EScale (1 # 4) (EEins "nmef,klcd,aekl,bfjm,cdin->abij" [(ESlice (EVar "g_bbbb") [SV "o"; SV "o"; SV "v"; SV "v"]); (EVar "l2_abab"); (EVar "t2_abab"); (EVar "t2_abab"); (EVar "t2_abab")]));
   (*L942*) SAug true "double_res" (EAdd (EScale (1 # 1) (EVar "contracted_intermediate")) (EScale (-1 # 1) (EEins "abij->abji" [(EVar "contracted_intermediate")])));
   (*L945*) SAssign "contracted_intermediate" (EScale (-1 # 4) (EEins "mnfe,lkdc,aelk,fbjm,dcin->abij" [(ESlice (EVar "g_abab") [SV "o"; SV "o"; SV "v"; SV "v"]); (EVar "l2_abab"); (EVar "t2_abab"); (EVar "t2_aaaa"); (EVar "t2_abab")]));
   (*L946*) SAug true "double_res" (EAdd (EScale (1 # 1) (EVar "contracted_intermediate")) (EScale (-1 # 1) (EEins "abij->abji" [(EVar "contracted_intermediate")])));
   (*L949*) SAssign "contracted_intermediate" (EScale (1 # 4) (EEins "nmef,lkdc,aelk,bfjm,dcin->abij" [(ESlice (EVar "g_bbbb") [SV "o"; SV "o"; SV "v"; SV "v"]); (EVar "l2_abab"); (EVar "t2_abab"); (EVar "t2_abab"); (EVar "t2_abab")]));
   (*L950*) SAug true "double_res" (EAdd (EScale (1 # 1) (EVar "contracted_intermediate")) (EScale (-1 # 1) (EEins "abij->abji" [(EVar "contracted_intermediate")])));
   (*L953*) SAssign "contracted_intermediate" (EScale (-1 # 4) (EEins "mnfe,lkcd,aelk,fbjm,cdin->abij" [(ESlice (EVar "g_abab") [SV "o"; SV "o"; SV "v"; SV "v"]); (EVar "l2_abab"); (EVar "t2_abab"); (EVar "t2_aaaa"); (EVar "t2_abab")]));
   (*L954*) SAug true "double_res" (EAdd (EScale (1 # 1) (EVar "contracted_intermediate")) (EScale (-1 # 1) (EEins "abij->abji" [(EVar "contracted_intermediate")])));
   (*L957*) SAssign "contracted_intermediate" (EScale (1 # 4) (EEins "nmef,lkcd,aelk,bfjm,cdin->abij" [(ESlice (EVar "g_bbbb") [SV "o"; SV "o"; SV "v"; SV "v"]); (EVar "l2_abab"); (EVar "t2_abab"); (EVar "t2_abab"); (EVar "t2_abab")]));
   (*L958*) SAug true "double_res" (EAdd (EScale (1 # 1) (EVar "contracted_intermediate")) (EScale (-1 # 1) (EEins "abij->abji" [(EVar "contracted_intermediate")])));
   (*L961*) SAug true "double_res" (EScale (-1 # 8) (EEins "nmef,kldc,eakl,fbij,dcnm->abij" [(ESlice (EVar "g_aaaa") [SV "o"; SV "o"; SV "v"; SV "v"]); (EVar "l2_aaaa"); (EVar "t2_aaaa"); (EVar "t2_aaaa"); (EVar "t2_aaaa")]));
   (*L964*) SAug true "double_res" (EScale (-1 # 8) (EEins "nmfe,kldc,aekl,fbij,dcnm->abij" [(ESlice (EVar "g_abab") [SV "o"; SV "o"; SV "v"; SV "v"]); (EVar "l2_abab"); (EVar "t2_abab"); (EVar "t2_aaaa"); (EVar "t2_abab")]));
   (*L967*) SAug true "double_res" (EScale (-1 # 8) (EEins "mnfe,kldc,aekl,fbij,dcmn->abij" [(ESlice (EVar "g_abab") [SV "o"; SV "o"; SV "v"; SV "v"]); (EVar "l2_abab"); (EVar "t2_abab"); (EVar "t2_aaaa"); (EVar "t2_abab")]));
   (*L970*) SAug true "double_res" (EScale (-1 # 8) (EEins "nmfe,klcd,aekl,fbij,cdnm->abij" [(ESlice (EVar "g_abab") [SV "o"; SV "o"; SV "v"; SV "v"]); (EVar "l2_abab"); (EVar "t2_abab"); (EVar "t2_aaaa"); (EVar "t2_abab")]));
   (*L973*) SAug true "double_res" (EScale (-1 # 8) (EEins "mnfe,klcd,aekl,fbij,cdmn->abij" [(ESlice (EVar "g_abab") [SV "o"; SV "o"; SV "v"; SV "v"]); (EVar "l2_abab"); (EVar "t2_abab"); (EVar "t2_aaaa"); (EVar "t2_abab")]));
   (*L976*) SAug true "double_res" (EScale (-1 # 8) (EEins "nmfe,lkdc,aelk,fbij,dcnm->abij" [(ESlice (EVar "g_abab") [SV "o"; SV "o"; SV "v"; SV "v"]); (EVar "l2_abab"); (EVar "t2_abab"); (EVar "t2_aaaa"); (EVar "t2_abab")]));
   (*L979*) SAug true "double_res" (EScale (-1 # 8) (EEins "mnfe,lkdc,aelk,fbij,dcmn->abij" [(ESlice (EVar "g_abab") [SV "o"; SV "o"; SV "v"; SV "v"]); (EVar "l2_abab"); (EVar "t2_abab"); (EVar "t2_aaaa"); (EVar "t2_abab")]));
   (*L982*) SAug true "double_res" (EScale (-1 # 8) (EEins "nmfe,lkcd,aelk,fbij,cdnm->abij" [(ESlice (EVar "g_abab") [SV "o"; SV "o"; SV "v"; SV "v"]); (EVar "l2_abab"); (EVar "t2_abab"); (EVar "t2_aaaa"); (EVar "t2_abab")]));
   (*L985*) SAug true "double_res" (EScale (-1 # 8) (EEins "mnfe,lkcd,aelk,fbij,cdmn->abij" [(ESlice (EVar "g_abab") [SV "o"; SV "o"; SV "v"; SV "v"]); (EVar "l2_abab"); (EVar "t2_abab"); (EVar "t2_aaaa"); (EVar "t2_abab")]));
   (*L988*) SAssign "contracted_intermediate" (EScale (-1 # 2) (EEins "nmef,kldc,eajl,fbkm,dcin->abij" [(ESlice (EVar "g_aaaa") [SV "o"; SV "o"; SV "v"; SV "v"]); (EVar "l2_aaaa"); (EVar "t2_aaaa"); (EVar "t2_aaaa"); (EVar "t2_aaaa")]));
   (*L989*) SAug true "double_res" (EAdd (EScale (1 # 1) (EVar "contracted_intermediate")) (EScale (-1 # 1) (EEins "abij->abji" [(EVar "contracted_intermediate")])));
   (*L992*) SAssign "contracted_intermediate" (EScale (1 # 2) (EEins "nmef,kldc,eajl,bfkm,dcin->abij" [(ESlice (EVar "g_abab") [SV "o"; SV "o"; SV "v"; SV "v"]); (EVar "l2_aaaa"); (EVar "t2_aaaa"); (EVar "t2_abab"); (EVar "t2_aaaa")]));
   (*L993*) SAug true "double_res" (EAdd (EScale (1 # 1) (EVar "contracted_intermediate")) (EScale (-1 # 1) (EEins "abij->abji" [(EVar "contracted_intermediate")])));
   (*L996*) SAssign "contracted_intermediate" (EScale (1 # 2) (EEins "mnfe,kldc,aejl,fbkm,dcin->abij" [(ESlice (EVar "g_abab") [SV "o"; SV "o"; SV "v"; SV "v"]); (EVar "l2_abab"); (EVar "t2_abab"); (EVar "t2_aaaa"); (EVar "t2_abab")]));
   (*L997*) SAug true "double_res" (EAdd (EScale (1 # 1) (EVar "contracted_intermediate")) (EScale (-1 # 1) (EEins "abij->abji" [(EVar "contracted_intermediate")])));
   (*L1000*) SAssign "contracted_intermediate" (EScale (-1 # 2) (EEins "nmef,kldc,aejl,bfkm,dcin->abij" [(ESlice (EVar "g_bbbb") [SV "o"; SV "o"; SV "v"; SV "v"]); (EVar "l2_abab"); (EVar "t2_abab"); (EVar "t2_abab"); (EVar "t2_abab")]));
   (*L1001*) SAug true "double_res" (EAdd (EScale (1 # 1) (EVar "contracted_intermediate")) (EScale (-1 # 1) (EEins "abij->abji" [(EVar "contracted_intermediate")])));
   (*L1004*) SAssign "contracted_intermediate" (EScale (1 # 2) (EEins "mnfe,klcd,aejl,fbkm,cdin->abij" [(ESlice (EVar "g_abab") [SV "o"; SV "o"; SV "v"; SV "v"]); (EVar "l2_abab"); (EVar "t2_abab"); (EVar "t2_aaaa"); (EVar "t2_abab")]));
   (*L1005*) SAug true "double_res" (EAdd (EScale (1 # 1) (EVar "contracted_intermediate")) (EScale (-1 # 1) (EEins "abij->abji" [(EVar "contracted_intermediate")])));
   (*L1008*) SAssign "contracted_intermediate" (EScale (-1 # 2) (EEins "nmef,klcd,aejl,bfkm,cdin->abij" [(ESlice (EVar "g_bbbb") [SV "o"; SV "o"; SV "v"; SV "v"]); (EVar "l2_abab"); (EVar "t2_abab"); (EVar "t2_abab"); (EVar "t2_abab")]));
   (*L1009*) SAug true "double_res" (EAdd (EScale (1 # 1) (EVar "contracted_intermediate")) (EScale (-1 # 1) (EEins "abij->abji" [(EVar "contracted_intermediate")])));
   (*L1012*) SAssign "contracted_intermediate" (EScale (-1 # 2) (EEins "mnef,lkdc,eajl,bfmk,dcin->abij" [(ESlice (EVar "g_abab") [SV "o"; SV "o"; SV "v"; SV "v"]); (EVar "l2_abab"); (EVar "t2_aaaa"); (EVar "t2_abab"); (EVar "t2_abab")]));
   (*L1013*) SAug true "double_res" (EAdd (EScale (1 # 1) (EVar "contracted_intermediate")) (EScale (-1 # 1) (EEins "abij->abji" [(EVar "contracted_intermediate")])));
   (*L1016*) SAssign "contracted_intermediate" (EScale (-1 # 2) (EEins "mnef,lkcd,eajl,bfmk,cdin->abij" [(ESlice (EVar "g_abab") [SV "o"; SV "o"; SV "v"; SV "v"]); (EVar "l2_abab"); (EVar "t2_aaaa"); (EVar "t2_abab"); (EVar "t2_abab")]));
   (*L1017*) SAug true "double_res" (EAdd (EScale (1 # 1) (EVar "contracted_intermediate")) (EScale (-1 # 1) (EEins "abij->abji" [(EVar "contracted_intermediate")])));
   (*L1020*) SAssign "contracted_intermediate" (EScale (1 # 2) (EEins "nmef,kldc,eajl,fbim,dckn->abij" [(ESlice (EVar "g_aaaa") [SV "o"; SV "o"; SV "v"; SV "v"]); (EVar "l2_aaaa"); (EVar "t2_aaaa"); (EVar "t2_aaaa"); (EVar "t2_aaaa")]));
   (*L1021*) SAug true "double_res" (EAdd (EScale (1 # 1) (EVar "contracted_intermediate")) (EScale (-1 # 1) (EEins "abij->abji" [(EVar "contracted_intermediate")])));
   (*L1024*) SAssign "contracted_intermediate" (EScale (-1 # 2) (EEins "nmef,kldc,eajl,bfim,dckn->abij" [(ESlice (EVar "g_abab") [SV "o"; SV "o"; SV "v"; SV "v"]); (EVar "l2_aaaa"); (EVar "t2_aaaa"); (EVar "t2_abab"); (EVar "t2_aaaa")]));
   (*L1025*) SAug true "double_res" (EAdd (EScale (1 # 1) (EVar "contracted_intermediate")) (EScale (-1 # 1) (EEins "abij->abji" [(EVar "contracted_intermediate")])));
   (*L1028*) SAssign "contracted_intermediate" (EScale (-1 # 2) (EEins "mnfe,kldc,aejl,fbim,dckn->abij" [(ESlice (EVar "g_abab") [SV "o"; SV "o"; SV "v"; SV "v"]); (EVar "l2_abab"); (EVar "t2_abab"); (EVar "t2_aaaa"); (EVar "t2_abab")]));
   (*L1029*) SAug true "double_res" (EAdd (EScale (1 # 1) (EVar "contracted_intermediate")) (EScale (-1 # 1) (EEins "abij->abji" [(EVar "contracted_intermediate")])));
   (*L1032*) SAssign "contracted_intermediate" (EScale (1 # 2) (EEins "nmef,kldc,aejl,bfim,dckn->abij" [(ESlice (EVar "g_bbbb") [SV "o"; SV "o"; SV "v"; SV "v"]); (EVar "l2_abab"); (EVar "t2_abab"); (EVar "t2_abab"); (EVar "t2_abab")]));
   (*L1033*) SAug true "double_res" (EAdd (EScale (1 # 1) (EVar "contracted_intermediate")) (EScale (-1 # 1) (EEins "abij->abji" [(EVar "contracted_intermediate")])));
   (*L1036*) SAssign "contracted_intermediate" (EScale (-1 # 2) (EEins "mnfe,klcd,aejl,fbim,cdkn->abij" [(ESlice (EVar "g_abab") [SV "o"; SV "o"; SV "v"; SV "v"]); (EVar "l2_abab"); (EVar "t2_abab"); (EVar "t2_aaaa"); (EVar "t2_abab")]));
   (*L1037*) SAug true "double_res" (EAdd (EScale (1 # 1) (EVar "contracted_intermediate")) (EScale (-1 # 1) (EEins "abij->abji" [(EVar "contracted_intermediate")])));
   (*L1040*) SAssign "contracted_intermediate" (EScale (1 # 2) (EEins "nmef,klcd,aejl,bfim,cdkn->abij" [(ESlice (EVar "g_bbbb") [SV "o"; SV "o"; SV "v"; SV "v"]); (EVar "l2_abab"); (EVar "t2_abab"); (EVar "t2_abab"); (EVar "t2_abab")]));
   (*L1041*) SAug true "double_res" (EAdd (EScale (1 # 1) (EVar "contracted_intermediate")) (EScale (-1 # 1) (EEins "abij->abji" [(EVar "contracted_intermediate")])));
   (*L1044*) SAssign "contracted_intermediate" (EScale (1 # 2) (EEins "nmef,lkdc,eajl,fbim,dcnk->abij" [(ESlice (EVar "g_aaaa") [SV "o"; SV "o"; SV "v"; SV "v"]); (EVar "l2_abab"); (EVar "t2_aaaa"); (EVar "t2_aaaa"); (EVar "t2_abab")]));
   (*L1045*) SAug true "double_res" (EAdd (EScale (1 # 1) (EVar "contracted_intermediate")) (EScale (-1 # 1) (EEins "abij->abji" [(EVar "contracted_intermediate")])));
   (*L1048*) SAssign "contracted_intermediate" (EScale (-1 # 2) (EEins "nmef,lkdc,eajl,bfim,dcnk->abij" [(ESlice (EVar "g_abab") [SV "o"; SV "o"; SV "v"; SV "v"]); (EVar "l2_abab"); (EVar "t2_aaaa"); (EVar "t2_abab"); (EVar "t2_abab")]));
   (*L1049*) SAug true "double_res" (EAdd (EScale (1 # 1) (EVar "contracted_intermediate")) (EScale (-1 # 1) (EEins "abij->abji" [(EVar "contracted_intermediate")])));
   (*L1052*) SAssign "contracted_intermediate" (EScale (1 # 2) (EEins "nmef,lkcd,eajl,fbim,cdnk->abij" [(ESlice (EVar "g_aaaa") [SV "o"; SV "o"; SV "v"; SV "v"]); (EVar "l2_abab"); (EVar "t2_aaaa"); (EVar "t2_aaaa"); (EVar "t2_abab")]));
   (*L1053*) SAug true "double_res" (EAdd (EScale (1 # 1) (EVar "contracted_intermediate")) (EScale (-1 # 1) (EEins "abij->abji" [(EVar "contracted_intermediate")])));
   (*L1056*) SAssign "contracted_intermediate" (EScale (-1 # 2) (EEins "nmef,lkcd,eajl,bfim,cdnk->abij" [(ESlice (EVar "g_abab") [SV "o"; SV "o"; SV "v"; SV "v"]); (EVar "l2_abab"); (EVar "t2_aaaa"); (EVar "t2_abab"); (EVar "t2_abab")]));
   (*L1057*) SAug true "double_res" (EAdd (EScale (1 # 1) (EVar "contracted_intermediate")) (EScale (-1 # 1) (EEins "abij->abji" [(EVar "contracted_intermediate")])));
   (*L1060*) SAssign "contracted_intermediate" (EScale (-1 # 2) (EEins "mnfe,kldc,aejl,fbim,dckn->abij" [(ESlice (EVar "g_abab") [SV "o"; SV "o"; SV "v"; SV "v"]); (EVar "l2_bbbb"); (EVar "t2_abab"); (EVar "t2_aaaa"); (EVar "t2_bbbb")]));
   (*L1061*) SAug true "double_res" (EAdd (EScale (1 # 1) (EVar "contracted_intermediate")) (EScale (-1 # 1) (EEins "abij->abji" [(EVar "contracted_intermediate")])));
   (*L1064*) SAssign "contracted_intermediate" (EScale (1 # 2) (EEins "nmef,kldc,aejl,bfim,dckn->abij" [(ESlice (EVar "g_bbbb") [SV "o"; SV "o"; SV "v"; SV "v"]); (EVar "l2_bbbb"); (EVar "t2_abab"); (EVar "t2_abab"); (EVar "t2_bbbb")]));
   (*L1065*) SAug true "double_res" (EAdd (EScale (1 # 1) (EVar "contracted_intermediate")) (EScale (-1 # 1) (EEins "abij->abji" [(EVar "contracted_intermediate")])));
   (*L1068*) SAssign "contracted_intermediate" (EScale (1 # 4) (EEins "nmef,kldc,eajl,fbik,dcnm->abij" [(ESlice (EVar "g_aaaa") [SV "o"; SV "o"; SV "v"; SV "v"]); (EVar "l2_aaaa"); (EVar "t2_aaaa"); (EVar "t2_aaaa"); (EVar "t2_aaaa")]));
   (*L1069*) SAug true "double_res" (EAdd (EScale (1 # 1) (EVar "contracted_intermediate")) (EScale (-1 # 1) (EEins "abij->abji" [(EVar "contracted_intermediate")])));
   (*L1072*) SAssign "contracted_intermediate" (EScale (1 # 4) (EEins "nmfe,kldc,aejl,fbik,dcnm->abij" [(ESlice (EVar "g_abab") [SV "o"; SV "o"; SV "v"; SV "v"]); (EVar "l2_abab"); (EVar "t2_abab"); (EVar "t2_aaaa"); (EVar "t2_abab")]));
   (*L1073*) SAug true "double_res" (EAdd (EScale (1 # 1) (EVar "contracted_intermediate")) (EScale (-1 # 1) (EEins "abij->abji" [(EVar "contracted_intermediate")])));
   (*L1076*) SAssign "contracted_intermediate" (EScale (1 # 4) (EEins "mnfe,kldc,aejl,fbik,dcmn->abij" [(ESlice (EVar "g_abab") [SV "o"; SV "o"; SV "v"; SV "v"]); (EVar "l2_abab"); (EVar "t2_abab"); (EVar "t2_aaaa"); (EVar "t2_abab")]));
   (*L1077*) SAug true "double_res" (EAdd (EScale (1 # 1) (EVar "contracted_intermediate")) (EScale (-1 # 1) (EEins "abij->abji" [(EVar "contracted_intermediate")])));
   (*L1080*) SAssign "contracted_intermediate" (EScale (1 # 4) (EEins "nmfe,klcd,aejl,fbik,cdnm->abij" [(ESlice (EVar "g_abab") [SV "o"; SV "o"; SV "v"; SV "v"]); (EVar "l2_abab"); (EVar "t2_abab"); (EVar "t2_aaaa"); (EVar "t2_abab")]));
   (*L1081*) SAug true "double_res" (EAdd (EScale (1 # 1) (EVar "contracted_intermediate")) (EScale (-1 # 1) (EEins "abij->abji" [(EVar "contracted_intermediate")])));
   (*L1084*) SAssign "contracted_intermediate" (EScale (1 # 4) (EEins "mnfe,klcd,aejl,fbik,cdmn->abij" [(ESlice (EVar "g_abab") [SV "o"; SV "o"; SV "v"; SV "v"]); (EVar "l2_abab"); (EVar "t2_abab"); (EVar "t2_aaaa"); (EVar "t2_abab")]));
   (*L1085*) SAug true "double_res" (EAdd (EScale (1 # 1) (EVar "contracted_intermediate")) (EScale (-1 # 1) (EEins "abij->abji" [(EVar "contracted_intermediate")])));
   (*L1088*) SAssign "contracted_intermediate" (EScale (1 # 4) (EEins "nmef,lkdc,eajl,bfik,dcnm->abij" [(ESlice (EVar "g_abab") [SV "o"; SV "o"; SV "v"; SV "v"]); (EVar "l2_abab"); (EVar "t2_aaaa"); (EVar "t2_abab"); (EVar "t2_abab")]));
   (*L1089*) SAug true "double_res" (EAdd (EScale (1 # 1) (EVar "contracted_intermediate")) (EScale (-1 # 1) (EEins "abij->abji" [(EVar "contracted_intermediate")])));
   (*L1092*) SAssign "contracted_intermediate" (EScale (1 # 4) (EEins "mnef,lkdc,eajl,bfik,dcmn->abij" [(ESlice (EVar "g_abab") [SV "o"; SV "o"; SV "v"; SV "v"]); (EVar "l2_abab"); (EVar "t2_aaaa"); (EVar "t2_abab"); (EVar "t2_abab")]));
   (*L1093*) SAug true "double_res" (EAdd (EScale (1 # 1) (EVar "contracted_intermediate")) (EScale (-1 # 1) (EEins "abij->abji" [(EVar "contracted_intermediate")])));
   (*L1096*) SAssign "contracted_intermediate" (EScale (1 # 4) (EEins "nmef,lkcd,eajl,bfik,cdnm->abij" [(ESlice (EVar "g_abab") [SV "o"; SV "o"; SV "v"; SV "v"]); (EVar "l2_abab"); (EVar "t2_aaaa"); (EVar "t2_abab"); (EVar "t2_abab")]));
   (*L1097*) SAug true "double_res" (EAdd (EScale (1 # 1) (EVar "contracted_intermediate")) (EScale (-1 # 1) (EEins "abij->abji" [(EVar "contracted_intermediate")])));
   (*L1100*) SAssign "contracted_intermediate" (EScale (1 # 4) (EEins "mnef,lkcd,eajl,bfik,cdmn->abij" [(ESlice (EVar "g_abab") [SV "o"; SV "o"; SV "v"; SV "v"]); (EVar "l2_abab"); (EVar "t2_aaaa"); (EVar "t2_abab"); (EVar "t2_abab")]));
   (*L1101*) SAug true "double_res" (EAdd (EScale (1 # 1) (EVar "contracted_intermediate")) (EScale (-1 # 1) (EEins "abij->abji" [(EVar "contracted_intermediate")])));
   (*L1104*) SAssign "contracted_intermediate" (EScale (1 # 4) (EEins "nmef,kldc,aejl,bfik,dcnm->abij" [(ESlice (EVar "g_bbbb") [SV "o"; SV "o"; SV "v"; SV "v"]); (EVar "l2_bbbb"); (EVar "t2_abab"); (EVar "t2_abab"); (EVar "t2_bbbb")]));
   (*L1105*) SAug true "double_res" (EAdd (EScale (1 # 1) (EVar "contracted_intermediate")) (EScale (-1 # 1) (EEins "abij->abji" [(EVar "contracted_intermediate")])));
   (*L1108*) SAssign "contracted_intermediate" (EScale (1 # 4) (EEins "nmef,kldc,eajk,dbim,fcln->abij" [(ESlice (EVar "g_aaaa") [SV "o"; SV "o"; SV "v"; SV "v"]); (EVar "l2_aaaa"); (EVar "t2_aaaa"); (EVar "t2_aaaa"); (EVar "t2_aaaa")]));
   (*L1109*) SAug true "double_res" (EAdd (EAdd (EAdd (EScale (1 # 1) (EVar "contracted_intermediate")) (EScale (-1 # 1) (EEins "abij->abji" [(EVar "contracted_intermediate")]))) (EScale (-1 # 1) (EEins "abij->baij" [(EVar "contracted_intermediate")]))) (EScale (1 # 1) (EEins "abij->baji" [(EVar "contracted_intermediate")])));
   (*L1112*) SAssign "contracted_intermediate" (EScale (1 # 4) (EEins "mnef,kldc,eajk,dbim,cfln->abij" [(ESlice (EVar "g_abab") [SV "o"; SV "o"; SV "v"; SV "v"]); (EVar "l2_aaaa"); (EVar "t2_aaaa"); (EVar "t2_aaaa"); (EVar "t2_abab")]));
   (*L1113*) SAug true "double_res" (EAdd (EAdd (EAdd (EScale (1 # 1) (EVar "contracted_intermediate")) (EScale (-1 # 1) (EEins "abij->abji" [(EVar "contracted_intermediate")]))) (EScale (-1 # 1) (EEins "abij->baij" [(EVar "contracted_intermediate")]))) (EScale (1 # 1) (EEins "abij->baji" [(EVar "contracted_intermediate")])));
   (*L1116*) SAssign "contracted_intermediate" (EScale (-1 # 4) (EEins "nmef,kldc,eajk,dbim,fcnl->abij" [(ESlice (EVar "g_aaaa") [SV "o"; SV "o"; SV "v"; SV "v"]); (EVar "l2_abab"); (EVar "t2_aaaa"); (EVar "t2_aaaa"); (EVar "t2_abab")]));
   (*L1117*) SAug true "double_res" (EAdd (EAdd (EAdd (EScale (1 # 1) (EVar "contracted_intermediate")) (EScale (-1 # 1) (EEins "abij->abji" [(EVar "contracted_intermediate")]))) (EScale (-1 # 1) (EEins "abij->baij" [(EVar "contracted_intermediate")]))) (EScale (1 # 1) (EEins "abij->baji" [(EVar "contracted_intermediate")])));
   (*L1120*) SAssign "contracted_intermediate" (EScale (-1 # 4) (EEins "mnef,kldc,eajk,dbim,fcln->abij" [(ESlice (EVar "g_abab") [SV "o"; SV "o"; SV "v"; SV "v"]); (EVar "l2_abab"); (EVar "t2_aaaa"); (EVar "t2_aaaa"); (EVar "t2_bbbb")]));
   (*L1121*) SAug true "double_res" (EAdd (EAdd (EAdd (EScale (1 # 1) (EVar "contracted_intermediate")) (EScale (-1 # 1) (EEins "abij->abji" [(EVar "contracted_intermediate")]))) (EScale (-1 # 1) (EEins "abij->baij" [(EVar "contracted_intermediate")]))) (EScale (1 # 1) (EEins "abij->baji" [(EVar "contracted_intermediate")])));
   (*L1124*) SAssign "contracted_intermediate" (EScale (1 # 4) (EEins "nmef,klcd,eajk,bdim,cfnl->abij" [(ESlice (EVar "g_abab") [SV "o"; SV "o"; SV "v"; SV "v"]); (EVar "l2_abab"); (EVar "t2_aaaa"); (EVar "t2_abab"); (EVar "t2_abab")]));
   (*L1125*) SAug true "double_res" (EAdd (EAdd (EAdd (EScale (1 # 1) (EVar "contracted_intermediate")) (EScale (-1 # 1) (EEins "abij->abji" [(EVar "contracted_intermediate")]))) (EScale (-1 # 1) (EEins "abij->baij" [(EVar "contracted_intermediate")]))) (EScale (1 # 1) (EEins "abij->baji" [(EVar "contracted_intermediate")])));
   (*L1128*) SAssign "contracted_intermediate" (EScale (1 # 4) (EEins "mnfe,lkdc,aejk,dbim,fcln->abij" [(ESlice (EVar "g_abab") [SV "o"; SV "o"; SV "v"; SV "v"]); (EVar "l2_abab"); (EVar "t2_abab"); (EVar "t2_aaaa"); (EVar "t2_abab")]));
   (*L1129*) SAug true "double_res" (EAdd (EAdd (EAdd (EScale (1 # 1) (EVar "contracted_intermediate")) (EScale (-1 # 1) (EEins "abij->abji" [(EVar "contracted_intermediate")]))) (EScale (-1 # 1) (EEins "abij->baij" [(EVar "contracted_intermediate")]))) (EScale (1 # 1) (EEins "abij->baji" [(EVar "contracted_intermediate")])));
   (*L1132*) SAssign "contracted_intermediate" (EScale (-1 # 4) (EEins "nmfe,lkcd,aejk,bdim,fcln->abij" [(ESlice (EVar "g_abab") [SV "o"; SV "o"; SV "v"; SV "v"]); (EVar "l2_abab"); (EVar "t2_abab"); (EVar "t2_abab"); (EVar "t2_aaaa")]));
   (*L1133*) SAug true "double_res" (EAdd (EAdd (EAdd (EScale (1 # 1) (EVar "contracted_intermediate")) (EScale (-1 # 1) (EEins "abij->abji" [(EVar "contracted_intermediate")]))) (EScale (-1 # 1) (EEins "abij->baij" [(EVar "contracted_intermediate")]))) (EScale (1 # 1) (EEins "abij->baji" [(EVar "contracted_intermediate")])));
   (*L1136*) SAssign "contracted_intermediate" (EScale (-1 # 4) (EEins "nmef,lkcd,aejk,bdim,cfln->abij" [(ESlice (EVar "g_bbbb") [SV "o"; SV "o"; SV "v"; SV "v"]); (EVar "l2_abab"); (EVar "t2_abab"); (EVar "t2_abab"); (EVar "t2_abab")]));
   (*L1137*) SAug true "double_res" (EAdd (EAdd (EAdd (EScale (1 # 1) (EVar "contracted_intermediate")) (EScale (-1 # 1) (EEins "abij->abji" [(EVar "contracted_intermediate")]))) (EScale (-1 # 1) (EEins "abij->baij" [(EVar "contracted_intermediate")]))) (EScale (1 # 1) (EEins "abij->baji" [(EVar "contracted_intermediate")])));
   (*L1140*) SAssign "contracted_intermediate" (EScale (1 # 4) (EEins "nmfe,kldc,aejk,bdim,fcnl->abij" [(ESlice (EVar "g_abab") [SV "o"; SV "o"; SV "v"; SV "v"]); (EVar "l2_bbbb"); (EVar "t2_abab"); (EVar "t2_abab"); (EVar "t2_abab")]));
   (*L1141*) SAug true "double_res" (EAdd (EAdd (EAdd (EScale (1 # 1) (EVar "contracted_intermediate")) (EScale (-1 # 1) (EEins "abij->abji" [(EVar "contracted_intermediate")]))) (EScale (-1 # 1) (EEins "abij->baij" [(EVar "contracted_intermediate")]))) (EScale (1 # 1) (EEins "abij->baji" [(EVar "contracted_intermediate")])));
   (*L1144*) SAssign "contracted_intermediate" (EScale (1 # 4) (EEins "nmef,kldc,aejk,bdim,fcln->abij" [(ESlice (EVar "g_bbbb") [SV "o"; SV "o"; SV "v"; SV "v"]); (EVar "l2_bbbb"); (EVar "t2_abab"); (EVar "t2_abab"); (EVar "t2_bbbb")]));
   (*L1145*) SAug true "double_res" (EAdd (EAdd (EAdd (EScale (1 # 1) (EVar "contracted_intermediate")) (EScale (-1 # 1) (EEins "abij->abji" [(EVar "contracted_intermediate")]))) (EScale (-1 # 1) (EEins "abij->baij" [(EVar "contracted_intermediate")]))) (EScale (1 # 1) (EEins "abij->baji" [(EVar "contracted_intermediate")])));
   (*L1148*) SAug true "double_res" (EScale (1 # 2) (EEins "nmef,kldc,eaij,fblm,dckn->abij" [(ESlice (EVar "g_aaaa") [SV "o"; SV "o"; SV "v"; SV "v"]); (EVar "l2_aaaa"); (EVar "t2_aaaa"); (EVar "t2_aaaa"); (EVar "t2_aaaa")]));
   (*L1151*) SAug true "double_res" (EScale (-1 # 2) (EEins "nmef,kldc,eaij,bflm,dckn->abij" [(ESlice (EVar "g_abab") [SV "o"; SV "o"; SV "v"; SV "v"]); (EVar "l2_aaaa"); (EVar "t2_aaaa"); (EVar "t2_abab"); (EVar "t2_aaaa")]));
   (*L1154*) SAug true "double_res" (EScale (-1 # 2) (EEins "mnef,kldc,eaij,bfml,dckn->abij" [(ESlice (EVar "g_abab") [SV "o"; SV "o"; SV "v"; SV "v"]); (EVar "l2_abab"); (EVar "t2_aaaa"); (EVar "t2_abab"); (EVar "t2_abab")]));
   (*L1157*) SAug true "double_res" (EScale (-1 # 2) (EEins "mnef,klcd,eaij,bfml,cdkn->abij" [(ESlice (EVar "g_abab") [SV "o"; SV "o"; SV "v"; SV "v"]); (EVar "l2_abab"); (EVar "t2_aaaa"); (EVar "t2_abab"); (EVar "t2_abab")]));
   (*L1160*) SAug true "double_res" (EScale (1 # 2) (EEins "nmef,lkdc,eaij,fblm,dcnk->abij" [(ESlice (EVar "g_aaaa") [SV "o"; SV "o"; SV "v"; SV "v"]); (EVar "l2_abab"); (EVar "t2_aaaa"); (EVar "t2_aaaa"); (EVar "t2_abab")]));
   (*L1163*) SAug true "double_res" (EScale (-1 # 2) (EEins "nmef,lkdc,eaij,bflm,dcnk->abij" [(ESlice (EVar "g_abab") [SV "o"; SV "o"; SV "v"; SV "v"]); (EVar "l2_abab"); (EVar "t2_aaaa"); (EVar "t2_abab"); (EVar "t2_abab")]));
   (*L1166*) SAug true "double_res" (EScale (1 # 2) (EEins "nmef,lkcd,eaij,fblm,cdnk->abij" [(ESlice (EVar "g_aaaa") [SV "o"; SV "o"; SV "v"; SV "v"]); (EVar "l2_abab"); (EVar "t2_aaaa"); (EVar "t2_aaaa"); (EVar "t2_abab")]));
   (*L1169*) SAug true "double_res" (EScale (-1 # 2) (EEins "nmef,lkcd,eaij,bflm,cdnk->abij" [(ESlice (EVar "g_abab") [SV "o"; SV "o"; SV "v"; SV "v"]); (EVar "l2_abab"); (EVar "t2_aaaa"); (EVar "t2_abab"); (EVar "t2_abab")]));
   (*L1172*) SAug true "double_res" (EScale (-1 # 2) (EEins "mnef,kldc,eaij,bfml,dckn->abij" [(ESlice (EVar "g_abab") [SV "o"; SV "o"; SV "v"; SV "v"]); (EVar "l2_bbbb"); (EVar "t2_aaaa"); (EVar "t2_abab"); (EVar "t2_bbbb")]));
   (*L1175*) SAug true "double_res" (EScale (-1 # 8) (EEins "nmef,kldc,eaij,fbkl,dcnm->abij" [(ESlice (EVar "g_aaaa") [SV "o"; SV "o"; SV "v"; SV "v"]); (EVar "l2_aaaa"); (EVar "t2_aaaa"); (EVar "t2_aaaa"); (EVar "t2_aaaa")]));
   (*L1178*) SAug true "double_res" (EScale (1 # 8) (EEins "nmef,kldc,eaij,bfkl,dcnm->abij" [(ESlice (EVar "g_abab") [SV "o"; SV "o"; SV "v"; SV "v"]); (EVar "l2_abab"); (EVar "t2_aaaa"); (EVar "t2_abab"); (EVar "t2_abab")]));
   (*L1181*) SAug true "double_res" (EScale (1 # 8) (EEins "mnef,kldc,eaij,bfkl,dcmn->abij" [(ESlice (EVar "g_abab") [SV "o"; SV "o"; SV "v"; SV "v"]); (EVar "l2_abab"); (EVar "t2_aaaa"); (EVar "t2_abab"); (EVar "t2_abab")]));
   (*L1184*) SAug true "double_res" (EScale (1 # 8) (EEins "nmef,klcd,eaij,bfkl,cdnm->abij" [(ESlice (EVar "g_abab") [SV "o"; SV "o"; SV "v"; SV "v"]); (EVar "l2_abab"); (EVar "t2_aaaa"); (EVar "t2_abab"); (EVar "t2_abab")]));
   (*L1187*) SAug true "double_res" (EScale (1 # 8) (EEins "mnef,klcd,eaij,bfkl,cdmn->abij" [(ESlice (EVar "g_abab") [SV "o"; SV "o"; SV "v"; SV "v"]); (EVar "l2_abab"); (EVar "t2_aaaa"); (EVar "t2_abab"); (EVar "t2_abab")]));
   (*L1190*) SAug true "double_res" (EScale (1 # 8) (EEins "nmef,lkdc,eaij,bflk,dcnm->abij" [(ESlice (EVar "g_abab") [SV "o"; SV "o"; SV "v"; SV "v"]); (EVar "l2_abab"); (EVar "t2_aaaa"); (EVar "t2_abab"); (EVar "t2_abab")]));
   (*L1193*) SAug true "double_res" (EScale (1 # 8) (EEins "mnef,lkdc,eaij,bflk,dcmn->abij" [(ESlice (EVar "g_abab") [SV "o"; SV "o"; SV "v"; SV "v"]); (EVar "l2_abab"); (EVar "t2_aaaa"); (EVar "t2_abab"); (EVar "t2_abab")]));
   (*L1196*) SAug true "double_res" (EScale (1 # 8) (EEins "nmef,lkcd,eaij,bflk,cdnm->abij" [(ESlice (EVar "g_abab") [SV "o"; SV "o"; SV "v"; SV "v"]); (EVar "l2_abab"); (EVar "t2_aaaa"); (EVar "t2_abab"); (EVar "t2_abab")]));
   (*L1199*) SAug true "double_res" (EScale (1 # 8) (EEins "mnef,lkcd,eaij,bflk,cdmn->abij" [(ESlice (EVar "g_abab") [SV "o"; SV "o"; SV "v"; SV "v"]); (EVar "l2_abab"); (EVar "t2_aaaa"); (EVar "t2_abab"); (EVar "t2_abab")]));
   (*L1202*) SAssign "contracted_intermediate" (EScale (-1 # 8) (EEins "nmef,kldc,ebjk,dclm,fain->abij" [(ESlice (EVar "g_aaaa") [SV "o"; SV "o"; SV "v"; SV "v"]); (EVar "l2_aaaa"); (EVar "t2_aaaa"); (EVar "t2_aaaa"); (EVar "t2_aaaa")]));
   (*L1203*) SAug true "double_res" (EAdd (EScale (1 # 1) (EVar "contracted_intermediate")) (EScale (-1 # 1) (EEins "abij->abji" [(EVar "contracted_intermediate")])));
   (*L1206*) SAssign "contracted_intermediate" (EScale (-1 # 8) (EEins "mnef,kldc,ebjk,dclm,afin->abij" [(ESlice (EVar "g_abab") [SV "o"; SV "o"; SV "v"; SV "v"]); (EVar "l2_aaaa"); (EVar "t2_aaaa"); (EVar "t2_aaaa"); (EVar "t2_abab")]));
   (*L1207*) SAug true "double_res" (EAdd (EScale (1 # 1) (EVar "contracted_intermediate")) (EScale (-1 # 1) (EEins "abij->abji" [(EVar "contracted_intermediate")])));
   (*L1210*) SAssign "contracted_intermediate" (EScale (1 # 8) (EEins "nmef,kldc,ebjk,dcml,fain->abij" [(ESlice (EVar "g_aaaa") [SV "o"; SV "o"; SV "v"; SV "v"]); (EVar "l2_abab"); (EVar "t2_aaaa"); (EVar "t2_abab"); (EVar "t2_aaaa")]));
   (*L1211*) SAug true "double_res" (EAdd (EScale (1 # 1) (EVar "contracted_intermediate")) (EScale (-1 # 1) (EEins "abij->abji" [(EVar "contracted_intermediate")])));
   (*L1214*) SAssign "contracted_intermediate" (EScale (1 # 8) (EEins "mnef,kldc,ebjk,dcml,afin->abij" [(ESlice (EVar "g_abab") [SV "o"; SV "o"; SV "v"; SV "v"]); (EVar "l2_abab"); (EVar "t2_aaaa"); (EVar "t2_abab"); (EVar "t2_abab")]));
   (*L1215*) SAug true "double_res" (EAdd (EScale (1 # 1) (EVar "contracted_intermediate")) (EScale (-1 # 1) (EEins "abij->abji" [(EVar "contracted_intermediate")])));
   (*L1218*) SAssign "contracted_intermediate" (EScale (1 # 8) (EEins "nmef,klcd,ebjk,cdml,fain->abij" [(ESlice (EVar "g_aaaa") [SV "o"; SV "o"; SV "v"; SV "v"]); (EVar "l2_abab"); (EVar "t2_aaaa"); (EVar "t2_abab"); (EVar "t2_aaaa")]));
   (*L1219*) SAug true "double_res" (EAdd (EScale (1 # 1) (EVar "contracted_intermediate")) (EScale (-1 # 1) (EEins "abij->abji" [(EVar "contracted_intermediate")])));
   (*L1222*) SAssign "contracted_intermediate" (EScale (1 # 8) (EEins "mnef,klcd,ebjk,cdml,afin->abij" [(ESlice (EVar "g_abab") [SV "o"; SV "o"; SV "v"; SV "v"]); (EVar "l2_abab"); (EVar "t2_aaaa"); (EVar "t2_abab"); (EVar "t2_abab")]));
   (*L1223*) SAug true "double_res" (EAdd (EScale (1 # 1) (EVar "contracted_intermediate")) (EScale (-1 # 1) (EEins "abij->abji" [(EVar "contracted_intermediate")])));
   (*L1226*) SAssign "contracted_intermediate" (EScale (1 # 8) (EEins "nmfe,lkdc,bejk,dclm,fain->abij" [(ESlice (EVar "g_abab") [SV "o"; SV "o"; SV "v"; SV "v"]); (EVar "l2_abab"); (EVar "t2_abab"); (EVar "t2_abab"); (EVar "t2_aaaa")]));
   (*L1227*) SAug true "double_res" (EAdd (EScale (1 # 1) (EVar "contracted_intermediate")) (EScale (-1 # 1) (EEins "abij->abji" [(EVar "contracted_intermediate")])));
   (*L1230*) SAssign "contracted_intermediate" (EScale (1 # 8) (EEins "nmef,lkdc,bejk,dclm,afin->abij" [(ESlice (EVar "g_bbbb") [SV "o"; SV "o"; SV "v"; SV "v"]); (EVar "l2_abab"); (EVar "t2_abab"); (EVar "t2_abab"); (EVar "t2_abab")]));
   (*L1231*) SAug true "double_res" (EAdd (EScale (1 # 1) (EVar "contracted_intermediate")) (EScale (-1 # 1) (EEins "abij->abji" [(EVar "contracted_intermediate")])));
   (*L1234*) SAssign "contracted_intermediate" (EScale (1 # 8) (EEins "nmfe,lkcd,bejk,cdlm,fain->abij" [(ESlice (EVar "g_abab") [SV "o"; SV "o"; SV "v"; SV "v"]); (EVar "l2_abab"); (EVar "t2_abab"); (EVar "t2_abab"); (EVar "t2_aaaa")]));
   (*L1235*) SAug true "double_res" (EAdd (EScale (1 # 1) (EVar "contracted_intermediate")) (EScale (-1 # 1) (EEins "abij->abji" [(EVar "contracted_intermediate")])));
   (*L1238*) SAssign "contracted_intermediate" (EScale (1 # 8) (EEins "nmef,lkcd,bejk,cdlm,afin->abij" [(ESlice (EVar "g_bbbb") [SV "o"; SV "o"; SV "v"; SV "v"]); (EVar "l2_abab"); (EVar "t2_abab"); (EVar "t2_abab"); (EVar "t2_abab")]));
   (*L1239*) SAug true "double_res" (EAdd (EScale (1 # 1) (EVar "contracted_intermediate")) (EScale (-1 # 1) (EEins "abij->abji" [(EVar "contracted_intermediate")])));
   (*L1242*) SAssign "contracted_intermediate" (EScale (-1 # 8) (EEins "nmfe,kldc,bejk,dclm,fain->abij" [(ESlice (EVar "g_abab") [SV "o"; SV "o"; SV "v"; SV "v"]); (EVar "l2_bbbb"); (EVar "t2_abab"); (EVar "t2_bbbb"); (EVar "t2_aaaa")]));
   (*L1243*) SAug true "double_res" (EAdd (EScale (1 # 1) (EVar "contracted_intermediate")) (EScale (-1 # 1) (EEins "abij->abji" [(EVar "contracted_intermediate")])));
   (*L1246*) SAssign "contracted_intermediate" (EScale (-1 # 8) (EEins "nmef,kldc,bejk,dclm,afin->abij" [(ESlice (EVar "g_bbbb") [SV "o"; SV "o"; SV "v"; SV "v"]); (EVar "l2_bbbb"); (EVar "t2_abab"); (EVar "t2_bbbb"); (EVar "t2_abab")]));
   (*L1247*) SAug true "double_res" (EAdd (EScale (1 # 1) (EVar "contracted_intermediate")) (EScale (-1 # 1) (EEins "abij->abji" [(EVar "contracted_intermediate")])));
   (*L1250*) SAug true "double_res" (EScale (-1 # 8) (EEins "nmef,kldc,ebij,dclm,fakn->abij" [(ESlice (EVar "g_aaaa") [SV "o"; SV "o"; SV "v"; SV "v"]); (EVar "l2_aaaa"); (EVar "t2_aaaa"); (EVar "t2_aaaa"); (EVar "t2_aaaa")]));
   (*L1253*) SAug true "double_res" (EScale (-1 # 8) (EEins "mnef,kldc,ebij,dclm,afkn->abij" [(ESlice (EVar "g_abab") [SV "o"; SV "o"; SV "v"; SV "v"]); (EVar "l2_aaaa"); (EVar "t2_aaaa"); (EVar "t2_aaaa"); (EVar "t2_abab")]));
   (*L1256*) SAug true "double_res" (EScale (1 # 8) (EEins "nmef,kldc,ebij,dcml,fakn->abij" [(ESlice (EVar "g_aaaa") [SV "o"; SV "o"; SV "v"; SV "v"]); (EVar "l2_abab"); (EVar "t2_aaaa"); (EVar "t2_abab"); (EVar "t2_aaaa")]));
   (*L1259*) SAug true "double_res" (EScale (1 # 8) (EEins "mnef,kldc,ebij,dcml,afkn->abij" [(ESlice (EVar "g_abab") [SV "o"; SV "o"; SV "v"; SV "v"]); (EVar "l2_abab"); (EVar "t2_aaaa"); (EVar "t2_abab"); (EVar "t2_abab")]));
   (*L1262*) SAug true "double_res" (EScale (1 # 8) (EEins "nmef,klcd,ebij,cdml,fakn->abij" [(ESlice (EVar "g_aaaa") [SV "o"; SV "o"; SV "v"; SV "v"]); (EVar "l2_abab"); (EVar "t2_aaaa"); (EVar "t2_abab"); (EVar "t2_aaaa")]));
   (*L1265*) SAug true "double_res" (EScale (1 # 8) (EEins "mnef,klcd,ebij,cdml,afkn->abij" [(ESlice (EVar "g_abab") [SV "o"; SV "o"; SV "v"; SV "v"]); (EVar "l2_abab"); (EVar "t2_aaaa"); (EVar "t2_abab"); (EVar "t2_abab")]));
   (*L1268*) SAug true "double_res" (EScale (1 # 8) (EEins "nmef,lkdc,ebij,dclm,afnk->abij" [(ESlice (EVar "g_abab") [SV "o"; SV "o"; SV "v"; SV "v"]); (EVar "l2_abab"); (EVar "t2_aaaa"); (EVar "t2_abab"); (EVar "t2_abab")]));
   (*L1271*) SAug true "double_res" (EScale (1 # 8) (EEins "nmef,lkcd,ebij,cdlm,afnk->abij" [(ESlice (EVar "g_abab") [SV "o"; SV "o"; SV "v"; SV "v"]); (EVar "l2_abab"); (EVar "t2_aaaa"); (EVar "t2_abab"); (EVar "t2_abab")]));
   (*L1274*) SAug true "double_res" (EScale (-1 # 8) (EEins "nmef,kldc,ebij,dclm,afnk->abij" [(ESlice (EVar "g_abab") [SV "o"; SV "o"; SV "v"; SV "v"]); (EVar "l2_bbbb"); (EVar "t2_aaaa"); (EVar "t2_bbbb"); (EVar "t2_abab")]));
   (*L1277*) SAssign "contracted_intermediate" (EScale (-8333333333333 # 100000000000000) (EEins "nmef,kldc,dajm,ebkn,fcil->abij" [(ESlice (EVar "g_aaaa") [SV "o"; SV "o"; SV "v"; SV "v"]); (EVar "l2_aaaa"); (EVar "t2_aaaa"); (EVar "t2_aaaa"); (EVar "t2_aaaa")]));
   (*L1278*) SAug true "double_res" (EAdd (EAdd (EAdd (EScale (1 # 1) (EVar "contracted_intermediate")) (EScale (-1 # 1) (EEins "abij->abji" [(EVar "contracted_intermediate")]))) (EScale (-1 # 1) (EEins "abij->baij" [(EVar "contracted_intermediate")]))) (EScale (1 # 1) (EEins "abij->baji" [(EVar "contracted_intermediate")])));
   (*L1281*) SAssign "contracted_intermediate" (EScale (8333333333333 # 100000000000000) (EEins "mnfe,kldc,dajm,bekn,fcil->abij" [(ESlice (EVar "g_abab") [SV "o"; SV "o"; SV "v"; SV "v"]); (EVar "l2_aaaa"); (EVar "t2_aaaa"); (EVar "t2_abab"); (EVar "t2_aaaa")]));
   (*L1282*) SAug true "double_res" (EAdd (EAdd (EAdd (EScale (1 # 1) (EVar "contracted_intermediate")) (EScale (-1 # 1) (EEins "abij->abji" [(EVar "contracted_intermediate")]))) (EScale (-1 # 1) (EEins "abij->baij" [(EVar "contracted_intermediate")]))) (EScale (1 # 1) (EEins "abij->baji" [(EVar "contracted_intermediate")])));
   (*L1285*) SAssign "contracted_intermediate" (EScale (-8333333333333 # 100000000000000) (EEins "nmef,kldc,dajm,ebkn,fcil->abij" [(ESlice (EVar "g_aaaa") [SV "o"; SV "o"; SV "v"; SV "v"]); (EVar "l2_abab"); (EVar "t2_aaaa"); (EVar "t2_aaaa"); (EVar "t2_abab")]));
   (*L1286*) SAug true "double_res" (EAdd (EAdd (EAdd (EScale (1 # 1) (EVar "contracted_intermediate")) (EScale (-1 # 1) (EEins "abij->abji" [(EVar "contracted_intermediate")]))) (EScale (-1 # 1) (EEins "abij->baij" [(EVar "contracted_intermediate")]))) (EScale (1 # 1) (EEins "abij->baji" [(EVar "contracted_intermediate")])));
   (*L1289*) SAssign "contracted_intermediate" (EScale (8333333333333 # 100000000000000) (EEins "mnfe,kldc,dajm,bekn,fcil->abij" [(ESlice (EVar "g_abab") [SV "o"; SV "o"; SV "v"; SV "v"]); (EVar "l2_abab"); (EVar "t2_aaaa"); (EVar "t2_abab"); (EVar "t2_abab")]));
   (*L1290*) SAug true "double_res" (EAdd (EAdd (EAdd (EScale (1 # 1) (EVar "contracted_intermediate")) (EScale (-1 # 1) (EEins "abij->abji" [(EVar "contracted_intermediate")]))) (EScale (-1 # 1) (EEins "abij->baij" [(EVar "contracted_intermediate")]))) (EScale (1 # 1) (EEins "abij->baji" [(EVar "contracted_intermediate")])));
   (*L1293*) SAssign "contracted_intermediate" (EScale (8333333333333 # 100000000000000) (EEins "nmef,klcd,adjm,ebkn,cfil->abij" [(ESlice (EVar "g_abab") [SV "o"; SV "o"; SV "v"; SV "v"]); (EVar "l2_abab"); (EVar "t2_abab"); (EVar "t2_aaaa"); (EVar "t2_abab")]));
   (*L1294*) SAug true "double_res" (EAdd (EAdd (EAdd (EScale (1 # 1) (EVar "contracted_intermediate")) (EScale (-1 # 1) (EEins "abij->abji" [(EVar "contracted_intermediate")]))) (EScale (-1 # 1) (EEins "abij->baij" [(EVar "contracted_intermediate")]))) (EScale (1 # 1) (EEins "abij->baji" [(EVar "contracted_intermediate")])));
   (*L1297*) SAssign "contracted_intermediate" (EScale (-8333333333333 # 100000000000000) (EEins "nmef,klcd,adjm,bekn,cfil->abij" [(ESlice (EVar "g_bbbb") [SV "o"; SV "o"; SV "v"; SV "v"]); (EVar "l2_abab"); (EVar "t2_abab"); (EVar "t2_abab"); (EVar "t2_abab")]));
   (*L1298*) SAug true "double_res" (EAdd (EAdd (EAdd (EScale (1 # 1) (EVar "contracted_intermediate")) (EScale (-1 # 1) (EEins "abij->abji" [(EVar "contracted_intermediate")]))) (EScale (-1 # 1) (EEins "abij->baij" [(EVar "contracted_intermediate")]))) (EScale (1 # 1) (EEins "abij->baji" [(EVar "contracted_intermediate")])));
   (*L1301*) SAssign "contracted_intermediate" (EScale (-8333333333333 # 100000000000000) (EEins "nmfe,lkcd,adjm,benk,fcil->abij" [(ESlice (EVar "g_abab") [SV "o"; SV "o"; SV "v"; SV "v"]); (EVar "l2_abab"); (EVar "t2_abab"); (EVar "t2_abab"); (EVar "t2_aaaa")]));
   (*L1302*) SAug true "double_res" (EAdd (EAdd (EAdd (EScale (1 # 1) (EVar "contracted_intermediate")) (EScale (-1 # 1) (EEins "abij->abji" [(EVar "contracted_intermediate")]))) (EScale (-1 # 1) (EEins "abij->baij" [(EVar "contracted_intermediate")]))) (EScale (1 # 1) (EEins "abij->baji" [(EVar "contracted_intermediate")])));
   (*L1305*) SAssign "contracted_intermediate" (EScale (-8333333333333 # 100000000000000) (EEins "nmfe,kldc,adjm,benk,fcil->abij" [(ESlice (EVar "g_abab") [SV "o"; SV "o"; SV "v"; SV "v"]); (EVar "l2_bbbb"); (EVar "t2_abab"); (EVar "t2_abab"); (EVar "t2_abab")]));
   (*L1306*) SAug true "double_res" (EAdd (EAdd (EAdd (EScale (1 # 1) (EVar "contracted_intermediate")) (EScale (-1 # 1) (EEins "abij->abji" [(EVar "contracted_intermediate")]))) (EScale (-1 # 1) (EEins "abij->baij" [(EVar "contracted_intermediate")]))) (EScale (1 # 1) (EEins "abij->baji" [(EVar "contracted_intermediate")])))]
  (*L1308*) (EVar "double_res").

(** /repo/UT2/modify_T2resid_T4Qf2.py:1311-2614  def residQf2_bbbb *)
Definition residQf2_bbbb : fn := mkFn
  ["g"; "l2"; "t2"; "o"; "v"]
  [(*L1313*) SAssign "g_aaaa" (EItem (EVar "g") "aaaa");
   (*L1314*) SAssign "g_bbbb" (EItem (EVar "g") "bbbb");
   (*L1315*) SAssign "g_abab" (EItem (EVar "g") "abab");
   (*L1317*) SAssign "l2_aaaa" (EItem (EVar "l2") "aaaa");
   (*L1318*) SAssign "l2_bbbb" (EItem (EVar "l2") "bbbb");
   (*L1319*) SAssign "l2_abab" (EItem (EVar "l2") "abab");
   (*L1321*) SAssign "t2_aaaa" (EItem (EVar "t2") "aaaa");
   (*L1322*) SAssign "t2_bbbb" (EItem (EVar "t2") "bbbb");
   (*L1323*) SAssign "t2_abab" (EItem (EVar "t2") "abab");
   (*L1326*) SAssign "contracted_intermediate" (EScale (-1 # 8) (EEins "mnef,kldc,efkl,dcmj,abin->abij" [(ESlice (EVar "g_abab") [SV "o"; SV "o"; SV "v"; SV "v"]); (EVar "l2_abab"); (EVar "t2_abab"); (EVar "t2_abab"); (EVar "t2_bbbb")]));
   (*L1327*) SAssign "double_res" (EAdd (EScale (1 # 1) (EVar "contracted_intermediate")) (EScale (-1 # 1) (EEins "abij->abji" [(EVar "contracted_intermediate")])));
   (*L1330*) SAssign "contracted_intermediate" (EScale (-1 # 8) (EEins "mnfe,kldc,fekl,dcmj,abin->abij" [(ESlice (EVar "g_abab") [SV "o"; SV "o"; SV "v"; SV "v"]); (EVar "l2_abab"); (EVar "t2_abab"); (EVar "t2_abab"); (EVar "t2_bbbb")]));
   (*L1331*) SAug true "double_res" (EAdd (EScale (1 # 1) (EVar "contracted_intermediate")) (EScale (-1 # 1) (EEins "abij->abji" [(EVar "contracted_intermediate")])));
   (*L1334*) SAssign "contracted_intermediate" (EScale (-1 # 8) (EEins "mnef,klcd,efkl,cdmj,abin->abij" [(ESlice (EVar "g_abab") [SV "o"; SV "o"; SV "v"; SV "v"]); (EVar "l2_abab"); (EVar "t2_abab"); (EVar "t2_abab"); (EVar "t2_bbbb")]));
   (*L1335*) SAug true "double_res" (EAdd (EScale (1 # 1) (EVar "contracted_intermediate")) (EScale (-1 # 1) (EEins "abij->abji" [(EVar "contracted_intermediate")])));
   (*L1338*) SAssign "contracted_intermediate" (EScale (-1 # 8) (EEins "mnfe,klcd,fekl,cdmj,abin->abij" [(ESlice (EVar "g_abab") [SV "o"; SV "o"; SV "v"; SV "v"]); (EVar "l2_abab"); (EVar "t2_abab"); (EVar "t2_abab"); (EVar "t2_bbbb")]));
   (*L1339*) SAug true "double_res" (EAdd (EScale (1 # 1) (EVar "contracted_intermediate")) (EScale (-1 # 1) (EEins "abij->abji" [(EVar "contracted_intermediate")])));
   (*L1342*) SAssign "contracted_intermediate" (EScale (-1 # 8) (EEins "mnef,lkdc,eflk,dcmj,abin->abij" [(ESlice (EVar "g_abab") [SV "o"; SV "o"; SV "v"; SV "v"]); (EVar "l2_abab"); (EVar "t2_abab"); (EVar "t2_abab"); (EVar "t2_bbbb")]));
   (*L1343*) SAug true "double_res" (EAdd (EScale (1 # 1) (EVar "contracted_intermediate")) (EScale (-1 # 1) (EEins "abij->abji" [(EVar "contracted_intermediate")])));
   (*L1346*) SAssign "contracted_intermediate" (EScale (-1 # 8) (EEins "mnfe,lkdc,felk,dcmj,abin->abij" [(ESlice (EVar "g_abab") [SV "o"; SV "o"; SV "v"; SV "v"]); (EVar "l2_abab"); (EVar "t2_abab"); (EVar "t2_abab"); (EVar "t2_bbbb")]));
   (*L1347*) SAug true "double_res" (EAdd (EScale (1 # 1) (EVar "contracted_intermediate")) (EScale (-1 # 1) (EEins "abij->abji" [(EVar "contracted_intermediate")])));
   (*L1350*) SAssign "contracted_intermediate" (EScale (-1 # 8) (EEins "mnef,lkcd,eflk,cdmj,abin->abij" [(ESlice (EVar "g_abab") [SV "o"; SV "o"; SV "v"; SV "v"]); (EVar "l2_abab"); (EVar "t2_abab"); (EVar "t2_abab"); (EVar "t2_bbbb")]));
   (*L1351*) SAug true "double_res" (EAdd (EScale (1 # 1) (EVar "contracted_intermediate")) (EScale (-1 # 1) (EEins "abij->abji" [(EVar "contracted_intermediate")])));
   (*L1354*) SAssign "contracted_intermediate" (EScale (-1 # 8) (EEins "mnfe,lkcd,felk,cdmj,abin->abij" [(ESlice (EVar "g_abab") [SV "o"; SV "o"; SV "v"; SV "v"]); (EVar "l2_abab"); (EVar "t2_abab"); (EVar "t2_abab"); (EVar "t2_bbbb")]));
   (*L1355*) SAug true "double_res" (EAdd (EScale (1 # 1) (EVar "contracted_intermediate")) (EScale (-1 # 1) (EEins "abij->abji" [(EVar "contracted_intermediate")])));
   (*L1358*) SAssign "contracted_intermediate" (EScale (-1 # 8) (EEins "nmef,kldc,efkl,dcjm,abin->abij" [(ESlice (EVar "g_bbbb") [SV "o"; SV "o"; SV "v"; SV "v"]); (EVar "l2_bbbb"); (EVar "t2_bbbb"); (EVar "t2_bbbb"); (EVar "t2_bbbb")]));
   (*L1359*) SAug true "double_res" (EAdd (EScale (1 # 1) (EVar "contracted_intermediate")) (EScale (-1 # 1) (EEins "abij->abji" [(EVar "contracted_intermediate")])));
   (*L1362*) SAssign "contracted_intermediate" (EScale (1 # 4) (EEins "nmef,kldc,efkl,damj,cbni->abij" [(ESlice (EVar "g_aaaa") [SV "o"; SV "o"; SV "v"; SV "v"]); (EVar "l2_aaaa"); (EVar "t2_aaaa"); (EVar "t2_abab"); (EVar "t2_abab")]));
   (*L1363*) SAug true "double_res" (EAdd (EScale (1 # 1) (EVar "contracted_intermediate")) (EScale (-1 # 1) (EEins "abij->abji" [(EVar "contracted_intermediate")])));
   (*L1366*) SAssign "contracted_intermediate" (EScale (1 # 4) (EEins "mnef,kldc,efkl,damj,cbin->abij" [(ESlice (EVar "g_abab") [SV "o"; SV "o"; SV "v"; SV "v"]); (EVar "l2_abab"); (EVar "t2_abab"); (EVar "t2_abab"); (EVar "t2_bbbb")]));
   (*L1367*) SAug true "double_res" (EAdd (EScale (1 # 1) (EVar "contracted_intermediate")) (EScale (-1 # 1) (EEins "abij->abji" [(EVar "contracted_intermediate")])));
   (*L1370*) SAssign "contracted_intermediate" (EScale (1 # 4) (EEins "mnfe,kldc,fekl,damj,cbin->abij" [(ESlice (EVar "g_abab") [SV "o"; SV "o"; SV "v"; SV "v"]); (EVar "l2_abab"); (EVar "t2_abab"); (EVar "t2_abab"); (EVar "t2_bbbb")]));
   (*L1371*) SAug true "double_res" (EAdd (EScale (1 # 1) (EVar "contracted_intermediate")) (EScale (-1 # 1) (EEins "abij->abji" [(EVar "contracted_intermediate")])));
   (*L1374*) SAssign "contracted_intermediate" (EScale (1 # 4) (EEins "nmef,klcd,efkl,dajm,cbni->abij" [(ESlice (EVar "g_abab") [SV "o"; SV "o"; SV "v"; SV "v"]); (EVar "l2_abab"); (EVar "t2_abab"); (EVar "t2_bbbb"); (EVar "t2_abab")]));
   (*L1375*) SAug true "double_res" (EAdd (EScale (1 # 1) (EVar "contracted_intermediate")) (EScale (-1 # 1) (EEins "abij->abji" [(EVar "contracted_intermediate")])));
   (*L1378*) SAssign "contracted_intermediate" (EScale (1 # 4) (EEins "nmfe,klcd,fekl,dajm,cbni->abij" [(ESlice (EVar "g_abab") [SV "o"; SV "o"; SV "v"; SV "v"]); (EVar "l2_abab"); (EVar "t2_abab"); (EVar "t2_bbbb"); (EVar "t2_abab")]));
   (*L1379*) SAug true "double_res" (EAdd (EScale (1 # 1) (EVar "contracted_intermediate")) (EScale (-1 # 1) (EEins "abij->abji" [(EVar "contracted_intermediate")])));
   (*L1382*) SAssign "contracted_intermediate" (EScale (1 # 4) (EEins "mnef,lkdc,eflk,damj,cbin->abij" [(ESlice (EVar "g_abab") [SV "o"; SV "o"; SV "v"; SV "v"]); (EVar "l2_abab"); (EVar "t2_abab"); (EVar "t2_abab"); (EVar "t2_bbbb")]));
   (*L1383*) SAug true "double_res" (EAdd (EScale (1 # 1) (EVar "contracted_intermediate")) (EScale (-1 # 1) (EEins "abij->abji" [(EVar "contracted_intermediate")])));
   (*L1386*) SAssign "contracted_intermediate" (EScale (1 # 4) (EEins "mnfe,lkdc,felk,damj,cbin->abij" [(ESlice (EVar "g_abab") [SV "o"; SV "o"; SV "v"; SV "v"]); (EVar "l2_abab"); (EVar "t2_abab"); (EVar "t2_abab"); (EVar "t2_bbbb")]));
   (*L1387*) SAug true "double_res" (EAdd (EScale (1 # 1) (EVar "contracted_intermediate")) (EScale (-1 # 1) (EEins "abij->abji" [(EVar "contracted_intermediate")])));
   (*L1390*) SAssign "contracted_intermediate" (EScale (1 # 4) (EEins "nmef,lkcd,eflk,dajm,cbni->abij" [(ESlice (EVar "g_abab") [SV "o"; SV "o"; SV "v"; SV "v"]); (EVar "l2_abab"); (EVar "t2_abab"); (EVar "t2_bbbb"); (EVar "t2_abab")]));
   (*L1391*) SAug true "double_res" (EAdd (EScale (1 # 1) (EVar "contracted_intermediate")) (EScale (-1 # 1) (EEins "abij->abji" [(EVar "contracted_intermediate")])));
   (*L1394*) SAssign "contracted_intermediate" (EScale (1 # 4) (EEins "nmfe,lkcd,felk,dajm,cbni->abij" [(ESlice (EVar "g_abab") [SV "o"; SV "o"; SV "v"; SV "v"]); (EVar "l2_abab"); (EVar "t2_abab"); (EVar "t2_bbbb"); (EVar "t2_abab")]));
   (*L1395*) SAug true "double_res" (EAdd (EScale (1 # 1) (EVar "contracted_intermediate")) (EScale (-1 # 1) (EEins "abij->abji" [(EVar "contracted_intermediate")])));
   (*L1398*) SAssign "contracted_intermediate" (EScale (1 # 4) (EEins "nmef,kldc,efkl,dajm,cbin->abij" [(ESlice (EVar "g_bbbb") [SV "o"; SV "o"; SV "v"; SV "v"]); (EVar "l2_bbbb"); (EVar "t2_bbbb"); (EVar "t2_bbbb"); (EVar "t2_bbbb")]));
   (*L1399*) SAug true "double_res" (EAdd (EScale (1 # 1) (EVar "contracted_intermediate")) (EScale (-1 # 1) (EEins "abij->abji" [(EVar "contracted_intermediate")])));
   (*L1402*) SAssign "contracted_intermediate" (EScale (1 # 4) (EEins "mnef,kldc,eflj,dckm,abin->abij" [(ESlice (EVar "g_abab") [SV "o"; SV "o"; SV "v"; SV "v"]); (EVar "l2_aaaa"); (EVar "t2_abab"); (EVar "t2_aaaa"); (EVar "t2_bbbb")]));
   (*L1403*) SAug true "double_res" (EAdd (EScale (1 # 1) (EVar "contracted_intermediate")) (EScale (-1 # 1) (EEins "abij->abji" [(EVar "contracted_intermediate")])));
   (*L1406*) SAssign "contracted_intermediate" (EScale (1 # 4) (EEins "mnfe,kldc,felj,dckm,abin->abij" [(ESlice (EVar "g_abab") [SV "o"; SV "o"; SV "v"; SV "v"]); (EVar "l2_aaaa"); (EVar "t2_abab"); (EVar "t2_aaaa"); (EVar "t2_bbbb")]));
   (*L1407*) SAug true "double_res" (EAdd (EScale (1 # 1) (EVar "contracted_intermediate")) (EScale (-1 # 1) (EEins "abij->abji" [(EVar "contracted_intermediate")])));
   (*L1410*) SAssign "contracted_intermediate" (EScale (1 # 4) (EEins "nmef,kldc,efjl,dckm,abin->abij" [(ESlice (EVar "g_bbbb") [SV "o"; SV "o"; SV "v"; SV "v"]); (EVar "l2_abab"); (EVar "t2_bbbb"); (EVar "t2_abab"); (EVar "t2_bbbb")]));
   (*L1411*) SAug true "double_res" (EAdd (EScale (1 # 1) (EVar "contracted_intermediate")) (EScale (-1 # 1) (EEins "abij->abji" [(EVar "contracted_intermediate")])));
   (*L1414*) SAssign "contracted_intermediate" (EScale (1 # 4) (EEins "nmef,klcd,efjl,cdkm,abin->abij" [(ESlice (EVar "g_bbbb") [SV "o"; SV "o"; SV "v"; SV "v"]); (EVar "l2_abab"); (EVar "t2_bbbb"); (EVar "t2_abab"); (EVar "t2_bbbb")]));
   (*L1415*) SAug true "double_res" (EAdd (EScale (1 # 1) (EVar "contracted_intermediate")) (EScale (-1 # 1) (EEins "abij->abji" [(EVar "contracted_intermediate")])));
   (*L1418*) SAssign "contracted_intermediate" (EScale (1 # 4) (EEins "mnef,lkdc,eflj,dcmk,abin->abij" [(ESlice (EVar "g_abab") [SV "o"; SV "o"; SV "v"; SV "v"]); (EVar "l2_abab"); (EVar "t2_abab"); (EVar "t2_abab"); (EVar "t2_bbbb")]));
   (*L1419*) SAug true "double_res" (EAdd (EScale (1 # 1) (EVar "contracted_intermediate")) (EScale (-1 # 1) (EEins "abij->abji" [(EVar "contracted_intermediate")])));
   (*L1422*) SAssign "contracted_intermediate" (EScale (1 # 4) (EEins "mnfe,lkdc,felj,dcmk,abin->abij" [(ESlice (EVar "g_abab") [SV "o"; SV "o"; SV "v"; SV "v"]); (EVar "l2_abab"); (EVar "t2_abab"); (EVar "t2_abab"); (EVar "t2_bbbb")]));
   (*L1423*) SAug true "double_res" (EAdd (EScale (1 # 1) (EVar "contracted_intermediate")) (EScale (-1 # 1) (EEins "abij->abji" [(EVar "contracted_intermediate")])));
   (*L1426*) SAssign "contracted_intermediate" (EScale (1 # 4) (EEins "mnef,lkcd,eflj,cdmk,abin->abij" [(ESlice (EVar "g_abab") [SV "o"; SV "o"; SV "v"; SV "v"]); (EVar "l2_abab"); (EVar "t2_abab"); (EVar "t2_abab"); (EVar "t2_bbbb")]));
   (*L1427*) SAug true "double_res" (EAdd (EScale (1 # 1) (EVar "contracted_intermediate")) (EScale (-1 # 1) (EEins "abij->abji" [(EVar "contracted_intermediate")])));
   (*L1430*) SAssign "contracted_intermediate" (EScale (1 # 4) (EEins "mnfe,lkcd,felj,cdmk,abin->abij" [(ESlice (EVar "g_abab") [SV "o"; SV "o"; SV "v"; SV "v"]); (EVar "l2_abab"); (EVar "t2_abab"); (EVar "t2_abab"); (EVar "t2_bbbb")]));
   (*L1431*) SAug true "double_res" (EAdd (EScale (1 # 1) (EVar "contracted_intermediate")) (EScale (-1 # 1) (EEins "abij->abji" [(EVar "contracted_intermediate")])));
   (*L1434*) SAssign "contracted_intermediate" (EScale (1 # 4) (EEins "nmef,kldc,efjl,dckm,abin->abij" [(ESlice (EVar "g_bbbb") [SV "o"; SV "o"; SV "v"; SV "v"]); (EVar "l2_bbbb"); (EVar "t2_bbbb"); (EVar "t2_bbbb"); (EVar "t2_bbbb")]));
   (*L1435*) SAug true "double_res" (EAdd (EScale (1 # 1) (EVar "contracted_intermediate")) (EScale (-1 # 1) (EEins "abij->abji" [(EVar "contracted_intermediate")])));
   (*L1438*) SAssign "contracted_intermediate" (EScale (-1 # 4) (EEins "mnef,lkdc,eflj,dcmi,abkn->abij" [(ESlice (EVar "g_abab") [SV "o"; SV "o"; SV "v"; SV "v"]); (EVar "l2_abab"); (EVar "t2_abab"); (EVar "t2_abab"); (EVar "t2_bbbb")]));
   (*L1439*) SAug true "double_res" (EAdd (EScale (1 # 1) (EVar "contracted_intermediate")) (EScale (-1 # 1) (EEins "abij->abji" [(EVar "contracted_intermediate")])));
   (*L1442*) SAssign "contracted_intermediate" (EScale (-1 # 4) (EEins "mnfe,lkdc,felj,dcmi,abkn->abij" [(ESlice (EVar "g_abab") [SV "o"; SV "o"; SV "v"; SV "v"]); (EVar "l2_abab"); (EVar "t2_abab"); (EVar "t2_abab"); (EVar "t2_bbbb")]));
   (*L1443*) SAug true "double_res" (EAdd (EScale (1 # 1) (EVar "contracted_intermediate")) (EScale (-1 # 1) (EEins "abij->abji" [(EVar "contracted_intermediate")])));
   (*L1446*) SAssign "contracted_intermediate" (EScale (-1 # 4) (EEins "mnef,lkcd,eflj,cdmi,abkn->abij" [(ESlice (EVar "g_abab") [SV "o"; SV "o"; SV "v"; SV "v"]); (EVar "l2_abab"); (EVar "t2_abab"); (EVar "t2_abab"); (EVar "t2_bbbb")]));
   (*L1447*) SAug true "double_res" (EAdd (EScale (1 # 1) (EVar "contracted_intermediate")) (EScale (-1 # 1) (EEins "abij->abji" [(EVar "contracted_intermediate")])));
   (*L1450*) SAssign "contracted_intermediate" (EScale (-1 # 4) (EEins "mnfe,lkcd,felj,cdmi,abkn->abij" [(ESlice (EVar "g_abab") [SV "o"; SV "o"; SV "v"; SV "v"]); (EVar "l2_abab"); (EVar "t2_abab"); (EVar "t2_abab"); (EVar "t2_bbbb")]));
   (*L1451*) SAug true "double_res" (EAdd (EScale (1 # 1) (EVar "contracted_intermediate")) (EScale (-1 # 1) (EEins "abij->abji" [(EVar "contracted_intermediate")])));
   (*L1454*) SAssign "contracted_intermediate" (EScale (-1 # 4) (EEins "nmef,kldc,efjl,dcim,abkn->abij" [(ESlice (EVar "g_bbbb") [SV "o"; SV "o"; SV "v"; SV "v"]); (EVar "l2_bbbb"); (EVar "t2_bbbb"); (EVar "t2_bbbb"); (EVar "t2_bbbb")]));
   (*L1455*) SAug true "double_res" (EAdd (EScale (1 # 1) (EVar "contracted_intermediate")) (EScale (-1 # 1) (EEins "abij->abji" [(EVar "contracted_intermediate")])));
   (*L1458*) SAssign "contracted_intermediate" (EScale (-1 # 2) (EEins "nmef,kldc,eflj,dakm,cbni->abij" [(ESlice (EVar "g_abab") [SV "o"; SV "o"; SV "v"; SV "v"]); (EVar "l2_aaaa"); (EVar "t2_abab"); (EVar "t2_abab"); (EVar "t2_abab")]));
   (*L1459*) SAug true "double_res" (EAdd (EScale (1 # 1) (EVar "contracted_intermediate")) (EScale (-1 # 1) (EEins "abij->abji" [(EVar "contracted_intermediate")])));
   (*L1462*) SAssign "contracted_intermediate" (EScale (-1 # 2) (EEins "nmfe,kldc,felj,dakm,cbni->abij" [(ESlice (EVar "g_abab") [SV "o"; SV "o"; SV "v"; SV "v"]); (EVar "l2_aaaa"); (EVar "t2_abab"); (EVar "t2_abab"); (EVar "t2_abab")]));
   (*L1463*) SAug true "double_res" (EAdd (EScale (1 # 1) (EVar "contracted_intermediate")) (EScale (-1 # 1) (EEins "abij->abji" [(EVar "contracted_intermediate")])));
   (*L1466*) SAssign "contracted_intermediate" (EScale (-1 # 2) (EEins "nmef,kldc,efjl,dakm,cbin->abij" [(ESlice (EVar "g_bbbb") [SV "o"; SV "o"; SV "v"; SV "v"]); (EVar "l2_abab"); (EVar "t2_bbbb"); (EVar "t2_abab"); (EVar "t2_bbbb")]));
   (*L1467*) SAug true "double_res" (EAdd (EScale (1 # 1) (EVar "contracted_intermediate")) (EScale (-1 # 1) (EEins "abij->abji" [(EVar "contracted_intermediate")])));
   (*L1470*) SAssign "contracted_intermediate" (EScale (-1 # 2) (EEins "mnef,lkdc,eflj,damk,cbin->abij" [(ESlice (EVar "g_abab") [SV "o"; SV "o"; SV "v"; SV "v"]); (EVar "l2_abab"); (EVar "t2_abab"); (EVar "t2_abab"); (EVar "t2_bbbb")]));
   (*L1471*) SAug true "double_res" (EAdd (EScale (1 # 1) (EVar "contracted_intermediate")) (EScale (-1 # 1) (EEins "abij->abji" [(EVar "contracted_intermediate")])));
   (*L1474*) SAssign "contracted_intermediate" (EScale (-1 # 2) (EEins "mnfe,lkdc,felj,damk,cbin->abij" [(ESlice (EVar "g_abab") [SV "o"; SV "o"; SV "v"; SV "v"]); (EVar "l2_abab"); (EVar "t2_abab"); (EVar "t2_abab"); (EVar "t2_bbbb")]));
   (*L1475*) SAug true "double_res" (EAdd (EScale (1 # 1) (EVar "contracted_intermediate")) (EScale (-1 # 1) (EEins "abij->abji" [(EVar "contracted_intermediate")])));
   (*L1478*) SAssign "contracted_intermediate" (EScale (-1 # 2) (EEins "nmef,lkcd,eflj,dakm,cbni->abij" [(ESlice (EVar "g_abab") [SV "o"; SV "o"; SV "v"; SV "v"]); (EVar "l2_abab"); (EVar "t2_abab"); (EVar "t2_bbbb"); (EVar "t2_abab")]));
   (*L1479*) SAug true "double_res" (EAdd (EScale (1 # 1) (EVar "contracted_intermediate")) (EScale (-1 # 1) (EEins "abij->abji" [(EVar "contracted_intermediate")])));
   (*L1482*) SAssign "contracted_intermediate" (EScale (-1 # 2) (EEins "nmfe,lkcd,felj,dakm,cbni->abij" [(ESlice (EVar "g_abab") [SV "o"; SV "o"; SV "v"; SV "v"]); (EVar "l2_abab"); (EVar "t2_abab"); (EVar "t2_bbbb"); (EVar "t2_abab")]));
   (*L1483*) SAug true "double_res" (EAdd (EScale (1 # 1) (EVar "contracted_intermediate")) (EScale (-1 # 1) (EEins "abij->abji" [(EVar "contracted_intermediate")])));
   (*L1486*) SAssign "contracted_intermediate" (EScale (-1 # 2) (EEins "nmef,kldc,efjl,dakm,cbin->abij" [(ESlice (EVar "g_bbbb") [SV "o"; SV "o"; SV "v"; SV "v"]); (EVar "l2_bbbb"); (EVar "t2_bbbb"); (EVar "t2_bbbb"); (EVar "t2_bbbb")]));
   (*L1487*) SAug true "double_res" (EAdd (EScale (1 # 1) (EVar "contracted_intermediate")) (EScale (-1 # 1) (EEins "abij->abji" [(EVar "contracted_intermediate")])));
   (*L1490*) SAssign "contracted_intermediate" (EScale (-1 # 2) (EEins "mnef,kldc,eflj,dami,cbkn->abij" [(ESlice (EVar "g_abab") [SV "o"; SV "o"; SV "v"; SV "v"]); (EVar "l2_aaaa"); (EVar "t2_abab"); (EVar "t2_abab"); (EVar "t2_abab")]));
   (*L1491*) SAug true "double_res" (EAdd (EScale (1 # 1) (EVar "contracted_intermediate")) (EScale (-1 # 1) (EEins "abij->abji" [(EVar "contracted_intermediate")])));
   (*L1494*) SAssign "contracted_intermediate" (EScale (-1 # 2) (EEins "mnfe,kldc,felj,dami,cbkn->abij" [(ESlice (EVar "g_abab") [SV "o"; SV "o"; SV "v"; SV "v"]); (EVar "l2_aaaa"); (EVar "t2_abab"); (EVar "t2_abab"); (EVar "t2_abab")]));
   (*L1495*) SAug true "double_res" (EAdd (EScale (1 # 1) (EVar "contracted_intermediate")) (EScale (-1 # 1) (EEins "abij->abji" [(EVar "contracted_intermediate")])));
   (*L1498*) SAssign "contracted_intermediate" (EScale (-1 # 2) (EEins "nmef,klcd,efjl,daim,cbkn->abij" [(ESlice (EVar "g_bbbb") [SV "o"; SV "o"; SV "v"; SV "v"]); (EVar "l2_abab"); (EVar "t2_bbbb"); (EVar "t2_bbbb"); (EVar "t2_abab")]));
   (*L1499*) SAug true "double_res" (EAdd (EScale (1 # 1) (EVar "contracted_intermediate")) (EScale (-1 # 1) (EEins "abij->abji" [(EVar "contracted_intermediate")])));
   (*L1502*) SAssign "contracted_intermediate" (EScale (1 # 2) (EEins "mnef,lkdc,eflj,dami,cbkn->abij" [(ESlice (EVar "g_abab") [SV "o"; SV "o"; SV "v"; SV "v"]); (EVar "l2_abab"); (EVar "t2_abab"); (EVar "t2_abab"); (EVar "t2_bbbb")]));
   (*L1503*) SAug true "double_res" (EAdd (EScale (1 # 1) (EVar "contracted_intermediate")) (EScale (-1 # 1) (EEins "abij->abji" [(EVar "contracted_intermediate")])));
   (*L1506*) SAssign "contracted_intermediate" (EScale (1 # 2) (EEins "mnfe,lkdc,felj,dami,cbkn->abij" [(ESlice (EVar "g_abab") [SV "o"; SV "o"; SV "v"; SV "v"]); (EVar "l2_abab"); (EVar "t2_abab"); (EVar "t2_abab"); (EVar "t2_bbbb")]));
   (*L1507*) SAug true "double_res" (EAdd (EScale (1 # 1) (EVar "contracted_intermediate")) (EScale (-1 # 1) (EEins "abij->abji" [(EVar "contracted_intermediate")])));
   (*L1510*) SAssign "contracted_intermediate" (EScale (1 # 2) (EEins "nmef,lkcd,eflj,daim,cbnk->abij" [(ESlice (EVar "g_abab") [SV "o"; SV "o"; SV "v"; SV "v"]); (EVar "l2_abab"); (EVar "t2_abab"); (EVar "t2_bbbb"); (EVar "t2_abab")]));
   (*L1511*) SAug true "double_res" (EAdd (EScale (1 # 1) (EVar "contracted_intermediate")) (EScale (-1 # 1) (EEins "abij->abji" [(EVar "contracted_intermediate")])));
   (*L1514*) SAssign "contracted_intermediate" (EScale (1 # 2) (EEins "nmfe,lkcd,felj,daim,cbnk->abij" [(ESlice (EVar "g_abab") [SV "o"; SV "o"; SV "v"; SV "v"]); (EVar "l2_abab"); (EVar "t2_abab"); (EVar "t2_bbbb"); (EVar "t2_abab")]));
   (*L1515*) SAug true "double_res" (EAdd (EScale (1 # 1) (EVar "contracted_intermediate")) (EScale (-1 # 1) (EEins "abij->abji" [(EVar "contracted_intermediate")])));
   (*L1518*) SAssign "contracted_intermediate" (EScale (1 # 2) (EEins "nmef,kldc,efjl,daim,cbkn->abij" [(ESlice (EVar "g_bbbb") [SV "o"; SV "o"; SV "v"; SV "v"]); (EVar "l2_bbbb"); (EVar "t2_bbbb"); (EVar "t2_bbbb"); (EVar "t2_bbbb")]));
   (*L1519*) SAug true "double_res" (EAdd (EScale (1 # 1) (EVar "contracted_intermediate")) (EScale (-1 # 1) (EEins "abij->abji" [(EVar "contracted_intermediate")])));
   (*L1522*) SAug true "double_res" (EScale (1 # 4) (EEins "nmef,lkdc,efij,dclm,abkn->abij" [(ESlice (EVar "g_bbbb") [SV "o"; SV "o"; SV "v"; SV "v"]); (EVar "l2_abab"); (EVar "t2_bbbb"); (EVar "t2_abab"); (EVar "t2_bbbb")]));
   (*L1525*) SAug true "double_res" (EScale (1 # 4) (EEins "nmef,lkcd,efij,cdlm,abkn->abij" [(ESlice (EVar "g_bbbb") [SV "o"; SV "o"; SV "v"; SV "v"]); (EVar "l2_abab"); (EVar "t2_bbbb"); (EVar "t2_abab"); (EVar "t2_bbbb")]));
   (*L1528*) SAug true "double_res" (EScale (-1 # 4) (EEins "nmef,kldc,efij,dclm,abkn->abij" [(ESlice (EVar "g_bbbb") [SV "o"; SV "o"; SV "v"; SV "v"]); (EVar "l2_bbbb"); (EVar "t2_bbbb"); (EVar "t2_bbbb"); (EVar "t2_bbbb")]));
   (*L1531*) SAssign "contracted_intermediate" (EScale (1 # 4) (EEins "nmef,kldc,efij,dalm,cbkn->abij" [(ESlice (EVar "g_bbbb") [SV "o"; SV "o"; SV "v"; SV "v"]); (EVar "l2_aaaa"); (EVar "t2_bbbb"); (EVar "t2_abab"); (EVar "t2_abab")]));
   (*L1532*) SAug true "double_res" (EAdd (EScale (1 # 1) (EVar "contracted_intermediate")) (EScale (-1 # 1) (EEins "abij->baij" [(EVar "contracted_intermediate")])));
   (*L1535*) SAssign "contracted_intermediate" (EScale (-1 # 4) (EEins "nmef,klcd,efij,dalm,cbkn->abij" [(ESlice (EVar "g_bbbb") [SV "o"; SV "o"; SV "v"; SV "v"]); (EVar "l2_abab"); (EVar "t2_bbbb"); (EVar "t2_bbbb"); (EVar "t2_abab")]));
   (*L1536*) SAug true "double_res" (EAdd (EScale (1 # 1) (EVar "contracted_intermediate")) (EScale (-1 # 1) (EEins "abij->baij" [(EVar "contracted_intermediate")])));
   (*L1539*) SAssign "contracted_intermediate" (EScale (-1 # 4) (EEins "nmef,lkdc,efij,dalm,cbkn->abij" [(ESlice (EVar "g_bbbb") [SV "o"; SV "o"; SV "v"; SV "v"]); (EVar "l2_abab"); (EVar "t2_bbbb"); (EVar "t2_abab"); (EVar "t2_bbbb")]));
   (*L1540*) SAug true "double_res" (EAdd (EScale (1 # 1) (EVar "contracted_intermediate")) (EScale (-1 # 1) (EEins "abij->baij" [(EVar "contracted_intermediate")])));
   (*L1543*) SAssign "contracted_intermediate" (EScale (1 # 4) (EEins "nmef,kldc,efij,dalm,cbkn->abij" [(ESlice (EVar "g_bbbb") [SV "o"; SV "o"; SV "v"; SV "v"]); (EVar "l2_bbbb"); (EVar "t2_bbbb"); (EVar "t2_bbbb"); (EVar "t2_bbbb")]));
   (*L1544*) SAug true "double_res" (EAdd (EScale (1 # 1) (EVar "contracted_intermediate")) (EScale (-1 # 1) (EEins "abij->baij" [(EVar "contracted_intermediate")])));
   (*L1547*) SAssign "contracted_intermediate" (EScale (-1 # 2) (EEins "mnef,kldc,edlm,cfkj,abin->abij" [(ESlice (EVar "g_abab") [SV "o"; SV "o"; SV "v"; SV "v"]); (EVar "l2_aaaa"); (EVar "t2_aaaa"); (EVar "t2_abab"); (EVar "t2_bbbb")]));
   (*L1548*) SAug true "double_res" (EAdd (EScale (1 # 1) (EVar "contracted_intermediate")) (EScale (-1 # 1) (EEins "abij->abji" [(EVar "contracted_intermediate")])));
   (*L1551*) SAssign "contracted_intermediate" (EScale (-1 # 2) (EEins "nmef,kldc,delm,cfkj,abin->abij" [(ESlice (EVar "g_bbbb") [SV "o"; SV "o"; SV "v"; SV "v"]); (EVar "l2_aaaa"); (EVar "t2_abab"); (EVar "t2_abab"); (EVar "t2_bbbb")]));
   (*L1552*) SAug true "double_res" (EAdd (EScale (1 # 1) (EVar "contracted_intermediate")) (EScale (-1 # 1) (EEins "abij->abji" [(EVar "contracted_intermediate")])));
   (*L1555*) SAssign "contracted_intermediate" (EScale (-1 # 2) (EEins "mnfe,kldc,deml,fckj,abin->abij" [(ESlice (EVar "g_abab") [SV "o"; SV "o"; SV "v"; SV "v"]); (EVar "l2_abab"); (EVar "t2_abab"); (EVar "t2_abab"); (EVar "t2_bbbb")]));
   (*L1556*) SAug true "double_res" (EAdd (EScale (1 # 1) (EVar "contracted_intermediate")) (EScale (-1 # 1) (EEins "abij->abji" [(EVar "contracted_intermediate")])));
   (*L1559*) SAssign "contracted_intermediate" (EScale (-1 # 2) (EEins "mnef,klcd,edml,cfkj,abin->abij" [(ESlice (EVar "g_abab") [SV "o"; SV "o"; SV "v"; SV "v"]); (EVar "l2_abab"); (EVar "t2_abab"); (EVar "t2_abab"); (EVar "t2_bbbb")]));
   (*L1560*) SAug true "double_res" (EAdd (EScale (1 # 1) (EVar "contracted_intermediate")) (EScale (-1 # 1) (EEins "abij->abji" [(EVar "contracted_intermediate")])));
   (*L1563*) SAssign "contracted_intermediate" (EScale (-1 # 2) (EEins "nmef,klcd,edlm,cfkj,abin->abij" [(ESlice (EVar "g_bbbb") [SV "o"; SV "o"; SV "v"; SV "v"]); (EVar "l2_abab"); (EVar "t2_bbbb"); (EVar "t2_abab"); (EVar "t2_bbbb")]));
   (*L1564*) SAug true "double_res" (EAdd (EScale (1 # 1) (EVar "contracted_intermediate")) (EScale (-1 # 1) (EEins "abij->abji" [(EVar "contracted_intermediate")])));
   (*L1567*) SAssign "contracted_intermediate" (EScale (1 # 2) (EEins "mnef,lkdc,edlm,fcjk,abin->abij" [(ESlice (EVar "g_abab") [SV "o"; SV "o"; SV "v"; SV "v"]); (EVar "l2_abab"); (EVar "t2_aaaa"); (EVar "t2_bbbb"); (EVar "t2_bbbb")]));
   (*L1568*) SAug true "double_res" (EAdd (EScale (1 # 1) (EVar "contracted_intermediate")) (EScale (-1 # 1) (EEins "abij->abji" [(EVar "contracted_intermediate")])));
   (*L1571*) SAssign "contracted_intermediate" (EScale (1 # 2) (EEins "nmef,lkdc,delm,fcjk,abin->abij" [(ESlice (EVar "g_bbbb") [SV "o"; SV "o"; SV "v"; SV "v"]); (EVar "l2_abab"); (EVar "t2_abab"); (EVar "t2_bbbb"); (EVar "t2_bbbb")]));
   (*L1572*) SAug true "double_res" (EAdd (EScale (1 # 1) (EVar "contracted_intermediate")) (EScale (-1 # 1) (EEins "abij->abji" [(EVar "contracted_intermediate")])));
   (*L1575*) SAssign "contracted_intermediate" (EScale (1 # 2) (EEins "mnef,kldc,edml,fcjk,abin->abij" [(ESlice (EVar "g_abab") [SV "o"; SV "o"; SV "v"; SV "v"]); (EVar "l2_bbbb"); (EVar "t2_abab"); (EVar "t2_bbbb"); (EVar "t2_bbbb")]));
   (*L1576*) SAug true "double_res" (EAdd (EScale (1 # 1) (EVar "contracted_intermediate")) (EScale (-1 # 1) (EEins "abij->abji" [(EVar "contracted_intermediate")])));
   (*L1579*) SAssign "contracted_intermediate" (EScale (1 # 2) (EEins "nmef,kldc,edlm,fcjk,abin->abij" [(ESlice (EVar "g_bbbb") [SV "o"; SV "o"; SV "v"; SV "v"]); (EVar "l2_bbbb"); (EVar "t2_bbbb"); (EVar "t2_bbbb"); (EVar "t2_bbbb")]));
   (*L1580*) SAug true "double_res" (EAdd (EScale (1 # 1) (EVar "contracted_intermediate")) (EScale (-1 # 1) (EEins "abij->abji" [(EVar "contracted_intermediate")])));
   (*L1583*) SAug true "double_res" (EScale (1 # 1) (EEins "mnef,lkdc,edlm,fcij,abkn->abij" [(ESlice (EVar "g_abab") [SV "o"; SV "o"; SV "v"; SV "v"]); (EVar "l2_abab"); (EVar "t2_aaaa"); (EVar "t2_bbbb"); (EVar "t2_bbbb")]));
   (*L1586*) SAug true "double_res" (EScale (1 # 1) (EEins "nmef,lkdc,delm,fcij,abkn->abij" [(ESlice (EVar "g_bbbb") [SV "o"; SV "o"; SV "v"; SV "v"]); (EVar "l2_abab"); (EVar "t2_abab"); (EVar "t2_bbbb"); (EVar "t2_bbbb")]));
   (*L1589*) SAug true "double_res" (EScale (1 # 1) (EEins "mnef,kldc,edml,fcij,abkn->abij" [(ESlice (EVar "g_abab") [SV "o"; SV "o"; SV "v"; SV "v"]); (EVar "l2_bbbb"); (EVar "t2_abab"); (EVar "t2_bbbb"); (EVar "t2_bbbb")]));
   (*L1592*) SAug true "double_res" (EScale (1 # 1) (EEins "nmef,kldc,edlm,fcij,abkn->abij" [(ESlice (EVar "g_bbbb") [SV "o"; SV "o"; SV "v"; SV "v"]); (EVar "l2_bbbb"); (EVar "t2_bbbb"); (EVar "t2_bbbb"); (EVar "t2_bbbb")]));
   (*L1595*) SAssign "contracted_intermediate" (EScale (-3 # 4) (EEins "nmef,kldc,edlm,fakj,cbni->abij" [(ESlice (EVar "g_aaaa") [SV "o"; SV "o"; SV "v"; SV "v"]); (EVar "l2_aaaa"); (EVar "t2_aaaa"); (EVar "t2_abab"); (EVar "t2_abab")]));
   (*L1596*) SAug true "double_res" (EAdd (EAdd (EAdd (EScale (1 # 1) (EVar "contracted_intermediate")) (EScale (-1 # 1) (EEins "abij->abji" [(EVar "contracted_intermediate")]))) (EScale (-1 # 1) (EEins "abij->baij" [(EVar "contracted_intermediate")]))) (EScale (1 # 1) (EEins "abij->baji" [(EVar "contracted_intermediate")])));
   (*L1599*) SAssign "contracted_intermediate" (EScale (-3 # 4) (EEins "nmfe,kldc,delm,fakj,cbni->abij" [(ESlice (EVar "g_abab") [SV "o"; SV "o"; SV "v"; SV "v"]); (EVar "l2_aaaa"); (EVar "t2_abab"); (EVar "t2_abab"); (EVar "t2_abab")]));
   (*L1600*) SAug true "double_res" (EAdd (EAdd (EAdd (EScale (1 # 1) (EVar "contracted_intermediate")) (EScale (-1 # 1) (EEins "abij->abji" [(EVar "contracted_intermediate")]))) (EScale (-1 # 1) (EEins "abij->baij" [(EVar "contracted_intermediate")]))) (EScale (1 # 1) (EEins "abij->baji" [(EVar "contracted_intermediate")])));
   (*L1603*) SAssign "contracted_intermediate" (EScale (3 # 4) (EEins "mnfe,kldc,deml,fakj,cbin->abij" [(ESlice (EVar "g_abab") [SV "o"; SV "o"; SV "v"; SV "v"]); (EVar "l2_abab"); (EVar "t2_abab"); (EVar "t2_abab"); (EVar "t2_bbbb")]));
   (*L1604*) SAug true "double_res" (EAdd (EAdd (EAdd (EScale (1 # 1) (EVar "contracted_intermediate")) (EScale (-1 # 1) (EEins "abij->abji" [(EVar "contracted_intermediate")]))) (EScale (-1 # 1) (EEins "abij->baij" [(EVar "contracted_intermediate")]))) (EScale (1 # 1) (EEins "abij->baji" [(EVar "contracted_intermediate")])));
   (*L1607*) SAssign "contracted_intermediate" (EScale (-3 # 4) (EEins "nmef,klcd,edml,fakj,cbni->abij" [(ESlice (EVar "g_aaaa") [SV "o"; SV "o"; SV "v"; SV "v"]); (EVar "l2_abab"); (EVar "t2_abab"); (EVar "t2_abab"); (EVar "t2_abab")]));
   (*L1608*) SAug true "double_res" (EAdd (EAdd (EAdd (EScale (1 # 1) (EVar "contracted_intermediate")) (EScale (-1 # 1) (EEins "abij->abji" [(EVar "contracted_intermediate")]))) (EScale (-1 # 1) (EEins "abij->baij" [(EVar "contracted_intermediate")]))) (EScale (1 # 1) (EEins "abij->baji" [(EVar "contracted_intermediate")])));
   (*L1611*) SAssign "contracted_intermediate" (EScale (-3 # 4) (EEins "nmfe,klcd,edlm,fakj,cbni->abij" [(ESlice (EVar "g_abab") [SV "o"; SV "o"; SV "v"; SV "v"]); (EVar "l2_abab"); (EVar "t2_bbbb"); (EVar "t2_abab"); (EVar "t2_abab")]));
   (*L1612*) SAug true "double_res" (EAdd (EAdd (EAdd (EScale (1 # 1) (EVar "contracted_intermediate")) (EScale (-1 # 1) (EEins "abij->abji" [(EVar "contracted_intermediate")]))) (EScale (-1 # 1) (EEins "abij->baij" [(EVar "contracted_intermediate")]))) (EScale (1 # 1) (EEins "abij->baji" [(EVar "contracted_intermediate")])));
   (*L1615*) SAssign "contracted_intermediate" (EScale (-3 # 4) (EEins "mnef,lkdc,edlm,fajk,cbin->abij" [(ESlice (EVar "g_abab") [SV "o"; SV "o"; SV "v"; SV "v"]); (EVar "l2_abab"); (EVar "t2_aaaa"); (EVar "t2_bbbb"); (EVar "t2_bbbb")]));
   (*L1616*) SAug true "double_res" (EAdd (EAdd (EAdd (EScale (1 # 1) (EVar "contracted_intermediate")) (EScale (-1 # 1) (EEins "abij->abji" [(EVar "contracted_intermediate")]))) (EScale (-1 # 1) (EEins "abij->baij" [(EVar "contracted_intermediate")]))) (EScale (1 # 1) (EEins "abij->baji" [(EVar "contracted_intermediate")])));
   (*L1619*) SAssign "contracted_intermediate" (EScale (-3 # 4) (EEins "nmef,lkdc,delm,fajk,cbin->abij" [(ESlice (EVar "g_bbbb") [SV "o"; SV "o"; SV "v"; SV "v"]); (EVar "l2_abab"); (EVar "t2_abab"); (EVar "t2_bbbb"); (EVar "t2_bbbb")]));
   (*L1620*) SAug true "double_res" (EAdd (EAdd (EAdd (EScale (1 # 1) (EVar "contracted_intermediate")) (EScale (-1 # 1) (EEins "abij->abji" [(EVar "contracted_intermediate")]))) (EScale (-1 # 1) (EEins "abij->baij" [(EVar "contracted_intermediate")]))) (EScale (1 # 1) (EEins "abij->baji" [(EVar "contracted_intermediate")])));
   (*L1623*) SAssign "contracted_intermediate" (EScale (3 # 4) (EEins "nmef,lkcd,edlm,fajk,cbni->abij" [(ESlice (EVar "g_abab") [SV "o"; SV "o"; SV "v"; SV "v"]); (EVar "l2_abab"); (EVar "t2_abab"); (EVar "t2_bbbb"); (EVar "t2_abab")]));
   (*L1624*) SAug true "double_res" (EAdd (EAdd (EAdd (EScale (1 # 1) (EVar "contracted_intermediate")) (EScale (-1 # 1) (EEins "abij->abji" [(EVar "contracted_intermediate")]))) (EScale (-1 # 1) (EEins "abij->baij" [(EVar "contracted_intermediate")]))) (EScale (1 # 1) (EEins "abij->baji" [(EVar "contracted_intermediate")])));
   (*L1627*) SAssign "contracted_intermediate" (EScale (-3 # 4) (EEins "mnef,kldc,edml,fajk,cbin->abij" [(ESlice (EVar "g_abab") [SV "o"; SV "o"; SV "v"; SV "v"]); (EVar "l2_bbbb"); (EVar "t2_abab"); (EVar "t2_bbbb"); (EVar "t2_bbbb")]));
   (*L1628*) SAug true "double_res" (EAdd (EAdd (EAdd (EScale (1 # 1) (EVar "contracted_intermediate")) (EScale (-1 # 1) (EEins "abij->abji" [(EVar "contracted_intermediate")]))) (EScale (-1 # 1) (EEins "abij->baij" [(EVar "contracted_intermediate")]))) (EScale (1 # 1) (EEins "abij->baji" [(EVar "contracted_intermediate")])));
   (*L1631*) SAssign "contracted_intermediate" (EScale (-3 # 4) (EEins "nmef,kldc,edlm,fajk,cbin->abij" [(ESlice (EVar "g_bbbb") [SV "o"; SV "o"; SV "v"; SV "v"]); (EVar "l2_bbbb"); (EVar "t2_bbbb"); (EVar "t2_bbbb"); (EVar "t2_bbbb")]));
   (*L1632*) SAug true "double_res" (EAdd (EAdd (EAdd (EScale (1 # 1) (EVar "contracted_intermediate")) (EScale (-1 # 1) (EEins "abij->abji" [(EVar "contracted_intermediate")]))) (EScale (-1 # 1) (EEins "abij->baij" [(EVar "contracted_intermediate")]))) (EScale (1 # 1) (EEins "abij->baji" [(EVar "contracted_intermediate")])));
   (*L1635*) SAssign "contracted_intermediate" (EScale (1 # 1) (EEins "mnef,kldc,edlm,faij,cbkn->abij" [(ESlice (EVar "g_abab") [SV "o"; SV "o"; SV "v"; SV "v"]); (EVar "l2_aaaa"); (EVar "t2_aaaa"); (EVar "t2_bbbb"); (EVar "t2_abab")]));
   (*L1636*) SAug true "double_res" (EAdd (EScale (1 # 1) (EVar "contracted_intermediate")) (EScale (-1 # 1) (EEins "abij->baij" [(EVar "contracted_intermediate")])));
   (*L1639*) SAssign "contracted_intermediate" (EScale (1 # 1) (EEins "nmef,kldc,delm,faij,cbkn->abij" [(ESlice (EVar "g_bbbb") [SV "o"; SV "o"; SV "v"; SV "v"]); (EVar "l2_aaaa"); (EVar "t2_abab"); (EVar "t2_bbbb"); (EVar "t2_abab")]));
   (*L1640*) SAug true "double_res" (EAdd (EScale (1 # 1) (EVar "contracted_intermediate")) (EScale (-1 # 1) (EEins "abij->baij" [(EVar "contracted_intermediate")])));
   (*L1643*) SAssign "contracted_intermediate" (EScale (1 # 1) (EEins "mnef,klcd,edml,faij,cbkn->abij" [(ESlice (EVar "g_abab") [SV "o"; SV "o"; SV "v"; SV "v"]); (EVar "l2_abab"); (EVar "t2_abab"); (EVar "t2_bbbb"); (EVar "t2_abab")]));
   (*L1644*) SAug true "double_res" (EAdd (EScale (1 # 1) (EVar "contracted_intermediate")) (EScale (-1 # 1) (EEins "abij->baij" [(EVar "contracted_intermediate")])));
   (*L1647*) SAssign "contracted_intermediate" (EScale (1 # 1) (EEins "nmef,klcd,edlm,faij,cbkn->abij" [(ESlice (EVar "g_bbbb") [SV "o"; SV "o"; SV "v"; SV "v"]); (EVar "l2_abab"); (EVar "t2_bbbb"); (EVar "t2_bbbb"); (EVar "t2_abab")]));
   (*L1648*) SAug true "double_res" (EAdd (EScale (1 # 1) (EVar "contracted_intermediate")) (EScale (-1 # 1) (EEins "abij->baij" [(EVar "contracted_intermediate")])));
   (*L1651*) SAssign "contracted_intermediate" (EScale (-1 # 1) (EEins "mnef,lkdc,edlm,faij,cbkn->abij" [(ESlice (EVar "g_abab") [SV "o"; SV "o"; SV "v"; SV "v"]); (EVar "l2_abab"); (EVar "t2_aaaa"); (EVar "t2_bbbb"); (EVar "t2_bbbb")]));
   (*L1652*) SAug true "double_res" (EAdd (EScale (1 # 1) (EVar "contracted_intermediate")) (EScale (-1 # 1) (EEins "abij->baij" [(EVar "contracted_intermediate")])));
   (*L1655*) SAssign "contracted_intermediate" (EScale (-1 # 1) (EEins "nmef,lkdc,delm,faij,cbkn->abij" [(ESlice (EVar "g_bbbb") [SV "o"; SV "o"; SV "v"; SV "v"]); (EVar "l2_abab"); (EVar "t2_abab"); (EVar "t2_bbbb"); (EVar "t2_bbbb")]));
   (*L1656*) SAug true "double_res" (EAdd (EScale (1 # 1) (EVar "contracted_intermediate")) (EScale (-1 # 1) (EEins "abij->baij" [(EVar "contracted_intermediate")])));
   (*L1659*) SAssign "contracted_intermediate" (EScale (1 # 1) (EEins "nmef,lkcd,edlm,faij,cbnk->abij" [(ESlice (EVar "g_abab") [SV "o"; SV "o"; SV "v"; SV "v"]); (EVar "l2_abab"); (EVar "t2_abab"); (EVar "t2_bbbb"); (EVar "t2_abab")]));
   (*L1660*) SAug true "double_res" (EAdd (EScale (1 # 1) (EVar "contracted_intermediate")) (EScale (-1 # 1) (EEins "abij->baij" [(EVar "contracted_intermediate")])));
   (*L1663*) SAssign "contracted_intermediate" (EScale (-1 # 1) (EEins "mnef,kldc,edml,faij,cbkn->abij" [(ESlice (EVar "g_abab") [SV "o"; SV "o"; SV "v"; SV "v"]); (EVar "l2_bbbb"); (EVar "t2_abab"); (EVar "t2_bbbb"); (EVar "t2_bbbb")]));
   (*L1664*) SAug true "double_res" (EAdd (EScale (1 # 1) (EVar "contracted_intermediate")) (EScale (-1 # 1) (EEins "abij->baij" [(EVar "contracted_intermediate")])));
   (*L1667*) SAssign "contracted_intermediate" (EScale (-1 # 1) (EEins "nmef,kldc,edlm,faij,cbkn->abij" [(ESlice (EVar "g_bbbb") [SV "o"; SV "o"; SV "v"; SV "v"]); (EVar "l2_bbbb"); (EVar "t2_bbbb"); (EVar "t2_bbbb"); (EVar "t2_bbbb")]));
   (*L1668*) SAug true "double_res" (EAdd (EScale (1 # 1) (EVar "contracted_intermediate")) (EScale (-1 # 1) (EEins "abij->baij" [(EVar "contracted_intermediate")])));
   (*L1671*) SAssign "contracted_intermediate" (EScale (1 # 2) (EEins "mnfe,kldc,demj,fckl,abin->abij" [(ESlice (EVar "g_abab") [SV "o"; SV "o"; SV "v"; SV "v"]); (EVar "l2_aaaa"); (EVar "t2_abab"); (EVar "t2_aaaa"); (EVar "t2_bbbb")]));
   (*L1672*) SAug true "double_res" (EAdd (EScale (1 # 1) (EVar "contracted_intermediate")) (EScale (-1 # 1) (EEins "abij->abji" [(EVar "contracted_intermediate")])));
   (*L1675*) SAssign "contracted_intermediate" (EScale (1 # 2) (EEins "mnfe,kldc,demj,fckl,abin->abij" [(ESlice (EVar "g_abab") [SV "o"; SV "o"; SV "v"; SV "v"]); (EVar "l2_abab"); (EVar "t2_abab"); (EVar "t2_abab"); (EVar "t2_bbbb")]));
   (*L1676*) SAug true "double_res" (EAdd (EScale (1 # 1) (EVar "contracted_intermediate")) (EScale (-1 # 1) (EEins "abij->abji" [(EVar "contracted_intermediate")])));
   (*L1679*) SAssign "contracted_intermediate" (EScale (1 # 2) (EEins "mnef,klcd,edmj,cfkl,abin->abij" [(ESlice (EVar "g_abab") [SV "o"; SV "o"; SV "v"; SV "v"]); (EVar "l2_abab"); (EVar "t2_abab"); (EVar "t2_abab"); (EVar "t2_bbbb")]));
   (*L1680*) SAug true "double_res" (EAdd (EScale (1 # 1) (EVar "contracted_intermediate")) (EScale (-1 # 1) (EEins "abij->abji" [(EVar "contracted_intermediate")])));
   (*L1683*) SAssign "contracted_intermediate" (EScale (1 # 2) (EEins "nmef,klcd,edjm,cfkl,abin->abij" [(ESlice (EVar "g_bbbb") [SV "o"; SV "o"; SV "v"; SV "v"]); (EVar "l2_abab"); (EVar "t2_bbbb"); (EVar "t2_abab"); (EVar "t2_bbbb")]));
   (*L1684*) SAug true "double_res" (EAdd (EScale (1 # 1) (EVar "contracted_intermediate")) (EScale (-1 # 1) (EEins "abij->abji" [(EVar "contracted_intermediate")])));
   (*L1687*) SAssign "contracted_intermediate" (EScale (1 # 2) (EEins "mnfe,lkdc,demj,fclk,abin->abij" [(ESlice (EVar "g_abab") [SV "o"; SV "o"; SV "v"; SV "v"]); (EVar "l2_abab"); (EVar "t2_abab"); (EVar "t2_abab"); (EVar "t2_bbbb")]));
   (*L1688*) SAug true "double_res" (EAdd (EScale (1 # 1) (EVar "contracted_intermediate")) (EScale (-1 # 1) (EEins "abij->abji" [(EVar "contracted_intermediate")])));
   (*L1691*) SAssign "contracted_intermediate" (EScale (1 # 2) (EEins "mnef,lkcd,edmj,cflk,abin->abij" [(ESlice (EVar "g_abab") [SV "o"; SV "o"; SV "v"; SV "v"]); (EVar "l2_abab"); (EVar "t2_abab"); (EVar "t2_abab"); (EVar "t2_bbbb")]));
   (*L1692*) SAug true "double_res" (EAdd (EScale (1 # 1) (EVar "contracted_intermediate")) (EScale (-1 # 1) (EEins "abij->abji" [(EVar "contracted_intermediate")])));
   (*L1695*) SAssign "contracted_intermediate" (EScale (1 # 2) (EEins "nmef,lkcd,edjm,cflk,abin->abij" [(ESlice (EVar "g_bbbb") [SV "o"; SV "o"; SV "v"; SV "v"]); (EVar "l2_abab"); (EVar "t2_bbbb"); (EVar "t2_abab"); (EVar "t2_bbbb")]));
   (*L1696*) SAug true "double_res" (EAdd (EScale (1 # 1) (EVar "contracted_intermediate")) (EScale (-1 # 1) (EEins "abij->abji" [(EVar "contracted_intermediate")])));
   (*L1699*) SAssign "contracted_intermediate" (EScale (1 # 2) (EEins "mnef,kldc,edmj,fckl,abin->abij" [(ESlice (EVar "g_abab") [SV "o"; SV "o"; SV "v"; SV "v"]); (EVar "l2_bbbb"); (EVar "t2_abab"); (EVar "t2_bbbb"); (EVar "t2_bbbb")]));
   (*L1700*) SAug true "double_res" (EAdd (EScale (1 # 1) (EVar "contracted_intermediate")) (EScale (-1 # 1) (EEins "abij->abji" [(EVar "contracted_intermediate")])));
   (*L1703*) SAssign "contracted_intermediate" (EScale (1 # 2) (EEins "nmef,kldc,edjm,fckl,abin->abij" [(ESlice (EVar "g_bbbb") [SV "o"; SV "o"; SV "v"; SV "v"]); (EVar "l2_bbbb"); (EVar "t2_bbbb"); (EVar "t2_bbbb"); (EVar "t2_bbbb")]));
   (*L1704*) SAug true "double_res" (EAdd (EScale (1 # 1) (EVar "contracted_intermediate")) (EScale (-1 # 1) (EEins "abij->abji" [(EVar "contracted_intermediate")])));
   (*L1707*) SAssign "contracted_intermediate" (EScale (-1 # 1) (EEins "mnfe,lkdc,demj,fcli,abkn->abij" [(ESlice (EVar "g_abab") [SV "o"; SV "o"; SV "v"; SV "v"]); (EVar "l2_abab"); (EVar "t2_abab"); (EVar "t2_abab"); (EVar "t2_bbbb")]));
   (*L1708*) SAug true "double_res" (EAdd (EScale (1 # 1) (EVar "contracted_intermediate")) (EScale (-1 # 1) (EEins "abij->abji" [(EVar "contracted_intermediate")])));
   (*L1711*) SAssign "contracted_intermediate" (EScale (-1 # 1) (EEins "mnef,lkcd,edmj,cfli,abkn->abij" [(ESlice (EVar "g_abab") [SV "o"; SV "o"; SV "v"; SV "v"]); (EVar "l2_abab"); (EVar "t2_abab"); (EVar "t2_abab"); (EVar "t2_bbbb")]));
   (*L1712*) SAug true "double_res" (EAdd (EScale (1 # 1) (EVar "contracted_intermediate")) (EScale (-1 # 1) (EEins "abij->abji" [(EVar "contracted_intermediate")])));
   (*L1715*) SAssign "contracted_intermediate" (EScale (-1 # 1) (EEins "nmef,lkcd,edjm,cfli,abkn->abij" [(ESlice (EVar "g_bbbb") [SV "o"; SV "o"; SV "v"; SV "v"]); (EVar "l2_abab"); (EVar "t2_bbbb"); (EVar "t2_abab"); (EVar "t2_bbbb")]));
   (*L1716*) SAug true "double_res" (EAdd (EScale (1 # 1) (EVar "contracted_intermediate")) (EScale (-1 # 1) (EEins "abij->abji" [(EVar "contracted_intermediate")])));
   (*L1719*) SAssign "contracted_intermediate" (EScale (-1 # 1) (EEins "mnef,kldc,edmj,fcil,abkn->abij" [(ESlice (EVar "g_abab") [SV "o"; SV "o"; SV "v"; SV "v"]); (EVar "l2_bbbb"); (EVar "t2_abab"); (EVar "t2_bbbb"); (EVar "t2_bbbb")]));
   (*L1720*) SAug true "double_res" (EAdd (EScale (1 # 1) (EVar "contracted_intermediate")) (EScale (-1 # 1) (EEins "abij->abji" [(EVar "contracted_intermediate")])));
   (*L1723*) SAssign "contracted_intermediate" (EScale (-1 # 1) (EEins "nmef,kldc,edjm,fcil,abkn->abij" [(ESlice (EVar "g_bbbb") [SV "o"; SV "o"; SV "v"; SV "v"]); (EVar "l2_bbbb"); (EVar "t2_bbbb"); (EVar "t2_bbbb"); (EVar "t2_bbbb")]));
   (*L1724*) SAug true "double_res" (EAdd (EScale (1 # 1) (EVar "contracted_intermediate")) (EScale (-1 # 1) (EEins "abij->abji" [(EVar "contracted_intermediate")])));
   (*L1727*) SAssign "contracted_intermediate" (EScale (-1 # 2) (EEins "mnfe,kldc,demj,fakl,cbin->abij" [(ESlice (EVar "g_abab") [SV "o"; SV "o"; SV "v"; SV "v"]); (EVar "l2_abab"); (EVar "t2_abab"); (EVar "t2_abab"); (EVar "t2_bbbb")]));
   (*L1728*) SAug true "double_res" (EAdd (EAdd (EAdd (EScale (1 # 1) (EVar "contracted_intermediate")) (EScale (-1 # 1) (EEins "abij->abji" [(EVar "contracted_intermediate")]))) (EScale (-1 # 1) (EEins "abij->baij" [(EVar "contracted_intermediate")]))) (EScale (1 # 1) (EEins "abij->baji" [(EVar "contracted_intermediate")])));
   (*L1731*) SAssign "contracted_intermediate" (EScale (1 # 2) (EEins "nmef,klcd,edmj,fakl,cbni->abij" [(ESlice (EVar "g_aaaa") [SV "o"; SV "o"; SV "v"; SV "v"]); (EVar "l2_abab"); (EVar "t2_abab"); (EVar "t2_abab"); (EVar "t2_abab")]));
   (*L1732*) SAug true "double_res" (EAdd (EAdd (EAdd (EScale (1 # 1) (EVar "contracted_intermediate")) (EScale (-1 # 1) (EEins "abij->abji" [(EVar "contracted_intermediate")]))) (EScale (-1 # 1) (EEins "abij->baij" [(EVar "contracted_intermediate")]))) (EScale (1 # 1) (EEins "abij->baji" [(EVar "contracted_intermediate")])));
   (*L1735*) SAssign "contracted_intermediate" (EScale (1 # 2) (EEins "nmfe,klcd,edjm,fakl,cbni->abij" [(ESlice (EVar "g_abab") [SV "o"; SV "o"; SV "v"; SV "v"]); (EVar "l2_abab"); (EVar "t2_bbbb"); (EVar "t2_abab"); (EVar "t2_abab")]));
   (*L1736*) SAug true "double_res" (EAdd (EAdd (EAdd (EScale (1 # 1) (EVar "contracted_intermediate")) (EScale (-1 # 1) (EEins "abij->abji" [(EVar "contracted_intermediate")]))) (EScale (-1 # 1) (EEins "abij->baij" [(EVar "contracted_intermediate")]))) (EScale (1 # 1) (EEins "abij->baji" [(EVar "contracted_intermediate")])));
   (*L1739*) SAssign "contracted_intermediate" (EScale (-1 # 2) (EEins "mnfe,lkdc,demj,falk,cbin->abij" [(ESlice (EVar "g_abab") [SV "o"; SV "o"; SV "v"; SV "v"]); (EVar "l2_abab"); (EVar "t2_abab"); (EVar "t2_abab"); (EVar "t2_bbbb")]));
   (*L1740*) SAug true "double_res" (EAdd (EAdd (EAdd (EScale (1 # 1) (EVar "contracted_intermediate")) (EScale (-1 # 1) (EEins "abij->abji" [(EVar "contracted_intermediate")]))) (EScale (-1 # 1) (EEins "abij->baij" [(EVar "contracted_intermediate")]))) (EScale (1 # 1) (EEins "abij->baji" [(EVar "contracted_intermediate")])));
   (*L1743*) SAssign "contracted_intermediate" (EScale (1 # 2) (EEins "nmef,lkcd,edmj,falk,cbni->abij" [(ESlice (EVar "g_aaaa") [SV "o"; SV "o"; SV "v"; SV "v"]); (EVar "l2_abab"); (EVar "t2_abab"); (EVar "t2_abab"); (EVar "t2_abab")]));
   (*L1744*) SAug true "double_res" (EAdd (EAdd (EAdd (EScale (1 # 1) (EVar "contracted_intermediate")) (EScale (-1 # 1) (EEins "abij->abji" [(EVar "contracted_intermediate")]))) (EScale (-1 # 1) (EEins "abij->baij" [(EVar "contracted_intermediate")]))) (EScale (1 # 1) (EEins "abij->baji" [(EVar "contracted_intermediate")])));
   (*L1747*) SAssign "contracted_intermediate" (EScale (1 # 2) (EEins "nmfe,lkcd,edjm,falk,cbni->abij" [(ESlice (EVar "g_abab") [SV "o"; SV "o"; SV "v"; SV "v"]); (EVar "l2_abab"); (EVar "t2_bbbb"); (EVar "t2_abab"); (EVar "t2_abab")]));
   (*L1748*) SAug true "double_res" (EAdd (EAdd (EAdd (EScale (1 # 1) (EVar "contracted_intermediate")) (EScale (-1 # 1) (EEins "abij->abji" [(EVar "contracted_intermediate")]))) (EScale (-1 # 1) (EEins "abij->baij" [(EVar "contracted_intermediate")]))) (EScale (1 # 1) (EEins "abij->baji" [(EVar "contracted_intermediate")])));
   (*L1751*) SAssign "contracted_intermediate" (EScale (-1 # 2) (EEins "mnef,kldc,edmj,fakl,cbin->abij" [(ESlice (EVar "g_abab") [SV "o"; SV "o"; SV "v"; SV "v"]); (EVar "l2_bbbb"); (EVar "t2_abab"); (EVar "t2_bbbb"); (EVar "t2_bbbb")]));
   (*L1752*) SAug true "double_res" (EAdd (EAdd (EAdd (EScale (1 # 1) (EVar "contracted_intermediate")) (EScale (-1 # 1) (EEins "abij->abji" [(EVar "contracted_intermediate")]))) (EScale (-1 # 1) (EEins "abij->baij" [(EVar "contracted_intermediate")]))) (EScale (1 # 1) (EEins "abij->baji" [(EVar "contracted_intermediate")])));
   (*L1755*) SAssign "contracted_intermediate" (EScale (-1 # 2) (EEins "nmef,kldc,edjm,fakl,cbin->abij" [(ESlice (EVar "g_bbbb") [SV "o"; SV "o"; SV "v"; SV "v"]); (EVar "l2_bbbb"); (EVar "t2_bbbb"); (EVar "t2_bbbb"); (EVar "t2_bbbb")]));
   (*L1756*) SAug true "double_res" (EAdd (EAdd (EAdd (EScale (1 # 1) (EVar "contracted_intermediate")) (EScale (-1 # 1) (EEins "abij->abji" [(EVar "contracted_intermediate")]))) (EScale (-1 # 1) (EEins "abij->baij" [(EVar "contracted_intermediate")]))) (EScale (1 # 1) (EEins "abij->baji" [(EVar "contracted_intermediate")])));
   (*L1759*) SAssign "contracted_intermediate" (EScale (-1 # 1) (EEins "mnfe,kldc,demj,fali,cbkn->abij" [(ESlice (EVar "g_abab") [SV "o"; SV "o"; SV "v"; SV "v"]); (EVar "l2_aaaa"); (EVar "t2_abab"); (EVar "t2_abab"); (EVar "t2_abab")]));
   (*L1760*) SAug true "double_res" (EAdd (EAdd (EAdd (EScale (1 # 1) (EVar "contracted_intermediate")) (EScale (-1 # 1) (EEins "abij->abji" [(EVar "contracted_intermediate")]))) (EScale (-1 # 1) (EEins "abij->baij" [(EVar "contracted_intermediate")]))) (EScale (1 # 1) (EEins "abij->baji" [(EVar "contracted_intermediate")])));
   (*L1763*) SAssign "contracted_intermediate" (EScale (-1 # 1) (EEins "mnef,klcd,edmj,fail,cbkn->abij" [(ESlice (EVar "g_abab") [SV "o"; SV "o"; SV "v"; SV "v"]); (EVar "l2_abab"); (EVar "t2_abab"); (EVar "t2_bbbb"); (EVar "t2_abab")]));
   (*L1764*) SAug true "double_res" (EAdd (EAdd (EAdd (EScale (1 # 1) (EVar "contracted_intermediate")) (EScale (-1 # 1) (EEins "abij->abji" [(EVar "contracted_intermediate")]))) (EScale (-1 # 1) (EEins "abij->baij" [(EVar "contracted_intermediate")]))) (EScale (1 # 1) (EEins "abij->baji" [(EVar "contracted_intermediate")])));
   (*L1767*) SAssign "contracted_intermediate" (EScale (-1 # 1) (EEins "nmef,klcd,edjm,fail,cbkn->abij" [(ESlice (EVar "g_bbbb") [SV "o"; SV "o"; SV "v"; SV "v"]); (EVar "l2_abab"); (EVar "t2_bbbb"); (EVar "t2_bbbb"); (EVar "t2_abab")]));
   (*L1768*) SAug true "double_res" (EAdd (EAdd (EAdd (EScale (1 # 1) (EVar "contracted_intermediate")) (EScale (-1 # 1) (EEins "abij->abji" [(EVar "contracted_intermediate")]))) (EScale (-1 # 1) (EEins "abij->baij" [(EVar "contracted_intermediate")]))) (EScale (1 # 1) (EEins "abij->baji" [(EVar "contracted_intermediate")])));
   (*L1771*) SAssign "contracted_intermediate" (EScale (1 # 1) (EEins "mnfe,lkdc,demj,fali,cbkn->abij" [(ESlice (EVar "g_abab") [SV "o"; SV "o"; SV "v"; SV "v"]); (EVar "l2_abab"); (EVar "t2_abab"); (EVar "t2_abab"); (EVar "t2_bbbb")]));
   (*L1772*) SAug true "double_res" (EAdd (EAdd (EAdd (EScale (1 # 1) (EVar "contracted_intermediate")) (EScale (-1 # 1) (EEins "abij->abji" [(EVar "contracted_intermediate")]))) (EScale (-1 # 1) (EEins "abij->baij" [(EVar "contracted_intermediate")]))) (EScale (1 # 1) (EEins "abij->baji" [(EVar "contracted_intermediate")])));
   (*L1775*) SAssign "contracted_intermediate" (EScale (-1 # 1) (EEins "nmef,lkcd,edmj,fali,cbnk->abij" [(ESlice (EVar "g_aaaa") [SV "o"; SV "o"; SV "v"; SV "v"]); (EVar "l2_abab"); (EVar "t2_abab"); (EVar "t2_abab"); (EVar "t2_abab")]));
   (*L1776*) SAug true "double_res" (EAdd (EAdd (EAdd (EScale (1 # 1) (EVar "contracted_intermediate")) (EScale (-1 # 1) (EEins "abij->abji" [(EVar "contracted_intermediate")]))) (EScale (-1 # 1) (EEins "abij->baij" [(EVar "contracted_intermediate")]))) (EScale (1 # 1) (EEins "abij->baji" [(EVar "contracted_intermediate")])));
   (*L1779*) SAssign "contracted_intermediate" (EScale (-1 # 1) (EEins "nmfe,lkcd,edjm,fali,cbnk->abij" [(ESlice (EVar "g_abab") [SV "o"; SV "o"; SV "v"; SV "v"]); (EVar "l2_abab"); (EVar "t2_bbbb"); (EVar "t2_abab"); (EVar "t2_abab")]));
   (*L1780*) SAug true "double_res" (EAdd (EAdd (EAdd (EScale (1 # 1) (EVar "contracted_intermediate")) (EScale (-1 # 1) (EEins "abij->abji" [(EVar "contracted_intermediate")]))) (EScale (-1 # 1) (EEins "abij->baij" [(EVar "contracted_intermediate")]))) (EScale (1 # 1) (EEins "abij->baji" [(EVar "contracted_intermediate")])));
   (*L1783*) SAssign "contracted_intermediate" (EScale (1 # 1) (EEins "mnef,kldc,edmj,fail,cbkn->abij" [(ESlice (EVar "g_abab") [SV "o"; SV "o"; SV "v"; SV "v"]); (EVar "l2_bbbb"); (EVar "t2_abab"); (EVar "t2_bbbb"); (EVar "t2_bbbb")]));
   (*L1784*) SAug true "double_res" (EAdd (EAdd (EAdd (EScale (1 # 1) (EVar "contracted_intermediate")) (EScale (-1 # 1) (EEins "abij->abji" [(EVar "contracted_intermediate")]))) (EScale (-1 # 1) (EEins "abij->baij" [(EVar "contracted_intermediate")]))) (EScale (1 # 1) (EEins "abij->baji" [(EVar "contracted_intermediate")])));
   (*L1787*) SAssign "contracted_intermediate" (EScale (1 # 1) (EEins "nmef,kldc,edjm,fail,cbkn->abij" [(ESlice (EVar "g_bbbb") [SV "o"; SV "o"; SV "v"; SV "v"]); (EVar "l2_bbbb"); (EVar "t2_bbbb"); (EVar "t2_bbbb"); (EVar "t2_bbbb")]));
   (*L1788*) SAug true "double_res" (EAdd (EAdd (EAdd (EScale (1 # 1) (EVar "contracted_intermediate")) (EScale (-1 # 1) (EEins "abij->abji" [(EVar "contracted_intermediate")]))) (EScale (-1 # 1) (EEins "abij->baij" [(EVar "contracted_intermediate")]))) (EScale (1 # 1) (EEins "abij->baji" [(EVar "contracted_intermediate")])));
   (*L1791*) SAug true "double_res" (EScale (1 # 4) (EEins "nmef,kldc,dekl,fcij,abnm->abij" [(ESlice (EVar "g_bbbb") [SV "o"; SV "o"; SV "v"; SV "v"]); (EVar "l2_abab"); (EVar "t2_abab"); (EVar "t2_bbbb"); (EVar "t2_bbbb")]));
   (*L1794*) SAug true "double_res" (EScale (1 # 4) (EEins "nmef,lkdc,delk,fcij,abnm->abij" [(ESlice (EVar "g_bbbb") [SV "o"; SV "o"; SV "v"; SV "v"]); (EVar "l2_abab"); (EVar "t2_abab"); (EVar "t2_bbbb"); (EVar "t2_bbbb")]));
   (*L1797*) SAug true "double_res" (EScale (-1 # 4) (EEins "nmef,kldc,edkl,fcij,abnm->abij" [(ESlice (EVar "g_bbbb") [SV "o"; SV "o"; SV "v"; SV "v"]); (EVar "l2_bbbb"); (EVar "t2_bbbb"); (EVar "t2_bbbb"); (EVar "t2_bbbb")]));
   (*L1800*) SAssign "contracted_intermediate" (EScale (-1 # 2) (EEins "nmef,kldc,edkl,famj,cbni->abij" [(ESlice (EVar "g_aaaa") [SV "o"; SV "o"; SV "v"; SV "v"]); (EVar "l2_aaaa"); (EVar "t2_aaaa"); (EVar "t2_abab"); (EVar "t2_abab")]));
   (*L1801*) SAug true "double_res" (EAdd (EAdd (EAdd (EScale (1 # 1) (EVar "contracted_intermediate")) (EScale (-1 # 1) (EEins "abij->abji" [(EVar "contracted_intermediate")]))) (EScale (-1 # 1) (EEins "abij->baij" [(EVar "contracted_intermediate")]))) (EScale (1 # 1) (EEins "abij->baji" [(EVar "contracted_intermediate")])));
   (*L1804*) SAssign "contracted_intermediate" (EScale (1 # 2) (EEins "nmef,kldc,edkl,fajm,cbni->abij" [(ESlice (EVar "g_abab") [SV "o"; SV "o"; SV "v"; SV "v"]); (EVar "l2_aaaa"); (EVar "t2_aaaa"); (EVar "t2_bbbb"); (EVar "t2_abab")]));
   (*L1805*) SAug true "double_res" (EAdd (EAdd (EAdd (EScale (1 # 1) (EVar "contracted_intermediate")) (EScale (-1 # 1) (EEins "abij->abji" [(EVar "contracted_intermediate")]))) (EScale (-1 # 1) (EEins "abij->baij" [(EVar "contracted_intermediate")]))) (EScale (1 # 1) (EEins "abij->baji" [(EVar "contracted_intermediate")])));
   (*L1808*) SAssign "contracted_intermediate" (EScale (-1 # 2) (EEins "mnfe,kldc,dekl,famj,cbin->abij" [(ESlice (EVar "g_abab") [SV "o"; SV "o"; SV "v"; SV "v"]); (EVar "l2_abab"); (EVar "t2_abab"); (EVar "t2_abab"); (EVar "t2_bbbb")]));
   (*L1809*) SAug true "double_res" (EAdd (EAdd (EAdd (EScale (1 # 1) (EVar "contracted_intermediate")) (EScale (-1 # 1) (EEins "abij->abji" [(EVar "contracted_intermediate")]))) (EScale (-1 # 1) (EEins "abij->baij" [(EVar "contracted_intermediate")]))) (EScale (1 # 1) (EEins "abij->baji" [(EVar "contracted_intermediate")])));
   (*L1812*) SAssign "contracted_intermediate" (EScale (1 # 2) (EEins "nmef,kldc,dekl,fajm,cbin->abij" [(ESlice (EVar "g_bbbb") [SV "o"; SV "o"; SV "v"; SV "v"]); (EVar "l2_abab"); (EVar "t2_abab"); (EVar "t2_bbbb"); (EVar "t2_bbbb")]));
   (*L1813*) SAug true "double_res" (EAdd (EAdd (EAdd (EScale (1 # 1) (EVar "contracted_intermediate")) (EScale (-1 # 1) (EEins "abij->abji" [(EVar "contracted_intermediate")]))) (EScale (-1 # 1) (EEins "abij->baij" [(EVar "contracted_intermediate")]))) (EScale (1 # 1) (EEins "abij->baji" [(EVar "contracted_intermediate")])));
   (*L1816*) SAssign "contracted_intermediate" (EScale (1 # 2) (EEins "nmef,klcd,edkl,famj,cbni->abij" [(ESlice (EVar "g_aaaa") [SV "o"; SV "o"; SV "v"; SV "v"]); (EVar "l2_abab"); (EVar "t2_abab"); (EVar "t2_abab"); (EVar "t2_abab")]));
   (*L1817*) SAug true "double_res" (EAdd (EAdd (EAdd (EScale (1 # 1) (EVar "contracted_intermediate")) (EScale (-1 # 1) (EEins "abij->abji" [(EVar "contracted_intermediate")]))) (EScale (-1 # 1) (EEins "abij->baij" [(EVar "contracted_intermediate")]))) (EScale (1 # 1) (EEins "abij->baji" [(EVar "contracted_intermediate")])));
   (*L1820*) SAssign "contracted_intermediate" (EScale (-1 # 2) (EEins "nmef,klcd,edkl,fajm,cbni->abij" [(ESlice (EVar "g_abab") [SV "o"; SV "o"; SV "v"; SV "v"]); (EVar "l2_abab"); (EVar "t2_abab"); (EVar "t2_bbbb"); (EVar "t2_abab")]));
   (*L1821*) SAug true "double_res" (EAdd (EAdd (EAdd (EScale (1 # 1) (EVar "contracted_intermediate")) (EScale (-1 # 1) (EEins "abij->abji" [(EVar "contracted_intermediate")]))) (EScale (-1 # 1) (EEins "abij->baij" [(EVar "contracted_intermediate")]))) (EScale (1 # 1) (EEins "abij->baji" [(EVar "contracted_intermediate")])));
   (*L1824*) SAssign "contracted_intermediate" (EScale (-1 # 2) (EEins "mnfe,lkdc,delk,famj,cbin->abij" [(ESlice (EVar "g_abab") [SV "o"; SV "o"; SV "v"; SV "v"]); (EVar "l2_abab"); (EVar "t2_abab"); (EVar "t2_abab"); (EVar "t2_bbbb")]));
   (*L1825*) SAug true "double_res" (EAdd (EAdd (EAdd (EScale (1 # 1) (EVar "contracted_intermediate")) (EScale (-1 # 1) (EEins "abij->abji" [(EVar "contracted_intermediate")]))) (EScale (-1 # 1) (EEins "abij->baij" [(EVar "contracted_intermediate")]))) (EScale (1 # 1) (EEins "abij->baji" [(EVar "contracted_intermediate")])));
   (*L1828*) SAssign "contracted_intermediate" (EScale (1 # 2) (EEins "nmef,lkdc,delk,fajm,cbin->abij" [(ESlice (EVar "g_bbbb") [SV "o"; SV "o"; SV "v"; SV "v"]); (EVar "l2_abab"); (EVar "t2_abab"); (EVar "t2_bbbb"); (EVar "t2_bbbb")]));
   (*L1829*) SAug true "double_res" (EAdd (EAdd (EAdd (EScale (1 # 1) (EVar "contracted_intermediate")) (EScale (-1 # 1) (EEins "abij->abji" [(EVar "contracted_intermediate")]))) (EScale (-1 # 1) (EEins "abij->baij" [(EVar "contracted_intermediate")]))) (EScale (1 # 1) (EEins "abij->baji" [(EVar "contracted_intermediate")])));
   (*L1832*) SAssign "contracted_intermediate" (EScale (1 # 2) (EEins "nmef,lkcd,edlk,famj,cbni->abij" [(ESlice (EVar "g_aaaa") [SV "o"; SV "o"; SV "v"; SV "v"]); (EVar "l2_abab"); (EVar "t2_abab"); (EVar "t2_abab"); (EVar "t2_abab")]));
   (*L1833*) SAug true "double_res" (EAdd (EAdd (EAdd (EScale (1 # 1) (EVar "contracted_intermediate")) (EScale (-1 # 1) (EEins "abij->abji" [(EVar "contracted_intermediate")]))) (EScale (-1 # 1) (EEins "abij->baij" [(EVar "contracted_intermediate")]))) (EScale (1 # 1) (EEins "abij->baji" [(EVar "contracted_intermediate")])));
   (*L1836*) SAssign "contracted_intermediate" (EScale (-1 # 2) (EEins "nmef,lkcd,edlk,fajm,cbni->abij" [(ESlice (EVar "g_abab") [SV "o"; SV "o"; SV "v"; SV "v"]); (EVar "l2_abab"); (EVar "t2_abab"); (EVar "t2_bbbb"); (EVar "t2_abab")]));
   (*L1837*) SAug true "double_res" (EAdd (EAdd (EAdd (EScale (1 # 1) (EVar "contracted_intermediate")) (EScale (-1 # 1) (EEins "abij->abji" [(EVar "contracted_intermediate")]))) (EScale (-1 # 1) (EEins "abij->baij" [(EVar "contracted_intermediate")]))) (EScale (1 # 1) (EEins "abij->baji" [(EVar "contracted_intermediate")])));
   (*L1840*) SAssign "contracted_intermediate" (EScale (1 # 2) (EEins "mnfe,kldc,edkl,famj,cbin->abij" [(ESlice (EVar "g_abab") [SV "o"; SV "o"; SV "v"; SV "v"]); (EVar "l2_bbbb"); (EVar "t2_bbbb"); (EVar "t2_abab"); (EVar "t2_bbbb")]));
   (*L1841*) SAug true "double_res" (EAdd (EAdd (EAdd (EScale (1 # 1) (EVar "contracted_intermediate")) (EScale (-1 # 1) (EEins "abij->abji" [(EVar "contracted_intermediate")]))) (EScale (-1 # 1) (EEins "abij->baij" [(EVar "contracted_intermediate")]))) (EScale (1 # 1) (EEins "abij->baji" [(EVar "contracted_intermediate")])));
   (*L1844*) SAssign "contracted_intermediate" (EScale (-1 # 2) (EEins "nmef,kldc,edkl,fajm,cbin->abij" [(ESlice (EVar "g_bbbb") [SV "o"; SV "o"; SV "v"; SV "v"]); (EVar "l2_bbbb"); (EVar "t2_bbbb"); (EVar "t2_bbbb"); (EVar "t2_bbbb")]));
   (*L1845*) SAug true "double_res" (EAdd (EAdd (EAdd (EScale (1 # 1) (EVar "contracted_intermediate")) (EScale (-1 # 1) (EEins "abij->abji" [(EVar "contracted_intermediate")]))) (EScale (-1 # 1) (EEins "abij->baij" [(EVar "contracted_intermediate")]))) (EScale (1 # 1) (EEins "abij->baji" [(EVar "contracted_intermediate")])));
   (*L1848*) SAssign "contracted_intermediate" (EScale (1 # 4) (EEins "nmef,kldc,edkl,faij,cbnm->abij" [(ESlice (EVar "g_abab") [SV "o"; SV "o"; SV "v"; SV "v"]); (EVar "l2_aaaa"); (EVar "t2_aaaa"); (EVar "t2_bbbb"); (EVar "t2_abab")]));
   (*L1849*) SAug true "double_res" (EAdd (EScale (1 # 1) (EVar "contracted_intermediate")) (EScale (-1 # 1) (EEins "abij->baij" [(EVar "contracted_intermediate")])));
   (*L1852*) SAssign "contracted_intermediate" (EScale (1 # 4) (EEins "mnef,kldc,edkl,faij,cbmn->abij" [(ESlice (EVar "g_abab") [SV "o"; SV "o"; SV "v"; SV "v"]); (EVar "l2_aaaa"); (EVar "t2_aaaa"); (EVar "t2_bbbb"); (EVar "t2_abab")]));
   (*L1853*) SAug true "double_res" (EAdd (EScale (1 # 1) (EVar "contracted_intermediate")) (EScale (-1 # 1) (EEins "abij->baij" [(EVar "contracted_intermediate")])));
   (*L1856*) SAssign "contracted_intermediate" (EScale (-1 # 4) (EEins "nmef,kldc,dekl,faij,cbnm->abij" [(ESlice (EVar "g_bbbb") [SV "o"; SV "o"; SV "v"; SV "v"]); (EVar "l2_abab"); (EVar "t2_abab"); (EVar "t2_bbbb"); (EVar "t2_bbbb")]));
   (*L1857*) SAug true "double_res" (EAdd (EScale (1 # 1) (EVar "contracted_intermediate")) (EScale (-1 # 1) (EEins "abij->baij" [(EVar "contracted_intermediate")])));
   (*L1860*) SAssign "contracted_intermediate" (EScale (-1 # 4) (EEins "nmef,klcd,edkl,faij,cbnm->abij" [(ESlice (EVar "g_abab") [SV "o"; SV "o"; SV "v"; SV "v"]); (EVar "l2_abab"); (EVar "t2_abab"); (EVar "t2_bbbb"); (EVar "t2_abab")]));
   (*L1861*) SAug true "double_res" (EAdd (EScale (1 # 1) (EVar "contracted_intermediate")) (EScale (-1 # 1) (EEins "abij->baij" [(EVar "contracted_intermediate")])));
   (*L1864*) SAssign "contracted_intermediate" (EScale (-1 # 4) (EEins "mnef,klcd,edkl,faij,cbmn->abij" [(ESlice (EVar "g_abab") [SV "o"; SV "o"; SV "v"; SV "v"]); (EVar "l2_abab"); (EVar "t2_abab"); (EVar "t2_bbbb"); (EVar "t2_abab")]));
   (*L1865*) SAug true "double_res" (EAdd (EScale (1 # 1) (EVar "contracted_intermediate")) (EScale (-1 # 1) (EEins "abij->baij" [(EVar "contracted_intermediate")])));
   (*L1868*) SAssign "contracted_intermediate" (EScale (-1 # 4) (EEins "nmef,lkdc,delk,faij,cbnm->abij" [(ESlice (EVar "g_bbbb") [SV "o"; SV "o"; SV "v"; SV "v"]); (EVar "l2_abab"); (EVar "t2_abab"); (EVar "t2_bbbb"); (EVar "t2_bbbb")]));
   (*L1869*) SAug true "double_res" (EAdd (EScale (1 # 1) (EVar "contracted_intermediate")) (EScale (-1 # 1) (EEins "abij->baij" [(EVar "contracted_intermediate")])));
   (*L1872*) SAssign "contracted_intermediate" (EScale (-1 # 4) (EEins "nmef,lkcd,edlk,faij,cbnm->abij" [(ESlice (EVar "g_abab") [SV "o"; SV "o"; SV "v"; SV "v"]); (EVar "l2_abab"); (EVar "t2_abab"); (EVar "t2_bbbb"); (EVar "t2_abab")]));
   (*L1873*) SAug true "double_res" (EAdd (EScale (1 # 1) (EVar "contracted_intermediate")) (EScale (-1 # 1) (EEins "abij->baij" [(EVar "contracted_intermediate")])));
   (*L1876*) SAssign "contracted_intermediate" (EScale (-1 # 4) (EEins "mnef,lkcd,edlk,faij,cbmn->abij" [(ESlice (EVar "g_abab") [SV "o"; SV "o"; SV "v"; SV "v"]); (EVar "l2_abab"); (EVar "t2_abab"); (EVar "t2_bbbb"); (EVar "t2_abab")]));
   (*L1877*) SAug true "double_res" (EAdd (EScale (1 # 1) (EVar "contracted_intermediate")) (EScale (-1 # 1) (EEins "abij->baij" [(EVar "contracted_intermediate")])));
   (*L1880*) SAssign "contracted_intermediate" (EScale (1 # 4) (EEins "nmef,kldc,edkl,faij,cbnm->abij" [(ESlice (EVar "g_bbbb") [SV "o"; SV "o"; SV "v"; SV "v"]); (EVar "l2_bbbb"); (EVar "t2_bbbb"); (EVar "t2_bbbb"); (EVar "t2_bbbb")]));
   (*L1881*) SAug true "double_res" (EAdd (EScale (1 # 1) (EVar "contracted_intermediate")) (EScale (-1 # 1) (EEins "abij->baij" [(EVar "contracted_intermediate")])));
   (*L1884*) SAssign "contracted_intermediate" (EScale (-1 # 2) (EEins "mnfe,kldc,delj,fckm,abin->abij" [(ESlice (EVar "g_abab") [SV "o"; SV "o"; SV "v"; SV "v"]); (EVar "l2_aaaa"); (EVar "t2_abab"); (EVar "t2_aaaa"); (EVar "t2_bbbb")]));
   (*L1885*) SAug true "double_res" (EAdd (EScale (1 # 1) (EVar "contracted_intermediate")) (EScale (-1 # 1) (EEins "abij->abji" [(EVar "contracted_intermediate")])));
   (*L1888*) SAssign "contracted_intermediate" (EScale (1 # 2) (EEins "nmef,kldc,delj,cfkm,abin->abij" [(ESlice (EVar "g_bbbb") [SV "o"; SV "o"; SV "v"; SV "v"]); (EVar "l2_aaaa"); (EVar "t2_abab"); (EVar "t2_abab"); (EVar "t2_bbbb")]));
   (*L1889*) SAug true "double_res" (EAdd (EScale (1 # 1) (EVar "contracted_intermediate")) (EScale (-1 # 1) (EEins "abij->abji" [(EVar "contracted_intermediate")])));
   (*L1892*) SAssign "contracted_intermediate" (EScale (1 # 2) (EEins "mnfe,klcd,edjl,fckm,abin->abij" [(ESlice (EVar "g_abab") [SV "o"; SV "o"; SV "v"; SV "v"]); (EVar "l2_abab"); (EVar "t2_bbbb"); (EVar "t2_aaaa"); (EVar "t2_bbbb")]));
   (*L1893*) SAug true "double_res" (EAdd (EScale (1 # 1) (EVar "contracted_intermediate")) (EScale (-1 # 1) (EEins "abij->abji" [(EVar "contracted_intermediate")])));
   (*L1896*) SAssign "contracted_intermediate" (EScale (-1 # 2) (EEins "nmef,klcd,edjl,cfkm,abin->abij" [(ESlice (EVar "g_bbbb") [SV "o"; SV "o"; SV "v"; SV "v"]); (EVar "l2_abab"); (EVar "t2_bbbb"); (EVar "t2_abab"); (EVar "t2_bbbb")]));
   (*L1897*) SAug true "double_res" (EAdd (EScale (1 # 1) (EVar "contracted_intermediate")) (EScale (-1 # 1) (EEins "abij->abji" [(EVar "contracted_intermediate")])));
   (*L1900*) SAssign "contracted_intermediate" (EScale (-1 # 2) (EEins "mnfe,lkdc,delj,fcmk,abin->abij" [(ESlice (EVar "g_abab") [SV "o"; SV "o"; SV "v"; SV "v"]); (EVar "l2_abab"); (EVar "t2_abab"); (EVar "t2_abab"); (EVar "t2_bbbb")]));
   (*L1901*) SAug true "double_res" (EAdd (EScale (1 # 1) (EVar "contracted_intermediate")) (EScale (-1 # 1) (EEins "abij->abji" [(EVar "contracted_intermediate")])));
   (*L1904*) SAssign "contracted_intermediate" (EScale (1 # 2) (EEins "nmef,lkdc,delj,fckm,abin->abij" [(ESlice (EVar "g_bbbb") [SV "o"; SV "o"; SV "v"; SV "v"]); (EVar "l2_abab"); (EVar "t2_abab"); (EVar "t2_bbbb"); (EVar "t2_bbbb")]));
   (*L1905*) SAug true "double_res" (EAdd (EScale (1 # 1) (EVar "contracted_intermediate")) (EScale (-1 # 1) (EEins "abij->abji" [(EVar "contracted_intermediate")])));
   (*L1908*) SAssign "contracted_intermediate" (EScale (-1 # 2) (EEins "mnef,lkcd,edlj,cfmk,abin->abij" [(ESlice (EVar "g_abab") [SV "o"; SV "o"; SV "v"; SV "v"]); (EVar "l2_abab"); (EVar "t2_abab"); (EVar "t2_abab"); (EVar "t2_bbbb")]));
   (*L1909*) SAug true "double_res" (EAdd (EScale (1 # 1) (EVar "contracted_intermediate")) (EScale (-1 # 1) (EEins "abij->abji" [(EVar "contracted_intermediate")])));
   (*L1912*) SAssign "contracted_intermediate" (EScale (1 # 2) (EEins "mnfe,kldc,edjl,fcmk,abin->abij" [(ESlice (EVar "g_abab") [SV "o"; SV "o"; SV "v"; SV "v"]); (EVar "l2_bbbb"); (EVar "t2_bbbb"); (EVar "t2_abab"); (EVar "t2_bbbb")]));
   (*L1913*) SAug true "double_res" (EAdd (EScale (1 # 1) (EVar "contracted_intermediate")) (EScale (-1 # 1) (EEins "abij->abji" [(EVar "contracted_intermediate")])));
   (*L1916*) SAssign "contracted_intermediate" (EScale (-1 # 2) (EEins "nmef,kldc,edjl,fckm,abin->abij" [(ESlice (EVar "g_bbbb") [SV "o"; SV "o"; SV "v"; SV "v"]); (EVar "l2_bbbb"); (EVar "t2_bbbb"); (EVar "t2_bbbb"); (EVar "t2_bbbb")]));
   (*L1917*) SAug true "double_res" (EAdd (EScale (1 # 1) (EVar "contracted_intermediate")) (EScale (-1 # 1) (EEins "abij->abji" [(EVar "contracted_intermediate")])));
   (*L1920*) SAssign "contracted_intermediate" (EScale (1 # 4) (EEins "nmef,kldc,delj,cfki,abnm->abij" [(ESlice (EVar "g_bbbb") [SV "o"; SV "o"; SV "v"; SV "v"]); (EVar "l2_aaaa"); (EVar "t2_abab"); (EVar "t2_abab"); (EVar "t2_bbbb")]));
   (*L1921*) SAug true "double_res" (EAdd (EScale (1 # 1) (EVar "contracted_intermediate")) (EScale (-1 # 1) (EEins "abij->abji" [(EVar "contracted_intermediate")])));
   (*L1924*) SAssign "contracted_intermediate" (EScale (-1 # 4) (EEins "nmef,klcd,edjl,cfki,abnm->abij" [(ESlice (EVar "g_bbbb") [SV "o"; SV "o"; SV "v"; SV "v"]); (EVar "l2_abab"); (EVar "t2_bbbb"); (EVar "t2_abab"); (EVar "t2_bbbb")]));
   (*L1925*) SAug true "double_res" (EAdd (EScale (1 # 1) (EVar "contracted_intermediate")) (EScale (-1 # 1) (EEins "abij->abji" [(EVar "contracted_intermediate")])));
   (*L1928*) SAssign "contracted_intermediate" (EScale (-1 # 4) (EEins "nmef,lkdc,delj,fcik,abnm->abij" [(ESlice (EVar "g_bbbb") [SV "o"; SV "o"; SV "v"; SV "v"]); (EVar "l2_abab"); (EVar "t2_abab"); (EVar "t2_bbbb"); (EVar "t2_bbbb")]));
   (*L1929*) SAug true "double_res" (EAdd (EScale (1 # 1) (EVar "contracted_intermediate")) (EScale (-1 # 1) (EEins "abij->abji" [(EVar "contracted_intermediate")])));
   (*L1932*) SAssign "contracted_intermediate" (EScale (1 # 4) (EEins "nmef,kldc,edjl,fcik,abnm->abij" [(ESlice (EVar "g_bbbb") [SV "o"; SV "o"; SV "v"; SV "v"]); (EVar "l2_bbbb"); (EVar "t2_bbbb"); (EVar "t2_bbbb"); (EVar "t2_bbbb")]));
   (*L1933*) SAug true "double_res" (EAdd (EScale (1 # 1) (EVar "contracted_intermediate")) (EScale (-1 # 1) (EEins "abij->abji" [(EVar "contracted_intermediate")])));
   (*L1936*) SAssign "contracted_intermediate" (EScale (91666666666667 # 100000000000000) (EEins "nmfe,kldc,delj,fakm,cbni->abij" [(ESlice (EVar "g_abab") [SV "o"; SV "o"; SV "v"; SV "v"]); (EVar "l2_aaaa"); (EVar "t2_abab"); (EVar "t2_abab"); (EVar "t2_abab")]));
   (*L1937*) SAug true "double_res" (EAdd (EAdd (EAdd (EScale (1 # 1) (EVar "contracted_intermediate")) (EScale (-1 # 1) (EEins "abij->abji" [(EVar "contracted_intermediate")]))) (EScale (-1 # 1) (EEins "abij->baij" [(EVar "contracted_intermediate")]))) (EScale (1 # 1) (EEins "abij->baji" [(EVar "contracted_intermediate")])));
   (*L1940*) SAssign "contracted_intermediate" (EScale (-91666666666667 # 100000000000000) (EEins "nmfe,klcd,edjl,fakm,cbni->abij" [(ESlice (EVar "g_abab") [SV "o"; SV "o"; SV "v"; SV "v"]); (EVar "l2_abab"); (EVar "t2_bbbb"); (EVar "t2_abab"); (EVar "t2_abab")]));
   (*L1941*) SAug true "double_res" (EAdd (EAdd (EAdd (EScale (1 # 1) (EVar "contracted_intermediate")) (EScale (-1 # 1) (EEins "abij->abji" [(EVar "contracted_intermediate")]))) (EScale (-1 # 1) (EEins "abij->baij" [(EVar "contracted_intermediate")]))) (EScale (1 # 1) (EEins "abij->baji" [(EVar "contracted_intermediate")])));
   (*L1944*) SAssign "contracted_intermediate" (EScale (91666666666667 # 100000000000000) (EEins "mnfe,lkdc,delj,famk,cbin->abij" [(ESlice (EVar "g_abab") [SV "o"; SV "o"; SV "v"; SV "v"]); (EVar "l2_abab"); (EVar "t2_abab"); (EVar "t2_abab"); (EVar "t2_bbbb")]));
   (*L1945*) SAug true "double_res" (EAdd (EAdd (EAdd (EScale (1 # 1) (EVar "contracted_intermediate")) (EScale (-1 # 1) (EEins "abij->abji" [(EVar "contracted_intermediate")]))) (EScale (-1 # 1) (EEins "abij->baij" [(EVar "contracted_intermediate")]))) (EScale (1 # 1) (EEins "abij->baji" [(EVar "contracted_intermediate")])));
   (*L1948*) SAssign "contracted_intermediate" (EScale (-91666666666667 # 100000000000000) (EEins "nmef,lkdc,delj,fakm,cbin->abij" [(ESlice (EVar "g_bbbb") [SV "o"; SV "o"; SV "v"; SV "v"]); (EVar "l2_abab"); (EVar "t2_abab"); (EVar "t2_bbbb"); (EVar "t2_bbbb")]));
   (*L1949*) SAug true "double_res" (EAdd (EAdd (EAdd (EScale (1 # 1) (EVar "contracted_intermediate")) (EScale (-1 # 1) (EEins "abij->abji" [(EVar "contracted_intermediate")]))) (EScale (-1 # 1) (EEins "abij->baij" [(EVar "contracted_intermediate")]))) (EScale (1 # 1) (EEins "abij->baji" [(EVar "contracted_intermediate")])));
   (*L1952*) SAssign "contracted_intermediate" (EScale (-91666666666667 # 100000000000000) (EEins "nmef,lkcd,edlj,famk,cbni->abij" [(ESlice (EVar "g_aaaa") [SV "o"; SV "o"; SV "v"; SV "v"]); (EVar "l2_abab"); (EVar "t2_abab"); (EVar "t2_abab"); (EVar "t2_abab")]));
   (*L1953*) SAug true "double_res" (EAdd (EAdd (EAdd (EScale (1 # 1) (EVar "contracted_intermediate")) (EScale (-1 # 1) (EEins "abij->abji" [(EVar "contracted_intermediate")]))) (EScale (-1 # 1) (EEins "abij->baij" [(EVar "contracted_intermediate")]))) (EScale (1 # 1) (EEins "abij->baji" [(EVar "contracted_intermediate")])));
   (*L1956*) SAssign "contracted_intermediate" (EScale (91666666666667 # 100000000000000) (EEins "nmef,lkcd,edlj,fakm,cbni->abij" [(ESlice (EVar "g_abab") [SV "o"; SV "o"; SV "v"; SV "v"]); (EVar "l2_abab"); (EVar "t2_abab"); (EVar "t2_bbbb"); (EVar "t2_abab")]));
   (*L1957*) SAug true "double_res" (EAdd (EAdd (EAdd (EScale (1 # 1) (EVar "contracted_intermediate")) (EScale (-1 # 1) (EEins "abij->abji" [(EVar "contracted_intermediate")]))) (EScale (-1 # 1) (EEins "abij->baij" [(EVar "contracted_intermediate")]))) (EScale (1 # 1) (EEins "abij->baji" [(EVar "contracted_intermediate")])));
   (*L1960*) SAssign "contracted_intermediate" (EScale (-91666666666667 # 100000000000000) (EEins "mnfe,kldc,edjl,famk,cbin->abij" [(ESlice (EVar "g_abab") [SV "o"; SV "o"; SV "v"; SV "v"]); (EVar "l2_bbbb"); (EVar "t2_bbbb"); (EVar "t2_abab"); (EVar "t2_bbbb")]));
   (*L1961*) SAug true "double_res" (EAdd (EAdd (EAdd (EScale (1 # 1) (EVar "contracted_intermediate")) (EScale (-1 # 1) (EEins "abij->abji" [(EVar "contracted_intermediate")]))) (EScale (-1 # 1) (EEins "abij->baij" [(EVar "contracted_intermediate")]))) (EScale (1 # 1) (EEins "abij->baji" [(EVar "contracted_intermediate")])));
   (*L1964*) SAssign "contracted_intermediate" (EScale (91666666666667 # 100000000000000) (EEins "nmef,kldc,edjl,fakm,cbin->abij" [(ESlice (EVar "g_bbbb") [SV "o"; SV "o"; SV "v"; SV "v"]); (EVar "l2_bbbb"); (EVar "t2_bbbb"); (EVar "t2_bbbb"); (EVar "t2_bbbb")]));
   (*L1965*) SAug true "double_res" (EAdd (EAdd (EAdd (EScale (1 # 1) (EVar "contracted_intermediate")) (EScale (-1 # 1) (EEins "abij->abji" [(EVar "contracted_intermediate")]))) (EScale (-1 # 1) (EEins "abij->baij" [(EVar "contracted_intermediate")]))) (EScale (1 # 1) (EEins "abij->baji" [(EVar "contracted_intermediate")])));
   (*L1968*) SAssign "contracted_intermediate" (EScale (1 # 1) (EEins "mnfe,kldc,delj,fami,cbkn->abij" [(ESlice (EVar "g_abab") [SV "o"; SV "o"; SV "v"; SV "v"]); (EVar "l2_aaaa"); (EVar "t2_abab"); (EVar "t2_abab"); (EVar "t2_abab")]));
   (*L1969*) SAug true "double_res" (EAdd (EAdd (EAdd (EScale (1 # 1) (EVar "contracted_intermediate")) (EScale (-1 # 1) (EEins "abij->abji" [(EVar "contracted_intermediate")]))) (EScale (-1 # 1) (EEins "abij->baij" [(EVar "contracted_intermediate")]))) (EScale (1 # 1) (EEins "abij->baji" [(EVar "contracted_intermediate")])));
   (*L1972*) SAssign "contracted_intermediate" (EScale (-1 # 1) (EEins "nmef,kldc,delj,faim,cbkn->abij" [(ESlice (EVar "g_bbbb") [SV "o"; SV "o"; SV "v"; SV "v"]); (EVar "l2_aaaa"); (EVar "t2_abab"); (EVar "t2_bbbb"); (EVar "t2_abab")]));
   (*L1973*) SAug true "double_res" (EAdd (EAdd (EAdd (EScale (1 # 1) (EVar "contracted_intermediate")) (EScale (-1 # 1) (EEins "abij->abji" [(EVar "contracted_intermediate")]))) (EScale (-1 # 1) (EEins "abij->baij" [(EVar "contracted_intermediate")]))) (EScale (1 # 1) (EEins "abij->baji" [(EVar "contracted_intermediate")])));
   (*L1976*) SAssign "contracted_intermediate" (EScale (-1 # 1) (EEins "mnfe,klcd,edjl,fami,cbkn->abij" [(ESlice (EVar "g_abab") [SV "o"; SV "o"; SV "v"; SV "v"]); (EVar "l2_abab"); (EVar "t2_bbbb"); (EVar "t2_abab"); (EVar "t2_abab")]));
   (*L1977*) SAug true "double_res" (EAdd (EAdd (EAdd (EScale (1 # 1) (EVar "contracted_intermediate")) (EScale (-1 # 1) (EEins "abij->abji" [(EVar "contracted_intermediate")]))) (EScale (-1 # 1) (EEins "abij->baij" [(EVar "contracted_intermediate")]))) (EScale (1 # 1) (EEins "abij->baji" [(EVar "contracted_intermediate")])));
   (*L1980*) SAssign "contracted_intermediate" (EScale (1 # 1) (EEins "nmef,klcd,edjl,faim,cbkn->abij" [(ESlice (EVar "g_bbbb") [SV "o"; SV "o"; SV "v"; SV "v"]); (EVar "l2_abab"); (EVar "t2_bbbb"); (EVar "t2_bbbb"); (EVar "t2_abab")]));
   (*L1981*) SAug true "double_res" (EAdd (EAdd (EAdd (EScale (1 # 1) (EVar "contracted_intermediate")) (EScale (-1 # 1) (EEins "abij->abji" [(EVar "contracted_intermediate")]))) (EScale (-1 # 1) (EEins "abij->baij" [(EVar "contracted_intermediate")]))) (EScale (1 # 1) (EEins "abij->baji" [(EVar "contracted_intermediate")])));
   (*L1984*) SAssign "contracted_intermediate" (EScale (-1 # 1) (EEins "mnfe,lkdc,delj,fami,cbkn->abij" [(ESlice (EVar "g_abab") [SV "o"; SV "o"; SV "v"; SV "v"]); (EVar "l2_abab"); (EVar "t2_abab"); (EVar "t2_abab"); (EVar "t2_bbbb")]));
   (*L1985*) SAug true "double_res" (EAdd (EAdd (EAdd (EScale (1 # 1) (EVar "contracted_intermediate")) (EScale (-1 # 1) (EEins "abij->abji" [(EVar "contracted_intermediate")]))) (EScale (-1 # 1) (EEins "abij->baij" [(EVar "contracted_intermediate")]))) (EScale (1 # 1) (EEins "abij->baji" [(EVar "contracted_intermediate")])));
   (*L1988*) SAssign "contracted_intermediate" (EScale (1 # 1) (EEins "nmef,lkdc,delj,faim,cbkn->abij" [(ESlice (EVar "g_bbbb") [SV "o"; SV "o"; SV "v"; SV "v"]); (EVar "l2_abab"); (EVar "t2_abab"); (EVar "t2_bbbb"); (EVar "t2_bbbb")]));
   (*L1989*) SAug true "double_res" (EAdd (EAdd (EAdd (EScale (1 # 1) (EVar "contracted_intermediate")) (EScale (-1 # 1) (EEins "abij->abji" [(EVar "contracted_intermediate")]))) (EScale (-1 # 1) (EEins "abij->baij" [(EVar "contracted_intermediate")]))) (EScale (1 # 1) (EEins "abij->baji" [(EVar "contracted_intermediate")])));
   (*L1992*) SAssign "contracted_intermediate" (EScale (1 # 1) (EEins "nmef,lkcd,edlj,fami,cbnk->abij" [(ESlice (EVar "g_aaaa") [SV "o"; SV "o"; SV "v"; SV "v"]); (EVar "l2_abab"); (EVar "t2_abab"); (EVar "t2_abab"); (EVar "t2_abab")]));
   (*L1993*) SAug true "double_res" (EAdd (EAdd (EAdd (EScale (1 # 1) (EVar "contracted_intermediate")) (EScale (-1 # 1) (EEins "abij->abji" [(EVar "contracted_intermediate")]))) (EScale (-1 # 1) (EEins "abij->baij" [(EVar "contracted_intermediate")]))) (EScale (1 # 1) (EEins "abij->baji" [(EVar "contracted_intermediate")])));
   (*L1996*) SAssign "contracted_intermediate" (EScale (-1 # 1) (EEins "nmef,lkcd,edlj,faim,cbnk->abij" [(ESlice (EVar "g_abab") [SV "o"; SV "o"; SV "v"; SV "v"]); (EVar "l2_abab"); (EVar "t2_abab"); (EVar "t2_bbbb"); (EVar "t2_abab")]));
   (*L1997*) SAug true "double_res" (EAdd (EAdd (EAdd (EScale (1 # 1) (EVar "contracted_intermediate")) (EScale (-1 # 1) (EEins "abij->abji" [(EVar "contracted_intermediate")]))) (EScale (-1 # 1) (EEins "abij->baij" [(EVar "contracted_intermediate")]))) (EScale (1 # 1) (EEins "abij->baji" [(EVar "contracted_intermediate")])));
   (*L2000*) SAssign "contracted_intermediate" (EScale (1 # 1) (EEins "mnfe,kldc,edjl,fami,cbkn->abij" [(ESlice (EVar "g_abab") [SV "o"; SV "o"; SV "v"; SV "v"]); (EVar "l2_bbbb"); (EVar "t2_bbbb"); (EVar "t2_abab"); (EVar "t2_bbbb")]));
   (*L2001*) SAug true "double_res" (EAdd (EAdd (EAdd (EScale (1 # 1) (EVar "contracted_intermediate")) (EScale (-1 # 1) (EEins "abij->abji" [(EVar "contracted_intermediate")]))) (EScale (-1 # 1) (EEins "abij->baij" [(EVar "contracted_intermediate")]))) (EScale (1 # 1) (EEins "abij->baji" [(EVar "contracted_intermediate")])));
   (*L2004*) SAssign "contracted_intermediate" (EScale (-1 # 1) (EEins "nmef,kldc,edjl,faim,cbkn->abij" [(ESlice (EVar "g_bbbb") [SV "o"; SV "o"; SV "v"; SV "v"]); (EVar "l2_bbbb"); (EVar "t2_bbbb"); (EVar "t2_bbbb"); (EVar "t2_bbbb")]));
   (*L2005*) SAug true "double_res" (EAdd (EAdd (EAdd (EScale (1 # 1) (EVar "contracted_intermediate")) (EScale (-1 # 1) (EEins "abij->abji" [(EVar "contracted_intermediate")]))) (EScale (-1 # 1) (EEins "abij->baij" [(EVar "contracted_intermediate")]))) (EScale (1 # 1) (EEins "abij->baji" [(EVar "contracted_intermediate")])));
   (*L2008*) SAssign "contracted_intermediate" (EScale (-1 # 2) (EEins "nmfe,kldc,delj,faki,cbnm->abij" [(ESlice (EVar "g_abab") [SV "o"; SV "o"; SV "v"; SV "v"]); (EVar "l2_aaaa"); (EVar "t2_abab"); (EVar "t2_abab"); (EVar "t2_abab")]));
   (*L2009*) SAug true "double_res" (EAdd (EAdd (EAdd (EScale (1 # 1) (EVar "contracted_intermediate")) (EScale (-1 # 1) (EEins "abij->abji" [(EVar "contracted_intermediate")]))) (EScale (-1 # 1) (EEins "abij->baij" [(EVar "contracted_intermediate")]))) (EScale (1 # 1) (EEins "abij->baji" [(EVar "contracted_intermediate")])));
   (*L2012*) SAssign "contracted_intermediate" (EScale (-1 # 2) (EEins "mnfe,kldc,delj,faki,cbmn->abij" [(ESlice (EVar "g_abab") [SV "o"; SV "o"; SV "v"; SV "v"]); (EVar "l2_aaaa"); (EVar "t2_abab"); (EVar "t2_abab"); (EVar "t2_abab")]));
   (*L2013*) SAug true "double_res" (EAdd (EAdd (EAdd (EScale (1 # 1) (EVar "contracted_intermediate")) (EScale (-1 # 1) (EEins "abij->abji" [(EVar "contracted_intermediate")]))) (EScale (-1 # 1) (EEins "abij->baij" [(EVar "contracted_intermediate")]))) (EScale (1 # 1) (EEins "abij->baji" [(EVar "contracted_intermediate")])));
   (*L2016*) SAssign "contracted_intermediate" (EScale (1 # 2) (EEins "nmfe,klcd,edjl,faki,cbnm->abij" [(ESlice (EVar "g_abab") [SV "o"; SV "o"; SV "v"; SV "v"]); (EVar "l2_abab"); (EVar "t2_bbbb"); (EVar "t2_abab"); (EVar "t2_abab")]));
   (*L2017*) SAug true "double_res" (EAdd (EAdd (EAdd (EScale (1 # 1) (EVar "contracted_intermediate")) (EScale (-1 # 1) (EEins "abij->abji" [(EVar "contracted_intermediate")]))) (EScale (-1 # 1) (EEins "abij->baij" [(EVar "contracted_intermediate")]))) (EScale (1 # 1) (EEins "abij->baji" [(EVar "contracted_intermediate")])));
   (*L2020*) SAssign "contracted_intermediate" (EScale (1 # 2) (EEins "mnfe,klcd,edjl,faki,cbmn->abij" [(ESlice (EVar "g_abab") [SV "o"; SV "o"; SV "v"; SV "v"]); (EVar "l2_abab"); (EVar "t2_bbbb"); (EVar "t2_abab"); (EVar "t2_abab")]));
   (*L2021*) SAug true "double_res" (EAdd (EAdd (EAdd (EScale (1 # 1) (EVar "contracted_intermediate")) (EScale (-1 # 1) (EEins "abij->abji" [(EVar "contracted_intermediate")]))) (EScale (-1 # 1) (EEins "abij->baij" [(EVar "contracted_intermediate")]))) (EScale (1 # 1) (EEins "abij->baji" [(EVar "contracted_intermediate")])));
   (*L2024*) SAssign "contracted_intermediate" (EScale (1 # 2) (EEins "nmef,lkdc,delj,faik,cbnm->abij" [(ESlice (EVar "g_bbbb") [SV "o"; SV "o"; SV "v"; SV "v"]); (EVar "l2_abab"); (EVar "t2_abab"); (EVar "t2_bbbb"); (EVar "t2_bbbb")]));
   (*L2025*) SAug true "double_res" (EAdd (EAdd (EAdd (EScale (1 # 1) (EVar "contracted_intermediate")) (EScale (-1 # 1) (EEins "abij->abji" [(EVar "contracted_intermediate")]))) (EScale (-1 # 1) (EEins "abij->baij" [(EVar "contracted_intermediate")]))) (EScale (1 # 1) (EEins "abij->baji" [(EVar "contracted_intermediate")])));
   (*L2028*) SAssign "contracted_intermediate" (EScale (1 # 2) (EEins "nmef,lkcd,edlj,faik,cbnm->abij" [(ESlice (EVar "g_abab") [SV "o"; SV "o"; SV "v"; SV "v"]); (EVar "l2_abab"); (EVar "t2_abab"); (EVar "t2_bbbb"); (EVar "t2_abab")]));
   (*L2029*) SAug true "double_res" (EAdd (EAdd (EAdd (EScale (1 # 1) (EVar "contracted_intermediate")) (EScale (-1 # 1) (EEins "abij->abji" [(EVar "contracted_intermediate")]))) (EScale (-1 # 1) (EEins "abij->baij" [(EVar "contracted_intermediate")]))) (EScale (1 # 1) (EEins "abij->baji" [(EVar "contracted_intermediate")])));
   (*L2032*) SAssign "contracted_intermediate" (EScale (1 # 2) (EEins "mnef,lkcd,edlj,faik,cbmn->abij" [(ESlice (EVar "g_abab") [SV "o"; SV "o"; SV "v"; SV "v"]); (EVar "l2_abab"); (EVar "t2_abab"); (EVar "t2_bbbb"); (EVar "t2_abab")]));
   (*L2033*) SAug true "double_res" (EAdd (EAdd (EAdd (EScale (1 # 1) (EVar "contracted_intermediate")) (EScale (-1 # 1) (EEins "abij->abji" [(EVar "contracted_intermediate")]))) (EScale (-1 # 1) (EEins "abij->baij" [(EVar "contracted_intermediate")]))) (EScale (1 # 1) (EEins "abij->baji" [(EVar "contracted_intermediate")])));
   (*L2036*) SAssign "contracted_intermediate" (EScale (-1 # 2) (EEins "nmef,kldc,edjl,faik,cbnm->abij" [(ESlice (EVar "g_bbbb") [SV "o"; SV "o"; SV "v"; SV "v"]); (EVar "l2_bbbb"); (EVar "t2_bbbb"); (EVar "t2_bbbb"); (EVar "t2_bbbb")]));
   (*L2037*) SAug true "double_res" (EAdd (EAdd (EAdd (EScale (1 # 1) (EVar "contracted_intermediate")) (EScale (-1 # 1) (EEins "abij->abji" [(EVar "contracted_intermediate")]))) (EScale (-1 # 1) (EEins "abij->baij" [(EVar "contracted_intermediate")]))) (EScale (1 # 1) (EEins "abij->baji" [(EVar "contracted_intermediate")])));
   (*L2040*) SAssign "contracted_intermediate" (EScale (-1 # 1) (EEins "mnfe,klcd,edij,faml,cbkn->abij" [(ESlice (EVar "g_abab") [SV "o"; SV "o"; SV "v"; SV "v"]); (EVar "l2_abab"); (EVar "t2_bbbb"); (EVar "t2_abab"); (EVar "t2_abab")]));
   (*L2041*) SAug true "double_res" (EAdd (EScale (1 # 1) (EVar "contracted_intermediate")) (EScale (-1 # 1) (EEins "abij->baij" [(EVar "contracted_intermediate")])));
   (*L2044*) SAssign "contracted_intermediate" (EScale (1 # 1) (EEins "nmef,klcd,edij,falm,cbkn->abij" [(ESlice (EVar "g_bbbb") [SV "o"; SV "o"; SV "v"; SV "v"]); (EVar "l2_abab"); (EVar "t2_bbbb"); (EVar "t2_bbbb"); (EVar "t2_abab")]));
   (*L2045*) SAug true "double_res" (EAdd (EScale (1 # 1) (EVar "contracted_intermediate")) (EScale (-1 # 1) (EEins "abij->baij" [(EVar "contracted_intermediate")])));
   (*L2048*) SAssign "contracted_intermediate" (EScale (-1 # 1) (EEins "nmfe,lkcd,edij,falm,cbnk->abij" [(ESlice (EVar "g_abab") [SV "o"; SV "o"; SV "v"; SV "v"]); (EVar "l2_abab"); (EVar "t2_bbbb"); (EVar "t2_abab"); (EVar "t2_abab")]));
   (*L2049*) SAug true "double_res" (EAdd (EScale (1 # 1) (EVar "contracted_intermediate")) (EScale (-1 # 1) (EEins "abij->baij" [(EVar "contracted_intermediate")])));
   (*L2052*) SAssign "contracted_intermediate" (EScale (1 # 1) (EEins "mnfe,kldc,edij,faml,cbkn->abij" [(ESlice (EVar "g_abab") [SV "o"; SV "o"; SV "v"; SV "v"]); (EVar "l2_bbbb"); (EVar "t2_bbbb"); (EVar "t2_abab"); (EVar "t2_bbbb")]));
   (*L2053*) SAug true "double_res" (EAdd (EScale (1 # 1) (EVar "contracted_intermediate")) (EScale (-1 # 1) (EEins "abij->baij" [(EVar "contracted_intermediate")])));
   (*L2056*) SAssign "contracted_intermediate" (EScale (-1 # 1) (EEins "nmef,kldc,edij,falm,cbkn->abij" [(ESlice (EVar "g_bbbb") [SV "o"; SV "o"; SV "v"; SV "v"]); (EVar "l2_bbbb"); (EVar "t2_bbbb"); (EVar "t2_bbbb"); (EVar "t2_bbbb")]));
   (*L2057*) SAug true "double_res" (EAdd (EScale (1 # 1) (EVar "contracted_intermediate")) (EScale (-1 # 1) (EEins "abij->baij" [(EVar "contracted_intermediate")])));
   (*L2060*) SAssign "contracted_intermediate" (EScale (1 # 4) (EEins "nmfe,klcd,edij,fakl,cbnm->abij" [(ESlice (EVar "g_abab") [SV "o"; SV "o"; SV "v"; SV "v"]); (EVar "l2_abab"); (EVar "t2_bbbb"); (EVar "t2_abab"); (EVar "t2_abab")]));
   (*L2061*) SAug true "double_res" (EAdd (EScale (1 # 1) (EVar "contracted_intermediate")) (EScale (-1 # 1) (EEins "abij->baij" [(EVar "contracted_intermediate")])));
   (*L2064*) SAssign "contracted_intermediate" (EScale (1 # 4) (EEins "mnfe,klcd,edij,fakl,cbmn->abij" [(ESlice (EVar "g_abab") [SV "o"; SV "o"; SV "v"; SV "v"]); (EVar "l2_abab"); (EVar "t2_bbbb"); (EVar "t2_abab"); (EVar "t2_abab")]));
   (*L2065*) SAug true "double_res" (EAdd (EScale (1 # 1) (EVar "contracted_intermediate")) (EScale (-1 # 1) (EEins "abij->baij" [(EVar "contracted_intermediate")])));
   (*L2068*) SAssign "contracted_intermediate" (EScale (1 # 4) (EEins "nmfe,lkcd,edij,falk,cbnm->abij" [(ESlice (EVar "g_abab") [SV "o"; SV "o"; SV "v"; SV "v"]); (EVar "l2_abab"); (EVar "t2_bbbb"); (EVar "t2_abab"); (EVar "t2_abab")]));
   (*L2069*) SAug true "double_res" (EAdd (EScale (1 # 1) (EVar "contracted_intermediate")) (EScale (-1 # 1) (EEins "abij->baij" [(EVar "contracted_intermediate")])));
   (*L2072*) SAssign "contracted_intermediate" (EScale (1 # 4) (EEins "mnfe,lkcd,edij,falk,cbmn->abij" [(ESlice (EVar "g_abab") [SV "o"; SV "o"; SV "v"; SV "v"]); (EVar "l2_abab"); (EVar "t2_bbbb"); (EVar "t2_abab"); (EVar "t2_abab")]));
   (*L2073*) SAug true "double_res" (EAdd (EScale (1 # 1) (EVar "contracted_intermediate")) (EScale (-1 # 1) (EEins "abij->baij" [(EVar "contracted_intermediate")])));
   (*L2076*) SAssign "contracted_intermediate" (EScale (1 # 4) (EEins "nmef,kldc,edij,fakl,cbnm->abij" [(ESlice (EVar "g_bbbb") [SV "o"; SV "o"; SV "v"; SV "v"]); (EVar "l2_bbbb"); (EVar "t2_bbbb"); (EVar "t2_bbbb"); (EVar "t2_bbbb")]));
   (*L2077*) SAug true "double_res" (EAdd (EScale (1 # 1) (EVar "contracted_intermediate")) (EScale (-1 # 1) (EEins "abij->baij" [(EVar "contracted_intermediate")])));
   (*L2080*) SAssign "contracted_intermediate" (EScale (-1 # 2) (EEins "nmef,kldc,eaml,fbkj,dcni->abij" [(ESlice (EVar "g_aaaa") [SV "o"; SV "o"; SV "v"; SV "v"]); (EVar "l2_abab"); (EVar "t2_abab"); (EVar "t2_abab"); (EVar "t2_abab")]));
   (*L2081*) SAug true "double_res" (EAdd (EScale (1 # 1) (EVar "contracted_intermediate")) (EScale (-1 # 1) (EEins "abij->abji" [(EVar "contracted_intermediate")])));
   (*L2084*) SAssign "contracted_intermediate" (EScale (-1 # 2) (EEins "nmfe,kldc,ealm,fbkj,dcni->abij" [(ESlice (EVar "g_abab") [SV "o"; SV "o"; SV "v"; SV "v"]); (EVar "l2_abab"); (EVar "t2_bbbb"); (EVar "t2_abab"); (EVar "t2_abab")]));
   (*L2085*) SAug true "double_res" (EAdd (EScale (1 # 1) (EVar "contracted_intermediate")) (EScale (-1 # 1) (EEins "abij->abji" [(EVar "contracted_intermediate")])));
   (*L2088*) SAssign "contracted_intermediate" (EScale (-1 # 2) (EEins "nmef,klcd,eaml,fbkj,cdni->abij" [(ESlice (EVar "g_aaaa") [SV "o"; SV "o"; SV "v"; SV "v"]); (EVar "l2_abab"); (EVar "t2_abab"); (EVar "t2_abab"); (EVar "t2_abab")]));
   (*L2089*) SAug true "double_res" (EAdd (EScale (1 # 1) (EVar "contracted_intermediate")) (EScale (-1 # 1) (EEins "abij->abji" [(EVar "contracted_intermediate")])));
   (*L2092*) SAssign "contracted_intermediate" (EScale (-1 # 2) (EEins "nmfe,klcd,ealm,fbkj,cdni->abij" [(ESlice (EVar "g_abab") [SV "o"; SV "o"; SV "v"; SV "v"]); (EVar "l2_abab"); (EVar "t2_bbbb"); (EVar "t2_abab"); (EVar "t2_abab")]));
   (*L2093*) SAug true "double_res" (EAdd (EScale (1 # 1) (EVar "contracted_intermediate")) (EScale (-1 # 1) (EEins "abij->abji" [(EVar "contracted_intermediate")])));
   (*L2096*) SAssign "contracted_intermediate" (EScale (1 # 2) (EEins "nmef,lkdc,ealm,fbjk,dcni->abij" [(ESlice (EVar "g_abab") [SV "o"; SV "o"; SV "v"; SV "v"]); (EVar "l2_abab"); (EVar "t2_abab"); (EVar "t2_bbbb"); (EVar "t2_abab")]));
   (*L2097*) SAug true "double_res" (EAdd (EScale (1 # 1) (EVar "contracted_intermediate")) (EScale (-1 # 1) (EEins "abij->abji" [(EVar "contracted_intermediate")])));
   (*L2100*) SAssign "contracted_intermediate" (EScale (1 # 2) (EEins "nmef,lkcd,ealm,fbjk,cdni->abij" [(ESlice (EVar "g_abab") [SV "o"; SV "o"; SV "v"; SV "v"]); (EVar "l2_abab"); (EVar "t2_abab"); (EVar "t2_bbbb"); (EVar "t2_abab")]));
   (*L2101*) SAug true "double_res" (EAdd (EScale (1 # 1) (EVar "contracted_intermediate")) (EScale (-1 # 1) (EEins "abij->abji" [(EVar "contracted_intermediate")])));
   (*L2104*) SAssign "contracted_intermediate" (EScale (1 # 2) (EEins "mnef,kldc,eaml,fbjk,dcin->abij" [(ESlice (EVar "g_abab") [SV "o"; SV "o"; SV "v"; SV "v"]); (EVar "l2_bbbb"); (EVar "t2_abab"); (EVar "t2_bbbb"); (EVar "t2_bbbb")]));
   (*L2105*) SAug true "double_res" (EAdd (EScale (1 # 1) (EVar "contracted_intermediate")) (EScale (-1 # 1) (EEins "abij->abji" [(EVar "contracted_intermediate")])));
   (*L2108*) SAssign "contracted_intermediate" (EScale (1 # 2) (EEins "nmef,kldc,ealm,fbjk,dcin->abij" [(ESlice (EVar "g_bbbb") [SV "o"; SV "o"; SV "v"; SV "v"]); (EVar "l2_bbbb"); (EVar "t2_bbbb"); (EVar "t2_bbbb"); (EVar "t2_bbbb")]));
   (*L2109*) SAug true "double_res" (EAdd (EScale (1 # 1) (EVar "contracted_intermediate")) (EScale (-1 # 1) (EEins "abij->abji" [(EVar "contracted_intermediate")])));
   (*L2112*) SAug true "double_res" (EScale (3 # 8) (EEins "nmef,kldc,ealm,fbij,dckn->abij" [(ESlice (EVar "g_abab") [SV "o"; SV "o"; SV "v"; SV "v"]); (EVar "l2_aaaa"); (EVar "t2_abab"); (EVar "t2_bbbb"); (EVar "t2_aaaa")]));
   (*L2115*) SAug true "double_res" (EScale (3 # 8) (EEins "mnef,kldc,eaml,fbij,dckn->abij" [(ESlice (EVar "g_abab") [SV "o"; SV "o"; SV "v"; SV "v"]); (EVar "l2_abab"); (EVar "t2_abab"); (EVar "t2_bbbb"); (EVar "t2_abab")]));
   (*L2118*) SAug true "double_res" (EScale (3 # 8) (EEins "nmef,kldc,ealm,fbij,dckn->abij" [(ESlice (EVar "g_bbbb") [SV "o"; SV "o"; SV "v"; SV "v"]); (EVar "l2_abab"); (EVar "t2_bbbb"); (EVar "t2_bbbb"); (EVar "t2_abab")]));
   (*L2121*) SAug true "double_res" (EScale (3 # 8) (EEins "mnef,klcd,eaml,fbij,cdkn->abij" [(ESlice (EVar "g_abab") [SV "o"; SV "o"; SV "v"; SV "v"]); (EVar "l2_abab"); (EVar "t2_abab"); (EVar "t2_bbbb"); (EVar "t2_abab")]));
   (*L2124*) SAug true "double_res" (EScale (3 # 8) (EEins "nmef,klcd,ealm,fbij,cdkn->abij" [(ESlice (EVar "g_bbbb") [SV "o"; SV "o"; SV "v"; SV "v"]); (EVar "l2_abab"); (EVar "t2_bbbb"); (EVar "t2_bbbb"); (EVar "t2_abab")]));
   (*L2127*) SAug true "double_res" (EScale (3 # 8) (EEins "nmef,lkdc,ealm,fbij,dcnk->abij" [(ESlice (EVar "g_abab") [SV "o"; SV "o"; SV "v"; SV "v"]); (EVar "l2_abab"); (EVar "t2_abab"); (EVar "t2_bbbb"); (EVar "t2_abab")]));
   (*L2130*) SAug true "double_res" (EScale (3 # 8) (EEins "nmef,lkcd,ealm,fbij,cdnk->abij" [(ESlice (EVar "g_abab") [SV "o"; SV "o"; SV "v"; SV "v"]); (EVar "l2_abab"); (EVar "t2_abab"); (EVar "t2_bbbb"); (EVar "t2_abab")]));
   (*L2133*) SAug true "double_res" (EScale (3 # 8) (EEins "mnef,kldc,eaml,fbij,dckn->abij" [(ESlice (EVar "g_abab") [SV "o"; SV "o"; SV "v"; SV "v"]); (EVar "l2_bbbb"); (EVar "t2_abab"); (EVar "t2_bbbb"); (EVar "t2_bbbb")]));
   (*L2136*) SAug true "double_res" (EScale (3 # 8) (EEins "nmef,kldc,ealm,fbij,dckn->abij" [(ESlice (EVar "g_bbbb") [SV "o"; SV "o"; SV "v"; SV "v"]); (EVar "l2_bbbb"); (EVar "t2_bbbb"); (EVar "t2_bbbb"); (EVar "t2_bbbb")]));
   (*L2139*) SAssign "contracted_intermediate" (EScale (1 # 4) (EEins "nmef,kldc,eamj,fbkl,dcni->abij" [(ESlice (EVar "g_aaaa") [SV "o"; SV "o"; SV "v"; SV "v"]); (EVar "l2_abab"); (EVar "t2_abab"); (EVar "t2_abab"); (EVar "t2_abab")]));
   (*L2140*) SAug true "double_res" (EAdd (EScale (1 # 1) (EVar "contracted_intermediate")) (EScale (-1 # 1) (EEins "abij->abji" [(EVar "contracted_intermediate")])));
   (*L2143*) SAssign "contracted_intermediate" (EScale (1 # 4) (EEins "nmfe,kldc,eajm,fbkl,dcni->abij" [(ESlice (EVar "g_abab") [SV "o"; SV "o"; SV "v"; SV "v"]); (EVar "l2_abab"); (EVar "t2_bbbb"); (EVar "t2_abab"); (EVar "t2_abab")]));
   (*L2144*) SAug true "double_res" (EAdd (EScale (1 # 1) (EVar "contracted_intermediate")) (EScale (-1 # 1) (EEins "abij->abji" [(EVar "contracted_intermediate")])));
   (*L2147*) SAssign "contracted_intermediate" (EScale (1 # 4) (EEins "nmef,klcd,eamj,fbkl,cdni->abij" [(ESlice (EVar "g_aaaa") [SV "o"; SV "o"; SV "v"; SV "v"]); (EVar "l2_abab"); (EVar "t2_abab"); (EVar "t2_abab"); (EVar "t2_abab")]));
   (*L2148*) SAug true "double_res" (EAdd (EScale (1 # 1) (EVar "contracted_intermediate")) (EScale (-1 # 1) (EEins "abij->abji" [(EVar "contracted_intermediate")])));
   (*L2151*) SAssign "contracted_intermediate" (EScale (1 # 4) (EEins "nmfe,klcd,eajm,fbkl,cdni->abij" [(ESlice (EVar "g_abab") [SV "o"; SV "o"; SV "v"; SV "v"]); (EVar "l2_abab"); (EVar "t2_bbbb"); (EVar "t2_abab"); (EVar "t2_abab")]));
   (*L2152*) SAug true "double_res" (EAdd (EScale (1 # 1) (EVar "contracted_intermediate")) (EScale (-1 # 1) (EEins "abij->abji" [(EVar "contracted_intermediate")])));
   (*L2155*) SAssign "contracted_intermediate" (EScale (1 # 4) (EEins "nmef,lkdc,eamj,fblk,dcni->abij" [(ESlice (EVar "g_aaaa") [SV "o"; SV "o"; SV "v"; SV "v"]); (EVar "l2_abab"); (EVar "t2_abab"); (EVar "t2_abab"); (EVar "t2_abab")]));
   (*L2156*) SAug true "double_res" (EAdd (EScale (1 # 1) (EVar "contracted_intermediate")) (EScale (-1 # 1) (EEins "abij->abji" [(EVar "contracted_intermediate")])));
   (*L2159*) SAssign "contracted_intermediate" (EScale (1 # 4) (EEins "nmfe,lkdc,eajm,fblk,dcni->abij" [(ESlice (EVar "g_abab") [SV "o"; SV "o"; SV "v"; SV "v"]); (EVar "l2_abab"); (EVar "t2_bbbb"); (EVar "t2_abab"); (EVar "t2_abab")]));
   (*L2160*) SAug true "double_res" (EAdd (EScale (1 # 1) (EVar "contracted_intermediate")) (EScale (-1 # 1) (EEins "abij->abji" [(EVar "contracted_intermediate")])));
   (*L2163*) SAssign "contracted_intermediate" (EScale (1 # 4) (EEins "nmef,lkcd,eamj,fblk,cdni->abij" [(ESlice (EVar "g_aaaa") [SV "o"; SV "o"; SV "v"; SV "v"]); (EVar "l2_abab"); (EVar "t2_abab"); (EVar "t2_abab"); (EVar "t2_abab")]));
   (*L2164*) SAug true "double_res" (EAdd (EScale (1 # 1) (EVar "contracted_intermediate")) (EScale (-1 # 1) (EEins "abij->abji" [(EVar "contracted_intermediate")])));
   (*L2167*) SAssign "contracted_intermediate" (EScale (1 # 4) (EEins "nmfe,lkcd,eajm,fblk,cdni->abij" [(ESlice (EVar "g_abab") [SV "o"; SV "o"; SV "v"; SV "v"]); (EVar "l2_abab"); (EVar "t2_bbbb"); (EVar "t2_abab"); (EVar "t2_abab")]));
   (*L2168*) SAug true "double_res" (EAdd (EScale (1 # 1) (EVar "contracted_intermediate")) (EScale (-1 # 1) (EEins "abij->abji" [(EVar "contracted_intermediate")])));
   (*L2171*) SAssign "contracted_intermediate" (EScale (1 # 4) (EEins "mnef,kldc,eamj,fbkl,dcin->abij" [(ESlice (EVar "g_abab") [SV "o"; SV "o"; SV "v"; SV "v"]); (EVar "l2_bbbb"); (EVar "t2_abab"); (EVar "t2_bbbb"); (EVar "t2_bbbb")]));
   (*L2172*) SAug true "double_res" (EAdd (EScale (1 # 1) (EVar "contracted_intermediate")) (EScale (-1 # 1) (EEins "abij->abji" [(EVar "contracted_intermediate")])));
   (*L2175*) SAssign "contracted_intermediate" (EScale (1 # 4) (EEins "nmef,kldc,eajm,fbkl,dcin->abij" [(ESlice (EVar "g_bbbb") [SV "o"; SV "o"; SV "v"; SV "v"]); (EVar "l2_bbbb"); (EVar "t2_bbbb"); (EVar "t2_bbbb"); (EVar "t2_bbbb")]));
   (*L2176*) SAug true "double_res" (EAdd (EScale (1 # 1) (EVar "contracted_intermediate")) (EScale (-1 # 1) (EEins "abij->abji" [(EVar "contracted_intermediate")])));
   (*L2179*) SAssign "contracted_intermediate" (EScale (-3 # 8) (EEins "nmef,kldc,eamj,fbli,dckn->abij" [(ESlice (EVar "g_aaaa") [SV "o"; SV "o"; SV "v"; SV "v"]); (EVar "l2_aaaa"); (EVar "t2_abab"); (EVar "t2_abab"); (EVar "t2_aaaa")]));
   (*L2180*) SAug true "double_res" (EAdd (EScale (1 # 1) (EVar "contracted_intermediate")) (EScale (-1 # 1) (EEins "abij->abji" [(EVar "contracted_intermediate")])));
   (*L2183*) SAssign "contracted_intermediate" (EScale (-3 # 8) (EEins "nmfe,kldc,eajm,fbli,dckn->abij" [(ESlice (EVar "g_abab") [SV "o"; SV "o"; SV "v"; SV "v"]); (EVar "l2_aaaa"); (EVar "t2_bbbb"); (EVar "t2_abab"); (EVar "t2_aaaa")]));
   (*L2184*) SAug true "double_res" (EAdd (EScale (1 # 1) (EVar "contracted_intermediate")) (EScale (-1 # 1) (EEins "abij->abji" [(EVar "contracted_intermediate")])));
   (*L2187*) SAssign "contracted_intermediate" (EScale (-3 # 8) (EEins "mnef,kldc,eamj,fbil,dckn->abij" [(ESlice (EVar "g_abab") [SV "o"; SV "o"; SV "v"; SV "v"]); (EVar "l2_abab"); (EVar "t2_abab"); (EVar "t2_bbbb"); (EVar "t2_abab")]));
   (*L2188*) SAug true "double_res" (EAdd (EScale (1 # 1) (EVar "contracted_intermediate")) (EScale (-1 # 1) (EEins "abij->abji" [(EVar "contracted_intermediate")])));
   (*L2191*) SAssign "contracted_intermediate" (EScale (-3 # 8) (EEins "nmef,kldc,eajm,fbil,dckn->abij" [(ESlice (EVar "g_bbbb") [SV "o"; SV "o"; SV "v"; SV "v"]); (EVar "l2_abab"); (EVar "t2_bbbb"); (EVar "t2_bbbb"); (EVar "t2_abab")]));
   (*L2192*) SAug true "double_res" (EAdd (EScale (1 # 1) (EVar "contracted_intermediate")) (EScale (-1 # 1) (EEins "abij->abji" [(EVar "contracted_intermediate")])));
   (*L2195*) SAssign "contracted_intermediate" (EScale (-3 # 8) (EEins "mnef,klcd,eamj,fbil,cdkn->abij" [(ESlice (EVar "g_abab") [SV "o"; SV "o"; SV "v"; SV "v"]); (EVar "l2_abab"); (EVar "t2_abab"); (EVar "t2_bbbb"); (EVar "t2_abab")]));
   (*L2196*) SAug true "double_res" (EAdd (EScale (1 # 1) (EVar "contracted_intermediate")) (EScale (-1 # 1) (EEins "abij->abji" [(EVar "contracted_intermediate")])));
   (*L2199*) SAssign "contracted_intermediate" (EScale (-3 # 8) (EEins "nmef,klcd,eajm,fbil,cdkn->abij" [(ESlice (EVar "g_bbbb") [SV "o"; SV "o"; SV "v"; SV "v"]); (EVar "l2_abab"); (EVar "t2_bbbb"); (EVar "t2_bbbb"); (EVar "t2_abab")]));
   (*L2200*) SAug true "double_res" (EAdd (EScale (1 # 1) (EVar "contracted_intermediate")) (EScale (-1 # 1) (EEins "abij->abji" [(EVar "contracted_intermediate")])));
   (*L2203*) SAssign "contracted_intermediate" (EScale (-3 # 8) (EEins "nmef,lkdc,eamj,fbli,dcnk->abij" [(ESlice (EVar "g_aaaa") [SV "o"; SV "o"; SV "v"; SV "v"]); (EVar "l2_abab"); (EVar "t2_abab"); (EVar "t2_abab"); (EVar "t2_abab")]));
   (*L2204*) SAug true "double_res" (EAdd (EScale (1 # 1) (EVar "contracted_intermediate")) (EScale (-1 # 1) (EEins "abij->abji" [(EVar "contracted_intermediate")])));
   (*L2207*) SAssign "contracted_intermediate" (EScale (-3 # 8) (EEins "nmfe,lkdc,eajm,fbli,dcnk->abij" [(ESlice (EVar "g_abab") [SV "o"; SV "o"; SV "v"; SV "v"]); (EVar "l2_abab"); (EVar "t2_bbbb"); (EVar "t2_abab"); (EVar "t2_abab")]));
   (*L2208*) SAug true "double_res" (EAdd (EScale (1 # 1) (EVar "contracted_intermediate")) (EScale (-1 # 1) (EEins "abij->abji" [(EVar "contracted_intermediate")])));
   (*L2211*) SAssign "contracted_intermediate" (EScale (-3 # 8) (EEins "nmef,lkcd,eamj,fbli,cdnk->abij" [(ESlice (EVar "g_aaaa") [SV "o"; SV "o"; SV "v"; SV "v"]); (EVar "l2_abab"); (EVar "t2_abab"); (EVar "t2_abab"); (EVar "t2_abab")]));
   (*L2212*) SAug true "double_res" (EAdd (EScale (1 # 1) (EVar "contracted_intermediate")) (EScale (-1 # 1) (EEins "abij->abji" [(EVar "contracted_intermediate")])));
   (*L2215*) SAssign "contracted_intermediate" (EScale (-3 # 8) (EEins "nmfe,lkcd,eajm,fbli,cdnk->abij" [(ESlice (EVar "g_abab") [SV "o"; SV "o"; SV "v"; SV "v"]); (EVar "l2_abab"); (EVar "t2_bbbb"); (EVar "t2_abab"); (EVar "t2_abab")]));
   (*L2216*) SAug true "double_res" (EAdd (EScale (1 # 1) (EVar "contracted_intermediate")) (EScale (-1 # 1) (EEins "abij->abji" [(EVar "contracted_intermediate")])));
   (*L2219*) SAssign "contracted_intermediate" (EScale (-3 # 8) (EEins "mnef,kldc,eamj,fbil,dckn->abij" [(ESlice (EVar "g_abab") [SV "o"; SV "o"; SV "v"; SV "v"]); (EVar "l2_bbbb"); (EVar "t2_abab"); (EVar "t2_bbbb"); (EVar "t2_bbbb")]));
   (*L2220*) SAug true "double_res" (EAdd (EScale (1 # 1) (EVar "contracted_intermediate")) (EScale (-1 # 1) (EEins "abij->abji" [(EVar "contracted_intermediate")])));
   (*L2223*) SAssign "contracted_intermediate" (EScale (-3 # 8) (EEins "nmef,kldc,eajm,fbil,dckn->abij" [(ESlice (EVar "g_bbbb") [SV "o"; SV "o"; SV "v"; SV "v"]); (EVar "l2_bbbb"); (EVar "t2_bbbb"); (EVar "t2_bbbb"); (EVar "t2_bbbb")]));
   (*L2224*) SAug true "double_res" (EAdd (EScale (1 # 1) (EVar "contracted_intermediate")) (EScale (-1 # 1) (EEins "abij->abji" [(EVar "contracted_intermediate")])));
   (*L2227*) SAssign "contracted_intermediate" (EScale (1 # 4) (EEins "nmef,kldc,eakl,fbmj,dcni->abij" [(ESlice (EVar "g_aaaa") [SV "o"; SV "o"; SV "v"; SV "v"]); (EVar "l2_abab"); (EVar "t2_abab"); (EVar "t2_abab"); (EVar "t2_abab")]));
   (*L2228*) SAug true "double_res" (EAdd (EScale (1 # 1) (EVar "contracted_intermediate")) (EScale (-1 # 1) (EEins "abij->abji" [(EVar "contracted_intermediate")])));
   (*L2231*) SAssign "contracted_intermediate" (EScale (-1 # 4) (EEins "nmef,kldc,eakl,fbjm,dcni->abij" [(ESlice (EVar "g_abab") [SV "o"; SV "o"; SV "v"; SV "v"]); (EVar "l2_abab"); (EVar "t2_abab"); (EVar "t2_bbbb"); (EVar "t2_abab")]));
   (*L2232*) SAug true "double_res" (EAdd (EScale (1 # 1) (EVar "contracted_intermediate")) (EScale (-1 # 1) (EEins "abij->abji" [(EVar "contracted_intermediate")])));
   (*L2235*) SAssign "contracted_intermediate" (EScale (1 # 4) (EEins "nmef,klcd,eakl,fbmj,cdni->abij" [(ESlice (EVar "g_aaaa") [SV "o"; SV "o"; SV "v"; SV "v"]); (EVar "l2_abab"); (EVar "t2_abab"); (EVar "t2_abab"); (EVar "t2_abab")]));
   (*L2236*) SAug true "double_res" (EAdd (EScale (1 # 1) (EVar "contracted_intermediate")) (EScale (-1 # 1) (EEins "abij->abji" [(EVar "contracted_intermediate")])));
   (*L2239*) SAssign "contracted_intermediate" (EScale (-1 # 4) (EEins "nmef,klcd,eakl,fbjm,cdni->abij" [(ESlice (EVar "g_abab") [SV "o"; SV "o"; SV "v"; SV "v"]); (EVar "l2_abab"); (EVar "t2_abab"); (EVar "t2_bbbb"); (EVar "t2_abab")]));
   (*L2240*) SAug true "double_res" (EAdd (EScale (1 # 1) (EVar "contracted_intermediate")) (EScale (-1 # 1) (EEins "abij->abji" [(EVar "contracted_intermediate")])));
   (*L2243*) SAssign "contracted_intermediate" (EScale (1 # 4) (EEins "nmef,lkdc,ealk,fbmj,dcni->abij" [(ESlice (EVar "g_aaaa") [SV "o"; SV "o"; SV "v"; SV "v"]); (EVar "l2_abab"); (EVar "t2_abab"); (EVar "t2_abab"); (EVar "t2_abab")]));
   (*L2244*) SAug true "double_res" (EAdd (EScale (1 # 1) (EVar "contracted_intermediate")) (EScale (-1 # 1) (EEins "abij->abji" [(EVar "contracted_intermediate")])));
   (*L2247*) SAssign "contracted_intermediate" (EScale (-1 # 4) (EEins "nmef,lkdc,ealk,fbjm,dcni->abij" [(ESlice (EVar "g_abab") [SV "o"; SV "o"; SV "v"; SV "v"]); (EVar "l2_abab"); (EVar "t2_abab"); (EVar "t2_bbbb"); (EVar "t2_abab")]));
   (*L2248*) SAug true "double_res" (EAdd (EScale (1 # 1) (EVar "contracted_intermediate")) (EScale (-1 # 1) (EEins "abij->abji" [(EVar "contracted_intermediate")])));
   (*L2251*) SAssign "contracted_intermediate" (EScale (1 # 4) (EEins "nmef,lkcd,ealk,fbmj,cdni->abij" [(ESlice (EVar "g_aaaa") [SV "o"; SV "o"; SV "v"; SV "v"]); (EVar "l2_abab"); (EVar "t2_abab"); (EVar "t2_abab"); (EVar "t2_abab")]));
   (*L2252*) SAug true "double_res" (EAdd (EScale (1 # 1) (EVar "contracted_intermediate")) (EScale (-1 # 1) (EEins "abij->abji" [(EVar "contracted_intermediate")])));
   (*L2255*) SAssign "contracted_intermediate" (EScale (-1 # 4) (EEins "nmef,lkcd,ealk,fbjm,cdni->abij" [(ESlice (EVar "g_abab") [SV "o"; SV "o"; SV "v"; SV "v"]); (EVar "l2_abab"); (EVar "t2_abab"); (EVar "t2_bbbb"); (EVar "t2_abab")]));
   (*L2256*) SAug true "double_res" (EAdd (EScale (1 # 1) (EVar "contracted_intermediate")) (EScale (-1 # 1) (EEins "abij->abji" [(EVar "contracted_intermediate")])));
   (*L2259*) SAssign "contracted_intermediate" (EScale (-1 # 4) (EEins "mnfe,kldc,eakl,fbmj,dcin->abij" [(ESlice (EVar "g_abab") [SV "o"; SV "o"; SV "v"; SV "v"]); (EVar "l2_bbbb"); (EVar "t2_bbbb"); (EVar "t2_abab"); (EVar "t2_bbbb")]));
   (*L2260*) SAug true "double_res" (EAdd (EScale (1 # 1) (EVar "contracted_intermediate")) (EScale (-1 # 1) (EEins "abij->abji" [(EVar "contracted_intermediate")])));
   (*L2263*) SAssign "contracted_intermediate" (EScale (1 # 4) (EEins "nmef,kldc,eakl,fbjm,dcin->abij" [(ESlice (EVar "g_bbbb") [SV "o"; SV "o"; SV "v"; SV "v"]); (EVar "l2_bbbb"); (EVar "t2_bbbb"); (EVar "t2_bbbb"); (EVar "t2_bbbb")]));
   (*L2264*) SAug true "double_res" (EAdd (EScale (1 # 1) (EVar "contracted_intermediate")) (EScale (-1 # 1) (EEins "abij->abji" [(EVar "contracted_intermediate")])));
   (*L2267*) SAug true "double_res" (EScale (-1 # 8) (EEins "nmef,kldc,eakl,fbij,dcnm->abij" [(ESlice (EVar "g_abab") [SV "o"; SV "o"; SV "v"; SV "v"]); (EVar "l2_abab"); (EVar "t2_abab"); (EVar "t2_bbbb"); (EVar "t2_abab")]));
   (*L2270*) SAug true "double_res" (EScale (-1 # 8) (EEins "mnef,kldc,eakl,fbij,dcmn->abij" [(ESlice (EVar "g_abab") [SV "o"; SV "o"; SV "v"; SV "v"]); (EVar "l2_abab"); (EVar "t2_abab"); (EVar "t2_bbbb"); (EVar "t2_abab")]));
   (*L2273*) SAug true "double_res" (EScale (-1 # 8) (EEins "nmef,klcd,eakl,fbij,cdnm->abij" [(ESlice (EVar "g_abab") [SV "o"; SV "o"; SV "v"; SV "v"]); (EVar "l2_abab"); (EVar "t2_abab"); (EVar "t2_bbbb"); (EVar "t2_abab")]));
   (*L2276*) SAug true "double_res" (EScale (-1 # 8) (EEins "mnef,klcd,eakl,fbij,cdmn->abij" [(ESlice (EVar "g_abab") [SV "o"; SV "o"; SV "v"; SV "v"]); (EVar "l2_abab"); (EVar "t2_abab"); (EVar "t2_bbbb"); (EVar "t2_abab")]));
   (*L2279*) SAug true "double_res" (EScale (-1 # 8) (EEins "nmef,lkdc,ealk,fbij,dcnm->abij" [(ESlice (EVar "g_abab") [SV "o"; SV "o"; SV "v"; SV "v"]); (EVar "l2_abab"); (EVar "t2_abab"); (EVar "t2_bbbb"); (EVar "t2_abab")]));
   (*L2282*) SAug true "double_res" (EScale (-1 # 8) (EEins "mnef,lkdc,ealk,fbij,dcmn->abij" [(ESlice (EVar "g_abab") [SV "o"; SV "o"; SV "v"; SV "v"]); (EVar "l2_abab"); (EVar "t2_abab"); (EVar "t2_bbbb"); (EVar "t2_abab")]));
   (*L2285*) SAug true "double_res" (EScale (-1 # 8) (EEins "nmef,lkcd,ealk,fbij,cdnm->abij" [(ESlice (EVar "g_abab") [SV "o"; SV "o"; SV "v"; SV "v"]); (EVar "l2_abab"); (EVar "t2_abab"); (EVar "t2_bbbb"); (EVar "t2_abab")]));
   (*L2288*) SAug true "double_res" (EScale (-1 # 8) (EEins "mnef,lkcd,ealk,fbij,cdmn->abij" [(ESlice (EVar "g_abab") [SV "o"; SV "o"; SV "v"; SV "v"]); (EVar "l2_abab"); (EVar "t2_abab"); (EVar "t2_bbbb"); (EVar "t2_abab")]));
   (*L2291*) SAug true "double_res" (EScale (-1 # 8) (EEins "nmef,kldc,eakl,fbij,dcnm->abij" [(ESlice (EVar "g_bbbb") [SV "o"; SV "o"; SV "v"; SV "v"]); (EVar "l2_bbbb"); (EVar "t2_bbbb"); (EVar "t2_bbbb"); (EVar "t2_bbbb")]));
   (*L2294*) SAssign "contracted_intermediate" (EScale (-1 # 2) (EEins "nmfe,kldc,eajl,fbkm,dcni->abij" [(ESlice (EVar "g_abab") [SV "o"; SV "o"; SV "v"; SV "v"]); (EVar "l2_abab"); (EVar "t2_bbbb"); (EVar "t2_abab"); (EVar "t2_abab")]));
   (*L2295*) SAug true "double_res" (EAdd (EScale (1 # 1) (EVar "contracted_intermediate")) (EScale (-1 # 1) (EEins "abij->abji" [(EVar "contracted_intermediate")])));
   (*L2298*) SAssign "contracted_intermediate" (EScale (-1 # 2) (EEins "nmfe,klcd,eajl,fbkm,cdni->abij" [(ESlice (EVar "g_abab") [SV "o"; SV "o"; SV "v"; SV "v"]); (EVar "l2_abab"); (EVar "t2_bbbb"); (EVar "t2_abab"); (EVar "t2_abab")]));
   (*L2299*) SAug true "double_res" (EAdd (EScale (1 # 1) (EVar "contracted_intermediate")) (EScale (-1 # 1) (EEins "abij->abji" [(EVar "contracted_intermediate")])));
   (*L2302*) SAssign "contracted_intermediate" (EScale (-1 # 2) (EEins "nmef,lkdc,ealj,fbmk,dcni->abij" [(ESlice (EVar "g_aaaa") [SV "o"; SV "o"; SV "v"; SV "v"]); (EVar "l2_abab"); (EVar "t2_abab"); (EVar "t2_abab"); (EVar "t2_abab")]));
   (*L2303*) SAug true "double_res" (EAdd (EScale (1 # 1) (EVar "contracted_intermediate")) (EScale (-1 # 1) (EEins "abij->abji" [(EVar "contracted_intermediate")])));
   (*L2306*) SAssign "contracted_intermediate" (EScale (1 # 2) (EEins "nmef,lkdc,ealj,fbkm,dcni->abij" [(ESlice (EVar "g_abab") [SV "o"; SV "o"; SV "v"; SV "v"]); (EVar "l2_abab"); (EVar "t2_abab"); (EVar "t2_bbbb"); (EVar "t2_abab")]));
   (*L2307*) SAug true "double_res" (EAdd (EScale (1 # 1) (EVar "contracted_intermediate")) (EScale (-1 # 1) (EEins "abij->abji" [(EVar "contracted_intermediate")])));
   (*L2310*) SAssign "contracted_intermediate" (EScale (-1 # 2) (EEins "nmef,lkcd,ealj,fbmk,cdni->abij" [(ESlice (EVar "g_aaaa") [SV "o"; SV "o"; SV "v"; SV "v"]); (EVar "l2_abab"); (EVar "t2_abab"); (EVar "t2_abab"); (EVar "t2_abab")]));
   (*L2311*) SAug true "double_res" (EAdd (EScale (1 # 1) (EVar "contracted_intermediate")) (EScale (-1 # 1) (EEins "abij->abji" [(EVar "contracted_intermediate")])));
   (*L2314*) SAssign "contracted_intermediate" (EScale (1 # 2) (EEins "nmef,lkcd,ealj,fbkm,cdni->abij" [(ESlice (EVar "g_abab") [SV "o"; SV "o"; SV "v"; SV "v"]); (EVar "l2_abab"); (EVar "t2_abab"); (EVar "t2_bbbb"); (EVar "t2_abab")]));
   (*L2315*) SAug true "double_res" (EAdd (EScale (1 # 1) (EVar "contracted_intermediate")) (EScale (-1 # 1) (EEins "abij->abji" [(EVar "contracted_intermediate")])));
   (*L2318*) SAssign "contracted_intermediate" (EScale (1 # 2) (EEins "mnfe,kldc,eajl,fbmk,dcin->abij" [(ESlice (EVar "g_abab") [SV "o"; SV "o"; SV "v"; SV "v"]); (EVar "l2_bbbb"); (EVar "t2_bbbb"); (EVar "t2_abab"); (EVar "t2_bbbb")]));
   (*L2319*) SAug true "double_res" (EAdd (EScale (1 # 1) (EVar "contracted_intermediate")) (EScale (-1 # 1) (EEins "abij->abji" [(EVar "contracted_intermediate")])));
   (*L2322*) SAssign "contracted_intermediate" (EScale (-1 # 2) (EEins "nmef,kldc,eajl,fbkm,dcin->abij" [(ESlice (EVar "g_bbbb") [SV "o"; SV "o"; SV "v"; SV "v"]); (EVar "l2_bbbb"); (EVar "t2_bbbb"); (EVar "t2_bbbb"); (EVar "t2_bbbb")]));
   (*L2323*) SAug true "double_res" (EAdd (EScale (1 # 1) (EVar "contracted_intermediate")) (EScale (-1 # 1) (EEins "abij->abji" [(EVar "contracted_intermediate")])));
   (*L2326*) SAssign "contracted_intermediate" (EScale (1 # 2) (EEins "nmef,kldc,ealj,fbmi,dckn->abij" [(ESlice (EVar "g_aaaa") [SV "o"; SV "o"; SV "v"; SV "v"]); (EVar "l2_aaaa"); (EVar "t2_abab"); (EVar "t2_abab"); (EVar "t2_aaaa")]));
   (*L2327*) SAug true "double_res" (EAdd (EScale (1 # 1) (EVar "contracted_intermediate")) (EScale (-1 # 1) (EEins "abij->abji" [(EVar "contracted_intermediate")])));
   (*L2330*) SAssign "contracted_intermediate" (EScale (-1 # 2) (EEins "nmef,kldc,ealj,fbim,dckn->abij" [(ESlice (EVar "g_abab") [SV "o"; SV "o"; SV "v"; SV "v"]); (EVar "l2_aaaa"); (EVar "t2_abab"); (EVar "t2_bbbb"); (EVar "t2_aaaa")]));
   (*L2331*) SAug true "double_res" (EAdd (EScale (1 # 1) (EVar "contracted_intermediate")) (EScale (-1 # 1) (EEins "abij->abji" [(EVar "contracted_intermediate")])));
   (*L2334*) SAssign "contracted_intermediate" (EScale (-1 # 2) (EEins "mnfe,kldc,eajl,fbmi,dckn->abij" [(ESlice (EVar "g_abab") [SV "o"; SV "o"; SV "v"; SV "v"]); (EVar "l2_abab"); (EVar "t2_bbbb"); (EVar "t2_abab"); (EVar "t2_abab")]));
   (*L2335*) SAug true "double_res" (EAdd (EScale (1 # 1) (EVar "contracted_intermediate")) (EScale (-1 # 1) (EEins "abij->abji" [(EVar "contracted_intermediate")])));
   (*L2338*) SAssign "contracted_intermediate" (EScale (1 # 2) (EEins "nmef,kldc,eajl,fbim,dckn->abij" [(ESlice (EVar "g_bbbb") [SV "o"; SV "o"; SV "v"; SV "v"]); (EVar "l2_abab"); (EVar "t2_bbbb"); (EVar "t2_bbbb"); (EVar "t2_abab")]));
   (*L2339*) SAug true "double_res" (EAdd (EScale (1 # 1) (EVar "contracted_intermediate")) (EScale (-1 # 1) (EEins "abij->abji" [(EVar "contracted_intermediate")])));
   (*L2342*) SAssign "contracted_intermediate" (EScale (-1 # 2) (EEins "mnfe,klcd,eajl,fbmi,cdkn->abij" [(ESlice (EVar "g_abab") [SV "o"; SV "o"; SV "v"; SV "v"]); (EVar "l2_abab"); (EVar "t2_bbbb"); (EVar "t2_abab"); (EVar "t2_abab")]));
   (*L2343*) SAug true "double_res" (EAdd (EScale (1 # 1) (EVar "contracted_intermediate")) (EScale (-1 # 1) (EEins "abij->abji" [(EVar "contracted_intermediate")])));
   (*L2346*) SAssign "contracted_intermediate" (EScale (1 # 2) (EEins "nmef,klcd,eajl,fbim,cdkn->abij" [(ESlice (EVar "g_bbbb") [SV "o"; SV "o"; SV "v"; SV "v"]); (EVar "l2_abab"); (EVar "t2_bbbb"); (EVar "t2_bbbb"); (EVar "t2_abab")]));
   (*L2347*) SAug true "double_res" (EAdd (EScale (1 # 1) (EVar "contracted_intermediate")) (EScale (-1 # 1) (EEins "abij->abji" [(EVar "contracted_intermediate")])));
   (*L2350*) SAssign "contracted_intermediate" (EScale (1 # 2) (EEins "nmef,lkdc,ealj,fbmi,dcnk->abij" [(ESlice (EVar "g_aaaa") [SV "o"; SV "o"; SV "v"; SV "v"]); (EVar "l2_abab"); (EVar "t2_abab"); (EVar "t2_abab"); (EVar "t2_abab")]));
   (*L2351*) SAug true "double_res" (EAdd (EScale (1 # 1) (EVar "contracted_intermediate")) (EScale (-1 # 1) (EEins "abij->abji" [(EVar "contracted_intermediate")])));
   (*L2354*) SAssign "contracted_intermediate" (EScale (-1 # 2) (EEins "nmef,lkdc,ealj,fbim,dcnk->abij" [(ESlice (EVar "g_abab") [SV "o"; SV "o"; SV "v"; SV "v"]); (EVar "l2_abab"); (EVar "t2_abab"); (EVar "t2_bbbb"); (EVar "t2_abab")]));
   (*L2355*) SAug true "double_res" (EAdd (EScale (1 # 1) (EVar "contracted_intermediate")) (EScale (-1 # 1) (EEins "abij->abji" [(EVar "contracted_intermediate")])));
   (*L2358*) SAssign "contracted_intermediate" (EScale (1 # 2) (EEins "nmef,lkcd,ealj,fbmi,cdnk->abij" [(ESlice (EVar "g_aaaa") [SV "o"; SV "o"; SV "v"; SV "v"]); (EVar "l2_abab"); (EVar "t2_abab"); (EVar "t2_abab"); (EVar "t2_abab")]));
   (*L2359*) SAug true "double_res" (EAdd (EScale (1 # 1) (EVar "contracted_intermediate")) (EScale (-1 # 1) (EEins "abij->abji" [(EVar "contracted_intermediate")])));
   (*L2362*) SAssign "contracted_intermediate" (EScale (-1 # 2) (EEins "nmef,lkcd,ealj,fbim,cdnk->abij" [(ESlice (EVar "g_abab") [SV "o"; SV "o"; SV "v"; SV "v"]); (EVar "l2_abab"); (EVar "t2_abab"); (EVar "t2_bbbb"); (EVar "t2_abab")]));
   (*L2363*) SAug true "double_res" (EAdd (EScale (1 # 1) (EVar "contracted_intermediate")) (EScale (-1 # 1) (EEins "abij->abji" [(EVar "contracted_intermediate")])));
   (*L2366*) SAssign "contracted_intermediate" (EScale (-1 # 2) (EEins "mnfe,kldc,eajl,fbmi,dckn->abij" [(ESlice (EVar "g_abab") [SV "o"; SV "o"; SV "v"; SV "v"]); (EVar "l2_bbbb"); (EVar "t2_bbbb"); (EVar "t2_abab"); (EVar "t2_bbbb")]));
   (*L2367*) SAug true "double_res" (EAdd (EScale (1 # 1) (EVar "contracted_intermediate")) (EScale (-1 # 1) (EEins "abij->abji" [(EVar "contracted_intermediate")])));
   (*L2370*) SAssign "contracted_intermediate" (EScale (1 # 2) (EEins "nmef,kldc,eajl,fbim,dckn->abij" [(ESlice (EVar "g_bbbb") [SV "o"; SV "o"; SV "v"; SV "v"]); (EVar "l2_bbbb"); (EVar "t2_bbbb"); (EVar "t2_bbbb"); (EVar "t2_bbbb")]));
   (*L2371*) SAug true "double_res" (EAdd (EScale (1 # 1) (EVar "contracted_intermediate")) (EScale (-1 # 1) (EEins "abij->abji" [(EVar "contracted_intermediate")])));
   (*L2374*) SAssign "contracted_intermediate" (EScale (1 # 4) (EEins "nmef,kldc,ealj,fbki,dcnm->abij" [(ESlice (EVar "g_aaaa") [SV "o"; SV "o"; SV "v"; SV "v"]); (EVar "l2_aaaa"); (EVar "t2_abab"); (EVar "t2_abab"); (EVar "t2_aaaa")]));
   (*L2375*) SAug true "double_res" (EAdd (EScale (1 # 1) (EVar "contracted_intermediate")) (EScale (-1 # 1) (EEins "abij->abji" [(EVar "contracted_intermediate")])));
   (*L2378*) SAssign "contracted_intermediate" (EScale (1 # 4) (EEins "nmfe,kldc,eajl,fbki,dcnm->abij" [(ESlice (EVar "g_abab") [SV "o"; SV "o"; SV "v"; SV "v"]); (EVar "l2_abab"); (EVar "t2_bbbb"); (EVar "t2_abab"); (EVar "t2_abab")]));
   (*L2379*) SAug true "double_res" (EAdd (EScale (1 # 1) (EVar "contracted_intermediate")) (EScale (-1 # 1) (EEins "abij->abji" [(EVar "contracted_intermediate")])));
   (*L2382*) SAssign "contracted_intermediate" (EScale (1 # 4) (EEins "mnfe,kldc,eajl,fbki,dcmn->abij" [(ESlice (EVar "g_abab") [SV "o"; SV "o"; SV "v"; SV "v"]); (EVar "l2_abab"); (EVar "t2_bbbb"); (EVar "t2_abab"); (EVar "t2_abab")]));
   (*L2383*) SAug true "double_res" (EAdd (EScale (1 # 1) (EVar "contracted_intermediate")) (EScale (-1 # 1) (EEins "abij->abji" [(EVar "contracted_intermediate")])));
   (*L2386*) SAssign "contracted_intermediate" (EScale (1 # 4) (EEins "nmfe,klcd,eajl,fbki,cdnm->abij" [(ESlice (EVar "g_abab") [SV "o"; SV "o"; SV "v"; SV "v"]); (EVar "l2_abab"); (EVar "t2_bbbb"); (EVar "t2_abab"); (EVar "t2_abab")]));
   (*L2387*) SAug true "double_res" (EAdd (EScale (1 # 1) (EVar "contracted_intermediate")) (EScale (-1 # 1) (EEins "abij->abji" [(EVar "contracted_intermediate")])));
   (*L2390*) SAssign "contracted_intermediate" (EScale (1 # 4) (EEins "mnfe,klcd,eajl,fbki,cdmn->abij" [(ESlice (EVar "g_abab") [SV "o"; SV "o"; SV "v"; SV "v"]); (EVar "l2_abab"); (EVar "t2_bbbb"); (EVar "t2_abab"); (EVar "t2_abab")]));
   (*L2391*) SAug true "double_res" (EAdd (EScale (1 # 1) (EVar "contracted_intermediate")) (EScale (-1 # 1) (EEins "abij->abji" [(EVar "contracted_intermediate")])));
   (*L2394*) SAssign "contracted_intermediate" (EScale (1 # 4) (EEins "nmef,lkdc,ealj,fbik,dcnm->abij" [(ESlice (EVar "g_abab") [SV "o"; SV "o"; SV "v"; SV "v"]); (EVar "l2_abab"); (EVar "t2_abab"); (EVar "t2_bbbb"); (EVar "t2_abab")]));
   (*L2395*) SAug true "double_res" (EAdd (EScale (1 # 1) (EVar "contracted_intermediate")) (EScale (-1 # 1) (EEins "abij->abji" [(EVar "contracted_intermediate")])));
   (*L2398*) SAssign "contracted_intermediate" (EScale (1 # 4) (EEins "mnef,lkdc,ealj,fbik,dcmn->abij" [(ESlice (EVar "g_abab") [SV "o"; SV "o"; SV "v"; SV "v"]); (EVar "l2_abab"); (EVar "t2_abab"); (EVar "t2_bbbb"); (EVar "t2_abab")]));
   (*L2399*) SAug true "double_res" (EAdd (EScale (1 # 1) (EVar "contracted_intermediate")) (EScale (-1 # 1) (EEins "abij->abji" [(EVar "contracted_intermediate")])));
   (*L2402*) SAssign "contracted_intermediate" (EScale (1 # 4) (EEins "nmef,lkcd,ealj,fbik,cdnm->abij" [(ESlice (EVar "g_abab") [SV "o"; SV "o"; SV "v"; SV "v"]); (EVar "l2_abab"); (EVar "t2_abab"); (EVar "t2_bbbb"); (EVar "t2_abab")]));
   (*L2403*) SAug true "double_res" (EAdd (EScale (1 # 1) (EVar "contracted_intermediate")) (EScale (-1 # 1) (EEins "abij->abji" [(EVar "contracted_intermediate")])));
   (*L2406*) SAssign "contracted_intermediate" (EScale (1 # 4) (EEins "mnef,lkcd,ealj,fbik,cdmn->abij" [(ESlice (EVar "g_abab") [SV "o"; SV "o"; SV "v"; SV "v"]); (EVar "l2_abab"); (EVar "t2_abab"); (EVar "t2_bbbb"); (EVar "t2_abab")]));
   (*L2407*) SAug true "double_res" (EAdd (EScale (1 # 1) (EVar "contracted_intermediate")) (EScale (-1 # 1) (EEins "abij->abji" [(EVar "contracted_intermediate")])));
   (*L2410*) SAssign "contracted_intermediate" (EScale (1 # 4) (EEins "nmef,kldc,eajl,fbik,dcnm->abij" [(ESlice (EVar "g_bbbb") [SV "o"; SV "o"; SV "v"; SV "v"]); (EVar "l2_bbbb"); (EVar "t2_bbbb"); (EVar "t2_bbbb"); (EVar "t2_bbbb")]));
   (*L2411*) SAug true "double_res" (EAdd (EScale (1 # 1) (EVar "contracted_intermediate")) (EScale (-1 # 1) (EEins "abij->abji" [(EVar "contracted_intermediate")])));
   (*L2414*) SAssign "contracted_intermediate" (EScale (1 # 4) (EEins "nmef,kldc,eakj,dbmi,fcln->abij" [(ESlice (EVar "g_aaaa") [SV "o"; SV "o"; SV "v"; SV "v"]); (EVar "l2_aaaa"); (EVar "t2_abab"); (EVar "t2_abab"); (EVar "t2_aaaa")]));
   (*L2415*) SAug true "double_res" (EAdd (EAdd (EAdd (EScale (1 # 1) (EVar "contracted_intermediate")) (EScale (-1 # 1) (EEins "abij->abji" [(EVar "contracted_intermediate")]))) (EScale (-1 # 1) (EEins "abij->baij" [(EVar "contracted_intermediate")]))) (EScale (1 # 1) (EEins "abij->baji" [(EVar "contracted_intermediate")])));
   (*L2418*) SAssign "contracted_intermediate" (EScale (1 # 4) (EEins "mnef,kldc,eakj,dbmi,cfln->abij" [(ESlice (EVar "g_abab") [SV "o"; SV "o"; SV "v"; SV "v"]); (EVar "l2_aaaa"); (EVar "t2_abab"); (EVar "t2_abab"); (EVar "t2_abab")]));
   (*L2419*) SAug true "double_res" (EAdd (EAdd (EAdd (EScale (1 # 1) (EVar "contracted_intermediate")) (EScale (-1 # 1) (EEins "abij->abji" [(EVar "contracted_intermediate")]))) (EScale (-1 # 1) (EEins "abij->baij" [(EVar "contracted_intermediate")]))) (EScale (1 # 1) (EEins "abij->baji" [(EVar "contracted_intermediate")])));
   (*L2422*) SAssign "contracted_intermediate" (EScale (-1 # 4) (EEins "nmef,kldc,eakj,dbmi,fcnl->abij" [(ESlice (EVar "g_aaaa") [SV "o"; SV "o"; SV "v"; SV "v"]); (EVar "l2_abab"); (EVar "t2_abab"); (EVar "t2_abab"); (EVar "t2_abab")]));
   (*L2423*) SAug true "double_res" (EAdd (EAdd (EAdd (EScale (1 # 1) (EVar "contracted_intermediate")) (EScale (-1 # 1) (EEins "abij->abji" [(EVar "contracted_intermediate")]))) (EScale (-1 # 1) (EEins "abij->baij" [(EVar "contracted_intermediate")]))) (EScale (1 # 1) (EEins "abij->baji" [(EVar "contracted_intermediate")])));
   (*L2426*) SAssign "contracted_intermediate" (EScale (-1 # 4) (EEins "mnef,kldc,eakj,dbmi,fcln->abij" [(ESlice (EVar "g_abab") [SV "o"; SV "o"; SV "v"; SV "v"]); (EVar "l2_abab"); (EVar "t2_abab"); (EVar "t2_abab"); (EVar "t2_bbbb")]));
   (*L2427*) SAug true "double_res" (EAdd (EAdd (EAdd (EScale (1 # 1) (EVar "contracted_intermediate")) (EScale (-1 # 1) (EEins "abij->abji" [(EVar "contracted_intermediate")]))) (EScale (-1 # 1) (EEins "abij->baij" [(EVar "contracted_intermediate")]))) (EScale (1 # 1) (EEins "abij->baji" [(EVar "contracted_intermediate")])));
   (*L2430*) SAssign "contracted_intermediate" (EScale (1 # 4) (EEins "nmef,klcd,eakj,dbim,cfnl->abij" [(ESlice (EVar "g_abab") [SV "o"; SV "o"; SV "v"; SV "v"]); (EVar "l2_abab"); (EVar "t2_abab"); (EVar "t2_bbbb"); (EVar "t2_abab")]));
   (*L2431*) SAug true "double_res" (EAdd (EAdd (EAdd (EScale (1 # 1) (EVar "contracted_intermediate")) (EScale (-1 # 1) (EEins "abij->abji" [(EVar "contracted_intermediate")]))) (EScale (-1 # 1) (EEins "abij->baij" [(EVar "contracted_intermediate")]))) (EScale (1 # 1) (EEins "abij->baji" [(EVar "contracted_intermediate")])));
   (*L2434*) SAssign "contracted_intermediate" (EScale (1 # 4) (EEins "mnfe,lkdc,eajk,dbmi,fcln->abij" [(ESlice (EVar "g_abab") [SV "o"; SV "o"; SV "v"; SV "v"]); (EVar "l2_abab"); (EVar "t2_bbbb"); (EVar "t2_abab"); (EVar "t2_abab")]));
   (*L2435*) SAug true "double_res" (EAdd (EAdd (EAdd (EScale (1 # 1) (EVar "contracted_intermediate")) (EScale (-1 # 1) (EEins "abij->abji" [(EVar "contracted_intermediate")]))) (EScale (-1 # 1) (EEins "abij->baij" [(EVar "contracted_intermediate")]))) (EScale (1 # 1) (EEins "abij->baji" [(EVar "contracted_intermediate")])));
   (*L2438*) SAssign "contracted_intermediate" (EScale (-1 # 4) (EEins "nmfe,lkcd,eajk,dbim,fcln->abij" [(ESlice (EVar "g_abab") [SV "o"; SV "o"; SV "v"; SV "v"]); (EVar "l2_abab"); (EVar "t2_bbbb"); (EVar "t2_bbbb"); (EVar "t2_aaaa")]));
   (*L2439*) SAug true "double_res" (EAdd (EAdd (EAdd (EScale (1 # 1) (EVar "contracted_intermediate")) (EScale (-1 # 1) (EEins "abij->abji" [(EVar "contracted_intermediate")]))) (EScale (-1 # 1) (EEins "abij->baij" [(EVar "contracted_intermediate")]))) (EScale (1 # 1) (EEins "abij->baji" [(EVar "contracted_intermediate")])));
   (*L2442*) SAssign "contracted_intermediate" (EScale (-1 # 4) (EEins "nmef,lkcd,eajk,dbim,cfln->abij" [(ESlice (EVar "g_bbbb") [SV "o"; SV "o"; SV "v"; SV "v"]); (EVar "l2_abab"); (EVar "t2_bbbb"); (EVar "t2_bbbb"); (EVar "t2_abab")]));
   (*L2443*) SAug true "double_res" (EAdd (EAdd (EAdd (EScale (1 # 1) (EVar "contracted_intermediate")) (EScale (-1 # 1) (EEins "abij->abji" [(EVar "contracted_intermediate")]))) (EScale (-1 # 1) (EEins "abij->baij" [(EVar "contracted_intermediate")]))) (EScale (1 # 1) (EEins "abij->baji" [(EVar "contracted_intermediate")])));
   (*L2446*) SAssign "contracted_intermediate" (EScale (1 # 4) (EEins "nmfe,kldc,eajk,dbim,fcnl->abij" [(ESlice (EVar "g_abab") [SV "o"; SV "o"; SV "v"; SV "v"]); (EVar "l2_bbbb"); (EVar "t2_bbbb"); (EVar "t2_bbbb"); (EVar "t2_abab")]));
   (*L2447*) SAug true "double_res" (EAdd (EAdd (EAdd (EScale (1 # 1) (EVar "contracted_intermediate")) (EScale (-1 # 1) (EEins "abij->abji" [(EVar "contracted_intermediate")]))) (EScale (-1 # 1) (EEins "abij->baij" [(EVar "contracted_intermediate")]))) (EScale (1 # 1) (EEins "abij->baji" [(EVar "contracted_intermediate")])));
   (*L2450*) SAssign "contracted_intermediate" (EScale (1 # 4) (EEins "nmef,kldc,eajk,dbim,fcln->abij" [(ESlice (EVar "g_bbbb") [SV "o"; SV "o"; SV "v"; SV "v"]); (EVar "l2_bbbb"); (EVar "t2_bbbb"); (EVar "t2_bbbb"); (EVar "t2_bbbb")]));
   (*L2451*) SAug true "double_res" (EAdd (EAdd (EAdd (EScale (1 # 1) (EVar "contracted_intermediate")) (EScale (-1 # 1) (EEins "abij->abji" [(EVar "contracted_intermediate")]))) (EScale (-1 # 1) (EEins "abij->baij" [(EVar "contracted_intermediate")]))) (EScale (1 # 1) (EEins "abij->baji" [(EVar "contracted_intermediate")])));
   (*L2454*) SAug true "double_res" (EScale (-1 # 2) (EEins "nmfe,kldc,eaij,fblm,dckn->abij" [(ESlice (EVar "g_abab") [SV "o"; SV "o"; SV "v"; SV "v"]); (EVar "l2_aaaa"); (EVar "t2_bbbb"); (EVar "t2_abab"); (EVar "t2_aaaa")]));
   (*L2457*) SAug true "double_res" (EScale (-1 # 2) (EEins "mnfe,kldc,eaij,fbml,dckn->abij" [(ESlice (EVar "g_abab") [SV "o"; SV "o"; SV "v"; SV "v"]); (EVar "l2_abab"); (EVar "t2_bbbb"); (EVar "t2_abab"); (EVar "t2_abab")]));
   (*L2460*) SAug true "double_res" (EScale (1 # 2) (EEins "nmef,kldc,eaij,fblm,dckn->abij" [(ESlice (EVar "g_bbbb") [SV "o"; SV "o"; SV "v"; SV "v"]); (EVar "l2_abab"); (EVar "t2_bbbb"); (EVar "t2_bbbb"); (EVar "t2_abab")]));
   (*L2463*) SAug true "double_res" (EScale (-1 # 2) (EEins "mnfe,klcd,eaij,fbml,cdkn->abij" [(ESlice (EVar "g_abab") [SV "o"; SV "o"; SV "v"; SV "v"]); (EVar "l2_abab"); (EVar "t2_bbbb"); (EVar "t2_abab"); (EVar "t2_abab")]));
   (*L2466*) SAug true "double_res" (EScale (1 # 2) (EEins "nmef,klcd,eaij,fblm,cdkn->abij" [(ESlice (EVar "g_bbbb") [SV "o"; SV "o"; SV "v"; SV "v"]); (EVar "l2_abab"); (EVar "t2_bbbb"); (EVar "t2_bbbb"); (EVar "t2_abab")]));
   (*L2469*) SAug true "double_res" (EScale (-1 # 2) (EEins "nmfe,lkdc,eaij,fblm,dcnk->abij" [(ESlice (EVar "g_abab") [SV "o"; SV "o"; SV "v"; SV "v"]); (EVar "l2_abab"); (EVar "t2_bbbb"); (EVar "t2_abab"); (EVar "t2_abab")]));
   (*L2472*) SAug true "double_res" (EScale (-1 # 2) (EEins "nmfe,lkcd,eaij,fblm,cdnk->abij" [(ESlice (EVar "g_abab") [SV "o"; SV "o"; SV "v"; SV "v"]); (EVar "l2_abab"); (EVar "t2_bbbb"); (EVar "t2_abab"); (EVar "t2_abab")]));
   (*L2475*) SAug true "double_res" (EScale (-1 # 2) (EEins "mnfe,kldc,eaij,fbml,dckn->abij" [(ESlice (EVar "g_abab") [SV "o"; SV "o"; SV "v"; SV "v"]); (EVar "l2_bbbb"); (EVar "t2_bbbb"); (EVar "t2_abab"); (EVar "t2_bbbb")]));
   (*L2478*) SAug true "double_res" (EScale (1 # 2) (EEins "nmef,kldc,eaij,fblm,dckn->abij" [(ESlice (EVar "g_bbbb") [SV "o"; SV "o"; SV "v"; SV "v"]); (EVar "l2_bbbb"); (EVar "t2_bbbb"); (EVar "t2_bbbb"); (EVar "t2_bbbb")]));
   (*L2481*) SAug true "double_res" (EScale (1 # 8) (EEins "nmfe,kldc,eaij,fbkl,dcnm->abij" [(ESlice (EVar "g_abab") [SV "o"; SV "o"; SV "v"; SV "v"]); (EVar "l2_abab"); (EVar "t2_bbbb"); (EVar "t2_abab"); (EVar "t2_abab")]));
   (*L2484*) SAug true "double_res" (EScale (1 # 8) (EEins "mnfe,kldc,eaij,fbkl,dcmn->abij" [(ESlice (EVar "g_abab") [SV "o"; SV "o"; SV "v"; SV "v"]); (EVar "l2_abab"); (EVar "t2_bbbb"); (EVar "t2_abab"); (EVar "t2_abab")]));
   (*L2487*) SAug true "double_res" (EScale (1 # 8) (EEins "nmfe,klcd,eaij,fbkl,cdnm->abij" [(ESlice (EVar "g_abab") [SV "o"; SV "o"; SV "v"; SV "v"]); (EVar "l2_abab"); (EVar "t2_bbbb"); (EVar "t2_abab"); (EVar "t2_abab")]));
   (*L2490*) SAug true "double_res" (EScale (1 # 8) (EEins "mnfe,klcd,eaij,fbkl,cdmn->abij" [(ESlice (EVar "g_abab") [SV "o"; SV "o"; SV "v"; SV "v"]); (EVar "l2_abab"); (EVar "t2_bbbb"); (EVar "t2_abab"); (EVar "t2_abab")]));
   (*L2493*) SAug true "double_res" (EScale (1 # 8) (EEins "nmfe,lkdc,eaij,fblk,dcnm->abij" [(ESlice (EVar "g_abab") [SV "o"; SV "o"; SV "v"; SV "v"]); (EVar "l2_abab"); (EVar "t2_bbbb"); (EVar "t2_abab"); (EVar "t2_abab")]));
   (*L2496*) SAug true "double_res" (EScale (1 # 8) (EEins "mnfe,lkdc,eaij,fblk,dcmn->abij" [(ESlice (EVar "g_abab") [SV "o"; SV "o"; SV "v"; SV "v"]); (EVar "l2_abab"); (EVar "t2_bbbb"); (EVar "t2_abab"); (EVar "t2_abab")]));
   (*L2499*) SAug true "double_res" (EScale (1 # 8) (EEins "nmfe,lkcd,eaij,fblk,cdnm->abij" [(ESlice (EVar "g_abab") [SV "o"; SV "o"; SV "v"; SV "v"]); (EVar "l2_abab"); (EVar "t2_bbbb"); (EVar "t2_abab"); (EVar "t2_abab")]));
   (*L2502*) SAug true "double_res" (EScale (1 # 8) (EEins "mnfe,lkcd,eaij,fblk,cdmn->abij" [(ESlice (EVar "g_abab") [SV "o"; SV "o"; SV "v"; SV "v"]); (EVar "l2_abab"); (EVar "t2_bbbb"); (EVar "t2_abab"); (EVar "t2_abab")]));
   (*L2505*) SAug true "double_res" (EScale (-1 # 8) (EEins "nmef,kldc,eaij,fbkl,dcnm->abij" [(ESlice (EVar "g_bbbb") [SV "o"; SV "o"; SV "v"; SV "v"]); (EVar "l2_bbbb"); (EVar "t2_bbbb"); (EVar "t2_bbbb"); (EVar "t2_bbbb")]));
   (*L2508*) SAssign "contracted_intermediate" (EScale (-1 # 8) (EEins "nmef,kldc,ebkj,dclm,fani->abij" [(ESlice (EVar "g_aaaa") [SV "o"; SV "o"; SV "v"; SV "v"]); (EVar "l2_aaaa"); (EVar "t2_abab"); (EVar "t2_aaaa"); (EVar "t2_abab")]));
   (*L2509*) SAug true "double_res" (EAdd (EScale (1 # 1) (EVar "contracted_intermediate")) (EScale (-1 # 1) (EEins "abij->abji" [(EVar "contracted_intermediate")])));
   (*L2512*) SAssign "contracted_intermediate" (EScale (-1 # 8) (EEins "mnef,kldc,ebkj,dclm,fain->abij" [(ESlice (EVar "g_abab") [SV "o"; SV "o"; SV "v"; SV "v"]); (EVar "l2_aaaa"); (EVar "t2_abab"); (EVar "t2_aaaa"); (EVar "t2_bbbb")]));
   (*L2513*) SAug true "double_res" (EAdd (EScale (1 # 1) (EVar "contracted_intermediate")) (EScale (-1 # 1) (EEins "abij->abji" [(EVar "contracted_intermediate")])));
   (*L2516*) SAssign "contracted_intermediate" (EScale (1 # 8) (EEins "nmef,kldc,ebkj,dcml,fani->abij" [(ESlice (EVar "g_aaaa") [SV "o"; SV "o"; SV "v"; SV "v"]); (EVar "l2_abab"); (EVar "t2_abab"); (EVar "t2_abab"); (EVar "t2_abab")]));
   (*L2517*) SAug true "double_res" (EAdd (EScale (1 # 1) (EVar "contracted_intermediate")) (EScale (-1 # 1) (EEins "abij->abji" [(EVar "contracted_intermediate")])));
   (*L2520*) SAssign "contracted_intermediate" (EScale (1 # 8) (EEins "mnef,kldc,ebkj,dcml,fain->abij" [(ESlice (EVar "g_abab") [SV "o"; SV "o"; SV "v"; SV "v"]); (EVar "l2_abab"); (EVar "t2_abab"); (EVar "t2_abab"); (EVar "t2_bbbb")]));
   (*L2521*) SAug true "double_res" (EAdd (EScale (1 # 1) (EVar "contracted_intermediate")) (EScale (-1 # 1) (EEins "abij->abji" [(EVar "contracted_intermediate")])));
   (*L2524*) SAssign "contracted_intermediate" (EScale (1 # 8) (EEins "nmef,klcd,ebkj,cdml,fani->abij" [(ESlice (EVar "g_aaaa") [SV "o"; SV "o"; SV "v"; SV "v"]); (EVar "l2_abab"); (EVar "t2_abab"); (EVar "t2_abab"); (EVar "t2_abab")]));
   (*L2525*) SAug true "double_res" (EAdd (EScale (1 # 1) (EVar "contracted_intermediate")) (EScale (-1 # 1) (EEins "abij->abji" [(EVar "contracted_intermediate")])));
   (*L2528*) SAssign "contracted_intermediate" (EScale (1 # 8) (EEins "mnef,klcd,ebkj,cdml,fain->abij" [(ESlice (EVar "g_abab") [SV "o"; SV "o"; SV "v"; SV "v"]); (EVar "l2_abab"); (EVar "t2_abab"); (EVar "t2_abab"); (EVar "t2_bbbb")]));
   (*L2529*) SAug true "double_res" (EAdd (EScale (1 # 1) (EVar "contracted_intermediate")) (EScale (-1 # 1) (EEins "abij->abji" [(EVar "contracted_intermediate")])));
   (*L2532*) SAssign "contracted_intermediate" (EScale (1 # 8) (EEins "nmfe,lkdc,ebjk,dclm,fani->abij" [(ESlice (EVar "g_abab") [SV "o"; SV "o"; SV "v"; SV "v"]); (EVar "l2_abab"); (EVar "t2_bbbb"); (EVar "t2_abab"); (EVar "t2_abab")]));
   (*L2533*) SAug true "double_res" (EAdd (EScale (1 # 1) (EVar "contracted_intermediate")) (EScale (-1 # 1) (EEins "abij->abji" [(EVar "contracted_intermediate")])));
   (*L2536*) SAssign "contracted_intermediate" (EScale (1 # 8) (EEins "nmef,lkdc,ebjk,dclm,fain->abij" [(ESlice (EVar "g_bbbb") [SV "o"; SV "o"; SV "v"; SV "v"]); (EVar "l2_abab"); (EVar "t2_bbbb"); (EVar "t2_abab"); (EVar "t2_bbbb")]));
   (*L2537*) SAug true "double_res" (EAdd (EScale (1 # 1) (EVar "contracted_intermediate")) (EScale (-1 # 1) (EEins "abij->abji" [(EVar "contracted_intermediate")])));
   (*L2540*) SAssign "contracted_intermediate" (EScale (1 # 8) (EEins "nmfe,lkcd,ebjk,cdlm,fani->abij" [(ESlice (EVar "g_abab") [SV "o"; SV "o"; SV "v"; SV "v"]); (EVar "l2_abab"); (EVar "t2_bbbb"); (EVar "t2_abab"); (EVar "t2_abab")]));
   (*L2541*) SAug true "double_res" (EAdd (EScale (1 # 1) (EVar "contracted_intermediate")) (EScale (-1 # 1) (EEins "abij->abji" [(EVar "contracted_intermediate")])));
   (*L2544*) SAssign "contracted_intermediate" (EScale (1 # 8) (EEins "nmef,lkcd,ebjk,cdlm,fain->abij" [(ESlice (EVar "g_bbbb") [SV "o"; SV "o"; SV "v"; SV "v"]); (EVar "l2_abab"); (EVar "t2_bbbb"); (EVar "t2_abab"); (EVar "t2_bbbb")]));
   (*L2545*) SAug true "double_res" (EAdd (EScale (1 # 1) (EVar "contracted_intermediate")) (EScale (-1 # 1) (EEins "abij->abji" [(EVar "contracted_intermediate")])));
   (*L2548*) SAssign "contracted_intermediate" (EScale (-1 # 8) (EEins "nmfe,kldc,ebjk,dclm,fani->abij" [(ESlice (EVar "g_abab") [SV "o"; SV "o"; SV "v"; SV "v"]); (EVar "l2_bbbb"); (EVar "t2_bbbb"); (EVar "t2_bbbb"); (EVar "t2_abab")]));
   (*L2549*) SAug true "double_res" (EAdd (EScale (1 # 1) (EVar "contracted_intermediate")) (EScale (-1 # 1) (EEins "abij->abji" [(EVar "contracted_intermediate")])));
   (*L2552*) SAssign "contracted_intermediate" (EScale (-1 # 8) (EEins "nmef,kldc,ebjk,dclm,fain->abij" [(ESlice (EVar "g_bbbb") [SV "o"; SV "o"; SV "v"; SV "v"]); (EVar "l2_bbbb"); (EVar "t2_bbbb"); (EVar "t2_bbbb"); (EVar "t2_bbbb")]));
   (*L2553*) SAug true "double_res" (EAdd (EScale (1 # 1) (EVar "contracted_intermediate")) (EScale (-1 # 1) (EEins "abij->abji" [(EVar "contracted_intermediate")])));
   (*L2556*) SAug true "double_res" (EScale (-1 # 8) (EEins "mnfe,kldc,ebij,dclm,fakn->abij" [(ESlice (EVar "g_abab") [SV "o"; SV "o"; SV "v"; SV "v"]); (EVar "l2_aaaa"); (EVar "t2_bbbb"); (EVar "t2_aaaa"); (EVar "t2_abab")]));
   (*L2559*) SAug true "double_res" (EScale (1 # 8) (EEins "mnfe,kldc,ebij,dcml,fakn->abij" [(ESlice (EVar "g_abab") [SV "o"; SV "o"; SV "v"; SV "v"]); (EVar "l2_abab"); (EVar "t2_bbbb"); (EVar "t2_abab"); (EVar "t2_abab")]));
   (*L2562*) SAug true "double_res" (EScale (1 # 8) (EEins "mnfe,klcd,ebij,cdml,fakn->abij" [(ESlice (EVar "g_abab") [SV "o"; SV "o"; SV "v"; SV "v"]); (EVar "l2_abab"); (EVar "t2_bbbb"); (EVar "t2_abab"); (EVar "t2_abab")]));
   (*L2565*) SAug true "double_res" (EScale (1 # 8) (EEins "nmfe,lkdc,ebij,dclm,fank->abij" [(ESlice (EVar "g_abab") [SV "o"; SV "o"; SV "v"; SV "v"]); (EVar "l2_abab"); (EVar "t2_bbbb"); (EVar "t2_abab"); (EVar "t2_abab")]));
   (*L2568*) SAug true "double_res" (EScale (1 # 8) (EEins "nmef,lkdc,ebij,dclm,fakn->abij" [(ESlice (EVar "g_bbbb") [SV "o"; SV "o"; SV "v"; SV "v"]); (EVar "l2_abab"); (EVar "t2_bbbb"); (EVar "t2_abab"); (EVar "t2_bbbb")]));
   (*L2571*) SAug true "double_res" (EScale (1 # 8) (EEins "nmfe,lkcd,ebij,cdlm,fank->abij" [(ESlice (EVar "g_abab") [SV "o"; SV "o"; SV "v"; SV "v"]); (EVar "l2_abab"); (EVar "t2_bbbb"); (EVar "t2_abab"); (EVar "t2_abab")]));
   (*L2574*) SAug true "double_res" (EScale (1 # 8) (EEins "nmef,lkcd,ebij,cdlm,fakn->abij" [(ESlice (EVar "g_bbbb") [SV "o"; SV "o"; SV "v"; SV "v"]); (EVar "l2_abab"); (EVar "t2_bbbb"); (EVar "t2_abab"); (EVar "t2_bbbb")]));
   (*L2577*) SAug true "double_res" (EScale (-1 # 8) (EEins "nmfe,kldc,ebij,dclm,fank->abij" [(ESlice (EVar "g_abab") [SV "o"; SV "o"; SV "v"; SV "v"]); (EVar "l2_bbbb"); (EVar "t2_bbbb"); (EVar "t2_bbbb"); (EVar "t2_abab")]));
   (*L2580*) SAug true "double_res" (EScale (-1 # 8) (EEins "nmef,kldc,ebij,dclm,fakn->abij" [(ESlice (EVar "g_bbbb") [SV "o"; SV "o"; SV "v"; SV "v"]); (EVar "l2_bbbb"); (EVar "t2_bbbb"); (EVar "t2_bbbb"); (EVar "t2_bbbb")]));
   (*L2583*) SAssign "contracted_intermediate" (EScale (-8333333333333 # 100000000000000) (EEins "mnef,kldc,damj,ebkn,cfli->abij" [(ESlice (EVar "g_abab") [SV "o"; SV "o"; SV "v"; SV "v"]); (EVar "l2_aaaa"); (EVar "t2_abab"); (EVar "t2_abab"); (EVar "t2_abab")]));
   (*L2584*) SAug true "double_res" (EAdd (EAdd (EAdd (EScale (1 # 1) (EVar "contracted_intermediate")) (EScale (-1 # 1) (EEins "abij->abji" [(EVar "contracted_intermediate")]))) (EScale (-1 # 1) (EEins "abij->baij" [(EVar "contracted_intermediate")]))) (EScale (1 # 1) (EEins "abij->baji" [(EVar "contracted_intermediate")])));
   (*L2587*) SAssign "contracted_intermediate" (EScale (-8333333333333 # 100000000000000) (EEins "mnef,kldc,damj,ebkn,fcil->abij" [(ESlice (EVar "g_abab") [SV "o"; SV "o"; SV "v"; SV "v"]); (EVar "l2_abab"); (EVar "t2_abab"); (EVar "t2_abab"); (EVar "t2_bbbb")]));
   (*L2588*) SAug true "double_res" (EAdd (EAdd (EAdd (EScale (1 # 1) (EVar "contracted_intermediate")) (EScale (-1 # 1) (EEins "abij->abji" [(EVar "contracted_intermediate")]))) (EScale (-1 # 1) (EEins "abij->baij" [(EVar "contracted_intermediate")]))) (EScale (1 # 1) (EEins "abij->baji" [(EVar "contracted_intermediate")])));
   (*L2591*) SAssign "contracted_intermediate" (EScale (-8333333333333 # 100000000000000) (EEins "nmef,lkdc,damj,ebnk,fcli->abij" [(ESlice (EVar "g_aaaa") [SV "o"; SV "o"; SV "v"; SV "v"]); (EVar "l2_abab"); (EVar "t2_abab"); (EVar "t2_abab"); (EVar "t2_abab")]));
   (*L2592*) SAug true "double_res" (EAdd (EAdd (EAdd (EScale (1 # 1) (EVar "contracted_intermediate")) (EScale (-1 # 1) (EEins "abij->abji" [(EVar "contracted_intermediate")]))) (EScale (-1 # 1) (EEins "abij->baij" [(EVar "contracted_intermediate")]))) (EScale (1 # 1) (EEins "abij->baji" [(EVar "contracted_intermediate")])));
   (*L2595*) SAssign "contracted_intermediate" (EScale (8333333333333 # 100000000000000) (EEins "mnfe,lkdc,damj,ebkn,fcli->abij" [(ESlice (EVar "g_abab") [SV "o"; SV "o"; SV "v"; SV "v"]); (EVar "l2_abab"); (EVar "t2_abab"); (EVar "t2_bbbb"); (EVar "t2_abab")]));
   (*L2596*) SAug true "double_res" (EAdd (EAdd (EAdd (EScale (1 # 1) (EVar "contracted_intermediate")) (EScale (-1 # 1) (EEins "abij->abji" [(EVar "contracted_intermediate")]))) (EScale (-1 # 1) (EEins "abij->baij" [(EVar "contracted_intermediate")]))) (EScale (1 # 1) (EEins "abij->baji" [(EVar "contracted_intermediate")])));
   (*L2599*) SAssign "contracted_intermediate" (EScale (8333333333333 # 100000000000000) (EEins "nmef,lkcd,dajm,ebnk,cfli->abij" [(ESlice (EVar "g_abab") [SV "o"; SV "o"; SV "v"; SV "v"]); (EVar "l2_abab"); (EVar "t2_bbbb"); (EVar "t2_abab"); (EVar "t2_abab")]));
   (*L2600*) SAug true "double_res" (EAdd (EAdd (EAdd (EScale (1 # 1) (EVar "contracted_intermediate")) (EScale (-1 # 1) (EEins "abij->abji" [(EVar "contracted_intermediate")]))) (EScale (-1 # 1) (EEins "abij->baij" [(EVar "contracted_intermediate")]))) (EScale (1 # 1) (EEins "abij->baji" [(EVar "contracted_intermediate")])));
   (*L2603*) SAssign "contracted_intermediate" (EScale (-8333333333333 # 100000000000000) (EEins "nmef,lkcd,dajm,ebkn,cfli->abij" [(ESlice (EVar "g_bbbb") [SV "o"; SV "o"; SV "v"; SV "v"]); (EVar "l2_abab"); (EVar "t2_bbbb"); (EVar "t2_bbbb"); (EVar "t2_abab")]));
   (*L2604*) SAug true "double_res" (EAdd (EAdd (EAdd (EScale (1 # 1) (EVar "contracted_intermediate")) (EScale (-1 # 1) (EEins "abij->abji" [(EVar "contracted_intermediate")]))) (EScale (-1 # 1) (EEins "abij->baij" [(EVar "contracted_intermediate")]))) (EScale (1 # 1) (EEins "abij->baji" [(EVar "contracted_intermediate")])));
   (*L2607*) SAssign "contracted_intermediate" (EScale (8333333333333 # 100000000000000) (EEins "nmef,kldc,dajm,ebnk,fcil->abij" [(ESlice (EVar "g_abab") [SV "o"; SV "o"; SV "v"; SV "v"]); (EVar "l2_bbbb"); (EVar "t2_bbbb"); (EVar "t2_abab"); (EVar "t2_bbbb")]));
   (*L2608*) SAug true "double_res" (EAdd (EAdd (EAdd (EScale (1 # 1) (EVar "contracted_intermediate")) (EScale (-1 # 1) (EEins "abij->abji" [(EVar "contracted_intermediate")]))) (EScale (-1 # 1) (EEins "abij->baij" [(EVar "contracted_intermediate")]))) (EScale (1 # 1) (EEins "abij->baji" [(EVar "contracted_intermediate")])));
   (*L2611*) SAssign "contracted_intermediate" (EScale (-8333333333333 # 100000000000000) (EEins "nmef,kldc,dajm,ebkn,fcil->abij" [(ESlice (EVar "g_bbbb") [SV "o"; SV "o"; SV "v"; SV "v"]); (EVar "l2_bbbb"); (EVar "t2_bbbb"); (EVar "t2_bbbb"); (EVar "t2_bbbb")]));
   (*L2612*) SAug true "double_res" (EAdd (EAdd (EAdd (EScale (1 # 1) (EVar "contracted_intermediate")) (EScale (-1 # 1) (EEins "abij->abji" [(EVar "contracted_intermediate")]))) (EScale (-1 # 1) (EEins "abij->baij" [(EVar "contracted_intermediate")]))) (EScale (1 # 1) (EEins "abij->baji" [(EVar "contracted_intermediate")])))]
  (*L2614*) (EVar "double_res").

(** /repo/UT2/modify_T2resid_T4Qf2.py:2620-4752  def residQf2_abab *)
Definition residQf2_abab : fn := mkFn
  ["g"; "l2"; "t2"; "o"; "v"]
  [(*L2622*) SAssign "g_aaaa" (EItem (EVar "g") "aaaa");
   (*L2623*) SAssign "g_bbbb" (EItem (EVar "g") "bbbb");
   (*L2624*) SAssign "g_abab" (EItem (EVar "g") "abab");
   (*L2626*) SAssign "l2_aaaa" (EItem (EVar "l2") "aaaa");
   (*L2627*) SAssign "l2_bbbb" (EItem (EVar "l2") "bbbb");
   (*L2628*) SAssign "l2_abab" (EItem (EVar "l2") "abab");
   (*L2630*) SAssign "t2_aaaa" (EItem (EVar "t2") "aaaa");
   (*L2631*) SAssign "t2_bbbb" (EItem (EVar "t2") "bbbb");
   (*L2632*) SAssign "t2_abab" (EItem (EVar "t2") "abab");
   (*L2635*) SAssign "double_res" (EScale (-1 # 8) (EEins "mnef,kldc,efkl,dcmj,abin->abij" [(ESlice (EVar "g_abab") [SV "o"; SV "o"; SV "v"; SV "v"]); (EVar "l2_abab"); (EVar "t2_abab"); (EVar "t2_abab"); (EVar "t2_abab")]));
   (*L2638*) SAug true "double_res" (EScale (-1 # 8) (EEins "mnfe,kldc,fekl,dcmj,abin->abij" [(ESlice (EVar "g_abab") [SV "o"; SV "o"; SV "v"; SV "v"]); (EVar "l2_abab"); (EVar "t2_abab"); (EVar "t2_abab"); (EVar "t2_abab")]));
   (*L2641*) SAug true "double_res" (EScale (-1 # 8) (EEins "mnef,klcd,efkl,cdmj,abin->abij" [(ESlice (EVar "g_abab") [SV "o"; SV "o"; SV "v"; SV "v"]); (EVar "l2_abab"); (EVar "t2_abab"); (EVar "t2_abab"); (EVar "t2_abab")]));
   (*L2644*) SAug true "double_res" (EScale (-1 # 8) (EEins "mnfe,klcd,fekl,cdmj,abin->abij" [(ESlice (EVar "g_abab") [SV "o"; SV "o"; SV "v"; SV "v"]); (EVar "l2_abab"); (EVar "t2_abab"); (EVar "t2_abab"); (EVar "t2_abab")]));
   (*L2647*) SAug true "double_res" (EScale (-1 # 8) (EEins "mnef,lkdc,eflk,dcmj,abin->abij" [(ESlice (EVar "g_abab") [SV "o"; SV "o"; SV "v"; SV "v"]); (EVar "l2_abab"); (EVar "t2_abab"); (EVar "t2_abab"); (EVar "t2_abab")]));
   (*L2650*) SAug true "double_res" (EScale (-1 # 8) (EEins "mnfe,lkdc,felk,dcmj,abin->abij" [(ESlice (EVar "g_abab") [SV "o"; SV "o"; SV "v"; SV "v"]); (EVar "l2_abab"); (EVar "t2_abab"); (EVar "t2_abab"); (EVar "t2_abab")]));
   (*L2653*) SAug true "double_res" (EScale (-1 # 8) (EEins "mnef,lkcd,eflk,cdmj,abin->abij" [(ESlice (EVar "g_abab") [SV "o"; SV "o"; SV "v"; SV "v"]); (EVar "l2_abab"); (EVar "t2_abab"); (EVar "t2_abab"); (EVar "t2_abab")]));
   (*L2656*) SAug true "double_res" (EScale (-1 # 8) (EEins "mnfe,lkcd,felk,cdmj,abin->abij" [(ESlice (EVar "g_abab") [SV "o"; SV "o"; SV "v"; SV "v"]); (EVar "l2_abab"); (EVar "t2_abab"); (EVar "t2_abab"); (EVar "t2_abab")]));
   (*L2659*) SAug true "double_res" (EScale (-1 # 8) (EEins "nmef,kldc,efkl,dcjm,abin->abij" [(ESlice (EVar "g_bbbb") [SV "o"; SV "o"; SV "v"; SV "v"]); (EVar "l2_bbbb"); (EVar "t2_bbbb"); (EVar "t2_bbbb"); (EVar "t2_abab")]));
   (*L2662*) SAug true "double_res" (EScale (-1 # 8) (EEins "nmef,kldc,efkl,dcim,abnj->abij" [(ESlice (EVar "g_aaaa") [SV "o"; SV "o"; SV "v"; SV "v"]); (EVar "l2_aaaa"); (EVar "t2_aaaa"); (EVar "t2_aaaa"); (EVar "t2_abab")]));
   (*L2665*) SAug true "double_res" (EScale (-1 # 8) (EEins "nmef,kldc,efkl,dcim,abnj->abij" [(ESlice (EVar "g_abab") [SV "o"; SV "o"; SV "v"; SV "v"]); (EVar "l2_abab"); (EVar "t2_abab"); (EVar "t2_abab"); (EVar "t2_abab")]));
   (*L2668*) SAug true "double_res" (EScale (-1 # 8) (EEins "nmfe,kldc,fekl,dcim,abnj->abij" [(ESlice (EVar "g_abab") [SV "o"; SV "o"; SV "v"; SV "v"]); (EVar "l2_abab"); (EVar "t2_abab"); (EVar "t2_abab"); (EVar "t2_abab")]));
   (*L2671*) SAug true "double_res" (EScale (-1 # 8) (EEins "nmef,klcd,efkl,cdim,abnj->abij" [(ESlice (EVar "g_abab") [SV "o"; SV "o"; SV "v"; SV "v"]); (EVar "l2_abab"); (EVar "t2_abab"); (EVar "t2_abab"); (EVar "t2_abab")]));
   (*L2674*) SAug true "double_res" (EScale (-1 # 8) (EEins "nmfe,klcd,fekl,cdim,abnj->abij" [(ESlice (EVar "g_abab") [SV "o"; SV "o"; SV "v"; SV "v"]); (EVar "l2_abab"); (EVar "t2_abab"); (EVar "t2_abab"); (EVar "t2_abab")]));
   (*L2677*) SAug true "double_res" (EScale (-1 # 8) (EEins "nmef,lkdc,eflk,dcim,abnj->abij" [(ESlice (EVar "g_abab") [SV "o"; SV "o"; SV "v"; SV "v"]); (EVar "l2_abab"); (EVar "t2_abab"); (EVar "t2_abab"); (EVar "t2_abab")]));
   (*L2680*) SAug true "double_res" (EScale (-1 # 8) (EEins "nmfe,lkdc,felk,dcim,abnj->abij" [(ESlice (EVar "g_abab") [SV "o"; SV "o"; SV "v"; SV "v"]); (EVar "l2_abab"); (EVar "t2_abab"); (EVar "t2_abab"); (EVar "t2_abab")]));
   (*L2683*) SAug true "double_res" (EScale (-1 # 8) (EEins "nmef,lkcd,eflk,cdim,abnj->abij" [(ESlice (EVar "g_abab") [SV "o"; SV "o"; SV "v"; SV "v"]); (EVar "l2_abab"); (EVar "t2_abab"); (EVar "t2_abab"); (EVar "t2_abab")]));
   (*L2686*) SAug true "double_res" (EScale (-1 # 8) (EEins "nmfe,lkcd,felk,cdim,abnj->abij" [(ESlice (EVar "g_abab") [SV "o"; SV "o"; SV "v"; SV "v"]); (EVar "l2_abab"); (EVar "t2_abab"); (EVar "t2_abab"); (EVar "t2_abab")]));
   (*L2689*) SAug true "double_res" (EScale (1 # 4) (EEins "mnef,klcd,efkl,admj,cbin->abij" [(ESlice (EVar "g_abab") [SV "o"; SV "o"; SV "v"; SV "v"]); (EVar "l2_abab"); (EVar "t2_abab"); (EVar "t2_abab"); (EVar "t2_abab")]));
   (*L2692*) SAug true "double_res" (EScale (1 # 4) (EEins "mnfe,klcd,fekl,admj,cbin->abij" [(ESlice (EVar "g_abab") [SV "o"; SV "o"; SV "v"; SV "v"]); (EVar "l2_abab"); (EVar "t2_abab"); (EVar "t2_abab"); (EVar "t2_abab")]));
   (*L2695*) SAug true "double_res" (EScale (1 # 4) (EEins "mnef,lkcd,eflk,admj,cbin->abij" [(ESlice (EVar "g_abab") [SV "o"; SV "o"; SV "v"; SV "v"]); (EVar "l2_abab"); (EVar "t2_abab"); (EVar "t2_abab"); (EVar "t2_abab")]));
   (*L2698*) SAug true "double_res" (EScale (1 # 4) (EEins "mnfe,lkcd,felk,admj,cbin->abij" [(ESlice (EVar "g_abab") [SV "o"; SV "o"; SV "v"; SV "v"]); (EVar "l2_abab"); (EVar "t2_abab"); (EVar "t2_abab"); (EVar "t2_abab")]));
   (*L2701*) SAug true "double_res" (EScale (1 # 4) (EEins "nmef,kldc,efkl,daim,cbnj->abij" [(ESlice (EVar "g_aaaa") [SV "o"; SV "o"; SV "v"; SV "v"]); (EVar "l2_aaaa"); (EVar "t2_aaaa"); (EVar "t2_aaaa"); (EVar "t2_abab")]));
   (*L2704*) SAug true "double_res" (EScale (1 # 4) (EEins "mnef,kldc,efkl,daim,cbjn->abij" [(ESlice (EVar "g_abab") [SV "o"; SV "o"; SV "v"; SV "v"]); (EVar "l2_abab"); (EVar "t2_abab"); (EVar "t2_aaaa"); (EVar "t2_bbbb")]));
   (*L2707*) SAug true "double_res" (EScale (1 # 4) (EEins "mnfe,kldc,fekl,daim,cbjn->abij" [(ESlice (EVar "g_abab") [SV "o"; SV "o"; SV "v"; SV "v"]); (EVar "l2_abab"); (EVar "t2_abab"); (EVar "t2_aaaa"); (EVar "t2_bbbb")]));
   (*L2710*) SAug true "double_res" (EScale (1 # 4) (EEins "nmef,klcd,efkl,adim,cbnj->abij" [(ESlice (EVar "g_abab") [SV "o"; SV "o"; SV "v"; SV "v"]); (EVar "l2_abab"); (EVar "t2_abab"); (EVar "t2_abab"); (EVar "t2_abab")]));
   (*L2713*) SAug true "double_res" (EScale (1 # 4) (EEins "nmfe,klcd,fekl,adim,cbnj->abij" [(ESlice (EVar "g_abab") [SV "o"; SV "o"; SV "v"; SV "v"]); (EVar "l2_abab"); (EVar "t2_abab"); (EVar "t2_abab"); (EVar "t2_abab")]));
   (*L2716*) SAug true "double_res" (EScale (1 # 4) (EEins "mnef,lkdc,eflk,daim,cbjn->abij" [(ESlice (EVar "g_abab") [SV "o"; SV "o"; SV "v"; SV "v"]); (EVar "l2_abab"); (EVar "t2_abab"); (EVar "t2_aaaa"); (EVar "t2_bbbb")]));
   (*L2719*) SAug true "double_res" (EScale (1 # 4) (EEins "mnfe,lkdc,felk,daim,cbjn->abij" [(ESlice (EVar "g_abab") [SV "o"; SV "o"; SV "v"; SV "v"]); (EVar "l2_abab"); (EVar "t2_abab"); (EVar "t2_aaaa"); (EVar "t2_bbbb")]));
   (*L2722*) SAug true "double_res" (EScale (1 # 4) (EEins "nmef,lkcd,eflk,adim,cbnj->abij" [(ESlice (EVar "g_abab") [SV "o"; SV "o"; SV "v"; SV "v"]); (EVar "l2_abab"); (EVar "t2_abab"); (EVar "t2_abab"); (EVar "t2_abab")]));
   (*L2725*) SAug true "double_res" (EScale (1 # 4) (EEins "nmfe,lkcd,felk,adim,cbnj->abij" [(ESlice (EVar "g_abab") [SV "o"; SV "o"; SV "v"; SV "v"]); (EVar "l2_abab"); (EVar "t2_abab"); (EVar "t2_abab"); (EVar "t2_abab")]));
   (*L2728*) SAug true "double_res" (EScale (1 # 4) (EEins "nmef,kldc,efkl,adim,cbjn->abij" [(ESlice (EVar "g_bbbb") [SV "o"; SV "o"; SV "v"; SV "v"]); (EVar "l2_bbbb"); (EVar "t2_bbbb"); (EVar "t2_abab"); (EVar "t2_bbbb")]));
   (*L2731*) SAug true "double_res" (EScale (1 # 4) (EEins "mnef,kldc,eflj,dckm,abin->abij" [(ESlice (EVar "g_abab") [SV "o"; SV "o"; SV "v"; SV "v"]); (EVar "l2_aaaa"); (EVar "t2_abab"); (EVar "t2_aaaa"); (EVar "t2_abab")]));
   (*L2734*) SAug true "double_res" (EScale (1 # 4) (EEins "mnfe,kldc,felj,dckm,abin->abij" [(ESlice (EVar "g_abab") [SV "o"; SV "o"; SV "v"; SV "v"]); (EVar "l2_aaaa"); (EVar "t2_abab"); (EVar "t2_aaaa"); (EVar "t2_abab")]));
   (*L2737*) SAug true "double_res" (EScale (1 # 4) (EEins "nmef,kldc,efjl,dckm,abin->abij" [(ESlice (EVar "g_bbbb") [SV "o"; SV "o"; SV "v"; SV "v"]); (EVar "l2_abab"); (EVar "t2_bbbb"); (EVar "t2_abab"); (EVar "t2_abab")]));
   (*L2740*) SAug true "double_res" (EScale (1 # 4) (EEins "nmef,klcd,efjl,cdkm,abin->abij" [(ESlice (EVar "g_bbbb") [SV "o"; SV "o"; SV "v"; SV "v"]); (EVar "l2_abab"); (EVar "t2_bbbb"); (EVar "t2_abab"); (EVar "t2_abab")]));
   (*L2743*) SAug true "double_res" (EScale (1 # 4) (EEins "mnef,lkdc,eflj,dcmk,abin->abij" [(ESlice (EVar "g_abab") [SV "o"; SV "o"; SV "v"; SV "v"]); (EVar "l2_abab"); (EVar "t2_abab"); (EVar "t2_abab"); (EVar "t2_abab")]));
   (*L2746*) SAug true "double_res" (EScale (1 # 4) (EEins "mnfe,lkdc,felj,dcmk,abin->abij" [(ESlice (EVar "g_abab") [SV "o"; SV "o"; SV "v"; SV "v"]); (EVar "l2_abab"); (EVar "t2_abab"); (EVar "t2_abab"); (EVar "t2_abab")]));
   (*L2749*) SAug true "double_res" (EScale (1 # 4) (EEins "mnef,lkcd,eflj,cdmk,abin->abij" [(ESlice (EVar "g_abab") [SV "o"; SV "o"; SV "v"; SV "v"]); (EVar "l2_abab"); (EVar "t2_abab"); (EVar "t2_abab"); (EVar "t2_abab")]));
   (*L2752*) SAug true "double_res" (EScale (1 # 4) (EEins "mnfe,lkcd,felj,cdmk,abin->abij" [(ESlice (EVar "g_abab") [SV "o"; SV "o"; SV "v"; SV "v"]); (EVar "l2_abab"); (EVar "t2_abab"); (EVar "t2_abab"); (EVar "t2_abab")]));
   (*L2755*) SAug true "double_res" (EScale (1 # 4) (EEins "nmef,kldc,efjl,dckm,abin->abij" [(ESlice (EVar "g_bbbb") [SV "o"; SV "o"; SV "v"; SV "v"]); (EVar "l2_bbbb"); (EVar "t2_bbbb"); (EVar "t2_bbbb"); (EVar "t2_abab")]));
   (*L2758*) SAug true "double_res" (EScale (1 # 4) (EEins "nmef,kldc,efil,dckm,abnj->abij" [(ESlice (EVar "g_aaaa") [SV "o"; SV "o"; SV "v"; SV "v"]); (EVar "l2_aaaa"); (EVar "t2_aaaa"); (EVar "t2_aaaa"); (EVar "t2_abab")]));
   (*L2761*) SAug true "double_res" (EScale (1 # 4) (EEins "nmef,kldc,efil,dckm,abnj->abij" [(ESlice (EVar "g_abab") [SV "o"; SV "o"; SV "v"; SV "v"]); (EVar "l2_abab"); (EVar "t2_abab"); (EVar "t2_abab"); (EVar "t2_abab")]));
   (*L2764*) SAug true "double_res" (EScale (1 # 4) (EEins "nmfe,kldc,feil,dckm,abnj->abij" [(ESlice (EVar "g_abab") [SV "o"; SV "o"; SV "v"; SV "v"]); (EVar "l2_abab"); (EVar "t2_abab"); (EVar "t2_abab"); (EVar "t2_abab")]));
   (*L2767*) SAug true "double_res" (EScale (1 # 4) (EEins "nmef,klcd,efil,cdkm,abnj->abij" [(ESlice (EVar "g_abab") [SV "o"; SV "o"; SV "v"; SV "v"]); (EVar "l2_abab"); (EVar "t2_abab"); (EVar "t2_abab"); (EVar "t2_abab")]));
   (*L2770*) SAug true "double_res" (EScale (1 # 4) (EEins "nmfe,klcd,feil,cdkm,abnj->abij" [(ESlice (EVar "g_abab") [SV "o"; SV "o"; SV "v"; SV "v"]); (EVar "l2_abab"); (EVar "t2_abab"); (EVar "t2_abab"); (EVar "t2_abab")]));
   (*L2773*) SAug true "double_res" (EScale (1 # 4) (EEins "nmef,lkdc,efil,dcmk,abnj->abij" [(ESlice (EVar "g_aaaa") [SV "o"; SV "o"; SV "v"; SV "v"]); (EVar "l2_abab"); (EVar "t2_aaaa"); (EVar "t2_abab"); (EVar "t2_abab")]));
   (*L2776*) SAug true "double_res" (EScale (1 # 4) (EEins "nmef,lkcd,efil,cdmk,abnj->abij" [(ESlice (EVar "g_aaaa") [SV "o"; SV "o"; SV "v"; SV "v"]); (EVar "l2_abab"); (EVar "t2_aaaa"); (EVar "t2_abab"); (EVar "t2_abab")]));
   (*L2779*) SAug true "double_res" (EScale (1 # 4) (EEins "nmef,kldc,efil,dckm,abnj->abij" [(ESlice (EVar "g_abab") [SV "o"; SV "o"; SV "v"; SV "v"]); (EVar "l2_bbbb"); (EVar "t2_abab"); (EVar "t2_bbbb"); (EVar "t2_abab")]));
   (*L2782*) SAug true "double_res" (EScale (1 # 4) (EEins "nmfe,kldc,feil,dckm,abnj->abij" [(ESlice (EVar "g_abab") [SV "o"; SV "o"; SV "v"; SV "v"]); (EVar "l2_bbbb"); (EVar "t2_abab"); (EVar "t2_bbbb"); (EVar "t2_abab")]));
   (*L2785*) SAug true "double_res" (EScale (-1 # 4) (EEins "mnef,kldc,eflj,dcim,abkn->abij" [(ESlice (EVar "g_abab") [SV "o"; SV "o"; SV "v"; SV "v"]); (EVar "l2_aaaa"); (EVar "t2_abab"); (EVar "t2_aaaa"); (EVar "t2_abab")]));
   (*L2788*) SAug true "double_res" (EScale (-1 # 4) (EEins "mnfe,kldc,felj,dcim,abkn->abij" [(ESlice (EVar "g_abab") [SV "o"; SV "o"; SV "v"; SV "v"]); (EVar "l2_aaaa"); (EVar "t2_abab"); (EVar "t2_aaaa"); (EVar "t2_abab")]));
   (*L2791*) SAug true "double_res" (EScale (-1 # 4) (EEins "nmef,kldc,efjl,dcim,abkn->abij" [(ESlice (EVar "g_bbbb") [SV "o"; SV "o"; SV "v"; SV "v"]); (EVar "l2_abab"); (EVar "t2_bbbb"); (EVar "t2_abab"); (EVar "t2_abab")]));
   (*L2794*) SAug true "double_res" (EScale (-1 # 4) (EEins "nmef,klcd,efjl,cdim,abkn->abij" [(ESlice (EVar "g_bbbb") [SV "o"; SV "o"; SV "v"; SV "v"]); (EVar "l2_abab"); (EVar "t2_bbbb"); (EVar "t2_abab"); (EVar "t2_abab")]));
   (*L2797*) SAug true "double_res" (EScale (1 # 4) (EEins "nmef,lkdc,eflj,dcim,abnk->abij" [(ESlice (EVar "g_abab") [SV "o"; SV "o"; SV "v"; SV "v"]); (EVar "l2_abab"); (EVar "t2_abab"); (EVar "t2_abab"); (EVar "t2_abab")]));
   (*L2800*) SAug true "double_res" (EScale (1 # 4) (EEins "nmfe,lkdc,felj,dcim,abnk->abij" [(ESlice (EVar "g_abab") [SV "o"; SV "o"; SV "v"; SV "v"]); (EVar "l2_abab"); (EVar "t2_abab"); (EVar "t2_abab"); (EVar "t2_abab")]));
   (*L2803*) SAug true "double_res" (EScale (1 # 4) (EEins "nmef,lkcd,eflj,cdim,abnk->abij" [(ESlice (EVar "g_abab") [SV "o"; SV "o"; SV "v"; SV "v"]); (EVar "l2_abab"); (EVar "t2_abab"); (EVar "t2_abab"); (EVar "t2_abab")]));
   (*L2806*) SAug true "double_res" (EScale (1 # 4) (EEins "nmfe,lkcd,felj,cdim,abnk->abij" [(ESlice (EVar "g_abab") [SV "o"; SV "o"; SV "v"; SV "v"]); (EVar "l2_abab"); (EVar "t2_abab"); (EVar "t2_abab"); (EVar "t2_abab")]));
   (*L2809*) SAug true "double_res" (EScale (1 # 4) (EEins "mnef,kldc,efil,dcmj,abkn->abij" [(ESlice (EVar "g_abab") [SV "o"; SV "o"; SV "v"; SV "v"]); (EVar "l2_abab"); (EVar "t2_abab"); (EVar "t2_abab"); (EVar "t2_abab")]));
   (*L2812*) SAug true "double_res" (EScale (1 # 4) (EEins "mnfe,kldc,feil,dcmj,abkn->abij" [(ESlice (EVar "g_abab") [SV "o"; SV "o"; SV "v"; SV "v"]); (EVar "l2_abab"); (EVar "t2_abab"); (EVar "t2_abab"); (EVar "t2_abab")]));
   (*L2815*) SAug true "double_res" (EScale (1 # 4) (EEins "mnef,klcd,efil,cdmj,abkn->abij" [(ESlice (EVar "g_abab") [SV "o"; SV "o"; SV "v"; SV "v"]); (EVar "l2_abab"); (EVar "t2_abab"); (EVar "t2_abab"); (EVar "t2_abab")]));
   (*L2818*) SAug true "double_res" (EScale (1 # 4) (EEins "mnfe,klcd,feil,cdmj,abkn->abij" [(ESlice (EVar "g_abab") [SV "o"; SV "o"; SV "v"; SV "v"]); (EVar "l2_abab"); (EVar "t2_abab"); (EVar "t2_abab"); (EVar "t2_abab")]));
   (*L2821*) SAug true "double_res" (EScale (-1 # 4) (EEins "nmef,lkdc,efil,dcmj,abnk->abij" [(ESlice (EVar "g_aaaa") [SV "o"; SV "o"; SV "v"; SV "v"]); (EVar "l2_abab"); (EVar "t2_aaaa"); (EVar "t2_abab"); (EVar "t2_abab")]));
   (*L2824*) SAug true "double_res" (EScale (-1 # 4) (EEins "nmef,lkcd,efil,cdmj,abnk->abij" [(ESlice (EVar "g_aaaa") [SV "o"; SV "o"; SV "v"; SV "v"]); (EVar "l2_abab"); (EVar "t2_aaaa"); (EVar "t2_abab"); (EVar "t2_abab")]));
   (*L2827*) SAug true "double_res" (EScale (-1 # 4) (EEins "nmef,kldc,efil,dcjm,abnk->abij" [(ESlice (EVar "g_abab") [SV "o"; SV "o"; SV "v"; SV "v"]); (EVar "l2_bbbb"); (EVar "t2_abab"); (EVar "t2_bbbb"); (EVar "t2_abab")]));
   (*L2830*) SAug true "double_res" (EScale (-1 # 4) (EEins "nmfe,kldc,feil,dcjm,abnk->abij" [(ESlice (EVar "g_abab") [SV "o"; SV "o"; SV "v"; SV "v"]); (EVar "l2_bbbb"); (EVar "t2_abab"); (EVar "t2_bbbb"); (EVar "t2_abab")]));
   (*L2833*) SAug true "double_res" (EScale (-1 # 2) (EEins "mnef,kldc,eflj,dakm,cbin->abij" [(ESlice (EVar "g_abab") [SV "o"; SV "o"; SV "v"; SV "v"]); (EVar "l2_aaaa"); (EVar "t2_abab"); (EVar "t2_aaaa"); (EVar "t2_abab")]));
   (*L2836*) SAug true "double_res" (EScale (-1 # 2) (EEins "mnfe,kldc,felj,dakm,cbin->abij" [(ESlice (EVar "g_abab") [SV "o"; SV "o"; SV "v"; SV "v"]); (EVar "l2_aaaa"); (EVar "t2_abab"); (EVar "t2_aaaa"); (EVar "t2_abab")]));
   (*L2839*) SAug true "double_res" (EScale (-1 # 2) (EEins "nmef,klcd,efjl,adkm,cbin->abij" [(ESlice (EVar "g_bbbb") [SV "o"; SV "o"; SV "v"; SV "v"]); (EVar "l2_abab"); (EVar "t2_bbbb"); (EVar "t2_abab"); (EVar "t2_abab")]));
   (*L2842*) SAug true "double_res" (EScale (-1 # 2) (EEins "mnef,lkcd,eflj,admk,cbin->abij" [(ESlice (EVar "g_abab") [SV "o"; SV "o"; SV "v"; SV "v"]); (EVar "l2_abab"); (EVar "t2_abab"); (EVar "t2_abab"); (EVar "t2_abab")]));
   (*L2845*) SAug true "double_res" (EScale (-1 # 2) (EEins "mnfe,lkcd,felj,admk,cbin->abij" [(ESlice (EVar "g_abab") [SV "o"; SV "o"; SV "v"; SV "v"]); (EVar "l2_abab"); (EVar "t2_abab"); (EVar "t2_abab"); (EVar "t2_abab")]));
   (*L2848*) SAug true "double_res" (EScale (-1 # 2) (EEins "nmef,kldc,efil,dakm,cbnj->abij" [(ESlice (EVar "g_aaaa") [SV "o"; SV "o"; SV "v"; SV "v"]); (EVar "l2_aaaa"); (EVar "t2_aaaa"); (EVar "t2_aaaa"); (EVar "t2_abab")]));
   (*L2851*) SAug true "double_res" (EScale (-1 # 2) (EEins "mnef,kldc,efil,dakm,cbjn->abij" [(ESlice (EVar "g_abab") [SV "o"; SV "o"; SV "v"; SV "v"]); (EVar "l2_abab"); (EVar "t2_abab"); (EVar "t2_aaaa"); (EVar "t2_bbbb")]));
   (*L2854*) SAug true "double_res" (EScale (-1 # 2) (EEins "mnfe,kldc,feil,dakm,cbjn->abij" [(ESlice (EVar "g_abab") [SV "o"; SV "o"; SV "v"; SV "v"]); (EVar "l2_abab"); (EVar "t2_abab"); (EVar "t2_aaaa"); (EVar "t2_bbbb")]));
   (*L2857*) SAug true "double_res" (EScale (-1 # 2) (EEins "nmef,klcd,efil,adkm,cbnj->abij" [(ESlice (EVar "g_abab") [SV "o"; SV "o"; SV "v"; SV "v"]); (EVar "l2_abab"); (EVar "t2_abab"); (EVar "t2_abab"); (EVar "t2_abab")]));
   (*L2860*) SAug true "double_res" (EScale (-1 # 2) (EEins "nmfe,klcd,feil,adkm,cbnj->abij" [(ESlice (EVar "g_abab") [SV "o"; SV "o"; SV "v"; SV "v"]); (EVar "l2_abab"); (EVar "t2_abab"); (EVar "t2_abab"); (EVar "t2_abab")]));
   (*L2863*) SAug true "double_res" (EScale (-1 # 2) (EEins "nmef,lkcd,efil,admk,cbnj->abij" [(ESlice (EVar "g_aaaa") [SV "o"; SV "o"; SV "v"; SV "v"]); (EVar "l2_abab"); (EVar "t2_aaaa"); (EVar "t2_abab"); (EVar "t2_abab")]));
   (*L2866*) SAug true "double_res" (EScale (-1 # 2) (EEins "mnef,kldc,efil,admk,cbjn->abij" [(ESlice (EVar "g_abab") [SV "o"; SV "o"; SV "v"; SV "v"]); (EVar "l2_bbbb"); (EVar "t2_abab"); (EVar "t2_abab"); (EVar "t2_bbbb")]));
   (*L2869*) SAug true "double_res" (EScale (-1 # 2) (EEins "mnfe,kldc,feil,admk,cbjn->abij" [(ESlice (EVar "g_abab") [SV "o"; SV "o"; SV "v"; SV "v"]); (EVar "l2_bbbb"); (EVar "t2_abab"); (EVar "t2_abab"); (EVar "t2_bbbb")]));
   (*L2872*) SAug true "double_res" (EScale (1 # 2) (EEins "mnef,kldc,eflj,daim,cbkn->abij" [(ESlice (EVar "g_abab") [SV "o"; SV "o"; SV "v"; SV "v"]); (EVar "l2_aaaa"); (EVar "t2_abab"); (EVar "t2_aaaa"); (EVar "t2_abab")]));
   (*L2875*) SAug true "double_res" (EScale (1 # 2) (EEins "mnfe,kldc,felj,daim,cbkn->abij" [(ESlice (EVar "g_abab") [SV "o"; SV "o"; SV "v"; SV "v"]); (EVar "l2_aaaa"); (EVar "t2_abab"); (EVar "t2_aaaa"); (EVar "t2_abab")]));
   (*L2878*) SAug true "double_res" (EScale (1 # 2) (EEins "nmef,klcd,efjl,adim,cbkn->abij" [(ESlice (EVar "g_bbbb") [SV "o"; SV "o"; SV "v"; SV "v"]); (EVar "l2_abab"); (EVar "t2_bbbb"); (EVar "t2_abab"); (EVar "t2_abab")]));
   (*L2881*) SAug true "double_res" (EScale (-1 # 2) (EEins "mnef,lkdc,eflj,daim,cbkn->abij" [(ESlice (EVar "g_abab") [SV "o"; SV "o"; SV "v"; SV "v"]); (EVar "l2_abab"); (EVar "t2_abab"); (EVar "t2_aaaa"); (EVar "t2_bbbb")]));
   (*L2884*) SAug true "double_res" (EScale (-1 # 2) (EEins "mnfe,lkdc,felj,daim,cbkn->abij" [(ESlice (EVar "g_abab") [SV "o"; SV "o"; SV "v"; SV "v"]); (EVar "l2_abab"); (EVar "t2_abab"); (EVar "t2_aaaa"); (EVar "t2_bbbb")]));
   (*L2887*) SAug true "double_res" (EScale (-1 # 2) (EEins "nmef,lkcd,eflj,adim,cbnk->abij" [(ESlice (EVar "g_abab") [SV "o"; SV "o"; SV "v"; SV "v"]); (EVar "l2_abab"); (EVar "t2_abab"); (EVar "t2_abab"); (EVar "t2_abab")]));
   (*L2890*) SAug true "double_res" (EScale (-1 # 2) (EEins "nmfe,lkcd,felj,adim,cbnk->abij" [(ESlice (EVar "g_abab") [SV "o"; SV "o"; SV "v"; SV "v"]); (EVar "l2_abab"); (EVar "t2_abab"); (EVar "t2_abab"); (EVar "t2_abab")]));
   (*L2893*) SAug true "double_res" (EScale (-1 # 2) (EEins "nmef,kldc,efjl,adim,cbkn->abij" [(ESlice (EVar "g_bbbb") [SV "o"; SV "o"; SV "v"; SV "v"]); (EVar "l2_bbbb"); (EVar "t2_bbbb"); (EVar "t2_abab"); (EVar "t2_bbbb")]));
   (*L2896*) SAug true "double_res" (EScale (-1 # 2) (EEins "mnef,klcd,efil,admj,cbkn->abij" [(ESlice (EVar "g_abab") [SV "o"; SV "o"; SV "v"; SV "v"]); (EVar "l2_abab"); (EVar "t2_abab"); (EVar "t2_abab"); (EVar "t2_abab")]));
   (*L2899*) SAug true "double_res" (EScale (-1 # 2) (EEins "mnfe,klcd,feil,admj,cbkn->abij" [(ESlice (EVar "g_abab") [SV "o"; SV "o"; SV "v"; SV "v"]); (EVar "l2_abab"); (EVar "t2_abab"); (EVar "t2_abab"); (EVar "t2_abab")]));
   (*L2902*) SAug true "double_res" (EScale (1 # 2) (EEins "nmef,lkcd,efil,admj,cbnk->abij" [(ESlice (EVar "g_aaaa") [SV "o"; SV "o"; SV "v"; SV "v"]); (EVar "l2_abab"); (EVar "t2_aaaa"); (EVar "t2_abab"); (EVar "t2_abab")]));
   (*L2905*) SAug true "double_res" (EScale (1 # 2) (EEins "mnef,kldc,efil,admj,cbkn->abij" [(ESlice (EVar "g_abab") [SV "o"; SV "o"; SV "v"; SV "v"]); (EVar "l2_bbbb"); (EVar "t2_abab"); (EVar "t2_abab"); (EVar "t2_bbbb")]));
   (*L2908*) SAug true "double_res" (EScale (1 # 2) (EEins "mnfe,kldc,feil,admj,cbkn->abij" [(ESlice (EVar "g_abab") [SV "o"; SV "o"; SV "v"; SV "v"]); (EVar "l2_bbbb"); (EVar "t2_abab"); (EVar "t2_abab"); (EVar "t2_bbbb")]));
   (*L2911*) SAug true "double_res" (EScale (1 # 4) (EEins "mnef,kldc,efij,dclm,abkn->abij" [(ESlice (EVar "g_abab") [SV "o"; SV "o"; SV "v"; SV "v"]); (EVar "l2_aaaa"); (EVar "t2_abab"); (EVar "t2_aaaa"); (EVar "t2_abab")]));
   (*L2914*) SAug true "double_res" (EScale (1 # 4) (EEins "mnfe,kldc,feij,dclm,abkn->abij" [(ESlice (EVar "g_abab") [SV "o"; SV "o"; SV "v"; SV "v"]); (EVar "l2_aaaa"); (EVar "t2_abab"); (EVar "t2_aaaa"); (EVar "t2_abab")]));
   (*L2917*) SAug true "double_res" (EScale (-1 # 4) (EEins "mnef,kldc,efij,dcml,abkn->abij" [(ESlice (EVar "g_abab") [SV "o"; SV "o"; SV "v"; SV "v"]); (EVar "l2_abab"); (EVar "t2_abab"); (EVar "t2_abab"); (EVar "t2_abab")]));
   (*L2920*) SAug true "double_res" (EScale (-1 # 4) (EEins "mnfe,kldc,feij,dcml,abkn->abij" [(ESlice (EVar "g_abab") [SV "o"; SV "o"; SV "v"; SV "v"]); (EVar "l2_abab"); (EVar "t2_abab"); (EVar "t2_abab"); (EVar "t2_abab")]));
   (*L2923*) SAug true "double_res" (EScale (-1 # 4) (EEins "mnef,klcd,efij,cdml,abkn->abij" [(ESlice (EVar "g_abab") [SV "o"; SV "o"; SV "v"; SV "v"]); (EVar "l2_abab"); (EVar "t2_abab"); (EVar "t2_abab"); (EVar "t2_abab")]));
   (*L2926*) SAug true "double_res" (EScale (-1 # 4) (EEins "mnfe,klcd,feij,cdml,abkn->abij" [(ESlice (EVar "g_abab") [SV "o"; SV "o"; SV "v"; SV "v"]); (EVar "l2_abab"); (EVar "t2_abab"); (EVar "t2_abab"); (EVar "t2_abab")]));
   (*L2929*) SAug true "double_res" (EScale (-1 # 4) (EEins "nmef,lkdc,efij,dclm,abnk->abij" [(ESlice (EVar "g_abab") [SV "o"; SV "o"; SV "v"; SV "v"]); (EVar "l2_abab"); (EVar "t2_abab"); (EVar "t2_abab"); (EVar "t2_abab")]));
   (*L2932*) SAug true "double_res" (EScale (-1 # 4) (EEins "nmfe,lkdc,feij,dclm,abnk->abij" [(ESlice (EVar "g_abab") [SV "o"; SV "o"; SV "v"; SV "v"]); (EVar "l2_abab"); (EVar "t2_abab"); (EVar "t2_abab"); (EVar "t2_abab")]));
   (*L2935*) SAug true "double_res" (EScale (-1 # 4) (EEins "nmef,lkcd,efij,cdlm,abnk->abij" [(ESlice (EVar "g_abab") [SV "o"; SV "o"; SV "v"; SV "v"]); (EVar "l2_abab"); (EVar "t2_abab"); (EVar "t2_abab"); (EVar "t2_abab")]));
   (*L2938*) SAug true "double_res" (EScale (-1 # 4) (EEins "nmfe,lkcd,feij,cdlm,abnk->abij" [(ESlice (EVar "g_abab") [SV "o"; SV "o"; SV "v"; SV "v"]); (EVar "l2_abab"); (EVar "t2_abab"); (EVar "t2_abab"); (EVar "t2_abab")]));
   (*L2941*) SAug true "double_res" (EScale (1 # 4) (EEins "nmef,kldc,efij,dclm,abnk->abij" [(ESlice (EVar "g_abab") [SV "o"; SV "o"; SV "v"; SV "v"]); (EVar "l2_bbbb"); (EVar "t2_abab"); (EVar "t2_bbbb"); (EVar "t2_abab")]));
   (*L2944*) SAug true "double_res" (EScale (1 # 4) (EEins "nmfe,kldc,feij,dclm,abnk->abij" [(ESlice (EVar "g_abab") [SV "o"; SV "o"; SV "v"; SV "v"]); (EVar "l2_bbbb"); (EVar "t2_abab"); (EVar "t2_bbbb"); (EVar "t2_abab")]));
   (*L2947*) SAug true "double_res" (EScale (-1 # 4) (EEins "mnef,kldc,efij,dalm,cbkn->abij" [(ESlice (EVar "g_abab") [SV "o"; SV "o"; SV "v"; SV "v"]); (EVar "l2_aaaa"); (EVar "t2_abab"); (EVar "t2_aaaa"); (EVar "t2_abab")]));
   (*L2950*) SAug true "double_res" (EScale (-1 # 4) (EEins "mnfe,kldc,feij,dalm,cbkn->abij" [(ESlice (EVar "g_abab") [SV "o"; SV "o"; SV "v"; SV "v"]); (EVar "l2_aaaa"); (EVar "t2_abab"); (EVar "t2_aaaa"); (EVar "t2_abab")]));
   (*L2953*) SAug true "double_res" (EScale (1 # 4) (EEins "mnef,klcd,efij,adml,cbkn->abij" [(ESlice (EVar "g_abab") [SV "o"; SV "o"; SV "v"; SV "v"]); (EVar "l2_abab"); (EVar "t2_abab"); (EVar "t2_abab"); (EVar "t2_abab")]));
   (*L2956*) SAug true "double_res" (EScale (1 # 4) (EEins "mnfe,klcd,feij,adml,cbkn->abij" [(ESlice (EVar "g_abab") [SV "o"; SV "o"; SV "v"; SV "v"]); (EVar "l2_abab"); (EVar "t2_abab"); (EVar "t2_abab"); (EVar "t2_abab")]));
   (*L2959*) SAug true "double_res" (EScale (1 # 4) (EEins "mnef,lkdc,efij,dalm,cbkn->abij" [(ESlice (EVar "g_abab") [SV "o"; SV "o"; SV "v"; SV "v"]); (EVar "l2_abab"); (EVar "t2_abab"); (EVar "t2_aaaa"); (EVar "t2_bbbb")]));
   (*L2962*) SAug true "double_res" (EScale (1 # 4) (EEins "mnfe,lkdc,feij,dalm,cbkn->abij" [(ESlice (EVar "g_abab") [SV "o"; SV "o"; SV "v"; SV "v"]); (EVar "l2_abab"); (EVar "t2_abab"); (EVar "t2_aaaa"); (EVar "t2_bbbb")]));
   (*L2965*) SAug true "double_res" (EScale (1 # 4) (EEins "nmef,lkcd,efij,adlm,cbnk->abij" [(ESlice (EVar "g_abab") [SV "o"; SV "o"; SV "v"; SV "v"]); (EVar "l2_abab"); (EVar "t2_abab"); (EVar "t2_abab"); (EVar "t2_abab")]));
   (*L2968*) SAug true "double_res" (EScale (1 # 4) (EEins "nmfe,lkcd,feij,adlm,cbnk->abij" [(ESlice (EVar "g_abab") [SV "o"; SV "o"; SV "v"; SV "v"]); (EVar "l2_abab"); (EVar "t2_abab"); (EVar "t2_abab"); (EVar "t2_abab")]));
   (*L2971*) SAug true "double_res" (EScale (-1 # 4) (EEins "mnef,kldc,efij,adml,cbkn->abij" [(ESlice (EVar "g_abab") [SV "o"; SV "o"; SV "v"; SV "v"]); (EVar "l2_bbbb"); (EVar "t2_abab"); (EVar "t2_abab"); (EVar "t2_bbbb")]));
   (*L2974*) SAug true "double_res" (EScale (-1 # 4) (EEins "mnfe,kldc,feij,adml,cbkn->abij" [(ESlice (EVar "g_abab") [SV "o"; SV "o"; SV "v"; SV "v"]); (EVar "l2_bbbb"); (EVar "t2_abab"); (EVar "t2_abab"); (EVar "t2_bbbb")]));
   (*L2977*) SAug true "double_res" (EScale (-1 # 4) (EEins "nmef,kldc,efij,dblm,cakn->abij" [(ESlice (EVar "g_abab") [SV "o"; SV "o"; SV "v"; SV "v"]); (EVar "l2_aaaa"); (EVar "t2_abab"); (EVar "t2_abab"); (EVar "t2_aaaa")]));
   (*L2980*) SAug true "double_res" (EScale (-1 # 4) (EEins "nmfe,kldc,feij,dblm,cakn->abij" [(ESlice (EVar "g_abab") [SV "o"; SV "o"; SV "v"; SV "v"]); (EVar "l2_aaaa"); (EVar "t2_abab"); (EVar "t2_abab"); (EVar "t2_aaaa")]));
   (*L2983*) SAug true "double_res" (EScale (1 # 4) (EEins "mnef,kldc,efij,dbml,ackn->abij" [(ESlice (EVar "g_abab") [SV "o"; SV "o"; SV "v"; SV "v"]); (EVar "l2_abab"); (EVar "t2_abab"); (EVar "t2_abab"); (EVar "t2_abab")]));
   (*L2986*) SAug true "double_res" (EScale (1 # 4) (EEins "mnfe,kldc,feij,dbml,ackn->abij" [(ESlice (EVar "g_abab") [SV "o"; SV "o"; SV "v"; SV "v"]); (EVar "l2_abab"); (EVar "t2_abab"); (EVar "t2_abab"); (EVar "t2_abab")]));
   (*L2989*) SAug true "double_res" (EScale (1 # 4) (EEins "nmef,klcd,efij,dblm,cakn->abij" [(ESlice (EVar "g_abab") [SV "o"; SV "o"; SV "v"; SV "v"]); (EVar "l2_abab"); (EVar "t2_abab"); (EVar "t2_bbbb"); (EVar "t2_aaaa")]));
   (*L2992*) SAug true "double_res" (EScale (1 # 4) (EEins "nmfe,klcd,feij,dblm,cakn->abij" [(ESlice (EVar "g_abab") [SV "o"; SV "o"; SV "v"; SV "v"]); (EVar "l2_abab"); (EVar "t2_abab"); (EVar "t2_bbbb"); (EVar "t2_aaaa")]));
   (*L2995*) SAug true "double_res" (EScale (1 # 4) (EEins "nmef,lkdc,efij,dblm,acnk->abij" [(ESlice (EVar "g_abab") [SV "o"; SV "o"; SV "v"; SV "v"]); (EVar "l2_abab"); (EVar "t2_abab"); (EVar "t2_abab"); (EVar "t2_abab")]));
   (*L2998*) SAug true "double_res" (EScale (1 # 4) (EEins "nmfe,lkdc,feij,dblm,acnk->abij" [(ESlice (EVar "g_abab") [SV "o"; SV "o"; SV "v"; SV "v"]); (EVar "l2_abab"); (EVar "t2_abab"); (EVar "t2_abab"); (EVar "t2_abab")]));
   (*L3001*) SAug true "double_res" (EScale (-1 # 4) (EEins "nmef,kldc,efij,dblm,acnk->abij" [(ESlice (EVar "g_abab") [SV "o"; SV "o"; SV "v"; SV "v"]); (EVar "l2_bbbb"); (EVar "t2_abab"); (EVar "t2_bbbb"); (EVar "t2_abab")]));
   (*L3004*) SAug true "double_res" (EScale (-1 # 4) (EEins "nmfe,kldc,feij,dblm,acnk->abij" [(ESlice (EVar "g_abab") [SV "o"; SV "o"; SV "v"; SV "v"]); (EVar "l2_bbbb"); (EVar "t2_abab"); (EVar "t2_bbbb"); (EVar "t2_abab")]));
   (*L3007*) SAug true "double_res" (EScale (-1 # 2) (EEins "mnef,kldc,edlm,cfkj,abin->abij" [(ESlice (EVar "g_abab") [SV "o"; SV "o"; SV "v"; SV "v"]); (EVar "l2_aaaa"); (EVar "t2_aaaa"); (EVar "t2_abab"); (EVar "t2_abab")]));
   (*L3010*) SAug true "double_res" (EScale (-1 # 2) (EEins "nmef,kldc,delm,cfkj,abin->abij" [(ESlice (EVar "g_bbbb") [SV "o"; SV "o"; SV "v"; SV "v"]); (EVar "l2_aaaa"); (EVar "t2_abab"); (EVar "t2_abab"); (EVar "t2_abab")]));
   (*L3013*) SAug true "double_res" (EScale (-1 # 2) (EEins "mnfe,kldc,deml,fckj,abin->abij" [(ESlice (EVar "g_abab") [SV "o"; SV "o"; SV "v"; SV "v"]); (EVar "l2_abab"); (EVar "t2_abab"); (EVar "t2_abab"); (EVar "t2_abab")]));
   (*L3016*) SAug true "double_res" (EScale (-1 # 2) (EEins "mnef,klcd,edml,cfkj,abin->abij" [(ESlice (EVar "g_abab") [SV "o"; SV "o"; SV "v"; SV "v"]); (EVar "l2_abab"); (EVar "t2_abab"); (EVar "t2_abab"); (EVar "t2_abab")]));
   (*L3019*) SAug true "double_res" (EScale (-1 # 2) (EEins "nmef,klcd,edlm,cfkj,abin->abij" [(ESlice (EVar "g_bbbb") [SV "o"; SV "o"; SV "v"; SV "v"]); (EVar "l2_abab"); (EVar "t2_bbbb"); (EVar "t2_abab"); (EVar "t2_abab")]));
   (*L3022*) SAug true "double_res" (EScale (1 # 2) (EEins "mnef,lkdc,edlm,fcjk,abin->abij" [(ESlice (EVar "g_abab") [SV "o"; SV "o"; SV "v"; SV "v"]); (EVar "l2_abab"); (EVar "t2_aaaa"); (EVar "t2_bbbb"); (EVar "t2_abab")]));
   (*L3025*) SAug true "double_res" (EScale (1 # 2) (EEins "nmef,lkdc,delm,fcjk,abin->abij" [(ESlice (EVar "g_bbbb") [SV "o"; SV "o"; SV "v"; SV "v"]); (EVar "l2_abab"); (EVar "t2_abab"); (EVar "t2_bbbb"); (EVar "t2_abab")]));
   (*L3028*) SAug true "double_res" (EScale (1 # 2) (EEins "mnef,kldc,edml,fcjk,abin->abij" [(ESlice (EVar "g_abab") [SV "o"; SV "o"; SV "v"; SV "v"]); (EVar "l2_bbbb"); (EVar "t2_abab"); (EVar "t2_bbbb"); (EVar "t2_abab")]));
   (*L3031*) SAug true "double_res" (EScale (1 # 2) (EEins "nmef,kldc,edlm,fcjk,abin->abij" [(ESlice (EVar "g_bbbb") [SV "o"; SV "o"; SV "v"; SV "v"]); (EVar "l2_bbbb"); (EVar "t2_bbbb"); (EVar "t2_bbbb"); (EVar "t2_abab")]));
   (*L3034*) SAug true "double_res" (EScale (1 # 2) (EEins "nmef,kldc,edlm,fcik,abnj->abij" [(ESlice (EVar "g_aaaa") [SV "o"; SV "o"; SV "v"; SV "v"]); (EVar "l2_aaaa"); (EVar "t2_aaaa"); (EVar "t2_aaaa"); (EVar "t2_abab")]));
   (*L3037*) SAug true "double_res" (EScale (1 # 2) (EEins "nmfe,kldc,delm,fcik,abnj->abij" [(ESlice (EVar "g_abab") [SV "o"; SV "o"; SV "v"; SV "v"]); (EVar "l2_aaaa"); (EVar "t2_abab"); (EVar "t2_aaaa"); (EVar "t2_abab")]));
   (*L3040*) SAug true "double_res" (EScale (1 # 2) (EEins "nmef,klcd,edml,fcik,abnj->abij" [(ESlice (EVar "g_aaaa") [SV "o"; SV "o"; SV "v"; SV "v"]); (EVar "l2_abab"); (EVar "t2_abab"); (EVar "t2_aaaa"); (EVar "t2_abab")]));
   (*L3043*) SAug true "double_res" (EScale (1 # 2) (EEins "nmfe,klcd,edlm,fcik,abnj->abij" [(ESlice (EVar "g_abab") [SV "o"; SV "o"; SV "v"; SV "v"]); (EVar "l2_abab"); (EVar "t2_bbbb"); (EVar "t2_aaaa"); (EVar "t2_abab")]));
   (*L3046*) SAug true "double_res" (EScale (-1 # 2) (EEins "nmef,lkdc,edlm,fcik,abnj->abij" [(ESlice (EVar "g_aaaa") [SV "o"; SV "o"; SV "v"; SV "v"]); (EVar "l2_abab"); (EVar "t2_aaaa"); (EVar "t2_abab"); (EVar "t2_abab")]));
   (*L3049*) SAug true "double_res" (EScale (-1 # 2) (EEins "nmfe,lkdc,delm,fcik,abnj->abij" [(ESlice (EVar "g_abab") [SV "o"; SV "o"; SV "v"; SV "v"]); (EVar "l2_abab"); (EVar "t2_abab"); (EVar "t2_abab"); (EVar "t2_abab")]));
   (*L3052*) SAug true "double_res" (EScale (-1 # 2) (EEins "nmef,lkcd,edlm,cfik,abnj->abij" [(ESlice (EVar "g_abab") [SV "o"; SV "o"; SV "v"; SV "v"]); (EVar "l2_abab"); (EVar "t2_abab"); (EVar "t2_abab"); (EVar "t2_abab")]));
   (*L3055*) SAug true "double_res" (EScale (-1 # 2) (EEins "nmef,kldc,edml,fcik,abnj->abij" [(ESlice (EVar "g_aaaa") [SV "o"; SV "o"; SV "v"; SV "v"]); (EVar "l2_bbbb"); (EVar "t2_abab"); (EVar "t2_abab"); (EVar "t2_abab")]));
   (*L3058*) SAug true "double_res" (EScale (-1 # 2) (EEins "nmfe,kldc,edlm,fcik,abnj->abij" [(ESlice (EVar "g_abab") [SV "o"; SV "o"; SV "v"; SV "v"]); (EVar "l2_bbbb"); (EVar "t2_bbbb"); (EVar "t2_abab"); (EVar "t2_abab")]));
   (*L3061*) SAug true "double_res" (EScale (1 # 1) (EEins "mnef,kldc,edlm,cfij,abkn->abij" [(ESlice (EVar "g_abab") [SV "o"; SV "o"; SV "v"; SV "v"]); (EVar "l2_aaaa"); (EVar "t2_aaaa"); (EVar "t2_abab"); (EVar "t2_abab")]));
   (*L3064*) SAug true "double_res" (EScale (1 # 1) (EEins "nmef,kldc,delm,cfij,abkn->abij" [(ESlice (EVar "g_bbbb") [SV "o"; SV "o"; SV "v"; SV "v"]); (EVar "l2_aaaa"); (EVar "t2_abab"); (EVar "t2_abab"); (EVar "t2_abab")]));
   (*L3067*) SAug true "double_res" (EScale (1 # 1) (EEins "mnfe,kldc,deml,fcij,abkn->abij" [(ESlice (EVar "g_abab") [SV "o"; SV "o"; SV "v"; SV "v"]); (EVar "l2_abab"); (EVar "t2_abab"); (EVar "t2_abab"); (EVar "t2_abab")]));
   (*L3070*) SAug true "double_res" (EScale (1 # 1) (EEins "mnef,klcd,edml,cfij,abkn->abij" [(ESlice (EVar "g_abab") [SV "o"; SV "o"; SV "v"; SV "v"]); (EVar "l2_abab"); (EVar "t2_abab"); (EVar "t2_abab"); (EVar "t2_abab")]));
   (*L3073*) SAug true "double_res" (EScale (1 # 1) (EEins "nmef,klcd,edlm,cfij,abkn->abij" [(ESlice (EVar "g_bbbb") [SV "o"; SV "o"; SV "v"; SV "v"]); (EVar "l2_abab"); (EVar "t2_bbbb"); (EVar "t2_abab"); (EVar "t2_abab")]));
   (*L3076*) SAug true "double_res" (EScale (1 # 1) (EEins "nmef,lkdc,edlm,fcij,abnk->abij" [(ESlice (EVar "g_aaaa") [SV "o"; SV "o"; SV "v"; SV "v"]); (EVar "l2_abab"); (EVar "t2_aaaa"); (EVar "t2_abab"); (EVar "t2_abab")]));
   (*L3079*) SAug true "double_res" (EScale (1 # 1) (EEins "nmfe,lkdc,delm,fcij,abnk->abij" [(ESlice (EVar "g_abab") [SV "o"; SV "o"; SV "v"; SV "v"]); (EVar "l2_abab"); (EVar "t2_abab"); (EVar "t2_abab"); (EVar "t2_abab")]));
   (*L3082*) SAug true "double_res" (EScale (1 # 1) (EEins "nmef,lkcd,edlm,cfij,abnk->abij" [(ESlice (EVar "g_abab") [SV "o"; SV "o"; SV "v"; SV "v"]); (EVar "l2_abab"); (EVar "t2_abab"); (EVar "t2_abab"); (EVar "t2_abab")]));
   (*L3085*) SAug true "double_res" (EScale (1 # 1) (EEins "nmef,kldc,edml,fcij,abnk->abij" [(ESlice (EVar "g_aaaa") [SV "o"; SV "o"; SV "v"; SV "v"]); (EVar "l2_bbbb"); (EVar "t2_abab"); (EVar "t2_abab"); (EVar "t2_abab")]));
   (*L3088*) SAug true "double_res" (EScale (1 # 1) (EEins "nmfe,kldc,edlm,fcij,abnk->abij" [(ESlice (EVar "g_abab") [SV "o"; SV "o"; SV "v"; SV "v"]); (EVar "l2_bbbb"); (EVar "t2_bbbb"); (EVar "t2_abab"); (EVar "t2_abab")]));
   (*L3091*) SAug true "double_res" (EScale (3 # 4) (EEins "mnef,kldc,edlm,afkj,cbin->abij" [(ESlice (EVar "g_abab") [SV "o"; SV "o"; SV "v"; SV "v"]); (EVar "l2_aaaa"); (EVar "t2_aaaa"); (EVar "t2_abab"); (EVar "t2_abab")]));
   (*L3094*) SAug true "double_res" (EScale (3 # 4) (EEins "nmef,kldc,delm,afkj,cbin->abij" [(ESlice (EVar "g_bbbb") [SV "o"; SV "o"; SV "v"; SV "v"]); (EVar "l2_aaaa"); (EVar "t2_abab"); (EVar "t2_abab"); (EVar "t2_abab")]));
   (*L3097*) SAug true "double_res" (EScale (3 # 4) (EEins "mnef,klcd,edml,afkj,cbin->abij" [(ESlice (EVar "g_abab") [SV "o"; SV "o"; SV "v"; SV "v"]); (EVar "l2_abab"); (EVar "t2_abab"); (EVar "t2_abab"); (EVar "t2_abab")]));
   (*L3100*) SAug true "double_res" (EScale (3 # 4) (EEins "nmef,klcd,edlm,afkj,cbin->abij" [(ESlice (EVar "g_bbbb") [SV "o"; SV "o"; SV "v"; SV "v"]); (EVar "l2_abab"); (EVar "t2_bbbb"); (EVar "t2_abab"); (EVar "t2_abab")]));
   (*L3103*) SAug true "double_res" (EScale (-3 # 4) (EEins "nmef,kldc,edlm,fbkj,cain->abij" [(ESlice (EVar "g_aaaa") [SV "o"; SV "o"; SV "v"; SV "v"]); (EVar "l2_aaaa"); (EVar "t2_aaaa"); (EVar "t2_abab"); (EVar "t2_aaaa")]));
   (*L3106*) SAug true "double_res" (EScale (-3 # 4) (EEins "nmfe,kldc,delm,fbkj,cain->abij" [(ESlice (EVar "g_abab") [SV "o"; SV "o"; SV "v"; SV "v"]); (EVar "l2_aaaa"); (EVar "t2_abab"); (EVar "t2_abab"); (EVar "t2_aaaa")]));
   (*L3109*) SAug true "double_res" (EScale (3 # 4) (EEins "mnfe,kldc,deml,fbkj,acin->abij" [(ESlice (EVar "g_abab") [SV "o"; SV "o"; SV "v"; SV "v"]); (EVar "l2_abab"); (EVar "t2_abab"); (EVar "t2_abab"); (EVar "t2_abab")]));
   (*L3112*) SAug true "double_res" (EScale (-3 # 4) (EEins "nmef,klcd,edml,fbkj,cain->abij" [(ESlice (EVar "g_aaaa") [SV "o"; SV "o"; SV "v"; SV "v"]); (EVar "l2_abab"); (EVar "t2_abab"); (EVar "t2_abab"); (EVar "t2_aaaa")]));
   (*L3115*) SAug true "double_res" (EScale (-3 # 4) (EEins "nmfe,klcd,edlm,fbkj,cain->abij" [(ESlice (EVar "g_abab") [SV "o"; SV "o"; SV "v"; SV "v"]); (EVar "l2_abab"); (EVar "t2_bbbb"); (EVar "t2_abab"); (EVar "t2_aaaa")]));
   (*L3118*) SAug true "double_res" (EScale (-3 # 4) (EEins "mnef,lkdc,edlm,fbjk,acin->abij" [(ESlice (EVar "g_abab") [SV "o"; SV "o"; SV "v"; SV "v"]); (EVar "l2_abab"); (EVar "t2_aaaa"); (EVar "t2_bbbb"); (EVar "t2_abab")]));
   (*L3121*) SAug true "double_res" (EScale (-3 # 4) (EEins "nmef,lkdc,delm,fbjk,acin->abij" [(ESlice (EVar "g_bbbb") [SV "o"; SV "o"; SV "v"; SV "v"]); (EVar "l2_abab"); (EVar "t2_abab"); (EVar "t2_bbbb"); (EVar "t2_abab")]));
   (*L3124*) SAug true "double_res" (EScale (3 # 4) (EEins "nmef,lkcd,edlm,fbjk,cain->abij" [(ESlice (EVar "g_abab") [SV "o"; SV "o"; SV "v"; SV "v"]); (EVar "l2_abab"); (EVar "t2_abab"); (EVar "t2_bbbb"); (EVar "t2_aaaa")]));
   (*L3127*) SAug true "double_res" (EScale (-3 # 4) (EEins "mnef,kldc,edml,fbjk,acin->abij" [(ESlice (EVar "g_abab") [SV "o"; SV "o"; SV "v"; SV "v"]); (EVar "l2_bbbb"); (EVar "t2_abab"); (EVar "t2_bbbb"); (EVar "t2_abab")]));
   (*L3130*) SAug true "double_res" (EScale (-3 # 4) (EEins "nmef,kldc,edlm,fbjk,acin->abij" [(ESlice (EVar "g_bbbb") [SV "o"; SV "o"; SV "v"; SV "v"]); (EVar "l2_bbbb"); (EVar "t2_bbbb"); (EVar "t2_bbbb"); (EVar "t2_abab")]));
   (*L3133*) SAug true "double_res" (EScale (-3 # 4) (EEins "nmef,kldc,edlm,faik,cbnj->abij" [(ESlice (EVar "g_aaaa") [SV "o"; SV "o"; SV "v"; SV "v"]); (EVar "l2_aaaa"); (EVar "t2_aaaa"); (EVar "t2_aaaa"); (EVar "t2_abab")]));
   (*L3136*) SAug true "double_res" (EScale (-3 # 4) (EEins "nmfe,kldc,delm,faik,cbnj->abij" [(ESlice (EVar "g_abab") [SV "o"; SV "o"; SV "v"; SV "v"]); (EVar "l2_aaaa"); (EVar "t2_abab"); (EVar "t2_aaaa"); (EVar "t2_abab")]));
   (*L3139*) SAug true "double_res" (EScale (3 # 4) (EEins "mnfe,kldc,deml,faik,cbjn->abij" [(ESlice (EVar "g_abab") [SV "o"; SV "o"; SV "v"; SV "v"]); (EVar "l2_abab"); (EVar "t2_abab"); (EVar "t2_aaaa"); (EVar "t2_bbbb")]));
   (*L3142*) SAug true "double_res" (EScale (-3 # 4) (EEins "nmef,klcd,edml,faik,cbnj->abij" [(ESlice (EVar "g_aaaa") [SV "o"; SV "o"; SV "v"; SV "v"]); (EVar "l2_abab"); (EVar "t2_abab"); (EVar "t2_aaaa"); (EVar "t2_abab")]));
   (*L3145*) SAug true "double_res" (EScale (-3 # 4) (EEins "nmfe,klcd,edlm,faik,cbnj->abij" [(ESlice (EVar "g_abab") [SV "o"; SV "o"; SV "v"; SV "v"]); (EVar "l2_abab"); (EVar "t2_bbbb"); (EVar "t2_aaaa"); (EVar "t2_abab")]));
   (*L3148*) SAug true "double_res" (EScale (-3 # 4) (EEins "mnef,lkdc,edlm,afik,cbjn->abij" [(ESlice (EVar "g_abab") [SV "o"; SV "o"; SV "v"; SV "v"]); (EVar "l2_abab"); (EVar "t2_aaaa"); (EVar "t2_abab"); (EVar "t2_bbbb")]));
   (*L3151*) SAug true "double_res" (EScale (-3 # 4) (EEins "nmef,lkdc,delm,afik,cbjn->abij" [(ESlice (EVar "g_bbbb") [SV "o"; SV "o"; SV "v"; SV "v"]); (EVar "l2_abab"); (EVar "t2_abab"); (EVar "t2_abab"); (EVar "t2_bbbb")]));
   (*L3154*) SAug true "double_res" (EScale (3 # 4) (EEins "nmef,lkcd,edlm,afik,cbnj->abij" [(ESlice (EVar "g_abab") [SV "o"; SV "o"; SV "v"; SV "v"]); (EVar "l2_abab"); (EVar "t2_abab"); (EVar "t2_abab"); (EVar "t2_abab")]));
   (*L3157*) SAug true "double_res" (EScale (-3 # 4) (EEins "mnef,kldc,edml,afik,cbjn->abij" [(ESlice (EVar "g_abab") [SV "o"; SV "o"; SV "v"; SV "v"]); (EVar "l2_bbbb"); (EVar "t2_abab"); (EVar "t2_abab"); (EVar "t2_bbbb")]));
   (*L3160*) SAug true "double_res" (EScale (-3 # 4) (EEins "nmef,kldc,edlm,afik,cbjn->abij" [(ESlice (EVar "g_bbbb") [SV "o"; SV "o"; SV "v"; SV "v"]); (EVar "l2_bbbb"); (EVar "t2_bbbb"); (EVar "t2_abab"); (EVar "t2_bbbb")]));
   (*L3163*) SAug true "double_res" (EScale (3 # 4) (EEins "nmef,lkdc,edlm,fbik,acnj->abij" [(ESlice (EVar "g_aaaa") [SV "o"; SV "o"; SV "v"; SV "v"]); (EVar "l2_abab"); (EVar "t2_aaaa"); (EVar "t2_abab"); (EVar "t2_abab")]));
   (*L3166*) SAug true "double_res" (EScale (3 # 4) (EEins "nmfe,lkdc,delm,fbik,acnj->abij" [(ESlice (EVar "g_abab") [SV "o"; SV "o"; SV "v"; SV "v"]); (EVar "l2_abab"); (EVar "t2_abab"); (EVar "t2_abab"); (EVar "t2_abab")]));
   (*L3169*) SAug true "double_res" (EScale (3 # 4) (EEins "nmef,kldc,edml,fbik,acnj->abij" [(ESlice (EVar "g_aaaa") [SV "o"; SV "o"; SV "v"; SV "v"]); (EVar "l2_bbbb"); (EVar "t2_abab"); (EVar "t2_abab"); (EVar "t2_abab")]));
   (*L3172*) SAug true "double_res" (EScale (3 # 4) (EEins "nmfe,kldc,edlm,fbik,acnj->abij" [(ESlice (EVar "g_abab") [SV "o"; SV "o"; SV "v"; SV "v"]); (EVar "l2_bbbb"); (EVar "t2_bbbb"); (EVar "t2_abab"); (EVar "t2_abab")]));
   (*L3175*) SAug true "double_res" (EScale (-1 # 1) (EEins "mnef,kldc,edlm,afij,cbkn->abij" [(ESlice (EVar "g_abab") [SV "o"; SV "o"; SV "v"; SV "v"]); (EVar "l2_aaaa"); (EVar "t2_aaaa"); (EVar "t2_abab"); (EVar "t2_abab")]));
   (*L3178*) SAug true "double_res" (EScale (-1 # 1) (EEins "nmef,kldc,delm,afij,cbkn->abij" [(ESlice (EVar "g_bbbb") [SV "o"; SV "o"; SV "v"; SV "v"]); (EVar "l2_aaaa"); (EVar "t2_abab"); (EVar "t2_abab"); (EVar "t2_abab")]));
   (*L3181*) SAug true "double_res" (EScale (-1 # 1) (EEins "mnef,klcd,edml,afij,cbkn->abij" [(ESlice (EVar "g_abab") [SV "o"; SV "o"; SV "v"; SV "v"]); (EVar "l2_abab"); (EVar "t2_abab"); (EVar "t2_abab"); (EVar "t2_abab")]));
   (*L3184*) SAug true "double_res" (EScale (-1 # 1) (EEins "nmef,klcd,edlm,afij,cbkn->abij" [(ESlice (EVar "g_bbbb") [SV "o"; SV "o"; SV "v"; SV "v"]); (EVar "l2_abab"); (EVar "t2_bbbb"); (EVar "t2_abab"); (EVar "t2_abab")]));
   (*L3187*) SAug true "double_res" (EScale (1 # 1) (EEins "mnef,lkdc,edlm,afij,cbkn->abij" [(ESlice (EVar "g_abab") [SV "o"; SV "o"; SV "v"; SV "v"]); (EVar "l2_abab"); (EVar "t2_aaaa"); (EVar "t2_abab"); (EVar "t2_bbbb")]));
   (*L3190*) SAug true "double_res" (EScale (1 # 1) (EEins "nmef,lkdc,delm,afij,cbkn->abij" [(ESlice (EVar "g_bbbb") [SV "o"; SV "o"; SV "v"; SV "v"]); (EVar "l2_abab"); (EVar "t2_abab"); (EVar "t2_abab"); (EVar "t2_bbbb")]));
   (*L3193*) SAug true "double_res" (EScale (-1 # 1) (EEins "nmef,lkcd,edlm,afij,cbnk->abij" [(ESlice (EVar "g_abab") [SV "o"; SV "o"; SV "v"; SV "v"]); (EVar "l2_abab"); (EVar "t2_abab"); (EVar "t2_abab"); (EVar "t2_abab")]));
   (*L3196*) SAug true "double_res" (EScale (1 # 1) (EEins "mnef,kldc,edml,afij,cbkn->abij" [(ESlice (EVar "g_abab") [SV "o"; SV "o"; SV "v"; SV "v"]); (EVar "l2_bbbb"); (EVar "t2_abab"); (EVar "t2_abab"); (EVar "t2_bbbb")]));
   (*L3199*) SAug true "double_res" (EScale (1 # 1) (EEins "nmef,kldc,edlm,afij,cbkn->abij" [(ESlice (EVar "g_bbbb") [SV "o"; SV "o"; SV "v"; SV "v"]); (EVar "l2_bbbb"); (EVar "t2_bbbb"); (EVar "t2_abab"); (EVar "t2_bbbb")]));
   (*L3202*) SAug true "double_res" (EScale (1 # 1) (EEins "nmef,kldc,edlm,fbij,cakn->abij" [(ESlice (EVar "g_aaaa") [SV "o"; SV "o"; SV "v"; SV "v"]); (EVar "l2_aaaa"); (EVar "t2_aaaa"); (EVar "t2_abab"); (EVar "t2_aaaa")]));
   (*L3205*) SAug true "double_res" (EScale (1 # 1) (EEins "nmfe,kldc,delm,fbij,cakn->abij" [(ESlice (EVar "g_abab") [SV "o"; SV "o"; SV "v"; SV "v"]); (EVar "l2_aaaa"); (EVar "t2_abab"); (EVar "t2_abab"); (EVar "t2_aaaa")]));
   (*L3208*) SAug true "double_res" (EScale (-1 # 1) (EEins "mnfe,kldc,deml,fbij,ackn->abij" [(ESlice (EVar "g_abab") [SV "o"; SV "o"; SV "v"; SV "v"]); (EVar "l2_abab"); (EVar "t2_abab"); (EVar "t2_abab"); (EVar "t2_abab")]));
   (*L3211*) SAug true "double_res" (EScale (1 # 1) (EEins "nmef,klcd,edml,fbij,cakn->abij" [(ESlice (EVar "g_aaaa") [SV "o"; SV "o"; SV "v"; SV "v"]); (EVar "l2_abab"); (EVar "t2_abab"); (EVar "t2_abab"); (EVar "t2_aaaa")]));
   (*L3214*) SAug true "double_res" (EScale (1 # 1) (EEins "nmfe,klcd,edlm,fbij,cakn->abij" [(ESlice (EVar "g_abab") [SV "o"; SV "o"; SV "v"; SV "v"]); (EVar "l2_abab"); (EVar "t2_bbbb"); (EVar "t2_abab"); (EVar "t2_aaaa")]));
   (*L3217*) SAug true "double_res" (EScale (-1 # 1) (EEins "nmef,lkdc,edlm,fbij,acnk->abij" [(ESlice (EVar "g_aaaa") [SV "o"; SV "o"; SV "v"; SV "v"]); (EVar "l2_abab"); (EVar "t2_aaaa"); (EVar "t2_abab"); (EVar "t2_abab")]));
   (*L3220*) SAug true "double_res" (EScale (-1 # 1) (EEins "nmfe,lkdc,delm,fbij,acnk->abij" [(ESlice (EVar "g_abab") [SV "o"; SV "o"; SV "v"; SV "v"]); (EVar "l2_abab"); (EVar "t2_abab"); (EVar "t2_abab"); (EVar "t2_abab")]));
   (*L3223*) SAug true "double_res" (EScale (-1 # 1) (EEins "nmef,kldc,edml,fbij,acnk->abij" [(ESlice (EVar "g_aaaa") [SV "o"; SV "o"; SV "v"; SV "v"]); (EVar "l2_bbbb"); (EVar "t2_abab"); (EVar "t2_abab"); (EVar "t2_abab")]));
   (*L3226*) SAug true "double_res" (EScale (-1 # 1) (EEins "nmfe,kldc,edlm,fbij,acnk->abij" [(ESlice (EVar "g_abab") [SV "o"; SV "o"; SV "v"; SV "v"]); (EVar "l2_bbbb"); (EVar "t2_bbbb"); (EVar "t2_abab"); (EVar "t2_abab")]));
   (*L3229*) SAug true "double_res" (EScale (1 # 2) (EEins "mnfe,kldc,demj,fckl,abin->abij" [(ESlice (EVar "g_abab") [SV "o"; SV "o"; SV "v"; SV "v"]); (EVar "l2_aaaa"); (EVar "t2_abab"); (EVar "t2_aaaa"); (EVar "t2_abab")]));
   (*L3232*) SAug true "double_res" (EScale (1 # 2) (EEins "mnfe,kldc,demj,fckl,abin->abij" [(ESlice (EVar "g_abab") [SV "o"; SV "o"; SV "v"; SV "v"]); (EVar "l2_abab"); (EVar "t2_abab"); (EVar "t2_abab"); (EVar "t2_abab")]));
   (*L3235*) SAug true "double_res" (EScale (1 # 2) (EEins "mnef,klcd,edmj,cfkl,abin->abij" [(ESlice (EVar "g_abab") [SV "o"; SV "o"; SV "v"; SV "v"]); (EVar "l2_abab"); (EVar "t2_abab"); (EVar "t2_abab"); (EVar "t2_abab")]));
   (*L3238*) SAug true "double_res" (EScale (1 # 2) (EEins "nmef,klcd,edjm,cfkl,abin->abij" [(ESlice (EVar "g_bbbb") [SV "o"; SV "o"; SV "v"; SV "v"]); (EVar "l2_abab"); (EVar "t2_bbbb"); (EVar "t2_abab"); (EVar "t2_abab")]));
   (*L3241*) SAug true "double_res" (EScale (1 # 2) (EEins "mnfe,lkdc,demj,fclk,abin->abij" [(ESlice (EVar "g_abab") [SV "o"; SV "o"; SV "v"; SV "v"]); (EVar "l2_abab"); (EVar "t2_abab"); (EVar "t2_abab"); (EVar "t2_abab")]));
   (*L3244*) SAug true "double_res" (EScale (1 # 2) (EEins "mnef,lkcd,edmj,cflk,abin->abij" [(ESlice (EVar "g_abab") [SV "o"; SV "o"; SV "v"; SV "v"]); (EVar "l2_abab"); (EVar "t2_abab"); (EVar "t2_abab"); (EVar "t2_abab")]));
   (*L3247*) SAug true "double_res" (EScale (1 # 2) (EEins "nmef,lkcd,edjm,cflk,abin->abij" [(ESlice (EVar "g_bbbb") [SV "o"; SV "o"; SV "v"; SV "v"]); (EVar "l2_abab"); (EVar "t2_bbbb"); (EVar "t2_abab"); (EVar "t2_abab")]));
   (*L3250*) SAug true "double_res" (EScale (1 # 2) (EEins "mnef,kldc,edmj,fckl,abin->abij" [(ESlice (EVar "g_abab") [SV "o"; SV "o"; SV "v"; SV "v"]); (EVar "l2_bbbb"); (EVar "t2_abab"); (EVar "t2_bbbb"); (EVar "t2_abab")]));
   (*L3253*) SAug true "double_res" (EScale (1 # 2) (EEins "nmef,kldc,edjm,fckl,abin->abij" [(ESlice (EVar "g_bbbb") [SV "o"; SV "o"; SV "v"; SV "v"]); (EVar "l2_bbbb"); (EVar "t2_bbbb"); (EVar "t2_bbbb"); (EVar "t2_abab")]));
   (*L3256*) SAug true "double_res" (EScale (1 # 2) (EEins "nmef,kldc,edim,fckl,abnj->abij" [(ESlice (EVar "g_aaaa") [SV "o"; SV "o"; SV "v"; SV "v"]); (EVar "l2_aaaa"); (EVar "t2_aaaa"); (EVar "t2_aaaa"); (EVar "t2_abab")]));
   (*L3259*) SAug true "double_res" (EScale (1 # 2) (EEins "nmfe,kldc,deim,fckl,abnj->abij" [(ESlice (EVar "g_abab") [SV "o"; SV "o"; SV "v"; SV "v"]); (EVar "l2_aaaa"); (EVar "t2_abab"); (EVar "t2_aaaa"); (EVar "t2_abab")]));
   (*L3262*) SAug true "double_res" (EScale (1 # 2) (EEins "nmef,kldc,edim,fckl,abnj->abij" [(ESlice (EVar "g_aaaa") [SV "o"; SV "o"; SV "v"; SV "v"]); (EVar "l2_abab"); (EVar "t2_aaaa"); (EVar "t2_abab"); (EVar "t2_abab")]));
   (*L3265*) SAug true "double_res" (EScale (1 # 2) (EEins "nmfe,kldc,deim,fckl,abnj->abij" [(ESlice (EVar "g_abab") [SV "o"; SV "o"; SV "v"; SV "v"]); (EVar "l2_abab"); (EVar "t2_abab"); (EVar "t2_abab"); (EVar "t2_abab")]));
   (*L3268*) SAug true "double_res" (EScale (1 # 2) (EEins "nmef,klcd,edim,cfkl,abnj->abij" [(ESlice (EVar "g_abab") [SV "o"; SV "o"; SV "v"; SV "v"]); (EVar "l2_abab"); (EVar "t2_abab"); (EVar "t2_abab"); (EVar "t2_abab")]));
   (*L3271*) SAug true "double_res" (EScale (1 # 2) (EEins "nmef,lkdc,edim,fclk,abnj->abij" [(ESlice (EVar "g_aaaa") [SV "o"; SV "o"; SV "v"; SV "v"]); (EVar "l2_abab"); (EVar "t2_aaaa"); (EVar "t2_abab"); (EVar "t2_abab")]));
   (*L3274*) SAug true "double_res" (EScale (1 # 2) (EEins "nmfe,lkdc,deim,fclk,abnj->abij" [(ESlice (EVar "g_abab") [SV "o"; SV "o"; SV "v"; SV "v"]); (EVar "l2_abab"); (EVar "t2_abab"); (EVar "t2_abab"); (EVar "t2_abab")]));
   (*L3277*) SAug true "double_res" (EScale (1 # 2) (EEins "nmef,lkcd,edim,cflk,abnj->abij" [(ESlice (EVar "g_abab") [SV "o"; SV "o"; SV "v"; SV "v"]); (EVar "l2_abab"); (EVar "t2_abab"); (EVar "t2_abab"); (EVar "t2_abab")]));
   (*L3280*) SAug true "double_res" (EScale (1 # 2) (EEins "nmef,kldc,edim,fckl,abnj->abij" [(ESlice (EVar "g_abab") [SV "o"; SV "o"; SV "v"; SV "v"]); (EVar "l2_bbbb"); (EVar "t2_abab"); (EVar "t2_bbbb"); (EVar "t2_abab")]));
   (*L3283*) SAug true "double_res" (EScale (-1 # 1) (EEins "mnfe,kldc,demj,fcil,abkn->abij" [(ESlice (EVar "g_abab") [SV "o"; SV "o"; SV "v"; SV "v"]); (EVar "l2_aaaa"); (EVar "t2_abab"); (EVar "t2_aaaa"); (EVar "t2_abab")]));
   (*L3286*) SAug true "double_res" (EScale (-1 # 1) (EEins "mnfe,kldc,demj,fcil,abkn->abij" [(ESlice (EVar "g_abab") [SV "o"; SV "o"; SV "v"; SV "v"]); (EVar "l2_abab"); (EVar "t2_abab"); (EVar "t2_abab"); (EVar "t2_abab")]));
   (*L3289*) SAug true "double_res" (EScale (-1 # 1) (EEins "mnef,klcd,edmj,cfil,abkn->abij" [(ESlice (EVar "g_abab") [SV "o"; SV "o"; SV "v"; SV "v"]); (EVar "l2_abab"); (EVar "t2_abab"); (EVar "t2_abab"); (EVar "t2_abab")]));
   (*L3292*) SAug true "double_res" (EScale (-1 # 1) (EEins "nmef,klcd,edjm,cfil,abkn->abij" [(ESlice (EVar "g_bbbb") [SV "o"; SV "o"; SV "v"; SV "v"]); (EVar "l2_abab"); (EVar "t2_bbbb"); (EVar "t2_abab"); (EVar "t2_abab")]));
   (*L3295*) SAug true "double_res" (EScale (-1 # 1) (EEins "nmef,lkcd,edmj,fcil,abnk->abij" [(ESlice (EVar "g_aaaa") [SV "o"; SV "o"; SV "v"; SV "v"]); (EVar "l2_abab"); (EVar "t2_abab"); (EVar "t2_aaaa"); (EVar "t2_abab")]));
   (*L3298*) SAug true "double_res" (EScale (-1 # 1) (EEins "nmfe,lkcd,edjm,fcil,abnk->abij" [(ESlice (EVar "g_abab") [SV "o"; SV "o"; SV "v"; SV "v"]); (EVar "l2_abab"); (EVar "t2_bbbb"); (EVar "t2_aaaa"); (EVar "t2_abab")]));
   (*L3301*) SAug true "double_res" (EScale (-1 # 1) (EEins "nmef,kldc,edmj,fcil,abnk->abij" [(ESlice (EVar "g_aaaa") [SV "o"; SV "o"; SV "v"; SV "v"]); (EVar "l2_bbbb"); (EVar "t2_abab"); (EVar "t2_abab"); (EVar "t2_abab")]));
   (*L3304*) SAug true "double_res" (EScale (-1 # 1) (EEins "nmfe,kldc,edjm,fcil,abnk->abij" [(ESlice (EVar "g_abab") [SV "o"; SV "o"; SV "v"; SV "v"]); (EVar "l2_bbbb"); (EVar "t2_bbbb"); (EVar "t2_abab"); (EVar "t2_abab")]));
   (*L3307*) SAug true "double_res" (EScale (-1 # 1) (EEins "mnef,kldc,edim,cflj,abkn->abij" [(ESlice (EVar "g_abab") [SV "o"; SV "o"; SV "v"; SV "v"]); (EVar "l2_aaaa"); (EVar "t2_aaaa"); (EVar "t2_abab"); (EVar "t2_abab")]));
   (*L3310*) SAug true "double_res" (EScale (-1 # 1) (EEins "nmef,kldc,deim,cflj,abkn->abij" [(ESlice (EVar "g_bbbb") [SV "o"; SV "o"; SV "v"; SV "v"]); (EVar "l2_aaaa"); (EVar "t2_abab"); (EVar "t2_abab"); (EVar "t2_abab")]));
   (*L3313*) SAug true "double_res" (EScale (-1 # 1) (EEins "mnef,kldc,edim,fcjl,abkn->abij" [(ESlice (EVar "g_abab") [SV "o"; SV "o"; SV "v"; SV "v"]); (EVar "l2_abab"); (EVar "t2_aaaa"); (EVar "t2_bbbb"); (EVar "t2_abab")]));
   (*L3316*) SAug true "double_res" (EScale (-1 # 1) (EEins "nmef,kldc,deim,fcjl,abkn->abij" [(ESlice (EVar "g_bbbb") [SV "o"; SV "o"; SV "v"; SV "v"]); (EVar "l2_abab"); (EVar "t2_abab"); (EVar "t2_bbbb"); (EVar "t2_abab")]));
   (*L3319*) SAug true "double_res" (EScale (-1 # 1) (EEins "nmef,lkdc,edim,fclj,abnk->abij" [(ESlice (EVar "g_aaaa") [SV "o"; SV "o"; SV "v"; SV "v"]); (EVar "l2_abab"); (EVar "t2_aaaa"); (EVar "t2_abab"); (EVar "t2_abab")]));
   (*L3322*) SAug true "double_res" (EScale (-1 # 1) (EEins "nmfe,lkdc,deim,fclj,abnk->abij" [(ESlice (EVar "g_abab") [SV "o"; SV "o"; SV "v"; SV "v"]); (EVar "l2_abab"); (EVar "t2_abab"); (EVar "t2_abab"); (EVar "t2_abab")]));
   (*L3325*) SAug true "double_res" (EScale (-1 # 1) (EEins "nmef,lkcd,edim,cflj,abnk->abij" [(ESlice (EVar "g_abab") [SV "o"; SV "o"; SV "v"; SV "v"]); (EVar "l2_abab"); (EVar "t2_abab"); (EVar "t2_abab"); (EVar "t2_abab")]));
   (*L3328*) SAug true "double_res" (EScale (-1 # 1) (EEins "nmef,kldc,edim,fcjl,abnk->abij" [(ESlice (EVar "g_abab") [SV "o"; SV "o"; SV "v"; SV "v"]); (EVar "l2_bbbb"); (EVar "t2_abab"); (EVar "t2_bbbb"); (EVar "t2_abab")]));
   (*L3331*) SAug true "double_res" (EScale (-1 # 2) (EEins "mnfe,kldc,demj,fakl,cbin->abij" [(ESlice (EVar "g_abab") [SV "o"; SV "o"; SV "v"; SV "v"]); (EVar "l2_aaaa"); (EVar "t2_abab"); (EVar "t2_aaaa"); (EVar "t2_abab")]));
   (*L3334*) SAug true "double_res" (EScale (-1 # 2) (EEins "mnef,klcd,edmj,afkl,cbin->abij" [(ESlice (EVar "g_abab") [SV "o"; SV "o"; SV "v"; SV "v"]); (EVar "l2_abab"); (EVar "t2_abab"); (EVar "t2_abab"); (EVar "t2_abab")]));
   (*L3337*) SAug true "double_res" (EScale (-1 # 2) (EEins "nmef,klcd,edjm,afkl,cbin->abij" [(ESlice (EVar "g_bbbb") [SV "o"; SV "o"; SV "v"; SV "v"]); (EVar "l2_abab"); (EVar "t2_bbbb"); (EVar "t2_abab"); (EVar "t2_abab")]));
   (*L3340*) SAug true "double_res" (EScale (-1 # 2) (EEins "mnef,lkcd,edmj,aflk,cbin->abij" [(ESlice (EVar "g_abab") [SV "o"; SV "o"; SV "v"; SV "v"]); (EVar "l2_abab"); (EVar "t2_abab"); (EVar "t2_abab"); (EVar "t2_abab")]));
   (*L3343*) SAug true "double_res" (EScale (-1 # 2) (EEins "nmef,lkcd,edjm,aflk,cbin->abij" [(ESlice (EVar "g_bbbb") [SV "o"; SV "o"; SV "v"; SV "v"]); (EVar "l2_abab"); (EVar "t2_bbbb"); (EVar "t2_abab"); (EVar "t2_abab")]));
   (*L3346*) SAug true "double_res" (EScale (-1 # 2) (EEins "mnfe,kldc,demj,fbkl,acin->abij" [(ESlice (EVar "g_abab") [SV "o"; SV "o"; SV "v"; SV "v"]); (EVar "l2_abab"); (EVar "t2_abab"); (EVar "t2_abab"); (EVar "t2_abab")]));
   (*L3349*) SAug true "double_res" (EScale (1 # 2) (EEins "nmef,klcd,edmj,fbkl,cain->abij" [(ESlice (EVar "g_aaaa") [SV "o"; SV "o"; SV "v"; SV "v"]); (EVar "l2_abab"); (EVar "t2_abab"); (EVar "t2_abab"); (EVar "t2_aaaa")]));
   (*L3352*) SAug true "double_res" (EScale (1 # 2) (EEins "nmfe,klcd,edjm,fbkl,cain->abij" [(ESlice (EVar "g_abab") [SV "o"; SV "o"; SV "v"; SV "v"]); (EVar "l2_abab"); (EVar "t2_bbbb"); (EVar "t2_abab"); (EVar "t2_aaaa")]));
   (*L3355*) SAug true "double_res" (EScale (-1 # 2) (EEins "mnfe,lkdc,demj,fblk,acin->abij" [(ESlice (EVar "g_abab") [SV "o"; SV "o"; SV "v"; SV "v"]); (EVar "l2_abab"); (EVar "t2_abab"); (EVar "t2_abab"); (EVar "t2_abab")]));
   (*L3358*) SAug true "double_res" (EScale (1 # 2) (EEins "nmef,lkcd,edmj,fblk,cain->abij" [(ESlice (EVar "g_aaaa") [SV "o"; SV "o"; SV "v"; SV "v"]); (EVar "l2_abab"); (EVar "t2_abab"); (EVar "t2_abab"); (EVar "t2_aaaa")]));
   (*L3361*) SAug true "double_res" (EScale (1 # 2) (EEins "nmfe,lkcd,edjm,fblk,cain->abij" [(ESlice (EVar "g_abab") [SV "o"; SV "o"; SV "v"; SV "v"]); (EVar "l2_abab"); (EVar "t2_bbbb"); (EVar "t2_abab"); (EVar "t2_aaaa")]));
   (*L3364*) SAug true "double_res" (EScale (-1 # 2) (EEins "mnef,kldc,edmj,fbkl,acin->abij" [(ESlice (EVar "g_abab") [SV "o"; SV "o"; SV "v"; SV "v"]); (EVar "l2_bbbb"); (EVar "t2_abab"); (EVar "t2_bbbb"); (EVar "t2_abab")]));
   (*L3367*) SAug true "double_res" (EScale (-1 # 2) (EEins "nmef,kldc,edjm,fbkl,acin->abij" [(ESlice (EVar "g_bbbb") [SV "o"; SV "o"; SV "v"; SV "v"]); (EVar "l2_bbbb"); (EVar "t2_bbbb"); (EVar "t2_bbbb"); (EVar "t2_abab")]));
   (*L3370*) SAug true "double_res" (EScale (-1 # 2) (EEins "nmef,kldc,edim,fakl,cbnj->abij" [(ESlice (EVar "g_aaaa") [SV "o"; SV "o"; SV "v"; SV "v"]); (EVar "l2_aaaa"); (EVar "t2_aaaa"); (EVar "t2_aaaa"); (EVar "t2_abab")]));
   (*L3373*) SAug true "double_res" (EScale (-1 # 2) (EEins "nmfe,kldc,deim,fakl,cbnj->abij" [(ESlice (EVar "g_abab") [SV "o"; SV "o"; SV "v"; SV "v"]); (EVar "l2_aaaa"); (EVar "t2_abab"); (EVar "t2_aaaa"); (EVar "t2_abab")]));
   (*L3376*) SAug true "double_res" (EScale (1 # 2) (EEins "mnef,kldc,edim,afkl,cbjn->abij" [(ESlice (EVar "g_abab") [SV "o"; SV "o"; SV "v"; SV "v"]); (EVar "l2_abab"); (EVar "t2_aaaa"); (EVar "t2_abab"); (EVar "t2_bbbb")]));
   (*L3379*) SAug true "double_res" (EScale (1 # 2) (EEins "nmef,kldc,deim,afkl,cbjn->abij" [(ESlice (EVar "g_bbbb") [SV "o"; SV "o"; SV "v"; SV "v"]); (EVar "l2_abab"); (EVar "t2_abab"); (EVar "t2_abab"); (EVar "t2_bbbb")]));
   (*L3382*) SAug true "double_res" (EScale (-1 # 2) (EEins "nmef,klcd,edim,afkl,cbnj->abij" [(ESlice (EVar "g_abab") [SV "o"; SV "o"; SV "v"; SV "v"]); (EVar "l2_abab"); (EVar "t2_abab"); (EVar "t2_abab"); (EVar "t2_abab")]));
   (*L3385*) SAug true "double_res" (EScale (1 # 2) (EEins "mnef,lkdc,edim,aflk,cbjn->abij" [(ESlice (EVar "g_abab") [SV "o"; SV "o"; SV "v"; SV "v"]); (EVar "l2_abab"); (EVar "t2_aaaa"); (EVar "t2_abab"); (EVar "t2_bbbb")]));
   (*L3388*) SAug true "double_res" (EScale (1 # 2) (EEins "nmef,lkdc,deim,aflk,cbjn->abij" [(ESlice (EVar "g_bbbb") [SV "o"; SV "o"; SV "v"; SV "v"]); (EVar "l2_abab"); (EVar "t2_abab"); (EVar "t2_abab"); (EVar "t2_bbbb")]));
   (*L3391*) SAug true "double_res" (EScale (-1 # 2) (EEins "nmef,lkcd,edim,aflk,cbnj->abij" [(ESlice (EVar "g_abab") [SV "o"; SV "o"; SV "v"; SV "v"]); (EVar "l2_abab"); (EVar "t2_abab"); (EVar "t2_abab"); (EVar "t2_abab")]));
   (*L3394*) SAug true "double_res" (EScale (-1 # 2) (EEins "nmef,kldc,edim,fbkl,acnj->abij" [(ESlice (EVar "g_aaaa") [SV "o"; SV "o"; SV "v"; SV "v"]); (EVar "l2_abab"); (EVar "t2_aaaa"); (EVar "t2_abab"); (EVar "t2_abab")]));
   (*L3397*) SAug true "double_res" (EScale (-1 # 2) (EEins "nmfe,kldc,deim,fbkl,acnj->abij" [(ESlice (EVar "g_abab") [SV "o"; SV "o"; SV "v"; SV "v"]); (EVar "l2_abab"); (EVar "t2_abab"); (EVar "t2_abab"); (EVar "t2_abab")]));
   (*L3400*) SAug true "double_res" (EScale (-1 # 2) (EEins "nmef,lkdc,edim,fblk,acnj->abij" [(ESlice (EVar "g_aaaa") [SV "o"; SV "o"; SV "v"; SV "v"]); (EVar "l2_abab"); (EVar "t2_aaaa"); (EVar "t2_abab"); (EVar "t2_abab")]));
   (*L3403*) SAug true "double_res" (EScale (-1 # 2) (EEins "nmfe,lkdc,deim,fblk,acnj->abij" [(ESlice (EVar "g_abab") [SV "o"; SV "o"; SV "v"; SV "v"]); (EVar "l2_abab"); (EVar "t2_abab"); (EVar "t2_abab"); (EVar "t2_abab")]));
   (*L3406*) SAug true "double_res" (EScale (-1 # 2) (EEins "nmef,kldc,edim,fbkl,acnj->abij" [(ESlice (EVar "g_abab") [SV "o"; SV "o"; SV "v"; SV "v"]); (EVar "l2_bbbb"); (EVar "t2_abab"); (EVar "t2_bbbb"); (EVar "t2_abab")]));
   (*L3409*) SAug true "double_res" (EScale (1 # 1) (EEins "mnfe,kldc,demj,fail,cbkn->abij" [(ESlice (EVar "g_abab") [SV "o"; SV "o"; SV "v"; SV "v"]); (EVar "l2_aaaa"); (EVar "t2_abab"); (EVar "t2_aaaa"); (EVar "t2_abab")]));
   (*L3412*) SAug true "double_res" (EScale (1 # 1) (EEins "mnef,klcd,edmj,afil,cbkn->abij" [(ESlice (EVar "g_abab") [SV "o"; SV "o"; SV "v"; SV "v"]); (EVar "l2_abab"); (EVar "t2_abab"); (EVar "t2_abab"); (EVar "t2_abab")]));
   (*L3415*) SAug true "double_res" (EScale (1 # 1) (EEins "nmef,klcd,edjm,afil,cbkn->abij" [(ESlice (EVar "g_bbbb") [SV "o"; SV "o"; SV "v"; SV "v"]); (EVar "l2_abab"); (EVar "t2_bbbb"); (EVar "t2_abab"); (EVar "t2_abab")]));
   (*L3418*) SAug true "double_res" (EScale (-1 # 1) (EEins "mnfe,lkdc,demj,fail,cbkn->abij" [(ESlice (EVar "g_abab") [SV "o"; SV "o"; SV "v"; SV "v"]); (EVar "l2_abab"); (EVar "t2_abab"); (EVar "t2_aaaa"); (EVar "t2_bbbb")]));
   (*L3421*) SAug true "double_res" (EScale (1 # 1) (EEins "nmef,lkcd,edmj,fail,cbnk->abij" [(ESlice (EVar "g_aaaa") [SV "o"; SV "o"; SV "v"; SV "v"]); (EVar "l2_abab"); (EVar "t2_abab"); (EVar "t2_aaaa"); (EVar "t2_abab")]));
   (*L3424*) SAug true "double_res" (EScale (1 # 1) (EEins "nmfe,lkcd,edjm,fail,cbnk->abij" [(ESlice (EVar "g_abab") [SV "o"; SV "o"; SV "v"; SV "v"]); (EVar "l2_abab"); (EVar "t2_bbbb"); (EVar "t2_aaaa"); (EVar "t2_abab")]));
   (*L3427*) SAug true "double_res" (EScale (-1 # 1) (EEins "mnef,kldc,edmj,afil,cbkn->abij" [(ESlice (EVar "g_abab") [SV "o"; SV "o"; SV "v"; SV "v"]); (EVar "l2_bbbb"); (EVar "t2_abab"); (EVar "t2_abab"); (EVar "t2_bbbb")]));
   (*L3430*) SAug true "double_res" (EScale (-1 # 1) (EEins "nmef,kldc,edjm,afil,cbkn->abij" [(ESlice (EVar "g_bbbb") [SV "o"; SV "o"; SV "v"; SV "v"]); (EVar "l2_bbbb"); (EVar "t2_bbbb"); (EVar "t2_abab"); (EVar "t2_bbbb")]));
   (*L3433*) SAug true "double_res" (EScale (1 # 1) (EEins "mnfe,kldc,demj,fbil,ackn->abij" [(ESlice (EVar "g_abab") [SV "o"; SV "o"; SV "v"; SV "v"]); (EVar "l2_abab"); (EVar "t2_abab"); (EVar "t2_abab"); (EVar "t2_abab")]));
   (*L3436*) SAug true "double_res" (EScale (-1 # 1) (EEins "nmef,klcd,edmj,fbil,cakn->abij" [(ESlice (EVar "g_aaaa") [SV "o"; SV "o"; SV "v"; SV "v"]); (EVar "l2_abab"); (EVar "t2_abab"); (EVar "t2_abab"); (EVar "t2_aaaa")]));
   (*L3439*) SAug true "double_res" (EScale (-1 # 1) (EEins "nmfe,klcd,edjm,fbil,cakn->abij" [(ESlice (EVar "g_abab") [SV "o"; SV "o"; SV "v"; SV "v"]); (EVar "l2_abab"); (EVar "t2_bbbb"); (EVar "t2_abab"); (EVar "t2_aaaa")]));
   (*L3442*) SAug true "double_res" (EScale (1 # 1) (EEins "nmef,kldc,edmj,fbil,acnk->abij" [(ESlice (EVar "g_aaaa") [SV "o"; SV "o"; SV "v"; SV "v"]); (EVar "l2_bbbb"); (EVar "t2_abab"); (EVar "t2_abab"); (EVar "t2_abab")]));
   (*L3445*) SAug true "double_res" (EScale (1 # 1) (EEins "nmfe,kldc,edjm,fbil,acnk->abij" [(ESlice (EVar "g_abab") [SV "o"; SV "o"; SV "v"; SV "v"]); (EVar "l2_bbbb"); (EVar "t2_bbbb"); (EVar "t2_abab"); (EVar "t2_abab")]));
   (*L3448*) SAug true "double_res" (EScale (1 # 1) (EEins "mnef,kldc,edim,aflj,cbkn->abij" [(ESlice (EVar "g_abab") [SV "o"; SV "o"; SV "v"; SV "v"]); (EVar "l2_aaaa"); (EVar "t2_aaaa"); (EVar "t2_abab"); (EVar "t2_abab")]));
   (*L3451*) SAug true "double_res" (EScale (1 # 1) (EEins "nmef,kldc,deim,aflj,cbkn->abij" [(ESlice (EVar "g_bbbb") [SV "o"; SV "o"; SV "v"; SV "v"]); (EVar "l2_aaaa"); (EVar "t2_abab"); (EVar "t2_abab"); (EVar "t2_abab")]));
   (*L3454*) SAug true "double_res" (EScale (-1 # 1) (EEins "mnef,lkdc,edim,aflj,cbkn->abij" [(ESlice (EVar "g_abab") [SV "o"; SV "o"; SV "v"; SV "v"]); (EVar "l2_abab"); (EVar "t2_aaaa"); (EVar "t2_abab"); (EVar "t2_bbbb")]));
   (*L3457*) SAug true "double_res" (EScale (-1 # 1) (EEins "nmef,lkdc,deim,aflj,cbkn->abij" [(ESlice (EVar "g_bbbb") [SV "o"; SV "o"; SV "v"; SV "v"]); (EVar "l2_abab"); (EVar "t2_abab"); (EVar "t2_abab"); (EVar "t2_bbbb")]));
   (*L3460*) SAug true "double_res" (EScale (1 # 1) (EEins "nmef,lkcd,edim,aflj,cbnk->abij" [(ESlice (EVar "g_abab") [SV "o"; SV "o"; SV "v"; SV "v"]); (EVar "l2_abab"); (EVar "t2_abab"); (EVar "t2_abab"); (EVar "t2_abab")]));
   (*L3463*) SAug true "double_res" (EScale (-1 # 1) (EEins "nmef,kldc,edim,fblj,cakn->abij" [(ESlice (EVar "g_aaaa") [SV "o"; SV "o"; SV "v"; SV "v"]); (EVar "l2_aaaa"); (EVar "t2_aaaa"); (EVar "t2_abab"); (EVar "t2_aaaa")]));
   (*L3466*) SAug true "double_res" (EScale (-1 # 1) (EEins "nmfe,kldc,deim,fblj,cakn->abij" [(ESlice (EVar "g_abab") [SV "o"; SV "o"; SV "v"; SV "v"]); (EVar "l2_aaaa"); (EVar "t2_abab"); (EVar "t2_abab"); (EVar "t2_aaaa")]));
   (*L3469*) SAug true "double_res" (EScale (1 # 1) (EEins "mnef,kldc,edim,fbjl,ackn->abij" [(ESlice (EVar "g_abab") [SV "o"; SV "o"; SV "v"; SV "v"]); (EVar "l2_abab"); (EVar "t2_aaaa"); (EVar "t2_bbbb"); (EVar "t2_abab")]));
   (*L3472*) SAug true "double_res" (EScale (1 # 1) (EEins "nmef,kldc,deim,fbjl,ackn->abij" [(ESlice (EVar "g_bbbb") [SV "o"; SV "o"; SV "v"; SV "v"]); (EVar "l2_abab"); (EVar "t2_abab"); (EVar "t2_bbbb"); (EVar "t2_abab")]));
   (*L3475*) SAug true "double_res" (EScale (-1 # 1) (EEins "nmef,klcd,edim,fbjl,cakn->abij" [(ESlice (EVar "g_abab") [SV "o"; SV "o"; SV "v"; SV "v"]); (EVar "l2_abab"); (EVar "t2_abab"); (EVar "t2_bbbb"); (EVar "t2_aaaa")]));
   (*L3478*) SAug true "double_res" (EScale (1 # 1) (EEins "nmef,lkdc,edim,fblj,acnk->abij" [(ESlice (EVar "g_aaaa") [SV "o"; SV "o"; SV "v"; SV "v"]); (EVar "l2_abab"); (EVar "t2_aaaa"); (EVar "t2_abab"); (EVar "t2_abab")]));
   (*L3481*) SAug true "double_res" (EScale (1 # 1) (EEins "nmfe,lkdc,deim,fblj,acnk->abij" [(ESlice (EVar "g_abab") [SV "o"; SV "o"; SV "v"; SV "v"]); (EVar "l2_abab"); (EVar "t2_abab"); (EVar "t2_abab"); (EVar "t2_abab")]));
   (*L3484*) SAug true "double_res" (EScale (1 # 1) (EEins "nmef,kldc,edim,fbjl,acnk->abij" [(ESlice (EVar "g_abab") [SV "o"; SV "o"; SV "v"; SV "v"]); (EVar "l2_bbbb"); (EVar "t2_abab"); (EVar "t2_bbbb"); (EVar "t2_abab")]));
   (*L3487*) SAug true "double_res" (EScale (1 # 4) (EEins "nmef,kldc,edkl,cfij,abnm->abij" [(ESlice (EVar "g_abab") [SV "o"; SV "o"; SV "v"; SV "v"]); (EVar "l2_aaaa"); (EVar "t2_aaaa"); (EVar "t2_abab"); (EVar "t2_abab")]));
   (*L3490*) SAug true "double_res" (EScale (1 # 4) (EEins "mnef,kldc,edkl,cfij,abmn->abij" [(ESlice (EVar "g_abab") [SV "o"; SV "o"; SV "v"; SV "v"]); (EVar "l2_aaaa"); (EVar "t2_aaaa"); (EVar "t2_abab"); (EVar "t2_abab")]));
   (*L3493*) SAug true "double_res" (EScale (-1 # 4) (EEins "nmfe,kldc,dekl,fcij,abnm->abij" [(ESlice (EVar "g_abab") [SV "o"; SV "o"; SV "v"; SV "v"]); (EVar "l2_abab"); (EVar "t2_abab"); (EVar "t2_abab"); (EVar "t2_abab")]));
   (*L3496*) SAug true "double_res" (EScale (-1 # 4) (EEins "mnfe,kldc,dekl,fcij,abmn->abij" [(ESlice (EVar "g_abab") [SV "o"; SV "o"; SV "v"; SV "v"]); (EVar "l2_abab"); (EVar "t2_abab"); (EVar "t2_abab"); (EVar "t2_abab")]));
   (*L3499*) SAug true "double_res" (EScale (-1 # 4) (EEins "nmef,klcd,edkl,cfij,abnm->abij" [(ESlice (EVar "g_abab") [SV "o"; SV "o"; SV "v"; SV "v"]); (EVar "l2_abab"); (EVar "t2_abab"); (EVar "t2_abab"); (EVar "t2_abab")]));
   (*L3502*) SAug true "double_res" (EScale (-1 # 4) (EEins "mnef,klcd,edkl,cfij,abmn->abij" [(ESlice (EVar "g_abab") [SV "o"; SV "o"; SV "v"; SV "v"]); (EVar "l2_abab"); (EVar "t2_abab"); (EVar "t2_abab"); (EVar "t2_abab")]));
   (*L3505*) SAug true "double_res" (EScale (-1 # 4) (EEins "nmfe,lkdc,delk,fcij,abnm->abij" [(ESlice (EVar "g_abab") [SV "o"; SV "o"; SV "v"; SV "v"]); (EVar "l2_abab"); (EVar "t2_abab"); (EVar "t2_abab"); (EVar "t2_abab")]));
   (*L3508*) SAug true "double_res" (EScale (-1 # 4) (EEins "mnfe,lkdc,delk,fcij,abmn->abij" [(ESlice (EVar "g_abab") [SV "o"; SV "o"; SV "v"; SV "v"]); (EVar "l2_abab"); (EVar "t2_abab"); (EVar "t2_abab"); (EVar "t2_abab")]));
   (*L3511*) SAug true "double_res" (EScale (-1 # 4) (EEins "nmef,lkcd,edlk,cfij,abnm->abij" [(ESlice (EVar "g_abab") [SV "o"; SV "o"; SV "v"; SV "v"]); (EVar "l2_abab"); (EVar "t2_abab"); (EVar "t2_abab"); (EVar "t2_abab")]));
   (*L3514*) SAug true "double_res" (EScale (-1 # 4) (EEins "mnef,lkcd,edlk,cfij,abmn->abij" [(ESlice (EVar "g_abab") [SV "o"; SV "o"; SV "v"; SV "v"]); (EVar "l2_abab"); (EVar "t2_abab"); (EVar "t2_abab"); (EVar "t2_abab")]));
   (*L3517*) SAug true "double_res" (EScale (1 # 4) (EEins "nmfe,kldc,edkl,fcij,abnm->abij" [(ESlice (EVar "g_abab") [SV "o"; SV "o"; SV "v"; SV "v"]); (EVar "l2_bbbb"); (EVar "t2_bbbb"); (EVar "t2_abab"); (EVar "t2_abab")]));
   (*L3520*) SAug true "double_res" (EScale (1 # 4) (EEins "mnfe,kldc,edkl,fcij,abmn->abij" [(ESlice (EVar "g_abab") [SV "o"; SV "o"; SV "v"; SV "v"]); (EVar "l2_bbbb"); (EVar "t2_bbbb"); (EVar "t2_abab"); (EVar "t2_abab")]));
   (*L3523*) SAug true "double_res" (EScale (1 # 2) (EEins "mnef,kldc,edkl,afmj,cbin->abij" [(ESlice (EVar "g_abab") [SV "o"; SV "o"; SV "v"; SV "v"]); (EVar "l2_aaaa"); (EVar "t2_aaaa"); (EVar "t2_abab"); (EVar "t2_abab")]));
   (*L3526*) SAug true "double_res" (EScale (-1 # 2) (EEins "mnef,klcd,edkl,afmj,cbin->abij" [(ESlice (EVar "g_abab") [SV "o"; SV "o"; SV "v"; SV "v"]); (EVar "l2_abab"); (EVar "t2_abab"); (EVar "t2_abab"); (EVar "t2_abab")]));
   (*L3529*) SAug true "double_res" (EScale (-1 # 2) (EEins "mnef,lkcd,edlk,afmj,cbin->abij" [(ESlice (EVar "g_abab") [SV "o"; SV "o"; SV "v"; SV "v"]); (EVar "l2_abab"); (EVar "t2_abab"); (EVar "t2_abab"); (EVar "t2_abab")]));
   (*L3532*) SAug true "double_res" (EScale (-1 # 2) (EEins "nmef,kldc,edkl,fbmj,cain->abij" [(ESlice (EVar "g_aaaa") [SV "o"; SV "o"; SV "v"; SV "v"]); (EVar "l2_aaaa"); (EVar "t2_aaaa"); (EVar "t2_abab"); (EVar "t2_aaaa")]));
   (*L3535*) SAug true "double_res" (EScale (1 # 2) (EEins "nmef,kldc,edkl,fbjm,cain->abij" [(ESlice (EVar "g_abab") [SV "o"; SV "o"; SV "v"; SV "v"]); (EVar "l2_aaaa"); (EVar "t2_aaaa"); (EVar "t2_bbbb"); (EVar "t2_aaaa")]));
   (*L3538*) SAug true "double_res" (EScale (-1 # 2) (EEins "mnfe,kldc,dekl,fbmj,acin->abij" [(ESlice (EVar "g_abab") [SV "o"; SV "o"; SV "v"; SV "v"]); (EVar "l2_abab"); (EVar "t2_abab"); (EVar "t2_abab"); (EVar "t2_abab")]));
   (*L3541*) SAug true "double_res" (EScale (1 # 2) (EEins "nmef,kldc,dekl,fbjm,acin->abij" [(ESlice (EVar "g_bbbb") [SV "o"; SV "o"; SV "v"; SV "v"]); (EVar "l2_abab"); (EVar "t2_abab"); (EVar "t2_bbbb"); (EVar "t2_abab")]));
   (*L3544*) SAug true "double_res" (EScale (1 # 2) (EEins "nmef,klcd,edkl,fbmj,cain->abij" [(ESlice (EVar "g_aaaa") [SV "o"; SV "o"; SV "v"; SV "v"]); (EVar "l2_abab"); (EVar "t2_abab"); (EVar "t2_abab"); (EVar "t2_aaaa")]));
   (*L3547*) SAug true "double_res" (EScale (-1 # 2) (EEins "nmef,klcd,edkl,fbjm,cain->abij" [(ESlice (EVar "g_abab") [SV "o"; SV "o"; SV "v"; SV "v"]); (EVar "l2_abab"); (EVar "t2_abab"); (EVar "t2_bbbb"); (EVar "t2_aaaa")]));
   (*L3550*) SAug true "double_res" (EScale (-1 # 2) (EEins "mnfe,lkdc,delk,fbmj,acin->abij" [(ESlice (EVar "g_abab") [SV "o"; SV "o"; SV "v"; SV "v"]); (EVar "l2_abab"); (EVar "t2_abab"); (EVar "t2_abab"); (EVar "t2_abab")]));
   (*L3553*) SAug true "double_res" (EScale (1 # 2) (EEins "nmef,lkdc,delk,fbjm,acin->abij" [(ESlice (EVar "g_bbbb") [SV "o"; SV "o"; SV "v"; SV "v"]); (EVar "l2_abab"); (EVar "t2_abab"); (EVar "t2_bbbb"); (EVar "t2_abab")]));
   (*L3556*) SAug true "double_res" (EScale (1 # 2) (EEins "nmef,lkcd,edlk,fbmj,cain->abij" [(ESlice (EVar "g_aaaa") [SV "o"; SV "o"; SV "v"; SV "v"]); (EVar "l2_abab"); (EVar "t2_abab"); (EVar "t2_abab"); (EVar "t2_aaaa")]));
   (*L3559*) SAug true "double_res" (EScale (-1 # 2) (EEins "nmef,lkcd,edlk,fbjm,cain->abij" [(ESlice (EVar "g_abab") [SV "o"; SV "o"; SV "v"; SV "v"]); (EVar "l2_abab"); (EVar "t2_abab"); (EVar "t2_bbbb"); (EVar "t2_aaaa")]));
   (*L3562*) SAug true "double_res" (EScale (1 # 2) (EEins "mnfe,kldc,edkl,fbmj,acin->abij" [(ESlice (EVar "g_abab") [SV "o"; SV "o"; SV "v"; SV "v"]); (EVar "l2_bbbb"); (EVar "t2_bbbb"); (EVar "t2_abab"); (EVar "t2_abab")]));
   (*L3565*) SAug true "double_res" (EScale (-1 # 2) (EEins "nmef,kldc,edkl,fbjm,acin->abij" [(ESlice (EVar "g_bbbb") [SV "o"; SV "o"; SV "v"; SV "v"]); (EVar "l2_bbbb"); (EVar "t2_bbbb"); (EVar "t2_bbbb"); (EVar "t2_abab")]));
   (*L3568*) SAug true "double_res" (EScale (-1 # 2) (EEins "nmef,kldc,edkl,faim,cbnj->abij" [(ESlice (EVar "g_aaaa") [SV "o"; SV "o"; SV "v"; SV "v"]); (EVar "l2_aaaa"); (EVar "t2_aaaa"); (EVar "t2_aaaa"); (EVar "t2_abab")]));
   (*L3571*) SAug true "double_res" (EScale (1 # 2) (EEins "nmef,kldc,edkl,afim,cbnj->abij" [(ESlice (EVar "g_abab") [SV "o"; SV "o"; SV "v"; SV "v"]); (EVar "l2_aaaa"); (EVar "t2_aaaa"); (EVar "t2_abab"); (EVar "t2_abab")]));
   (*L3574*) SAug true "double_res" (EScale (-1 # 2) (EEins "mnfe,kldc,dekl,faim,cbjn->abij" [(ESlice (EVar "g_abab") [SV "o"; SV "o"; SV "v"; SV "v"]); (EVar "l2_abab"); (EVar "t2_abab"); (EVar "t2_aaaa"); (EVar "t2_bbbb")]));
   (*L3577*) SAug true "double_res" (EScale (1 # 2) (EEins "nmef,kldc,dekl,afim,cbjn->abij" [(ESlice (EVar "g_bbbb") [SV "o"; SV "o"; SV "v"; SV "v"]); (EVar "l2_abab"); (EVar "t2_abab"); (EVar "t2_abab"); (EVar "t2_bbbb")]));
   (*L3580*) SAug true "double_res" (EScale (1 # 2) (EEins "nmef,klcd,edkl,faim,cbnj->abij" [(ESlice (EVar "g_aaaa") [SV "o"; SV "o"; SV "v"; SV "v"]); (EVar "l2_abab"); (EVar "t2_abab"); (EVar "t2_aaaa"); (EVar "t2_abab")]));
   (*L3583*) SAug true "double_res" (EScale (-1 # 2) (EEins "nmef,klcd,edkl,afim,cbnj->abij" [(ESlice (EVar "g_abab") [SV "o"; SV "o"; SV "v"; SV "v"]); (EVar "l2_abab"); (EVar "t2_abab"); (EVar "t2_abab"); (EVar "t2_abab")]));
   (*L3586*) SAug true "double_res" (EScale (-1 # 2) (EEins "mnfe,lkdc,delk,faim,cbjn->abij" [(ESlice (EVar "g_abab") [SV "o"; SV "o"; SV "v"; SV "v"]); (EVar "l2_abab"); (EVar "t2_abab"); (EVar "t2_aaaa"); (EVar "t2_bbbb")]));
   (*L3589*) SAug true "double_res" (EScale (1 # 2) (EEins "nmef,lkdc,delk,afim,cbjn->abij" [(ESlice (EVar "g_bbbb") [SV "o"; SV "o"; SV "v"; SV "v"]); (EVar "l2_abab"); (EVar "t2_abab"); (EVar "t2_abab"); (EVar "t2_bbbb")]));
   (*L3592*) SAug true "double_res" (EScale (1 # 2) (EEins "nmef,lkcd,edlk,faim,cbnj->abij" [(ESlice (EVar "g_aaaa") [SV "o"; SV "o"; SV "v"; SV "v"]); (EVar "l2_abab"); (EVar "t2_abab"); (EVar "t2_aaaa"); (EVar "t2_abab")]));
   (*L3595*) SAug true "double_res" (EScale (-1 # 2) (EEins "nmef,lkcd,edlk,afim,cbnj->abij" [(ESlice (EVar "g_abab") [SV "o"; SV "o"; SV "v"; SV "v"]); (EVar "l2_abab"); (EVar "t2_abab"); (EVar "t2_abab"); (EVar "t2_abab")]));
   (*L3598*) SAug true "double_res" (EScale (1 # 2) (EEins "mnfe,kldc,edkl,faim,cbjn->abij" [(ESlice (EVar "g_abab") [SV "o"; SV "o"; SV "v"; SV "v"]); (EVar "l2_bbbb"); (EVar "t2_bbbb"); (EVar "t2_aaaa"); (EVar "t2_bbbb")]));
   (*L3601*) SAug true "double_res" (EScale (-1 # 2) (EEins "nmef,kldc,edkl,afim,cbjn->abij" [(ESlice (EVar "g_bbbb") [SV "o"; SV "o"; SV "v"; SV "v"]); (EVar "l2_bbbb"); (EVar "t2_bbbb"); (EVar "t2_abab"); (EVar "t2_bbbb")]));
   (*L3604*) SAug true "double_res" (EScale (-1 # 2) (EEins "nmfe,kldc,dekl,fbim,acnj->abij" [(ESlice (EVar "g_abab") [SV "o"; SV "o"; SV "v"; SV "v"]); (EVar "l2_abab"); (EVar "t2_abab"); (EVar "t2_abab"); (EVar "t2_abab")]));
   (*L3607*) SAug true "double_res" (EScale (-1 # 2) (EEins "nmfe,lkdc,delk,fbim,acnj->abij" [(ESlice (EVar "g_abab") [SV "o"; SV "o"; SV "v"; SV "v"]); (EVar "l2_abab"); (EVar "t2_abab"); (EVar "t2_abab"); (EVar "t2_abab")]));
   (*L3610*) SAug true "double_res" (EScale (1 # 2) (EEins "nmfe,kldc,edkl,fbim,acnj->abij" [(ESlice (EVar "g_abab") [SV "o"; SV "o"; SV "v"; SV "v"]); (EVar "l2_bbbb"); (EVar "t2_bbbb"); (EVar "t2_abab"); (EVar "t2_abab")]));
   (*L3613*) SAug true "double_res" (EScale (-1 # 4) (EEins "nmef,kldc,edkl,afij,cbnm->abij" [(ESlice (EVar "g_abab") [SV "o"; SV "o"; SV "v"; SV "v"]); (EVar "l2_aaaa"); (EVar "t2_aaaa"); (EVar "t2_abab"); (EVar "t2_abab")]));
   (*L3616*) SAug true "double_res" (EScale (-1 # 4) (EEins "mnef,kldc,edkl,afij,cbmn->abij" [(ESlice (EVar "g_abab") [SV "o"; SV "o"; SV "v"; SV "v"]); (EVar "l2_aaaa"); (EVar "t2_aaaa"); (EVar "t2_abab"); (EVar "t2_abab")]));
   (*L3619*) SAug true "double_res" (EScale (1 # 4) (EEins "nmef,kldc,dekl,afij,cbnm->abij" [(ESlice (EVar "g_bbbb") [SV "o"; SV "o"; SV "v"; SV "v"]); (EVar "l2_abab"); (EVar "t2_abab"); (EVar "t2_abab"); (EVar "t2_bbbb")]));
   (*L3622*) SAug true "double_res" (EScale (1 # 4) (EEins "nmef,klcd,edkl,afij,cbnm->abij" [(ESlice (EVar "g_abab") [SV "o"; SV "o"; SV "v"; SV "v"]); (EVar "l2_abab"); (EVar "t2_abab"); (EVar "t2_abab"); (EVar "t2_abab")]));
   (*L3625*) SAug true "double_res" (EScale (1 # 4) (EEins "mnef,klcd,edkl,afij,cbmn->abij" [(ESlice (EVar "g_abab") [SV "o"; SV "o"; SV "v"; SV "v"]); (EVar "l2_abab"); (EVar "t2_abab"); (EVar "t2_abab"); (EVar "t2_abab")]));
   (*L3628*) SAug true "double_res" (EScale (1 # 4) (EEins "nmef,lkdc,delk,afij,cbnm->abij" [(ESlice (EVar "g_bbbb") [SV "o"; SV "o"; SV "v"; SV "v"]); (EVar "l2_abab"); (EVar "t2_abab"); (EVar "t2_abab"); (EVar "t2_bbbb")]));
   (*L3631*) SAug true "double_res" (EScale (1 # 4) (EEins "nmef,lkcd,edlk,afij,cbnm->abij" [(ESlice (EVar "g_abab") [SV "o"; SV "o"; SV "v"; SV "v"]); (EVar "l2_abab"); (EVar "t2_abab"); (EVar "t2_abab"); (EVar "t2_abab")]));
   (*L3634*) SAug true "double_res" (EScale (1 # 4) (EEins "mnef,lkcd,edlk,afij,cbmn->abij" [(ESlice (EVar "g_abab") [SV "o"; SV "o"; SV "v"; SV "v"]); (EVar "l2_abab"); (EVar "t2_abab"); (EVar "t2_abab"); (EVar "t2_abab")]));
   (*L3637*) SAug true "double_res" (EScale (-1 # 4) (EEins "nmef,kldc,edkl,afij,cbnm->abij" [(ESlice (EVar "g_bbbb") [SV "o"; SV "o"; SV "v"; SV "v"]); (EVar "l2_bbbb"); (EVar "t2_bbbb"); (EVar "t2_abab"); (EVar "t2_bbbb")]));
   (*L3640*) SAug true "double_res" (EScale (-1 # 4) (EEins "nmef,kldc,edkl,fbij,canm->abij" [(ESlice (EVar "g_aaaa") [SV "o"; SV "o"; SV "v"; SV "v"]); (EVar "l2_aaaa"); (EVar "t2_aaaa"); (EVar "t2_abab"); (EVar "t2_aaaa")]));
   (*L3643*) SAug true "double_res" (EScale (1 # 4) (EEins "nmfe,kldc,dekl,fbij,acnm->abij" [(ESlice (EVar "g_abab") [SV "o"; SV "o"; SV "v"; SV "v"]); (EVar "l2_abab"); (EVar "t2_abab"); (EVar "t2_abab"); (EVar "t2_abab")]));
   (*L3646*) SAug true "double_res" (EScale (1 # 4) (EEins "mnfe,kldc,dekl,fbij,acmn->abij" [(ESlice (EVar "g_abab") [SV "o"; SV "o"; SV "v"; SV "v"]); (EVar "l2_abab"); (EVar "t2_abab"); (EVar "t2_abab"); (EVar "t2_abab")]));
   (*L3649*) SAug true "double_res" (EScale (1 # 4) (EEins "nmef,klcd,edkl,fbij,canm->abij" [(ESlice (EVar "g_aaaa") [SV "o"; SV "o"; SV "v"; SV "v"]); (EVar "l2_abab"); (EVar "t2_abab"); (EVar "t2_abab"); (EVar "t2_aaaa")]));
   (*L3652*) SAug true "double_res" (EScale (1 # 4) (EEins "nmfe,lkdc,delk,fbij,acnm->abij" [(ESlice (EVar "g_abab") [SV "o"; SV "o"; SV "v"; SV "v"]); (EVar "l2_abab"); (EVar "t2_abab"); (EVar "t2_abab"); (EVar "t2_abab")]));
   (*L3655*) SAug true "double_res" (EScale (1 # 4) (EEins "mnfe,lkdc,delk,fbij,acmn->abij" [(ESlice (EVar "g_abab") [SV "o"; SV "o"; SV "v"; SV "v"]); (EVar "l2_abab"); (EVar "t2_abab"); (EVar "t2_abab"); (EVar "t2_abab")]));
   (*L3658*) SAug true "double_res" (EScale (1 # 4) (EEins "nmef,lkcd,edlk,fbij,canm->abij" [(ESlice (EVar "g_aaaa") [SV "o"; SV "o"; SV "v"; SV "v"]); (EVar "l2_abab"); (EVar "t2_abab"); (EVar "t2_abab"); (EVar "t2_aaaa")]));
   (*L3661*) SAug true "double_res" (EScale (-1 # 4) (EEins "nmfe,kldc,edkl,fbij,acnm->abij" [(ESlice (EVar "g_abab") [SV "o"; SV "o"; SV "v"; SV "v"]); (EVar "l2_bbbb"); (EVar "t2_bbbb"); (EVar "t2_abab"); (EVar "t2_abab")]));
   (*L3664*) SAug true "double_res" (EScale (-1 # 4) (EEins "mnfe,kldc,edkl,fbij,acmn->abij" [(ESlice (EVar "g_abab") [SV "o"; SV "o"; SV "v"; SV "v"]); (EVar "l2_bbbb"); (EVar "t2_bbbb"); (EVar "t2_abab"); (EVar "t2_abab")]));
   (*L3667*) SAug true "double_res" (EScale (-1 # 2) (EEins "mnfe,kldc,delj,fckm,abin->abij" [(ESlice (EVar "g_abab") [SV "o"; SV "o"; SV "v"; SV "v"]); (EVar "l2_aaaa"); (EVar "t2_abab"); (EVar "t2_aaaa"); (EVar "t2_abab")]));
   (*L3670*) SAug true "double_res" (EScale (1 # 2) (EEins "nmef,kldc,delj,cfkm,abin->abij" [(ESlice (EVar "g_bbbb") [SV "o"; SV "o"; SV "v"; SV "v"]); (EVar "l2_aaaa"); (EVar "t2_abab"); (EVar "t2_abab"); (EVar "t2_abab")]));
   (*L3673*) SAug true "double_res" (EScale (1 # 2) (EEins "mnfe,klcd,edjl,fckm,abin->abij" [(ESlice (EVar "g_abab") [SV "o"; SV "o"; SV "v"; SV "v"]); (EVar "l2_abab"); (EVar "t2_bbbb"); (EVar "t2_aaaa"); (EVar "t2_abab")]));
   (*L3676*) SAug true "double_res" (EScale (-1 # 2) (EEins "nmef,klcd,edjl,cfkm,abin->abij" [(ESlice (EVar "g_bbbb") [SV "o"; SV "o"; SV "v"; SV "v"]); (EVar "l2_abab"); (EVar "t2_bbbb"); (EVar "t2_abab"); (EVar "t2_abab")]));
   (*L3679*) SAug true "double_res" (EScale (-1 # 2) (EEins "mnfe,lkdc,delj,fcmk,abin->abij" [(ESlice (EVar "g_abab") [SV "o"; SV "o"; SV "v"; SV "v"]); (EVar "l2_abab"); (EVar "t2_abab"); (EVar "t2_abab"); (EVar "t2_abab")]));
   (*L3682*) SAug true "double_res" (EScale (1 # 2) (EEins "nmef,lkdc,delj,fckm,abin->abij" [(ESlice (EVar "g_bbbb") [SV "o"; SV "o"; SV "v"; SV "v"]); (EVar "l2_abab"); (EVar "t2_abab"); (EVar "t2_bbbb"); (EVar "t2_abab")]));
   (*L3685*) SAug true "double_res" (EScale (-1 # 2) (EEins "mnef,lkcd,edlj,cfmk,abin->abij" [(ESlice (EVar "g_abab") [SV "o"; SV "o"; SV "v"; SV "v"]); (EVar "l2_abab"); (EVar "t2_abab"); (EVar "t2_abab"); (EVar "t2_abab")]));
   (*L3688*) SAug true "double_res" (EScale (1 # 2) (EEins "mnfe,kldc,edjl,fcmk,abin->abij" [(ESlice (EVar "g_abab") [SV "o"; SV "o"; SV "v"; SV "v"]); (EVar "l2_bbbb"); (EVar "t2_bbbb"); (EVar "t2_abab"); (EVar "t2_abab")]));
   (*L3691*) SAug true "double_res" (EScale (-1 # 2) (EEins "nmef,kldc,edjl,fckm,abin->abij" [(ESlice (EVar "g_bbbb") [SV "o"; SV "o"; SV "v"; SV "v"]); (EVar "l2_bbbb"); (EVar "t2_bbbb"); (EVar "t2_bbbb"); (EVar "t2_abab")]));
   (*L3694*) SAug true "double_res" (EScale (-1 # 2) (EEins "nmef,kldc,edil,fckm,abnj->abij" [(ESlice (EVar "g_aaaa") [SV "o"; SV "o"; SV "v"; SV "v"]); (EVar "l2_aaaa"); (EVar "t2_aaaa"); (EVar "t2_aaaa"); (EVar "t2_abab")]));
   (*L3697*) SAug true "double_res" (EScale (1 # 2) (EEins "nmef,kldc,edil,cfkm,abnj->abij" [(ESlice (EVar "g_abab") [SV "o"; SV "o"; SV "v"; SV "v"]); (EVar "l2_aaaa"); (EVar "t2_aaaa"); (EVar "t2_abab"); (EVar "t2_abab")]));
   (*L3700*) SAug true "double_res" (EScale (-1 # 2) (EEins "nmfe,kldc,deil,fckm,abnj->abij" [(ESlice (EVar "g_abab") [SV "o"; SV "o"; SV "v"; SV "v"]); (EVar "l2_abab"); (EVar "t2_abab"); (EVar "t2_abab"); (EVar "t2_abab")]));
   (*L3703*) SAug true "double_res" (EScale (1 # 2) (EEins "nmef,klcd,edil,fckm,abnj->abij" [(ESlice (EVar "g_aaaa") [SV "o"; SV "o"; SV "v"; SV "v"]); (EVar "l2_abab"); (EVar "t2_abab"); (EVar "t2_aaaa"); (EVar "t2_abab")]));
   (*L3706*) SAug true "double_res" (EScale (-1 # 2) (EEins "nmef,klcd,edil,cfkm,abnj->abij" [(ESlice (EVar "g_abab") [SV "o"; SV "o"; SV "v"; SV "v"]); (EVar "l2_abab"); (EVar "t2_abab"); (EVar "t2_abab"); (EVar "t2_abab")]));
   (*L3709*) SAug true "double_res" (EScale (-1 # 2) (EEins "nmef,lkdc,edil,fcmk,abnj->abij" [(ESlice (EVar "g_aaaa") [SV "o"; SV "o"; SV "v"; SV "v"]); (EVar "l2_abab"); (EVar "t2_aaaa"); (EVar "t2_abab"); (EVar "t2_abab")]));
   (*L3712*) SAug true "double_res" (EScale (1 # 2) (EEins "nmef,lkdc,edil,fckm,abnj->abij" [(ESlice (EVar "g_abab") [SV "o"; SV "o"; SV "v"; SV "v"]); (EVar "l2_abab"); (EVar "t2_aaaa"); (EVar "t2_bbbb"); (EVar "t2_abab")]));
   (*L3715*) SAug true "double_res" (EScale (1 # 2) (EEins "nmef,kldc,edil,fcmk,abnj->abij" [(ESlice (EVar "g_aaaa") [SV "o"; SV "o"; SV "v"; SV "v"]); (EVar "l2_bbbb"); (EVar "t2_abab"); (EVar "t2_abab"); (EVar "t2_abab")]));
   (*L3718*) SAug true "double_res" (EScale (-1 # 2) (EEins "nmef,kldc,edil,fckm,abnj->abij" [(ESlice (EVar "g_abab") [SV "o"; SV "o"; SV "v"; SV "v"]); (EVar "l2_bbbb"); (EVar "t2_abab"); (EVar "t2_bbbb"); (EVar "t2_abab")]));
   (*L3721*) SAug true "double_res" (EScale (-1 # 4) (EEins "nmfe,kldc,delj,fcik,abnm->abij" [(ESlice (EVar "g_abab") [SV "o"; SV "o"; SV "v"; SV "v"]); (EVar "l2_aaaa"); (EVar "t2_abab"); (EVar "t2_aaaa"); (EVar "t2_abab")]));
   (*L3724*) SAug true "double_res" (EScale (-1 # 4) (EEins "mnfe,kldc,delj,fcik,abmn->abij" [(ESlice (EVar "g_abab") [SV "o"; SV "o"; SV "v"; SV "v"]); (EVar "l2_aaaa"); (EVar "t2_abab"); (EVar "t2_aaaa"); (EVar "t2_abab")]));
   (*L3727*) SAug true "double_res" (EScale (1 # 4) (EEins "nmfe,klcd,edjl,fcik,abnm->abij" [(ESlice (EVar "g_abab") [SV "o"; SV "o"; SV "v"; SV "v"]); (EVar "l2_abab"); (EVar "t2_bbbb"); (EVar "t2_aaaa"); (EVar "t2_abab")]));
   (*L3730*) SAug true "double_res" (EScale (1 # 4) (EEins "mnfe,klcd,edjl,fcik,abmn->abij" [(ESlice (EVar "g_abab") [SV "o"; SV "o"; SV "v"; SV "v"]); (EVar "l2_abab"); (EVar "t2_bbbb"); (EVar "t2_aaaa"); (EVar "t2_abab")]));
   (*L3733*) SAug true "double_res" (EScale (1 # 4) (EEins "nmfe,lkdc,delj,fcik,abnm->abij" [(ESlice (EVar "g_abab") [SV "o"; SV "o"; SV "v"; SV "v"]); (EVar "l2_abab"); (EVar "t2_abab"); (EVar "t2_abab"); (EVar "t2_abab")]));
   (*L3736*) SAug true "double_res" (EScale (1 # 4) (EEins "mnfe,lkdc,delj,fcik,abmn->abij" [(ESlice (EVar "g_abab") [SV "o"; SV "o"; SV "v"; SV "v"]); (EVar "l2_abab"); (EVar "t2_abab"); (EVar "t2_abab"); (EVar "t2_abab")]));
   (*L3739*) SAug true "double_res" (EScale (1 # 4) (EEins "nmef,lkcd,edlj,cfik,abnm->abij" [(ESlice (EVar "g_abab") [SV "o"; SV "o"; SV "v"; SV "v"]); (EVar "l2_abab"); (EVar "t2_abab"); (EVar "t2_abab"); (EVar "t2_abab")]));
   (*L3742*) SAug true "double_res" (EScale (1 # 4) (EEins "mnef,lkcd,edlj,cfik,abmn->abij" [(ESlice (EVar "g_abab") [SV "o"; SV "o"; SV "v"; SV "v"]); (EVar "l2_abab"); (EVar "t2_abab"); (EVar "t2_abab"); (EVar "t2_abab")]));
   (*L3745*) SAug true "double_res" (EScale (-1 # 4) (EEins "nmfe,kldc,edjl,fcik,abnm->abij" [(ESlice (EVar "g_abab") [SV "o"; SV "o"; SV "v"; SV "v"]); (EVar "l2_bbbb"); (EVar "t2_bbbb"); (EVar "t2_abab"); (EVar "t2_abab")]));
   (*L3748*) SAug true "double_res" (EScale (-1 # 4) (EEins "mnfe,kldc,edjl,fcik,abmn->abij" [(ESlice (EVar "g_abab") [SV "o"; SV "o"; SV "v"; SV "v"]); (EVar "l2_bbbb"); (EVar "t2_bbbb"); (EVar "t2_abab"); (EVar "t2_abab")]));
   (*L3751*) SAug true "double_res" (EScale (-1 # 4) (EEins "nmef,kldc,edil,cfkj,abnm->abij" [(ESlice (EVar "g_abab") [SV "o"; SV "o"; SV "v"; SV "v"]); (EVar "l2_aaaa"); (EVar "t2_aaaa"); (EVar "t2_abab"); (EVar "t2_abab")]));
   (*L3754*) SAug true "double_res" (EScale (-1 # 4) (EEins "mnef,kldc,edil,cfkj,abmn->abij" [(ESlice (EVar "g_abab") [SV "o"; SV "o"; SV "v"; SV "v"]); (EVar "l2_aaaa"); (EVar "t2_aaaa"); (EVar "t2_abab"); (EVar "t2_abab")]));
   (*L3757*) SAug true "double_res" (EScale (1 # 4) (EEins "nmfe,kldc,deil,fckj,abnm->abij" [(ESlice (EVar "g_abab") [SV "o"; SV "o"; SV "v"; SV "v"]); (EVar "l2_abab"); (EVar "t2_abab"); (EVar "t2_abab"); (EVar "t2_abab")]));
   (*L3760*) SAug true "double_res" (EScale (1 # 4) (EEins "mnfe,kldc,deil,fckj,abmn->abij" [(ESlice (EVar "g_abab") [SV "o"; SV "o"; SV "v"; SV "v"]); (EVar "l2_abab"); (EVar "t2_abab"); (EVar "t2_abab"); (EVar "t2_abab")]));
   (*L3763*) SAug true "double_res" (EScale (1 # 4) (EEins "nmef,klcd,edil,cfkj,abnm->abij" [(ESlice (EVar "g_abab") [SV "o"; SV "o"; SV "v"; SV "v"]); (EVar "l2_abab"); (EVar "t2_abab"); (EVar "t2_abab"); (EVar "t2_abab")]));
   (*L3766*) SAug true "double_res" (EScale (1 # 4) (EEins "mnef,klcd,edil,cfkj,abmn->abij" [(ESlice (EVar "g_abab") [SV "o"; SV "o"; SV "v"; SV "v"]); (EVar "l2_abab"); (EVar "t2_abab"); (EVar "t2_abab"); (EVar "t2_abab")]));
   (*L3769*) SAug true "double_res" (EScale (1 # 4) (EEins "nmef,lkdc,edil,fcjk,abnm->abij" [(ESlice (EVar "g_abab") [SV "o"; SV "o"; SV "v"; SV "v"]); (EVar "l2_abab"); (EVar "t2_aaaa"); (EVar "t2_bbbb"); (EVar "t2_abab")]));
   (*L3772*) SAug true "double_res" (EScale (1 # 4) (EEins "mnef,lkdc,edil,fcjk,abmn->abij" [(ESlice (EVar "g_abab") [SV "o"; SV "o"; SV "v"; SV "v"]); (EVar "l2_abab"); (EVar "t2_aaaa"); (EVar "t2_bbbb"); (EVar "t2_abab")]));
   (*L3775*) SAug true "double_res" (EScale (-1 # 4) (EEins "nmef,kldc,edil,fcjk,abnm->abij" [(ESlice (EVar "g_abab") [SV "o"; SV "o"; SV "v"; SV "v"]); (EVar "l2_bbbb"); (EVar "t2_abab"); (EVar "t2_bbbb"); (EVar "t2_abab")]));
   (*L3778*) SAug true "double_res" (EScale (-1 # 4) (EEins "mnef,kldc,edil,fcjk,abmn->abij" [(ESlice (EVar "g_abab") [SV "o"; SV "o"; SV "v"; SV "v"]); (EVar "l2_bbbb"); (EVar "t2_abab"); (EVar "t2_bbbb"); (EVar "t2_abab")]));
   (*L3781*) SAug true "double_res" (EScale (91666666666667 # 100000000000000) (EEins "mnfe,kldc,delj,fakm,cbin->abij" [(ESlice (EVar "g_abab") [SV "o"; SV "o"; SV "v"; SV "v"]); (EVar "l2_aaaa"); (EVar "t2_abab"); (EVar "t2_aaaa"); (EVar "t2_abab")]));
   (*L3784*) SAug true "double_res" (EScale (-91666666666667 # 100000000000000) (EEins "nmef,kldc,delj,afkm,cbin->abij" [(ESlice (EVar "g_bbbb") [SV "o"; SV "o"; SV "v"; SV "v"]); (EVar "l2_aaaa"); (EVar "t2_abab"); (EVar "t2_abab"); (EVar "t2_abab")]));
   (*L3787*) SAug true "double_res" (EScale (-91666666666667 # 100000000000000) (EEins "mnfe,klcd,edjl,fakm,cbin->abij" [(ESlice (EVar "g_abab") [SV "o"; SV "o"; SV "v"; SV "v"]); (EVar "l2_abab"); (EVar "t2_bbbb"); (EVar "t2_aaaa"); (EVar "t2_abab")]));
   (*L3790*) SAug true "double_res" (EScale (91666666666667 # 100000000000000) (EEins "nmef,klcd,edjl,afkm,cbin->abij" [(ESlice (EVar "g_bbbb") [SV "o"; SV "o"; SV "v"; SV "v"]); (EVar "l2_abab"); (EVar "t2_bbbb"); (EVar "t2_abab"); (EVar "t2_abab")]));
   (*L3793*) SAug true "double_res" (EScale (91666666666667 # 100000000000000) (EEins "mnef,lkcd,edlj,afmk,cbin->abij" [(ESlice (EVar "g_abab") [SV "o"; SV "o"; SV "v"; SV "v"]); (EVar "l2_abab"); (EVar "t2_abab"); (EVar "t2_abab"); (EVar "t2_abab")]));
   (*L3796*) SAug true "double_res" (EScale (91666666666667 # 100000000000000) (EEins "nmfe,kldc,delj,fbkm,cain->abij" [(ESlice (EVar "g_abab") [SV "o"; SV "o"; SV "v"; SV "v"]); (EVar "l2_aaaa"); (EVar "t2_abab"); (EVar "t2_abab"); (EVar "t2_aaaa")]));
   (*L3799*) SAug true "double_res" (EScale (-91666666666667 # 100000000000000) (EEins "nmfe,klcd,edjl,fbkm,cain->abij" [(ESlice (EVar "g_abab") [SV "o"; SV "o"; SV "v"; SV "v"]); (EVar "l2_abab"); (EVar "t2_bbbb"); (EVar "t2_abab"); (EVar "t2_aaaa")]));
   (*L3802*) SAug true "double_res" (EScale (91666666666667 # 100000000000000) (EEins "mnfe,lkdc,delj,fbmk,acin->abij" [(ESlice (EVar "g_abab") [SV "o"; SV "o"; SV "v"; SV "v"]); (EVar "l2_abab"); (EVar "t2_abab"); (EVar "t2_abab"); (EVar "t2_abab")]));
   (*L3805*) SAug true "double_res" (EScale (-91666666666667 # 100000000000000) (EEins "nmef,lkdc,delj,fbkm,acin->abij" [(ESlice (EVar "g_bbbb") [SV "o"; SV "o"; SV "v"; SV "v"]); (EVar "l2_abab"); (EVar "t2_abab"); (EVar "t2_bbbb"); (EVar "t2_abab")]));
   (*L3808*) SAug true "double_res" (EScale (-91666666666667 # 100000000000000) (EEins "nmef,lkcd,edlj,fbmk,cain->abij" [(ESlice (EVar "g_aaaa") [SV "o"; SV "o"; SV "v"; SV "v"]); (EVar "l2_abab"); (EVar "t2_abab"); (EVar "t2_abab"); (EVar "t2_aaaa")]));
   (*L3811*) SAug true "double_res" (EScale (91666666666667 # 100000000000000) (EEins "nmef,lkcd,edlj,fbkm,cain->abij" [(ESlice (EVar "g_abab") [SV "o"; SV "o"; SV "v"; SV "v"]); (EVar "l2_abab"); (EVar "t2_abab"); (EVar "t2_bbbb"); (EVar "t2_aaaa")]));
   (*L3814*) SAug true "double_res" (EScale (-91666666666667 # 100000000000000) (EEins "mnfe,kldc,edjl,fbmk,acin->abij" [(ESlice (EVar "g_abab") [SV "o"; SV "o"; SV "v"; SV "v"]); (EVar "l2_bbbb"); (EVar "t2_bbbb"); (EVar "t2_abab"); (EVar "t2_abab")]));
   (*L3817*) SAug true "double_res" (EScale (91666666666667 # 100000000000000) (EEins "nmef,kldc,edjl,fbkm,acin->abij" [(ESlice (EVar "g_bbbb") [SV "o"; SV "o"; SV "v"; SV "v"]); (EVar "l2_bbbb"); (EVar "t2_bbbb"); (EVar "t2_bbbb"); (EVar "t2_abab")]));
   (*L3820*) SAug true "double_res" (EScale (91666666666667 # 100000000000000) (EEins "nmef,kldc,edil,fakm,cbnj->abij" [(ESlice (EVar "g_aaaa") [SV "o"; SV "o"; SV "v"; SV "v"]); (EVar "l2_aaaa"); (EVar "t2_aaaa"); (EVar "t2_aaaa"); (EVar "t2_abab")]));
   (*L3823*) SAug true "double_res" (EScale (-91666666666667 # 100000000000000) (EEins "nmef,kldc,edil,afkm,cbnj->abij" [(ESlice (EVar "g_abab") [SV "o"; SV "o"; SV "v"; SV "v"]); (EVar "l2_aaaa"); (EVar "t2_aaaa"); (EVar "t2_abab"); (EVar "t2_abab")]));
   (*L3826*) SAug true "double_res" (EScale (91666666666667 # 100000000000000) (EEins "mnfe,kldc,deil,fakm,cbjn->abij" [(ESlice (EVar "g_abab") [SV "o"; SV "o"; SV "v"; SV "v"]); (EVar "l2_abab"); (EVar "t2_abab"); (EVar "t2_aaaa"); (EVar "t2_bbbb")]));
   (*L3829*) SAug true "double_res" (EScale (-91666666666667 # 100000000000000) (EEins "nmef,kldc,deil,afkm,cbjn->abij" [(ESlice (EVar "g_bbbb") [SV "o"; SV "o"; SV "v"; SV "v"]); (EVar "l2_abab"); (EVar "t2_abab"); (EVar "t2_abab"); (EVar "t2_bbbb")]));
   (*L3832*) SAug true "double_res" (EScale (-91666666666667 # 100000000000000) (EEins "nmef,klcd,edil,fakm,cbnj->abij" [(ESlice (EVar "g_aaaa") [SV "o"; SV "o"; SV "v"; SV "v"]); (EVar "l2_abab"); (EVar "t2_abab"); (EVar "t2_aaaa"); (EVar "t2_abab")]));
   (*L3835*) SAug true "double_res" (EScale (91666666666667 # 100000000000000) (EEins "nmef,klcd,edil,afkm,cbnj->abij" [(ESlice (EVar "g_abab") [SV "o"; SV "o"; SV "v"; SV "v"]); (EVar "l2_abab"); (EVar "t2_abab"); (EVar "t2_abab"); (EVar "t2_abab")]));
   (*L3838*) SAug true "double_res" (EScale (-91666666666667 # 100000000000000) (EEins "mnef,lkdc,edil,afmk,cbjn->abij" [(ESlice (EVar "g_abab") [SV "o"; SV "o"; SV "v"; SV "v"]); (EVar "l2_abab"); (EVar "t2_aaaa"); (EVar "t2_abab"); (EVar "t2_bbbb")]));
   (*L3841*) SAug true "double_res" (EScale (91666666666667 # 100000000000000) (EEins "mnef,kldc,edil,afmk,cbjn->abij" [(ESlice (EVar "g_abab") [SV "o"; SV "o"; SV "v"; SV "v"]); (EVar "l2_bbbb"); (EVar "t2_abab"); (EVar "t2_abab"); (EVar "t2_bbbb")]));
   (*L3844*) SAug true "double_res" (EScale (91666666666667 # 100000000000000) (EEins "nmfe,kldc,deil,fbkm,acnj->abij" [(ESlice (EVar "g_abab") [SV "o"; SV "o"; SV "v"; SV "v"]); (EVar "l2_abab"); (EVar "t2_abab"); (EVar "t2_abab"); (EVar "t2_abab")]));
   (*L3847*) SAug true "double_res" (EScale (91666666666667 # 100000000000000) (EEins "nmef,lkdc,edil,fbmk,acnj->abij" [(ESlice (EVar "g_aaaa") [SV "o"; SV "o"; SV "v"; SV "v"]); (EVar "l2_abab"); (EVar "t2_aaaa"); (EVar "t2_abab"); (EVar "t2_abab")]));
   (*L3850*) SAug true "double_res" (EScale (-91666666666667 # 100000000000000) (EEins "nmef,lkdc,edil,fbkm,acnj->abij" [(ESlice (EVar "g_abab") [SV "o"; SV "o"; SV "v"; SV "v"]); (EVar "l2_abab"); (EVar "t2_aaaa"); (EVar "t2_bbbb"); (EVar "t2_abab")]));
   (*L3853*) SAug true "double_res" (EScale (-91666666666667 # 100000000000000) (EEins "nmef,kldc,edil,fbmk,acnj->abij" [(ESlice (EVar "g_aaaa") [SV "o"; SV "o"; SV "v"; SV "v"]); (EVar "l2_bbbb"); (EVar "t2_abab"); (EVar "t2_abab"); (EVar "t2_abab")]));
   (*L3856*) SAug true "double_res" (EScale (91666666666667 # 100000000000000) (EEins "nmef,kldc,edil,fbkm,acnj->abij" [(ESlice (EVar "g_abab") [SV "o"; SV "o"; SV "v"; SV "v"]); (EVar "l2_bbbb"); (EVar "t2_abab"); (EVar "t2_bbbb"); (EVar "t2_abab")]));
   (*L3859*) SAug true "double_res" (EScale (-1 # 1) (EEins "mnfe,kldc,delj,faim,cbkn->abij" [(ESlice (EVar "g_abab") [SV "o"; SV "o"; SV "v"; SV "v"]); (EVar "l2_aaaa"); (EVar "t2_abab"); (EVar "t2_aaaa"); (EVar "t2_abab")]));
   (*L3862*) SAug true "double_res" (EScale (1 # 1) (EEins "nmef,kldc,delj,afim,cbkn->abij" [(ESlice (EVar "g_bbbb") [SV "o"; SV "o"; SV "v"; SV "v"]); (EVar "l2_aaaa"); (EVar "t2_abab"); (EVar "t2_abab"); (EVar "t2_abab")]));
   (*L3865*) SAug true "double_res" (EScale (1 # 1) (EEins "mnfe,klcd,edjl,faim,cbkn->abij" [(ESlice (EVar "g_abab") [SV "o"; SV "o"; SV "v"; SV "v"]); (EVar "l2_abab"); (EVar "t2_bbbb"); (EVar "t2_aaaa"); (EVar "t2_abab")]));
   (*L3868*) SAug true "double_res" (EScale (-1 # 1) (EEins "nmef,klcd,edjl,afim,cbkn->abij" [(ESlice (EVar "g_bbbb") [SV "o"; SV "o"; SV "v"; SV "v"]); (EVar "l2_abab"); (EVar "t2_bbbb"); (EVar "t2_abab"); (EVar "t2_abab")]));
   (*L3871*) SAug true "double_res" (EScale (1 # 1) (EEins "mnfe,lkdc,delj,faim,cbkn->abij" [(ESlice (EVar "g_abab") [SV "o"; SV "o"; SV "v"; SV "v"]); (EVar "l2_abab"); (EVar "t2_abab"); (EVar "t2_aaaa"); (EVar "t2_bbbb")]));
   (*L3874*) SAug true "double_res" (EScale (-1 # 1) (EEins "nmef,lkdc,delj,afim,cbkn->abij" [(ESlice (EVar "g_bbbb") [SV "o"; SV "o"; SV "v"; SV "v"]); (EVar "l2_abab"); (EVar "t2_abab"); (EVar "t2_abab"); (EVar "t2_bbbb")]));
   (*L3877*) SAug true "double_res" (EScale (-1 # 1) (EEins "nmef,lkcd,edlj,faim,cbnk->abij" [(ESlice (EVar "g_aaaa") [SV "o"; SV "o"; SV "v"; SV "v"]); (EVar "l2_abab"); (EVar "t2_abab"); (EVar "t2_aaaa"); (EVar "t2_abab")]));
   (*L3880*) SAug true "double_res" (EScale (1 # 1) (EEins "nmef,lkcd,edlj,afim,cbnk->abij" [(ESlice (EVar "g_abab") [SV "o"; SV "o"; SV "v"; SV "v"]); (EVar "l2_abab"); (EVar "t2_abab"); (EVar "t2_abab"); (EVar "t2_abab")]));
   (*L3883*) SAug true "double_res" (EScale (-1 # 1) (EEins "mnfe,kldc,edjl,faim,cbkn->abij" [(ESlice (EVar "g_abab") [SV "o"; SV "o"; SV "v"; SV "v"]); (EVar "l2_bbbb"); (EVar "t2_bbbb"); (EVar "t2_aaaa"); (EVar "t2_bbbb")]));
   (*L3886*) SAug true "double_res" (EScale (1 # 1) (EEins "nmef,kldc,edjl,afim,cbkn->abij" [(ESlice (EVar "g_bbbb") [SV "o"; SV "o"; SV "v"; SV "v"]); (EVar "l2_bbbb"); (EVar "t2_bbbb"); (EVar "t2_abab"); (EVar "t2_bbbb")]));
   (*L3889*) SAug true "double_res" (EScale (-1 # 1) (EEins "nmfe,kldc,delj,fbim,cakn->abij" [(ESlice (EVar "g_abab") [SV "o"; SV "o"; SV "v"; SV "v"]); (EVar "l2_aaaa"); (EVar "t2_abab"); (EVar "t2_abab"); (EVar "t2_aaaa")]));
   (*L3892*) SAug true "double_res" (EScale (1 # 1) (EEins "nmfe,klcd,edjl,fbim,cakn->abij" [(ESlice (EVar "g_abab") [SV "o"; SV "o"; SV "v"; SV "v"]); (EVar "l2_abab"); (EVar "t2_bbbb"); (EVar "t2_abab"); (EVar "t2_aaaa")]));
   (*L3895*) SAug true "double_res" (EScale (1 # 1) (EEins "nmfe,lkdc,delj,fbim,acnk->abij" [(ESlice (EVar "g_abab") [SV "o"; SV "o"; SV "v"; SV "v"]); (EVar "l2_abab"); (EVar "t2_abab"); (EVar "t2_abab"); (EVar "t2_abab")]));
   (*L3898*) SAug true "double_res" (EScale (-1 # 1) (EEins "nmfe,kldc,edjl,fbim,acnk->abij" [(ESlice (EVar "g_abab") [SV "o"; SV "o"; SV "v"; SV "v"]); (EVar "l2_bbbb"); (EVar "t2_bbbb"); (EVar "t2_abab"); (EVar "t2_abab")]));
   (*L3901*) SAug true "double_res" (EScale (-1 # 1) (EEins "mnef,kldc,edil,afmj,cbkn->abij" [(ESlice (EVar "g_abab") [SV "o"; SV "o"; SV "v"; SV "v"]); (EVar "l2_aaaa"); (EVar "t2_aaaa"); (EVar "t2_abab"); (EVar "t2_abab")]));
   (*L3904*) SAug true "double_res" (EScale (1 # 1) (EEins "mnef,klcd,edil,afmj,cbkn->abij" [(ESlice (EVar "g_abab") [SV "o"; SV "o"; SV "v"; SV "v"]); (EVar "l2_abab"); (EVar "t2_abab"); (EVar "t2_abab"); (EVar "t2_abab")]));
   (*L3907*) SAug true "double_res" (EScale (1 # 1) (EEins "mnef,lkdc,edil,afmj,cbkn->abij" [(ESlice (EVar "g_abab") [SV "o"; SV "o"; SV "v"; SV "v"]); (EVar "l2_abab"); (EVar "t2_aaaa"); (EVar "t2_abab"); (EVar "t2_bbbb")]));
   (*L3910*) SAug true "double_res" (EScale (-1 # 1) (EEins "mnef,kldc,edil,afmj,cbkn->abij" [(ESlice (EVar "g_abab") [SV "o"; SV "o"; SV "v"; SV "v"]); (EVar "l2_bbbb"); (EVar "t2_abab"); (EVar "t2_abab"); (EVar "t2_bbbb")]));
   (*L3913*) SAug true "double_res" (EScale (1 # 1) (EEins "nmef,kldc,edil,fbmj,cakn->abij" [(ESlice (EVar "g_aaaa") [SV "o"; SV "o"; SV "v"; SV "v"]); (EVar "l2_aaaa"); (EVar "t2_aaaa"); (EVar "t2_abab"); (EVar "t2_aaaa")]));
   (*L3916*) SAug true "double_res" (EScale (-1 # 1) (EEins "nmef,kldc,edil,fbjm,cakn->abij" [(ESlice (EVar "g_abab") [SV "o"; SV "o"; SV "v"; SV "v"]); (EVar "l2_aaaa"); (EVar "t2_aaaa"); (EVar "t2_bbbb"); (EVar "t2_aaaa")]));
   (*L3919*) SAug true "double_res" (EScale (1 # 1) (EEins "mnfe,kldc,deil,fbmj,ackn->abij" [(ESlice (EVar "g_abab") [SV "o"; SV "o"; SV "v"; SV "v"]); (EVar "l2_abab"); (EVar "t2_abab"); (EVar "t2_abab"); (EVar "t2_abab")]));
   (*L3922*) SAug true "double_res" (EScale (-1 # 1) (EEins "nmef,kldc,deil,fbjm,ackn->abij" [(ESlice (EVar "g_bbbb") [SV "o"; SV "o"; SV "v"; SV "v"]); (EVar "l2_abab"); (EVar "t2_abab"); (EVar "t2_bbbb"); (EVar "t2_abab")]));
   (*L3925*) SAug true "double_res" (EScale (-1 # 1) (EEins "nmef,klcd,edil,fbmj,cakn->abij" [(ESlice (EVar "g_aaaa") [SV "o"; SV "o"; SV "v"; SV "v"]); (EVar "l2_abab"); (EVar "t2_abab"); (EVar "t2_abab"); (EVar "t2_aaaa")]));
   (*L3928*) SAug true "double_res" (EScale (1 # 1) (EEins "nmef,klcd,edil,fbjm,cakn->abij" [(ESlice (EVar "g_abab") [SV "o"; SV "o"; SV "v"; SV "v"]); (EVar "l2_abab"); (EVar "t2_abab"); (EVar "t2_bbbb"); (EVar "t2_aaaa")]));
   (*L3931*) SAug true "double_res" (EScale (-1 # 1) (EEins "nmef,lkdc,edil,fbmj,acnk->abij" [(ESlice (EVar "g_aaaa") [SV "o"; SV "o"; SV "v"; SV "v"]); (EVar "l2_abab"); (EVar "t2_aaaa"); (EVar "t2_abab"); (EVar "t2_abab")]));
   (*L3934*) SAug true "double_res" (EScale (1 # 1) (EEins "nmef,lkdc,edil,fbjm,acnk->abij" [(ESlice (EVar "g_abab") [SV "o"; SV "o"; SV "v"; SV "v"]); (EVar "l2_abab"); (EVar "t2_aaaa"); (EVar "t2_bbbb"); (EVar "t2_abab")]));
   (*L3937*) SAug true "double_res" (EScale (1 # 1) (EEins "nmef,kldc,edil,fbmj,acnk->abij" [(ESlice (EVar "g_aaaa") [SV "o"; SV "o"; SV "v"; SV "v"]); (EVar "l2_bbbb"); (EVar "t2_abab"); (EVar "t2_abab"); (EVar "t2_abab")]));
   (*L3940*) SAug true "double_res" (EScale (-1 # 1) (EEins "nmef,kldc,edil,fbjm,acnk->abij" [(ESlice (EVar "g_abab") [SV "o"; SV "o"; SV "v"; SV "v"]); (EVar "l2_bbbb"); (EVar "t2_abab"); (EVar "t2_bbbb"); (EVar "t2_abab")]));
   (*L3943*) SAug true "double_res" (EScale (1 # 2) (EEins "nmfe,kldc,delj,faik,cbnm->abij" [(ESlice (EVar "g_abab") [SV "o"; SV "o"; SV "v"; SV "v"]); (EVar "l2_aaaa"); (EVar "t2_abab"); (EVar "t2_aaaa"); (EVar "t2_abab")]));
   (*L3946*) SAug true "double_res" (EScale (1 # 2) (EEins "mnfe,kldc,delj,faik,cbmn->abij" [(ESlice (EVar "g_abab") [SV "o"; SV "o"; SV "v"; SV "v"]); (EVar "l2_aaaa"); (EVar "t2_abab"); (EVar "t2_aaaa"); (EVar "t2_abab")]));
   (*L3949*) SAug true "double_res" (EScale (-1 # 2) (EEins "nmfe,klcd,edjl,faik,cbnm->abij" [(ESlice (EVar "g_abab") [SV "o"; SV "o"; SV "v"; SV "v"]); (EVar "l2_abab"); (EVar "t2_bbbb"); (EVar "t2_aaaa"); (EVar "t2_abab")]));
   (*L3952*) SAug true "double_res" (EScale (-1 # 2) (EEins "mnfe,klcd,edjl,faik,cbmn->abij" [(ESlice (EVar "g_abab") [SV "o"; SV "o"; SV "v"; SV "v"]); (EVar "l2_abab"); (EVar "t2_bbbb"); (EVar "t2_aaaa"); (EVar "t2_abab")]));
   (*L3955*) SAug true "double_res" (EScale (-1 # 2) (EEins "nmef,lkdc,delj,afik,cbnm->abij" [(ESlice (EVar "g_bbbb") [SV "o"; SV "o"; SV "v"; SV "v"]); (EVar "l2_abab"); (EVar "t2_abab"); (EVar "t2_abab"); (EVar "t2_bbbb")]));
   (*L3958*) SAug true "double_res" (EScale (-1 # 2) (EEins "nmef,lkcd,edlj,afik,cbnm->abij" [(ESlice (EVar "g_abab") [SV "o"; SV "o"; SV "v"; SV "v"]); (EVar "l2_abab"); (EVar "t2_abab"); (EVar "t2_abab"); (EVar "t2_abab")]));
   (*L3961*) SAug true "double_res" (EScale (-1 # 2) (EEins "mnef,lkcd,edlj,afik,cbmn->abij" [(ESlice (EVar "g_abab") [SV "o"; SV "o"; SV "v"; SV "v"]); (EVar "l2_abab"); (EVar "t2_abab"); (EVar "t2_abab"); (EVar "t2_abab")]));
   (*L3964*) SAug true "double_res" (EScale (1 # 2) (EEins "nmef,kldc,edjl,afik,cbnm->abij" [(ESlice (EVar "g_bbbb") [SV "o"; SV "o"; SV "v"; SV "v"]); (EVar "l2_bbbb"); (EVar "t2_bbbb"); (EVar "t2_abab"); (EVar "t2_bbbb")]));
   (*L3967*) SAug true "double_res" (EScale (-1 # 2) (EEins "nmfe,lkdc,delj,fbik,acnm->abij" [(ESlice (EVar "g_abab") [SV "o"; SV "o"; SV "v"; SV "v"]); (EVar "l2_abab"); (EVar "t2_abab"); (EVar "t2_abab"); (EVar "t2_abab")]));
   (*L3970*) SAug true "double_res" (EScale (-1 # 2) (EEins "mnfe,lkdc,delj,fbik,acmn->abij" [(ESlice (EVar "g_abab") [SV "o"; SV "o"; SV "v"; SV "v"]); (EVar "l2_abab"); (EVar "t2_abab"); (EVar "t2_abab"); (EVar "t2_abab")]));
   (*L3973*) SAug true "double_res" (EScale (-1 # 2) (EEins "nmef,lkcd,edlj,fbik,canm->abij" [(ESlice (EVar "g_aaaa") [SV "o"; SV "o"; SV "v"; SV "v"]); (EVar "l2_abab"); (EVar "t2_abab"); (EVar "t2_abab"); (EVar "t2_aaaa")]));
   (*L3976*) SAug true "double_res" (EScale (1 # 2) (EEins "nmfe,kldc,edjl,fbik,acnm->abij" [(ESlice (EVar "g_abab") [SV "o"; SV "o"; SV "v"; SV "v"]); (EVar "l2_bbbb"); (EVar "t2_bbbb"); (EVar "t2_abab"); (EVar "t2_abab")]));
   (*L3979*) SAug true "double_res" (EScale (1 # 2) (EEins "mnfe,kldc,edjl,fbik,acmn->abij" [(ESlice (EVar "g_abab") [SV "o"; SV "o"; SV "v"; SV "v"]); (EVar "l2_bbbb"); (EVar "t2_bbbb"); (EVar "t2_abab"); (EVar "t2_abab")]));
   (*L3982*) SAug true "double_res" (EScale (1 # 2) (EEins "nmef,kldc,edil,afkj,cbnm->abij" [(ESlice (EVar "g_abab") [SV "o"; SV "o"; SV "v"; SV "v"]); (EVar "l2_aaaa"); (EVar "t2_aaaa"); (EVar "t2_abab"); (EVar "t2_abab")]));
   (*L3985*) SAug true "double_res" (EScale (1 # 2) (EEins "mnef,kldc,edil,afkj,cbmn->abij" [(ESlice (EVar "g_abab") [SV "o"; SV "o"; SV "v"; SV "v"]); (EVar "l2_aaaa"); (EVar "t2_aaaa"); (EVar "t2_abab"); (EVar "t2_abab")]));
   (*L3988*) SAug true "double_res" (EScale (-1 # 2) (EEins "nmef,kldc,deil,afkj,cbnm->abij" [(ESlice (EVar "g_bbbb") [SV "o"; SV "o"; SV "v"; SV "v"]); (EVar "l2_abab"); (EVar "t2_abab"); (EVar "t2_abab"); (EVar "t2_bbbb")]));
   (*L3991*) SAug true "double_res" (EScale (-1 # 2) (EEins "nmef,klcd,edil,afkj,cbnm->abij" [(ESlice (EVar "g_abab") [SV "o"; SV "o"; SV "v"; SV "v"]); (EVar "l2_abab"); (EVar "t2_abab"); (EVar "t2_abab"); (EVar "t2_abab")]));
   (*L3994*) SAug true "double_res" (EScale (-1 # 2) (EEins "mnef,klcd,edil,afkj,cbmn->abij" [(ESlice (EVar "g_abab") [SV "o"; SV "o"; SV "v"; SV "v"]); (EVar "l2_abab"); (EVar "t2_abab"); (EVar "t2_abab"); (EVar "t2_abab")]));
   (*L3997*) SAug true "double_res" (EScale (1 # 2) (EEins "nmef,kldc,edil,fbkj,canm->abij" [(ESlice (EVar "g_aaaa") [SV "o"; SV "o"; SV "v"; SV "v"]); (EVar "l2_aaaa"); (EVar "t2_aaaa"); (EVar "t2_abab"); (EVar "t2_aaaa")]));
   (*L4000*) SAug true "double_res" (EScale (-1 # 2) (EEins "nmfe,kldc,deil,fbkj,acnm->abij" [(ESlice (EVar "g_abab") [SV "o"; SV "o"; SV "v"; SV "v"]); (EVar "l2_abab"); (EVar "t2_abab"); (EVar "t2_abab"); (EVar "t2_abab")]));
   (*L4003*) SAug true "double_res" (EScale (-1 # 2) (EEins "mnfe,kldc,deil,fbkj,acmn->abij" [(ESlice (EVar "g_abab") [SV "o"; SV "o"; SV "v"; SV "v"]); (EVar "l2_abab"); (EVar "t2_abab"); (EVar "t2_abab"); (EVar "t2_abab")]));
   (*L4006*) SAug true "double_res" (EScale (-1 # 2) (EEins "nmef,klcd,edil,fbkj,canm->abij" [(ESlice (EVar "g_aaaa") [SV "o"; SV "o"; SV "v"; SV "v"]); (EVar "l2_abab"); (EVar "t2_abab"); (EVar "t2_abab"); (EVar "t2_aaaa")]));
   (*L4009*) SAug true "double_res" (EScale (-1 # 2) (EEins "nmef,lkdc,edil,fbjk,acnm->abij" [(ESlice (EVar "g_abab") [SV "o"; SV "o"; SV "v"; SV "v"]); (EVar "l2_abab"); (EVar "t2_aaaa"); (EVar "t2_bbbb"); (EVar "t2_abab")]));
   (*L4012*) SAug true "double_res" (EScale (-1 # 2) (EEins "mnef,lkdc,edil,fbjk,acmn->abij" [(ESlice (EVar "g_abab") [SV "o"; SV "o"; SV "v"; SV "v"]); (EVar "l2_abab"); (EVar "t2_aaaa"); (EVar "t2_bbbb"); (EVar "t2_abab")]));
   (*L4015*) SAug true "double_res" (EScale (1 # 2) (EEins "nmef,kldc,edil,fbjk,acnm->abij" [(ESlice (EVar "g_abab") [SV "o"; SV "o"; SV "v"; SV "v"]); (EVar "l2_bbbb"); (EVar "t2_abab"); (EVar "t2_bbbb"); (EVar "t2_abab")]));
   (*L4018*) SAug true "double_res" (EScale (1 # 2) (EEins "mnef,kldc,edil,fbjk,acmn->abij" [(ESlice (EVar "g_abab") [SV "o"; SV "o"; SV "v"; SV "v"]); (EVar "l2_bbbb"); (EVar "t2_abab"); (EVar "t2_bbbb"); (EVar "t2_abab")]));
   (*L4021*) SAug true "double_res" (EScale (1 # 1) (EEins "mnfe,kldc,deij,falm,cbkn->abij" [(ESlice (EVar "g_abab") [SV "o"; SV "o"; SV "v"; SV "v"]); (EVar "l2_aaaa"); (EVar "t2_abab"); (EVar "t2_aaaa"); (EVar "t2_abab")]));
   (*L4024*) SAug true "double_res" (EScale (-1 # 1) (EEins "nmef,kldc,deij,aflm,cbkn->abij" [(ESlice (EVar "g_bbbb") [SV "o"; SV "o"; SV "v"; SV "v"]); (EVar "l2_aaaa"); (EVar "t2_abab"); (EVar "t2_abab"); (EVar "t2_abab")]));
   (*L4027*) SAug true "double_res" (EScale (-1 # 1) (EEins "mnef,klcd,edij,afml,cbkn->abij" [(ESlice (EVar "g_abab") [SV "o"; SV "o"; SV "v"; SV "v"]); (EVar "l2_abab"); (EVar "t2_abab"); (EVar "t2_abab"); (EVar "t2_abab")]));
   (*L4030*) SAug true "double_res" (EScale (-1 # 1) (EEins "mnfe,lkdc,deij,falm,cbkn->abij" [(ESlice (EVar "g_abab") [SV "o"; SV "o"; SV "v"; SV "v"]); (EVar "l2_abab"); (EVar "t2_abab"); (EVar "t2_aaaa"); (EVar "t2_bbbb")]));
   (*L4033*) SAug true "double_res" (EScale (1 # 1) (EEins "nmef,lkdc,deij,aflm,cbkn->abij" [(ESlice (EVar "g_bbbb") [SV "o"; SV "o"; SV "v"; SV "v"]); (EVar "l2_abab"); (EVar "t2_abab"); (EVar "t2_abab"); (EVar "t2_bbbb")]));
   (*L4036*) SAug true "double_res" (EScale (1 # 1) (EEins "nmef,lkcd,edij,falm,cbnk->abij" [(ESlice (EVar "g_aaaa") [SV "o"; SV "o"; SV "v"; SV "v"]); (EVar "l2_abab"); (EVar "t2_abab"); (EVar "t2_aaaa"); (EVar "t2_abab")]));
   (*L4039*) SAug true "double_res" (EScale (-1 # 1) (EEins "nmef,lkcd,edij,aflm,cbnk->abij" [(ESlice (EVar "g_abab") [SV "o"; SV "o"; SV "v"; SV "v"]); (EVar "l2_abab"); (EVar "t2_abab"); (EVar "t2_abab"); (EVar "t2_abab")]));
   (*L4042*) SAug true "double_res" (EScale (1 # 1) (EEins "mnef,kldc,edij,afml,cbkn->abij" [(ESlice (EVar "g_abab") [SV "o"; SV "o"; SV "v"; SV "v"]); (EVar "l2_bbbb"); (EVar "t2_abab"); (EVar "t2_abab"); (EVar "t2_bbbb")]));
   (*L4045*) SAug true "double_res" (EScale (1 # 1) (EEins "nmfe,kldc,deij,fblm,cakn->abij" [(ESlice (EVar "g_abab") [SV "o"; SV "o"; SV "v"; SV "v"]); (EVar "l2_aaaa"); (EVar "t2_abab"); (EVar "t2_abab"); (EVar "t2_aaaa")]));
   (*L4048*) SAug true "double_res" (EScale (-1 # 1) (EEins "mnfe,kldc,deij,fbml,ackn->abij" [(ESlice (EVar "g_abab") [SV "o"; SV "o"; SV "v"; SV "v"]); (EVar "l2_abab"); (EVar "t2_abab"); (EVar "t2_abab"); (EVar "t2_abab")]));
   (*L4051*) SAug true "double_res" (EScale (1 # 1) (EEins "nmef,kldc,deij,fblm,ackn->abij" [(ESlice (EVar "g_bbbb") [SV "o"; SV "o"; SV "v"; SV "v"]); (EVar "l2_abab"); (EVar "t2_abab"); (EVar "t2_bbbb"); (EVar "t2_abab")]));
   (*L4054*) SAug true "double_res" (EScale (1 # 1) (EEins "nmef,klcd,edij,fbml,cakn->abij" [(ESlice (EVar "g_aaaa") [SV "o"; SV "o"; SV "v"; SV "v"]); (EVar "l2_abab"); (EVar "t2_abab"); (EVar "t2_abab"); (EVar "t2_aaaa")]));
   (*L4057*) SAug true "double_res" (EScale (-1 # 1) (EEins "nmef,klcd,edij,fblm,cakn->abij" [(ESlice (EVar "g_abab") [SV "o"; SV "o"; SV "v"; SV "v"]); (EVar "l2_abab"); (EVar "t2_abab"); (EVar "t2_bbbb"); (EVar "t2_aaaa")]));
   (*L4060*) SAug true "double_res" (EScale (-1 # 1) (EEins "nmfe,lkdc,deij,fblm,acnk->abij" [(ESlice (EVar "g_abab") [SV "o"; SV "o"; SV "v"; SV "v"]); (EVar "l2_abab"); (EVar "t2_abab"); (EVar "t2_abab"); (EVar "t2_abab")]));
   (*L4063*) SAug true "double_res" (EScale (-1 # 1) (EEins "nmef,kldc,edij,fbml,acnk->abij" [(ESlice (EVar "g_aaaa") [SV "o"; SV "o"; SV "v"; SV "v"]); (EVar "l2_bbbb"); (EVar "t2_abab"); (EVar "t2_abab"); (EVar "t2_abab")]));
   (*L4066*) SAug true "double_res" (EScale (1 # 1) (EEins "nmef,kldc,edij,fblm,acnk->abij" [(ESlice (EVar "g_abab") [SV "o"; SV "o"; SV "v"; SV "v"]); (EVar "l2_bbbb"); (EVar "t2_abab"); (EVar "t2_bbbb"); (EVar "t2_abab")]));
   (*L4069*) SAug true "double_res" (EScale (1 # 4) (EEins "nmfe,kldc,deij,fakl,cbnm->abij" [(ESlice (EVar "g_abab") [SV "o"; SV "o"; SV "v"; SV "v"]); (EVar "l2_aaaa"); (EVar "t2_abab"); (EVar "t2_aaaa"); (EVar "t2_abab")]));
   (*L4072*) SAug true "double_res" (EScale (1 # 4) (EEins "mnfe,kldc,deij,fakl,cbmn->abij" [(ESlice (EVar "g_abab") [SV "o"; SV "o"; SV "v"; SV "v"]); (EVar "l2_aaaa"); (EVar "t2_abab"); (EVar "t2_aaaa"); (EVar "t2_abab")]));
   (*L4075*) SAug true "double_res" (EScale (1 # 4) (EEins "nmef,kldc,deij,afkl,cbnm->abij" [(ESlice (EVar "g_bbbb") [SV "o"; SV "o"; SV "v"; SV "v"]); (EVar "l2_abab"); (EVar "t2_abab"); (EVar "t2_abab"); (EVar "t2_bbbb")]));
   (*L4078*) SAug true "double_res" (EScale (1 # 4) (EEins "nmef,klcd,edij,afkl,cbnm->abij" [(ESlice (EVar "g_abab") [SV "o"; SV "o"; SV "v"; SV "v"]); (EVar "l2_abab"); (EVar "t2_abab"); (EVar "t2_abab"); (EVar "t2_abab")]));
   (*L4081*) SAug true "double_res" (EScale (1 # 4) (EEins "mnef,klcd,edij,afkl,cbmn->abij" [(ESlice (EVar "g_abab") [SV "o"; SV "o"; SV "v"; SV "v"]); (EVar "l2_abab"); (EVar "t2_abab"); (EVar "t2_abab"); (EVar "t2_abab")]));
   (*L4084*) SAug true "double_res" (EScale (1 # 4) (EEins "nmef,lkdc,deij,aflk,cbnm->abij" [(ESlice (EVar "g_bbbb") [SV "o"; SV "o"; SV "v"; SV "v"]); (EVar "l2_abab"); (EVar "t2_abab"); (EVar "t2_abab"); (EVar "t2_bbbb")]));
   (*L4087*) SAug true "double_res" (EScale (1 # 4) (EEins "nmef,lkcd,edij,aflk,cbnm->abij" [(ESlice (EVar "g_abab") [SV "o"; SV "o"; SV "v"; SV "v"]); (EVar "l2_abab"); (EVar "t2_abab"); (EVar "t2_abab"); (EVar "t2_abab")]));
   (*L4090*) SAug true "double_res" (EScale (1 # 4) (EEins "mnef,lkcd,edij,aflk,cbmn->abij" [(ESlice (EVar "g_abab") [SV "o"; SV "o"; SV "v"; SV "v"]); (EVar "l2_abab"); (EVar "t2_abab"); (EVar "t2_abab"); (EVar "t2_abab")]));
   (*L4093*) SAug true "double_res" (EScale (1 # 4) (EEins "nmfe,kldc,deij,fbkl,acnm->abij" [(ESlice (EVar "g_abab") [SV "o"; SV "o"; SV "v"; SV "v"]); (EVar "l2_abab"); (EVar "t2_abab"); (EVar "t2_abab"); (EVar "t2_abab")]));
   (*L4096*) SAug true "double_res" (EScale (1 # 4) (EEins "mnfe,kldc,deij,fbkl,acmn->abij" [(ESlice (EVar "g_abab") [SV "o"; SV "o"; SV "v"; SV "v"]); (EVar "l2_abab"); (EVar "t2_abab"); (EVar "t2_abab"); (EVar "t2_abab")]));
   (*L4099*) SAug true "double_res" (EScale (1 # 4) (EEins "nmef,klcd,edij,fbkl,canm->abij" [(ESlice (EVar "g_aaaa") [SV "o"; SV "o"; SV "v"; SV "v"]); (EVar "l2_abab"); (EVar "t2_abab"); (EVar "t2_abab"); (EVar "t2_aaaa")]));
   (*L4102*) SAug true "double_res" (EScale (1 # 4) (EEins "nmfe,lkdc,deij,fblk,acnm->abij" [(ESlice (EVar "g_abab") [SV "o"; SV "o"; SV "v"; SV "v"]); (EVar "l2_abab"); (EVar "t2_abab"); (EVar "t2_abab"); (EVar "t2_abab")]));
   (*L4105*) SAug true "double_res" (EScale (1 # 4) (EEins "mnfe,lkdc,deij,fblk,acmn->abij" [(ESlice (EVar "g_abab") [SV "o"; SV "o"; SV "v"; SV "v"]); (EVar "l2_abab"); (EVar "t2_abab"); (EVar "t2_abab"); (EVar "t2_abab")]));
   (*L4108*) SAug true "double_res" (EScale (1 # 4) (EEins "nmef,lkcd,edij,fblk,canm->abij" [(ESlice (EVar "g_aaaa") [SV "o"; SV "o"; SV "v"; SV "v"]); (EVar "l2_abab"); (EVar "t2_abab"); (EVar "t2_abab"); (EVar "t2_aaaa")]));
   (*L4111*) SAug true "double_res" (EScale (1 # 4) (EEins "nmef,kldc,edij,fbkl,acnm->abij" [(ESlice (EVar "g_abab") [SV "o"; SV "o"; SV "v"; SV "v"]); (EVar "l2_bbbb"); (EVar "t2_abab"); (EVar "t2_bbbb"); (EVar "t2_abab")]));
   (*L4114*) SAug true "double_res" (EScale (1 # 4) (EEins "mnef,kldc,edij,fbkl,acmn->abij" [(ESlice (EVar "g_abab") [SV "o"; SV "o"; SV "v"; SV "v"]); (EVar "l2_bbbb"); (EVar "t2_abab"); (EVar "t2_bbbb"); (EVar "t2_abab")]));
   (*L4117*) SAug true "double_res" (EScale (-1 # 2) (EEins "nmef,kldc,ealm,fbkj,dcin->abij" [(ESlice (EVar "g_aaaa") [SV "o"; SV "o"; SV "v"; SV "v"]); (EVar "l2_aaaa"); (EVar "t2_aaaa"); (EVar "t2_abab"); (EVar "t2_aaaa")]));
   (*L4120*) SAug true "double_res" (EScale (-1 # 2) (EEins "nmfe,kldc,aelm,fbkj,dcin->abij" [(ESlice (EVar "g_abab") [SV "o"; SV "o"; SV "v"; SV "v"]); (EVar "l2_aaaa"); (EVar "t2_abab"); (EVar "t2_abab"); (EVar "t2_aaaa")]));
   (*L4123*) SAug true "double_res" (EScale (-1 # 2) (EEins "mnfe,kldc,aeml,fbkj,dcin->abij" [(ESlice (EVar "g_abab") [SV "o"; SV "o"; SV "v"; SV "v"]); (EVar "l2_abab"); (EVar "t2_abab"); (EVar "t2_abab"); (EVar "t2_abab")]));
   (*L4126*) SAug true "double_res" (EScale (-1 # 2) (EEins "mnfe,klcd,aeml,fbkj,cdin->abij" [(ESlice (EVar "g_abab") [SV "o"; SV "o"; SV "v"; SV "v"]); (EVar "l2_abab"); (EVar "t2_abab"); (EVar "t2_abab"); (EVar "t2_abab")]));
   (*L4129*) SAug true "double_res" (EScale (1 # 2) (EEins "mnef,lkdc,ealm,fbjk,dcin->abij" [(ESlice (EVar "g_abab") [SV "o"; SV "o"; SV "v"; SV "v"]); (EVar "l2_abab"); (EVar "t2_aaaa"); (EVar "t2_bbbb"); (EVar "t2_abab")]));
   (*L4132*) SAug true "double_res" (EScale (1 # 2) (EEins "nmef,lkdc,aelm,fbjk,dcin->abij" [(ESlice (EVar "g_bbbb") [SV "o"; SV "o"; SV "v"; SV "v"]); (EVar "l2_abab"); (EVar "t2_abab"); (EVar "t2_bbbb"); (EVar "t2_abab")]));
   (*L4135*) SAug true "double_res" (EScale (1 # 2) (EEins "mnef,lkcd,ealm,fbjk,cdin->abij" [(ESlice (EVar "g_abab") [SV "o"; SV "o"; SV "v"; SV "v"]); (EVar "l2_abab"); (EVar "t2_aaaa"); (EVar "t2_bbbb"); (EVar "t2_abab")]));
   (*L4138*) SAug true "double_res" (EScale (1 # 2) (EEins "nmef,lkcd,aelm,fbjk,cdin->abij" [(ESlice (EVar "g_bbbb") [SV "o"; SV "o"; SV "v"; SV "v"]); (EVar "l2_abab"); (EVar "t2_abab"); (EVar "t2_bbbb"); (EVar "t2_abab")]));
   (*L4141*) SAug true "double_res" (EScale (-1 # 2) (EEins "nmef,lkdc,ealm,fbik,dcnj->abij" [(ESlice (EVar "g_aaaa") [SV "o"; SV "o"; SV "v"; SV "v"]); (EVar "l2_abab"); (EVar "t2_aaaa"); (EVar "t2_abab"); (EVar "t2_abab")]));
   (*L4144*) SAug true "double_res" (EScale (-1 # 2) (EEins "nmfe,lkdc,aelm,fbik,dcnj->abij" [(ESlice (EVar "g_abab") [SV "o"; SV "o"; SV "v"; SV "v"]); (EVar "l2_abab"); (EVar "t2_abab"); (EVar "t2_abab"); (EVar "t2_abab")]));
   (*L4147*) SAug true "double_res" (EScale (-1 # 2) (EEins "nmef,lkcd,ealm,fbik,cdnj->abij" [(ESlice (EVar "g_aaaa") [SV "o"; SV "o"; SV "v"; SV "v"]); (EVar "l2_abab"); (EVar "t2_aaaa"); (EVar "t2_abab"); (EVar "t2_abab")]));
   (*L4150*) SAug true "double_res" (EScale (-1 # 2) (EEins "nmfe,lkcd,aelm,fbik,cdnj->abij" [(ESlice (EVar "g_abab") [SV "o"; SV "o"; SV "v"; SV "v"]); (EVar "l2_abab"); (EVar "t2_abab"); (EVar "t2_abab"); (EVar "t2_abab")]));
   (*L4153*) SAug true "double_res" (EScale (-1 # 2) (EEins "mnfe,kldc,aeml,fbik,dcjn->abij" [(ESlice (EVar "g_abab") [SV "o"; SV "o"; SV "v"; SV "v"]); (EVar "l2_bbbb"); (EVar "t2_abab"); (EVar "t2_abab"); (EVar "t2_bbbb")]));
   (*L4156*) SAug true "double_res" (EScale (3 # 8) (EEins "nmef,kldc,ealm,fbij,dckn->abij" [(ESlice (EVar "g_aaaa") [SV "o"; SV "o"; SV "v"; SV "v"]); (EVar "l2_aaaa"); (EVar "t2_aaaa"); (EVar "t2_abab"); (EVar "t2_aaaa")]));
   (*L4159*) SAug true "double_res" (EScale (3 # 8) (EEins "nmfe,kldc,aelm,fbij,dckn->abij" [(ESlice (EVar "g_abab") [SV "o"; SV "o"; SV "v"; SV "v"]); (EVar "l2_aaaa"); (EVar "t2_abab"); (EVar "t2_abab"); (EVar "t2_aaaa")]));
   (*L4162*) SAug true "double_res" (EScale (3 # 8) (EEins "mnfe,kldc,aeml,fbij,dckn->abij" [(ESlice (EVar "g_abab") [SV "o"; SV "o"; SV "v"; SV "v"]); (EVar "l2_abab"); (EVar "t2_abab"); (EVar "t2_abab"); (EVar "t2_abab")]));
   (*L4165*) SAug true "double_res" (EScale (3 # 8) (EEins "mnfe,klcd,aeml,fbij,cdkn->abij" [(ESlice (EVar "g_abab") [SV "o"; SV "o"; SV "v"; SV "v"]); (EVar "l2_abab"); (EVar "t2_abab"); (EVar "t2_abab"); (EVar "t2_abab")]));
   (*L4168*) SAug true "double_res" (EScale (3 # 8) (EEins "nmef,lkdc,ealm,fbij,dcnk->abij" [(ESlice (EVar "g_aaaa") [SV "o"; SV "o"; SV "v"; SV "v"]); (EVar "l2_abab"); (EVar "t2_aaaa"); (EVar "t2_abab"); (EVar "t2_abab")]));
   (*L4171*) SAug true "double_res" (EScale (3 # 8) (EEins "nmfe,lkdc,aelm,fbij,dcnk->abij" [(ESlice (EVar "g_abab") [SV "o"; SV "o"; SV "v"; SV "v"]); (EVar "l2_abab"); (EVar "t2_abab"); (EVar "t2_abab"); (EVar "t2_abab")]));
   (*L4174*) SAug true "double_res" (EScale (3 # 8) (EEins "nmef,lkcd,ealm,fbij,cdnk->abij" [(ESlice (EVar "g_aaaa") [SV "o"; SV "o"; SV "v"; SV "v"]); (EVar "l2_abab"); (EVar "t2_aaaa"); (EVar "t2_abab"); (EVar "t2_abab")]));
   (*L4177*) SAug true "double_res" (EScale (3 # 8) (EEins "nmfe,lkcd,aelm,fbij,cdnk->abij" [(ESlice (EVar "g_abab") [SV "o"; SV "o"; SV "v"; SV "v"]); (EVar "l2_abab"); (EVar "t2_abab"); (EVar "t2_abab"); (EVar "t2_abab")]));
   (*L4180*) SAug true "double_res" (EScale (3 # 8) (EEins "mnfe,kldc,aeml,fbij,dckn->abij" [(ESlice (EVar "g_abab") [SV "o"; SV "o"; SV "v"; SV "v"]); (EVar "l2_bbbb"); (EVar "t2_abab"); (EVar "t2_abab"); (EVar "t2_bbbb")]));
   (*L4183*) SAug true "double_res" (EScale (1 # 4) (EEins "mnfe,kldc,aemj,fbkl,dcin->abij" [(ESlice (EVar "g_abab") [SV "o"; SV "o"; SV "v"; SV "v"]); (EVar "l2_abab"); (EVar "t2_abab"); (EVar "t2_abab"); (EVar "t2_abab")]));
   (*L4186*) SAug true "double_res" (EScale (1 # 4) (EEins "mnfe,klcd,aemj,fbkl,cdin->abij" [(ESlice (EVar "g_abab") [SV "o"; SV "o"; SV "v"; SV "v"]); (EVar "l2_abab"); (EVar "t2_abab"); (EVar "t2_abab"); (EVar "t2_abab")]));
   (*L4189*) SAug true "double_res" (EScale (1 # 4) (EEins "mnfe,lkdc,aemj,fblk,dcin->abij" [(ESlice (EVar "g_abab") [SV "o"; SV "o"; SV "v"; SV "v"]); (EVar "l2_abab"); (EVar "t2_abab"); (EVar "t2_abab"); (EVar "t2_abab")]));
   (*L4192*) SAug true "double_res" (EScale (1 # 4) (EEins "mnfe,lkcd,aemj,fblk,cdin->abij" [(ESlice (EVar "g_abab") [SV "o"; SV "o"; SV "v"; SV "v"]); (EVar "l2_abab"); (EVar "t2_abab"); (EVar "t2_abab"); (EVar "t2_abab")]));
   (*L4195*) SAug true "double_res" (EScale (1 # 4) (EEins "nmef,kldc,eaim,fbkl,dcnj->abij" [(ESlice (EVar "g_aaaa") [SV "o"; SV "o"; SV "v"; SV "v"]); (EVar "l2_abab"); (EVar "t2_aaaa"); (EVar "t2_abab"); (EVar "t2_abab")]));
   (*L4198*) SAug true "double_res" (EScale (1 # 4) (EEins "nmfe,kldc,aeim,fbkl,dcnj->abij" [(ESlice (EVar "g_abab") [SV "o"; SV "o"; SV "v"; SV "v"]); (EVar "l2_abab"); (EVar "t2_abab"); (EVar "t2_abab"); (EVar "t2_abab")]));
   (*L4201*) SAug true "double_res" (EScale (1 # 4) (EEins "nmef,klcd,eaim,fbkl,cdnj->abij" [(ESlice (EVar "g_aaaa") [SV "o"; SV "o"; SV "v"; SV "v"]); (EVar "l2_abab"); (EVar "t2_aaaa"); (EVar "t2_abab"); (EVar "t2_abab")]));
   (*L4204*) SAug true "double_res" (EScale (1 # 4) (EEins "nmfe,klcd,aeim,fbkl,cdnj->abij" [(ESlice (EVar "g_abab") [SV "o"; SV "o"; SV "v"; SV "v"]); (EVar "l2_abab"); (EVar "t2_abab"); (EVar "t2_abab"); (EVar "t2_abab")]));
   (*L4207*) SAug true "double_res" (EScale (1 # 4) (EEins "nmef,lkdc,eaim,fblk,dcnj->abij" [(ESlice (EVar "g_aaaa") [SV "o"; SV "o"; SV "v"; SV "v"]); (EVar "l2_abab"); (EVar "t2_aaaa"); (EVar "t2_abab"); (EVar "t2_abab")]));
   (*L4210*) SAug true "double_res" (EScale (1 # 4) (EEins "nmfe,lkdc,aeim,fblk,dcnj->abij" [(ESlice (EVar "g_abab") [SV "o"; SV "o"; SV "v"; SV "v"]); (EVar "l2_abab"); (EVar "t2_abab"); (EVar "t2_abab"); (EVar "t2_abab")]));
   (*L4213*) SAug true "double_res" (EScale (1 # 4) (EEins "nmef,lkcd,eaim,fblk,cdnj->abij" [(ESlice (EVar "g_aaaa") [SV "o"; SV "o"; SV "v"; SV "v"]); (EVar "l2_abab"); (EVar "t2_aaaa"); (EVar "t2_abab"); (EVar "t2_abab")]));
   (*L4216*) SAug true "double_res" (EScale (1 # 4) (EEins "nmfe,lkcd,aeim,fblk,cdnj->abij" [(ESlice (EVar "g_abab") [SV "o"; SV "o"; SV "v"; SV "v"]); (EVar "l2_abab"); (EVar "t2_abab"); (EVar "t2_abab"); (EVar "t2_abab")]));
   (*L4219*) SAug true "double_res" (EScale (1 # 4) (EEins "mnef,kldc,eaim,fbkl,dcjn->abij" [(ESlice (EVar "g_abab") [SV "o"; SV "o"; SV "v"; SV "v"]); (EVar "l2_bbbb"); (EVar "t2_aaaa"); (EVar "t2_bbbb"); (EVar "t2_bbbb")]));
   (*L4222*) SAug true "double_res" (EScale (1 # 4) (EEins "nmef,kldc,aeim,fbkl,dcjn->abij" [(ESlice (EVar "g_bbbb") [SV "o"; SV "o"; SV "v"; SV "v"]); (EVar "l2_bbbb"); (EVar "t2_abab"); (EVar "t2_bbbb"); (EVar "t2_bbbb")]));
   (*L4225*) SAug true "double_res" (EScale (-3 # 8) (EEins "mnfe,kldc,aemj,fbil,dckn->abij" [(ESlice (EVar "g_abab") [SV "o"; SV "o"; SV "v"; SV "v"]); (EVar "l2_abab"); (EVar "t2_abab"); (EVar "t2_abab"); (EVar "t2_abab")]));
   (*L4228*) SAug true "double_res" (EScale (-3 # 8) (EEins "mnfe,klcd,aemj,fbil,cdkn->abij" [(ESlice (EVar "g_abab") [SV "o"; SV "o"; SV "v"; SV "v"]); (EVar "l2_abab"); (EVar "t2_abab"); (EVar "t2_abab"); (EVar "t2_abab")]));
   (*L4231*) SAug true "double_res" (EScale (-3 # 8) (EEins "mnfe,kldc,aemj,fbil,dckn->abij" [(ESlice (EVar "g_abab") [SV "o"; SV "o"; SV "v"; SV "v"]); (EVar "l2_bbbb"); (EVar "t2_abab"); (EVar "t2_abab"); (EVar "t2_bbbb")]));
   (*L4234*) SAug true "double_res" (EScale (-3 # 8) (EEins "nmef,kldc,eaim,fblj,dckn->abij" [(ESlice (EVar "g_aaaa") [SV "o"; SV "o"; SV "v"; SV "v"]); (EVar "l2_aaaa"); (EVar "t2_aaaa"); (EVar "t2_abab"); (EVar "t2_aaaa")]));
   (*L4237*) SAug true "double_res" (EScale (-3 # 8) (EEins "nmfe,kldc,aeim,fblj,dckn->abij" [(ESlice (EVar "g_abab") [SV "o"; SV "o"; SV "v"; SV "v"]); (EVar "l2_aaaa"); (EVar "t2_abab"); (EVar "t2_abab"); (EVar "t2_aaaa")]));
   (*L4240*) SAug true "double_res" (EScale (-3 # 8) (EEins "mnef,kldc,eaim,fbjl,dckn->abij" [(ESlice (EVar "g_abab") [SV "o"; SV "o"; SV "v"; SV "v"]); (EVar "l2_abab"); (EVar "t2_aaaa"); (EVar "t2_bbbb"); (EVar "t2_abab")]));
   (*L4243*) SAug true "double_res" (EScale (-3 # 8) (EEins "nmef,kldc,aeim,fbjl,dckn->abij" [(ESlice (EVar "g_bbbb") [SV "o"; SV "o"; SV "v"; SV "v"]); (EVar "l2_abab"); (EVar "t2_abab"); (EVar "t2_bbbb"); (EVar "t2_abab")]));
   (*L4246*) SAug true "double_res" (EScale (-3 # 8) (EEins "mnef,klcd,eaim,fbjl,cdkn->abij" [(ESlice (EVar "g_abab") [SV "o"; SV "o"; SV "v"; SV "v"]); (EVar "l2_abab"); (EVar "t2_aaaa"); (EVar "t2_bbbb"); (EVar "t2_abab")]));
   (*L4249*) SAug true "double_res" (EScale (-3 # 8) (EEins "nmef,klcd,aeim,fbjl,cdkn->abij" [(ESlice (EVar "g_bbbb") [SV "o"; SV "o"; SV "v"; SV "v"]); (EVar "l2_abab"); (EVar "t2_abab"); (EVar "t2_bbbb"); (EVar "t2_abab")]));
   (*L4252*) SAug true "double_res" (EScale (-3 # 8) (EEins "nmef,lkdc,eaim,fblj,dcnk->abij" [(ESlice (EVar "g_aaaa") [SV "o"; SV "o"; SV "v"; SV "v"]); (EVar "l2_abab"); (EVar "t2_aaaa"); (EVar "t2_abab"); (EVar "t2_abab")]));
   (*L4255*) SAug true "double_res" (EScale (-3 # 8) (EEins "nmfe,lkdc,aeim,fblj,dcnk->abij" [(ESlice (EVar "g_abab") [SV "o"; SV "o"; SV "v"; SV "v"]); (EVar "l2_abab"); (EVar "t2_abab"); (EVar "t2_abab"); (EVar "t2_abab")]));
   (*L4258*) SAug true "double_res" (EScale (-3 # 8) (EEins "nmef,lkcd,eaim,fblj,cdnk->abij" [(ESlice (EVar "g_aaaa") [SV "o"; SV "o"; SV "v"; SV "v"]); (EVar "l2_abab"); (EVar "t2_aaaa"); (EVar "t2_abab"); (EVar "t2_abab")]));
   (*L4261*) SAug true "double_res" (EScale (-3 # 8) (EEins "nmfe,lkcd,aeim,fblj,cdnk->abij" [(ESlice (EVar "g_abab") [SV "o"; SV "o"; SV "v"; SV "v"]); (EVar "l2_abab"); (EVar "t2_abab"); (EVar "t2_abab"); (EVar "t2_abab")]));
   (*L4264*) SAug true "double_res" (EScale (-3 # 8) (EEins "mnef,kldc,eaim,fbjl,dckn->abij" [(ESlice (EVar "g_abab") [SV "o"; SV "o"; SV "v"; SV "v"]); (EVar "l2_bbbb"); (EVar "t2_aaaa"); (EVar "t2_bbbb"); (EVar "t2_bbbb")]));
   (*L4267*) SAug true "double_res" (EScale (-3 # 8) (EEins "nmef,kldc,aeim,fbjl,dckn->abij" [(ESlice (EVar "g_bbbb") [SV "o"; SV "o"; SV "v"; SV "v"]); (EVar "l2_bbbb"); (EVar "t2_abab"); (EVar "t2_bbbb"); (EVar "t2_bbbb")]));
   (*L4270*) SAug true "double_res" (EScale (-1 # 4) (EEins "nmef,kldc,eakl,fbmj,dcin->abij" [(ESlice (EVar "g_aaaa") [SV "o"; SV "o"; SV "v"; SV "v"]); (EVar "l2_aaaa"); (EVar "t2_aaaa"); (EVar "t2_abab"); (EVar "t2_aaaa")]));
   (*L4273*) SAug true "double_res" (EScale (1 # 4) (EEins "nmef,kldc,eakl,fbjm,dcin->abij" [(ESlice (EVar "g_abab") [SV "o"; SV "o"; SV "v"; SV "v"]); (EVar "l2_aaaa"); (EVar "t2_aaaa"); (EVar "t2_bbbb"); (EVar "t2_aaaa")]));
   (*L4276*) SAug true "double_res" (EScale (1 # 4) (EEins "mnfe,kldc,aekl,fbmj,dcin->abij" [(ESlice (EVar "g_abab") [SV "o"; SV "o"; SV "v"; SV "v"]); (EVar "l2_abab"); (EVar "t2_abab"); (EVar "t2_abab"); (EVar "t2_abab")]));
   (*L4279*) SAug true "double_res" (EScale (-1 # 4) (EEins "nmef,kldc,aekl,fbjm,dcin->abij" [(ESlice (EVar "g_bbbb") [SV "o"; SV "o"; SV "v"; SV "v"]); (EVar "l2_abab"); (EVar "t2_abab"); (EVar "t2_bbbb"); (EVar "t2_abab")]));
   (*L4282*) SAug true "double_res" (EScale (1 # 4) (EEins "mnfe,klcd,aekl,fbmj,cdin->abij" [(ESlice (EVar "g_abab") [SV "o"; SV "o"; SV "v"; SV "v"]); (EVar "l2_abab"); (EVar "t2_abab"); (EVar "t2_abab"); (EVar "t2_abab")]));
   (*L4285*) SAug true "double_res" (EScale (-1 # 4) (EEins "nmef,klcd,aekl,fbjm,cdin->abij" [(ESlice (EVar "g_bbbb") [SV "o"; SV "o"; SV "v"; SV "v"]); (EVar "l2_abab"); (EVar "t2_abab"); (EVar "t2_bbbb"); (EVar "t2_abab")]));
   (*L4288*) SAug true "double_res" (EScale (1 # 4) (EEins "mnfe,lkdc,aelk,fbmj,dcin->abij" [(ESlice (EVar "g_abab") [SV "o"; SV "o"; SV "v"; SV "v"]); (EVar "l2_abab"); (EVar "t2_abab"); (EVar "t2_abab"); (EVar "t2_abab")]));
   (*L4291*) SAug true "double_res" (EScale (-1 # 4) (EEins "nmef,lkdc,aelk,fbjm,dcin->abij" [(ESlice (EVar "g_bbbb") [SV "o"; SV "o"; SV "v"; SV "v"]); (EVar "l2_abab"); (EVar "t2_abab"); (EVar "t2_bbbb"); (EVar "t2_abab")]));
   (*L4294*) SAug true "double_res" (EScale (1 # 4) (EEins "mnfe,lkcd,aelk,fbmj,cdin->abij" [(ESlice (EVar "g_abab") [SV "o"; SV "o"; SV "v"; SV "v"]); (EVar "l2_abab"); (EVar "t2_abab"); (EVar "t2_abab"); (EVar "t2_abab")]));
   (*L4297*) SAug true "double_res" (EScale (-1 # 4) (EEins "nmef,lkcd,aelk,fbjm,cdin->abij" [(ESlice (EVar "g_bbbb") [SV "o"; SV "o"; SV "v"; SV "v"]); (EVar "l2_abab"); (EVar "t2_abab"); (EVar "t2_bbbb"); (EVar "t2_abab")]));
   (*L4300*) SAug true "double_res" (EScale (1 # 4) (EEins "nmfe,kldc,aekl,fbim,dcnj->abij" [(ESlice (EVar "g_abab") [SV "o"; SV "o"; SV "v"; SV "v"]); (EVar "l2_abab"); (EVar "t2_abab"); (EVar "t2_abab"); (EVar "t2_abab")]));
   (*L4303*) SAug true "double_res" (EScale (1 # 4) (EEins "nmfe,klcd,aekl,fbim,cdnj->abij" [(ESlice (EVar "g_abab") [SV "o"; SV "o"; SV "v"; SV "v"]); (EVar "l2_abab"); (EVar "t2_abab"); (EVar "t2_abab"); (EVar "t2_abab")]));
   (*L4306*) SAug true "double_res" (EScale (1 # 4) (EEins "nmfe,lkdc,aelk,fbim,dcnj->abij" [(ESlice (EVar "g_abab") [SV "o"; SV "o"; SV "v"; SV "v"]); (EVar "l2_abab"); (EVar "t2_abab"); (EVar "t2_abab"); (EVar "t2_abab")]));
   (*L4309*) SAug true "double_res" (EScale (1 # 4) (EEins "nmfe,lkcd,aelk,fbim,cdnj->abij" [(ESlice (EVar "g_abab") [SV "o"; SV "o"; SV "v"; SV "v"]); (EVar "l2_abab"); (EVar "t2_abab"); (EVar "t2_abab"); (EVar "t2_abab")]));
   (*L4312*) SAug true "double_res" (EScale (-1 # 8) (EEins "nmef,kldc,eakl,fbij,dcnm->abij" [(ESlice (EVar "g_aaaa") [SV "o"; SV "o"; SV "v"; SV "v"]); (EVar "l2_aaaa"); (EVar "t2_aaaa"); (EVar "t2_abab"); (EVar "t2_aaaa")]));
   (*L4315*) SAug true "double_res" (EScale (-1 # 8) (EEins "nmfe,kldc,aekl,fbij,dcnm->abij" [(ESlice (EVar "g_abab") [SV "o"; SV "o"; SV "v"; SV "v"]); (EVar "l2_abab"); (EVar "t2_abab"); (EVar "t2_abab"); (EVar "t2_abab")]));
   (*L4318*) SAug true "double_res" (EScale (-1 # 8) (EEins "mnfe,kldc,aekl,fbij,dcmn->abij" [(ESlice (EVar "g_abab") [SV "o"; SV "o"; SV "v"; SV "v"]); (EVar "l2_abab"); (EVar "t2_abab"); (EVar "t2_abab"); (EVar "t2_abab")]));
   (*L4321*) SAug true "double_res" (EScale (-1 # 8) (EEins "nmfe,klcd,aekl,fbij,cdnm->abij" [(ESlice (EVar "g_abab") [SV "o"; SV "o"; SV "v"; SV "v"]); (EVar "l2_abab"); (EVar "t2_abab"); (EVar "t2_abab"); (EVar "t2_abab")]));
   (*L4324*) SAug true "double_res" (EScale (-1 # 8) (EEins "mnfe,klcd,aekl,fbij,cdmn->abij" [(ESlice (EVar "g_abab") [SV "o"; SV "o"; SV "v"; SV "v"]); (EVar "l2_abab"); (EVar "t2_abab"); (EVar "t2_abab"); (EVar "t2_abab")]));
   (*L4327*) SAug true "double_res" (EScale (-1 # 8) (EEins "nmfe,lkdc,aelk,fbij,dcnm->abij" [(ESlice (EVar "g_abab") [SV "o"; SV "o"; SV "v"; SV "v"]); (EVar "l2_abab"); (EVar "t2_abab"); (EVar "t2_abab"); (EVar "t2_abab")]));
   (*L4330*) SAug true "double_res" (EScale (-1 # 8) (EEins "mnfe,lkdc,aelk,fbij,dcmn->abij" [(ESlice (EVar "g_abab") [SV "o"; SV "o"; SV "v"; SV "v"]); (EVar "l2_abab"); (EVar "t2_abab"); (EVar "t2_abab"); (EVar "t2_abab")]));
   (*L4333*) SAug true "double_res" (EScale (-1 # 8) (EEins "nmfe,lkcd,aelk,fbij,cdnm->abij" [(ESlice (EVar "g_abab") [SV "o"; SV "o"; SV "v"; SV "v"]); (EVar "l2_abab"); (EVar "t2_abab"); (EVar "t2_abab"); (EVar "t2_abab")]));
   (*L4336*) SAug true "double_res" (EScale (-1 # 8) (EEins "mnfe,lkcd,aelk,fbij,cdmn->abij" [(ESlice (EVar "g_abab") [SV "o"; SV "o"; SV "v"; SV "v"]); (EVar "l2_abab"); (EVar "t2_abab"); (EVar "t2_abab"); (EVar "t2_abab")]));
   (*L4339*) SAug true "double_res" (EScale (1 # 2) (EEins "nmfe,kldc,aelj,fbkm,dcin->abij" [(ESlice (EVar "g_abab") [SV "o"; SV "o"; SV "v"; SV "v"]); (EVar "l2_aaaa"); (EVar "t2_abab"); (EVar "t2_abab"); (EVar "t2_aaaa")]));
   (*L4342*) SAug true "double_res" (EScale (-1 # 2) (EEins "mnfe,lkdc,aelj,fbmk,dcin->abij" [(ESlice (EVar "g_abab") [SV "o"; SV "o"; SV "v"; SV "v"]); (EVar "l2_abab"); (EVar "t2_abab"); (EVar "t2_abab"); (EVar "t2_abab")]));
   (*L4345*) SAug true "double_res" (EScale (1 # 2) (EEins "nmef,lkdc,aelj,fbkm,dcin->abij" [(ESlice (EVar "g_bbbb") [SV "o"; SV "o"; SV "v"; SV "v"]); (EVar "l2_abab"); (EVar "t2_abab"); (EVar "t2_bbbb"); (EVar "t2_abab")]));
   (*L4348*) SAug true "double_res" (EScale (-1 # 2) (EEins "mnfe,lkcd,aelj,fbmk,cdin->abij" [(ESlice (EVar "g_abab") [SV "o"; SV "o"; SV "v"; SV "v"]); (EVar "l2_abab"); (EVar "t2_abab"); (EVar "t2_abab"); (EVar "t2_abab")]));
   (*L4351*) SAug true "double_res" (EScale (1 # 2) (EEins "nmef,lkcd,aelj,fbkm,cdin->abij" [(ESlice (EVar "g_bbbb") [SV "o"; SV "o"; SV "v"; SV "v"]); (EVar "l2_abab"); (EVar "t2_abab"); (EVar "t2_bbbb"); (EVar "t2_abab")]));
   (*L4354*) SAug true "double_res" (EScale (-1 # 2) (EEins "nmfe,kldc,aeil,fbkm,dcnj->abij" [(ESlice (EVar "g_abab") [SV "o"; SV "o"; SV "v"; SV "v"]); (EVar "l2_abab"); (EVar "t2_abab"); (EVar "t2_abab"); (EVar "t2_abab")]));
   (*L4357*) SAug true "double_res" (EScale (-1 # 2) (EEins "nmfe,klcd,aeil,fbkm,cdnj->abij" [(ESlice (EVar "g_abab") [SV "o"; SV "o"; SV "v"; SV "v"]); (EVar "l2_abab"); (EVar "t2_abab"); (EVar "t2_abab"); (EVar "t2_abab")]));
   (*L4360*) SAug true "double_res" (EScale (-1 # 2) (EEins "nmef,lkdc,eail,fbmk,dcnj->abij" [(ESlice (EVar "g_aaaa") [SV "o"; SV "o"; SV "v"; SV "v"]); (EVar "l2_abab"); (EVar "t2_aaaa"); (EVar "t2_abab"); (EVar "t2_abab")]));
   (*L4363*) SAug true "double_res" (EScale (1 # 2) (EEins "nmef,lkdc,eail,fbkm,dcnj->abij" [(ESlice (EVar "g_abab") [SV "o"; SV "o"; SV "v"; SV "v"]); (EVar "l2_abab"); (EVar "t2_aaaa"); (EVar "t2_bbbb"); (EVar "t2_abab")]));
   (*L4366*) SAug true "double_res" (EScale (-1 # 2) (EEins "nmef,lkcd,eail,fbmk,cdnj->abij" [(ESlice (EVar "g_aaaa") [SV "o"; SV "o"; SV "v"; SV "v"]); (EVar "l2_abab"); (EVar "t2_aaaa"); (EVar "t2_abab"); (EVar "t2_abab")]));
   (*L4369*) SAug true "double_res" (EScale (1 # 2) (EEins "nmef,lkcd,eail,fbkm,cdnj->abij" [(ESlice (EVar "g_abab") [SV "o"; SV "o"; SV "v"; SV "v"]); (EVar "l2_abab"); (EVar "t2_aaaa"); (EVar "t2_bbbb"); (EVar "t2_abab")]));
   (*L4372*) SAug true "double_res" (EScale (1 # 2) (EEins "mnfe,kldc,aeil,fbmk,dcjn->abij" [(ESlice (EVar "g_abab") [SV "o"; SV "o"; SV "v"; SV "v"]); (EVar "l2_bbbb"); (EVar "t2_abab"); (EVar "t2_abab"); (EVar "t2_bbbb")]));
   (*L4375*) SAug true "double_res" (EScale (-1 # 2) (EEins "nmef,kldc,aeil,fbkm,dcjn->abij" [(ESlice (EVar "g_bbbb") [SV "o"; SV "o"; SV "v"; SV "v"]); (EVar "l2_bbbb"); (EVar "t2_abab"); (EVar "t2_bbbb"); (EVar "t2_bbbb")]));
   (*L4378*) SAug true "double_res" (EScale (-1 # 2) (EEins "nmfe,kldc,aelj,fbim,dckn->abij" [(ESlice (EVar "g_abab") [SV "o"; SV "o"; SV "v"; SV "v"]); (EVar "l2_aaaa"); (EVar "t2_abab"); (EVar "t2_abab"); (EVar "t2_aaaa")]));
   (*L4381*) SAug true "double_res" (EScale (-1 # 2) (EEins "nmfe,lkdc,aelj,fbim,dcnk->abij" [(ESlice (EVar "g_abab") [SV "o"; SV "o"; SV "v"; SV "v"]); (EVar "l2_abab"); (EVar "t2_abab"); (EVar "t2_abab"); (EVar "t2_abab")]));
   (*L4384*) SAug true "double_res" (EScale (-1 # 2) (EEins "nmfe,lkcd,aelj,fbim,cdnk->abij" [(ESlice (EVar "g_abab") [SV "o"; SV "o"; SV "v"; SV "v"]); (EVar "l2_abab"); (EVar "t2_abab"); (EVar "t2_abab"); (EVar "t2_abab")]));
   (*L4387*) SAug true "double_res" (EScale (1 # 2) (EEins "nmef,kldc,eail,fbmj,dckn->abij" [(ESlice (EVar "g_aaaa") [SV "o"; SV "o"; SV "v"; SV "v"]); (EVar "l2_aaaa"); (EVar "t2_aaaa"); (EVar "t2_abab"); (EVar "t2_aaaa")]));
   (*L4390*) SAug true "double_res" (EScale (-1 # 2) (EEins "nmef,kldc,eail,fbjm,dckn->abij" [(ESlice (EVar "g_abab") [SV "o"; SV "o"; SV "v"; SV "v"]); (EVar "l2_aaaa"); (EVar "t2_aaaa"); (EVar "t2_bbbb"); (EVar "t2_aaaa")]));
   (*L4393*) SAug true "double_res" (EScale (-1 # 2) (EEins "mnfe,kldc,aeil,fbmj,dckn->abij" [(ESlice (EVar "g_abab") [SV "o"; SV "o"; SV "v"; SV "v"]); (EVar "l2_abab"); (EVar "t2_abab"); (EVar "t2_abab"); (EVar "t2_abab")]));
   (*L4396*) SAug true "double_res" (EScale (1 # 2) (EEins "nmef,kldc,aeil,fbjm,dckn->abij" [(ESlice (EVar "g_bbbb") [SV "o"; SV "o"; SV "v"; SV "v"]); (EVar "l2_abab"); (EVar "t2_abab"); (EVar "t2_bbbb"); (EVar "t2_abab")]));
   (*L4399*) SAug true "double_res" (EScale (-1 # 2) (EEins "mnfe,klcd,aeil,fbmj,cdkn->abij" [(ESlice (EVar "g_abab") [SV "o"; SV "o"; SV "v"; SV "v"]); (EVar "l2_abab"); (EVar "t2_abab"); (EVar "t2_abab"); (EVar "t2_abab")]));
   (*L4402*) SAug true "double_res" (EScale (1 # 2) (EEins "nmef,klcd,aeil,fbjm,cdkn->abij" [(ESlice (EVar "g_bbbb") [SV "o"; SV "o"; SV "v"; SV "v"]); (EVar "l2_abab"); (EVar "t2_abab"); (EVar "t2_bbbb"); (EVar "t2_abab")]));
   (*L4405*) SAug true "double_res" (EScale (1 # 2) (EEins "nmef,lkdc,eail,fbmj,dcnk->abij" [(ESlice (EVar "g_aaaa") [SV "o"; SV "o"; SV "v"; SV "v"]); (EVar "l2_abab"); (EVar "t2_aaaa"); (EVar "t2_abab"); (EVar "t2_abab")]));
   (*L4408*) SAug true "double_res" (EScale (-1 # 2) (EEins "nmef,lkdc,eail,fbjm,dcnk->abij" [(ESlice (EVar "g_abab") [SV "o"; SV "o"; SV "v"; SV "v"]); (EVar "l2_abab"); (EVar "t2_aaaa"); (EVar "t2_bbbb"); (EVar "t2_abab")]));
   (*L4411*) SAug true "double_res" (EScale (1 # 2) (EEins "nmef,lkcd,eail,fbmj,cdnk->abij" [(ESlice (EVar "g_aaaa") [SV "o"; SV "o"; SV "v"; SV "v"]); (EVar "l2_abab"); (EVar "t2_aaaa"); (EVar "t2_abab"); (EVar "t2_abab")]));
   (*L4414*) SAug true "double_res" (EScale (-1 # 2) (EEins "nmef,lkcd,eail,fbjm,cdnk->abij" [(ESlice (EVar "g_abab") [SV "o"; SV "o"; SV "v"; SV "v"]); (EVar "l2_abab"); (EVar "t2_aaaa"); (EVar "t2_bbbb"); (EVar "t2_abab")]));
   (*L4417*) SAug true "double_res" (EScale (-1 # 2) (EEins "mnfe,kldc,aeil,fbmj,dckn->abij" [(ESlice (EVar "g_abab") [SV "o"; SV "o"; SV "v"; SV "v"]); (EVar "l2_bbbb"); (EVar "t2_abab"); (EVar "t2_abab"); (EVar "t2_bbbb")]));
   (*L4420*) SAug true "double_res" (EScale (1 # 2) (EEins "nmef,kldc,aeil,fbjm,dckn->abij" [(ESlice (EVar "g_bbbb") [SV "o"; SV "o"; SV "v"; SV "v"]); (EVar "l2_bbbb"); (EVar "t2_abab"); (EVar "t2_bbbb"); (EVar "t2_bbbb")]));
   (*L4423*) SAug true "double_res" (EScale (1 # 4) (EEins "nmfe,lkdc,aelj,fbik,dcnm->abij" [(ESlice (EVar "g_abab") [SV "o"; SV "o"; SV "v"; SV "v"]); (EVar "l2_abab"); (EVar "t2_abab"); (EVar "t2_abab"); (EVar "t2_abab")]));
   (*L4426*) SAug true "double_res" (EScale (1 # 4) (EEins "mnfe,lkdc,aelj,fbik,dcmn->abij" [(ESlice (EVar "g_abab") [SV "o"; SV "o"; SV "v"; SV "v"]); (EVar "l2_abab"); (EVar "t2_abab"); (EVar "t2_abab"); (EVar "t2_abab")]));
   (*L4429*) SAug true "double_res" (EScale (1 # 4) (EEins "nmfe,lkcd,aelj,fbik,cdnm->abij" [(ESlice (EVar "g_abab") [SV "o"; SV "o"; SV "v"; SV "v"]); (EVar "l2_abab"); (EVar "t2_abab"); (EVar "t2_abab"); (EVar "t2_abab")]));
   (*L4432*) SAug true "double_res" (EScale (1 # 4) (EEins "mnfe,lkcd,aelj,fbik,cdmn->abij" [(ESlice (EVar "g_abab") [SV "o"; SV "o"; SV "v"; SV "v"]); (EVar "l2_abab"); (EVar "t2_abab"); (EVar "t2_abab"); (EVar "t2_abab")]));
   (*L4435*) SAug true "double_res" (EScale (1 # 4) (EEins "nmef,kldc,eail,fbkj,dcnm->abij" [(ESlice (EVar "g_aaaa") [SV "o"; SV "o"; SV "v"; SV "v"]); (EVar "l2_aaaa"); (EVar "t2_aaaa"); (EVar "t2_abab"); (EVar "t2_aaaa")]));
   (*L4438*) SAug true "double_res" (EScale (1 # 4) (EEins "nmfe,kldc,aeil,fbkj,dcnm->abij" [(ESlice (EVar "g_abab") [SV "o"; SV "o"; SV "v"; SV "v"]); (EVar "l2_abab"); (EVar "t2_abab"); (EVar "t2_abab"); (EVar "t2_abab")]));
   (*L4441*) SAug true "double_res" (EScale (1 # 4) (EEins "mnfe,kldc,aeil,fbkj,dcmn->abij" [(ESlice (EVar "g_abab") [SV "o"; SV "o"; SV "v"; SV "v"]); (EVar "l2_abab"); (EVar "t2_abab"); (EVar "t2_abab"); (EVar "t2_abab")]));
   (*L4444*) SAug true "double_res" (EScale (1 # 4) (EEins "nmfe,klcd,aeil,fbkj,cdnm->abij" [(ESlice (EVar "g_abab") [SV "o"; SV "o"; SV "v"; SV "v"]); (EVar "l2_abab"); (EVar "t2_abab"); (EVar "t2_abab"); (EVar "t2_abab")]));
   (*L4447*) SAug true "double_res" (EScale (1 # 4) (EEins "mnfe,klcd,aeil,fbkj,cdmn->abij" [(ESlice (EVar "g_abab") [SV "o"; SV "o"; SV "v"; SV "v"]); (EVar "l2_abab"); (EVar "t2_abab"); (EVar "t2_abab"); (EVar "t2_abab")]));
   (*L4450*) SAug true "double_res" (EScale (1 # 4) (EEins "nmef,lkdc,eail,fbjk,dcnm->abij" [(ESlice (EVar "g_abab") [SV "o"; SV "o"; SV "v"; SV "v"]); (EVar "l2_abab"); (EVar "t2_aaaa"); (EVar "t2_bbbb"); (EVar "t2_abab")]));
   (*L4453*) SAug true "double_res" (EScale (1 # 4) (EEins "mnef,lkdc,eail,fbjk,dcmn->abij" [(ESlice (EVar "g_abab") [SV "o"; SV "o"; SV "v"; SV "v"]); (EVar "l2_abab"); (EVar "t2_aaaa"); (EVar "t2_bbbb"); (EVar "t2_abab")]));
   (*L4456*) SAug true "double_res" (EScale (1 # 4) (EEins "nmef,lkcd,eail,fbjk,cdnm->abij" [(ESlice (EVar "g_abab") [SV "o"; SV "o"; SV "v"; SV "v"]); (EVar "l2_abab"); (EVar "t2_aaaa"); (EVar "t2_bbbb"); (EVar "t2_abab")]));
   (*L4459*) SAug true "double_res" (EScale (1 # 4) (EEins "mnef,lkcd,eail,fbjk,cdmn->abij" [(ESlice (EVar "g_abab") [SV "o"; SV "o"; SV "v"; SV "v"]); (EVar "l2_abab"); (EVar "t2_aaaa"); (EVar "t2_bbbb"); (EVar "t2_abab")]));
   (*L4462*) SAug true "double_res" (EScale (1 # 4) (EEins "nmef,kldc,aeil,fbjk,dcnm->abij" [(ESlice (EVar "g_bbbb") [SV "o"; SV "o"; SV "v"; SV "v"]); (EVar "l2_bbbb"); (EVar "t2_abab"); (EVar "t2_bbbb"); (EVar "t2_bbbb")]));
   (*L4465*) SAug true "double_res" (EScale (-1 # 4) (EEins "nmfe,kldc,aekj,dbim,fcln->abij" [(ESlice (EVar "g_abab") [SV "o"; SV "o"; SV "v"; SV "v"]); (EVar "l2_aaaa"); (EVar "t2_abab"); (EVar "t2_abab"); (EVar "t2_aaaa")]));
   (*L4468*) SAug true "double_res" (EScale (-1 # 4) (EEins "nmef,kldc,aekj,dbim,cfln->abij" [(ESlice (EVar "g_bbbb") [SV "o"; SV "o"; SV "v"; SV "v"]); (EVar "l2_aaaa"); (EVar "t2_abab"); (EVar "t2_abab"); (EVar "t2_abab")]));
   (*L4471*) SAug true "double_res" (EScale (1 # 4) (EEins "nmfe,kldc,aekj,dbim,fcnl->abij" [(ESlice (EVar "g_abab") [SV "o"; SV "o"; SV "v"; SV "v"]); (EVar "l2_abab"); (EVar "t2_abab"); (EVar "t2_abab"); (EVar "t2_abab")]));
   (*L4474*) SAug true "double_res" (EScale (1 # 4) (EEins "nmef,kldc,aekj,dbim,fcln->abij" [(ESlice (EVar "g_bbbb") [SV "o"; SV "o"; SV "v"; SV "v"]); (EVar "l2_abab"); (EVar "t2_abab"); (EVar "t2_abab"); (EVar "t2_bbbb")]));
   (*L4477*) SAug true "double_res" (EScale (1 # 4) (EEins "nmef,kldc,ebkj,daim,fcln->abij" [(ESlice (EVar "g_aaaa") [SV "o"; SV "o"; SV "v"; SV "v"]); (EVar "l2_aaaa"); (EVar "t2_abab"); (EVar "t2_aaaa"); (EVar "t2_aaaa")]));
   (*L4480*) SAug true "double_res" (EScale (1 # 4) (EEins "mnef,kldc,ebkj,daim,cfln->abij" [(ESlice (EVar "g_abab") [SV "o"; SV "o"; SV "v"; SV "v"]); (EVar "l2_aaaa"); (EVar "t2_abab"); (EVar "t2_aaaa"); (EVar "t2_abab")]));
   (*L4483*) SAug true "double_res" (EScale (-1 # 4) (EEins "nmef,kldc,ebkj,daim,fcnl->abij" [(ESlice (EVar "g_aaaa") [SV "o"; SV "o"; SV "v"; SV "v"]); (EVar "l2_abab"); (EVar "t2_abab"); (EVar "t2_aaaa"); (EVar "t2_abab")]));
   (*L4486*) SAug true "double_res" (EScale (-1 # 4) (EEins "mnef,kldc,ebkj,daim,fcln->abij" [(ESlice (EVar "g_abab") [SV "o"; SV "o"; SV "v"; SV "v"]); (EVar "l2_abab"); (EVar "t2_abab"); (EVar "t2_aaaa"); (EVar "t2_bbbb")]));
   (*L4489*) SAug true "double_res" (EScale (1 # 4) (EEins "nmef,klcd,ebkj,adim,cfnl->abij" [(ESlice (EVar "g_abab") [SV "o"; SV "o"; SV "v"; SV "v"]); (EVar "l2_abab"); (EVar "t2_abab"); (EVar "t2_abab"); (EVar "t2_abab")]));
   (*L4492*) SAug true "double_res" (EScale (1 # 4) (EEins "mnfe,lkdc,ebjk,daim,fcln->abij" [(ESlice (EVar "g_abab") [SV "o"; SV "o"; SV "v"; SV "v"]); (EVar "l2_abab"); (EVar "t2_bbbb"); (EVar "t2_aaaa"); (EVar "t2_abab")]));
   (*L4495*) SAug true "double_res" (EScale (-1 # 4) (EEins "nmfe,lkcd,ebjk,adim,fcln->abij" [(ESlice (EVar "g_abab") [SV "o"; SV "o"; SV "v"; SV "v"]); (EVar "l2_abab"); (EVar "t2_bbbb"); (EVar "t2_abab"); (EVar "t2_aaaa")]));
   (*L4498*) SAug true "double_res" (EScale (-1 # 4) (EEins "nmef,lkcd,ebjk,adim,cfln->abij" [(ESlice (EVar "g_bbbb") [SV "o"; SV "o"; SV "v"; SV "v"]); (EVar "l2_abab"); (EVar "t2_bbbb"); (EVar "t2_abab"); (EVar "t2_abab")]));
   (*L4501*) SAug true "double_res" (EScale (1 # 4) (EEins "nmfe,kldc,ebjk,adim,fcnl->abij" [(ESlice (EVar "g_abab") [SV "o"; SV "o"; SV "v"; SV "v"]); (EVar "l2_bbbb"); (EVar "t2_bbbb"); (EVar "t2_abab"); (EVar "t2_abab")]));
   (*L4504*) SAug true "double_res" (EScale (1 # 4) (EEins "nmef,kldc,ebjk,adim,fcln->abij" [(ESlice (EVar "g_bbbb") [SV "o"; SV "o"; SV "v"; SV "v"]); (EVar "l2_bbbb"); (EVar "t2_bbbb"); (EVar "t2_abab"); (EVar "t2_bbbb")]));
   (*L4507*) SAug true "double_res" (EScale (1 # 4) (EEins "nmef,kldc,eaik,dbmj,fcln->abij" [(ESlice (EVar "g_aaaa") [SV "o"; SV "o"; SV "v"; SV "v"]); (EVar "l2_aaaa"); (EVar "t2_aaaa"); (EVar "t2_abab"); (EVar "t2_aaaa")]));
   (*L4510*) SAug true "double_res" (EScale (1 # 4) (EEins "mnef,kldc,eaik,dbmj,cfln->abij" [(ESlice (EVar "g_abab") [SV "o"; SV "o"; SV "v"; SV "v"]); (EVar "l2_aaaa"); (EVar "t2_aaaa"); (EVar "t2_abab"); (EVar "t2_abab")]));
   (*L4513*) SAug true "double_res" (EScale (-1 # 4) (EEins "nmef,kldc,eaik,dbmj,fcnl->abij" [(ESlice (EVar "g_aaaa") [SV "o"; SV "o"; SV "v"; SV "v"]); (EVar "l2_abab"); (EVar "t2_aaaa"); (EVar "t2_abab"); (EVar "t2_abab")]));
   (*L4516*) SAug true "double_res" (EScale (-1 # 4) (EEins "mnef,kldc,eaik,dbmj,fcln->abij" [(ESlice (EVar "g_abab") [SV "o"; SV "o"; SV "v"; SV "v"]); (EVar "l2_abab"); (EVar "t2_aaaa"); (EVar "t2_abab"); (EVar "t2_bbbb")]));
   (*L4519*) SAug true "double_res" (EScale (1 # 4) (EEins "nmef,klcd,eaik,dbjm,cfnl->abij" [(ESlice (EVar "g_abab") [SV "o"; SV "o"; SV "v"; SV "v"]); (EVar "l2_abab"); (EVar "t2_aaaa"); (EVar "t2_bbbb"); (EVar "t2_abab")]));
   (*L4522*) SAug true "double_res" (EScale (1 # 4) (EEins "mnfe,lkdc,aeik,dbmj,fcln->abij" [(ESlice (EVar "g_abab") [SV "o"; SV "o"; SV "v"; SV "v"]); (EVar "l2_abab"); (EVar "t2_abab"); (EVar "t2_abab"); (EVar "t2_abab")]));
   (*L4525*) SAug true "double_res" (EScale (-1 # 4) (EEins "nmfe,lkcd,aeik,dbjm,fcln->abij" [(ESlice (EVar "g_abab") [SV "o"; SV "o"; SV "v"; SV "v"]); (EVar "l2_abab"); (EVar "t2_abab"); (EVar "t2_bbbb"); (EVar "t2_aaaa")]));
   (*L4528*) SAug true "double_res" (EScale (-1 # 4) (EEins "nmef,lkcd,aeik,dbjm,cfln->abij" [(ESlice (EVar "g_bbbb") [SV "o"; SV "o"; SV "v"; SV "v"]); (EVar "l2_abab"); (EVar "t2_abab"); (EVar "t2_bbbb"); (EVar "t2_abab")]));
   (*L4531*) SAug true "double_res" (EScale (1 # 4) (EEins "nmfe,kldc,aeik,dbjm,fcnl->abij" [(ESlice (EVar "g_abab") [SV "o"; SV "o"; SV "v"; SV "v"]); (EVar "l2_bbbb"); (EVar "t2_abab"); (EVar "t2_bbbb"); (EVar "t2_abab")]));
   (*L4534*) SAug true "double_res" (EScale (1 # 4) (EEins "nmef,kldc,aeik,dbjm,fcln->abij" [(ESlice (EVar "g_bbbb") [SV "o"; SV "o"; SV "v"; SV "v"]); (EVar "l2_bbbb"); (EVar "t2_abab"); (EVar "t2_bbbb"); (EVar "t2_bbbb")]));
   (*L4537*) SAug true "double_res" (EScale (1 # 4) (EEins "nmef,lkcd,ebik,admj,fcln->abij" [(ESlice (EVar "g_aaaa") [SV "o"; SV "o"; SV "v"; SV "v"]); (EVar "l2_abab"); (EVar "t2_abab"); (EVar "t2_abab"); (EVar "t2_aaaa")]));
   (*L4540*) SAug true "double_res" (EScale (1 # 4) (EEins "mnef,lkcd,ebik,admj,cfln->abij" [(ESlice (EVar "g_abab") [SV "o"; SV "o"; SV "v"; SV "v"]); (EVar "l2_abab"); (EVar "t2_abab"); (EVar "t2_abab"); (EVar "t2_abab")]));
   (*L4543*) SAug true "double_res" (EScale (-1 # 4) (EEins "nmef,kldc,ebik,admj,fcnl->abij" [(ESlice (EVar "g_aaaa") [SV "o"; SV "o"; SV "v"; SV "v"]); (EVar "l2_bbbb"); (EVar "t2_abab"); (EVar "t2_abab"); (EVar "t2_abab")]));
   (*L4546*) SAug true "double_res" (EScale (-1 # 4) (EEins "mnef,kldc,ebik,admj,fcln->abij" [(ESlice (EVar "g_abab") [SV "o"; SV "o"; SV "v"; SV "v"]); (EVar "l2_bbbb"); (EVar "t2_abab"); (EVar "t2_abab"); (EVar "t2_bbbb")]));
   (*L4549*) SAug true "double_res" (EScale (1 # 2) (EEins "nmfe,kldc,aeij,fblm,dckn->abij" [(ESlice (EVar "g_abab") [SV "o"; SV "o"; SV "v"; SV "v"]); (EVar "l2_aaaa"); (EVar "t2_abab"); (EVar "t2_abab"); (EVar "t2_aaaa")]));
   (*L4552*) SAug true "double_res" (EScale (1 # 2) (EEins "mnfe,kldc,aeij,fbml,dckn->abij" [(ESlice (EVar "g_abab") [SV "o"; SV "o"; SV "v"; SV "v"]); (EVar "l2_abab"); (EVar "t2_abab"); (EVar "t2_abab"); (EVar "t2_abab")]));
   (*L4555*) SAug true "double_res" (EScale (-1 # 2) (EEins "nmef,kldc,aeij,fblm,dckn->abij" [(ESlice (EVar "g_bbbb") [SV "o"; SV "o"; SV "v"; SV "v"]); (EVar "l2_abab"); (EVar "t2_abab"); (EVar "t2_bbbb"); (EVar "t2_abab")]));
   (*L4558*) SAug true "double_res" (EScale (1 # 2) (EEins "mnfe,klcd,aeij,fbml,cdkn->abij" [(ESlice (EVar "g_abab") [SV "o"; SV "o"; SV "v"; SV "v"]); (EVar "l2_abab"); (EVar "t2_abab"); (EVar "t2_abab"); (EVar "t2_abab")]));
   (*L4561*) SAug true "double_res" (EScale (-1 # 2) (EEins "nmef,klcd,aeij,fblm,cdkn->abij" [(ESlice (EVar "g_bbbb") [SV "o"; SV "o"; SV "v"; SV "v"]); (EVar "l2_abab"); (EVar "t2_abab"); (EVar "t2_bbbb"); (EVar "t2_abab")]));
   (*L4564*) SAug true "double_res" (EScale (1 # 2) (EEins "nmfe,lkdc,aeij,fblm,dcnk->abij" [(ESlice (EVar "g_abab") [SV "o"; SV "o"; SV "v"; SV "v"]); (EVar "l2_abab"); (EVar "t2_abab"); (EVar "t2_abab"); (EVar "t2_abab")]));
   (*L4567*) SAug true "double_res" (EScale (1 # 2) (EEins "nmfe,lkcd,aeij,fblm,cdnk->abij" [(ESlice (EVar "g_abab") [SV "o"; SV "o"; SV "v"; SV "v"]); (EVar "l2_abab"); (EVar "t2_abab"); (EVar "t2_abab"); (EVar "t2_abab")]));
   (*L4570*) SAug true "double_res" (EScale (1 # 2) (EEins "mnfe,kldc,aeij,fbml,dckn->abij" [(ESlice (EVar "g_abab") [SV "o"; SV "o"; SV "v"; SV "v"]); (EVar "l2_bbbb"); (EVar "t2_abab"); (EVar "t2_abab"); (EVar "t2_bbbb")]));
   (*L4573*) SAug true "double_res" (EScale (-1 # 2) (EEins "nmef,kldc,aeij,fblm,dckn->abij" [(ESlice (EVar "g_bbbb") [SV "o"; SV "o"; SV "v"; SV "v"]); (EVar "l2_bbbb"); (EVar "t2_abab"); (EVar "t2_bbbb"); (EVar "t2_bbbb")]));
   (*L4576*) SAug true "double_res" (EScale (-1 # 8) (EEins "nmfe,kldc,aeij,fbkl,dcnm->abij" [(ESlice (EVar "g_abab") [SV "o"; SV "o"; SV "v"; SV "v"]); (EVar "l2_abab"); (EVar "t2_abab"); (EVar "t2_abab"); (EVar "t2_abab")]));
   (*L4579*) SAug true "double_res" (EScale (-1 # 8) (EEins "mnfe,kldc,aeij,fbkl,dcmn->abij" [(ESlice (EVar "g_abab") [SV "o"; SV "o"; SV "v"; SV "v"]); (EVar "l2_abab"); (EVar "t2_abab"); (EVar "t2_abab"); (EVar "t2_abab")]));
   (*L4582*) SAug true "double_res" (EScale (-1 # 8) (EEins "nmfe,klcd,aeij,fbkl,cdnm->abij" [(ESlice (EVar "g_abab") [SV "o"; SV "o"; SV "v"; SV "v"]); (EVar "l2_abab"); (EVar "t2_abab"); (EVar "t2_abab"); (EVar "t2_abab")]));
   (*L4585*) SAug true "double_res" (EScale (-1 # 8) (EEins "mnfe,klcd,aeij,fbkl,cdmn->abij" [(ESlice (EVar "g_abab") [SV "o"; SV "o"; SV "v"; SV "v"]); (EVar "l2_abab"); (EVar "t2_abab"); (EVar "t2_abab"); (EVar "t2_abab")]));
   (*L4588*) SAug true "double_res" (EScale (-1 # 8) (EEins "nmfe,lkdc,aeij,fblk,dcnm->abij" [(ESlice (EVar "g_abab") [SV "o"; SV "o"; SV "v"; SV "v"]); (EVar "l2_abab"); (EVar "t2_abab"); (EVar "t2_abab"); (EVar "t2_abab")]));
   (*L4591*) SAug true "double_res" (EScale (-1 # 8) (EEins "mnfe,lkdc,aeij,fblk,dcmn->abij" [(ESlice (EVar "g_abab") [SV "o"; SV "o"; SV "v"; SV "v"]); (EVar "l2_abab"); (EVar "t2_abab"); (EVar "t2_abab"); (EVar "t2_abab")]));
   (*L4594*) SAug true "double_res" (EScale (-1 # 8) (EEins "nmfe,lkcd,aeij,fblk,cdnm->abij" [(ESlice (EVar "g_abab") [SV "o"; SV "o"; SV "v"; SV "v"]); (EVar "l2_abab"); (EVar "t2_abab"); (EVar "t2_abab"); (EVar "t2_abab")]));
   (*L4597*) SAug true "double_res" (EScale (-1 # 8) (EEins "mnfe,lkcd,aeij,fblk,cdmn->abij" [(ESlice (EVar "g_abab") [SV "o"; SV "o"; SV "v"; SV "v"]); (EVar "l2_abab"); (EVar "t2_abab"); (EVar "t2_abab"); (EVar "t2_abab")]));
   (*L4600*) SAug true "double_res" (EScale (1 # 8) (EEins "nmef,kldc,aeij,fbkl,dcnm->abij" [(ESlice (EVar "g_bbbb") [SV "o"; SV "o"; SV "v"; SV "v"]); (EVar "l2_bbbb"); (EVar "t2_abab"); (EVar "t2_bbbb"); (EVar "t2_bbbb")]));
   (*L4603*) SAug true "double_res" (EScale (1 # 8) (EEins "nmef,kldc,ebkj,dclm,fain->abij" [(ESlice (EVar "g_aaaa") [SV "o"; SV "o"; SV "v"; SV "v"]); (EVar "l2_aaaa"); (EVar "t2_abab"); (EVar "t2_aaaa"); (EVar "t2_aaaa")]));
   (*L4606*) SAug true "double_res" (EScale (1 # 8) (EEins "mnef,kldc,ebkj,dclm,afin->abij" [(ESlice (EVar "g_abab") [SV "o"; SV "o"; SV "v"; SV "v"]); (EVar "l2_aaaa"); (EVar "t2_abab"); (EVar "t2_aaaa"); (EVar "t2_abab")]));
   (*L4609*) SAug true "double_res" (EScale (-1 # 8) (EEins "nmef,kldc,ebkj,dcml,fain->abij" [(ESlice (EVar "g_aaaa") [SV "o"; SV "o"; SV "v"; SV "v"]); (EVar "l2_abab"); (EVar "t2_abab"); (EVar "t2_abab"); (EVar "t2_aaaa")]));
   (*L4612*) SAug true "double_res" (EScale (-1 # 8) (EEins "mnef,kldc,ebkj,dcml,afin->abij" [(ESlice (EVar "g_abab") [SV "o"; SV "o"; SV "v"; SV "v"]); (EVar "l2_abab"); (EVar "t2_abab"); (EVar "t2_abab"); (EVar "t2_abab")]));
   (*L4615*) SAug true "double_res" (EScale (-1 # 8) (EEins "nmef,klcd,ebkj,cdml,fain->abij" [(ESlice (EVar "g_aaaa") [SV "o"; SV "o"; SV "v"; SV "v"]); (EVar "l2_abab"); (EVar "t2_abab"); (EVar "t2_abab"); (EVar "t2_aaaa")]));
   (*L4618*) SAug true "double_res" (EScale (-1 # 8) (EEins "mnef,klcd,ebkj,cdml,afin->abij" [(ESlice (EVar "g_abab") [SV "o"; SV "o"; SV "v"; SV "v"]); (EVar "l2_abab"); (EVar "t2_abab"); (EVar "t2_abab"); (EVar "t2_abab")]));
   (*L4621*) SAug true "double_res" (EScale (-1 # 8) (EEins "nmfe,lkdc,ebjk,dclm,fain->abij" [(ESlice (EVar "g_abab") [SV "o"; SV "o"; SV "v"; SV "v"]); (EVar "l2_abab"); (EVar "t2_bbbb"); (EVar "t2_abab"); (EVar "t2_aaaa")]));
   (*L4624*) SAug true "double_res" (EScale (-1 # 8) (EEins "nmef,lkdc,ebjk,dclm,afin->abij" [(ESlice (EVar "g_bbbb") [SV "o"; SV "o"; SV "v"; SV "v"]); (EVar "l2_abab"); (EVar "t2_bbbb"); (EVar "t2_abab"); (EVar "t2_abab")]));
   (*L4627*) SAug true "double_res" (EScale (-1 # 8) (EEins "nmfe,lkcd,ebjk,cdlm,fain->abij" [(ESlice (EVar "g_abab") [SV "o"; SV "o"; SV "v"; SV "v"]); (EVar "l2_abab"); (EVar "t2_bbbb"); (EVar "t2_abab"); (EVar "t2_aaaa")]));
   (*L4630*) SAug true "double_res" (EScale (-1 # 8) (EEins "nmef,lkcd,ebjk,cdlm,afin->abij" [(ESlice (EVar "g_bbbb") [SV "o"; SV "o"; SV "v"; SV "v"]); (EVar "l2_abab"); (EVar "t2_bbbb"); (EVar "t2_abab"); (EVar "t2_abab")]));
   (*L4633*) SAug true "double_res" (EScale (1 # 8) (EEins "nmfe,kldc,ebjk,dclm,fain->abij" [(ESlice (EVar "g_abab") [SV "o"; SV "o"; SV "v"; SV "v"]); (EVar "l2_bbbb"); (EVar "t2_bbbb"); (EVar "t2_bbbb"); (EVar "t2_aaaa")]));
   (*L4636*) SAug true "double_res" (EScale (1 # 8) (EEins "nmef,kldc,ebjk,dclm,afin->abij" [(ESlice (EVar "g_bbbb") [SV "o"; SV "o"; SV "v"; SV "v"]); (EVar "l2_bbbb"); (EVar "t2_bbbb"); (EVar "t2_bbbb"); (EVar "t2_abab")]));
   (*L4639*) SAug true "double_res" (EScale (-1 # 8) (EEins "nmef,lkdc,ebik,dclm,afnj->abij" [(ESlice (EVar "g_abab") [SV "o"; SV "o"; SV "v"; SV "v"]); (EVar "l2_abab"); (EVar "t2_abab"); (EVar "t2_abab"); (EVar "t2_abab")]));
   (*L4642*) SAug true "double_res" (EScale (-1 # 8) (EEins "nmef,lkcd,ebik,cdlm,afnj->abij" [(ESlice (EVar "g_abab") [SV "o"; SV "o"; SV "v"; SV "v"]); (EVar "l2_abab"); (EVar "t2_abab"); (EVar "t2_abab"); (EVar "t2_abab")]));
   (*L4645*) SAug true "double_res" (EScale (1 # 8) (EEins "nmef,kldc,ebik,dclm,afnj->abij" [(ESlice (EVar "g_abab") [SV "o"; SV "o"; SV "v"; SV "v"]); (EVar "l2_bbbb"); (EVar "t2_abab"); (EVar "t2_bbbb"); (EVar "t2_abab")]));
   (*L4648*) SAug true "double_res" (EScale (-1 # 8) (EEins "nmef,kldc,ebij,dclm,fakn->abij" [(ESlice (EVar "g_aaaa") [SV "o"; SV "o"; SV "v"; SV "v"]); (EVar "l2_aaaa"); (EVar "t2_abab"); (EVar "t2_aaaa"); (EVar "t2_aaaa")]));
   (*L4651*) SAug true "double_res" (EScale (-1 # 8) (EEins "mnef,kldc,ebij,dclm,afkn->abij" [(ESlice (EVar "g_abab") [SV "o"; SV "o"; SV "v"; SV "v"]); (EVar "l2_aaaa"); (EVar "t2_abab"); (EVar "t2_aaaa"); (EVar "t2_abab")]));
   (*L4654*) SAug true "double_res" (EScale (1 # 8) (EEins "nmef,kldc,ebij,dcml,fakn->abij" [(ESlice (EVar "g_aaaa") [SV "o"; SV "o"; SV "v"; SV "v"]); (EVar "l2_abab"); (EVar "t2_abab"); (EVar "t2_abab"); (EVar "t2_aaaa")]));
   (*L4657*) SAug true "double_res" (EScale (1 # 8) (EEins "mnef,kldc,ebij,dcml,afkn->abij" [(ESlice (EVar "g_abab") [SV "o"; SV "o"; SV "v"; SV "v"]); (EVar "l2_abab"); (EVar "t2_abab"); (EVar "t2_abab"); (EVar "t2_abab")]));
   (*L4660*) SAug true "double_res" (EScale (1 # 8) (EEins "nmef,klcd,ebij,cdml,fakn->abij" [(ESlice (EVar "g_aaaa") [SV "o"; SV "o"; SV "v"; SV "v"]); (EVar "l2_abab"); (EVar "t2_abab"); (EVar "t2_abab"); (EVar "t2_aaaa")]));
   (*L4663*) SAug true "double_res" (EScale (1 # 8) (EEins "mnef,klcd,ebij,cdml,afkn->abij" [(ESlice (EVar "g_abab") [SV "o"; SV "o"; SV "v"; SV "v"]); (EVar "l2_abab"); (EVar "t2_abab"); (EVar "t2_abab"); (EVar "t2_abab")]));
   (*L4666*) SAug true "double_res" (EScale (1 # 8) (EEins "nmef,lkdc,ebij,dclm,afnk->abij" [(ESlice (EVar "g_abab") [SV "o"; SV "o"; SV "v"; SV "v"]); (EVar "l2_abab"); (EVar "t2_abab"); (EVar "t2_abab"); (EVar "t2_abab")]));
   (*L4669*) SAug true "double_res" (EScale (1 # 8) (EEins "nmef,lkcd,ebij,cdlm,afnk->abij" [(ESlice (EVar "g_abab") [SV "o"; SV "o"; SV "v"; SV "v"]); (EVar "l2_abab"); (EVar "t2_abab"); (EVar "t2_abab"); (EVar "t2_abab")]));
   (*L4672*) SAug true "double_res" (EScale (-1 # 8) (EEins "nmef,kldc,ebij,dclm,afnk->abij" [(ESlice (EVar "g_abab") [SV "o"; SV "o"; SV "v"; SV "v"]); (EVar "l2_bbbb"); (EVar "t2_abab"); (EVar "t2_bbbb"); (EVar "t2_abab")]));
   (*L4675*) SAug true "double_res" (EScale (8333333333333 # 100000000000000) (EEins "mnef,klcd,admj,ebkn,cfil->abij" [(ESlice (EVar "g_abab") [SV "o"; SV "o"; SV "v"; SV "v"]); (EVar "l2_abab"); (EVar "t2_abab"); (EVar "t2_abab"); (EVar "t2_abab")]));
   (*L4678*) SAug true "double_res" (EScale (8333333333333 # 100000000000000) (EEins "nmef,lkcd,admj,ebnk,fcil->abij" [(ESlice (EVar "g_aaaa") [SV "o"; SV "o"; SV "v"; SV "v"]); (EVar "l2_abab"); (EVar "t2_abab"); (EVar "t2_abab"); (EVar "t2_aaaa")]));
   (*L4681*) SAug true "double_res" (EScale (-8333333333333 # 100000000000000) (EEins "mnfe,lkcd,admj,ebkn,fcil->abij" [(ESlice (EVar "g_abab") [SV "o"; SV "o"; SV "v"; SV "v"]); (EVar "l2_abab"); (EVar "t2_abab"); (EVar "t2_bbbb"); (EVar "t2_aaaa")]));
   (*L4684*) SAug true "double_res" (EScale (8333333333333 # 100000000000000) (EEins "nmef,kldc,admj,ebnk,fcil->abij" [(ESlice (EVar "g_aaaa") [SV "o"; SV "o"; SV "v"; SV "v"]); (EVar "l2_bbbb"); (EVar "t2_abab"); (EVar "t2_abab"); (EVar "t2_abab")]));
   (*L4687*) SAug true "double_res" (EScale (-8333333333333 # 100000000000000) (EEins "mnfe,kldc,admj,ebkn,fcil->abij" [(ESlice (EVar "g_abab") [SV "o"; SV "o"; SV "v"; SV "v"]); (EVar "l2_bbbb"); (EVar "t2_abab"); (EVar "t2_bbbb"); (EVar "t2_abab")]));
   (*L4690*) SAug true "double_res" (EScale (-8333333333333 # 100000000000000) (EEins "nmef,kldc,dbmj,eakn,fcil->abij" [(ESlice (EVar "g_aaaa") [SV "o"; SV "o"; SV "v"; SV "v"]); (EVar "l2_aaaa"); (EVar "t2_abab"); (EVar "t2_aaaa"); (EVar "t2_aaaa")]));
   (*L4693*) SAug true "double_res" (EScale (8333333333333 # 100000000000000) (EEins "mnfe,kldc,dbmj,aekn,fcil->abij" [(ESlice (EVar "g_abab") [SV "o"; SV "o"; SV "v"; SV "v"]); (EVar "l2_aaaa"); (EVar "t2_abab"); (EVar "t2_abab"); (EVar "t2_aaaa")]));
   (*L4696*) SAug true "double_res" (EScale (-8333333333333 # 100000000000000) (EEins "nmef,kldc,dbmj,eakn,fcil->abij" [(ESlice (EVar "g_aaaa") [SV "o"; SV "o"; SV "v"; SV "v"]); (EVar "l2_abab"); (EVar "t2_abab"); (EVar "t2_aaaa"); (EVar "t2_abab")]));
   (*L4699*) SAug true "double_res" (EScale (8333333333333 # 100000000000000) (EEins "mnfe,kldc,dbmj,aekn,fcil->abij" [(ESlice (EVar "g_abab") [SV "o"; SV "o"; SV "v"; SV "v"]); (EVar "l2_abab"); (EVar "t2_abab"); (EVar "t2_abab"); (EVar "t2_abab")]));
   (*L4702*) SAug true "double_res" (EScale (8333333333333 # 100000000000000) (EEins "nmef,klcd,dbjm,eakn,cfil->abij" [(ESlice (EVar "g_abab") [SV "o"; SV "o"; SV "v"; SV "v"]); (EVar "l2_abab"); (EVar "t2_bbbb"); (EVar "t2_aaaa"); (EVar "t2_abab")]));
   (*L4705*) SAug true "double_res" (EScale (-8333333333333 # 100000000000000) (EEins "nmef,klcd,dbjm,aekn,cfil->abij" [(ESlice (EVar "g_bbbb") [SV "o"; SV "o"; SV "v"; SV "v"]); (EVar "l2_abab"); (EVar "t2_bbbb"); (EVar "t2_abab"); (EVar "t2_abab")]));
   (*L4708*) SAug true "double_res" (EScale (-8333333333333 # 100000000000000) (EEins "nmfe,lkcd,dbjm,aenk,fcil->abij" [(ESlice (EVar "g_abab") [SV "o"; SV "o"; SV "v"; SV "v"]); (EVar "l2_abab"); (EVar "t2_bbbb"); (EVar "t2_abab"); (EVar "t2_aaaa")]));
   (*L4711*) SAug true "double_res" (EScale (-8333333333333 # 100000000000000) (EEins "nmfe,kldc,dbjm,aenk,fcil->abij" [(ESlice (EVar "g_abab") [SV "o"; SV "o"; SV "v"; SV "v"]); (EVar "l2_bbbb"); (EVar "t2_bbbb"); (EVar "t2_abab"); (EVar "t2_abab")]));
   (*L4714*) SAug true "double_res" (EScale (-8333333333333 # 100000000000000) (EEins "mnef,kldc,daim,ebkn,cflj->abij" [(ESlice (EVar "g_abab") [SV "o"; SV "o"; SV "v"; SV "v"]); (EVar "l2_aaaa"); (EVar "t2_aaaa"); (EVar "t2_abab"); (EVar "t2_abab")]));
   (*L4717*) SAug true "double_res" (EScale (-8333333333333 # 100000000000000) (EEins "mnef,kldc,daim,ebkn,fcjl->abij" [(ESlice (EVar "g_abab") [SV "o"; SV "o"; SV "v"; SV "v"]); (EVar "l2_abab"); (EVar "t2_aaaa"); (EVar "t2_abab"); (EVar "t2_bbbb")]));
   (*L4720*) SAug true "double_res" (EScale (-8333333333333 # 100000000000000) (EEins "nmef,lkdc,daim,ebnk,fclj->abij" [(ESlice (EVar "g_aaaa") [SV "o"; SV "o"; SV "v"; SV "v"]); (EVar "l2_abab"); (EVar "t2_aaaa"); (EVar "t2_abab"); (EVar "t2_abab")]));
   (*L4723*) SAug true "double_res" (EScale (8333333333333 # 100000000000000) (EEins "mnfe,lkdc,daim,ebkn,fclj->abij" [(ESlice (EVar "g_abab") [SV "o"; SV "o"; SV "v"; SV "v"]); (EVar "l2_abab"); (EVar "t2_aaaa"); (EVar "t2_bbbb"); (EVar "t2_abab")]));
   (*L4726*) SAug true "double_res" (EScale (8333333333333 # 100000000000000) (EEins "nmef,lkcd,adim,ebnk,cflj->abij" [(ESlice (EVar "g_abab") [SV "o"; SV "o"; SV "v"; SV "v"]); (EVar "l2_abab"); (EVar "t2_abab"); (EVar "t2_abab"); (EVar "t2_abab")]));
   (*L4729*) SAug true "double_res" (EScale (-8333333333333 # 100000000000000) (EEins "nmef,lkcd,adim,ebkn,cflj->abij" [(ESlice (EVar "g_bbbb") [SV "o"; SV "o"; SV "v"; SV "v"]); (EVar "l2_abab"); (EVar "t2_abab"); (EVar "t2_bbbb"); (EVar "t2_abab")]));
   (*L4732*) SAug true "double_res" (EScale (8333333333333 # 100000000000000) (EEins "nmef,kldc,adim,ebnk,fcjl->abij" [(ESlice (EVar "g_abab") [SV "o"; SV "o"; SV "v"; SV "v"]); (EVar "l2_bbbb"); (EVar "t2_abab"); (EVar "t2_abab"); (EVar "t2_bbbb")]));
   (*L4735*) SAug true "double_res" (EScale (-8333333333333 # 100000000000000) (EEins "nmef,kldc,adim,ebkn,fcjl->abij" [(ESlice (EVar "g_bbbb") [SV "o"; SV "o"; SV "v"; SV "v"]); (EVar "l2_bbbb"); (EVar "t2_abab"); (EVar "t2_bbbb"); (EVar "t2_bbbb")]));
   (*L4738*) SAug true "double_res" (EScale (-8333333333333 # 100000000000000) (EEins "nmef,kldc,dbim,eakn,cflj->abij" [(ESlice (EVar "g_abab") [SV "o"; SV "o"; SV "v"; SV "v"]); (EVar "l2_aaaa"); (EVar "t2_abab"); (EVar "t2_aaaa"); (EVar "t2_abab")]));
   (*L4741*) SAug true "double_res" (EScale (8333333333333 # 100000000000000) (EEins "nmef,kldc,dbim,aekn,cflj->abij" [(ESlice (EVar "g_bbbb") [SV "o"; SV "o"; SV "v"; SV "v"]); (EVar "l2_aaaa"); (EVar "t2_abab"); (EVar "t2_abab"); (EVar "t2_abab")]));
   (*L4744*) SAug true "double_res" (EScale (-8333333333333 # 100000000000000) (EEins "nmef,kldc,dbim,eakn,fcjl->abij" [(ESlice (EVar "g_abab") [SV "o"; SV "o"; SV "v"; SV "v"]); (EVar "l2_abab"); (EVar "t2_abab"); (EVar "t2_aaaa"); (EVar "t2_bbbb")]));
   (*L4747*) SAug true "double_res" (EScale (8333333333333 # 100000000000000) (EEins "nmef,kldc,dbim,aekn,fcjl->abij" [(ESlice (EVar "g_bbbb") [SV "o"; SV "o"; SV "v"; SV "v"]); (EVar "l2_abab"); (EVar "t2_abab"); (EVar "t2_abab"); (EVar "t2_bbbb")]));
   (*L4750*) SAug true "double_res" (EScale (8333333333333 # 100000000000000) (EEins "nmfe,lkdc,dbim,aenk,fclj->abij" [(ESlice (EVar "g_abab") [SV "o"; SV "o"; SV "v"; SV "v"]); (EVar "l2_abab"); (EVar "t2_abab"); (EVar "t2_abab"); (EVar "t2_abab")]))]
  (*L4752*) (EVar "double_res").
