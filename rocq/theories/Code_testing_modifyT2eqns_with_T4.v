(** Generated by tools/transcribe.py from /repo/UT2/testing_modifyT2eqns_with_T4.py; do not edit. *)
From Coq Require Import String List QArith.
From Verif Require Import Interp.
Import ListNotations.
Open Scope string_scope.

(** /repo/UT2/testing_modifyT2eqns_with_T4.py:4-831  def ccsdt_t2_aaaa_residual_Qf *)
Definition ccsdt_t2_aaaa_residual_Qf : fn := mkFn
  ["t2_aaaa"; "t2_bbbb"; "t2_abab"; "t3_aaaaaa"; "t3_bbbbbb"; "t3_aabaab"; "t3_abbabb"; "g_aaaa"; "g_bbbb"; "g_abab"; "l2_aaaa"; "l2_bbbb"; "l2_abab"; "oa"; "ob"; "va"; "vb"]
  [(*L8*) SAssign "o" (EVar "oa");
   (*L9*) SAssign "v" (EVar "va");
   (*L12*) SAssign "contracted_intermediate" (EScale (-1 # 4) (EEins "nmkl,kldc,dcjm,abin->abij" [(ESlice (EVar "g_aaaa") [SV "o"; SV "o"; SV "o"; SV "o"]); (EVar "l2_aaaa"); (EVar "t2_aaaa"); (EVar "t2_aaaa")]));
   (*L13*) SAssign "doubles_res" (EAdd (EScale (1 # 1) (EVar "contracted_intermediate")) (EScale (-1 # 1) (EEins "abij->abji" [(EVar "contracted_intermediate")])));
   (*L16*) SAssign "contracted_intermediate" (EScale (-1 # 4) (EEins "nmkl,kldc,dcjm,abin->abij" [(ESlice (EVar "g_abab") [SV "o"; SV "o"; SV "o"; SV "o"]); (EVar "l2_abab"); (EVar "t2_abab"); (EVar "t2_aaaa")]));
   (*L17*) SAug true "doubles_res" (EAdd (EScale (1 # 1) (EVar "contracted_intermediate")) (EScale (-1 # 1) (EEins "abij->abji" [(EVar "contracted_intermediate")])));
   (*L20*) SAssign "contracted_intermediate" (EScale (-1 # 4) (EEins "nmkl,klcd,cdjm,abin->abij" [(ESlice (EVar "g_abab") [SV "o"; SV "o"; SV "o"; SV "o"]); (EVar "l2_abab"); (EVar "t2_abab"); (EVar "t2_aaaa")]));
   (*L21*) SAug true "doubles_res" (EAdd (EScale (1 # 1) (EVar "contracted_intermediate")) (EScale (-1 # 1) (EEins "abij->abji" [(EVar "contracted_intermediate")])));
   (*L24*) SAssign "contracted_intermediate" (EScale (-1 # 4) (EEins "nmlk,lkdc,dcjm,abin->abij" [(ESlice (EVar "g_abab") [SV "o"; SV "o"; SV "o"; SV "o"]); (EVar "l2_abab"); (EVar "t2_abab"); (EVar "t2_aaaa")]));
   (*L25*) SAug true "doubles_res" (EAdd (EScale (1 # 1) (EVar "contracted_intermediate")) (EScale (-1 # 1) (EEins "abij->abji" [(EVar "contracted_intermediate")])));
   (*L28*) SAssign "contracted_intermediate" (EScale (-1 # 4) (EEins "nmlk,lkcd,cdjm,abin->abij" [(ESlice (EVar "g_abab") [SV "o"; SV "o"; SV "o"; SV "o"]); (EVar "l2_abab"); (EVar "t2_abab"); (EVar "t2_aaaa")]));
   (*L29*) SAug true "doubles_res" (EAdd (EScale (1 # 1) (EVar "contracted_intermediate")) (EScale (-1 # 1) (EEins "abij->abji" [(EVar "contracted_intermediate")])));
   (*L32*) SAssign "contracted_intermediate" (EScale (1 # 2) (EEins "nmkl,kldc,dajm,cbin->abij" [(ESlice (EVar "g_aaaa") [SV "o"; SV "o"; SV "o"; SV "o"]); (EVar "l2_aaaa"); (EVar "t2_aaaa"); (EVar "t2_aaaa")]));
   (*L33*) SAug true "doubles_res" (EAdd (EScale (1 # 1) (EVar "contracted_intermediate")) (EScale (-1 # 1) (EEins "abij->abji" [(EVar "contracted_intermediate")])));
   (*L36*) SAssign "contracted_intermediate" (EScale (1 # 2) (EEins "mnkl,kldc,dajm,bcin->abij" [(ESlice (EVar "g_abab") [SV "o"; SV "o"; SV "o"; SV "o"]); (EVar "l2_abab"); (EVar "t2_aaaa"); (EVar "t2_abab")]));
   (*L37*) SAug true "doubles_res" (EAdd (EScale (1 # 1) (EVar "contracted_intermediate")) (EScale (-1 # 1) (EEins "abij->abji" [(EVar "contracted_intermediate")])));
   (*L40*) SAssign "contracted_intermediate" (EScale (1 # 2) (EEins "nmkl,klcd,adjm,cbin->abij" [(ESlice (EVar "g_abab") [SV "o"; SV "o"; SV "o"; SV "o"]); (EVar "l2_abab"); (EVar "t2_abab"); (EVar "t2_aaaa")]));
   (*L41*) SAug true "doubles_res" (EAdd (EScale (1 # 1) (EVar "contracted_intermediate")) (EScale (-1 # 1) (EEins "abij->abji" [(EVar "contracted_intermediate")])));
   (*L44*) SAssign "contracted_intermediate" (EScale (1 # 2) (EEins "mnlk,lkdc,dajm,bcin->abij" [(ESlice (EVar "g_abab") [SV "o"; SV "o"; SV "o"; SV "o"]); (EVar "l2_abab"); (EVar "t2_aaaa"); (EVar "t2_abab")]));
   (*L45*) SAug true "doubles_res" (EAdd (EScale (1 # 1) (EVar "contracted_intermediate")) (EScale (-1 # 1) (EEins "abij->abji" [(EVar "contracted_intermediate")])));
   (*L48*) SAssign "contracted_intermediate" (EScale (1 # 2) (EEins "nmlk,lkcd,adjm,cbin->abij" [(ESlice (EVar "g_abab") [SV "o"; SV "o"; SV "o"; SV "o"]); (EVar "l2_abab"); (EVar "t2_abab"); (EVar "t2_aaaa")]));
   (*L49*) SAug true "doubles_res" (EAdd (EScale (1 # 1) (EVar "contracted_intermediate")) (EScale (-1 # 1) (EEins "abij->abji" [(EVar "contracted_intermediate")])));
   (*L52*) SAssign "contracted_intermediate" (EScale (1 # 2) (EEins "nmkl,kldc,adjm,bcin->abij" [(ESlice (EVar "g_bbbb") [SV "o"; SV "o"; SV "o"; SV "o"]); (EVar "l2_bbbb"); (EVar "t2_abab"); (EVar "t2_abab")]));
   (*L53*) SAug true "doubles_res" (EAdd (EScale (1 # 1) (EVar "contracted_intermediate")) (EScale (-1 # 1) (EEins "abij->abji" [(EVar "contracted_intermediate")])));
   (*L56*) SAssign "contracted_intermediate" (EScale (1 # 2) (EEins "nmjl,kldc,dckm,abin->abij" [(ESlice (EVar "g_aaaa") [SV "o"; SV "o"; SV "o"; SV "o"]); (EVar "l2_aaaa"); (EVar "t2_aaaa"); (EVar "t2_aaaa")]));
   (*L57*) SAug true "doubles_res" (EAdd (EScale (1 # 1) (EVar "contracted_intermediate")) (EScale (-1 # 1) (EEins "abij->abji" [(EVar "contracted_intermediate")])));
   (*L60*) SAssign "contracted_intermediate" (EScale (1 # 2) (EEins "nmjl,kldc,dckm,abin->abij" [(ESlice (EVar "g_abab") [SV "o"; SV "o"; SV "o"; SV "o"]); (EVar "l2_abab"); (EVar "t2_abab"); (EVar "t2_aaaa")]));
   (*L61*) SAug true "doubles_res" (EAdd (EScale (1 # 1) (EVar "contracted_intermediate")) (EScale (-1 # 1) (EEins "abij->abji" [(EVar "contracted_intermediate")])));
   (*L64*) SAssign "contracted_intermediate" (EScale (1 # 2) (EEins "nmjl,klcd,cdkm,abin->abij" [(ESlice (EVar "g_abab") [SV "o"; SV "o"; SV "o"; SV "o"]); (EVar "l2_abab"); (EVar "t2_abab"); (EVar "t2_aaaa")]));
   (*L65*) SAug true "doubles_res" (EAdd (EScale (1 # 1) (EVar "contracted_intermediate")) (EScale (-1 # 1) (EEins "abij->abji" [(EVar "contracted_intermediate")])));
   (*L68*) SAssign "contracted_intermediate" (EScale (1 # 2) (EEins "nmjl,lkdc,dcmk,abin->abij" [(ESlice (EVar "g_aaaa") [SV "o"; SV "o"; SV "o"; SV "o"]); (EVar "l2_abab"); (EVar "t2_abab"); (EVar "t2_aaaa")]));
   (*L69*) SAug true "doubles_res" (EAdd (EScale (1 # 1) (EVar "contracted_intermediate")) (EScale (-1 # 1) (EEins "abij->abji" [(EVar "contracted_intermediate")])));
   (*L72*) SAssign "contracted_intermediate" (EScale (1 # 2) (EEins "nmjl,lkcd,cdmk,abin->abij" [(ESlice (EVar "g_aaaa") [SV "o"; SV "o"; SV "o"; SV "o"]); (EVar "l2_abab"); (EVar "t2_abab"); (EVar "t2_aaaa")]));
   (*L73*) SAug true "doubles_res" (EAdd (EScale (1 # 1) (EVar "contracted_intermediate")) (EScale (-1 # 1) (EEins "abij->abji" [(EVar "contracted_intermediate")])));
   (*L76*) SAssign "contracted_intermediate" (EScale (1 # 2) (EEins "nmjl,kldc,dckm,abin->abij" [(ESlice (EVar "g_abab") [SV "o"; SV "o"; SV "o"; SV "o"]); (EVar "l2_bbbb"); (EVar "t2_bbbb"); (EVar "t2_aaaa")]));
   (*L77*) SAug true "doubles_res" (EAdd (EScale (1 # 1) (EVar "contracted_intermediate")) (EScale (-1 # 1) (EEins "abij->abji" [(EVar "contracted_intermediate")])));
   (*L80*) SAssign "contracted_intermediate" (EScale (-1 # 2) (EEins "nmjl,kldc,dcim,abkn->abij" [(ESlice (EVar "g_aaaa") [SV "o"; SV "o"; SV "o"; SV "o"]); (EVar "l2_aaaa"); (EVar "t2_aaaa"); (EVar "t2_aaaa")]));
   (*L81*) SAug true "doubles_res" (EAdd (EScale (1 # 1) (EVar "contracted_intermediate")) (EScale (-1 # 1) (EEins "abij->abji" [(EVar "contracted_intermediate")])));
   (*L84*) SAssign "contracted_intermediate" (EScale (-1 # 2) (EEins "nmjl,kldc,dcim,abkn->abij" [(ESlice (EVar "g_abab") [SV "o"; SV "o"; SV "o"; SV "o"]); (EVar "l2_abab"); (EVar "t2_abab"); (EVar "t2_aaaa")]));
   (*L85*) SAug true "doubles_res" (EAdd (EScale (1 # 1) (EVar "contracted_intermediate")) (EScale (-1 # 1) (EEins "abij->abji" [(EVar "contracted_intermediate")])));
   (*L88*) SAssign "contracted_intermediate" (EScale (-1 # 2) (EEins "nmjl,klcd,cdim,abkn->abij" [(ESlice (EVar "g_abab") [SV "o"; SV "o"; SV "o"; SV "o"]); (EVar "l2_abab"); (EVar "t2_abab"); (EVar "t2_aaaa")]));
   (*L89*) SAug true "doubles_res" (EAdd (EScale (1 # 1) (EVar "contracted_intermediate")) (EScale (-1 # 1) (EEins "abij->abji" [(EVar "contracted_intermediate")])));
   (*L92*) SAssign "contracted_intermediate" (EScale (-1 # 1) (EEins "nmjl,kldc,dakm,cbin->abij" [(ESlice (EVar "g_aaaa") [SV "o"; SV "o"; SV "o"; SV "o"]); (EVar "l2_aaaa"); (EVar "t2_aaaa"); (EVar "t2_aaaa")]));
   (*L93*) SAug true "doubles_res" (EAdd (EScale (1 # 1) (EVar "contracted_intermediate")) (EScale (-1 # 1) (EEins "abij->abji" [(EVar "contracted_intermediate")])));
   (*L96*) SAssign "contracted_intermediate" (EScale (-1 # 1) (EEins "mnjl,kldc,dakm,bcin->abij" [(ESlice (EVar "g_abab") [SV "o"; SV "o"; SV "o"; SV "o"]); (EVar "l2_abab"); (EVar "t2_aaaa"); (EVar "t2_abab")]));
   (*L97*) SAug true "doubles_res" (EAdd (EScale (1 # 1) (EVar "contracted_intermediate")) (EScale (-1 # 1) (EEins "abij->abji" [(EVar "contracted_intermediate")])));
   (*L100*) SAssign "contracted_intermediate" (EScale (-1 # 1) (EEins "nmjl,klcd,adkm,cbin->abij" [(ESlice (EVar "g_abab") [SV "o"; SV "o"; SV "o"; SV "o"]); (EVar "l2_abab"); (EVar "t2_abab"); (EVar "t2_aaaa")]));
   (*L101*) SAug true "doubles_res" (EAdd (EScale (1 # 1) (EVar "contracted_intermediate")) (EScale (-1 # 1) (EEins "abij->abji" [(EVar "contracted_intermediate")])));
   (*L104*) SAssign "contracted_intermediate" (EScale (-1 # 1) (EEins "nmjl,lkcd,admk,cbin->abij" [(ESlice (EVar "g_aaaa") [SV "o"; SV "o"; SV "o"; SV "o"]); (EVar "l2_abab"); (EVar "t2_abab"); (EVar "t2_aaaa")]));
   (*L105*) SAug true "doubles_res" (EAdd (EScale (1 # 1) (EVar "contracted_intermediate")) (EScale (-1 # 1) (EEins "abij->abji" [(EVar "contracted_intermediate")])));
   (*L108*) SAssign "contracted_intermediate" (EScale (-1 # 1) (EEins "mnjl,kldc,admk,bcin->abij" [(ESlice (EVar "g_abab") [SV "o"; SV "o"; SV "o"; SV "o"]); (EVar "l2_bbbb"); (EVar "t2_abab"); (EVar "t2_abab")]));
   (*L109*) SAug true "doubles_res" (EAdd (EScale (1 # 1) (EVar "contracted_intermediate")) (EScale (-1 # 1) (EEins "abij->abji" [(EVar "contracted_intermediate")])));
   (*L112*) SAssign "contracted_intermediate" (EScale (1 # 1) (EEins "nmjl,kldc,daim,cbkn->abij" [(ESlice (EVar "g_aaaa") [SV "o"; SV "o"; SV "o"; SV "o"]); (EVar "l2_aaaa"); (EVar "t2_aaaa"); (EVar "t2_aaaa")]));
   (*L113*) SAug true "doubles_res" (EAdd (EScale (1 # 1) (EVar "contracted_intermediate")) (EScale (-1 # 1) (EEins "abij->abji" [(EVar "contracted_intermediate")])));
   (*L116*) SAssign "contracted_intermediate" (EScale (1 # 1) (EEins "mnjl,kldc,daim,bckn->abij" [(ESlice (EVar "g_abab") [SV "o"; SV "o"; SV "o"; SV "o"]); (EVar "l2_abab"); (EVar "t2_aaaa"); (EVar "t2_abab")]));
   (*L117*) SAug true "doubles_res" (EAdd (EScale (1 # 1) (EVar "contracted_intermediate")) (EScale (-1 # 1) (EEins "abij->abji" [(EVar "contracted_intermediate")])));
   (*L120*) SAssign "contracted_intermediate" (EScale (1 # 1) (EEins "nmjl,klcd,adim,cbkn->abij" [(ESlice (EVar "g_abab") [SV "o"; SV "o"; SV "o"; SV "o"]); (EVar "l2_abab"); (EVar "t2_abab"); (EVar "t2_aaaa")]));
   (*L121*) SAug true "doubles_res" (EAdd (EScale (1 # 1) (EVar "contracted_intermediate")) (EScale (-1 # 1) (EEins "abij->abji" [(EVar "contracted_intermediate")])));
   (*L124*) SAssign "contracted_intermediate" (EScale (-1 # 1) (EEins "nmjl,lkdc,daim,bcnk->abij" [(ESlice (EVar "g_aaaa") [SV "o"; SV "o"; SV "o"; SV "o"]); (EVar "l2_abab"); (EVar "t2_aaaa"); (EVar "t2_abab")]));
   (*L125*) SAug true "doubles_res" (EAdd (EScale (1 # 1) (EVar "contracted_intermediate")) (EScale (-1 # 1) (EEins "abij->abji" [(EVar "contracted_intermediate")])));
   (*L128*) SAssign "contracted_intermediate" (EScale (-1 # 1) (EEins "nmjl,kldc,adim,bcnk->abij" [(ESlice (EVar "g_abab") [SV "o"; SV "o"; SV "o"; SV "o"]); (EVar "l2_bbbb"); (EVar "t2_abab"); (EVar "t2_abab")]));
   (*L129*) SAug true "doubles_res" (EAdd (EScale (1 # 1) (EVar "contracted_intermediate")) (EScale (-1 # 1) (EEins "abij->abji" [(EVar "contracted_intermediate")])));
   (*L132*) SAug true "doubles_res" (EScale (-1 # 2) (EEins "nmij,kldc,dclm,abkn->abij" [(ESlice (EVar "g_aaaa") [SV "o"; SV "o"; SV "o"; SV "o"]); (EVar "l2_aaaa"); (EVar "t2_aaaa"); (EVar "t2_aaaa")]));
   (*L135*) SAug true "doubles_res" (EScale (1 # 2) (EEins "nmij,kldc,dcml,abkn->abij" [(ESlice (EVar "g_aaaa") [SV "o"; SV "o"; SV "o"; SV "o"]); (EVar "l2_abab"); (EVar "t2_abab"); (EVar "t2_aaaa")]));
   (*L138*) SAug true "doubles_res" (EScale (1 # 2) (EEins "nmij,klcd,cdml,abkn->abij" [(ESlice (EVar "g_aaaa") [SV "o"; SV "o"; SV "o"; SV "o"]); (EVar "l2_abab"); (EVar "t2_abab"); (EVar "t2_aaaa")]));
   (*L141*) SAssign "contracted_intermediate" (EScale (1 # 2) (EEins "nmij,kldc,dalm,cbkn->abij" [(ESlice (EVar "g_aaaa") [SV "o"; SV "o"; SV "o"; SV "o"]); (EVar "l2_aaaa"); (EVar "t2_aaaa"); (EVar "t2_aaaa")]));
   (*L142*) SAug true "doubles_res" (EAdd (EScale (1 # 1) (EVar "contracted_intermediate")) (EScale (-1 # 1) (EEins "abij->baij" [(EVar "contracted_intermediate")])));
   (*L145*) SAssign "contracted_intermediate" (EScale (-1 # 2) (EEins "nmij,klcd,adml,cbkn->abij" [(ESlice (EVar "g_aaaa") [SV "o"; SV "o"; SV "o"; SV "o"]); (EVar "l2_abab"); (EVar "t2_abab"); (EVar "t2_aaaa")]));
   (*L146*) SAug true "doubles_res" (EAdd (EScale (1 # 1) (EVar "contracted_intermediate")) (EScale (-1 # 1) (EEins "abij->baij" [(EVar "contracted_intermediate")])));
   (*L149*) SAssign "contracted_intermediate" (EScale (-1 # 2) (EEins "nmij,lkdc,dalm,bcnk->abij" [(ESlice (EVar "g_aaaa") [SV "o"; SV "o"; SV "o"; SV "o"]); (EVar "l2_abab"); (EVar "t2_aaaa"); (EVar "t2_abab")]));
   (*L150*) SAug true "doubles_res" (EAdd (EScale (1 # 1) (EVar "contracted_intermediate")) (EScale (-1 # 1) (EEins "abij->baij" [(EVar "contracted_intermediate")])));
   (*L153*) SAssign "contracted_intermediate" (EScale (1 # 2) (EEins "nmij,kldc,adml,bcnk->abij" [(ESlice (EVar "g_aaaa") [SV "o"; SV "o"; SV "o"; SV "o"]); (EVar "l2_bbbb"); (EVar "t2_abab"); (EVar "t2_abab")]));
   (*L154*) SAug true "doubles_res" (EAdd (EScale (1 # 1) (EVar "contracted_intermediate")) (EScale (-1 # 1) (EEins "abij->baij" [(EVar "contracted_intermediate")])));
   (*L157*) SAssign "contracted_intermediate" (EScale (1 # 1) (EEins "mdel,kldc,ecjk,abim->abij" [(ESlice (EVar "g_aaaa") [SV "o"; SV "v"; SV "v"; SV "o"]); (EVar "l2_aaaa"); (EVar "t2_aaaa"); (EVar "t2_aaaa")]));
   (*L158*) SAug true "doubles_res" (EAdd (EScale (1 # 1) (EVar "contracted_intermediate")) (EScale (-1 # 1) (EEins "abij->abji" [(EVar "contracted_intermediate")])));
   (*L161*) SAssign "contracted_intermediate" (EScale (-1 # 1) (EEins "mdel,klcd,ecjk,abim->abij" [(ESlice (EVar "g_abab") [SV "o"; SV "v"; SV "v"; SV "o"]); (EVar "l2_abab"); (EVar "t2_aaaa"); (EVar "t2_aaaa")]));
   (*L162*) SAug true "doubles_res" (EAdd (EScale (1 # 1) (EVar "contracted_intermediate")) (EScale (-1 # 1) (EEins "abij->abji" [(EVar "contracted_intermediate")])));
   (*L165*) SAssign "contracted_intermediate" (EScale (-1 # 1) (EEins "mdel,lkdc,ecjk,abim->abij" [(ESlice (EVar "g_aaaa") [SV "o"; SV "v"; SV "v"; SV "o"]); (EVar "l2_abab"); (EVar "t2_abab"); (EVar "t2_aaaa")]));
   (*L166*) SAug true "doubles_res" (EAdd (EScale (1 # 1) (EVar "contracted_intermediate")) (EScale (-1 # 1) (EEins "abij->abji" [(EVar "contracted_intermediate")])));
   (*L169*) SAssign "contracted_intermediate" (EScale (1 # 1) (EEins "mdle,lkcd,cejk,abim->abij" [(ESlice (EVar "g_abab") [SV "o"; SV "v"; SV "o"; SV "v"]); (EVar "l2_abab"); (EVar "t2_abab"); (EVar "t2_aaaa")]));
   (*L170*) SAug true "doubles_res" (EAdd (EScale (1 # 1) (EVar "contracted_intermediate")) (EScale (-1 # 1) (EEins "abij->abji" [(EVar "contracted_intermediate")])));
   (*L173*) SAssign "contracted_intermediate" (EScale (1 # 1) (EEins "mdel,kldc,ecjk,abim->abij" [(ESlice (EVar "g_abab") [SV "o"; SV "v"; SV "v"; SV "o"]); (EVar "l2_bbbb"); (EVar "t2_abab"); (EVar "t2_aaaa")]));
   (*L174*) SAug true "doubles_res" (EAdd (EScale (1 # 1) (EVar "contracted_intermediate")) (EScale (-1 # 1) (EEins "abij->abji" [(EVar "contracted_intermediate")])));
   (*L177*) SAug true "doubles_res" (EScale (1 # 1) (EEins "mdel,kldc,ecij,abkm->abij" [(ESlice (EVar "g_aaaa") [SV "o"; SV "v"; SV "v"; SV "o"]); (EVar "l2_aaaa"); (EVar "t2_aaaa"); (EVar "t2_aaaa")]));
   (*L180*) SAug true "doubles_res" (EScale (-1 # 1) (EEins "mdel,klcd,ecij,abkm->abij" [(ESlice (EVar "g_abab") [SV "o"; SV "v"; SV "v"; SV "o"]); (EVar "l2_abab"); (EVar "t2_aaaa"); (EVar "t2_aaaa")]));
   (*L183*) SAssign "contracted_intermediate" (EScale (-1 # 1) (EEins "mdel,kldc,eajk,cbim->abij" [(ESlice (EVar "g_aaaa") [SV "o"; SV "v"; SV "v"; SV "o"]); (EVar "l2_aaaa"); (EVar "t2_aaaa"); (EVar "t2_aaaa")]));
   (*L184*) SAug true "doubles_res" (EAdd (EAdd (EAdd (EScale (1 # 1) (EVar "contracted_intermediate")) (EScale (-1 # 1) (EEins "abij->abji" [(EVar "contracted_intermediate")]))) (EScale (-1 # 1) (EEins "abij->baij" [(EVar "contracted_intermediate")]))) (EScale (1 # 1) (EEins "abij->baji" [(EVar "contracted_intermediate")])));
   (*L187*) SAssign "contracted_intermediate" (EScale (-1 # 1) (EEins "dmel,kldc,eajk,bcim->abij" [(ESlice (EVar "g_abab") [SV "v"; SV "o"; SV "v"; SV "o"]); (EVar "l2_abab"); (EVar "t2_aaaa"); (EVar "t2_abab")]));
   (*L188*) SAug true "doubles_res" (EAdd (EAdd (EAdd (EScale (1 # 1) (EVar "contracted_intermediate")) (EScale (-1 # 1) (EEins "abij->abji" [(EVar "contracted_intermediate")]))) (EScale (-1 # 1) (EEins "abij->baij" [(EVar "contracted_intermediate")]))) (EScale (1 # 1) (EEins "abij->baji" [(EVar "contracted_intermediate")])));
   (*L191*) SAssign "contracted_intermediate" (EScale (1 # 1) (EEins "mdel,klcd,eajk,cbim->abij" [(ESlice (EVar "g_abab") [SV "o"; SV "v"; SV "v"; SV "o"]); (EVar "l2_abab"); (EVar "t2_aaaa"); (EVar "t2_aaaa")]));
   (*L192*) SAug true "doubles_res" (EAdd (EAdd (EAdd (EScale (1 # 1) (EVar "contracted_intermediate")) (EScale (-1 # 1) (EEins "abij->abji" [(EVar "contracted_intermediate")]))) (EScale (-1 # 1) (EEins "abij->baij" [(EVar "contracted_intermediate")]))) (EScale (1 # 1) (EEins "abij->baji" [(EVar "contracted_intermediate")])));
   (*L195*) SAssign "contracted_intermediate" (EScale (1 # 1) (EEins "dmle,lkdc,aejk,bcim->abij" [(ESlice (EVar "g_abab") [SV "v"; SV "o"; SV "o"; SV "v"]); (EVar "l2_abab"); (EVar "t2_abab"); (EVar "t2_abab")]));
   (*L196*) SAug true "doubles_res" (EAdd (EAdd (EAdd (EScale (1 # 1) (EVar "contracted_intermediate")) (EScale (-1 # 1) (EEins "abij->abji" [(EVar "contracted_intermediate")]))) (EScale (-1 # 1) (EEins "abij->baij" [(EVar "contracted_intermediate")]))) (EScale (1 # 1) (EEins "abij->baji" [(EVar "contracted_intermediate")])));
   (*L199*) SAssign "contracted_intermediate" (EScale (-1 # 1) (EEins "mdle,lkcd,aejk,cbim->abij" [(ESlice (EVar "g_abab") [SV "o"; SV "v"; SV "o"; SV "v"]); (EVar "l2_abab"); (EVar "t2_abab"); (EVar "t2_aaaa")]));
   (*L200*) SAug true "doubles_res" (EAdd (EAdd (EAdd (EScale (1 # 1) (EVar "contracted_intermediate")) (EScale (-1 # 1) (EEins "abij->abji" [(EVar "contracted_intermediate")]))) (EScale (-1 # 1) (EEins "abij->baij" [(EVar "contracted_intermediate")]))) (EScale (1 # 1) (EEins "abij->baji" [(EVar "contracted_intermediate")])));
   (*L203*) SAssign "contracted_intermediate" (EScale (-1 # 1) (EEins "mdel,kldc,aejk,bcim->abij" [(ESlice (EVar "g_bbbb") [SV "o"; SV "v"; SV "v"; SV "o"]); (EVar "l2_bbbb"); (EVar "t2_abab"); (EVar "t2_abab")]));
   (*L204*) SAug true "doubles_res" (EAdd (EAdd (EAdd (EScale (1 # 1) (EVar "contracted_intermediate")) (EScale (-1 # 1) (EEins "abij->abji" [(EVar "contracted_intermediate")]))) (EScale (-1 # 1) (EEins "abij->baij" [(EVar "contracted_intermediate")]))) (EScale (1 # 1) (EEins "abij->baji" [(EVar "contracted_intermediate")])));
   (*L207*) SAssign "contracted_intermediate" (EScale (-1 # 1) (EEins "mdel,kldc,eaij,cbkm->abij" [(ESlice (EVar "g_aaaa") [SV "o"; SV "v"; SV "v"; SV "o"]); (EVar "l2_aaaa"); (EVar "t2_aaaa"); (EVar "t2_aaaa")]));
   (*L208*) SAug true "doubles_res" (EAdd (EScale (1 # 1) (EVar "contracted_intermediate")) (EScale (-1 # 1) (EEins "abij->baij" [(EVar "contracted_intermediate")])));
   (*L211*) SAssign "contracted_intermediate" (EScale (-1 # 1) (EEins "dmel,kldc,eaij,bckm->abij" [(ESlice (EVar "g_abab") [SV "v"; SV "o"; SV "v"; SV "o"]); (EVar "l2_abab"); (EVar "t2_aaaa"); (EVar "t2_abab")]));
   (*L212*) SAug true "doubles_res" (EAdd (EScale (1 # 1) (EVar "contracted_intermediate")) (EScale (-1 # 1) (EEins "abij->baij" [(EVar "contracted_intermediate")])));
   (*L215*) SAssign "contracted_intermediate" (EScale (1 # 1) (EEins "mdel,klcd,eaij,cbkm->abij" [(ESlice (EVar "g_abab") [SV "o"; SV "v"; SV "v"; SV "o"]); (EVar "l2_abab"); (EVar "t2_aaaa"); (EVar "t2_aaaa")]));
   (*L216*) SAug true "doubles_res" (EAdd (EScale (1 # 1) (EVar "contracted_intermediate")) (EScale (-1 # 1) (EEins "abij->baij" [(EVar "contracted_intermediate")])));
   (*L219*) SAssign "contracted_intermediate" (EScale (1 # 1) (EEins "mdel,lkdc,eaij,bcmk->abij" [(ESlice (EVar "g_aaaa") [SV "o"; SV "v"; SV "v"; SV "o"]); (EVar "l2_abab"); (EVar "t2_aaaa"); (EVar "t2_abab")]));
   (*L220*) SAug true "doubles_res" (EAdd (EScale (1 # 1) (EVar "contracted_intermediate")) (EScale (-1 # 1) (EEins "abij->baij" [(EVar "contracted_intermediate")])));
   (*L223*) SAssign "contracted_intermediate" (EScale (-1 # 1) (EEins "mdel,kldc,eaij,bcmk->abij" [(ESlice (EVar "g_abab") [SV "o"; SV "v"; SV "v"; SV "o"]); (EVar "l2_bbbb"); (EVar "t2_aaaa"); (EVar "t2_abab")]));
   (*L224*) SAug true "doubles_res" (EAdd (EScale (1 # 1) (EVar "contracted_intermediate")) (EScale (-1 # 1) (EEins "abij->baij" [(EVar "contracted_intermediate")])));
   (*L227*) SAssign "contracted_intermediate" (EScale (1 # 2) (EEins "mdej,kldc,eckl,abim->abij" [(ESlice (EVar "g_aaaa") [SV "o"; SV "v"; SV "v"; SV "o"]); (EVar "l2_aaaa"); (EVar "t2_aaaa"); (EVar "t2_aaaa")]));
   (*L228*) SAug true "doubles_res" (EAdd (EScale (1 # 1) (EVar "contracted_intermediate")) (EScale (-1 # 1) (EEins "abij->abji" [(EVar "contracted_intermediate")])));
   (*L231*) SAssign "contracted_intermediate" (EScale (1 # 2) (EEins "mdej,kldc,eckl,abim->abij" [(ESlice (EVar "g_aaaa") [SV "o"; SV "v"; SV "v"; SV "o"]); (EVar "l2_abab"); (EVar "t2_abab"); (EVar "t2_aaaa")]));
   (*L232*) SAug true "doubles_res" (EAdd (EScale (1 # 1) (EVar "contracted_intermediate")) (EScale (-1 # 1) (EEins "abij->abji" [(EVar "contracted_intermediate")])));
   (*L235*) SAssign "contracted_intermediate" (EScale (-1 # 2) (EEins "mdje,klcd,cekl,abim->abij" [(ESlice (EVar "g_abab") [SV "o"; SV "v"; SV "o"; SV "v"]); (EVar "l2_abab"); (EVar "t2_abab"); (EVar "t2_aaaa")]));
   (*L236*) SAug true "doubles_res" (EAdd (EScale (1 # 1) (EVar "contracted_intermediate")) (EScale (-1 # 1) (EEins "abij->abji" [(EVar "contracted_intermediate")])));
   (*L239*) SAssign "contracted_intermediate" (EScale (1 # 2) (EEins "mdej,lkdc,eclk,abim->abij" [(ESlice (EVar "g_aaaa") [SV "o"; SV "v"; SV "v"; SV "o"]); (EVar "l2_abab"); (EVar "t2_abab"); (EVar "t2_aaaa")]));
   (*L240*) SAug true "doubles_res" (EAdd (EScale (1 # 1) (EVar "contracted_intermediate")) (EScale (-1 # 1) (EEins "abij->abji" [(EVar "contracted_intermediate")])));
   (*L243*) SAssign "contracted_intermediate" (EScale (-1 # 2) (EEins "mdje,lkcd,celk,abim->abij" [(ESlice (EVar "g_abab") [SV "o"; SV "v"; SV "o"; SV "v"]); (EVar "l2_abab"); (EVar "t2_abab"); (EVar "t2_aaaa")]));
   (*L244*) SAug true "doubles_res" (EAdd (EScale (1 # 1) (EVar "contracted_intermediate")) (EScale (-1 # 1) (EEins "abij->abji" [(EVar "contracted_intermediate")])));
   (*L247*) SAssign "contracted_intermediate" (EScale (-1 # 2) (EEins "mdje,kldc,eckl,abim->abij" [(ESlice (EVar "g_abab") [SV "o"; SV "v"; SV "o"; SV "v"]); (EVar "l2_bbbb"); (EVar "t2_bbbb"); (EVar "t2_aaaa")]));
   (*L248*) SAug true "doubles_res" (EAdd (EScale (1 # 1) (EVar "contracted_intermediate")) (EScale (-1 # 1) (EEins "abij->abji" [(EVar "contracted_intermediate")])));
   (*L251*) SAssign "contracted_intermediate" (EScale (-1 # 1) (EEins "mdej,kldc,ecil,abkm->abij" [(ESlice (EVar "g_aaaa") [SV "o"; SV "v"; SV "v"; SV "o"]); (EVar "l2_aaaa"); (EVar "t2_aaaa"); (EVar "t2_aaaa")]));
   (*L252*) SAug true "doubles_res" (EAdd (EScale (1 # 1) (EVar "contracted_intermediate")) (EScale (-1 # 1) (EEins "abij->abji" [(EVar "contracted_intermediate")])));
   (*L255*) SAssign "contracted_intermediate" (EScale (-1 # 1) (EEins "mdej,kldc,ecil,abkm->abij" [(ESlice (EVar "g_aaaa") [SV "o"; SV "v"; SV "v"; SV "o"]); (EVar "l2_abab"); (EVar "t2_abab"); (EVar "t2_aaaa")]));
   (*L256*) SAug true "doubles_res" (EAdd (EScale (1 # 1) (EVar "contracted_intermediate")) (EScale (-1 # 1) (EEins "abij->abji" [(EVar "contracted_intermediate")])));
   (*L259*) SAssign "contracted_intermediate" (EScale (1 # 1) (EEins "mdje,klcd,ceil,abkm->abij" [(ESlice (EVar "g_abab") [SV "o"; SV "v"; SV "o"; SV "v"]); (EVar "l2_abab"); (EVar "t2_abab"); (EVar "t2_aaaa")]));
   (*L260*) SAug true "doubles_res" (EAdd (EScale (1 # 1) (EVar "contracted_intermediate")) (EScale (-1 # 1) (EEins "abij->abji" [(EVar "contracted_intermediate")])));
   (*L263*) SAssign "contracted_intermediate" (EScale (-1 # 2) (EEins "mdej,kldc,eakl,cbim->abij" [(ESlice (EVar "g_aaaa") [SV "o"; SV "v"; SV "v"; SV "o"]); (EVar "l2_aaaa"); (EVar "t2_aaaa"); (EVar "t2_aaaa")]));
   (*L264*) SAug true "doubles_res" (EAdd (EAdd (EAdd (EScale (1 # 1) (EVar "contracted_intermediate")) (EScale (-1 # 1) (EEins "abij->abji" [(EVar "contracted_intermediate")]))) (EScale (-1 # 1) (EEins "abij->baij" [(EVar "contracted_intermediate")]))) (EScale (1 # 1) (EEins "abij->baji" [(EVar "contracted_intermediate")])));
   (*L267*) SAssign "contracted_intermediate" (EScale (-1 # 2) (EEins "dmje,kldc,aekl,bcim->abij" [(ESlice (EVar "g_abab") [SV "v"; SV "o"; SV "o"; SV "v"]); (EVar "l2_abab"); (EVar "t2_abab"); (EVar "t2_abab")]));
   (*L268*) SAug true "doubles_res" (EAdd (EAdd (EAdd (EScale (1 # 1) (EVar "contracted_intermediate")) (EScale (-1 # 1) (EEins "abij->abji" [(EVar "contracted_intermediate")]))) (EScale (-1 # 1) (EEins "abij->baij" [(EVar "contracted_intermediate")]))) (EScale (1 # 1) (EEins "abij->baji" [(EVar "contracted_intermediate")])));
   (*L271*) SAssign "contracted_intermediate" (EScale (1 # 2) (EEins "mdje,klcd,aekl,cbim->abij" [(ESlice (EVar "g_abab") [SV "o"; SV "v"; SV "o"; SV "v"]); (EVar "l2_abab"); (EVar "t2_abab"); (EVar "t2_aaaa")]));
   (*L272*) SAug true "doubles_res" (EAdd (EAdd (EAdd (EScale (1 # 1) (EVar "contracted_intermediate")) (EScale (-1 # 1) (EEins "abij->abji" [(EVar "contracted_intermediate")]))) (EScale (-1 # 1) (EEins "abij->baij" [(EVar "contracted_intermediate")]))) (EScale (1 # 1) (EEins "abij->baji" [(EVar "contracted_intermediate")])));
   (*L275*) SAssign "contracted_intermediate" (EScale (-1 # 2) (EEins "dmje,lkdc,aelk,bcim->abij" [(ESlice (EVar "g_abab") [SV "v"; SV "o"; SV "o"; SV "v"]); (EVar "l2_abab"); (EVar "t2_abab"); (EVar "t2_abab")]));
   (*L276*) SAug true "doubles_res" (EAdd (EAdd (EAdd (EScale (1 # 1) (EVar "contracted_intermediate")) (EScale (-1 # 1) (EEins "abij->abji" [(EVar "contracted_intermediate")]))) (EScale (-1 # 1) (EEins "abij->baij" [(EVar "contracted_intermediate")]))) (EScale (1 # 1) (EEins "abij->baji" [(EVar "contracted_intermediate")])));
   (*L279*) SAssign "contracted_intermediate" (EScale (1 # 2) (EEins "mdje,lkcd,aelk,cbim->abij" [(ESlice (EVar "g_abab") [SV "o"; SV "v"; SV "o"; SV "v"]); (EVar "l2_abab"); (EVar "t2_abab"); (EVar "t2_aaaa")]));
   (*L280*) SAug true "doubles_res" (EAdd (EAdd (EAdd (EScale (1 # 1) (EVar "contracted_intermediate")) (EScale (-1 # 1) (EEins "abij->abji" [(EVar "contracted_intermediate")]))) (EScale (-1 # 1) (EEins "abij->baij" [(EVar "contracted_intermediate")]))) (EScale (1 # 1) (EEins "abij->baji" [(EVar "contracted_intermediate")])));
   (*L283*) SAssign "contracted_intermediate" (EScale (1 # 1) (EEins "mdej,kldc,eail,cbkm->abij" [(ESlice (EVar "g_aaaa") [SV "o"; SV "v"; SV "v"; SV "o"]); (EVar "l2_aaaa"); (EVar "t2_aaaa"); (EVar "t2_aaaa")]));
   (*L284*) SAug true "doubles_res" (EAdd (EAdd (EAdd (EScale (1 # 1) (EVar "contracted_intermediate")) (EScale (-1 # 1) (EEins "abij->abji" [(EVar "contracted_intermediate")]))) (EScale (-1 # 1) (EEins "abij->baij" [(EVar "contracted_intermediate")]))) (EScale (1 # 1) (EEins "abij->baji" [(EVar "contracted_intermediate")])));
   (*L287*) SAssign "contracted_intermediate" (EScale (1 # 1) (EEins "dmje,kldc,aeil,bckm->abij" [(ESlice (EVar "g_abab") [SV "v"; SV "o"; SV "o"; SV "v"]); (EVar "l2_abab"); (EVar "t2_abab"); (EVar "t2_abab")]));
   (*L288*) SAug true "doubles_res" (EAdd (EAdd (EAdd (EScale (1 # 1) (EVar "contracted_intermediate")) (EScale (-1 # 1) (EEins "abij->abji" [(EVar "contracted_intermediate")]))) (EScale (-1 # 1) (EEins "abij->baij" [(EVar "contracted_intermediate")]))) (EScale (1 # 1) (EEins "abij->baji" [(EVar "contracted_intermediate")])));
   (*L291*) SAssign "contracted_intermediate" (EScale (-1 # 1) (EEins "mdje,klcd,aeil,cbkm->abij" [(ESlice (EVar "g_abab") [SV "o"; SV "v"; SV "o"; SV "v"]); (EVar "l2_abab"); (EVar "t2_abab"); (EVar "t2_aaaa")]));
   (*L292*) SAug true "doubles_res" (EAdd (EAdd (EAdd (EScale (1 # 1) (EVar "contracted_intermediate")) (EScale (-1 # 1) (EEins "abij->abji" [(EVar "contracted_intermediate")]))) (EScale (-1 # 1) (EEins "abij->baij" [(EVar "contracted_intermediate")]))) (EScale (1 # 1) (EEins "abij->baji" [(EVar "contracted_intermediate")])));
   (*L295*) SAssign "contracted_intermediate" (EScale (-1 # 1) (EEins "mdej,lkdc,eail,bcmk->abij" [(ESlice (EVar "g_aaaa") [SV "o"; SV "v"; SV "v"; SV "o"]); (EVar "l2_abab"); (EVar "t2_aaaa"); (EVar "t2_abab")]));
   (*L296*) SAug true "doubles_res" (EAdd (EAdd (EAdd (EScale (1 # 1) (EVar "contracted_intermediate")) (EScale (-1 # 1) (EEins "abij->abji" [(EVar "contracted_intermediate")]))) (EScale (-1 # 1) (EEins "abij->baij" [(EVar "contracted_intermediate")]))) (EScale (1 # 1) (EEins "abij->baji" [(EVar "contracted_intermediate")])));
   (*L299*) SAssign "contracted_intermediate" (EScale (1 # 1) (EEins "mdje,kldc,aeil,bcmk->abij" [(ESlice (EVar "g_abab") [SV "o"; SV "v"; SV "o"; SV "v"]); (EVar "l2_bbbb"); (EVar "t2_abab"); (EVar "t2_abab")]));
   (*L300*) SAug true "doubles_res" (EAdd (EAdd (EAdd (EScale (1 # 1) (EVar "contracted_intermediate")) (EScale (-1 # 1) (EEins "abij->abji" [(EVar "contracted_intermediate")]))) (EScale (-1 # 1) (EEins "abij->baij" [(EVar "contracted_intermediate")]))) (EScale (1 # 1) (EEins "abij->baji" [(EVar "contracted_intermediate")])));
   (*L303*) SAssign "contracted_intermediate" (EScale (1 # 1) (EEins "mael,kldc,edjk,cbim->abij" [(ESlice (EVar "g_aaaa") [SV "o"; SV "v"; SV "v"; SV "o"]); (EVar "l2_aaaa"); (EVar "t2_aaaa"); (EVar "t2_aaaa")]));
   (*L304*) SAug true "doubles_res" (EAdd (EAdd (EAdd (EScale (1 # 1) (EVar "contracted_intermediate")) (EScale (-1 # 1) (EEins "abij->abji" [(EVar "contracted_intermediate")]))) (EScale (-1 # 1) (EEins "abij->baij" [(EVar "contracted_intermediate")]))) (EScale (1 # 1) (EEins "abij->baji" [(EVar "contracted_intermediate")])));
   (*L307*) SAssign "contracted_intermediate" (EScale (1 # 1) (EEins "amel,kldc,edjk,bcim->abij" [(ESlice (EVar "g_abab") [SV "v"; SV "o"; SV "v"; SV "o"]); (EVar "l2_abab"); (EVar "t2_aaaa"); (EVar "t2_abab")]));
   (*L308*) SAug true "doubles_res" (EAdd (EAdd (EAdd (EScale (1 # 1) (EVar "contracted_intermediate")) (EScale (-1 # 1) (EEins "abij->abji" [(EVar "contracted_intermediate")]))) (EScale (-1 # 1) (EEins "abij->baij" [(EVar "contracted_intermediate")]))) (EScale (1 # 1) (EEins "abij->baji" [(EVar "contracted_intermediate")])));
   (*L311*) SAssign "contracted_intermediate" (EScale (-1 # 1) (EEins "amle,lkdc,dejk,bcim->abij" [(ESlice (EVar "g_abab") [SV "v"; SV "o"; SV "o"; SV "v"]); (EVar "l2_abab"); (EVar "t2_abab"); (EVar "t2_abab")]));
   (*L312*) SAug true "doubles_res" (EAdd (EAdd (EAdd (EScale (1 # 1) (EVar "contracted_intermediate")) (EScale (-1 # 1) (EEins "abij->abji" [(EVar "contracted_intermediate")]))) (EScale (-1 # 1) (EEins "abij->baij" [(EVar "contracted_intermediate")]))) (EScale (1 # 1) (EEins "abij->baji" [(EVar "contracted_intermediate")])));
   (*L315*) SAssign "contracted_intermediate" (EScale (1 # 1) (EEins "mael,lkcd,edjk,cbim->abij" [(ESlice (EVar "g_aaaa") [SV "o"; SV "v"; SV "v"; SV "o"]); (EVar "l2_abab"); (EVar "t2_abab"); (EVar "t2_aaaa")]));
   (*L316*) SAug true "doubles_res" (EAdd (EAdd (EAdd (EScale (1 # 1) (EVar "contracted_intermediate")) (EScale (-1 # 1) (EEins "abij->abji" [(EVar "contracted_intermediate")]))) (EScale (-1 # 1) (EEins "abij->baij" [(EVar "contracted_intermediate")]))) (EScale (1 # 1) (EEins "abij->baji" [(EVar "contracted_intermediate")])));
   (*L319*) SAssign "contracted_intermediate" (EScale (1 # 1) (EEins "amel,kldc,edjk,bcim->abij" [(ESlice (EVar "g_abab") [SV "v"; SV "o"; SV "v"; SV "o"]); (EVar "l2_bbbb"); (EVar "t2_abab"); (EVar "t2_abab")]));
   (*L320*) SAug true "doubles_res" (EAdd (EAdd (EAdd (EScale (1 # 1) (EVar "contracted_intermediate")) (EScale (-1 # 1) (EEins "abij->abji" [(EVar "contracted_intermediate")]))) (EScale (-1 # 1) (EEins "abij->baij" [(EVar "contracted_intermediate")]))) (EScale (1 # 1) (EEins "abij->baji" [(EVar "contracted_intermediate")])));
   (*L323*) SAssign "contracted_intermediate" (EScale (1 # 1) (EEins "mael,kldc,edij,cbkm->abij" [(ESlice (EVar "g_aaaa") [SV "o"; SV "v"; SV "v"; SV "o"]); (EVar "l2_aaaa"); (EVar "t2_aaaa"); (EVar "t2_aaaa")]));
   (*L324*) SAug true "doubles_res" (EAdd (EScale (1 # 1) (EVar "contracted_intermediate")) (EScale (-1 # 1) (EEins "abij->baij" [(EVar "contracted_intermediate")])));
   (*L327*) SAssign "contracted_intermediate" (EScale (1 # 1) (EEins "amel,kldc,edij,bckm->abij" [(ESlice (EVar "g_abab") [SV "v"; SV "o"; SV "v"; SV "o"]); (EVar "l2_abab"); (EVar "t2_aaaa"); (EVar "t2_abab")]));
   (*L328*) SAug true "doubles_res" (EAdd (EScale (1 # 1) (EVar "contracted_intermediate")) (EScale (-1 # 1) (EEins "abij->baij" [(EVar "contracted_intermediate")])));
   (*L331*) SAssign "contracted_intermediate" (EScale (-1 # 1) (EEins "mael,lkdc,edij,bcmk->abij" [(ESlice (EVar "g_aaaa") [SV "o"; SV "v"; SV "v"; SV "o"]); (EVar "l2_abab"); (EVar "t2_aaaa"); (EVar "t2_abab")]));
   (*L332*) SAug true "doubles_res" (EAdd (EScale (1 # 1) (EVar "contracted_intermediate")) (EScale (-1 # 1) (EEins "abij->baij" [(EVar "contracted_intermediate")])));
   (*L335*) SAssign "contracted_intermediate" (EScale (1 # 2) (EEins "mael,kldc,ebjk,dcim->abij" [(ESlice (EVar "g_aaaa") [SV "o"; SV "v"; SV "v"; SV "o"]); (EVar "l2_aaaa"); (EVar "t2_aaaa"); (EVar "t2_aaaa")]));
   (*L336*) SAug true "doubles_res" (EAdd (EAdd (EAdd (EScale (1 # 1) (EVar "contracted_intermediate")) (EScale (-1 # 1) (EEins "abij->abji" [(EVar "contracted_intermediate")]))) (EScale (-1 # 1) (EEins "abij->baij" [(EVar "contracted_intermediate")]))) (EScale (1 # 1) (EEins "abij->baji" [(EVar "contracted_intermediate")])));
   (*L339*) SAssign "contracted_intermediate" (EScale (-1 # 2) (EEins "amel,kldc,ebjk,dcim->abij" [(ESlice (EVar "g_abab") [SV "v"; SV "o"; SV "v"; SV "o"]); (EVar "l2_abab"); (EVar "t2_aaaa"); (EVar "t2_abab")]));
   (*L340*) SAug true "doubles_res" (EAdd (EAdd (EAdd (EScale (1 # 1) (EVar "contracted_intermediate")) (EScale (-1 # 1) (EEins "abij->abji" [(EVar "contracted_intermediate")]))) (EScale (-1 # 1) (EEins "abij->baij" [(EVar "contracted_intermediate")]))) (EScale (1 # 1) (EEins "abij->baji" [(EVar "contracted_intermediate")])));
   (*L343*) SAssign "contracted_intermediate" (EScale (-1 # 2) (EEins "amel,klcd,ebjk,cdim->abij" [(ESlice (EVar "g_abab") [SV "v"; SV "o"; SV "v"; SV "o"]); (EVar "l2_abab"); (EVar "t2_aaaa"); (EVar "t2_abab")]));
   (*L344*) SAug true "doubles_res" (EAdd (EAdd (EAdd (EScale (1 # 1) (EVar "contracted_intermediate")) (EScale (-1 # 1) (EEins "abij->abji" [(EVar "contracted_intermediate")]))) (EScale (-1 # 1) (EEins "abij->baij" [(EVar "contracted_intermediate")]))) (EScale (1 # 1) (EEins "abij->baji" [(EVar "contracted_intermediate")])));
   (*L347*) SAssign "contracted_intermediate" (EScale (1 # 2) (EEins "amle,lkdc,bejk,dcim->abij" [(ESlice (EVar "g_abab") [SV "v"; SV "o"; SV "o"; SV "v"]); (EVar "l2_abab"); (EVar "t2_abab"); (EVar "t2_abab")]));
   (*L348*) SAug true "doubles_res" (EAdd (EAdd (EAdd (EScale (1 # 1) (EVar "contracted_intermediate")) (EScale (-1 # 1) (EEins "abij->abji" [(EVar "contracted_intermediate")]))) (EScale (-1 # 1) (EEins "abij->baij" [(EVar "contracted_intermediate")]))) (EScale (1 # 1) (EEins "abij->baji" [(EVar "contracted_intermediate")])));
   (*L351*) SAssign "contracted_intermediate" (EScale (1 # 2) (EEins "amle,lkcd,bejk,cdim->abij" [(ESlice (EVar "g_abab") [SV "v"; SV "o"; SV "o"; SV "v"]); (EVar "l2_abab"); (EVar "t2_abab"); (EVar "t2_abab")]));
   (*L352*) SAug true "doubles_res" (EAdd (EAdd (EAdd (EScale (1 # 1) (EVar "contracted_intermediate")) (EScale (-1 # 1) (EEins "abij->abji" [(EVar "contracted_intermediate")]))) (EScale (-1 # 1) (EEins "abij->baij" [(EVar "contracted_intermediate")]))) (EScale (1 # 1) (EEins "abij->baji" [(EVar "contracted_intermediate")])));
   (*L355*) SAssign "contracted_intermediate" (EScale (1 # 2) (EEins "mael,kldc,ebij,dckm->abij" [(ESlice (EVar "g_aaaa") [SV "o"; SV "v"; SV "v"; SV "o"]); (EVar "l2_aaaa"); (EVar "t2_aaaa"); (EVar "t2_aaaa")]));
   (*L356*) SAug true "doubles_res" (EAdd (EScale (1 # 1) (EVar "contracted_intermediate")) (EScale (-1 # 1) (EEins "abij->baij" [(EVar "contracted_intermediate")])));
   (*L359*) SAssign "contracted_intermediate" (EScale (-1 # 2) (EEins "amel,kldc,ebij,dckm->abij" [(ESlice (EVar "g_abab") [SV "v"; SV "o"; SV "v"; SV "o"]); (EVar "l2_abab"); (EVar "t2_aaaa"); (EVar "t2_abab")]));
   (*L360*) SAug true "doubles_res" (EAdd (EScale (1 # 1) (EVar "contracted_intermediate")) (EScale (-1 # 1) (EEins "abij->baij" [(EVar "contracted_intermediate")])));
   (*L363*) SAssign "contracted_intermediate" (EScale (-1 # 2) (EEins "amel,klcd,ebij,cdkm->abij" [(ESlice (EVar "g_abab") [SV "v"; SV "o"; SV "v"; SV "o"]); (EVar "l2_abab"); (EVar "t2_aaaa"); (EVar "t2_abab")]));
   (*L364*) SAug true "doubles_res" (EAdd (EScale (1 # 1) (EVar "contracted_intermediate")) (EScale (-1 # 1) (EEins "abij->baij" [(EVar "contracted_intermediate")])));
   (*L367*) SAssign "contracted_intermediate" (EScale (1 # 2) (EEins "mael,lkdc,ebij,dcmk->abij" [(ESlice (EVar "g_aaaa") [SV "o"; SV "v"; SV "v"; SV "o"]); (EVar "l2_abab"); (EVar "t2_aaaa"); (EVar "t2_abab")]));
   (*L368*) SAug true "doubles_res" (EAdd (EScale (1 # 1) (EVar "contracted_intermediate")) (EScale (-1 # 1) (EEins "abij->baij" [(EVar "contracted_intermediate")])));
   (*L371*) SAssign "contracted_intermediate" (EScale (1 # 2) (EEins "mael,lkcd,ebij,cdmk->abij" [(ESlice (EVar "g_aaaa") [SV "o"; SV "v"; SV "v"; SV "o"]); (EVar "l2_abab"); (EVar "t2_aaaa"); (EVar "t2_abab")]));
   (*L372*) SAug true "doubles_res" (EAdd (EScale (1 # 1) (EVar "contracted_intermediate")) (EScale (-1 # 1) (EEins "abij->baij" [(EVar "contracted_intermediate")])));
   (*L375*) SAssign "contracted_intermediate" (EScale (-1 # 2) (EEins "amel,kldc,ebij,dckm->abij" [(ESlice (EVar "g_abab") [SV "v"; SV "o"; SV "v"; SV "o"]); (EVar "l2_bbbb"); (EVar "t2_aaaa"); (EVar "t2_bbbb")]));
   (*L376*) SAug true "doubles_res" (EAdd (EScale (1 # 1) (EVar "contracted_intermediate")) (EScale (-1 # 1) (EEins "abij->baij" [(EVar "contracted_intermediate")])));
   (*L379*) SAssign "contracted_intermediate" (EScale (1 # 2) (EEins "maej,kldc,edkl,cbim->abij" [(ESlice (EVar "g_aaaa") [SV "o"; SV "v"; SV "v"; SV "o"]); (EVar "l2_aaaa"); (EVar "t2_aaaa"); (EVar "t2_aaaa")]));
   (*L380*) SAug true "doubles_res" (EAdd (EAdd (EAdd (EScale (1 # 1) (EVar "contracted_intermediate")) (EScale (-1 # 1) (EEins "abij->abji" [(EVar "contracted_intermediate")]))) (EScale (-1 # 1) (EEins "abij->baij" [(EVar "contracted_intermediate")]))) (EScale (1 # 1) (EEins "abij->baji" [(EVar "contracted_intermediate")])));
   (*L383*) SAssign "contracted_intermediate" (EScale (1 # 2) (EEins "amje,kldc,dekl,bcim->abij" [(ESlice (EVar "g_abab") [SV "v"; SV "o"; SV "o"; SV "v"]); (EVar "l2_abab"); (EVar "t2_abab"); (EVar "t2_abab")]));
   (*L384*) SAug true "doubles_res" (EAdd (EAdd (EAdd (EScale (1 # 1) (EVar "contracted_intermediate")) (EScale (-1 # 1) (EEins "abij->abji" [(EVar "contracted_intermediate")]))) (EScale (-1 # 1) (EEins "abij->baij" [(EVar "contracted_intermediate")]))) (EScale (1 # 1) (EEins "abij->baji" [(EVar "contracted_intermediate")])));
   (*L387*) SAssign "contracted_intermediate" (EScale (-1 # 2) (EEins "maej,klcd,edkl,cbim->abij" [(ESlice (EVar "g_aaaa") [SV "o"; SV "v"; SV "v"; SV "o"]); (EVar "l2_abab"); (EVar "t2_abab"); (EVar "t2_aaaa")]));
   (*L388*) SAug true "doubles_res" (EAdd (EAdd (EAdd (EScale (1 # 1) (EVar "contracted_intermediate")) (EScale (-1 # 1) (EEins "abij->abji" [(EVar "contracted_intermediate")]))) (EScale (-1 # 1) (EEins "abij->baij" [(EVar "contracted_intermediate")]))) (EScale (1 # 1) (EEins "abij->baji" [(EVar "contracted_intermediate")])));
   (*L391*) SAssign "contracted_intermediate" (EScale (1 # 2) (EEins "amje,lkdc,delk,bcim->abij" [(ESlice (EVar "g_abab") [SV "v"; SV "o"; SV "o"; SV "v"]); (EVar "l2_abab"); (EVar "t2_abab"); (EVar "t2_abab")]));
   (*L392*) SAug true "doubles_res" (EAdd (EAdd (EAdd (EScale (1 # 1) (EVar "contracted_intermediate")) (EScale (-1 # 1) (EEins "abij->abji" [(EVar "contracted_intermediate")]))) (EScale (-1 # 1) (EEins "abij->baij" [(EVar "contracted_intermediate")]))) (EScale (1 # 1) (EEins "abij->baji" [(EVar "contracted_intermediate")])));
   (*L395*) SAssign "contracted_intermediate" (EScale (-1 # 2) (EEins "maej,lkcd,edlk,cbim->abij" [(ESlice (EVar "g_aaaa") [SV "o"; SV "v"; SV "v"; SV "o"]); (EVar "l2_abab"); (EVar "t2_abab"); (EVar "t2_aaaa")]));
   (*L396*) SAug true "doubles_res" (EAdd (EAdd (EAdd (EScale (1 # 1) (EVar "contracted_intermediate")) (EScale (-1 # 1) (EEins "abij->abji" [(EVar "contracted_intermediate")]))) (EScale (-1 # 1) (EEins "abij->baij" [(EVar "contracted_intermediate")]))) (EScale (1 # 1) (EEins "abij->baji" [(EVar "contracted_intermediate")])));
   (*L399*) SAssign "contracted_intermediate" (EScale (-1 # 2) (EEins "amje,kldc,edkl,bcim->abij" [(ESlice (EVar "g_abab") [SV "v"; SV "o"; SV "o"; SV "v"]); (EVar "l2_bbbb"); (EVar "t2_bbbb"); (EVar "t2_abab")]));
   (*L400*) SAug true "doubles_res" (EAdd (EAdd (EAdd (EScale (1 # 1) (EVar "contracted_intermediate")) (EScale (-1 # 1) (EEins "abij->abji" [(EVar "contracted_intermediate")]))) (EScale (-1 # 1) (EEins "abij->baij" [(EVar "contracted_intermediate")]))) (EScale (1 # 1) (EEins "abij->baji" [(EVar "contracted_intermediate")])));
   (*L403*) SAssign "contracted_intermediate" (EScale (-1 # 1) (EEins "maej,kldc,edil,cbkm->abij" [(ESlice (EVar "g_aaaa") [SV "o"; SV "v"; SV "v"; SV "o"]); (EVar "l2_aaaa"); (EVar "t2_aaaa"); (EVar "t2_aaaa")]));
   (*L404*) SAug true "doubles_res" (EAdd (EAdd (EAdd (EScale (1 # 1) (EVar "contracted_intermediate")) (EScale (-1 # 1) (EEins "abij->abji" [(EVar "contracted_intermediate")]))) (EScale (-1 # 1) (EEins "abij->baij" [(EVar "contracted_intermediate")]))) (EScale (1 # 1) (EEins "abij->baji" [(EVar "contracted_intermediate")])));
   (*L407*) SAssign "contracted_intermediate" (EScale (-1 # 1) (EEins "amje,kldc,deil,bckm->abij" [(ESlice (EVar "g_abab") [SV "v"; SV "o"; SV "o"; SV "v"]); (EVar "l2_abab"); (EVar "t2_abab"); (EVar "t2_abab")]));
   (*L408*) SAug true "doubles_res" (EAdd (EAdd (EAdd (EScale (1 # 1) (EVar "contracted_intermediate")) (EScale (-1 # 1) (EEins "abij->abji" [(EVar "contracted_intermediate")]))) (EScale (-1 # 1) (EEins "abij->baij" [(EVar "contracted_intermediate")]))) (EScale (1 # 1) (EEins "abij->baji" [(EVar "contracted_intermediate")])));
   (*L411*) SAssign "contracted_intermediate" (EScale (1 # 1) (EEins "maej,klcd,edil,cbkm->abij" [(ESlice (EVar "g_aaaa") [SV "o"; SV "v"; SV "v"; SV "o"]); (EVar "l2_abab"); (EVar "t2_abab"); (EVar "t2_aaaa")]));
   (*L412*) SAug true "doubles_res" (EAdd (EAdd (EAdd (EScale (1 # 1) (EVar "contracted_intermediate")) (EScale (-1 # 1) (EEins "abij->abji" [(EVar "contracted_intermediate")]))) (EScale (-1 # 1) (EEins "abij->baij" [(EVar "contracted_intermediate")]))) (EScale (1 # 1) (EEins "abij->baji" [(EVar "contracted_intermediate")])));
   (*L415*) SAssign "contracted_intermediate" (EScale (1 # 1) (EEins "maej,lkdc,edil,bcmk->abij" [(ESlice (EVar "g_aaaa") [SV "o"; SV "v"; SV "v"; SV "o"]); (EVar "l2_abab"); (EVar "t2_aaaa"); (EVar "t2_abab")]));
   (*L416*) SAug true "doubles_res" (EAdd (EAdd (EAdd (EScale (1 # 1) (EVar "contracted_intermediate")) (EScale (-1 # 1) (EEins "abij->abji" [(EVar "contracted_intermediate")]))) (EScale (-1 # 1) (EEins "abij->baij" [(EVar "contracted_intermediate")]))) (EScale (1 # 1) (EEins "abij->baji" [(EVar "contracted_intermediate")])));
   (*L419*) SAssign "contracted_intermediate" (EScale (-1 # 1) (EEins "maej,kldc,edil,bcmk->abij" [(ESlice (EVar "g_aaaa") [SV "o"; SV "v"; SV "v"; SV "o"]); (EVar "l2_bbbb"); (EVar "t2_abab"); (EVar "t2_abab")]));
   (*L420*) SAug true "doubles_res" (EAdd (EAdd (EAdd (EScale (1 # 1) (EVar "contracted_intermediate")) (EScale (-1 # 1) (EEins "abij->abji" [(EVar "contracted_intermediate")]))) (EScale (-1 # 1) (EEins "abij->baij" [(EVar "contracted_intermediate")]))) (EScale (1 # 1) (EEins "abij->baji" [(EVar "contracted_intermediate")])));
   (*L423*) SAssign "contracted_intermediate" (EScale (1 # 4) (EEins "maej,kldc,ebkl,dcim->abij" [(ESlice (EVar "g_aaaa") [SV "o"; SV "v"; SV "v"; SV "o"]); (EVar "l2_aaaa"); (EVar "t2_aaaa"); (EVar "t2_aaaa")]));
   (*L424*) SAug true "doubles_res" (EAdd (EAdd (EAdd (EScale (1 # 1) (EVar "contracted_intermediate")) (EScale (-1 # 1) (EEins "abij->abji" [(EVar "contracted_intermediate")]))) (EScale (-1 # 1) (EEins "abij->baij" [(EVar "contracted_intermediate")]))) (EScale (1 # 1) (EEins "abij->baji" [(EVar "contracted_intermediate")])));
   (*L427*) SAssign "contracted_intermediate" (EScale (-1 # 4) (EEins "amje,kldc,bekl,dcim->abij" [(ESlice (EVar "g_abab") [SV "v"; SV "o"; SV "o"; SV "v"]); (EVar "l2_abab"); (EVar "t2_abab"); (EVar "t2_abab")]));
   (*L428*) SAug true "doubles_res" (EAdd (EAdd (EAdd (EScale (1 # 1) (EVar "contracted_intermediate")) (EScale (-1 # 1) (EEins "abij->abji" [(EVar "contracted_intermediate")]))) (EScale (-1 # 1) (EEins "abij->baij" [(EVar "contracted_intermediate")]))) (EScale (1 # 1) (EEins "abij->baji" [(EVar "contracted_intermediate")])));
   (*L431*) SAssign "contracted_intermediate" (EScale (-1 # 4) (EEins "amje,klcd,bekl,cdim->abij" [(ESlice (EVar "g_abab") [SV "v"; SV "o"; SV "o"; SV "v"]); (EVar "l2_abab"); (EVar "t2_abab"); (EVar "t2_abab")]));
   (*L432*) SAug true "doubles_res" (EAdd (EAdd (EAdd (EScale (1 # 1) (EVar "contracted_intermediate")) (EScale (-1 # 1) (EEins "abij->abji" [(EVar "contracted_intermediate")]))) (EScale (-1 # 1) (EEins "abij->baij" [(EVar "contracted_intermediate")]))) (EScale (1 # 1) (EEins "abij->baji" [(EVar "contracted_intermediate")])));
   (*L435*) SAssign "contracted_intermediate" (EScale (-1 # 4) (EEins "amje,lkdc,belk,dcim->abij" [(ESlice (EVar "g_abab") [SV "v"; SV "o"; SV "o"; SV "v"]); (EVar "l2_abab"); (EVar "t2_abab"); (EVar "t2_abab")]));
   (*L436*) SAug true "doubles_res" (EAdd (EAdd (EAdd (EScale (1 # 1) (EVar "contracted_intermediate")) (EScale (-1 # 1) (EEins "abij->abji" [(EVar "contracted_intermediate")]))) (EScale (-1 # 1) (EEins "abij->baij" [(EVar "contracted_intermediate")]))) (EScale (1 # 1) (EEins "abij->baji" [(EVar "contracted_intermediate")])));
   (*L439*) SAssign "contracted_intermediate" (EScale (-1 # 4) (EEins "amje,lkcd,belk,cdim->abij" [(ESlice (EVar "g_abab") [SV "v"; SV "o"; SV "o"; SV "v"]); (EVar "l2_abab"); (EVar "t2_abab"); (EVar "t2_abab")]));
   (*L440*) SAug true "doubles_res" (EAdd (EAdd (EAdd (EScale (1 # 1) (EVar "contracted_intermediate")) (EScale (-1 # 1) (EEins "abij->abji" [(EVar "contracted_intermediate")]))) (EScale (-1 # 1) (EEins "abij->baij" [(EVar "contracted_intermediate")]))) (EScale (1 # 1) (EEins "abij->baji" [(EVar "contracted_intermediate")])));
   (*L443*) SAssign "contracted_intermediate" (EScale (-1 # 2) (EEins "maej,kldc,ebil,dckm->abij" [(ESlice (EVar "g_aaaa") [SV "o"; SV "v"; SV "v"; SV "o"]); (EVar "l2_aaaa"); (EVar "t2_aaaa"); (EVar "t2_aaaa")]));
   (*L444*) SAug true "doubles_res" (EAdd (EAdd (EAdd (EScale (1 # 1) (EVar "contracted_intermediate")) (EScale (-1 # 1) (EEins "abij->abji" [(EVar "contracted_intermediate")]))) (EScale (-1 # 1) (EEins "abij->baij" [(EVar "contracted_intermediate")]))) (EScale (1 # 1) (EEins "abij->baji" [(EVar "contracted_intermediate")])));
   (*L447*) SAssign "contracted_intermediate" (EScale (1 # 2) (EEins "amje,kldc,beil,dckm->abij" [(ESlice (EVar "g_abab") [SV "v"; SV "o"; SV "o"; SV "v"]); (EVar "l2_abab"); (EVar "t2_abab"); (EVar "t2_abab")]));
   (*L448*) SAug true "doubles_res" (EAdd (EAdd (EAdd (EScale (1 # 1) (EVar "contracted_intermediate")) (EScale (-1 # 1) (EEins "abij->abji" [(EVar "contracted_intermediate")]))) (EScale (-1 # 1) (EEins "abij->baij" [(EVar "contracted_intermediate")]))) (EScale (1 # 1) (EEins "abij->baji" [(EVar "contracted_intermediate")])));
   (*L451*) SAssign "contracted_intermediate" (EScale (1 # 2) (EEins "amje,klcd,beil,cdkm->abij" [(ESlice (EVar "g_abab") [SV "v"; SV "o"; SV "o"; SV "v"]); (EVar "l2_abab"); (EVar "t2_abab"); (EVar "t2_abab")]));
   (*L452*) SAug true "doubles_res" (EAdd (EAdd (EAdd (EScale (1 # 1) (EVar "contracted_intermediate")) (EScale (-1 # 1) (EEins "abij->abji" [(EVar "contracted_intermediate")]))) (EScale (-1 # 1) (EEins "abij->baij" [(EVar "contracted_intermediate")]))) (EScale (1 # 1) (EEins "abij->baji" [(EVar "contracted_intermediate")])));
   (*L455*) SAssign "contracted_intermediate" (EScale (-1 # 2) (EEins "maej,lkdc,ebil,dcmk->abij" [(ESlice (EVar "g_aaaa") [SV "o"; SV "v"; SV "v"; SV "o"]); (EVar "l2_abab"); (EVar "t2_aaaa"); (EVar "t2_abab")]));
   (*L456*) SAug true "doubles_res" (EAdd (EAdd (EAdd (EScale (1 # 1) (EVar "contracted_intermediate")) (EScale (-1 # 1) (EEins "abij->abji" [(EVar "contracted_intermediate")]))) (EScale (-1 # 1) (EEins "abij->baij" [(EVar "contracted_intermediate")]))) (EScale (1 # 1) (EEins "abij->baji" [(EVar "contracted_intermediate")])));
   (*L459*) SAssign "contracted_intermediate" (EScale (-1 # 2) (EEins "maej,lkcd,ebil,cdmk->abij" [(ESlice (EVar "g_aaaa") [SV "o"; SV "v"; SV "v"; SV "o"]); (EVar "l2_abab"); (EVar "t2_aaaa"); (EVar "t2_abab")]));
   (*L460*) SAug true "doubles_res" (EAdd (EAdd (EAdd (EScale (1 # 1) (EVar "contracted_intermediate")) (EScale (-1 # 1) (EEins "abij->abji" [(EVar "contracted_intermediate")]))) (EScale (-1 # 1) (EEins "abij->baij" [(EVar "contracted_intermediate")]))) (EScale (1 # 1) (EEins "abij->baji" [(EVar "contracted_intermediate")])));
   (*L463*) SAssign "contracted_intermediate" (EScale (1 # 2) (EEins "amje,kldc,beil,dckm->abij" [(ESlice (EVar "g_abab") [SV "v"; SV "o"; SV "o"; SV "v"]); (EVar "l2_bbbb"); (EVar "t2_abab"); (EVar "t2_bbbb")]));
   (*L464*) SAug true "doubles_res" (EAdd (EAdd (EAdd (EScale (1 # 1) (EVar "contracted_intermediate")) (EScale (-1 # 1) (EEins "abij->abji" [(EVar "contracted_intermediate")]))) (EScale (-1 # 1) (EEins "abij->baij" [(EVar "contracted_intermediate")]))) (EScale (1 # 1) (EEins "abij->baji" [(EVar "contracted_intermediate")])));
   (*L467*) SAug true "doubles_res" (EScale (-1 # 4) (EEins "dcef,kldc,eakl,fbij->abij" [(ESlice (EVar "g_aaaa") [SV "v"; SV "v"; SV "v"; SV "v"]); (EVar "l2_aaaa"); (EVar "t2_aaaa"); (EVar "t2_aaaa")]));
   (*L470*) SAug true "doubles_res" (EScale (-1 # 4) (EEins "dcfe,kldc,aekl,fbij->abij" [(ESlice (EVar "g_abab") [SV "v"; SV "v"; SV "v"; SV "v"]); (EVar "l2_abab"); (EVar "t2_abab"); (EVar "t2_aaaa")]));
   (*L473*) SAug true "doubles_res" (EScale (-1 # 4) (EEins "cdfe,klcd,aekl,fbij->abij" [(ESlice (EVar "g_abab") [SV "v"; SV "v"; SV "v"; SV "v"]); (EVar "l2_abab"); (EVar "t2_abab"); (EVar "t2_aaaa")]));
   (*L476*) SAug true "doubles_res" (EScale (-1 # 4) (EEins "dcfe,lkdc,aelk,fbij->abij" [(ESlice (EVar "g_abab") [SV "v"; SV "v"; SV "v"; SV "v"]); (EVar "l2_abab"); (EVar "t2_abab"); (EVar "t2_aaaa")]));
   (*L479*) SAug true "doubles_res" (EScale (-1 # 4) (EEins "cdfe,lkcd,aelk,fbij->abij" [(ESlice (EVar "g_abab") [SV "v"; SV "v"; SV "v"; SV "v"]); (EVar "l2_abab"); (EVar "t2_abab"); (EVar "t2_aaaa")]));
   (*L482*) SAssign "contracted_intermediate" (EScale (1 # 2) (EEins "dcef,kldc,eajl,fbik->abij" [(ESlice (EVar "g_aaaa") [SV "v"; SV "v"; SV "v"; SV "v"]); (EVar "l2_aaaa"); (EVar "t2_aaaa"); (EVar "t2_aaaa")]));
   (*L483*) SAug true "doubles_res" (EAdd (EScale (1 # 1) (EVar "contracted_intermediate")) (EScale (-1 # 1) (EEins "abij->abji" [(EVar "contracted_intermediate")])));
   (*L486*) SAssign "contracted_intermediate" (EScale (1 # 2) (EEins "dcfe,kldc,aejl,fbik->abij" [(ESlice (EVar "g_abab") [SV "v"; SV "v"; SV "v"; SV "v"]); (EVar "l2_abab"); (EVar "t2_abab"); (EVar "t2_aaaa")]));
   (*L487*) SAug true "doubles_res" (EAdd (EScale (1 # 1) (EVar "contracted_intermediate")) (EScale (-1 # 1) (EEins "abij->abji" [(EVar "contracted_intermediate")])));
   (*L490*) SAssign "contracted_intermediate" (EScale (1 # 2) (EEins "cdfe,klcd,aejl,fbik->abij" [(ESlice (EVar "g_abab") [SV "v"; SV "v"; SV "v"; SV "v"]); (EVar "l2_abab"); (EVar "t2_abab"); (EVar "t2_aaaa")]));
   (*L491*) SAug true "doubles_res" (EAdd (EScale (1 # 1) (EVar "contracted_intermediate")) (EScale (-1 # 1) (EEins "abij->abji" [(EVar "contracted_intermediate")])));
   (*L494*) SAssign "contracted_intermediate" (EScale (1 # 2) (EEins "dcef,lkdc,eajl,bfik->abij" [(ESlice (EVar "g_abab") [SV "v"; SV "v"; SV "v"; SV "v"]); (EVar "l2_abab"); (EVar "t2_aaaa"); (EVar "t2_abab")]));
   (*L495*) SAug true "doubles_res" (EAdd (EScale (1 # 1) (EVar "contracted_intermediate")) (EScale (-1 # 1) (EEins "abij->abji" [(EVar "contracted_intermediate")])));
   (*L498*) SAssign "contracted_intermediate" (EScale (1 # 2) (EEins "cdef,lkcd,eajl,bfik->abij" [(ESlice (EVar "g_abab") [SV "v"; SV "v"; SV "v"; SV "v"]); (EVar "l2_abab"); (EVar "t2_aaaa"); (EVar "t2_abab")]));
   (*L499*) SAug true "doubles_res" (EAdd (EScale (1 # 1) (EVar "contracted_intermediate")) (EScale (-1 # 1) (EEins "abij->abji" [(EVar "contracted_intermediate")])));
   (*L502*) SAssign "contracted_intermediate" (EScale (1 # 2) (EEins "dcef,kldc,aejl,bfik->abij" [(ESlice (EVar "g_bbbb") [SV "v"; SV "v"; SV "v"; SV "v"]); (EVar "l2_bbbb"); (EVar "t2_abab"); (EVar "t2_abab")]));
   (*L503*) SAug true "doubles_res" (EAdd (EScale (1 # 1) (EVar "contracted_intermediate")) (EScale (-1 # 1) (EEins "abij->abji" [(EVar "contracted_intermediate")])));
   (*L506*) SAug true "doubles_res" (EScale (-1 # 4) (EEins "dcef,kldc,eaij,fbkl->abij" [(ESlice (EVar "g_aaaa") [SV "v"; SV "v"; SV "v"; SV "v"]); (EVar "l2_aaaa"); (EVar "t2_aaaa"); (EVar "t2_aaaa")]));
   (*L509*) SAug true "doubles_res" (EScale (1 # 4) (EEins "dcef,kldc,eaij,bfkl->abij" [(ESlice (EVar "g_abab") [SV "v"; SV "v"; SV "v"; SV "v"]); (EVar "l2_abab"); (EVar "t2_aaaa"); (EVar "t2_abab")]));
   (*L512*) SAug true "doubles_res" (EScale (1 # 4) (EEins "cdef,klcd,eaij,bfkl->abij" [(ESlice (EVar "g_abab") [SV "v"; SV "v"; SV "v"; SV "v"]); (EVar "l2_abab"); (EVar "t2_aaaa"); (EVar "t2_abab")]));
   (*L515*) SAug true "doubles_res" (EScale (1 # 4) (EEins "dcef,lkdc,eaij,bflk->abij" [(ESlice (EVar "g_abab") [SV "v"; SV "v"; SV "v"; SV "v"]); (EVar "l2_abab"); (EVar "t2_aaaa"); (EVar "t2_abab")]));
   (*L518*) SAug true "doubles_res" (EScale (1 # 4) (EEins "cdef,lkcd,eaij,bflk->abij" [(ESlice (EVar "g_abab") [SV "v"; SV "v"; SV "v"; SV "v"]); (EVar "l2_abab"); (EVar "t2_aaaa"); (EVar "t2_abab")]));
   (*L521*) SAssign "contracted_intermediate" (EScale (1 # 2) (EEins "daef,kldc,eckl,fbij->abij" [(ESlice (EVar "g_aaaa") [SV "v"; SV "v"; SV "v"; SV "v"]); (EVar "l2_aaaa"); (EVar "t2_aaaa"); (EVar "t2_aaaa")]));
   (*L522*) SAug true "doubles_res" (EAdd (EScale (1 # 1) (EVar "contracted_intermediate")) (EScale (-1 # 1) (EEins "abij->baij" [(EVar "contracted_intermediate")])));
   (*L525*) SAssign "contracted_intermediate" (EScale (1 # 2) (EEins "daef,kldc,eckl,fbij->abij" [(ESlice (EVar "g_aaaa") [SV "v"; SV "v"; SV "v"; SV "v"]); (EVar "l2_abab"); (EVar "t2_abab"); (EVar "t2_aaaa")]));
   (*L526*) SAug true "doubles_res" (EAdd (EScale (1 # 1) (EVar "contracted_intermediate")) (EScale (-1 # 1) (EEins "abij->baij" [(EVar "contracted_intermediate")])));
   (*L529*) SAssign "contracted_intermediate" (EScale (1 # 2) (EEins "adfe,klcd,cekl,fbij->abij" [(ESlice (EVar "g_abab") [SV "v"; SV "v"; SV "v"; SV "v"]); (EVar "l2_abab"); (EVar "t2_abab"); (EVar "t2_aaaa")]));
   (*L530*) SAug true "doubles_res" (EAdd (EScale (1 # 1) (EVar "contracted_intermediate")) (EScale (-1 # 1) (EEins "abij->baij" [(EVar "contracted_intermediate")])));
   (*L533*) SAssign "contracted_intermediate" (EScale (1 # 2) (EEins "daef,lkdc,eclk,fbij->abij" [(ESlice (EVar "g_aaaa") [SV "v"; SV "v"; SV "v"; SV "v"]); (EVar "l2_abab"); (EVar "t2_abab"); (EVar "t2_aaaa")]));
   (*L534*) SAug true "doubles_res" (EAdd (EScale (1 # 1) (EVar "contracted_intermediate")) (EScale (-1 # 1) (EEins "abij->baij" [(EVar "contracted_intermediate")])));
   (*L537*) SAssign "contracted_intermediate" (EScale (1 # 2) (EEins "adfe,lkcd,celk,fbij->abij" [(ESlice (EVar "g_abab") [SV "v"; SV "v"; SV "v"; SV "v"]); (EVar "l2_abab"); (EVar "t2_abab"); (EVar "t2_aaaa")]));
   (*L538*) SAug true "doubles_res" (EAdd (EScale (1 # 1) (EVar "contracted_intermediate")) (EScale (-1 # 1) (EEins "abij->baij" [(EVar "contracted_intermediate")])));
   (*L541*) SAssign "contracted_intermediate" (EScale (1 # 2) (EEins "adfe,kldc,eckl,fbij->abij" [(ESlice (EVar "g_abab") [SV "v"; SV "v"; SV "v"; SV "v"]); (EVar "l2_bbbb"); (EVar "t2_bbbb"); (EVar "t2_aaaa")]));
   (*L542*) SAug true "doubles_res" (EAdd (EScale (1 # 1) (EVar "contracted_intermediate")) (EScale (-1 # 1) (EEins "abij->baij" [(EVar "contracted_intermediate")])));
   (*L545*) SAssign "contracted_intermediate" (EScale (-1 # 1) (EEins "daef,kldc,ecjl,fbik->abij" [(ESlice (EVar "g_aaaa") [SV "v"; SV "v"; SV "v"; SV "v"]); (EVar "l2_aaaa"); (EVar "t2_aaaa"); (EVar "t2_aaaa")]));
   (*L546*) SAug true "doubles_res" (EAdd (EAdd (EAdd (EScale (1 # 1) (EVar "contracted_intermediate")) (EScale (-1 # 1) (EEins "abij->abji" [(EVar "contracted_intermediate")]))) (EScale (-1 # 1) (EEins "abij->baij" [(EVar "contracted_intermediate")]))) (EScale (1 # 1) (EEins "abij->baji" [(EVar "contracted_intermediate")])));
   (*L549*) SAssign "contracted_intermediate" (EScale (-1 # 1) (EEins "daef,kldc,ecjl,fbik->abij" [(ESlice (EVar "g_aaaa") [SV "v"; SV "v"; SV "v"; SV "v"]); (EVar "l2_abab"); (EVar "t2_abab"); (EVar "t2_aaaa")]));
   (*L550*) SAug true "doubles_res" (EAdd (EAdd (EAdd (EScale (1 # 1) (EVar "contracted_intermediate")) (EScale (-1 # 1) (EEins "abij->abji" [(EVar "contracted_intermediate")]))) (EScale (-1 # 1) (EEins "abij->baij" [(EVar "contracted_intermediate")]))) (EScale (1 # 1) (EEins "abij->baji" [(EVar "contracted_intermediate")])));
   (*L553*) SAssign "contracted_intermediate" (EScale (-1 # 1) (EEins "adfe,klcd,cejl,fbik->abij" [(ESlice (EVar "g_abab") [SV "v"; SV "v"; SV "v"; SV "v"]); (EVar "l2_abab"); (EVar "t2_abab"); (EVar "t2_aaaa")]));
   (*L554*) SAug true "doubles_res" (EAdd (EAdd (EAdd (EScale (1 # 1) (EVar "contracted_intermediate")) (EScale (-1 # 1) (EEins "abij->abji" [(EVar "contracted_intermediate")]))) (EScale (-1 # 1) (EEins "abij->baij" [(EVar "contracted_intermediate")]))) (EScale (1 # 1) (EEins "abij->baji" [(EVar "contracted_intermediate")])));
   (*L557*) SAssign "contracted_intermediate" (EScale (-1 # 1) (EEins "adef,lkcd,ecjl,bfik->abij" [(ESlice (EVar "g_abab") [SV "v"; SV "v"; SV "v"; SV "v"]); (EVar "l2_abab"); (EVar "t2_aaaa"); (EVar "t2_abab")]));
   (*L558*) SAug true "doubles_res" (EAdd (EAdd (EAdd (EScale (1 # 1) (EVar "contracted_intermediate")) (EScale (-1 # 1) (EEins "abij->abji" [(EVar "contracted_intermediate")]))) (EScale (-1 # 1) (EEins "abij->baij" [(EVar "contracted_intermediate")]))) (EScale (1 # 1) (EEins "abij->baji" [(EVar "contracted_intermediate")])));
   (*L561*) SAssign "contracted_intermediate" (EScale (-1 # 1) (EEins "adef,kldc,ecjl,bfik->abij" [(ESlice (EVar "g_abab") [SV "v"; SV "v"; SV "v"; SV "v"]); (EVar "l2_bbbb"); (EVar "t2_abab"); (EVar "t2_abab")]));
   (*L562*) SAug true "doubles_res" (EAdd (EAdd (EAdd (EScale (1 # 1) (EVar "contracted_intermediate")) (EScale (-1 # 1) (EEins "abij->abji" [(EVar "contracted_intermediate")]))) (EScale (-1 # 1) (EEins "abij->baij" [(EVar "contracted_intermediate")]))) (EScale (1 # 1) (EEins "abij->baji" [(EVar "contracted_intermediate")])));
   (*L565*) SAssign "contracted_intermediate" (EScale (1 # 2) (EEins "daef,kldc,ecij,fbkl->abij" [(ESlice (EVar "g_aaaa") [SV "v"; SV "v"; SV "v"; SV "v"]); (EVar "l2_aaaa"); (EVar "t2_aaaa"); (EVar "t2_aaaa")]));
   (*L566*) SAug true "doubles_res" (EAdd (EScale (1 # 1) (EVar "contracted_intermediate")) (EScale (-1 # 1) (EEins "abij->baij" [(EVar "contracted_intermediate")])));
   (*L569*) SAssign "contracted_intermediate" (EScale (-1 # 2) (EEins "adef,klcd,ecij,bfkl->abij" [(ESlice (EVar "g_abab") [SV "v"; SV "v"; SV "v"; SV "v"]); (EVar "l2_abab"); (EVar "t2_aaaa"); (EVar "t2_abab")]));
   (*L570*) SAug true "doubles_res" (EAdd (EScale (1 # 1) (EVar "contracted_intermediate")) (EScale (-1 # 1) (EEins "abij->baij" [(EVar "contracted_intermediate")])));
   (*L573*) SAssign "contracted_intermediate" (EScale (-1 # 2) (EEins "adef,lkcd,ecij,bflk->abij" [(ESlice (EVar "g_abab") [SV "v"; SV "v"; SV "v"; SV "v"]); (EVar "l2_abab"); (EVar "t2_aaaa"); (EVar "t2_abab")]));
   (*L574*) SAug true "doubles_res" (EAdd (EScale (1 # 1) (EVar "contracted_intermediate")) (EScale (-1 # 1) (EEins "abij->baij" [(EVar "contracted_intermediate")])));
   (*L577*) SAug true "doubles_res" (EScale (-1 # 2) (EEins "abef,kldc,edkl,fcij->abij" [(ESlice (EVar "g_aaaa") [SV "v"; SV "v"; SV "v"; SV "v"]); (EVar "l2_aaaa"); (EVar "t2_aaaa"); (EVar "t2_aaaa")]));
   (*L580*) SAug true "doubles_res" (EScale (1 # 2) (EEins "abef,klcd,edkl,fcij->abij" [(ESlice (EVar "g_aaaa") [SV "v"; SV "v"; SV "v"; SV "v"]); (EVar "l2_abab"); (EVar "t2_abab"); (EVar "t2_aaaa")]));
   (*L583*) SAug true "doubles_res" (EScale (1 # 2) (EEins "abef,lkcd,edlk,fcij->abij" [(ESlice (EVar "g_aaaa") [SV "v"; SV "v"; SV "v"; SV "v"]); (EVar "l2_abab"); (EVar "t2_abab"); (EVar "t2_aaaa")]));
   (*L586*) SAssign "contracted_intermediate" (EScale (1 # 2) (EEins "abef,kldc,edjl,fcik->abij" [(ESlice (EVar "g_aaaa") [SV "v"; SV "v"; SV "v"; SV "v"]); (EVar "l2_aaaa"); (EVar "t2_aaaa"); (EVar "t2_aaaa")]));
   (*L587*) SAug true "doubles_res" (EAdd (EScale (1 # 1) (EVar "contracted_intermediate")) (EScale (-1 # 1) (EEins "abij->abji" [(EVar "contracted_intermediate")])));
   (*L590*) SAssign "contracted_intermediate" (EScale (-1 # 2) (EEins "abef,klcd,edjl,fcik->abij" [(ESlice (EVar "g_aaaa") [SV "v"; SV "v"; SV "v"; SV "v"]); (EVar "l2_abab"); (EVar "t2_abab"); (EVar "t2_aaaa")]));
   (*L591*) SAug true "doubles_res" (EAdd (EScale (1 # 1) (EVar "contracted_intermediate")) (EScale (-1 # 1) (EEins "abij->abji" [(EVar "contracted_intermediate")])));
   (*L594*) SAssign "contracted_intermediate" (EScale (-1 # 2) (EEins "abef,lkdc,edjl,fcik->abij" [(ESlice (EVar "g_aaaa") [SV "v"; SV "v"; SV "v"; SV "v"]); (EVar "l2_abab"); (EVar "t2_aaaa"); (EVar "t2_abab")]));
   (*L595*) SAug true "doubles_res" (EAdd (EScale (1 # 1) (EVar "contracted_intermediate")) (EScale (-1 # 1) (EEins "abij->abji" [(EVar "contracted_intermediate")])));
   (*L598*) SAssign "contracted_intermediate" (EScale (1 # 2) (EEins "abef,kldc,edjl,fcik->abij" [(ESlice (EVar "g_aaaa") [SV "v"; SV "v"; SV "v"; SV "v"]); (EVar "l2_bbbb"); (EVar "t2_abab"); (EVar "t2_abab")]));
   (*L599*) SAug true "doubles_res" (EAdd (EScale (1 # 1) (EVar "contracted_intermediate")) (EScale (-1 # 1) (EEins "abij->abji" [(EVar "contracted_intermediate")])));
   (*L602*) SAug true "doubles_res" (EScale (1 # 2) (EEins "mdkl,kldc,cabijm->abij" [(ESlice (EVar "g_aaaa") [SV "o"; SV "v"; SV "o"; SV "o"]); (EVar "l2_aaaa"); (EVar "t3_aaaaaa")]));
   (*L605*) SAug true "doubles_res" (EScale (1 # 2) (EEins "dmkl,kldc,bacijm->abij" [(ESlice (EVar "g_abab") [SV "v"; SV "o"; SV "o"; SV "o"]); (EVar "l2_abab"); (EVar "t3_aabaab")]));
   (*L608*) SAug true "doubles_res" (EScale (-1 # 2) (EEins "mdkl,klcd,cabijm->abij" [(ESlice (EVar "g_abab") [SV "o"; SV "v"; SV "o"; SV "o"]); (EVar "l2_abab"); (EVar "t3_aaaaaa")]));
   (*L611*) SAug true "doubles_res" (EScale (1 # 2) (EEins "dmlk,lkdc,bacijm->abij" [(ESlice (EVar "g_abab") [SV "v"; SV "o"; SV "o"; SV "o"]); (EVar "l2_abab"); (EVar "t3_aabaab")]));
   (*L614*) SAug true "doubles_res" (EScale (-1 # 2) (EEins "mdlk,lkcd,cabijm->abij" [(ESlice (EVar "g_abab") [SV "o"; SV "v"; SV "o"; SV "o"]); (EVar "l2_abab"); (EVar "t3_aaaaaa")]));
   (*L617*) SAug true "doubles_res" (EScale (-1 # 2) (EEins "mdkl,kldc,bacijm->abij" [(ESlice (EVar "g_bbbb") [SV "o"; SV "v"; SV "o"; SV "o"]); (EVar "l2_bbbb"); (EVar "t3_aabaab")]));
   (*L620*) SAssign "contracted_intermediate" (EScale (-1 # 1) (EEins "mdjl,kldc,cabikm->abij" [(ESlice (EVar "g_aaaa") [SV "o"; SV "v"; SV "o"; SV "o"]); (EVar "l2_aaaa"); (EVar "t3_aaaaaa")]));
   (*L621*) SAug true "doubles_res" (EAdd (EScale (1 # 1) (EVar "contracted_intermediate")) (EScale (-1 # 1) (EEins "abij->abji" [(EVar "contracted_intermediate")])));
   (*L624*) SAssign "contracted_intermediate" (EScale (-1 # 1) (EEins "dmjl,kldc,bacikm->abij" [(ESlice (EVar "g_abab") [SV "v"; SV "o"; SV "o"; SV "o"]); (EVar "l2_abab"); (EVar "t3_aabaab")]));
   (*L625*) SAug true "doubles_res" (EAdd (EScale (1 # 1) (EVar "contracted_intermediate")) (EScale (-1 # 1) (EEins "abij->abji" [(EVar "contracted_intermediate")])));
   (*L628*) SAssign "contracted_intermediate" (EScale (1 # 1) (EEins "mdjl,klcd,cabikm->abij" [(ESlice (EVar "g_abab") [SV "o"; SV "v"; SV "o"; SV "o"]); (EVar "l2_abab"); (EVar "t3_aaaaaa")]));
   (*L629*) SAug true "doubles_res" (EAdd (EScale (1 # 1) (EVar "contracted_intermediate")) (EScale (-1 # 1) (EEins "abij->abji" [(EVar "contracted_intermediate")])));
   (*L632*) SAssign "contracted_intermediate" (EScale (1 # 1) (EEins "mdjl,lkdc,bacimk->abij" [(ESlice (EVar "g_aaaa") [SV "o"; SV "v"; SV "o"; SV "o"]); (EVar "l2_abab"); (EVar "t3_aabaab")]));
   (*L633*) SAug true "doubles_res" (EAdd (EScale (1 # 1) (EVar "contracted_intermediate")) (EScale (-1 # 1) (EEins "abij->abji" [(EVar "contracted_intermediate")])));
   (*L636*) SAssign "contracted_intermediate" (EScale (-1 # 1) (EEins "mdjl,kldc,bacimk->abij" [(ESlice (EVar "g_abab") [SV "o"; SV "v"; SV "o"; SV "o"]); (EVar "l2_bbbb"); (EVar "t3_aabaab")]));
   (*L637*) SAug true "doubles_res" (EAdd (EScale (1 # 1) (EVar "contracted_intermediate")) (EScale (-1 # 1) (EEins "abij->abji" [(EVar "contracted_intermediate")])));
   (*L640*) SAug true "doubles_res" (EScale (1 # 2) (EEins "mdij,kldc,cabklm->abij" [(ESlice (EVar "g_aaaa") [SV "o"; SV "v"; SV "o"; SV "o"]); (EVar "l2_aaaa"); (EVar "t3_aaaaaa")]));
   (*L643*) SAug true "doubles_res" (EScale (1 # 2) (EEins "mdij,kldc,backml->abij" [(ESlice (EVar "g_aaaa") [SV "o"; SV "v"; SV "o"; SV "o"]); (EVar "l2_abab"); (EVar "t3_aabaab")]));
   (*L646*) SAug true "doubles_res" (EScale (-1 # 2) (EEins "mdij,lkdc,bacmlk->abij" [(ESlice (EVar "g_aaaa") [SV "o"; SV "v"; SV "o"; SV "o"]); (EVar "l2_abab"); (EVar "t3_aabaab")]));
   (*L649*) SAssign "contracted_intermediate" (EScale (1 # 4) (EEins "makl,kldc,dcbijm->abij" [(ESlice (EVar "g_aaaa") [SV "o"; SV "v"; SV "o"; SV "o"]); (EVar "l2_aaaa"); (EVar "t3_aaaaaa")]));
   (*L650*) SAug true "doubles_res" (EAdd (EScale (1 # 1) (EVar "contracted_intermediate")) (EScale (-1 # 1) (EEins "abij->baij" [(EVar "contracted_intermediate")])));
   (*L653*) SAssign "contracted_intermediate" (EScale (1 # 4) (EEins "amkl,kldc,dbcijm->abij" [(ESlice (EVar "g_abab") [SV "v"; SV "o"; SV "o"; SV "o"]); (EVar "l2_abab"); (EVar "t3_aabaab")]));
   (*L654*) SAug true "doubles_res" (EAdd (EScale (1 # 1) (EVar "contracted_intermediate")) (EScale (-1 # 1) (EEins "abij->baij" [(EVar "contracted_intermediate")])));
   (*L657*) SAssign "contracted_intermediate" (EScale (-1 # 4) (EEins "amkl,klcd,bcdijm->abij" [(ESlice (EVar "g_abab") [SV "v"; SV "o"; SV "o"; SV "o"]); (EVar "l2_abab"); (EVar "t3_aabaab")]));
   (*L658*) SAug true "doubles_res" (EAdd (EScale (1 # 1) (EVar "contracted_intermediate")) (EScale (-1 # 1) (EEins "abij->baij" [(EVar "contracted_intermediate")])));
   (*L661*) SAssign "contracted_intermediate" (EScale (1 # 4) (EEins "amlk,lkdc,dbcijm->abij" [(ESlice (EVar "g_abab") [SV "v"; SV "o"; SV "o"; SV "o"]); (EVar "l2_abab"); (EVar "t3_aabaab")]));
   (*L662*) SAug true "doubles_res" (EAdd (EScale (1 # 1) (EVar "contracted_intermediate")) (EScale (-1 # 1) (EEins "abij->baij" [(EVar "contracted_intermediate")])));
   (*L665*) SAssign "contracted_intermediate" (EScale (-1 # 4) (EEins "amlk,lkcd,bcdijm->abij" [(ESlice (EVar "g_abab") [SV "v"; SV "o"; SV "o"; SV "o"]); (EVar "l2_abab"); (EVar "t3_aabaab")]));
   (*L666*) SAug true "doubles_res" (EAdd (EScale (1 # 1) (EVar "contracted_intermediate")) (EScale (-1 # 1) (EEins "abij->baij" [(EVar "contracted_intermediate")])));
   (*L669*) SAssign "contracted_intermediate" (EScale (-1 # 2) (EEins "majl,kldc,dcbikm->abij" [(ESlice (EVar "g_aaaa") [SV "o"; SV "v"; SV "o"; SV "o"]); (EVar "l2_aaaa"); (EVar "t3_aaaaaa")]));
   (*L670*) SAug true "doubles_res" (EAdd (EAdd (EAdd (EScale (1 # 1) (EVar "contracted_intermediate")) (EScale (-1 # 1) (EEins "abij->abji" [(EVar "contracted_intermediate")]))) (EScale (-1 # 1) (EEins "abij->baij" [(EVar "contracted_intermediate")]))) (EScale (1 # 1) (EEins "abij->baji" [(EVar "contracted_intermediate")])));
   (*L673*) SAssign "contracted_intermediate" (EScale (-1 # 2) (EEins "amjl,kldc,dbcikm->abij" [(ESlice (EVar "g_abab") [SV "v"; SV "o"; SV "o"; SV "o"]); (EVar "l2_abab"); (EVar "t3_aabaab")]));
   (*L674*) SAug true "doubles_res" (EAdd (EAdd (EAdd (EScale (1 # 1) (EVar "contracted_intermediate")) (EScale (-1 # 1) (EEins "abij->abji" [(EVar "contracted_intermediate")]))) (EScale (-1 # 1) (EEins "abij->baij" [(EVar "contracted_intermediate")]))) (EScale (1 # 1) (EEins "abij->baji" [(EVar "contracted_intermediate")])));
   (*L677*) SAssign "contracted_intermediate" (EScale (1 # 2) (EEins "amjl,klcd,bcdikm->abij" [(ESlice (EVar "g_abab") [SV "v"; SV "o"; SV "o"; SV "o"]); (EVar "l2_abab"); (EVar "t3_aabaab")]));
   (*L678*) SAug true "doubles_res" (EAdd (EAdd (EAdd (EScale (1 # 1) (EVar "contracted_intermediate")) (EScale (-1 # 1) (EEins "abij->abji" [(EVar "contracted_intermediate")]))) (EScale (-1 # 1) (EEins "abij->baij" [(EVar "contracted_intermediate")]))) (EScale (1 # 1) (EEins "abij->baji" [(EVar "contracted_intermediate")])));
   (*L681*) SAssign "contracted_intermediate" (EScale (1 # 2) (EEins "majl,lkdc,dbcimk->abij" [(ESlice (EVar "g_aaaa") [SV "o"; SV "v"; SV "o"; SV "o"]); (EVar "l2_abab"); (EVar "t3_aabaab")]));
   (*L682*) SAug true "doubles_res" (EAdd (EAdd (EAdd (EScale (1 # 1) (EVar "contracted_intermediate")) (EScale (-1 # 1) (EEins "abij->abji" [(EVar "contracted_intermediate")]))) (EScale (-1 # 1) (EEins "abij->baij" [(EVar "contracted_intermediate")]))) (EScale (1 # 1) (EEins "abij->baji" [(EVar "contracted_intermediate")])));
   (*L685*) SAssign "contracted_intermediate" (EScale (-1 # 2) (EEins "majl,lkcd,bcdimk->abij" [(ESlice (EVar "g_aaaa") [SV "o"; SV "v"; SV "o"; SV "o"]); (EVar "l2_abab"); (EVar "t3_aabaab")]));
   (*L686*) SAug true "doubles_res" (EAdd (EAdd (EAdd (EScale (1 # 1) (EVar "contracted_intermediate")) (EScale (-1 # 1) (EEins "abij->abji" [(EVar "contracted_intermediate")]))) (EScale (-1 # 1) (EEins "abij->baij" [(EVar "contracted_intermediate")]))) (EScale (1 # 1) (EEins "abij->baji" [(EVar "contracted_intermediate")])));
   (*L689*) SAssign "contracted_intermediate" (EScale (-1 # 2) (EEins "amjl,kldc,bcdikm->abij" [(ESlice (EVar "g_abab") [SV "v"; SV "o"; SV "o"; SV "o"]); (EVar "l2_bbbb"); (EVar "t3_abbabb")]));
   (*L690*) SAug true "doubles_res" (EAdd (EAdd (EAdd (EScale (1 # 1) (EVar "contracted_intermediate")) (EScale (-1 # 1) (EEins "abij->abji" [(EVar "contracted_intermediate")]))) (EScale (-1 # 1) (EEins "abij->baij" [(EVar "contracted_intermediate")]))) (EScale (1 # 1) (EEins "abij->baji" [(EVar "contracted_intermediate")])));
   (*L693*) SAssign "contracted_intermediate" (EScale (1 # 4) (EEins "maij,kldc,dcbklm->abij" [(ESlice (EVar "g_aaaa") [SV "o"; SV "v"; SV "o"; SV "o"]); (EVar "l2_aaaa"); (EVar "t3_aaaaaa")]));
   (*L694*) SAug true "doubles_res" (EAdd (EScale (1 # 1) (EVar "contracted_intermediate")) (EScale (-1 # 1) (EEins "abij->baij" [(EVar "contracted_intermediate")])));
   (*L697*) SAssign "contracted_intermediate" (EScale (1 # 4) (EEins "maij,kldc,dbckml->abij" [(ESlice (EVar "g_aaaa") [SV "o"; SV "v"; SV "o"; SV "o"]); (EVar "l2_abab"); (EVar "t3_aabaab")]));
   (*L698*) SAug true "doubles_res" (EAdd (EScale (1 # 1) (EVar "contracted_intermediate")) (EScale (-1 # 1) (EEins "abij->baij" [(EVar "contracted_intermediate")])));
   (*L701*) SAssign "contracted_intermediate" (EScale (-1 # 4) (EEins "maij,klcd,bcdkml->abij" [(ESlice (EVar "g_aaaa") [SV "o"; SV "v"; SV "o"; SV "o"]); (EVar "l2_abab"); (EVar "t3_aabaab")]));
   (*L702*) SAug true "doubles_res" (EAdd (EScale (1 # 1) (EVar "contracted_intermediate")) (EScale (-1 # 1) (EEins "abij->baij" [(EVar "contracted_intermediate")])));
   (*L705*) SAssign "contracted_intermediate" (EScale (-1 # 4) (EEins "maij,lkdc,dbcmlk->abij" [(ESlice (EVar "g_aaaa") [SV "o"; SV "v"; SV "o"; SV "o"]); (EVar "l2_abab"); (EVar "t3_aabaab")]));
   (*L706*) SAug true "doubles_res" (EAdd (EScale (1 # 1) (EVar "contracted_intermediate")) (EScale (-1 # 1) (EEins "abij->baij" [(EVar "contracted_intermediate")])));
   (*L709*) SAssign "contracted_intermediate" (EScale (1 # 4) (EEins "maij,lkcd,bcdmlk->abij" [(ESlice (EVar "g_aaaa") [SV "o"; SV "v"; SV "o"; SV "o"]); (EVar "l2_abab"); (EVar "t3_aabaab")]));
   (*L710*) SAug true "doubles_res" (EAdd (EScale (1 # 1) (EVar "contracted_intermediate")) (EScale (-1 # 1) (EEins "abij->baij" [(EVar "contracted_intermediate")])));
   (*L713*) SAssign "contracted_intermediate" (EScale (1 # 4) (EEins "maij,kldc,bcdmlk->abij" [(ESlice (EVar "g_aaaa") [SV "o"; SV "v"; SV "o"; SV "o"]); (EVar "l2_bbbb"); (EVar "t3_abbabb")]));
   (*L714*) SAug true "doubles_res" (EAdd (EScale (1 # 1) (EVar "contracted_intermediate")) (EScale (-1 # 1) (EEins "abij->baij" [(EVar "contracted_intermediate")])));
   (*L717*) SAug true "doubles_res" (EScale (1 # 2) (EEins "dcel,kldc,eabijk->abij" [(ESlice (EVar "g_aaaa") [SV "v"; SV "v"; SV "v"; SV "o"]); (EVar "l2_aaaa"); (EVar "t3_aaaaaa")]));
   (*L720*) SAug true "doubles_res" (EScale (1 # 2) (EEins "dcel,kldc,eabijk->abij" [(ESlice (EVar "g_abab") [SV "v"; SV "v"; SV "v"; SV "o"]); (EVar "l2_abab"); (EVar "t3_aaaaaa")]));
   (*L723*) SAug true "doubles_res" (EScale (1 # 2) (EEins "cdel,klcd,eabijk->abij" [(ESlice (EVar "g_abab") [SV "v"; SV "v"; SV "v"; SV "o"]); (EVar "l2_abab"); (EVar "t3_aaaaaa")]));
   (*L726*) SAug true "doubles_res" (EScale (-1 # 2) (EEins "dcle,lkdc,baeijk->abij" [(ESlice (EVar "g_abab") [SV "v"; SV "v"; SV "o"; SV "v"]); (EVar "l2_abab"); (EVar "t3_aabaab")]));
   (*L729*) SAug true "doubles_res" (EScale (-1 # 2) (EEins "cdle,lkcd,baeijk->abij" [(ESlice (EVar "g_abab") [SV "v"; SV "v"; SV "o"; SV "v"]); (EVar "l2_abab"); (EVar "t3_aabaab")]));
   (*L732*) SAug true "doubles_res" (EScale (-1 # 2) (EEins "dcel,kldc,baeijk->abij" [(ESlice (EVar "g_bbbb") [SV "v"; SV "v"; SV "v"; SV "o"]); (EVar "l2_bbbb"); (EVar "t3_aabaab")]));
   (*L735*) SAssign "contracted_intermediate" (EScale (1 # 4) (EEins "dcej,kldc,eabikl->abij" [(ESlice (EVar "g_aaaa") [SV "v"; SV "v"; SV "v"; SV "o"]); (EVar "l2_aaaa"); (EVar "t3_aaaaaa")]));
   (*L736*) SAug true "doubles_res" (EAdd (EScale (1 # 1) (EVar "contracted_intermediate")) (EScale (-1 # 1) (EEins "abij->abji" [(EVar "contracted_intermediate")])));
   (*L739*) SAssign "contracted_intermediate" (EScale (1 # 4) (EEins "dcje,kldc,baeikl->abij" [(ESlice (EVar "g_abab") [SV "v"; SV "v"; SV "o"; SV "v"]); (EVar "l2_abab"); (EVar "t3_aabaab")]));
   (*L740*) SAug true "doubles_res" (EAdd (EScale (1 # 1) (EVar "contracted_intermediate")) (EScale (-1 # 1) (EEins "abij->abji" [(EVar "contracted_intermediate")])));
   (*L743*) SAssign "contracted_intermediate" (EScale (1 # 4) (EEins "cdje,klcd,baeikl->abij" [(ESlice (EVar "g_abab") [SV "v"; SV "v"; SV "o"; SV "v"]); (EVar "l2_abab"); (EVar "t3_aabaab")]));
   (*L744*) SAug true "doubles_res" (EAdd (EScale (1 # 1) (EVar "contracted_intermediate")) (EScale (-1 # 1) (EEins "abij->abji" [(EVar "contracted_intermediate")])));
   (*L747*) SAssign "contracted_intermediate" (EScale (1 # 4) (EEins "dcje,lkdc,baeilk->abij" [(ESlice (EVar "g_abab") [SV "v"; SV "v"; SV "o"; SV "v"]); (EVar "l2_abab"); (EVar "t3_aabaab")]));
   (*L748*) SAug true "doubles_res" (EAdd (EScale (1 # 1) (EVar "contracted_intermediate")) (EScale (-1 # 1) (EEins "abij->abji" [(EVar "contracted_intermediate")])));
   (*L751*) SAssign "contracted_intermediate" (EScale (1 # 4) (EEins "cdje,lkcd,baeilk->abij" [(ESlice (EVar "g_abab") [SV "v"; SV "v"; SV "o"; SV "v"]); (EVar "l2_abab"); (EVar "t3_aabaab")]));
   (*L752*) SAug true "doubles_res" (EAdd (EScale (1 # 1) (EVar "contracted_intermediate")) (EScale (-1 # 1) (EEins "abij->abji" [(EVar "contracted_intermediate")])));
   (*L755*) SAssign "contracted_intermediate" (EScale (-1 # 1) (EEins "dael,kldc,ecbijk->abij" [(ESlice (EVar "g_aaaa") [SV "v"; SV "v"; SV "v"; SV "o"]); (EVar "l2_aaaa"); (EVar "t3_aaaaaa")]));
   (*L756*) SAug true "doubles_res" (EAdd (EScale (1 # 1) (EVar "contracted_intermediate")) (EScale (-1 # 1) (EEins "abij->baij" [(EVar "contracted_intermediate")])));
   (*L759*) SAssign "contracted_intermediate" (EScale (-1 # 1) (EEins "adel,klcd,ecbijk->abij" [(ESlice (EVar "g_abab") [SV "v"; SV "v"; SV "v"; SV "o"]); (EVar "l2_abab"); (EVar "t3_aaaaaa")]));
   (*L760*) SAug true "doubles_res" (EAdd (EScale (1 # 1) (EVar "contracted_intermediate")) (EScale (-1 # 1) (EEins "abij->baij" [(EVar "contracted_intermediate")])));
   (*L763*) SAssign "contracted_intermediate" (EScale (-1 # 1) (EEins "dael,lkdc,ebcijk->abij" [(ESlice (EVar "g_aaaa") [SV "v"; SV "v"; SV "v"; SV "o"]); (EVar "l2_abab"); (EVar "t3_aabaab")]));
   (*L764*) SAug true "doubles_res" (EAdd (EScale (1 # 1) (EVar "contracted_intermediate")) (EScale (-1 # 1) (EEins "abij->baij" [(EVar "contracted_intermediate")])));
   (*L767*) SAssign "contracted_intermediate" (EScale (1 # 1) (EEins "adle,lkcd,bceijk->abij" [(ESlice (EVar "g_abab") [SV "v"; SV "v"; SV "o"; SV "v"]); (EVar "l2_abab"); (EVar "t3_aabaab")]));
   (*L768*) SAug true "doubles_res" (EAdd (EScale (1 # 1) (EVar "contracted_intermediate")) (EScale (-1 # 1) (EEins "abij->baij" [(EVar "contracted_intermediate")])));
   (*L771*) SAssign "contracted_intermediate" (EScale (-1 # 1) (EEins "adel,kldc,ebcijk->abij" [(ESlice (EVar "g_abab") [SV "v"; SV "v"; SV "v"; SV "o"]); (EVar "l2_bbbb"); (EVar "t3_aabaab")]));
   (*L772*) SAug true "doubles_res" (EAdd (EScale (1 # 1) (EVar "contracted_intermediate")) (EScale (-1 # 1) (EEins "abij->baij" [(EVar "contracted_intermediate")])));
   (*L775*) SAssign "contracted_intermediate" (EScale (-1 # 2) (EEins "daej,kldc,ecbikl->abij" [(ESlice (EVar "g_aaaa") [SV "v"; SV "v"; SV "v"; SV "o"]); (EVar "l2_aaaa"); (EVar "t3_aaaaaa")]));
   (*L776*) SAug true "doubles_res" (EAdd (EAdd (EAdd (EScale (1 # 1) (EVar "contracted_intermediate")) (EScale (-1 # 1) (EEins "abij->abji" [(EVar "contracted_intermediate")]))) (EScale (-1 # 1) (EEins "abij->baij" [(EVar "contracted_intermediate")]))) (EScale (1 # 1) (EEins "abij->baji" [(EVar "contracted_intermediate")])));
   (*L779*) SAssign "contracted_intermediate" (EScale (1 # 2) (EEins "daej,kldc,ebcikl->abij" [(ESlice (EVar "g_aaaa") [SV "v"; SV "v"; SV "v"; SV "o"]); (EVar "l2_abab"); (EVar "t3_aabaab")]));
   (*L780*) SAug true "doubles_res" (EAdd (EAdd (EAdd (EScale (1 # 1) (EVar "contracted_intermediate")) (EScale (-1 # 1) (EEins "abij->abji" [(EVar "contracted_intermediate")]))) (EScale (-1 # 1) (EEins "abij->baij" [(EVar "contracted_intermediate")]))) (EScale (1 # 1) (EEins "abij->baji" [(EVar "contracted_intermediate")])));
   (*L783*) SAssign "contracted_intermediate" (EScale (-1 # 2) (EEins "adje,klcd,bceikl->abij" [(ESlice (EVar "g_abab") [SV "v"; SV "v"; SV "o"; SV "v"]); (EVar "l2_abab"); (EVar "t3_aabaab")]));
   (*L784*) SAug true "doubles_res" (EAdd (EAdd (EAdd (EScale (1 # 1) (EVar "contracted_intermediate")) (EScale (-1 # 1) (EEins "abij->abji" [(EVar "contracted_intermediate")]))) (EScale (-1 # 1) (EEins "abij->baij" [(EVar "contracted_intermediate")]))) (EScale (1 # 1) (EEins "abij->baji" [(EVar "contracted_intermediate")])));
   (*L787*) SAssign "contracted_intermediate" (EScale (1 # 2) (EEins "daej,lkdc,ebcilk->abij" [(ESlice (EVar "g_aaaa") [SV "v"; SV "v"; SV "v"; SV "o"]); (EVar "l2_abab"); (EVar "t3_aabaab")]));
   (*L788*) SAug true "doubles_res" (EAdd (EAdd (EAdd (EScale (1 # 1) (EVar "contracted_intermediate")) (EScale (-1 # 1) (EEins "abij->abji" [(EVar "contracted_intermediate")]))) (EScale (-1 # 1) (EEins "abij->baij" [(EVar "contracted_intermediate")]))) (EScale (1 # 1) (EEins "abij->baji" [(EVar "contracted_intermediate")])));
   (*L791*) SAssign "contracted_intermediate" (EScale (-1 # 2) (EEins "adje,lkcd,bceilk->abij" [(ESlice (EVar "g_abab") [SV "v"; SV "v"; SV "o"; SV "v"]); (EVar "l2_abab"); (EVar "t3_aabaab")]));
   (*L792*) SAug true "doubles_res" (EAdd (EAdd (EAdd (EScale (1 # 1) (EVar "contracted_intermediate")) (EScale (-1 # 1) (EEins "abij->abji" [(EVar "contracted_intermediate")]))) (EScale (-1 # 1) (EEins "abij->baij" [(EVar "contracted_intermediate")]))) (EScale (1 # 1) (EEins "abij->baji" [(EVar "contracted_intermediate")])));
   (*L795*) SAssign "contracted_intermediate" (EScale (1 # 2) (EEins "adje,kldc,bceikl->abij" [(ESlice (EVar "g_abab") [SV "v"; SV "v"; SV "o"; SV "v"]); (EVar "l2_bbbb"); (EVar "t3_abbabb")]));
   (*L796*) SAug true "doubles_res" (EAdd (EAdd (EAdd (EScale (1 # 1) (EVar "contracted_intermediate")) (EScale (-1 # 1) (EEins "abij->abji" [(EVar "contracted_intermediate")]))) (EScale (-1 # 1) (EEins "abij->baij" [(EVar "contracted_intermediate")]))) (EScale (1 # 1) (EEins "abij->baji" [(EVar "contracted_intermediate")])));
   (*L799*) SAug true "doubles_res" (EScale (1 # 2) (EEins "abel,kldc,edcijk->abij" [(ESlice (EVar "g_aaaa") [SV "v"; SV "v"; SV "v"; SV "o"]); (EVar "l2_aaaa"); (EVar "t3_aaaaaa")]));
   (*L802*) SAug true "doubles_res" (EScale (-1 # 2) (EEins "abel,lkdc,edcijk->abij" [(ESlice (EVar "g_aaaa") [SV "v"; SV "v"; SV "v"; SV "o"]); (EVar "l2_abab"); (EVar "t3_aabaab")]));
   (*L805*) SAug true "doubles_res" (EScale (-1 # 2) (EEins "abel,lkcd,ecdijk->abij" [(ESlice (EVar "g_aaaa") [SV "v"; SV "v"; SV "v"; SV "o"]); (EVar "l2_abab"); (EVar "t3_aabaab")]));
   (*L808*) SAssign "contracted_intermediate" (EScale (1 # 4) (EEins "abej,kldc,edcikl->abij" [(ESlice (EVar "g_aaaa") [SV "v"; SV "v"; SV "v"; SV "o"]); (EVar "l2_aaaa"); (EVar "t3_aaaaaa")]));
   (*L809*) SAug true "doubles_res" (EAdd (EScale (1 # 1) (EVar "contracted_intermediate")) (EScale (-1 # 1) (EEins "abij->abji" [(EVar "contracted_intermediate")])));
   (*L812*) SAssign "contracted_intermediate" (EScale (1 # 4) (EEins "abej,kldc,edcikl->abij" [(ESlice (EVar "g_aaaa") [SV "v"; SV "v"; SV "v"; SV "o"]); (EVar "l2_abab"); (EVar "t3_aabaab")]));
   (*L813*) SAug true "doubles_res" (EAdd (EScale (1 # 1) (EVar "contracted_intermediate")) (EScale (-1 # 1) (EEins "abij->abji" [(EVar "contracted_intermediate")])));
   (*L816*) SAssign "contracted_intermediate" (EScale (1 # 4) (EEins "abej,klcd,ecdikl->abij" [(ESlice (EVar "g_aaaa") [SV "v"; SV "v"; SV "v"; SV "o"]); (EVar "l2_abab"); (EVar "t3_aabaab")]));
   (*L817*) SAug true "doubles_res" (EAdd (EScale (1 # 1) (EVar "contracted_intermediate")) (EScale (-1 # 1) (EEins "abij->abji" [(EVar "contracted_intermediate")])));
   (*L820*) SAssign "contracted_intermediate" (EScale (1 # 4) (EEins "abej,lkdc,edcilk->abij" [(ESlice (EVar "g_aaaa") [SV "v"; SV "v"; SV "v"; SV "o"]); (EVar "l2_abab"); (EVar "t3_aabaab")]));
   (*L821*) SAug true "doubles_res" (EAdd (EScale (1 # 1) (EVar "contracted_intermediate")) (EScale (-1 # 1) (EEins "abij->abji" [(EVar "contracted_intermediate")])));
   (*L824*) SAssign "contracted_intermediate" (EScale (1 # 4) (EEins "abej,lkcd,ecdilk->abij" [(ESlice (EVar "g_aaaa") [SV "v"; SV "v"; SV "v"; SV "o"]); (EVar "l2_abab"); (EVar "t3_aabaab")]));
   (*L825*) SAug true "doubles_res" (EAdd (EScale (1 # 1) (EVar "contracted_intermediate")) (EScale (-1 # 1) (EEins "abij->abji" [(EVar "contracted_intermediate")])));
   (*L828*) SAssign "contracted_intermediate" (EScale (1 # 4) (EEins "abej,kldc,edcikl->abij" [(ESlice (EVar "g_aaaa") [SV "v"; SV "v"; SV "v"; SV "o"]); (EVar "l2_bbbb"); (EVar "t3_abbabb")]));
   (*L829*) SAug true "doubles_res" (EAdd (EScale (1 # 1) (EVar "contracted_intermediate")) (EScale (-1 # 1) (EEins "abij->abji" [(EVar "contracted_intermediate")])))]
  (*L831*) (EVar "doubles_res").

(** /repo/UT2/testing_modifyT2eqns_with_T4.py:834-1661  def ccsdt_t2_bbbb_residual_Qf *)
Definition ccsdt_t2_bbbb_residual_Qf : fn := mkFn
  ["t2_aaaa"; "t2_bbbb"; "t2_abab"; "t3_aaaaaa"; "t3_bbbbbb"; "t3_aabaab"; "t3_abbabb"; "g_aaaa"; "g_bbbb"; "g_abab"; "l2_aaaa"; "l2_bbbb"; "l2_abab"; "oa"; "ob"; "va"; "vb"]
  [(*L838*) SAssign "o" (EVar "oa");
   (*L839*) SAssign "v" (EVar "va");
   (*L842*) SAssign "contracted_intermediate" (EScale (-1 # 4) (EEins "mnkl,kldc,dcmj,abin->abij" [(ESlice (EVar "g_abab") [SV "o"; SV "o"; SV "o"; SV "o"]); (EVar "l2_abab"); (EVar "t2_abab"); (EVar "t2_bbbb")]));
   (*L843*) SAssign "doubles_res" (EAdd (EScale (1 # 1) (EVar "contracted_intermediate")) (EScale (-1 # 1) (EEins "abij->abji" [(EVar "contracted_intermediate")])));
   (*L846*) SAssign "contracted_intermediate" (EScale (-1 # 4) (EEins "mnkl,klcd,cdmj,abin->abij" [(ESlice (EVar "g_abab") [SV "o"; SV "o"; SV "o"; SV "o"]); (EVar "l2_abab"); (EVar "t2_abab"); (EVar "t2_bbbb")]));
   (*L847*) SAug true "doubles_res" (EAdd (EScale (1 # 1) (EVar "contracted_intermediate")) (EScale (-1 # 1) (EEins "abij->abji" [(EVar "contracted_intermediate")])));
   (*L850*) SAssign "contracted_intermediate" (EScale (-1 # 4) (EEins "mnlk,lkdc,dcmj,abin->abij" [(ESlice (EVar "g_abab") [SV "o"; SV "o"; SV "o"; SV "o"]); (EVar "l2_abab"); (EVar "t2_abab"); (EVar "t2_bbbb")]));
   (*L851*) SAug true "doubles_res" (EAdd (EScale (1 # 1) (EVar "contracted_intermediate")) (EScale (-1 # 1) (EEins "abij->abji" [(EVar "contracted_intermediate")])));
   (*L854*) SAssign "contracted_intermediate" (EScale (-1 # 4) (EEins "mnlk,lkcd,cdmj,abin->abij" [(ESlice (EVar "g_abab") [SV "o"; SV "o"; SV "o"; SV "o"]); (EVar "l2_abab"); (EVar "t2_abab"); (EVar "t2_bbbb")]));
   (*L855*) SAug true "doubles_res" (EAdd (EScale (1 # 1) (EVar "contracted_intermediate")) (EScale (-1 # 1) (EEins "abij->abji" [(EVar "contracted_intermediate")])));
   (*L858*) SAssign "contracted_intermediate" (EScale (-1 # 4) (EEins "nmkl,kldc,dcjm,abin->abij" [(ESlice (EVar "g_bbbb") [SV "o"; SV "o"; SV "o"; SV "o"]); (EVar "l2_bbbb"); (EVar "t2_bbbb"); (EVar "t2_bbbb")]));
   (*L859*) SAug true "doubles_res" (EAdd (EScale (1 # 1) (EVar "contracted_intermediate")) (EScale (-1 # 1) (EEins "abij->abji" [(EVar "contracted_intermediate")])));
   (*L862*) SAssign "contracted_intermediate" (EScale (1 # 2) (EEins "nmkl,kldc,damj,cbni->abij" [(ESlice (EVar "g_aaaa") [SV "o"; SV "o"; SV "o"; SV "o"]); (EVar "l2_aaaa"); (EVar "t2_abab"); (EVar "t2_abab")]));
   (*L863*) SAug true "doubles_res" (EAdd (EScale (1 # 1) (EVar "contracted_intermediate")) (EScale (-1 # 1) (EEins "abij->abji" [(EVar "contracted_intermediate")])));
   (*L866*) SAssign "contracted_intermediate" (EScale (1 # 2) (EEins "mnkl,kldc,damj,cbin->abij" [(ESlice (EVar "g_abab") [SV "o"; SV "o"; SV "o"; SV "o"]); (EVar "l2_abab"); (EVar "t2_abab"); (EVar "t2_bbbb")]));
   (*L867*) SAug true "doubles_res" (EAdd (EScale (1 # 1) (EVar "contracted_intermediate")) (EScale (-1 # 1) (EEins "abij->abji" [(EVar "contracted_intermediate")])));
   (*L870*) SAssign "contracted_intermediate" (EScale (1 # 2) (EEins "nmkl,klcd,dajm,cbni->abij" [(ESlice (EVar "g_abab") [SV "o"; SV "o"; SV "o"; SV "o"]); (EVar "l2_abab"); (EVar "t2_bbbb"); (EVar "t2_abab")]));
   (*L871*) SAug true "doubles_res" (EAdd (EScale (1 # 1) (EVar "contracted_intermediate")) (EScale (-1 # 1) (EEins "abij->abji" [(EVar "contracted_intermediate")])));
   (*L874*) SAssign "contracted_intermediate" (EScale (1 # 2) (EEins "mnlk,lkdc,damj,cbin->abij" [(ESlice (EVar "g_abab") [SV "o"; SV "o"; SV "o"; SV "o"]); (EVar "l2_abab"); (EVar "t2_abab"); (EVar "t2_bbbb")]));
   (*L875*) SAug true "doubles_res" (EAdd (EScale (1 # 1) (EVar "contracted_intermediate")) (EScale (-1 # 1) (EEins "abij->abji" [(EVar "contracted_intermediate")])));
   (*L878*) SAssign "contracted_intermediate" (EScale (1 # 2) (EEins "nmlk,lkcd,dajm,cbni->abij" [(ESlice (EVar "g_abab") [SV "o"; SV "o"; SV "o"; SV "o"]); (EVar "l2_abab"); (EVar "t2_bbbb"); (EVar "t2_abab")]));
   (*L879*) SAug true "doubles_res" (EAdd (EScale (1 # 1) (EVar "contracted_intermediate")) (EScale (-1 # 1) (EEins "abij->abji" [(EVar "contracted_intermediate")])));
   (*L882*) SAssign "contracted_intermediate" (EScale (1 # 2) (EEins "nmkl,kldc,dajm,cbin->abij" [(ESlice (EVar "g_bbbb") [SV "o"; SV "o"; SV "o"; SV "o"]); (EVar "l2_bbbb"); (EVar "t2_bbbb"); (EVar "t2_bbbb")]));
   (*L883*) SAug true "doubles_res" (EAdd (EScale (1 # 1) (EVar "contracted_intermediate")) (EScale (-1 # 1) (EEins "abij->abji" [(EVar "contracted_intermediate")])));
   (*L886*) SAssign "contracted_intermediate" (EScale (1 # 2) (EEins "mnlj,kldc,dckm,abin->abij" [(ESlice (EVar "g_abab") [SV "o"; SV "o"; SV "o"; SV "o"]); (EVar "l2_aaaa"); (EVar "t2_aaaa"); (EVar "t2_bbbb")]));
   (*L887*) SAug true "doubles_res" (EAdd (EScale (1 # 1) (EVar "contracted_intermediate")) (EScale (-1 # 1) (EEins "abij->abji" [(EVar "contracted_intermediate")])));
   (*L890*) SAssign "contracted_intermediate" (EScale (1 # 2) (EEins "nmjl,kldc,dckm,abin->abij" [(ESlice (EVar "g_bbbb") [SV "o"; SV "o"; SV "o"; SV "o"]); (EVar "l2_abab"); (EVar "t2_abab"); (EVar "t2_bbbb")]));
   (*L891*) SAug true "doubles_res" (EAdd (EScale (1 # 1) (EVar "contracted_intermediate")) (EScale (-1 # 1) (EEins "abij->abji" [(EVar "contracted_intermediate")])));
   (*L894*) SAssign "contracted_intermediate" (EScale (1 # 2) (EEins "nmjl,klcd,cdkm,abin->abij" [(ESlice (EVar "g_bbbb") [SV "o"; SV "o"; SV "o"; SV "o"]); (EVar "l2_abab"); (EVar "t2_abab"); (EVar "t2_bbbb")]));
   (*L895*) SAug true "doubles_res" (EAdd (EScale (1 # 1) (EVar "contracted_intermediate")) (EScale (-1 # 1) (EEins "abij->abji" [(EVar "contracted_intermediate")])));
   (*L898*) SAssign "contracted_intermediate" (EScale (1 # 2) (EEins "mnlj,lkdc,dcmk,abin->abij" [(ESlice (EVar "g_abab") [SV "o"; SV "o"; SV "o"; SV "o"]); (EVar "l2_abab"); (EVar "t2_abab"); (EVar "t2_bbbb")]));
   (*L899*) SAug true "doubles_res" (EAdd (EScale (1 # 1) (EVar "contracted_intermediate")) (EScale (-1 # 1) (EEins "abij->abji" [(EVar "contracted_intermediate")])));
   (*L902*) SAssign "contracted_intermediate" (EScale (1 # 2) (EEins "mnlj,lkcd,cdmk,abin->abij" [(ESlice (EVar "g_abab") [SV "o"; SV "o"; SV "o"; SV "o"]); (EVar "l2_abab"); (EVar "t2_abab"); (EVar "t2_bbbb")]));
   (*L903*) SAug true "doubles_res" (EAdd (EScale (1 # 1) (EVar "contracted_intermediate")) (EScale (-1 # 1) (EEins "abij->abji" [(EVar "contracted_intermediate")])));
   (*L906*) SAssign "contracted_intermediate" (EScale (1 # 2) (EEins "nmjl,kldc,dckm,abin->abij" [(ESlice (EVar "g_bbbb") [SV "o"; SV "o"; SV "o"; SV "o"]); (EVar "l2_bbbb"); (EVar "t2_bbbb"); (EVar "t2_bbbb")]));
   (*L907*) SAug true "doubles_res" (EAdd (EScale (1 # 1) (EVar "contracted_intermediate")) (EScale (-1 # 1) (EEins "abij->abji" [(EVar "contracted_intermediate")])));
   (*L910*) SAssign "contracted_intermediate" (EScale (-1 # 2) (EEins "mnlj,lkdc,dcmi,abkn->abij" [(ESlice (EVar "g_abab") [SV "o"; SV "o"; SV "o"; SV "o"]); (EVar "l2_abab"); (EVar "t2_abab"); (EVar "t2_bbbb")]));
   (*L911*) SAug true "doubles_res" (EAdd (EScale (1 # 1) (EVar "contracted_intermediate")) (EScale (-1 # 1) (EEins "abij->abji" [(EVar "contracted_intermediate")])));
   (*L914*) SAssign "contracted_intermediate" (EScale (-1 # 2) (EEins "mnlj,lkcd,cdmi,abkn->abij" [(ESlice (EVar "g_abab") [SV "o"; SV "o"; SV "o"; SV "o"]); (EVar "l2_abab"); (EVar "t2_abab"); (EVar "t2_bbbb")]));
   (*L915*) SAug true "doubles_res" (EAdd (EScale (1 # 1) (EVar "contracted_intermediate")) (EScale (-1 # 1) (EEins "abij->abji" [(EVar "contracted_intermediate")])));
   (*L918*) SAssign "contracted_intermediate" (EScale (-1 # 2) (EEins "nmjl,kldc,dcim,abkn->abij" [(ESlice (EVar "g_bbbb") [SV "o"; SV "o"; SV "o"; SV "o"]); (EVar "l2_bbbb"); (EVar "t2_bbbb"); (EVar "t2_bbbb")]));
   (*L919*) SAug true "doubles_res" (EAdd (EScale (1 # 1) (EVar "contracted_intermediate")) (EScale (-1 # 1) (EEins "abij->abji" [(EVar "contracted_intermediate")])));
   (*L922*) SAssign "contracted_intermediate" (EScale (-1 # 1) (EEins "nmlj,kldc,dakm,cbni->abij" [(ESlice (EVar "g_abab") [SV "o"; SV "o"; SV "o"; SV "o"]); (EVar "l2_aaaa"); (EVar "t2_abab"); (EVar "t2_abab")]));
   (*L923*) SAug true "doubles_res" (EAdd (EScale (1 # 1) (EVar "contracted_intermediate")) (EScale (-1 # 1) (EEins "abij->abji" [(EVar "contracted_intermediate")])));
   (*L926*) SAssign "contracted_intermediate" (EScale (-1 # 1) (EEins "nmjl,kldc,dakm,cbin->abij" [(ESlice (EVar "g_bbbb") [SV "o"; SV "o"; SV "o"; SV "o"]); (EVar "l2_abab"); (EVar "t2_abab"); (EVar "t2_bbbb")]));
   (*L927*) SAug true "doubles_res" (EAdd (EScale (1 # 1) (EVar "contracted_intermediate")) (EScale (-1 # 1) (EEins "abij->abji" [(EVar "contracted_intermediate")])));
   (*L930*) SAssign "contracted_intermediate" (EScale (-1 # 1) (EEins "mnlj,lkdc,damk,cbin->abij" [(ESlice (EVar "g_abab") [SV "o"; SV "o"; SV "o"; SV "o"]); (EVar "l2_abab"); (EVar "t2_abab"); (EVar "t2_bbbb")]));
   (*L931*) SAug true "doubles_res" (EAdd (EScale (1 # 1) (EVar "contracted_intermediate")) (EScale (-1 # 1) (EEins "abij->abji" [(EVar "contracted_intermediate")])));
   (*L934*) SAssign "contracted_intermediate" (EScale (-1 # 1) (EEins "nmlj,lkcd,dakm,cbni->abij" [(ESlice (EVar "g_abab") [SV "o"; SV "o"; SV "o"; SV "o"]); (EVar "l2_abab"); (EVar "t2_bbbb"); (EVar "t2_abab")]));
   (*L935*) SAug true "doubles_res" (EAdd (EScale (1 # 1) (EVar "contracted_intermediate")) (EScale (-1 # 1) (EEins "abij->abji" [(EVar "contracted_intermediate")])));
   (*L938*) SAssign "contracted_intermediate" (EScale (-1 # 1) (EEins "nmjl,kldc,dakm,cbin->abij" [(ESlice (EVar "g_bbbb") [SV "o"; SV "o"; SV "o"; SV "o"]); (EVar "l2_bbbb"); (EVar "t2_bbbb"); (EVar "t2_bbbb")]));
   (*L939*) SAug true "doubles_res" (EAdd (EScale (1 # 1) (EVar "contracted_intermediate")) (EScale (-1 # 1) (EEins "abij->abji" [(EVar "contracted_intermediate")])));
   (*L942*) SAssign "contracted_intermediate" (EScale (-1 # 1) (EEins "mnlj,kldc,dami,cbkn->abij" [(ESlice (EVar "g_abab") [SV "o"; SV "o"; SV "o"; SV "o"]); (EVar "l2_aaaa"); (EVar "t2_abab"); (EVar "t2_abab")]));
   (*L943*) SAug true "doubles_res" (EAdd (EScale (1 # 1) (EVar "contracted_intermediate")) (EScale (-1 # 1) (EEins "abij->abji" [(EVar "contracted_intermediate")])));
   (*L946*) SAssign "contracted_intermediate" (EScale (-1 # 1) (EEins "nmjl,klcd,daim,cbkn->abij" [(ESlice (EVar "g_bbbb") [SV "o"; SV "o"; SV "o"; SV "o"]); (EVar "l2_abab"); (EVar "t2_bbbb"); (EVar "t2_abab")]));
   (*L947*) SAug true "doubles_res" (EAdd (EScale (1 # 1) (EVar "contracted_intermediate")) (EScale (-1 # 1) (EEins "abij->abji" [(EVar "contracted_intermediate")])));
   (*L950*) SAssign "contracted_intermediate" (EScale (1 # 1) (EEins "mnlj,lkdc,dami,cbkn->abij" [(ESlice (EVar "g_abab") [SV "o"; SV "o"; SV "o"; SV "o"]); (EVar "l2_abab"); (EVar "t2_abab"); (EVar "t2_bbbb")]));
   (*L951*) SAug true "doubles_res" (EAdd (EScale (1 # 1) (EVar "contracted_intermediate")) (EScale (-1 # 1) (EEins "abij->abji" [(EVar "contracted_intermediate")])));
   (*L954*) SAssign "contracted_intermediate" (EScale (1 # 1) (EEins "nmlj,lkcd,daim,cbnk->abij" [(ESlice (EVar "g_abab") [SV "o"; SV "o"; SV "o"; SV "o"]); (EVar "l2_abab"); (EVar "t2_bbbb"); (EVar "t2_abab")]));
   (*L955*) SAug true "doubles_res" (EAdd (EScale (1 # 1) (EVar "contracted_intermediate")) (EScale (-1 # 1) (EEins "abij->abji" [(EVar "contracted_intermediate")])));
   (*L958*) SAssign "contracted_intermediate" (EScale (1 # 1) (EEins "nmjl,kldc,daim,cbkn->abij" [(ESlice (EVar "g_bbbb") [SV "o"; SV "o"; SV "o"; SV "o"]); (EVar "l2_bbbb"); (EVar "t2_bbbb"); (EVar "t2_bbbb")]));
   (*L959*) SAug true "doubles_res" (EAdd (EScale (1 # 1) (EVar "contracted_intermediate")) (EScale (-1 # 1) (EEins "abij->abji" [(EVar "contracted_intermediate")])));
   (*L962*) SAug true "doubles_res" (EScale (1 # 2) (EEins "nmij,lkdc,dclm,abkn->abij" [(ESlice (EVar "g_bbbb") [SV "o"; SV "o"; SV "o"; SV "o"]); (EVar "l2_abab"); (EVar "t2_abab"); (EVar "t2_bbbb")]));
   (*L965*) SAug true "doubles_res" (EScale (1 # 2) (EEins "nmij,lkcd,cdlm,abkn->abij" [(ESlice (EVar "g_bbbb") [SV "o"; SV "o"; SV "o"; SV "o"]); (EVar "l2_abab"); (EVar "t2_abab"); (EVar "t2_bbbb")]));
   (*L968*) SAug true "doubles_res" (EScale (-1 # 2) (EEins "nmij,kldc,dclm,abkn->abij" [(ESlice (EVar "g_bbbb") [SV "o"; SV "o"; SV "o"; SV "o"]); (EVar "l2_bbbb"); (EVar "t2_bbbb"); (EVar "t2_bbbb")]));
   (*L971*) SAssign "contracted_intermediate" (EScale (1 # 2) (EEins "nmij,kldc,dalm,cbkn->abij" [(ESlice (EVar "g_bbbb") [SV "o"; SV "o"; SV "o"; SV "o"]); (EVar "l2_aaaa"); (EVar "t2_abab"); (EVar "t2_abab")]));
   (*L972*) SAug true "doubles_res" (EAdd (EScale (1 # 1) (EVar "contracted_intermediate")) (EScale (-1 # 1) (EEins "abij->baij" [(EVar "contracted_intermediate")])));
   (*L975*) SAssign "contracted_intermediate" (EScale (-1 # 2) (EEins "nmij,klcd,dalm,cbkn->abij" [(ESlice (EVar "g_bbbb") [SV "o"; SV "o"; SV "o"; SV "o"]); (EVar "l2_abab"); (EVar "t2_bbbb"); (EVar "t2_abab")]));
   (*L976*) SAug true "doubles_res" (EAdd (EScale (1 # 1) (EVar "contracted_intermediate")) (EScale (-1 # 1) (EEins "abij->baij" [(EVar "contracted_intermediate")])));
   (*L979*) SAssign "contracted_intermediate" (EScale (-1 # 2) (EEins "nmij,lkdc,dalm,cbkn->abij" [(ESlice (EVar "g_bbbb") [SV "o"; SV "o"; SV "o"; SV "o"]); (EVar "l2_abab"); (EVar "t2_abab"); (EVar "t2_bbbb")]));
   (*L980*) SAug true "doubles_res" (EAdd (EScale (1 # 1) (EVar "contracted_intermediate")) (EScale (-1 # 1) (EEins "abij->baij" [(EVar "contracted_intermediate")])));
   (*L983*) SAssign "contracted_intermediate" (EScale (1 # 2) (EEins "nmij,kldc,dalm,cbkn->abij" [(ESlice (EVar "g_bbbb") [SV "o"; SV "o"; SV "o"; SV "o"]); (EVar "l2_bbbb"); (EVar "t2_bbbb"); (EVar "t2_bbbb")]));
   (*L984*) SAug true "doubles_res" (EAdd (EScale (1 # 1) (EVar "contracted_intermediate")) (EScale (-1 # 1) (EEins "abij->baij" [(EVar "contracted_intermediate")])));
   (*L987*) SAssign "contracted_intermediate" (EScale (1 # 1) (EEins "dmle,kldc,cekj,abim->abij" [(ESlice (EVar "g_abab") [SV "v"; SV "o"; SV "o"; SV "v"]); (EVar "l2_aaaa"); (EVar "t2_abab"); (EVar "t2_bbbb")]));
   (*L988*) SAug true "doubles_res" (EAdd (EScale (1 # 1) (EVar "contracted_intermediate")) (EScale (-1 # 1) (EEins "abij->abji" [(EVar "contracted_intermediate")])));
   (*L991*) SAssign "contracted_intermediate" (EScale (1 # 1) (EEins "dmel,kldc,eckj,abim->abij" [(ESlice (EVar "g_abab") [SV "v"; SV "o"; SV "v"; SV "o"]); (EVar "l2_abab"); (EVar "t2_abab"); (EVar "t2_bbbb")]));
   (*L992*) SAug true "doubles_res" (EAdd (EScale (1 # 1) (EVar "contracted_intermediate")) (EScale (-1 # 1) (EEins "abij->abji" [(EVar "contracted_intermediate")])));
   (*L995*) SAssign "contracted_intermediate" (EScale (-1 # 1) (EEins "mdel,klcd,cekj,abim->abij" [(ESlice (EVar "g_bbbb") [SV "o"; SV "v"; SV "v"; SV "o"]); (EVar "l2_abab"); (EVar "t2_abab"); (EVar "t2_bbbb")]));
   (*L996*) SAug true "doubles_res" (EAdd (EScale (1 # 1) (EVar "contracted_intermediate")) (EScale (-1 # 1) (EEins "abij->abji" [(EVar "contracted_intermediate")])));
   (*L999*) SAssign "contracted_intermediate" (EScale (-1 # 1) (EEins "dmle,lkdc,ecjk,abim->abij" [(ESlice (EVar "g_abab") [SV "v"; SV "o"; SV "o"; SV "v"]); (EVar "l2_abab"); (EVar "t2_bbbb"); (EVar "t2_bbbb")]));
   (*L1000*) SAug true "doubles_res" (EAdd (EScale (1 # 1) (EVar "contracted_intermediate")) (EScale (-1 # 1) (EEins "abij->abji" [(EVar "contracted_intermediate")])));
   (*L1003*) SAssign "contracted_intermediate" (EScale (1 # 1) (EEins "mdel,kldc,ecjk,abim->abij" [(ESlice (EVar "g_bbbb") [SV "o"; SV "v"; SV "v"; SV "o"]); (EVar "l2_bbbb"); (EVar "t2_bbbb"); (EVar "t2_bbbb")]));
   (*L1004*) SAug true "doubles_res" (EAdd (EScale (1 # 1) (EVar "contracted_intermediate")) (EScale (-1 # 1) (EEins "abij->abji" [(EVar "contracted_intermediate")])));
   (*L1007*) SAug true "doubles_res" (EScale (-1 # 1) (EEins "dmle,lkdc,ecij,abkm->abij" [(ESlice (EVar "g_abab") [SV "v"; SV "o"; SV "o"; SV "v"]); (EVar "l2_abab"); (EVar "t2_bbbb"); (EVar "t2_bbbb")]));
   (*L1010*) SAug true "doubles_res" (EScale (1 # 1) (EEins "mdel,kldc,ecij,abkm->abij" [(ESlice (EVar "g_bbbb") [SV "o"; SV "v"; SV "v"; SV "o"]); (EVar "l2_bbbb"); (EVar "t2_bbbb"); (EVar "t2_bbbb")]));
   (*L1013*) SAssign "contracted_intermediate" (EScale (-1 # 1) (EEins "mdel,kldc,eakj,cbmi->abij" [(ESlice (EVar "g_aaaa") [SV "o"; SV "v"; SV "v"; SV "o"]); (EVar "l2_aaaa"); (EVar "t2_abab"); (EVar "t2_abab")]));
   (*L1014*) SAug true "doubles_res" (EAdd (EAdd (EAdd (EScale (1 # 1) (EVar "contracted_intermediate")) (EScale (-1 # 1) (EEins "abij->abji" [(EVar "contracted_intermediate")]))) (EScale (-1 # 1) (EEins "abij->baij" [(EVar "contracted_intermediate")]))) (EScale (1 # 1) (EEins "abij->baji" [(EVar "contracted_intermediate")])));
   (*L1017*) SAssign "contracted_intermediate" (EScale (-1 # 1) (EEins "dmel,kldc,eakj,cbim->abij" [(ESlice (EVar "g_abab") [SV "v"; SV "o"; SV "v"; SV "o"]); (EVar "l2_abab"); (EVar "t2_abab"); (EVar "t2_bbbb")]));
   (*L1018*) SAug true "doubles_res" (EAdd (EAdd (EAdd (EScale (1 # 1) (EVar "contracted_intermediate")) (EScale (-1 # 1) (EEins "abij->abji" [(EVar "contracted_intermediate")]))) (EScale (-1 # 1) (EEins "abij->baij" [(EVar "contracted_intermediate")]))) (EScale (1 # 1) (EEins "abij->baji" [(EVar "contracted_intermediate")])));
   (*L1021*) SAssign "contracted_intermediate" (EScale (1 # 1) (EEins "mdel,klcd,eakj,cbmi->abij" [(ESlice (EVar "g_abab") [SV "o"; SV "v"; SV "v"; SV "o"]); (EVar "l2_abab"); (EVar "t2_abab"); (EVar "t2_abab")]));
   (*L1022*) SAug true "doubles_res" (EAdd (EAdd (EAdd (EScale (1 # 1) (EVar "contracted_intermediate")) (EScale (-1 # 1) (EEins "abij->abji" [(EVar "contracted_intermediate")]))) (EScale (-1 # 1) (EEins "abij->baij" [(EVar "contracted_intermediate")]))) (EScale (1 # 1) (EEins "abij->baji" [(EVar "contracted_intermediate")])));
   (*L1025*) SAssign "contracted_intermediate" (EScale (1 # 1) (EEins "dmle,lkdc,eajk,cbim->abij" [(ESlice (EVar "g_abab") [SV "v"; SV "o"; SV "o"; SV "v"]); (EVar "l2_abab"); (EVar "t2_bbbb"); (EVar "t2_bbbb")]));
   (*L1026*) SAug true "doubles_res" (EAdd (EAdd (EAdd (EScale (1 # 1) (EVar "contracted_intermediate")) (EScale (-1 # 1) (EEins "abij->abji" [(EVar "contracted_intermediate")]))) (EScale (-1 # 1) (EEins "abij->baij" [(EVar "contracted_intermediate")]))) (EScale (1 # 1) (EEins "abij->baji" [(EVar "contracted_intermediate")])));
   (*L1029*) SAssign "contracted_intermediate" (EScale (-1 # 1) (EEins "mdle,lkcd,eajk,cbmi->abij" [(ESlice (EVar "g_abab") [SV "o"; SV "v"; SV "o"; SV "v"]); (EVar "l2_abab"); (EVar "t2_bbbb"); (EVar "t2_abab")]));
   (*L1030*) SAug true "doubles_res" (EAdd (EAdd (EAdd (EScale (1 # 1) (EVar "contracted_intermediate")) (EScale (-1 # 1) (EEins "abij->abji" [(EVar "contracted_intermediate")]))) (EScale (-1 # 1) (EEins "abij->baij" [(EVar "contracted_intermediate")]))) (EScale (1 # 1) (EEins "abij->baji" [(EVar "contracted_intermediate")])));
   (*L1033*) SAssign "contracted_intermediate" (EScale (-1 # 1) (EEins "mdel,kldc,eajk,cbim->abij" [(ESlice (EVar "g_bbbb") [SV "o"; SV "v"; SV "v"; SV "o"]); (EVar "l2_bbbb"); (EVar "t2_bbbb"); (EVar "t2_bbbb")]));
   (*L1034*) SAug true "doubles_res" (EAdd (EAdd (EAdd (EScale (1 # 1) (EVar "contracted_intermediate")) (EScale (-1 # 1) (EEins "abij->abji" [(EVar "contracted_intermediate")]))) (EScale (-1 # 1) (EEins "abij->baij" [(EVar "contracted_intermediate")]))) (EScale (1 # 1) (EEins "abij->baji" [(EVar "contracted_intermediate")])));
   (*L1037*) SAssign "contracted_intermediate" (EScale (-1 # 1) (EEins "dmle,kldc,eaij,cbkm->abij" [(ESlice (EVar "g_abab") [SV "v"; SV "o"; SV "o"; SV "v"]); (EVar "l2_aaaa"); (EVar "t2_bbbb"); (EVar "t2_abab")]));
   (*L1038*) SAug true "doubles_res" (EAdd (EScale (1 # 1) (EVar "contracted_intermediate")) (EScale (-1 # 1) (EEins "abij->baij" [(EVar "contracted_intermediate")])));
   (*L1041*) SAssign "contracted_intermediate" (EScale (1 # 1) (EEins "mdel,klcd,eaij,cbkm->abij" [(ESlice (EVar "g_bbbb") [SV "o"; SV "v"; SV "v"; SV "o"]); (EVar "l2_abab"); (EVar "t2_bbbb"); (EVar "t2_abab")]));
   (*L1042*) SAug true "doubles_res" (EAdd (EScale (1 # 1) (EVar "contracted_intermediate")) (EScale (-1 # 1) (EEins "abij->baij" [(EVar "contracted_intermediate")])));
   (*L1045*) SAssign "contracted_intermediate" (EScale (1 # 1) (EEins "dmle,lkdc,eaij,cbkm->abij" [(ESlice (EVar "g_abab") [SV "v"; SV "o"; SV "o"; SV "v"]); (EVar "l2_abab"); (EVar "t2_bbbb"); (EVar "t2_bbbb")]));
   (*L1046*) SAug true "doubles_res" (EAdd (EScale (1 # 1) (EVar "contracted_intermediate")) (EScale (-1 # 1) (EEins "abij->baij" [(EVar "contracted_intermediate")])));
   (*L1049*) SAssign "contracted_intermediate" (EScale (-1 # 1) (EEins "mdle,lkcd,eaij,cbmk->abij" [(ESlice (EVar "g_abab") [SV "o"; SV "v"; SV "o"; SV "v"]); (EVar "l2_abab"); (EVar "t2_bbbb"); (EVar "t2_abab")]));
   (*L1050*) SAug true "doubles_res" (EAdd (EScale (1 # 1) (EVar "contracted_intermediate")) (EScale (-1 # 1) (EEins "abij->baij" [(EVar "contracted_intermediate")])));
   (*L1053*) SAssign "contracted_intermediate" (EScale (-1 # 1) (EEins "mdel,kldc,eaij,cbkm->abij" [(ESlice (EVar "g_bbbb") [SV "o"; SV "v"; SV "v"; SV "o"]); (EVar "l2_bbbb"); (EVar "t2_bbbb"); (EVar "t2_bbbb")]));
   (*L1054*) SAug true "doubles_res" (EAdd (EScale (1 # 1) (EVar "contracted_intermediate")) (EScale (-1 # 1) (EEins "abij->baij" [(EVar "contracted_intermediate")])));
   (*L1057*) SAssign "contracted_intermediate" (EScale (-1 # 2) (EEins "dmej,kldc,eckl,abim->abij" [(ESlice (EVar "g_abab") [SV "v"; SV "o"; SV "v"; SV "o"]); (EVar "l2_aaaa"); (EVar "t2_aaaa"); (EVar "t2_bbbb")]));
   (*L1058*) SAug true "doubles_res" (EAdd (EScale (1 # 1) (EVar "contracted_intermediate")) (EScale (-1 # 1) (EEins "abij->abji" [(EVar "contracted_intermediate")])));
   (*L1061*) SAssign "contracted_intermediate" (EScale (-1 # 2) (EEins "dmej,kldc,eckl,abim->abij" [(ESlice (EVar "g_abab") [SV "v"; SV "o"; SV "v"; SV "o"]); (EVar "l2_abab"); (EVar "t2_abab"); (EVar "t2_bbbb")]));
   (*L1062*) SAug true "doubles_res" (EAdd (EScale (1 # 1) (EVar "contracted_intermediate")) (EScale (-1 # 1) (EEins "abij->abji" [(EVar "contracted_intermediate")])));
   (*L1065*) SAssign "contracted_intermediate" (EScale (1 # 2) (EEins "mdej,klcd,cekl,abim->abij" [(ESlice (EVar "g_bbbb") [SV "o"; SV "v"; SV "v"; SV "o"]); (EVar "l2_abab"); (EVar "t2_abab"); (EVar "t2_bbbb")]));
   (*L1066*) SAug true "doubles_res" (EAdd (EScale (1 # 1) (EVar "contracted_intermediate")) (EScale (-1 # 1) (EEins "abij->abji" [(EVar "contracted_intermediate")])));
   (*L1069*) SAssign "contracted_intermediate" (EScale (-1 # 2) (EEins "dmej,lkdc,eclk,abim->abij" [(ESlice (EVar "g_abab") [SV "v"; SV "o"; SV "v"; SV "o"]); (EVar "l2_abab"); (EVar "t2_abab"); (EVar "t2_bbbb")]));
   (*L1070*) SAug true "doubles_res" (EAdd (EScale (1 # 1) (EVar "contracted_intermediate")) (EScale (-1 # 1) (EEins "abij->abji" [(EVar "contracted_intermediate")])));
   (*L1073*) SAssign "contracted_intermediate" (EScale (1 # 2) (EEins "mdej,lkcd,celk,abim->abij" [(ESlice (EVar "g_bbbb") [SV "o"; SV "v"; SV "v"; SV "o"]); (EVar "l2_abab"); (EVar "t2_abab"); (EVar "t2_bbbb")]));
   (*L1074*) SAug true "doubles_res" (EAdd (EScale (1 # 1) (EVar "contracted_intermediate")) (EScale (-1 # 1) (EEins "abij->abji" [(EVar "contracted_intermediate")])));
   (*L1077*) SAssign "contracted_intermediate" (EScale (1 # 2) (EEins "mdej,kldc,eckl,abim->abij" [(ESlice (EVar "g_bbbb") [SV "o"; SV "v"; SV "v"; SV "o"]); (EVar "l2_bbbb"); (EVar "t2_bbbb"); (EVar "t2_bbbb")]));
   (*L1078*) SAug true "doubles_res" (EAdd (EScale (1 # 1) (EVar "contracted_intermediate")) (EScale (-1 # 1) (EEins "abij->abji" [(EVar "contracted_intermediate")])));
   (*L1081*) SAssign "contracted_intermediate" (EScale (1 # 1) (EEins "dmej,lkdc,ecli,abkm->abij" [(ESlice (EVar "g_abab") [SV "v"; SV "o"; SV "v"; SV "o"]); (EVar "l2_abab"); (EVar "t2_abab"); (EVar "t2_bbbb")]));
   (*L1082*) SAug true "doubles_res" (EAdd (EScale (1 # 1) (EVar "contracted_intermediate")) (EScale (-1 # 1) (EEins "abij->abji" [(EVar "contracted_intermediate")])));
   (*L1085*) SAssign "contracted_intermediate" (EScale (-1 # 1) (EEins "mdej,lkcd,celi,abkm->abij" [(ESlice (EVar "g_bbbb") [SV "o"; SV "v"; SV "v"; SV "o"]); (EVar "l2_abab"); (EVar "t2_abab"); (EVar "t2_bbbb")]));
   (*L1086*) SAug true "doubles_res" (EAdd (EScale (1 # 1) (EVar "contracted_intermediate")) (EScale (-1 # 1) (EEins "abij->abji" [(EVar "contracted_intermediate")])));
   (*L1089*) SAssign "contracted_intermediate" (EScale (-1 # 1) (EEins "mdej,kldc,ecil,abkm->abij" [(ESlice (EVar "g_bbbb") [SV "o"; SV "v"; SV "v"; SV "o"]); (EVar "l2_bbbb"); (EVar "t2_bbbb"); (EVar "t2_bbbb")]));
   (*L1090*) SAug true "doubles_res" (EAdd (EScale (1 # 1) (EVar "contracted_intermediate")) (EScale (-1 # 1) (EEins "abij->abji" [(EVar "contracted_intermediate")])));
   (*L1093*) SAssign "contracted_intermediate" (EScale (1 # 2) (EEins "dmej,kldc,eakl,cbim->abij" [(ESlice (EVar "g_abab") [SV "v"; SV "o"; SV "v"; SV "o"]); (EVar "l2_abab"); (EVar "t2_abab"); (EVar "t2_bbbb")]));
   (*L1094*) SAug true "doubles_res" (EAdd (EAdd (EAdd (EScale (1 # 1) (EVar "contracted_intermediate")) (EScale (-1 # 1) (EEins "abij->abji" [(EVar "contracted_intermediate")]))) (EScale (-1 # 1) (EEins "abij->baij" [(EVar "contracted_intermediate")]))) (EScale (1 # 1) (EEins "abij->baji" [(EVar "contracted_intermediate")])));
   (*L1097*) SAssign "contracted_intermediate" (EScale (-1 # 2) (EEins "mdej,klcd,eakl,cbmi->abij" [(ESlice (EVar "g_abab") [SV "o"; SV "v"; SV "v"; SV "o"]); (EVar "l2_abab"); (EVar "t2_abab"); (EVar "t2_abab")]));
   (*L1098*) SAug true "doubles_res" (EAdd (EAdd (EAdd (EScale (1 # 1) (EVar "contracted_intermediate")) (EScale (-1 # 1) (EEins "abij->abji" [(EVar "contracted_intermediate")]))) (EScale (-1 # 1) (EEins "abij->baij" [(EVar "contracted_intermediate")]))) (EScale (1 # 1) (EEins "abij->baji" [(EVar "contracted_intermediate")])));
   (*L1101*) SAssign "contracted_intermediate" (EScale (1 # 2) (EEins "dmej,lkdc,ealk,cbim->abij" [(ESlice (EVar "g_abab") [SV "v"; SV "o"; SV "v"; SV "o"]); (EVar "l2_abab"); (EVar "t2_abab"); (EVar "t2_bbbb")]));
   (*L1102*) SAug true "doubles_res" (EAdd (EAdd (EAdd (EScale (1 # 1) (EVar "contracted_intermediate")) (EScale (-1 # 1) (EEins "abij->abji" [(EVar "contracted_intermediate")]))) (EScale (-1 # 1) (EEins "abij->baij" [(EVar "contracted_intermediate")]))) (EScale (1 # 1) (EEins "abij->baji" [(EVar "contracted_intermediate")])));
   (*L1105*) SAssign "contracted_intermediate" (EScale (-1 # 2) (EEins "mdej,lkcd,ealk,cbmi->abij" [(ESlice (EVar "g_abab") [SV "o"; SV "v"; SV "v"; SV "o"]); (EVar "l2_abab"); (EVar "t2_abab"); (EVar "t2_abab")]));
   (*L1106*) SAug true "doubles_res" (EAdd (EAdd (EAdd (EScale (1 # 1) (EVar "contracted_intermediate")) (EScale (-1 # 1) (EEins "abij->abji" [(EVar "contracted_intermediate")]))) (EScale (-1 # 1) (EEins "abij->baij" [(EVar "contracted_intermediate")]))) (EScale (1 # 1) (EEins "abij->baji" [(EVar "contracted_intermediate")])));
   (*L1109*) SAssign "contracted_intermediate" (EScale (-1 # 2) (EEins "mdej,kldc,eakl,cbim->abij" [(ESlice (EVar "g_bbbb") [SV "o"; SV "v"; SV "v"; SV "o"]); (EVar "l2_bbbb"); (EVar "t2_bbbb"); (EVar "t2_bbbb")]));
   (*L1110*) SAug true "doubles_res" (EAdd (EAdd (EAdd (EScale (1 # 1) (EVar "contracted_intermediate")) (EScale (-1 # 1) (EEins "abij->abji" [(EVar "contracted_intermediate")]))) (EScale (-1 # 1) (EEins "abij->baij" [(EVar "contracted_intermediate")]))) (EScale (1 # 1) (EEins "abij->baji" [(EVar "contracted_intermediate")])));
   (*L1113*) SAssign "contracted_intermediate" (EScale (1 # 1) (EEins "dmej,kldc,eali,cbkm->abij" [(ESlice (EVar "g_abab") [SV "v"; SV "o"; SV "v"; SV "o"]); (EVar "l2_aaaa"); (EVar "t2_abab"); (EVar "t2_abab")]));
   (*L1114*) SAug true "doubles_res" (EAdd (EAdd (EAdd (EScale (1 # 1) (EVar "contracted_intermediate")) (EScale (-1 # 1) (EEins "abij->abji" [(EVar "contracted_intermediate")]))) (EScale (-1 # 1) (EEins "abij->baij" [(EVar "contracted_intermediate")]))) (EScale (1 # 1) (EEins "abij->baji" [(EVar "contracted_intermediate")])));
   (*L1117*) SAssign "contracted_intermediate" (EScale (-1 # 1) (EEins "mdej,klcd,eail,cbkm->abij" [(ESlice (EVar "g_bbbb") [SV "o"; SV "v"; SV "v"; SV "o"]); (EVar "l2_abab"); (EVar "t2_bbbb"); (EVar "t2_abab")]));
   (*L1118*) SAug true "doubles_res" (EAdd (EAdd (EAdd (EScale (1 # 1) (EVar "contracted_intermediate")) (EScale (-1 # 1) (EEins "abij->abji" [(EVar "contracted_intermediate")]))) (EScale (-1 # 1) (EEins "abij->baij" [(EVar "contracted_intermediate")]))) (EScale (1 # 1) (EEins "abij->baji" [(EVar "contracted_intermediate")])));
   (*L1121*) SAssign "contracted_intermediate" (EScale (-1 # 1) (EEins "dmej,lkdc,eali,cbkm->abij" [(ESlice (EVar "g_abab") [SV "v"; SV "o"; SV "v"; SV "o"]); (EVar "l2_abab"); (EVar "t2_abab"); (EVar "t2_bbbb")]));
   (*L1122*) SAug true "doubles_res" (EAdd (EAdd (EAdd (EScale (1 # 1) (EVar "contracted_intermediate")) (EScale (-1 # 1) (EEins "abij->abji" [(EVar "contracted_intermediate")]))) (EScale (-1 # 1) (EEins "abij->baij" [(EVar "contracted_intermediate")]))) (EScale (1 # 1) (EEins "abij->baji" [(EVar "contracted_intermediate")])));
   (*L1125*) SAssign "contracted_intermediate" (EScale (1 # 1) (EEins "mdej,lkcd,eali,cbmk->abij" [(ESlice (EVar "g_abab") [SV "o"; SV "v"; SV "v"; SV "o"]); (EVar "l2_abab"); (EVar "t2_abab"); (EVar "t2_abab")]));
   (*L1126*) SAug true "doubles_res" (EAdd (EAdd (EAdd (EScale (1 # 1) (EVar "contracted_intermediate")) (EScale (-1 # 1) (EEins "abij->abji" [(EVar "contracted_intermediate")]))) (EScale (-1 # 1) (EEins "abij->baij" [(EVar "contracted_intermediate")]))) (EScale (1 # 1) (EEins "abij->baji" [(EVar "contracted_intermediate")])));
   (*L1129*) SAssign "contracted_intermediate" (EScale (1 # 1) (EEins "mdej,kldc,eail,cbkm->abij" [(ESlice (EVar "g_bbbb") [SV "o"; SV "v"; SV "v"; SV "o"]); (EVar "l2_bbbb"); (EVar "t2_bbbb"); (EVar "t2_bbbb")]));
   (*L1130*) SAug true "doubles_res" (EAdd (EAdd (EAdd (EScale (1 # 1) (EVar "contracted_intermediate")) (EScale (-1 # 1) (EEins "abij->abji" [(EVar "contracted_intermediate")]))) (EScale (-1 # 1) (EEins "abij->baij" [(EVar "contracted_intermediate")]))) (EScale (1 # 1) (EEins "abij->baji" [(EVar "contracted_intermediate")])));
   (*L1133*) SAssign "contracted_intermediate" (EScale (1 # 1) (EEins "male,kldc,dekj,cbmi->abij" [(ESlice (EVar "g_abab") [SV "o"; SV "v"; SV "o"; SV "v"]); (EVar "l2_aaaa"); (EVar "t2_abab"); (EVar "t2_abab")]));
   (*L1134*) SAug true "doubles_res" (EAdd (EAdd (EAdd (EScale (1 # 1) (EVar "contracted_intermediate")) (EScale (-1 # 1) (EEins "abij->abji" [(EVar "contracted_intermediate")]))) (EScale (-1 # 1) (EEins "abij->baij" [(EVar "contracted_intermediate")]))) (EScale (1 # 1) (EEins "abij->baji" [(EVar "contracted_intermediate")])));
   (*L1137*) SAssign "contracted_intermediate" (EScale (1 # 1) (EEins "mael,kldc,dekj,cbim->abij" [(ESlice (EVar "g_bbbb") [SV "o"; SV "v"; SV "v"; SV "o"]); (EVar "l2_abab"); (EVar "t2_abab"); (EVar "t2_bbbb")]));
   (*L1138*) SAug true "doubles_res" (EAdd (EAdd (EAdd (EScale (1 # 1) (EVar "contracted_intermediate")) (EScale (-1 # 1) (EEins "abij->abji" [(EVar "contracted_intermediate")]))) (EScale (-1 # 1) (EEins "abij->baij" [(EVar "contracted_intermediate")]))) (EScale (1 # 1) (EEins "abij->baji" [(EVar "contracted_intermediate")])));
   (*L1141*) SAssign "contracted_intermediate" (EScale (-1 # 1) (EEins "mael,klcd,edkj,cbmi->abij" [(ESlice (EVar "g_abab") [SV "o"; SV "v"; SV "v"; SV "o"]); (EVar "l2_abab"); (EVar "t2_abab"); (EVar "t2_abab")]));
   (*L1142*) SAug true "doubles_res" (EAdd (EAdd (EAdd (EScale (1 # 1) (EVar "contracted_intermediate")) (EScale (-1 # 1) (EEins "abij->abji" [(EVar "contracted_intermediate")]))) (EScale (-1 # 1) (EEins "abij->baij" [(EVar "contracted_intermediate")]))) (EScale (1 # 1) (EEins "abij->baji" [(EVar "contracted_intermediate")])));
   (*L1145*) SAssign "contracted_intermediate" (EScale (1 # 1) (EEins "male,lkcd,edjk,cbmi->abij" [(ESlice (EVar "g_abab") [SV "o"; SV "v"; SV "o"; SV "v"]); (EVar "l2_abab"); (EVar "t2_bbbb"); (EVar "t2_abab")]));
   (*L1146*) SAug true "doubles_res" (EAdd (EAdd (EAdd (EScale (1 # 1) (EVar "contracted_intermediate")) (EScale (-1 # 1) (EEins "abij->abji" [(EVar "contracted_intermediate")]))) (EScale (-1 # 1) (EEins "abij->baij" [(EVar "contracted_intermediate")]))) (EScale (1 # 1) (EEins "abij->baji" [(EVar "contracted_intermediate")])));
   (*L1149*) SAssign "contracted_intermediate" (EScale (1 # 1) (EEins "mael,kldc,edjk,cbim->abij" [(ESlice (EVar "g_bbbb") [SV "o"; SV "v"; SV "v"; SV "o"]); (EVar "l2_bbbb"); (EVar "t2_bbbb"); (EVar "t2_bbbb")]));
   (*L1150*) SAug true "doubles_res" (EAdd (EAdd (EAdd (EScale (1 # 1) (EVar "contracted_intermediate")) (EScale (-1 # 1) (EEins "abij->abji" [(EVar "contracted_intermediate")]))) (EScale (-1 # 1) (EEins "abij->baij" [(EVar "contracted_intermediate")]))) (EScale (1 # 1) (EEins "abij->baji" [(EVar "contracted_intermediate")])));
   (*L1153*) SAssign "contracted_intermediate" (EScale (-1 # 1) (EEins "mael,klcd,edij,cbkm->abij" [(ESlice (EVar "g_bbbb") [SV "o"; SV "v"; SV "v"; SV "o"]); (EVar "l2_abab"); (EVar "t2_bbbb"); (EVar "t2_abab")]));
   (*L1154*) SAug true "doubles_res" (EAdd (EScale (1 # 1) (EVar "contracted_intermediate")) (EScale (-1 # 1) (EEins "abij->baij" [(EVar "contracted_intermediate")])));
   (*L1157*) SAssign "contracted_intermediate" (EScale (1 # 1) (EEins "male,lkcd,edij,cbmk->abij" [(ESlice (EVar "g_abab") [SV "o"; SV "v"; SV "o"; SV "v"]); (EVar "l2_abab"); (EVar "t2_bbbb"); (EVar "t2_abab")]));
   (*L1158*) SAug true "doubles_res" (EAdd (EScale (1 # 1) (EVar "contracted_intermediate")) (EScale (-1 # 1) (EEins "abij->baij" [(EVar "contracted_intermediate")])));
   (*L1161*) SAssign "contracted_intermediate" (EScale (1 # 1) (EEins "mael,kldc,edij,cbkm->abij" [(ESlice (EVar "g_bbbb") [SV "o"; SV "v"; SV "v"; SV "o"]); (EVar "l2_bbbb"); (EVar "t2_bbbb"); (EVar "t2_bbbb")]));
   (*L1162*) SAug true "doubles_res" (EAdd (EScale (1 # 1) (EVar "contracted_intermediate")) (EScale (-1 # 1) (EEins "abij->baij" [(EVar "contracted_intermediate")])));
   (*L1165*) SAssign "contracted_intermediate" (EScale (1 # 2) (EEins "mael,kldc,ebkj,dcmi->abij" [(ESlice (EVar "g_abab") [SV "o"; SV "v"; SV "v"; SV "o"]); (EVar "l2_abab"); (EVar "t2_abab"); (EVar "t2_abab")]));
   (*L1166*) SAug true "doubles_res" (EAdd (EAdd (EAdd (EScale (1 # 1) (EVar "contracted_intermediate")) (EScale (-1 # 1) (EEins "abij->abji" [(EVar "contracted_intermediate")]))) (EScale (-1 # 1) (EEins "abij->baij" [(EVar "contracted_intermediate")]))) (EScale (1 # 1) (EEins "abij->baji" [(EVar "contracted_intermediate")])));
   (*L1169*) SAssign "contracted_intermediate" (EScale (1 # 2) (EEins "mael,klcd,ebkj,cdmi->abij" [(ESlice (EVar "g_abab") [SV "o"; SV "v"; SV "v"; SV "o"]); (EVar "l2_abab"); (EVar "t2_abab"); (EVar "t2_abab")]));
   (*L1170*) SAug true "doubles_res" (EAdd (EAdd (EAdd (EScale (1 # 1) (EVar "contracted_intermediate")) (EScale (-1 # 1) (EEins "abij->abji" [(EVar "contracted_intermediate")]))) (EScale (-1 # 1) (EEins "abij->baij" [(EVar "contracted_intermediate")]))) (EScale (1 # 1) (EEins "abij->baji" [(EVar "contracted_intermediate")])));
   (*L1173*) SAssign "contracted_intermediate" (EScale (-1 # 2) (EEins "male,lkdc,ebjk,dcmi->abij" [(ESlice (EVar "g_abab") [SV "o"; SV "v"; SV "o"; SV "v"]); (EVar "l2_abab"); (EVar "t2_bbbb"); (EVar "t2_abab")]));
   (*L1174*) SAug true "doubles_res" (EAdd (EAdd (EAdd (EScale (1 # 1) (EVar "contracted_intermediate")) (EScale (-1 # 1) (EEins "abij->abji" [(EVar "contracted_intermediate")]))) (EScale (-1 # 1) (EEins "abij->baij" [(EVar "contracted_intermediate")]))) (EScale (1 # 1) (EEins "abij->baji" [(EVar "contracted_intermediate")])));
   (*L1177*) SAssign "contracted_intermediate" (EScale (-1 # 2) (EEins "male,lkcd,ebjk,cdmi->abij" [(ESlice (EVar "g_abab") [SV "o"; SV "v"; SV "o"; SV "v"]); (EVar "l2_abab"); (EVar "t2_bbbb"); (EVar "t2_abab")]));
   (*L1178*) SAug true "doubles_res" (EAdd (EAdd (EAdd (EScale (1 # 1) (EVar "contracted_intermediate")) (EScale (-1 # 1) (EEins "abij->abji" [(EVar "contracted_intermediate")]))) (EScale (-1 # 1) (EEins "abij->baij" [(EVar "contracted_intermediate")]))) (EScale (1 # 1) (EEins "abij->baji" [(EVar "contracted_intermediate")])));
   (*L1181*) SAssign "contracted_intermediate" (EScale (1 # 2) (EEins "mael,kldc,ebjk,dcim->abij" [(ESlice (EVar "g_bbbb") [SV "o"; SV "v"; SV "v"; SV "o"]); (EVar "l2_bbbb"); (EVar "t2_bbbb"); (EVar "t2_bbbb")]));
   (*L1182*) SAug true "doubles_res" (EAdd (EAdd (EAdd (EScale (1 # 1) (EVar "contracted_intermediate")) (EScale (-1 # 1) (EEins "abij->abji" [(EVar "contracted_intermediate")]))) (EScale (-1 # 1) (EEins "abij->baij" [(EVar "contracted_intermediate")]))) (EScale (1 # 1) (EEins "abij->baji" [(EVar "contracted_intermediate")])));
   (*L1185*) SAssign "contracted_intermediate" (EScale (-1 # 2) (EEins "male,kldc,ebij,dckm->abij" [(ESlice (EVar "g_abab") [SV "o"; SV "v"; SV "o"; SV "v"]); (EVar "l2_aaaa"); (EVar "t2_bbbb"); (EVar "t2_aaaa")]));
   (*L1186*) SAug true "doubles_res" (EAdd (EScale (1 # 1) (EVar "contracted_intermediate")) (EScale (-1 # 1) (EEins "abij->baij" [(EVar "contracted_intermediate")])));
   (*L1189*) SAssign "contracted_intermediate" (EScale (1 # 2) (EEins "mael,kldc,ebij,dckm->abij" [(ESlice (EVar "g_bbbb") [SV "o"; SV "v"; SV "v"; SV "o"]); (EVar "l2_abab"); (EVar "t2_bbbb"); (EVar "t2_abab")]));
   (*L1190*) SAug true "doubles_res" (EAdd (EScale (1 # 1) (EVar "contracted_intermediate")) (EScale (-1 # 1) (EEins "abij->baij" [(EVar "contracted_intermediate")])));
   (*L1193*) SAssign "contracted_intermediate" (EScale (1 # 2) (EEins "mael,klcd,ebij,cdkm->abij" [(ESlice (EVar "g_bbbb") [SV "o"; SV "v"; SV "v"; SV "o"]); (EVar "l2_abab"); (EVar "t2_bbbb"); (EVar "t2_abab")]));
   (*L1194*) SAug true "doubles_res" (EAdd (EScale (1 # 1) (EVar "contracted_intermediate")) (EScale (-1 # 1) (EEins "abij->baij" [(EVar "contracted_intermediate")])));
   (*L1197*) SAssign "contracted_intermediate" (EScale (-1 # 2) (EEins "male,lkdc,ebij,dcmk->abij" [(ESlice (EVar "g_abab") [SV "o"; SV "v"; SV "o"; SV "v"]); (EVar "l2_abab"); (EVar "t2_bbbb"); (EVar "t2_abab")]));
   (*L1198*) SAug true "doubles_res" (EAdd (EScale (1 # 1) (EVar "contracted_intermediate")) (EScale (-1 # 1) (EEins "abij->baij" [(EVar "contracted_intermediate")])));
   (*L1201*) SAssign "contracted_intermediate" (EScale (-1 # 2) (EEins "male,lkcd,ebij,cdmk->abij" [(ESlice (EVar "g_abab") [SV "o"; SV "v"; SV "o"; SV "v"]); (EVar "l2_abab"); (EVar "t2_bbbb"); (EVar "t2_abab")]));
   (*L1202*) SAug true "doubles_res" (EAdd (EScale (1 # 1) (EVar "contracted_intermediate")) (EScale (-1 # 1) (EEins "abij->baij" [(EVar "contracted_intermediate")])));
   (*L1205*) SAssign "contracted_intermediate" (EScale (1 # 2) (EEins "mael,kldc,ebij,dckm->abij" [(ESlice (EVar "g_bbbb") [SV "o"; SV "v"; SV "v"; SV "o"]); (EVar "l2_bbbb"); (EVar "t2_bbbb"); (EVar "t2_bbbb")]));
   (*L1206*) SAug true "doubles_res" (EAdd (EScale (1 # 1) (EVar "contracted_intermediate")) (EScale (-1 # 1) (EEins "abij->baij" [(EVar "contracted_intermediate")])));
   (*L1209*) SAssign "contracted_intermediate" (EScale (-1 # 2) (EEins "maej,kldc,edkl,cbmi->abij" [(ESlice (EVar "g_abab") [SV "o"; SV "v"; SV "v"; SV "o"]); (EVar "l2_aaaa"); (EVar "t2_aaaa"); (EVar "t2_abab")]));
   (*L1210*) SAug true "doubles_res" (EAdd (EAdd (EAdd (EScale (1 # 1) (EVar "contracted_intermediate")) (EScale (-1 # 1) (EEins "abij->abji" [(EVar "contracted_intermediate")]))) (EScale (-1 # 1) (EEins "abij->baij" [(EVar "contracted_intermediate")]))) (EScale (1 # 1) (EEins "abij->baji" [(EVar "contracted_intermediate")])));
   (*L1213*) SAssign "contracted_intermediate" (EScale (-1 # 2) (EEins "maej,kldc,dekl,cbim->abij" [(ESlice (EVar "g_bbbb") [SV "o"; SV "v"; SV "v"; SV "o"]); (EVar "l2_abab"); (EVar "t2_abab"); (EVar "t2_bbbb")]));
   (*L1214*) SAug true "doubles_res" (EAdd (EAdd (EAdd (EScale (1 # 1) (EVar "contracted_intermediate")) (EScale (-1 # 1) (EEins "abij->abji" [(EVar "contracted_intermediate")]))) (EScale (-1 # 1) (EEins "abij->baij" [(EVar "contracted_intermediate")]))) (EScale (1 # 1) (EEins "abij->baji" [(EVar "contracted_intermediate")])));
   (*L1217*) SAssign "contracted_intermediate" (EScale (1 # 2) (EEins "maej,klcd,edkl,cbmi->abij" [(ESlice (EVar "g_abab") [SV "o"; SV "v"; SV "v"; SV "o"]); (EVar "l2_abab"); (EVar "t2_abab"); (EVar "t2_abab")]));
   (*L1218*) SAug true "doubles_res" (EAdd (EAdd (EAdd (EScale (1 # 1) (EVar "contracted_intermediate")) (EScale (-1 # 1) (EEins "abij->abji" [(EVar "contracted_intermediate")]))) (EScale (-1 # 1) (EEins "abij->baij" [(EVar "contracted_intermediate")]))) (EScale (1 # 1) (EEins "abij->baji" [(EVar "contracted_intermediate")])));
   (*L1221*) SAssign "contracted_intermediate" (EScale (-1 # 2) (EEins "maej,lkdc,delk,cbim->abij" [(ESlice (EVar "g_bbbb") [SV "o"; SV "v"; SV "v"; SV "o"]); (EVar "l2_abab"); (EVar "t2_abab"); (EVar "t2_bbbb")]));
   (*L1222*) SAug true "doubles_res" (EAdd (EAdd (EAdd (EScale (1 # 1) (EVar "contracted_intermediate")) (EScale (-1 # 1) (EEins "abij->abji" [(EVar "contracted_intermediate")]))) (EScale (-1 # 1) (EEins "abij->baij" [(EVar "contracted_intermediate")]))) (EScale (1 # 1) (EEins "abij->baji" [(EVar "contracted_intermediate")])));
   (*L1225*) SAssign "contracted_intermediate" (EScale (1 # 2) (EEins "maej,lkcd,edlk,cbmi->abij" [(ESlice (EVar "g_abab") [SV "o"; SV "v"; SV "v"; SV "o"]); (EVar "l2_abab"); (EVar "t2_abab"); (EVar "t2_abab")]));
   (*L1226*) SAug true "doubles_res" (EAdd (EAdd (EAdd (EScale (1 # 1) (EVar "contracted_intermediate")) (EScale (-1 # 1) (EEins "abij->abji" [(EVar "contracted_intermediate")]))) (EScale (-1 # 1) (EEins "abij->baij" [(EVar "contracted_intermediate")]))) (EScale (1 # 1) (EEins "abij->baji" [(EVar "contracted_intermediate")])));
   (*L1229*) SAssign "contracted_intermediate" (EScale (1 # 2) (EEins "maej,kldc,edkl,cbim->abij" [(ESlice (EVar "g_bbbb") [SV "o"; SV "v"; SV "v"; SV "o"]); (EVar "l2_bbbb"); (EVar "t2_bbbb"); (EVar "t2_bbbb")]));
   (*L1230*) SAug true "doubles_res" (EAdd (EAdd (EAdd (EScale (1 # 1) (EVar "contracted_intermediate")) (EScale (-1 # 1) (EEins "abij->abji" [(EVar "contracted_intermediate")]))) (EScale (-1 # 1) (EEins "abij->baij" [(EVar "contracted_intermediate")]))) (EScale (1 # 1) (EEins "abij->baji" [(EVar "contracted_intermediate")])));
   (*L1233*) SAssign "contracted_intermediate" (EScale (-1 # 1) (EEins "maej,kldc,deli,cbkm->abij" [(ESlice (EVar "g_bbbb") [SV "o"; SV "v"; SV "v"; SV "o"]); (EVar "l2_aaaa"); (EVar "t2_abab"); (EVar "t2_abab")]));
   (*L1234*) SAug true "doubles_res" (EAdd (EAdd (EAdd (EScale (1 # 1) (EVar "contracted_intermediate")) (EScale (-1 # 1) (EEins "abij->abji" [(EVar "contracted_intermediate")]))) (EScale (-1 # 1) (EEins "abij->baij" [(EVar "contracted_intermediate")]))) (EScale (1 # 1) (EEins "abij->baji" [(EVar "contracted_intermediate")])));
   (*L1237*) SAssign "contracted_intermediate" (EScale (1 # 1) (EEins "maej,klcd,edil,cbkm->abij" [(ESlice (EVar "g_bbbb") [SV "o"; SV "v"; SV "v"; SV "o"]); (EVar "l2_abab"); (EVar "t2_bbbb"); (EVar "t2_abab")]));
   (*L1238*) SAug true "doubles_res" (EAdd (EAdd (EAdd (EScale (1 # 1) (EVar "contracted_intermediate")) (EScale (-1 # 1) (EEins "abij->abji" [(EVar "contracted_intermediate")]))) (EScale (-1 # 1) (EEins "abij->baij" [(EVar "contracted_intermediate")]))) (EScale (1 # 1) (EEins "abij->baji" [(EVar "contracted_intermediate")])));
   (*L1241*) SAssign "contracted_intermediate" (EScale (1 # 1) (EEins "maej,lkdc,deli,cbkm->abij" [(ESlice (EVar "g_bbbb") [SV "o"; SV "v"; SV "v"; SV "o"]); (EVar "l2_abab"); (EVar "t2_abab"); (EVar "t2_bbbb")]));
   (*L1242*) SAug true "doubles_res" (EAdd (EAdd (EAdd (EScale (1 # 1) (EVar "contracted_intermediate")) (EScale (-1 # 1) (EEins "abij->abji" [(EVar "contracted_intermediate")]))) (EScale (-1 # 1) (EEins "abij->baij" [(EVar "contracted_intermediate")]))) (EScale (1 # 1) (EEins "abij->baji" [(EVar "contracted_intermediate")])));
   (*L1245*) SAssign "contracted_intermediate" (EScale (-1 # 1) (EEins "maej,lkcd,edli,cbmk->abij" [(ESlice (EVar "g_abab") [SV "o"; SV "v"; SV "v"; SV "o"]); (EVar "l2_abab"); (EVar "t2_abab"); (EVar "t2_abab")]));
   (*L1246*) SAug true "doubles_res" (EAdd (EAdd (EAdd (EScale (1 # 1) (EVar "contracted_intermediate")) (EScale (-1 # 1) (EEins "abij->abji" [(EVar "contracted_intermediate")]))) (EScale (-1 # 1) (EEins "abij->baij" [(EVar "contracted_intermediate")]))) (EScale (1 # 1) (EEins "abij->baji" [(EVar "contracted_intermediate")])));
   (*L1249*) SAssign "contracted_intermediate" (EScale (-1 # 1) (EEins "maej,kldc,edil,cbkm->abij" [(ESlice (EVar "g_bbbb") [SV "o"; SV "v"; SV "v"; SV "o"]); (EVar "l2_bbbb"); (EVar "t2_bbbb"); (EVar "t2_bbbb")]));
   (*L1250*) SAug true "doubles_res" (EAdd (EAdd (EAdd (EScale (1 # 1) (EVar "contracted_intermediate")) (EScale (-1 # 1) (EEins "abij->abji" [(EVar "contracted_intermediate")]))) (EScale (-1 # 1) (EEins "abij->baij" [(EVar "contracted_intermediate")]))) (EScale (1 # 1) (EEins "abij->baji" [(EVar "contracted_intermediate")])));
   (*L1253*) SAssign "contracted_intermediate" (EScale (-1 # 4) (EEins "maej,kldc,ebkl,dcmi->abij" [(ESlice (EVar "g_abab") [SV "o"; SV "v"; SV "v"; SV "o"]); (EVar "l2_abab"); (EVar "t2_abab"); (EVar "t2_abab")]));
   (*L1254*) SAug true "doubles_res" (EAdd (EAdd (EAdd (EScale (1 # 1) (EVar "contracted_intermediate")) (EScale (-1 # 1) (EEins "abij->abji" [(EVar "contracted_intermediate")]))) (EScale (-1 # 1) (EEins "abij->baij" [(EVar "contracted_intermediate")]))) (EScale (1 # 1) (EEins "abij->baji" [(EVar "contracted_intermediate")])));
   (*L1257*) SAssign "contracted_intermediate" (EScale (-1 # 4) (EEins "maej,klcd,ebkl,cdmi->abij" [(ESlice (EVar "g_abab") [SV "o"; SV "v"; SV "v"; SV "o"]); (EVar "l2_abab"); (EVar "t2_abab"); (EVar "t2_abab")]));
   (*L1258*) SAug true "doubles_res" (EAdd (EAdd (EAdd (EScale (1 # 1) (EVar "contracted_intermediate")) (EScale (-1 # 1) (EEins "abij->abji" [(EVar "contracted_intermediate")]))) (EScale (-1 # 1) (EEins "abij->baij" [(EVar "contracted_intermediate")]))) (EScale (1 # 1) (EEins "abij->baji" [(EVar "contracted_intermediate")])));
   (*L1261*) SAssign "contracted_intermediate" (EScale (-1 # 4) (EEins "maej,lkdc,eblk,dcmi->abij" [(ESlice (EVar "g_abab") [SV "o"; SV "v"; SV "v"; SV "o"]); (EVar "l2_abab"); (EVar "t2_abab"); (EVar "t2_abab")]));
   (*L1262*) SAug true "doubles_res" (EAdd (EAdd (EAdd (EScale (1 # 1) (EVar "contracted_intermediate")) (EScale (-1 # 1) (EEins "abij->abji" [(EVar "contracted_intermediate")]))) (EScale (-1 # 1) (EEins "abij->baij" [(EVar "contracted_intermediate")]))) (EScale (1 # 1) (EEins "abij->baji" [(EVar "contracted_intermediate")])));
   (*L1265*) SAssign "contracted_intermediate" (EScale (-1 # 4) (EEins "maej,lkcd,eblk,cdmi->abij" [(ESlice (EVar "g_abab") [SV "o"; SV "v"; SV "v"; SV "o"]); (EVar "l2_abab"); (EVar "t2_abab"); (EVar "t2_abab")]));
   (*L1266*) SAug true "doubles_res" (EAdd (EAdd (EAdd (EScale (1 # 1) (EVar "contracted_intermediate")) (EScale (-1 # 1) (EEins "abij->abji" [(EVar "contracted_intermediate")]))) (EScale (-1 # 1) (EEins "abij->baij" [(EVar "contracted_intermediate")]))) (EScale (1 # 1) (EEins "abij->baji" [(EVar "contracted_intermediate")])));
   (*L1269*) SAssign "contracted_intermediate" (EScale (1 # 4) (EEins "maej,kldc,ebkl,dcim->abij" [(ESlice (EVar "g_bbbb") [SV "o"; SV "v"; SV "v"; SV "o"]); (EVar "l2_bbbb"); (EVar "t2_bbbb"); (EVar "t2_bbbb")]));
   (*L1270*) SAug true "doubles_res" (EAdd (EAdd (EAdd (EScale (1 # 1) (EVar "contracted_intermediate")) (EScale (-1 # 1) (EEins "abij->abji" [(EVar "contracted_intermediate")]))) (EScale (-1 # 1) (EEins "abij->baij" [(EVar "contracted_intermediate")]))) (EScale (1 # 1) (EEins "abij->baji" [(EVar "contracted_intermediate")])));
   (*L1273*) SAssign "contracted_intermediate" (EScale (1 # 2) (EEins "maej,kldc,ebli,dckm->abij" [(ESlice (EVar "g_abab") [SV "o"; SV "v"; SV "v"; SV "o"]); (EVar "l2_aaaa"); (EVar "t2_abab"); (EVar "t2_aaaa")]));
   (*L1274*) SAug true "doubles_res" (EAdd (EAdd (EAdd (EScale (1 # 1) (EVar "contracted_intermediate")) (EScale (-1 # 1) (EEins "abij->abji" [(EVar "contracted_intermediate")]))) (EScale (-1 # 1) (EEins "abij->baij" [(EVar "contracted_intermediate")]))) (EScale (1 # 1) (EEins "abij->baji" [(EVar "contracted_intermediate")])));
   (*L1277*) SAssign "contracted_intermediate" (EScale (-1 # 2) (EEins "maej,kldc,ebil,dckm->abij" [(ESlice (EVar "g_bbbb") [SV "o"; SV "v"; SV "v"; SV "o"]); (EVar "l2_abab"); (EVar "t2_bbbb"); (EVar "t2_abab")]));
   (*L1278*) SAug true "doubles_res" (EAdd (EAdd (EAdd (EScale (1 # 1) (EVar "contracted_intermediate")) (EScale (-1 # 1) (EEins "abij->abji" [(EVar "contracted_intermediate")]))) (EScale (-1 # 1) (EEins "abij->baij" [(EVar "contracted_intermediate")]))) (EScale (1 # 1) (EEins "abij->baji" [(EVar "contracted_intermediate")])));
   (*L1281*) SAssign "contracted_intermediate" (EScale (-1 # 2) (EEins "maej,klcd,ebil,cdkm->abij" [(ESlice (EVar "g_bbbb") [SV "o"; SV "v"; SV "v"; SV "o"]); (EVar "l2_abab"); (EVar "t2_bbbb"); (EVar "t2_abab")]));
   (*L1282*) SAug true "doubles_res" (EAdd (EAdd (EAdd (EScale (1 # 1) (EVar "contracted_intermediate")) (EScale (-1 # 1) (EEins "abij->abji" [(EVar "contracted_intermediate")]))) (EScale (-1 # 1) (EEins "abij->baij" [(EVar "contracted_intermediate")]))) (EScale (1 # 1) (EEins "abij->baji" [(EVar "contracted_intermediate")])));
   (*L1285*) SAssign "contracted_intermediate" (EScale (1 # 2) (EEins "maej,lkdc,ebli,dcmk->abij" [(ESlice (EVar "g_abab") [SV "o"; SV "v"; SV "v"; SV "o"]); (EVar "l2_abab"); (EVar "t2_abab"); (EVar "t2_abab")]));
   (*L1286*) SAug true "doubles_res" (EAdd (EAdd (EAdd (EScale (1 # 1) (EVar "contracted_intermediate")) (EScale (-1 # 1) (EEins "abij->abji" [(EVar "contracted_intermediate")]))) (EScale (-1 # 1) (EEins "abij->baij" [(EVar "contracted_intermediate")]))) (EScale (1 # 1) (EEins "abij->baji" [(EVar "contracted_intermediate")])));
   (*L1289*) SAssign "contracted_intermediate" (EScale (1 # 2) (EEins "maej,lkcd,ebli,cdmk->abij" [(ESlice (EVar "g_abab") [SV "o"; SV "v"; SV "v"; SV "o"]); (EVar "l2_abab"); (EVar "t2_abab"); (EVar "t2_abab")]));
   (*L1290*) SAug true "doubles_res" (EAdd (EAdd (EAdd (EScale (1 # 1) (EVar "contracted_intermediate")) (EScale (-1 # 1) (EEins "abij->abji" [(EVar "contracted_intermediate")]))) (EScale (-1 # 1) (EEins "abij->baij" [(EVar "contracted_intermediate")]))) (EScale (1 # 1) (EEins "abij->baji" [(EVar "contracted_intermediate")])));
   (*L1293*) SAssign "contracted_intermediate" (EScale (-1 # 2) (EEins "maej,kldc,ebil,dckm->abij" [(ESlice (EVar "g_bbbb") [SV "o"; SV "v"; SV "v"; SV "o"]); (EVar "l2_bbbb"); (EVar "t2_bbbb"); (EVar "t2_bbbb")]));
   (*L1294*) SAug true "doubles_res" (EAdd (EAdd (EAdd (EScale (1 # 1) (EVar "contracted_intermediate")) (EScale (-1 # 1) (EEins "abij->abji" [(EVar "contracted_intermediate")]))) (EScale (-1 # 1) (EEins "abij->baij" [(EVar "contracted_intermediate")]))) (EScale (1 # 1) (EEins "abij->baji" [(EVar "contracted_intermediate")])));
   (*L1297*) SAug true "doubles_res" (EScale (-1 # 4) (EEins "dcef,kldc,eakl,fbij->abij" [(ESlice (EVar "g_abab") [SV "v"; SV "v"; SV "v"; SV "v"]); (EVar "l2_abab"); (EVar "t2_abab"); (EVar "t2_bbbb")]));
   (*L1300*) SAug true "doubles_res" (EScale (-1 # 4) (EEins "cdef,klcd,eakl,fbij->abij" [(ESlice (EVar "g_abab") [SV "v"; SV "v"; SV "v"; SV "v"]); (EVar "l2_abab"); (EVar "t2_abab"); (EVar "t2_bbbb")]));
   (*L1303*) SAug true "doubles_res" (EScale (-1 # 4) (EEins "dcef,lkdc,ealk,fbij->abij" [(ESlice (EVar "g_abab") [SV "v"; SV "v"; SV "v"; SV "v"]); (EVar "l2_abab"); (EVar "t2_abab"); (EVar "t2_bbbb")]));
   (*L1306*) SAug true "doubles_res" (EScale (-1 # 4) (EEins "cdef,lkcd,ealk,fbij->abij" [(ESlice (EVar "g_abab") [SV "v"; SV "v"; SV "v"; SV "v"]); (EVar "l2_abab"); (EVar "t2_abab"); (EVar "t2_bbbb")]));
   (*L1309*) SAug true "doubles_res" (EScale (-1 # 4) (EEins "dcef,kldc,eakl,fbij->abij" [(ESlice (EVar "g_bbbb") [SV "v"; SV "v"; SV "v"; SV "v"]); (EVar "l2_bbbb"); (EVar "t2_bbbb"); (EVar "t2_bbbb")]));
   (*L1312*) SAssign "contracted_intermediate" (EScale (1 # 2) (EEins "dcef,kldc,ealj,fbki->abij" [(ESlice (EVar "g_aaaa") [SV "v"; SV "v"; SV "v"; SV "v"]); (EVar "l2_aaaa"); (EVar "t2_abab"); (EVar "t2_abab")]));
   (*L1313*) SAug true "doubles_res" (EAdd (EScale (1 # 1) (EVar "contracted_intermediate")) (EScale (-1 # 1) (EEins "abij->abji" [(EVar "contracted_intermediate")])));
   (*L1316*) SAssign "contracted_intermediate" (EScale (1 # 2) (EEins "dcfe,kldc,eajl,fbki->abij" [(ESlice (EVar "g_abab") [SV "v"; SV "v"; SV "v"; SV "v"]); (EVar "l2_abab"); (EVar "t2_bbbb"); (EVar "t2_abab")]));
   (*L1317*) SAug true "doubles_res" (EAdd (EScale (1 # 1) (EVar "contracted_intermediate")) (EScale (-1 # 1) (EEins "abij->abji" [(EVar "contracted_intermediate")])));
   (*L1320*) SAssign "contracted_intermediate" (EScale (1 # 2) (EEins "cdfe,klcd,eajl,fbki->abij" [(ESlice (EVar "g_abab") [SV "v"; SV "v"; SV "v"; SV "v"]); (EVar "l2_abab"); (EVar "t2_bbbb"); (EVar "t2_abab")]));
   (*L1321*) SAug true "doubles_res" (EAdd (EScale (1 # 1) (EVar "contracted_intermediate")) (EScale (-1 # 1) (EEins "abij->abji" [(EVar "contracted_intermediate")])));
   (*L1324*) SAssign "contracted_intermediate" (EScale (1 # 2) (EEins "dcef,lkdc,ealj,fbik->abij" [(ESlice (EVar "g_abab") [SV "v"; SV "v"; SV "v"; SV "v"]); (EVar "l2_abab"); (EVar "t2_abab"); (EVar "t2_bbbb")]));
   (*L1325*) SAug true "doubles_res" (EAdd (EScale (1 # 1) (EVar "contracted_intermediate")) (EScale (-1 # 1) (EEins "abij->abji" [(EVar "contracted_intermediate")])));
   (*L1328*) SAssign "contracted_intermediate" (EScale (1 # 2) (EEins "cdef,lkcd,ealj,fbik->abij" [(ESlice (EVar "g_abab") [SV "v"; SV "v"; SV "v"; SV "v"]); (EVar "l2_abab"); (EVar "t2_abab"); (EVar "t2_bbbb")]));
   (*L1329*) SAug true "doubles_res" (EAdd (EScale (1 # 1) (EVar "contracted_intermediate")) (EScale (-1 # 1) (EEins "abij->abji" [(EVar "contracted_intermediate")])));
   (*L1332*) SAssign "contracted_intermediate" (EScale (1 # 2) (EEins "dcef,kldc,eajl,fbik->abij" [(ESlice (EVar "g_bbbb") [SV "v"; SV "v"; SV "v"; SV "v"]); (EVar "l2_bbbb"); (EVar "t2_bbbb"); (EVar "t2_bbbb")]));
   (*L1333*) SAug true "doubles_res" (EAdd (EScale (1 # 1) (EVar "contracted_intermediate")) (EScale (-1 # 1) (EEins "abij->abji" [(EVar "contracted_intermediate")])));
   (*L1336*) SAug true "doubles_res" (EScale (1 # 4) (EEins "dcfe,kldc,eaij,fbkl->abij" [(ESlice (EVar "g_abab") [SV "v"; SV "v"; SV "v"; SV "v"]); (EVar "l2_abab"); (EVar "t2_bbbb"); (EVar "t2_abab")]));
   (*L1339*) SAug true "doubles_res" (EScale (1 # 4) (EEins "cdfe,klcd,eaij,fbkl->abij" [(ESlice (EVar "g_abab") [SV "v"; SV "v"; SV "v"; SV "v"]); (EVar "l2_abab"); (EVar "t2_bbbb"); (EVar "t2_abab")]));
   (*L1342*) SAug true "doubles_res" (EScale (1 # 4) (EEins "dcfe,lkdc,eaij,fblk->abij" [(ESlice (EVar "g_abab") [SV "v"; SV "v"; SV "v"; SV "v"]); (EVar "l2_abab"); (EVar "t2_bbbb"); (EVar "t2_abab")]));
   (*L1345*) SAug true "doubles_res" (EScale (1 # 4) (EEins "cdfe,lkcd,eaij,fblk->abij" [(ESlice (EVar "g_abab") [SV "v"; SV "v"; SV "v"; SV "v"]); (EVar "l2_abab"); (EVar "t2_bbbb"); (EVar "t2_abab")]));
   (*L1348*) SAug true "doubles_res" (EScale (-1 # 4) (EEins "dcef,kldc,eaij,fbkl->abij" [(ESlice (EVar "g_bbbb") [SV "v"; SV "v"; SV "v"; SV "v"]); (EVar "l2_bbbb"); (EVar "t2_bbbb"); (EVar "t2_bbbb")]));
   (*L1351*) SAssign "contracted_intermediate" (EScale (1 # 2) (EEins "daef,kldc,eckl,fbij->abij" [(ESlice (EVar "g_abab") [SV "v"; SV "v"; SV "v"; SV "v"]); (EVar "l2_aaaa"); (EVar "t2_aaaa"); (EVar "t2_bbbb")]));
   (*L1352*) SAug true "doubles_res" (EAdd (EScale (1 # 1) (EVar "contracted_intermediate")) (EScale (-1 # 1) (EEins "abij->baij" [(EVar "contracted_intermediate")])));
   (*L1355*) SAssign "contracted_intermediate" (EScale (1 # 2) (EEins "daef,kldc,eckl,fbij->abij" [(ESlice (EVar "g_abab") [SV "v"; SV "v"; SV "v"; SV "v"]); (EVar "l2_abab"); (EVar "t2_abab"); (EVar "t2_bbbb")]));
   (*L1356*) SAug true "doubles_res" (EAdd (EScale (1 # 1) (EVar "contracted_intermediate")) (EScale (-1 # 1) (EEins "abij->baij" [(EVar "contracted_intermediate")])));
   (*L1359*) SAssign "contracted_intermediate" (EScale (1 # 2) (EEins "daef,klcd,cekl,fbij->abij" [(ESlice (EVar "g_bbbb") [SV "v"; SV "v"; SV "v"; SV "v"]); (EVar "l2_abab"); (EVar "t2_abab"); (EVar "t2_bbbb")]));
   (*L1360*) SAug true "doubles_res" (EAdd (EScale (1 # 1) (EVar "contracted_intermediate")) (EScale (-1 # 1) (EEins "abij->baij" [(EVar "contracted_intermediate")])));
   (*L1363*) SAssign "contracted_intermediate" (EScale (1 # 2) (EEins "daef,lkdc,eclk,fbij->abij" [(ESlice (EVar "g_abab") [SV "v"; SV "v"; SV "v"; SV "v"]); (EVar "l2_abab"); (EVar "t2_abab"); (EVar "t2_bbbb")]));
   (*L1364*) SAug true "doubles_res" (EAdd (EScale (1 # 1) (EVar "contracted_intermediate")) (EScale (-1 # 1) (EEins "abij->baij" [(EVar "contracted_intermediate")])));
   (*L1367*) SAssign "contracted_intermediate" (EScale (1 # 2) (EEins "daef,lkcd,celk,fbij->abij" [(ESlice (EVar "g_bbbb") [SV "v"; SV "v"; SV "v"; SV "v"]); (EVar "l2_abab"); (EVar "t2_abab"); (EVar "t2_bbbb")]));
   (*L1368*) SAug true "doubles_res" (EAdd (EScale (1 # 1) (EVar "contracted_intermediate")) (EScale (-1 # 1) (EEins "abij->baij" [(EVar "contracted_intermediate")])));
   (*L1371*) SAssign "contracted_intermediate" (EScale (1 # 2) (EEins "daef,kldc,eckl,fbij->abij" [(ESlice (EVar "g_bbbb") [SV "v"; SV "v"; SV "v"; SV "v"]); (EVar "l2_bbbb"); (EVar "t2_bbbb"); (EVar "t2_bbbb")]));
   (*L1372*) SAug true "doubles_res" (EAdd (EScale (1 # 1) (EVar "contracted_intermediate")) (EScale (-1 # 1) (EEins "abij->baij" [(EVar "contracted_intermediate")])));
   (*L1375*) SAssign "contracted_intermediate" (EScale (-1 # 1) (EEins "dafe,kldc,celj,fbki->abij" [(ESlice (EVar "g_abab") [SV "v"; SV "v"; SV "v"; SV "v"]); (EVar "l2_aaaa"); (EVar "t2_abab"); (EVar "t2_abab")]));
   (*L1376*) SAug true "doubles_res" (EAdd (EAdd (EAdd (EScale (1 # 1) (EVar "contracted_intermediate")) (EScale (-1 # 1) (EEins "abij->abji" [(EVar "contracted_intermediate")]))) (EScale (-1 # 1) (EEins "abij->baij" [(EVar "contracted_intermediate")]))) (EScale (1 # 1) (EEins "abij->baji" [(EVar "contracted_intermediate")])));
   (*L1379*) SAssign "contracted_intermediate" (EScale (-1 # 1) (EEins "dafe,kldc,ecjl,fbki->abij" [(ESlice (EVar "g_abab") [SV "v"; SV "v"; SV "v"; SV "v"]); (EVar "l2_abab"); (EVar "t2_bbbb"); (EVar "t2_abab")]));
   (*L1380*) SAug true "doubles_res" (EAdd (EAdd (EAdd (EScale (1 # 1) (EVar "contracted_intermediate")) (EScale (-1 # 1) (EEins "abij->abji" [(EVar "contracted_intermediate")]))) (EScale (-1 # 1) (EEins "abij->baij" [(EVar "contracted_intermediate")]))) (EScale (1 # 1) (EEins "abij->baji" [(EVar "contracted_intermediate")])));
   (*L1383*) SAssign "contracted_intermediate" (EScale (-1 # 1) (EEins "daef,lkdc,eclj,fbik->abij" [(ESlice (EVar "g_abab") [SV "v"; SV "v"; SV "v"; SV "v"]); (EVar "l2_abab"); (EVar "t2_abab"); (EVar "t2_bbbb")]));
   (*L1384*) SAug true "doubles_res" (EAdd (EAdd (EAdd (EScale (1 # 1) (EVar "contracted_intermediate")) (EScale (-1 # 1) (EEins "abij->abji" [(EVar "contracted_intermediate")]))) (EScale (-1 # 1) (EEins "abij->baij" [(EVar "contracted_intermediate")]))) (EScale (1 # 1) (EEins "abij->baji" [(EVar "contracted_intermediate")])));
   (*L1387*) SAssign "contracted_intermediate" (EScale (-1 # 1) (EEins "daef,lkcd,celj,fbik->abij" [(ESlice (EVar "g_bbbb") [SV "v"; SV "v"; SV "v"; SV "v"]); (EVar "l2_abab"); (EVar "t2_abab"); (EVar "t2_bbbb")]));
   (*L1388*) SAug true "doubles_res" (EAdd (EAdd (EAdd (EScale (1 # 1) (EVar "contracted_intermediate")) (EScale (-1 # 1) (EEins "abij->abji" [(EVar "contracted_intermediate")]))) (EScale (-1 # 1) (EEins "abij->baij" [(EVar "contracted_intermediate")]))) (EScale (1 # 1) (EEins "abij->baji" [(EVar "contracted_intermediate")])));
   (*L1391*) SAssign "contracted_intermediate" (EScale (-1 # 1) (EEins "daef,kldc,ecjl,fbik->abij" [(ESlice (EVar "g_bbbb") [SV "v"; SV "v"; SV "v"; SV "v"]); (EVar "l2_bbbb"); (EVar "t2_bbbb"); (EVar "t2_bbbb")]));
   (*L1392*) SAug true "doubles_res" (EAdd (EAdd (EAdd (EScale (1 # 1) (EVar "contracted_intermediate")) (EScale (-1 # 1) (EEins "abij->abji" [(EVar "contracted_intermediate")]))) (EScale (-1 # 1) (EEins "abij->baij" [(EVar "contracted_intermediate")]))) (EScale (1 # 1) (EEins "abij->baji" [(EVar "contracted_intermediate")])));
   (*L1395*) SAssign "contracted_intermediate" (EScale (-1 # 2) (EEins "dafe,kldc,ecij,fbkl->abij" [(ESlice (EVar "g_abab") [SV "v"; SV "v"; SV "v"; SV "v"]); (EVar "l2_abab"); (EVar "t2_bbbb"); (EVar "t2_abab")]));
   (*L1396*) SAug true "doubles_res" (EAdd (EScale (1 # 1) (EVar "contracted_intermediate")) (EScale (-1 # 1) (EEins "abij->baij" [(EVar "contracted_intermediate")])));
   (*L1399*) SAssign "contracted_intermediate" (EScale (-1 # 2) (EEins "dafe,lkdc,ecij,fblk->abij" [(ESlice (EVar "g_abab") [SV "v"; SV "v"; SV "v"; SV "v"]); (EVar "l2_abab"); (EVar "t2_bbbb"); (EVar "t2_abab")]));
   (*L1400*) SAug true "doubles_res" (EAdd (EScale (1 # 1) (EVar "contracted_intermediate")) (EScale (-1 # 1) (EEins "abij->baij" [(EVar "contracted_intermediate")])));
   (*L1403*) SAssign "contracted_intermediate" (EScale (1 # 2) (EEins "daef,kldc,ecij,fbkl->abij" [(ESlice (EVar "g_bbbb") [SV "v"; SV "v"; SV "v"; SV "v"]); (EVar "l2_bbbb"); (EVar "t2_bbbb"); (EVar "t2_bbbb")]));
   (*L1404*) SAug true "doubles_res" (EAdd (EScale (1 # 1) (EVar "contracted_intermediate")) (EScale (-1 # 1) (EEins "abij->baij" [(EVar "contracted_intermediate")])));
   (*L1407*) SAug true "doubles_res" (EScale (1 # 2) (EEins "abef,kldc,dekl,fcij->abij" [(ESlice (EVar "g_bbbb") [SV "v"; SV "v"; SV "v"; SV "v"]); (EVar "l2_abab"); (EVar "t2_abab"); (EVar "t2_bbbb")]));
   (*L1410*) SAug true "doubles_res" (EScale (1 # 2) (EEins "abef,lkdc,delk,fcij->abij" [(ESlice (EVar "g_bbbb") [SV "v"; SV "v"; SV "v"; SV "v"]); (EVar "l2_abab"); (EVar "t2_abab"); (EVar "t2_bbbb")]));
   (*L1413*) SAug true "doubles_res" (EScale (-1 # 2) (EEins "abef,kldc,edkl,fcij->abij" [(ESlice (EVar "g_bbbb") [SV "v"; SV "v"; SV "v"; SV "v"]); (EVar "l2_bbbb"); (EVar "t2_bbbb"); (EVar "t2_bbbb")]));
   (*L1416*) SAssign "contracted_intermediate" (EScale (1 # 2) (EEins "abef,kldc,delj,cfki->abij" [(ESlice (EVar "g_bbbb") [SV "v"; SV "v"; SV "v"; SV "v"]); (EVar "l2_aaaa"); (EVar "t2_abab"); (EVar "t2_abab")]));
   (*L1417*) SAug true "doubles_res" (EAdd (EScale (1 # 1) (EVar "contracted_intermediate")) (EScale (-1 # 1) (EEins "abij->abji" [(EVar "contracted_intermediate")])));
   (*L1420*) SAssign "contracted_intermediate" (EScale (-1 # 2) (EEins "abef,klcd,edjl,cfki->abij" [(ESlice (EVar "g_bbbb") [SV "v"; SV "v"; SV "v"; SV "v"]); (EVar "l2_abab"); (EVar "t2_bbbb"); (EVar "t2_abab")]));
   (*L1421*) SAug true "doubles_res" (EAdd (EScale (1 # 1) (EVar "contracted_intermediate")) (EScale (-1 # 1) (EEins "abij->abji" [(EVar "contracted_intermediate")])));
   (*L1424*) SAssign "contracted_intermediate" (EScale (-1 # 2) (EEins "abef,lkdc,delj,fcik->abij" [(ESlice (EVar "g_bbbb") [SV "v"; SV "v"; SV "v"; SV "v"]); (EVar "l2_abab"); (EVar "t2_abab"); (EVar "t2_bbbb")]));
   (*L1425*) SAug true "doubles_res" (EAdd (EScale (1 # 1) (EVar "contracted_intermediate")) (EScale (-1 # 1) (EEins "abij->abji" [(EVar "contracted_intermediate")])));
   (*L1428*) SAssign "contracted_intermediate" (EScale (1 # 2) (EEins "abef,kldc,edjl,fcik->abij" [(ESlice (EVar "g_bbbb") [SV "v"; SV "v"; SV "v"; SV "v"]); (EVar "l2_bbbb"); (EVar "t2_bbbb"); (EVar "t2_bbbb")]));
   (*L1429*) SAug true "doubles_res" (EAdd (EScale (1 # 1) (EVar "contracted_intermediate")) (EScale (-1 # 1) (EEins "abij->abji" [(EVar "contracted_intermediate")])));
   (*L1432*) SAug true "doubles_res" (EScale (-1 # 2) (EEins "mdkl,kldc,cabmji->abij" [(ESlice (EVar "g_aaaa") [SV "o"; SV "v"; SV "o"; SV "o"]); (EVar "l2_aaaa"); (EVar "t3_abbabb")]));
   (*L1435*) SAug true "doubles_res" (EScale (-1 # 2) (EEins "dmkl,kldc,cabijm->abij" [(ESlice (EVar "g_abab") [SV "v"; SV "o"; SV "o"; SV "o"]); (EVar "l2_abab"); (EVar "t3_bbbbbb")]));
   (*L1438*) SAug true "doubles_res" (EScale (1 # 2) (EEins "mdkl,klcd,cabmji->abij" [(ESlice (EVar "g_abab") [SV "o"; SV "v"; SV "o"; SV "o"]); (EVar "l2_abab"); (EVar "t3_abbabb")]));
   (*L1441*) SAug true "doubles_res" (EScale (-1 # 2) (EEins "dmlk,lkdc,cabijm->abij" [(ESlice (EVar "g_abab") [SV "v"; SV "o"; SV "o"; SV "o"]); (EVar "l2_abab"); (EVar "t3_bbbbbb")]));
   (*L1444*) SAug true "doubles_res" (EScale (1 # 2) (EEins "mdlk,lkcd,cabmji->abij" [(ESlice (EVar "g_abab") [SV "o"; SV "v"; SV "o"; SV "o"]); (EVar "l2_abab"); (EVar "t3_abbabb")]));
   (*L1447*) SAug true "doubles_res" (EScale (1 # 2) (EEins "mdkl,kldc,cabijm->abij" [(ESlice (EVar "g_bbbb") [SV "o"; SV "v"; SV "o"; SV "o"]); (EVar "l2_bbbb"); (EVar "t3_bbbbbb")]));
   (*L1450*) SAssign "contracted_intermediate" (EScale (1 # 1) (EEins "dmlj,kldc,cabkim->abij" [(ESlice (EVar "g_abab") [SV "v"; SV "o"; SV "o"; SV "o"]); (EVar "l2_aaaa"); (EVar "t3_abbabb")]));
   (*L1451*) SAug true "doubles_res" (EAdd (EScale (1 # 1) (EVar "contracted_intermediate")) (EScale (-1 # 1) (EEins "abij->abji" [(EVar "contracted_intermediate")])));
   (*L1454*) SAssign "contracted_intermediate" (EScale (-1 # 1) (EEins "mdjl,klcd,cabkim->abij" [(ESlice (EVar "g_bbbb") [SV "o"; SV "v"; SV "o"; SV "o"]); (EVar "l2_abab"); (EVar "t3_abbabb")]));
   (*L1455*) SAug true "doubles_res" (EAdd (EScale (1 # 1) (EVar "contracted_intermediate")) (EScale (-1 # 1) (EEins "abij->abji" [(EVar "contracted_intermediate")])));
   (*L1458*) SAssign "contracted_intermediate" (EScale (1 # 1) (EEins "dmlj,lkdc,cabikm->abij" [(ESlice (EVar "g_abab") [SV "v"; SV "o"; SV "o"; SV "o"]); (EVar "l2_abab"); (EVar "t3_bbbbbb")]));
   (*L1459*) SAug true "doubles_res" (EAdd (EScale (1 # 1) (EVar "contracted_intermediate")) (EScale (-1 # 1) (EEins "abij->abji" [(EVar "contracted_intermediate")])));
   (*L1462*) SAssign "contracted_intermediate" (EScale (-1 # 1) (EEins "mdlj,lkcd,cabmki->abij" [(ESlice (EVar "g_abab") [SV "o"; SV "v"; SV "o"; SV "o"]); (EVar "l2_abab"); (EVar "t3_abbabb")]));
   (*L1463*) SAug true "doubles_res" (EAdd (EScale (1 # 1) (EVar "contracted_intermediate")) (EScale (-1 # 1) (EEins "abij->abji" [(EVar "contracted_intermediate")])));
   (*L1466*) SAssign "contracted_intermediate" (EScale (-1 # 1) (EEins "mdjl,kldc,cabikm->abij" [(ESlice (EVar "g_bbbb") [SV "o"; SV "v"; SV "o"; SV "o"]); (EVar "l2_bbbb"); (EVar "t3_bbbbbb")]));
   (*L1467*) SAug true "doubles_res" (EAdd (EScale (1 # 1) (EVar "contracted_intermediate")) (EScale (-1 # 1) (EEins "abij->abji" [(EVar "contracted_intermediate")])));
   (*L1470*) SAug true "doubles_res" (EScale (-1 # 2) (EEins "mdij,klcd,cabklm->abij" [(ESlice (EVar "g_bbbb") [SV "o"; SV "v"; SV "o"; SV "o"]); (EVar "l2_abab"); (EVar "t3_abbabb")]));
   (*L1473*) SAug true "doubles_res" (EScale (-1 # 2) (EEins "mdij,lkcd,cablkm->abij" [(ESlice (EVar "g_bbbb") [SV "o"; SV "v"; SV "o"; SV "o"]); (EVar "l2_abab"); (EVar "t3_abbabb")]));
   (*L1476*) SAug true "doubles_res" (EScale (1 # 2) (EEins "mdij,kldc,cabklm->abij" [(ESlice (EVar "g_bbbb") [SV "o"; SV "v"; SV "o"; SV "o"]); (EVar "l2_bbbb"); (EVar "t3_bbbbbb")]));
   (*L1479*) SAssign "contracted_intermediate" (EScale (-1 # 4) (EEins "makl,kldc,dcbmji->abij" [(ESlice (EVar "g_abab") [SV "o"; SV "v"; SV "o"; SV "o"]); (EVar "l2_abab"); (EVar "t3_abbabb")]));
   (*L1480*) SAug true "doubles_res" (EAdd (EScale (1 # 1) (EVar "contracted_intermediate")) (EScale (-1 # 1) (EEins "abij->baij" [(EVar "contracted_intermediate")])));
   (*L1483*) SAssign "contracted_intermediate" (EScale (-1 # 4) (EEins "makl,klcd,cdbmji->abij" [(ESlice (EVar "g_abab") [SV "o"; SV "v"; SV "o"; SV "o"]); (EVar "l2_abab"); (EVar "t3_abbabb")]));
   (*L1484*) SAug true "doubles_res" (EAdd (EScale (1 # 1) (EVar "contracted_intermediate")) (EScale (-1 # 1) (EEins "abij->baij" [(EVar "contracted_intermediate")])));
   (*L1487*) SAssign "contracted_intermediate" (EScale (-1 # 4) (EEins "malk,lkdc,dcbmji->abij" [(ESlice (EVar "g_abab") [SV "o"; SV "v"; SV "o"; SV "o"]); (EVar "l2_abab"); (EVar "t3_abbabb")]));
   (*L1488*) SAug true "doubles_res" (EAdd (EScale (1 # 1) (EVar "contracted_intermediate")) (EScale (-1 # 1) (EEins "abij->baij" [(EVar "contracted_intermediate")])));
   (*L1491*) SAssign "contracted_intermediate" (EScale (-1 # 4) (EEins "malk,lkcd,cdbmji->abij" [(ESlice (EVar "g_abab") [SV "o"; SV "v"; SV "o"; SV "o"]); (EVar "l2_abab"); (EVar "t3_abbabb")]));
   (*L1492*) SAug true "doubles_res" (EAdd (EScale (1 # 1) (EVar "contracted_intermediate")) (EScale (-1 # 1) (EEins "abij->baij" [(EVar "contracted_intermediate")])));
   (*L1495*) SAssign "contracted_intermediate" (EScale (1 # 4) (EEins "makl,kldc,dcbijm->abij" [(ESlice (EVar "g_bbbb") [SV "o"; SV "v"; SV "o"; SV "o"]); (EVar "l2_bbbb"); (EVar "t3_bbbbbb")]));
   (*L1496*) SAug true "doubles_res" (EAdd (EScale (1 # 1) (EVar "contracted_intermediate")) (EScale (-1 # 1) (EEins "abij->baij" [(EVar "contracted_intermediate")])));
   (*L1499*) SAssign "contracted_intermediate" (EScale (-1 # 2) (EEins "malj,kldc,dcbmki->abij" [(ESlice (EVar "g_abab") [SV "o"; SV "v"; SV "o"; SV "o"]); (EVar "l2_aaaa"); (EVar "t3_aabaab")]));
   (*L1500*) SAug true "doubles_res" (EAdd (EAdd (EAdd (EScale (1 # 1) (EVar "contracted_intermediate")) (EScale (-1 # 1) (EEins "abij->abji" [(EVar "contracted_intermediate")]))) (EScale (-1 # 1) (EEins "abij->baij" [(EVar "contracted_intermediate")]))) (EScale (1 # 1) (EEins "abij->baji" [(EVar "contracted_intermediate")])));
   (*L1503*) SAssign "contracted_intermediate" (EScale (1 # 2) (EEins "majl,kldc,dcbkim->abij" [(ESlice (EVar "g_bbbb") [SV "o"; SV "v"; SV "o"; SV "o"]); (EVar "l2_abab"); (EVar "t3_abbabb")]));
   (*L1504*) SAug true "doubles_res" (EAdd (EAdd (EAdd (EScale (1 # 1) (EVar "contracted_intermediate")) (EScale (-1 # 1) (EEins "abij->abji" [(EVar "contracted_intermediate")]))) (EScale (-1 # 1) (EEins "abij->baij" [(EVar "contracted_intermediate")]))) (EScale (1 # 1) (EEins "abij->baji" [(EVar "contracted_intermediate")])));
   (*L1507*) SAssign "contracted_intermediate" (EScale (1 # 2) (EEins "majl,klcd,cdbkim->abij" [(ESlice (EVar "g_bbbb") [SV "o"; SV "v"; SV "o"; SV "o"]); (EVar "l2_abab"); (EVar "t3_abbabb")]));
   (*L1508*) SAug true "doubles_res" (EAdd (EAdd (EAdd (EScale (1 # 1) (EVar "contracted_intermediate")) (EScale (-1 # 1) (EEins "abij->abji" [(EVar "contracted_intermediate")]))) (EScale (-1 # 1) (EEins "abij->baij" [(EVar "contracted_intermediate")]))) (EScale (1 # 1) (EEins "abij->baji" [(EVar "contracted_intermediate")])));
   (*L1511*) SAssign "contracted_intermediate" (EScale (1 # 2) (EEins "malj,lkdc,dcbmki->abij" [(ESlice (EVar "g_abab") [SV "o"; SV "v"; SV "o"; SV "o"]); (EVar "l2_abab"); (EVar "t3_abbabb")]));
   (*L1512*) SAug true "doubles_res" (EAdd (EAdd (EAdd (EScale (1 # 1) (EVar "contracted_intermediate")) (EScale (-1 # 1) (EEins "abij->abji" [(EVar "contracted_intermediate")]))) (EScale (-1 # 1) (EEins "abij->baij" [(EVar "contracted_intermediate")]))) (EScale (1 # 1) (EEins "abij->baji" [(EVar "contracted_intermediate")])));
   (*L1515*) SAssign "contracted_intermediate" (EScale (1 # 2) (EEins "malj,lkcd,cdbmki->abij" [(ESlice (EVar "g_abab") [SV "o"; SV "v"; SV "o"; SV "o"]); (EVar "l2_abab"); (EVar "t3_abbabb")]));
   (*L1516*) SAug true "doubles_res" (EAdd (EAdd (EAdd (EScale (1 # 1) (EVar "contracted_intermediate")) (EScale (-1 # 1) (EEins "abij->abji" [(EVar "contracted_intermediate")]))) (EScale (-1 # 1) (EEins "abij->baij" [(EVar "contracted_intermediate")]))) (EScale (1 # 1) (EEins "abij->baji" [(EVar "contracted_intermediate")])));
   (*L1519*) SAssign "contracted_intermediate" (EScale (-1 # 2) (EEins "majl,kldc,dcbikm->abij" [(ESlice (EVar "g_bbbb") [SV "o"; SV "v"; SV "o"; SV "o"]); (EVar "l2_bbbb"); (EVar "t3_bbbbbb")]));
   (*L1520*) SAug true "doubles_res" (EAdd (EAdd (EAdd (EScale (1 # 1) (EVar "contracted_intermediate")) (EScale (-1 # 1) (EEins "abij->abji" [(EVar "contracted_intermediate")]))) (EScale (-1 # 1) (EEins "abij->baij" [(EVar "contracted_intermediate")]))) (EScale (1 # 1) (EEins "abij->baji" [(EVar "contracted_intermediate")])));
   (*L1523*) SAssign "contracted_intermediate" (EScale (1 # 4) (EEins "maij,kldc,dcbklm->abij" [(ESlice (EVar "g_bbbb") [SV "o"; SV "v"; SV "o"; SV "o"]); (EVar "l2_aaaa"); (EVar "t3_aabaab")]));
   (*L1524*) SAug true "doubles_res" (EAdd (EScale (1 # 1) (EVar "contracted_intermediate")) (EScale (-1 # 1) (EEins "abij->baij" [(EVar "contracted_intermediate")])));
   (*L1527*) SAssign "contracted_intermediate" (EScale (1 # 4) (EEins "maij,kldc,dcbklm->abij" [(ESlice (EVar "g_bbbb") [SV "o"; SV "v"; SV "o"; SV "o"]); (EVar "l2_abab"); (EVar "t3_abbabb")]));
   (*L1528*) SAug true "doubles_res" (EAdd (EScale (1 # 1) (EVar "contracted_intermediate")) (EScale (-1 # 1) (EEins "abij->baij" [(EVar "contracted_intermediate")])));
   (*L1531*) SAssign "contracted_intermediate" (EScale (1 # 4) (EEins "maij,klcd,cdbklm->abij" [(ESlice (EVar "g_bbbb") [SV "o"; SV "v"; SV "o"; SV "o"]); (EVar "l2_abab"); (EVar "t3_abbabb")]));
   (*L1532*) SAug true "doubles_res" (EAdd (EScale (1 # 1) (EVar "contracted_intermediate")) (EScale (-1 # 1) (EEins "abij->baij" [(EVar "contracted_intermediate")])));
   (*L1535*) SAssign "contracted_intermediate" (EScale (1 # 4) (EEins "maij,lkdc,dcblkm->abij" [(ESlice (EVar "g_bbbb") [SV "o"; SV "v"; SV "o"; SV "o"]); (EVar "l2_abab"); (EVar "t3_abbabb")]));
   (*L1536*) SAug true "doubles_res" (EAdd (EScale (1 # 1) (EVar "contracted_intermediate")) (EScale (-1 # 1) (EEins "abij->baij" [(EVar "contracted_intermediate")])));
   (*L1539*) SAssign "contracted_intermediate" (EScale (1 # 4) (EEins "maij,lkcd,cdblkm->abij" [(ESlice (EVar "g_bbbb") [SV "o"; SV "v"; SV "o"; SV "o"]); (EVar "l2_abab"); (EVar "t3_abbabb")]));
   (*L1540*) SAug true "doubles_res" (EAdd (EScale (1 # 1) (EVar "contracted_intermediate")) (EScale (-1 # 1) (EEins "abij->baij" [(EVar "contracted_intermediate")])));
   (*L1543*) SAssign "contracted_intermediate" (EScale (1 # 4) (EEins "maij,kldc,dcbklm->abij" [(ESlice (EVar "g_bbbb") [SV "o"; SV "v"; SV "o"; SV "o"]); (EVar "l2_bbbb"); (EVar "t3_bbbbbb")]));
   (*L1544*) SAug true "doubles_res" (EAdd (EScale (1 # 1) (EVar "contracted_intermediate")) (EScale (-1 # 1) (EEins "abij->baij" [(EVar "contracted_intermediate")])));
   (*L1547*) SAug true "doubles_res" (EScale (-1 # 2) (EEins "dcel,kldc,eabkji->abij" [(ESlice (EVar "g_aaaa") [SV "v"; SV "v"; SV "v"; SV "o"]); (EVar "l2_aaaa"); (EVar "t3_abbabb")]));
   (*L1550*) SAug true "doubles_res" (EScale (-1 # 2) (EEins "dcel,kldc,eabkji->abij" [(ESlice (EVar "g_abab") [SV "v"; SV "v"; SV "v"; SV "o"]); (EVar "l2_abab"); (EVar "t3_abbabb")]));
   (*L1553*) SAug true "doubles_res" (EScale (-1 # 2) (EEins "cdel,klcd,eabkji->abij" [(ESlice (EVar "g_abab") [SV "v"; SV "v"; SV "v"; SV "o"]); (EVar "l2_abab"); (EVar "t3_abbabb")]));
   (*L1556*) SAug true "doubles_res" (EScale (1 # 2) (EEins "dcle,lkdc,eabijk->abij" [(ESlice (EVar "g_abab") [SV "v"; SV "v"; SV "o"; SV "v"]); (EVar "l2_abab"); (EVar "t3_bbbbbb")]));
   (*L1559*) SAug true "doubles_res" (EScale (1 # 2) (EEins "cdle,lkcd,eabijk->abij" [(ESlice (EVar "g_abab") [SV "v"; SV "v"; SV "o"; SV "v"]); (EVar "l2_abab"); (EVar "t3_bbbbbb")]));
   (*L1562*) SAug true "doubles_res" (EScale (1 # 2) (EEins "dcel,kldc,eabijk->abij" [(ESlice (EVar "g_bbbb") [SV "v"; SV "v"; SV "v"; SV "o"]); (EVar "l2_bbbb"); (EVar "t3_bbbbbb")]));
   (*L1565*) SAssign "contracted_intermediate" (EScale (-1 # 4) (EEins "dcej,kldc,eabkil->abij" [(ESlice (EVar "g_abab") [SV "v"; SV "v"; SV "v"; SV "o"]); (EVar "l2_abab"); (EVar "t3_abbabb")]));
   (*L1566*) SAug true "doubles_res" (EAdd (EScale (1 # 1) (EVar "contracted_intermediate")) (EScale (-1 # 1) (EEins "abij->abji" [(EVar "contracted_intermediate")])));
   (*L1569*) SAssign "contracted_intermediate" (EScale (-1 # 4) (EEins "cdej,klcd,eabkil->abij" [(ESlice (EVar "g_abab") [SV "v"; SV "v"; SV "v"; SV "o"]); (EVar "l2_abab"); (EVar "t3_abbabb")]));
   (*L1570*) SAug true "doubles_res" (EAdd (EScale (1 # 1) (EVar "contracted_intermediate")) (EScale (-1 # 1) (EEins "abij->abji" [(EVar "contracted_intermediate")])));
   (*L1573*) SAssign "contracted_intermediate" (EScale (1 # 4) (EEins "dcej,lkdc,eablki->abij" [(ESlice (EVar "g_abab") [SV "v"; SV "v"; SV "v"; SV "o"]); (EVar "l2_abab"); (EVar "t3_abbabb")]));
   (*L1574*) SAug true "doubles_res" (EAdd (EScale (1 # 1) (EVar "contracted_intermediate")) (EScale (-1 # 1) (EEins "abij->abji" [(EVar "contracted_intermediate")])));
   (*L1577*) SAssign "contracted_intermediate" (EScale (1 # 4) (EEins "cdej,lkcd,eablki->abij" [(ESlice (EVar "g_abab") [SV "v"; SV "v"; SV "v"; SV "o"]); (EVar "l2_abab"); (EVar "t3_abbabb")]));
   (*L1578*) SAug true "doubles_res" (EAdd (EScale (1 # 1) (EVar "contracted_intermediate")) (EScale (-1 # 1) (EEins "abij->abji" [(EVar "contracted_intermediate")])));
   (*L1581*) SAssign "contracted_intermediate" (EScale (1 # 4) (EEins "dcej,kldc,eabikl->abij" [(ESlice (EVar "g_bbbb") [SV "v"; SV "v"; SV "v"; SV "o"]); (EVar "l2_bbbb"); (EVar "t3_bbbbbb")]));
   (*L1582*) SAug true "doubles_res" (EAdd (EScale (1 # 1) (EVar "contracted_intermediate")) (EScale (-1 # 1) (EEins "abij->abji" [(EVar "contracted_intermediate")])));
   (*L1585*) SAssign "contracted_intermediate" (EScale (1 # 1) (EEins "dale,kldc,cebkji->abij" [(ESlice (EVar "g_abab") [SV "v"; SV "v"; SV "o"; SV "v"]); (EVar "l2_aaaa"); (EVar "t3_abbabb")]));
   (*L1586*) SAug true "doubles_res" (EAdd (EScale (1 # 1) (EVar "contracted_intermediate")) (EScale (-1 # 1) (EEins "abij->baij" [(EVar "contracted_intermediate")])));
   (*L1589*) SAssign "contracted_intermediate" (EScale (1 # 1) (EEins "dael,kldc,ecbkji->abij" [(ESlice (EVar "g_abab") [SV "v"; SV "v"; SV "v"; SV "o"]); (EVar "l2_abab"); (EVar "t3_abbabb")]));
   (*L1590*) SAug true "doubles_res" (EAdd (EScale (1 # 1) (EVar "contracted_intermediate")) (EScale (-1 # 1) (EEins "abij->baij" [(EVar "contracted_intermediate")])));
   (*L1593*) SAssign "contracted_intermediate" (EScale (1 # 1) (EEins "dael,klcd,cebkji->abij" [(ESlice (EVar "g_bbbb") [SV "v"; SV "v"; SV "v"; SV "o"]); (EVar "l2_abab"); (EVar "t3_abbabb")]));
   (*L1594*) SAug true "doubles_res" (EAdd (EScale (1 # 1) (EVar "contracted_intermediate")) (EScale (-1 # 1) (EEins "abij->baij" [(EVar "contracted_intermediate")])));
   (*L1597*) SAssign "contracted_intermediate" (EScale (-1 # 1) (EEins "dale,lkdc,ecbijk->abij" [(ESlice (EVar "g_abab") [SV "v"; SV "v"; SV "o"; SV "v"]); (EVar "l2_abab"); (EVar "t3_bbbbbb")]));
   (*L1598*) SAug true "doubles_res" (EAdd (EScale (1 # 1) (EVar "contracted_intermediate")) (EScale (-1 # 1) (EEins "abij->baij" [(EVar "contracted_intermediate")])));
   (*L1601*) SAssign "contracted_intermediate" (EScale (-1 # 1) (EEins "dael,kldc,ecbijk->abij" [(ESlice (EVar "g_bbbb") [SV "v"; SV "v"; SV "v"; SV "o"]); (EVar "l2_bbbb"); (EVar "t3_bbbbbb")]));
   (*L1602*) SAug true "doubles_res" (EAdd (EScale (1 # 1) (EVar "contracted_intermediate")) (EScale (-1 # 1) (EEins "abij->baij" [(EVar "contracted_intermediate")])));
   (*L1605*) SAssign "contracted_intermediate" (EScale (1 # 2) (EEins "daej,kldc,ecblki->abij" [(ESlice (EVar "g_abab") [SV "v"; SV "v"; SV "v"; SV "o"]); (EVar "l2_aaaa"); (EVar "t3_aabaab")]));
   (*L1606*) SAug true "doubles_res" (EAdd (EAdd (EAdd (EScale (1 # 1) (EVar "contracted_intermediate")) (EScale (-1 # 1) (EEins "abij->abji" [(EVar "contracted_intermediate")]))) (EScale (-1 # 1) (EEins "abij->baij" [(EVar "contracted_intermediate")]))) (EScale (1 # 1) (EEins "abij->baji" [(EVar "contracted_intermediate")])));
   (*L1609*) SAssign "contracted_intermediate" (EScale (1 # 2) (EEins "daej,kldc,ecbkil->abij" [(ESlice (EVar "g_abab") [SV "v"; SV "v"; SV "v"; SV "o"]); (EVar "l2_abab"); (EVar "t3_abbabb")]));
   (*L1610*) SAug true "doubles_res" (EAdd (EAdd (EAdd (EScale (1 # 1) (EVar "contracted_intermediate")) (EScale (-1 # 1) (EEins "abij->abji" [(EVar "contracted_intermediate")]))) (EScale (-1 # 1) (EEins "abij->baij" [(EVar "contracted_intermediate")]))) (EScale (1 # 1) (EEins "abij->baji" [(EVar "contracted_intermediate")])));
   (*L1613*) SAssign "contracted_intermediate" (EScale (1 # 2) (EEins "daej,klcd,cebkil->abij" [(ESlice (EVar "g_bbbb") [SV "v"; SV "v"; SV "v"; SV "o"]); (EVar "l2_abab"); (EVar "t3_abbabb")]));
   (*L1614*) SAug true "doubles_res" (EAdd (EAdd (EAdd (EScale (1 # 1) (EVar "contracted_intermediate")) (EScale (-1 # 1) (EEins "abij->abji" [(EVar "contracted_intermediate")]))) (EScale (-1 # 1) (EEins "abij->baij" [(EVar "contracted_intermediate")]))) (EScale (1 # 1) (EEins "abij->baji" [(EVar "contracted_intermediate")])));
   (*L1617*) SAssign "contracted_intermediate" (EScale (-1 # 2) (EEins "daej,lkdc,ecblki->abij" [(ESlice (EVar "g_abab") [SV "v"; SV "v"; SV "v"; SV "o"]); (EVar "l2_abab"); (EVar "t3_abbabb")]));
   (*L1618*) SAug true "doubles_res" (EAdd (EAdd (EAdd (EScale (1 # 1) (EVar "contracted_intermediate")) (EScale (-1 # 1) (EEins "abij->abji" [(EVar "contracted_intermediate")]))) (EScale (-1 # 1) (EEins "abij->baij" [(EVar "contracted_intermediate")]))) (EScale (1 # 1) (EEins "abij->baji" [(EVar "contracted_intermediate")])));
   (*L1621*) SAssign "contracted_intermediate" (EScale (-1 # 2) (EEins "daej,lkcd,ceblki->abij" [(ESlice (EVar "g_bbbb") [SV "v"; SV "v"; SV "v"; SV "o"]); (EVar "l2_abab"); (EVar "t3_abbabb")]));
   (*L1622*) SAug true "doubles_res" (EAdd (EAdd (EAdd (EScale (1 # 1) (EVar "contracted_intermediate")) (EScale (-1 # 1) (EEins "abij->abji" [(EVar "contracted_intermediate")]))) (EScale (-1 # 1) (EEins "abij->baij" [(EVar "contracted_intermediate")]))) (EScale (1 # 1) (EEins "abij->baji" [(EVar "contracted_intermediate")])));
   (*L1625*) SAssign "contracted_intermediate" (EScale (-1 # 2) (EEins "daej,kldc,ecbikl->abij" [(ESlice (EVar "g_bbbb") [SV "v"; SV "v"; SV "v"; SV "o"]); (EVar "l2_bbbb"); (EVar "t3_bbbbbb")]));
   (*L1626*) SAug true "doubles_res" (EAdd (EAdd (EAdd (EScale (1 # 1) (EVar "contracted_intermediate")) (EScale (-1 # 1) (EEins "abij->abji" [(EVar "contracted_intermediate")]))) (EScale (-1 # 1) (EEins "abij->baij" [(EVar "contracted_intermediate")]))) (EScale (1 # 1) (EEins "abij->baji" [(EVar "contracted_intermediate")])));
   (*L1629*) SAug true "doubles_res" (EScale (1 # 2) (EEins "abel,kldc,deckji->abij" [(ESlice (EVar "g_bbbb") [SV "v"; SV "v"; SV "v"; SV "o"]); (EVar "l2_abab"); (EVar "t3_abbabb")]));
   (*L1632*) SAug true "doubles_res" (EScale (-1 # 2) (EEins "abel,klcd,cdekji->abij" [(ESlice (EVar "g_bbbb") [SV "v"; SV "v"; SV "v"; SV "o"]); (EVar "l2_abab"); (EVar "t3_abbabb")]));
   (*L1635*) SAug true "doubles_res" (EScale (1 # 2) (EEins "abel,kldc,edcijk->abij" [(ESlice (EVar "g_bbbb") [SV "v"; SV "v"; SV "v"; SV "o"]); (EVar "l2_bbbb"); (EVar "t3_bbbbbb")]));
   (*L1638*) SAssign "contracted_intermediate" (EScale (1 # 4) (EEins "abej,kldc,cdelki->abij" [(ESlice (EVar "g_bbbb") [SV "v"; SV "v"; SV "v"; SV "o"]); (EVar "l2_aaaa"); (EVar "t3_aabaab")]));
   (*L1639*) SAug true "doubles_res" (EAdd (EScale (1 # 1) (EVar "contracted_intermediate")) (EScale (-1 # 1) (EEins "abij->abji" [(EVar "contracted_intermediate")])));
   (*L1642*) SAssign "contracted_intermediate" (EScale (1 # 4) (EEins "abej,kldc,deckil->abij" [(ESlice (EVar "g_bbbb") [SV "v"; SV "v"; SV "v"; SV "o"]); (EVar "l2_abab"); (EVar "t3_abbabb")]));
   (*L1643*) SAug true "doubles_res" (EAdd (EScale (1 # 1) (EVar "contracted_intermediate")) (EScale (-1 # 1) (EEins "abij->abji" [(EVar "contracted_intermediate")])));
   (*L1646*) SAssign "contracted_intermediate" (EScale (-1 # 4) (EEins "abej,klcd,cdekil->abij" [(ESlice (EVar "g_bbbb") [SV "v"; SV "v"; SV "v"; SV "o"]); (EVar "l2_abab"); (EVar "t3_abbabb")]));
   (*L1647*) SAug true "doubles_res" (EAdd (EScale (1 # 1) (EVar "contracted_intermediate")) (EScale (-1 # 1) (EEins "abij->abji" [(EVar "contracted_intermediate")])));
   (*L1650*) SAssign "contracted_intermediate" (EScale (-1 # 4) (EEins "abej,lkdc,declki->abij" [(ESlice (EVar "g_bbbb") [SV "v"; SV "v"; SV "v"; SV "o"]); (EVar "l2_abab"); (EVar "t3_abbabb")]));
   (*L1651*) SAug true "doubles_res" (EAdd (EScale (1 # 1) (EVar "contracted_intermediate")) (EScale (-1 # 1) (EEins "abij->abji" [(EVar "contracted_intermediate")])));
   (*L1654*) SAssign "contracted_intermediate" (EScale (1 # 4) (EEins "abej,lkcd,cdelki->abij" [(ESlice (EVar "g_bbbb") [SV "v"; SV "v"; SV "v"; SV "o"]); (EVar "l2_abab"); (EVar "t3_abbabb")]));
   (*L1655*) SAug true "doubles_res" (EAdd (EScale (1 # 1) (EVar "contracted_intermediate")) (EScale (-1 # 1) (EEins "abij->abji" [(EVar "contracted_intermediate")])));
   (*L1658*) SAssign "contracted_intermediate" (EScale (1 # 4) (EEins "abej,kldc,edcikl->abij" [(ESlice (EVar "g_bbbb") [SV "v"; SV "v"; SV "v"; SV "o"]); (EVar "l2_bbbb"); (EVar "t3_bbbbbb")]));
   (*L1659*) SAug true "doubles_res" (EAdd (EScale (1 # 1) (EVar "contracted_intermediate")) (EScale (-1 # 1) (EEins "abij->abji" [(EVar "contracted_intermediate")])))]
  (*L1661*) (EVar "doubles_res").

(** /repo/UT2/testing_modifyT2eqns_with_T4.py:1665-3143  def ccsdt_t2_abab_residual_Qf *)
Definition ccsdt_t2_abab_residual_Qf : fn := mkFn
  ["t2_aaaa"; "t2_bbbb"; "t2_abab"; "t3_aaaaaa"; "t3_bbbbbb"; "t3_aabaab"; "t3_abbabb"; "g_aaaa"; "g_bbbb"; "g_abab"; "l2_aaaa"; "l2_bbbb"; "l2_abab"; "oa"; "ob"; "va"; "vb"]
  [(*L1670*) SAssign "o" (EVar "oa");
   (*L1671*) SAssign "v" (EVar "va");
   (*L1674*) SAssign "doubles_res" (EScale (-1 # 4) (EEins "mnkl,kldc,dcmj,abin->abij" [(ESlice (EVar "g_abab") [SV "o"; SV "o"; SV "o"; SV "o"]); (EVar "l2_abab"); (EVar "t2_abab"); (EVar "t2_abab")]));
   (*L1677*) SAug true "doubles_res" (EScale (-1 # 4) (EEins "mnkl,klcd,cdmj,abin->abij" [(ESlice (EVar "g_abab") [SV "o"; SV "o"; SV "o"; SV "o"]); (EVar "l2_abab"); (EVar "t2_abab"); (EVar "t2_abab")]));
   (*L1680*) SAug true "doubles_res" (EScale (-1 # 4) (EEins "mnlk,lkdc,dcmj,abin->abij" [(ESlice (EVar "g_abab") [SV "o"; SV "o"; SV "o"; SV "o"]); (EVar "l2_abab"); (EVar "t2_abab"); (EVar "t2_abab")]));
   (*L1683*) SAug true "doubles_res" (EScale (-1 # 4) (EEins "mnlk,lkcd,cdmj,abin->abij" [(ESlice (EVar "g_abab") [SV "o"; SV "o"; SV "o"; SV "o"]); (EVar "l2_abab"); (EVar "t2_abab"); (EVar "t2_abab")]));
   (*L1686*) SAug true "doubles_res" (EScale (-1 # 4) (EEins "nmkl,kldc,dcjm,abin->abij" [(ESlice (EVar "g_bbbb") [SV "o"; SV "o"; SV "o"; SV "o"]); (EVar "l2_bbbb"); (EVar "t2_bbbb"); (EVar "t2_abab")]));
   (*L1689*) SAug true "doubles_res" (EScale (-1 # 4) (EEins "nmkl,kldc,dcim,abnj->abij" [(ESlice (EVar "g_aaaa") [SV "o"; SV "o"; SV "o"; SV "o"]); (EVar "l2_aaaa"); (EVar "t2_aaaa"); (EVar "t2_abab")]));
   (*L1692*) SAug true "doubles_res" (EScale (-1 # 4) (EEins "nmkl,kldc,dcim,abnj->abij" [(ESlice (EVar "g_abab") [SV "o"; SV "o"; SV "o"; SV "o"]); (EVar "l2_abab"); (EVar "t2_abab"); (EVar "t2_abab")]));
   (*L1695*) SAug true "doubles_res" (EScale (-1 # 4) (EEins "nmkl,klcd,cdim,abnj->abij" [(ESlice (EVar "g_abab") [SV "o"; SV "o"; SV "o"; SV "o"]); (EVar "l2_abab"); (EVar "t2_abab"); (EVar "t2_abab")]));
   (*L1698*) SAug true "doubles_res" (EScale (-1 # 4) (EEins "nmlk,lkdc,dcim,abnj->abij" [(ESlice (EVar "g_abab") [SV "o"; SV "o"; SV "o"; SV "o"]); (EVar "l2_abab"); (EVar "t2_abab"); (EVar "t2_abab")]));
   (*L1701*) SAug true "doubles_res" (EScale (-1 # 4) (EEins "nmlk,lkcd,cdim,abnj->abij" [(ESlice (EVar "g_abab") [SV "o"; SV "o"; SV "o"; SV "o"]); (EVar "l2_abab"); (EVar "t2_abab"); (EVar "t2_abab")]));
   (*L1704*) SAug true "doubles_res" (EScale (1 # 2) (EEins "mnkl,klcd,admj,cbin->abij" [(ESlice (EVar "g_abab") [SV "o"; SV "o"; SV "o"; SV "o"]); (EVar "l2_abab"); (EVar "t2_abab"); (EVar "t2_abab")]));
   (*L1707*) SAug true "doubles_res" (EScale (1 # 2) (EEins "mnlk,lkcd,admj,cbin->abij" [(ESlice (EVar "g_abab") [SV "o"; SV "o"; SV "o"; SV "o"]); (EVar "l2_abab"); (EVar "t2_abab"); (EVar "t2_abab")]));
   (*L1710*) SAug true "doubles_res" (EScale (1 # 2) (EEins "nmkl,kldc,daim,cbnj->abij" [(ESlice (EVar "g_aaaa") [SV "o"; SV "o"; SV "o"; SV "o"]); (EVar "l2_aaaa"); (EVar "t2_aaaa"); (EVar "t2_abab")]));
   (*L1713*) SAug true "doubles_res" (EScale (1 # 2) (EEins "mnkl,kldc,daim,cbjn->abij" [(ESlice (EVar "g_abab") [SV "o"; SV "o"; SV "o"; SV "o"]); (EVar "l2_abab"); (EVar "t2_aaaa"); (EVar "t2_bbbb")]));
   (*L1716*) SAug true "doubles_res" (EScale (1 # 2) (EEins "nmkl,klcd,adim,cbnj->abij" [(ESlice (EVar "g_abab") [SV "o"; SV "o"; SV "o"; SV "o"]); (EVar "l2_abab"); (EVar "t2_abab"); (EVar "t2_abab")]));
   (*L1719*) SAug true "doubles_res" (EScale (1 # 2) (EEins "mnlk,lkdc,daim,cbjn->abij" [(ESlice (EVar "g_abab") [SV "o"; SV "o"; SV "o"; SV "o"]); (EVar "l2_abab"); (EVar "t2_aaaa"); (EVar "t2_bbbb")]));
   (*L1722*) SAug true "doubles_res" (EScale (1 # 2) (EEins "nmlk,lkcd,adim,cbnj->abij" [(ESlice (EVar "g_abab") [SV "o"; SV "o"; SV "o"; SV "o"]); (EVar "l2_abab"); (EVar "t2_abab"); (EVar "t2_abab")]));
   (*L1725*) SAug true "doubles_res" (EScale (1 # 2) (EEins "nmkl,kldc,adim,cbjn->abij" [(ESlice (EVar "g_bbbb") [SV "o"; SV "o"; SV "o"; SV "o"]); (EVar "l2_bbbb"); (EVar "t2_abab"); (EVar "t2_bbbb")]));
   (*L1728*) SAug true "doubles_res" (EScale (1 # 2) (EEins "mnlj,kldc,dckm,abin->abij" [(ESlice (EVar "g_abab") [SV "o"; SV "o"; SV "o"; SV "o"]); (EVar "l2_aaaa"); (EVar "t2_aaaa"); (EVar "t2_abab")]));
   (*L1731*) SAug true "doubles_res" (EScale (1 # 2) (EEins "nmjl,kldc,dckm,abin->abij" [(ESlice (EVar "g_bbbb") [SV "o"; SV "o"; SV "o"; SV "o"]); (EVar "l2_abab"); (EVar "t2_abab"); (EVar "t2_abab")]));
   (*L1734*) SAug true "doubles_res" (EScale (1 # 2) (EEins "nmjl,klcd,cdkm,abin->abij" [(ESlice (EVar "g_bbbb") [SV "o"; SV "o"; SV "o"; SV "o"]); (EVar "l2_abab"); (EVar "t2_abab"); (EVar "t2_abab")]));
   (*L1737*) SAug true "doubles_res" (EScale (1 # 2) (EEins "mnlj,lkdc,dcmk,abin->abij" [(ESlice (EVar "g_abab") [SV "o"; SV "o"; SV "o"; SV "o"]); (EVar "l2_abab"); (EVar "t2_abab"); (EVar "t2_abab")]));
   (*L1740*) SAug true "doubles_res" (EScale (1 # 2) (EEins "mnlj,lkcd,cdmk,abin->abij" [(ESlice (EVar "g_abab") [SV "o"; SV "o"; SV "o"; SV "o"]); (EVar "l2_abab"); (EVar "t2_abab"); (EVar "t2_abab")]));
   (*L1743*) SAug true "doubles_res" (EScale (1 # 2) (EEins "nmjl,kldc,dckm,abin->abij" [(ESlice (EVar "g_bbbb") [SV "o"; SV "o"; SV "o"; SV "o"]); (EVar "l2_bbbb"); (EVar "t2_bbbb"); (EVar "t2_abab")]));
   (*L1746*) SAug true "doubles_res" (EScale (1 # 2) (EEins "nmil,kldc,dckm,abnj->abij" [(ESlice (EVar "g_aaaa") [SV "o"; SV "o"; SV "o"; SV "o"]); (EVar "l2_aaaa"); (EVar "t2_aaaa"); (EVar "t2_abab")]));
   (*L1749*) SAug true "doubles_res" (EScale (1 # 2) (EEins "nmil,kldc,dckm,abnj->abij" [(ESlice (EVar "g_abab") [SV "o"; SV "o"; SV "o"; SV "o"]); (EVar "l2_abab"); (EVar "t2_abab"); (EVar "t2_abab")]));
   (*L1752*) SAug true "doubles_res" (EScale (1 # 2) (EEins "nmil,klcd,cdkm,abnj->abij" [(ESlice (EVar "g_abab") [SV "o"; SV "o"; SV "o"; SV "o"]); (EVar "l2_abab"); (EVar "t2_abab"); (EVar "t2_abab")]));
   (*L1755*) SAug true "doubles_res" (EScale (1 # 2) (EEins "nmil,lkdc,dcmk,abnj->abij" [(ESlice (EVar "g_aaaa") [SV "o"; SV "o"; SV "o"; SV "o"]); (EVar "l2_abab"); (EVar "t2_abab"); (EVar "t2_abab")]));
   (*L1758*) SAug true "doubles_res" (EScale (1 # 2) (EEins "nmil,lkcd,cdmk,abnj->abij" [(ESlice (EVar "g_aaaa") [SV "o"; SV "o"; SV "o"; SV "o"]); (EVar "l2_abab"); (EVar "t2_abab"); (EVar "t2_abab")]));
   (*L1761*) SAug true "doubles_res" (EScale (1 # 2) (EEins "nmil,kldc,dckm,abnj->abij" [(ESlice (EVar "g_abab") [SV "o"; SV "o"; SV "o"; SV "o"]); (EVar "l2_bbbb"); (EVar "t2_bbbb"); (EVar "t2_abab")]));
   (*L1764*) SAug true "doubles_res" (EScale (-1 # 2) (EEins "mnlj,kldc,dcim,abkn->abij" [(ESlice (EVar "g_abab") [SV "o"; SV "o"; SV "o"; SV "o"]); (EVar "l2_aaaa"); (EVar "t2_aaaa"); (EVar "t2_abab")]));
   (*L1767*) SAug true "doubles_res" (EScale (-1 # 2) (EEins "nmjl,kldc,dcim,abkn->abij" [(ESlice (EVar "g_bbbb") [SV "o"; SV "o"; SV "o"; SV "o"]); (EVar "l2_abab"); (EVar "t2_abab"); (EVar "t2_abab")]));
   (*L1770*) SAug true "doubles_res" (EScale (-1 # 2) (EEins "nmjl,klcd,cdim,abkn->abij" [(ESlice (EVar "g_bbbb") [SV "o"; SV "o"; SV "o"; SV "o"]); (EVar "l2_abab"); (EVar "t2_abab"); (EVar "t2_abab")]));
   (*L1773*) SAug true "doubles_res" (EScale (1 # 2) (EEins "nmlj,lkdc,dcim,abnk->abij" [(ESlice (EVar "g_abab") [SV "o"; SV "o"; SV "o"; SV "o"]); (EVar "l2_abab"); (EVar "t2_abab"); (EVar "t2_abab")]));
   (*L1776*) SAug true "doubles_res" (EScale (1 # 2) (EEins "nmlj,lkcd,cdim,abnk->abij" [(ESlice (EVar "g_abab") [SV "o"; SV "o"; SV "o"; SV "o"]); (EVar "l2_abab"); (EVar "t2_abab"); (EVar "t2_abab")]));
   (*L1779*) SAug true "doubles_res" (EScale (1 # 2) (EEins "mnil,kldc,dcmj,abkn->abij" [(ESlice (EVar "g_abab") [SV "o"; SV "o"; SV "o"; SV "o"]); (EVar "l2_abab"); (EVar "t2_abab"); (EVar "t2_abab")]));
   (*L1782*) SAug true "doubles_res" (EScale (1 # 2) (EEins "mnil,klcd,cdmj,abkn->abij" [(ESlice (EVar "g_abab") [SV "o"; SV "o"; SV "o"; SV "o"]); (EVar "l2_abab"); (EVar "t2_abab"); (EVar "t2_abab")]));
   (*L1785*) SAug true "doubles_res" (EScale (-1 # 2) (EEins "nmil,lkdc,dcmj,abnk->abij" [(ESlice (EVar "g_aaaa") [SV "o"; SV "o"; SV "o"; SV "o"]); (EVar "l2_abab"); (EVar "t2_abab"); (EVar "t2_abab")]));
   (*L1788*) SAug true "doubles_res" (EScale (-1 # 2) (EEins "nmil,lkcd,cdmj,abnk->abij" [(ESlice (EVar "g_aaaa") [SV "o"; SV "o"; SV "o"; SV "o"]); (EVar "l2_abab"); (EVar "t2_abab"); (EVar "t2_abab")]));
   (*L1791*) SAug true "doubles_res" (EScale (-1 # 2) (EEins "nmil,kldc,dcjm,abnk->abij" [(ESlice (EVar "g_abab") [SV "o"; SV "o"; SV "o"; SV "o"]); (EVar "l2_bbbb"); (EVar "t2_bbbb"); (EVar "t2_abab")]));
   (*L1794*) SAug true "doubles_res" (EScale (-1 # 1) (EEins "mnlj,kldc,dakm,cbin->abij" [(ESlice (EVar "g_abab") [SV "o"; SV "o"; SV "o"; SV "o"]); (EVar "l2_aaaa"); (EVar "t2_aaaa"); (EVar "t2_abab")]));
   (*L1797*) SAug true "doubles_res" (EScale (-1 # 1) (EEins "nmjl,klcd,adkm,cbin->abij" [(ESlice (EVar "g_bbbb") [SV "o"; SV "o"; SV "o"; SV "o"]); (EVar "l2_abab"); (EVar "t2_abab"); (EVar "t2_abab")]));
   (*L1800*) SAug true "doubles_res" (EScale (-1 # 1) (EEins "mnlj,lkcd,admk,cbin->abij" [(ESlice (EVar "g_abab") [SV "o"; SV "o"; SV "o"; SV "o"]); (EVar "l2_abab"); (EVar "t2_abab"); (EVar "t2_abab")]));
   (*L1803*) SAug true "doubles_res" (EScale (-1 # 1) (EEins "nmil,kldc,dakm,cbnj->abij" [(ESlice (EVar "g_aaaa") [SV "o"; SV "o"; SV "o"; SV "o"]); (EVar "l2_aaaa"); (EVar "t2_aaaa"); (EVar "t2_abab")]));
   (*L1806*) SAug true "doubles_res" (EScale (-1 # 1) (EEins "mnil,kldc,dakm,cbjn->abij" [(ESlice (EVar "g_abab") [SV "o"; SV "o"; SV "o"; SV "o"]); (EVar "l2_abab"); (EVar "t2_aaaa"); (EVar "t2_bbbb")]));
   (*L1809*) SAug true "doubles_res" (EScale (-1 # 1) (EEins "nmil,klcd,adkm,cbnj->abij" [(ESlice (EVar "g_abab") [SV "o"; SV "o"; SV "o"; SV "o"]); (EVar "l2_abab"); (EVar "t2_abab"); (EVar "t2_abab")]));
   (*L1812*) SAug true "doubles_res" (EScale (-1 # 1) (EEins "nmil,lkcd,admk,cbnj->abij" [(ESlice (EVar "g_aaaa") [SV "o"; SV "o"; SV "o"; SV "o"]); (EVar "l2_abab"); (EVar "t2_abab"); (EVar "t2_abab")]));
   (*L1815*) SAug true "doubles_res" (EScale (-1 # 1) (EEins "mnil,kldc,admk,cbjn->abij" [(ESlice (EVar "g_abab") [SV "o"; SV "o"; SV "o"; SV "o"]); (EVar "l2_bbbb"); (EVar "t2_abab"); (EVar "t2_bbbb")]));
   (*L1818*) SAug true "doubles_res" (EScale (1 # 1) (EEins "mnlj,kldc,daim,cbkn->abij" [(ESlice (EVar "g_abab") [SV "o"; SV "o"; SV "o"; SV "o"]); (EVar "l2_aaaa"); (EVar "t2_aaaa"); (EVar "t2_abab")]));
   (*L1821*) SAug true "doubles_res" (EScale (1 # 1) (EEins "nmjl,klcd,adim,cbkn->abij" [(ESlice (EVar "g_bbbb") [SV "o"; SV "o"; SV "o"; SV "o"]); (EVar "l2_abab"); (EVar "t2_abab"); (EVar "t2_abab")]));
   (*L1824*) SAug true "doubles_res" (EScale (-1 # 1) (EEins "mnlj,lkdc,daim,cbkn->abij" [(ESlice (EVar "g_abab") [SV "o"; SV "o"; SV "o"; SV "o"]); (EVar "l2_abab"); (EVar "t2_aaaa"); (EVar "t2_bbbb")]));
   (*L1827*) SAug true "doubles_res" (EScale (-1 # 1) (EEins "nmlj,lkcd,adim,cbnk->abij" [(ESlice (EVar "g_abab") [SV "o"; SV "o"; SV "o"; SV "o"]); (EVar "l2_abab"); (EVar "t2_abab"); (EVar "t2_abab")]));
   (*L1830*) SAug true "doubles_res" (EScale (-1 # 1) (EEins "nmjl,kldc,adim,cbkn->abij" [(ESlice (EVar "g_bbbb") [SV "o"; SV "o"; SV "o"; SV "o"]); (EVar "l2_bbbb"); (EVar "t2_abab"); (EVar "t2_bbbb")]));
   (*L1833*) SAug true "doubles_res" (EScale (-1 # 1) (EEins "mnil,klcd,admj,cbkn->abij" [(ESlice (EVar "g_abab") [SV "o"; SV "o"; SV "o"; SV "o"]); (EVar "l2_abab"); (EVar "t2_abab"); (EVar "t2_abab")]));
   (*L1836*) SAug true "doubles_res" (EScale (1 # 1) (EEins "nmil,lkcd,admj,cbnk->abij" [(ESlice (EVar "g_aaaa") [SV "o"; SV "o"; SV "o"; SV "o"]); (EVar "l2_abab"); (EVar "t2_abab"); (EVar "t2_abab")]));
   (*L1839*) SAug true "doubles_res" (EScale (1 # 1) (EEins "mnil,kldc,admj,cbkn->abij" [(ESlice (EVar "g_abab") [SV "o"; SV "o"; SV "o"; SV "o"]); (EVar "l2_bbbb"); (EVar "t2_abab"); (EVar "t2_bbbb")]));
   (*L1842*) SAug true "doubles_res" (EScale (1 # 2) (EEins "mnij,kldc,dclm,abkn->abij" [(ESlice (EVar "g_abab") [SV "o"; SV "o"; SV "o"; SV "o"]); (EVar "l2_aaaa"); (EVar "t2_aaaa"); (EVar "t2_abab")]));
   (*L1845*) SAug true "doubles_res" (EScale (-1 # 2) (EEins "mnij,kldc,dcml,abkn->abij" [(ESlice (EVar "g_abab") [SV "o"; SV "o"; SV "o"; SV "o"]); (EVar "l2_abab"); (EVar "t2_abab"); (EVar "t2_abab")]));
   (*L1848*) SAug true "doubles_res" (EScale (-1 # 2) (EEins "mnij,klcd,cdml,abkn->abij" [(ESlice (EVar "g_abab") [SV "o"; SV "o"; SV "o"; SV "o"]); (EVar "l2_abab"); (EVar "t2_abab"); (EVar "t2_abab")]));
   (*L1851*) SAug true "doubles_res" (EScale (-1 # 2) (EEins "nmij,lkdc,dclm,abnk->abij" [(ESlice (EVar "g_abab") [SV "o"; SV "o"; SV "o"; SV "o"]); (EVar "l2_abab"); (EVar "t2_abab"); (EVar "t2_abab")]));
   (*L1854*) SAug true "doubles_res" (EScale (-1 # 2) (EEins "nmij,lkcd,cdlm,abnk->abij" [(ESlice (EVar "g_abab") [SV "o"; SV "o"; SV "o"; SV "o"]); (EVar "l2_abab"); (EVar "t2_abab"); (EVar "t2_abab")]));
   (*L1857*) SAug true "doubles_res" (EScale (1 # 2) (EEins "nmij,kldc,dclm,abnk->abij" [(ESlice (EVar "g_abab") [SV "o"; SV "o"; SV "o"; SV "o"]); (EVar "l2_bbbb"); (EVar "t2_bbbb"); (EVar "t2_abab")]));
   (*L1860*) SAug true "doubles_res" (EScale (-1 # 2) (EEins "mnij,kldc,dalm,cbkn->abij" [(ESlice (EVar "g_abab") [SV "o"; SV "o"; SV "o"; SV "o"]); (EVar "l2_aaaa"); (EVar "t2_aaaa"); (EVar "t2_abab")]));
   (*L1863*) SAug true "doubles_res" (EScale (1 # 2) (EEins "mnij,klcd,adml,cbkn->abij" [(ESlice (EVar "g_abab") [SV "o"; SV "o"; SV "o"; SV "o"]); (EVar "l2_abab"); (EVar "t2_abab"); (EVar "t2_abab")]));
   (*L1866*) SAug true "doubles_res" (EScale (1 # 2) (EEins "mnij,lkdc,dalm,cbkn->abij" [(ESlice (EVar "g_abab") [SV "o"; SV "o"; SV "o"; SV "o"]); (EVar "l2_abab"); (EVar "t2_aaaa"); (EVar "t2_bbbb")]));
   (*L1869*) SAug true "doubles_res" (EScale (1 # 2) (EEins "nmij,lkcd,adlm,cbnk->abij" [(ESlice (EVar "g_abab") [SV "o"; SV "o"; SV "o"; SV "o"]); (EVar "l2_abab"); (EVar "t2_abab"); (EVar "t2_abab")]));
   (*L1872*) SAug true "doubles_res" (EScale (-1 # 2) (EEins "mnij,kldc,adml,cbkn->abij" [(ESlice (EVar "g_abab") [SV "o"; SV "o"; SV "o"; SV "o"]); (EVar "l2_bbbb"); (EVar "t2_abab"); (EVar "t2_bbbb")]));
   (*L1875*) SAug true "doubles_res" (EScale (-1 # 2) (EEins "nmij,kldc,dblm,cakn->abij" [(ESlice (EVar "g_abab") [SV "o"; SV "o"; SV "o"; SV "o"]); (EVar "l2_aaaa"); (EVar "t2_abab"); (EVar "t2_aaaa")]));
   (*L1878*) SAug true "doubles_res" (EScale (1 # 2) (EEins "mnij,kldc,dbml,ackn->abij" [(ESlice (EVar "g_abab") [SV "o"; SV "o"; SV "o"; SV "o"]); (EVar "l2_abab"); (EVar "t2_abab"); (EVar "t2_abab")]));
   (*L1881*) SAug true "doubles_res" (EScale (1 # 2) (EEins "nmij,klcd,dblm,cakn->abij" [(ESlice (EVar "g_abab") [SV "o"; SV "o"; SV "o"; SV "o"]); (EVar "l2_abab"); (EVar "t2_bbbb"); (EVar "t2_aaaa")]));
   (*L1884*) SAug true "doubles_res" (EScale (1 # 2) (EEins "nmij,lkdc,dblm,acnk->abij" [(ESlice (EVar "g_abab") [SV "o"; SV "o"; SV "o"; SV "o"]); (EVar "l2_abab"); (EVar "t2_abab"); (EVar "t2_abab")]));
   (*L1887*) SAug true "doubles_res" (EScale (-1 # 2) (EEins "nmij,kldc,dblm,acnk->abij" [(ESlice (EVar "g_abab") [SV "o"; SV "o"; SV "o"; SV "o"]); (EVar "l2_bbbb"); (EVar "t2_bbbb"); (EVar "t2_abab")]));
   (*L1890*) SAug true "doubles_res" (EScale (1 # 1) (EEins "dmle,kldc,cekj,abim->abij" [(ESlice (EVar "g_abab") [SV "v"; SV "o"; SV "o"; SV "v"]); (EVar "l2_aaaa"); (EVar "t2_abab"); (EVar "t2_abab")]));
   (*L1893*) SAug true "doubles_res" (EScale (1 # 1) (EEins "dmel,kldc,eckj,abim->abij" [(ESlice (EVar "g_abab") [SV "v"; SV "o"; SV "v"; SV "o"]); (EVar "l2_abab"); (EVar "t2_abab"); (EVar "t2_abab")]));
   (*L1896*) SAug true "doubles_res" (EScale (-1 # 1) (EEins "mdel,klcd,cekj,abim->abij" [(ESlice (EVar "g_bbbb") [SV "o"; SV "v"; SV "v"; SV "o"]); (EVar "l2_abab"); (EVar "t2_abab"); (EVar "t2_abab")]));
   (*L1899*) SAug true "doubles_res" (EScale (-1 # 1) (EEins "dmle,lkdc,ecjk,abim->abij" [(ESlice (EVar "g_abab") [SV "v"; SV "o"; SV "o"; SV "v"]); (EVar "l2_abab"); (EVar "t2_bbbb"); (EVar "t2_abab")]));
   (*L1902*) SAug true "doubles_res" (EScale (1 # 1) (EEins "mdel,kldc,ecjk,abim->abij" [(ESlice (EVar "g_bbbb") [SV "o"; SV "v"; SV "v"; SV "o"]); (EVar "l2_bbbb"); (EVar "t2_bbbb"); (EVar "t2_abab")]));
   (*L1905*) SAug true "doubles_res" (EScale (1 # 1) (EEins "mdel,kldc,ecik,abmj->abij" [(ESlice (EVar "g_aaaa") [SV "o"; SV "v"; SV "v"; SV "o"]); (EVar "l2_aaaa"); (EVar "t2_aaaa"); (EVar "t2_abab")]));
   (*L1908*) SAug true "doubles_res" (EScale (-1 # 1) (EEins "mdel,klcd,ecik,abmj->abij" [(ESlice (EVar "g_abab") [SV "o"; SV "v"; SV "v"; SV "o"]); (EVar "l2_abab"); (EVar "t2_aaaa"); (EVar "t2_abab")]));
   (*L1911*) SAug true "doubles_res" (EScale (-1 # 1) (EEins "mdel,lkdc,ecik,abmj->abij" [(ESlice (EVar "g_aaaa") [SV "o"; SV "v"; SV "v"; SV "o"]); (EVar "l2_abab"); (EVar "t2_abab"); (EVar "t2_abab")]));
   (*L1914*) SAug true "doubles_res" (EScale (1 # 1) (EEins "mdle,lkcd,ceik,abmj->abij" [(ESlice (EVar "g_abab") [SV "o"; SV "v"; SV "o"; SV "v"]); (EVar "l2_abab"); (EVar "t2_abab"); (EVar "t2_abab")]));
   (*L1917*) SAug true "doubles_res" (EScale (1 # 1) (EEins "mdel,kldc,ecik,abmj->abij" [(ESlice (EVar "g_abab") [SV "o"; SV "v"; SV "v"; SV "o"]); (EVar "l2_bbbb"); (EVar "t2_abab"); (EVar "t2_abab")]));
   (*L1920*) SAug true "doubles_res" (EScale (-1 # 1) (EEins "dmle,kldc,ceij,abkm->abij" [(ESlice (EVar "g_abab") [SV "v"; SV "o"; SV "o"; SV "v"]); (EVar "l2_aaaa"); (EVar "t2_abab"); (EVar "t2_abab")]));
   (*L1923*) SAug true "doubles_res" (EScale (-1 # 1) (EEins "dmel,kldc,ecij,abkm->abij" [(ESlice (EVar "g_abab") [SV "v"; SV "o"; SV "v"; SV "o"]); (EVar "l2_abab"); (EVar "t2_abab"); (EVar "t2_abab")]));
   (*L1926*) SAug true "doubles_res" (EScale (1 # 1) (EEins "mdel,klcd,ceij,abkm->abij" [(ESlice (EVar "g_bbbb") [SV "o"; SV "v"; SV "v"; SV "o"]); (EVar "l2_abab"); (EVar "t2_abab"); (EVar "t2_abab")]));
   (*L1929*) SAug true "doubles_res" (EScale (1 # 1) (EEins "mdel,lkdc,ecij,abmk->abij" [(ESlice (EVar "g_aaaa") [SV "o"; SV "v"; SV "v"; SV "o"]); (EVar "l2_abab"); (EVar "t2_abab"); (EVar "t2_abab")]));
   (*L1932*) SAug true "doubles_res" (EScale (-1 # 1) (EEins "mdle,lkcd,ceij,abmk->abij" [(ESlice (EVar "g_abab") [SV "o"; SV "v"; SV "o"; SV "v"]); (EVar "l2_abab"); (EVar "t2_abab"); (EVar "t2_abab")]));
   (*L1935*) SAug true "doubles_res" (EScale (-1 # 1) (EEins "mdel,kldc,ecij,abmk->abij" [(ESlice (EVar "g_abab") [SV "o"; SV "v"; SV "v"; SV "o"]); (EVar "l2_bbbb"); (EVar "t2_abab"); (EVar "t2_abab")]));
   (*L1938*) SAug true "doubles_res" (EScale (-1 # 1) (EEins "dmle,kldc,aekj,cbim->abij" [(ESlice (EVar "g_abab") [SV "v"; SV "o"; SV "o"; SV "v"]); (EVar "l2_aaaa"); (EVar "t2_abab"); (EVar "t2_abab")]));
   (*L1941*) SAug true "doubles_res" (EScale (1 # 1) (EEins "mdel,klcd,aekj,cbim->abij" [(ESlice (EVar "g_bbbb") [SV "o"; SV "v"; SV "v"; SV "o"]); (EVar "l2_abab"); (EVar "t2_abab"); (EVar "t2_abab")]));
   (*L1944*) SAug true "doubles_res" (EScale (-1 # 1) (EEins "mdel,kldc,ebkj,caim->abij" [(ESlice (EVar "g_aaaa") [SV "o"; SV "v"; SV "v"; SV "o"]); (EVar "l2_aaaa"); (EVar "t2_abab"); (EVar "t2_aaaa")]));
   (*L1947*) SAug true "doubles_res" (EScale (-1 # 1) (EEins "dmel,kldc,ebkj,acim->abij" [(ESlice (EVar "g_abab") [SV "v"; SV "o"; SV "v"; SV "o"]); (EVar "l2_abab"); (EVar "t2_abab"); (EVar "t2_abab")]));
   (*L1950*) SAug true "doubles_res" (EScale (1 # 1) (EEins "mdel,klcd,ebkj,caim->abij" [(ESlice (EVar "g_abab") [SV "o"; SV "v"; SV "v"; SV "o"]); (EVar "l2_abab"); (EVar "t2_abab"); (EVar "t2_aaaa")]));
   (*L1953*) SAug true "doubles_res" (EScale (1 # 1) (EEins "dmle,lkdc,ebjk,acim->abij" [(ESlice (EVar "g_abab") [SV "v"; SV "o"; SV "o"; SV "v"]); (EVar "l2_abab"); (EVar "t2_bbbb"); (EVar "t2_abab")]));
   (*L1956*) SAug true "doubles_res" (EScale (-1 # 1) (EEins "mdle,lkcd,ebjk,caim->abij" [(ESlice (EVar "g_abab") [SV "o"; SV "v"; SV "o"; SV "v"]); (EVar "l2_abab"); (EVar "t2_bbbb"); (EVar "t2_aaaa")]));
   (*L1959*) SAug true "doubles_res" (EScale (-1 # 1) (EEins "mdel,kldc,ebjk,acim->abij" [(ESlice (EVar "g_bbbb") [SV "o"; SV "v"; SV "v"; SV "o"]); (EVar "l2_bbbb"); (EVar "t2_bbbb"); (EVar "t2_abab")]));
   (*L1962*) SAug true "doubles_res" (EScale (-1 # 1) (EEins "mdel,kldc,eaik,cbmj->abij" [(ESlice (EVar "g_aaaa") [SV "o"; SV "v"; SV "v"; SV "o"]); (EVar "l2_aaaa"); (EVar "t2_aaaa"); (EVar "t2_abab")]));
   (*L1965*) SAug true "doubles_res" (EScale (-1 # 1) (EEins "dmel,kldc,eaik,cbjm->abij" [(ESlice (EVar "g_abab") [SV "v"; SV "o"; SV "v"; SV "o"]); (EVar "l2_abab"); (EVar "t2_aaaa"); (EVar "t2_bbbb")]));
   (*L1968*) SAug true "doubles_res" (EScale (1 # 1) (EEins "mdel,klcd,eaik,cbmj->abij" [(ESlice (EVar "g_abab") [SV "o"; SV "v"; SV "v"; SV "o"]); (EVar "l2_abab"); (EVar "t2_aaaa"); (EVar "t2_abab")]));
   (*L1971*) SAug true "doubles_res" (EScale (1 # 1) (EEins "dmle,lkdc,aeik,cbjm->abij" [(ESlice (EVar "g_abab") [SV "v"; SV "o"; SV "o"; SV "v"]); (EVar "l2_abab"); (EVar "t2_abab"); (EVar "t2_bbbb")]));
   (*L1974*) SAug true "doubles_res" (EScale (-1 # 1) (EEins "mdle,lkcd,aeik,cbmj->abij" [(ESlice (EVar "g_abab") [SV "o"; SV "v"; SV "o"; SV "v"]); (EVar "l2_abab"); (EVar "t2_abab"); (EVar "t2_abab")]));
   (*L1977*) SAug true "doubles_res" (EScale (-1 # 1) (EEins "mdel,kldc,aeik,cbjm->abij" [(ESlice (EVar "g_bbbb") [SV "o"; SV "v"; SV "v"; SV "o"]); (EVar "l2_bbbb"); (EVar "t2_abab"); (EVar "t2_bbbb")]));
   (*L1980*) SAug true "doubles_res" (EScale (1 # 1) (EEins "mdel,lkdc,ebik,acmj->abij" [(ESlice (EVar "g_aaaa") [SV "o"; SV "v"; SV "v"; SV "o"]); (EVar "l2_abab"); (EVar "t2_abab"); (EVar "t2_abab")]));
   (*L1983*) SAug true "doubles_res" (EScale (-1 # 1) (EEins "mdel,kldc,ebik,acmj->abij" [(ESlice (EVar "g_abab") [SV "o"; SV "v"; SV "v"; SV "o"]); (EVar "l2_bbbb"); (EVar "t2_abab"); (EVar "t2_abab")]));
   (*L1986*) SAug true "doubles_res" (EScale (1 # 1) (EEins "dmle,kldc,aeij,cbkm->abij" [(ESlice (EVar "g_abab") [SV "v"; SV "o"; SV "o"; SV "v"]); (EVar "l2_aaaa"); (EVar "t2_abab"); (EVar "t2_abab")]));
   (*L1989*) SAug true "doubles_res" (EScale (-1 # 1) (EEins "mdel,klcd,aeij,cbkm->abij" [(ESlice (EVar "g_bbbb") [SV "o"; SV "v"; SV "v"; SV "o"]); (EVar "l2_abab"); (EVar "t2_abab"); (EVar "t2_abab")]));
   (*L1992*) SAug true "doubles_res" (EScale (-1 # 1) (EEins "dmle,lkdc,aeij,cbkm->abij" [(ESlice (EVar "g_abab") [SV "v"; SV "o"; SV "o"; SV "v"]); (EVar "l2_abab"); (EVar "t2_abab"); (EVar "t2_bbbb")]));
   (*L1995*) SAug true "doubles_res" (EScale (1 # 1) (EEins "mdle,lkcd,aeij,cbmk->abij" [(ESlice (EVar "g_abab") [SV "o"; SV "v"; SV "o"; SV "v"]); (EVar "l2_abab"); (EVar "t2_abab"); (EVar "t2_abab")]));
   (*L1998*) SAug true "doubles_res" (EScale (1 # 1) (EEins "mdel,kldc,aeij,cbkm->abij" [(ESlice (EVar "g_bbbb") [SV "o"; SV "v"; SV "v"; SV "o"]); (EVar "l2_bbbb"); (EVar "t2_abab"); (EVar "t2_bbbb")]));
   (*L2001*) SAug true "doubles_res" (EScale (1 # 1) (EEins "mdel,kldc,ebij,cakm->abij" [(ESlice (EVar "g_aaaa") [SV "o"; SV "v"; SV "v"; SV "o"]); (EVar "l2_aaaa"); (EVar "t2_abab"); (EVar "t2_aaaa")]));
   (*L2004*) SAug true "doubles_res" (EScale (1 # 1) (EEins "dmel,kldc,ebij,ackm->abij" [(ESlice (EVar "g_abab") [SV "v"; SV "o"; SV "v"; SV "o"]); (EVar "l2_abab"); (EVar "t2_abab"); (EVar "t2_abab")]));
   (*L2007*) SAug true "doubles_res" (EScale (-1 # 1) (EEins "mdel,klcd,ebij,cakm->abij" [(ESlice (EVar "g_abab") [SV "o"; SV "v"; SV "v"; SV "o"]); (EVar "l2_abab"); (EVar "t2_abab"); (EVar "t2_aaaa")]));
   (*L2010*) SAug true "doubles_res" (EScale (-1 # 1) (EEins "mdel,lkdc,ebij,acmk->abij" [(ESlice (EVar "g_aaaa") [SV "o"; SV "v"; SV "v"; SV "o"]); (EVar "l2_abab"); (EVar "t2_abab"); (EVar "t2_abab")]));
   (*L2013*) SAug true "doubles_res" (EScale (1 # 1) (EEins "mdel,kldc,ebij,acmk->abij" [(ESlice (EVar "g_abab") [SV "o"; SV "v"; SV "v"; SV "o"]); (EVar "l2_bbbb"); (EVar "t2_abab"); (EVar "t2_abab")]));
   (*L2016*) SAug true "doubles_res" (EScale (-1 # 2) (EEins "dmej,kldc,eckl,abim->abij" [(ESlice (EVar "g_abab") [SV "v"; SV "o"; SV "v"; SV "o"]); (EVar "l2_aaaa"); (EVar "t2_aaaa"); (EVar "t2_abab")]));
   (*L2019*) SAug true "doubles_res" (EScale (-1 # 2) (EEins "dmej,kldc,eckl,abim->abij" [(ESlice (EVar "g_abab") [SV "v"; SV "o"; SV "v"; SV "o"]); (EVar "l2_abab"); (EVar "t2_abab"); (EVar "t2_abab")]));
   (*L2022*) SAug true "doubles_res" (EScale (1 # 2) (EEins "mdej,klcd,cekl,abim->abij" [(ESlice (EVar "g_bbbb") [SV "o"; SV "v"; SV "v"; SV "o"]); (EVar "l2_abab"); (EVar "t2_abab"); (EVar "t2_abab")]));
   (*L2025*) SAug true "doubles_res" (EScale (-1 # 2) (EEins "dmej,lkdc,eclk,abim->abij" [(ESlice (EVar "g_abab") [SV "v"; SV "o"; SV "v"; SV "o"]); (EVar "l2_abab"); (EVar "t2_abab"); (EVar "t2_abab")]));
   (*L2028*) SAug true "doubles_res" (EScale (1 # 2) (EEins "mdej,lkcd,celk,abim->abij" [(ESlice (EVar "g_bbbb") [SV "o"; SV "v"; SV "v"; SV "o"]); (EVar "l2_abab"); (EVar "t2_abab"); (EVar "t2_abab")]));
   (*L2031*) SAug true "doubles_res" (EScale (1 # 2) (EEins "mdej,kldc,eckl,abim->abij" [(ESlice (EVar "g_bbbb") [SV "o"; SV "v"; SV "v"; SV "o"]); (EVar "l2_bbbb"); (EVar "t2_bbbb"); (EVar "t2_abab")]));
   (*L2034*) SAug true "doubles_res" (EScale (1 # 2) (EEins "mdei,kldc,eckl,abmj->abij" [(ESlice (EVar "g_aaaa") [SV "o"; SV "v"; SV "v"; SV "o"]); (EVar "l2_aaaa"); (EVar "t2_aaaa"); (EVar "t2_abab")]));
   (*L2037*) SAug true "doubles_res" (EScale (1 # 2) (EEins "mdei,kldc,eckl,abmj->abij" [(ESlice (EVar "g_aaaa") [SV "o"; SV "v"; SV "v"; SV "o"]); (EVar "l2_abab"); (EVar "t2_abab"); (EVar "t2_abab")]));
   (*L2040*) SAug true "doubles_res" (EScale (-1 # 2) (EEins "mdie,klcd,cekl,abmj->abij" [(ESlice (EVar "g_abab") [SV "o"; SV "v"; SV "o"; SV "v"]); (EVar "l2_abab"); (EVar "t2_abab"); (EVar "t2_abab")]));
   (*L2043*) SAug true "doubles_res" (EScale (1 # 2) (EEins "mdei,lkdc,eclk,abmj->abij" [(ESlice (EVar "g_aaaa") [SV "o"; SV "v"; SV "v"; SV "o"]); (EVar "l2_abab"); (EVar "t2_abab"); (EVar "t2_abab")]));
   (*L2046*) SAug true "doubles_res" (EScale (-1 # 2) (EEins "mdie,lkcd,celk,abmj->abij" [(ESlice (EVar "g_abab") [SV "o"; SV "v"; SV "o"; SV "v"]); (EVar "l2_abab"); (EVar "t2_abab"); (EVar "t2_abab")]));
   (*L2049*) SAug true "doubles_res" (EScale (-1 # 2) (EEins "mdie,kldc,eckl,abmj->abij" [(ESlice (EVar "g_abab") [SV "o"; SV "v"; SV "o"; SV "v"]); (EVar "l2_bbbb"); (EVar "t2_bbbb"); (EVar "t2_abab")]));
   (*L2052*) SAug true "doubles_res" (EScale (1 # 1) (EEins "dmej,kldc,ecil,abkm->abij" [(ESlice (EVar "g_abab") [SV "v"; SV "o"; SV "v"; SV "o"]); (EVar "l2_aaaa"); (EVar "t2_aaaa"); (EVar "t2_abab")]));
   (*L2055*) SAug true "doubles_res" (EScale (1 # 1) (EEins "dmej,kldc,ecil,abkm->abij" [(ESlice (EVar "g_abab") [SV "v"; SV "o"; SV "v"; SV "o"]); (EVar "l2_abab"); (EVar "t2_abab"); (EVar "t2_abab")]));
   (*L2058*) SAug true "doubles_res" (EScale (-1 # 1) (EEins "mdej,klcd,ceil,abkm->abij" [(ESlice (EVar "g_bbbb") [SV "o"; SV "v"; SV "v"; SV "o"]); (EVar "l2_abab"); (EVar "t2_abab"); (EVar "t2_abab")]));
   (*L2061*) SAug true "doubles_res" (EScale (1 # 1) (EEins "mdej,lkcd,ecil,abmk->abij" [(ESlice (EVar "g_abab") [SV "o"; SV "v"; SV "v"; SV "o"]); (EVar "l2_abab"); (EVar "t2_aaaa"); (EVar "t2_abab")]));
   (*L2064*) SAug true "doubles_res" (EScale (1 # 1) (EEins "mdej,kldc,ecil,abmk->abij" [(ESlice (EVar "g_abab") [SV "o"; SV "v"; SV "v"; SV "o"]); (EVar "l2_bbbb"); (EVar "t2_abab"); (EVar "t2_abab")]));
   (*L2067*) SAug true "doubles_res" (EScale (1 # 1) (EEins "dmie,kldc,celj,abkm->abij" [(ESlice (EVar "g_abab") [SV "v"; SV "o"; SV "o"; SV "v"]); (EVar "l2_aaaa"); (EVar "t2_abab"); (EVar "t2_abab")]));
   (*L2070*) SAug true "doubles_res" (EScale (1 # 1) (EEins "dmie,kldc,ecjl,abkm->abij" [(ESlice (EVar "g_abab") [SV "v"; SV "o"; SV "o"; SV "v"]); (EVar "l2_abab"); (EVar "t2_bbbb"); (EVar "t2_abab")]));
   (*L2073*) SAug true "doubles_res" (EScale (-1 # 1) (EEins "mdei,lkdc,eclj,abmk->abij" [(ESlice (EVar "g_aaaa") [SV "o"; SV "v"; SV "v"; SV "o"]); (EVar "l2_abab"); (EVar "t2_abab"); (EVar "t2_abab")]));
   (*L2076*) SAug true "doubles_res" (EScale (1 # 1) (EEins "mdie,lkcd,celj,abmk->abij" [(ESlice (EVar "g_abab") [SV "o"; SV "v"; SV "o"; SV "v"]); (EVar "l2_abab"); (EVar "t2_abab"); (EVar "t2_abab")]));
   (*L2079*) SAug true "doubles_res" (EScale (1 # 1) (EEins "mdie,kldc,ecjl,abmk->abij" [(ESlice (EVar "g_abab") [SV "o"; SV "v"; SV "o"; SV "v"]); (EVar "l2_bbbb"); (EVar "t2_bbbb"); (EVar "t2_abab")]));
   (*L2082*) SAug true "doubles_res" (EScale (1 # 2) (EEins "dmej,kldc,eakl,cbim->abij" [(ESlice (EVar "g_abab") [SV "v"; SV "o"; SV "v"; SV "o"]); (EVar "l2_aaaa"); (EVar "t2_aaaa"); (EVar "t2_abab")]));
   (*L2085*) SAug true "doubles_res" (EScale (-1 # 2) (EEins "mdej,klcd,aekl,cbim->abij" [(ESlice (EVar "g_bbbb") [SV "o"; SV "v"; SV "v"; SV "o"]); (EVar "l2_abab"); (EVar "t2_abab"); (EVar "t2_abab")]));
   (*L2088*) SAug true "doubles_res" (EScale (-1 # 2) (EEins "mdej,lkcd,aelk,cbim->abij" [(ESlice (EVar "g_bbbb") [SV "o"; SV "v"; SV "v"; SV "o"]); (EVar "l2_abab"); (EVar "t2_abab"); (EVar "t2_abab")]));
   (*L2091*) SAug true "doubles_res" (EScale (1 # 2) (EEins "dmej,kldc,ebkl,acim->abij" [(ESlice (EVar "g_abab") [SV "v"; SV "o"; SV "v"; SV "o"]); (EVar "l2_abab"); (EVar "t2_abab"); (EVar "t2_abab")]));
   (*L2094*) SAug true "doubles_res" (EScale (-1 # 2) (EEins "mdej,klcd,ebkl,caim->abij" [(ESlice (EVar "g_abab") [SV "o"; SV "v"; SV "v"; SV "o"]); (EVar "l2_abab"); (EVar "t2_abab"); (EVar "t2_aaaa")]));
   (*L2097*) SAug true "doubles_res" (EScale (1 # 2) (EEins "dmej,lkdc,eblk,acim->abij" [(ESlice (EVar "g_abab") [SV "v"; SV "o"; SV "v"; SV "o"]); (EVar "l2_abab"); (EVar "t2_abab"); (EVar "t2_abab")]));
   (*L2100*) SAug true "doubles_res" (EScale (-1 # 2) (EEins "mdej,lkcd,eblk,caim->abij" [(ESlice (EVar "g_abab") [SV "o"; SV "v"; SV "v"; SV "o"]); (EVar "l2_abab"); (EVar "t2_abab"); (EVar "t2_aaaa")]));
   (*L2103*) SAug true "doubles_res" (EScale (-1 # 2) (EEins "mdej,kldc,ebkl,acim->abij" [(ESlice (EVar "g_bbbb") [SV "o"; SV "v"; SV "v"; SV "o"]); (EVar "l2_bbbb"); (EVar "t2_bbbb"); (EVar "t2_abab")]));
   (*L2106*) SAug true "doubles_res" (EScale (-1 # 2) (EEins "mdei,kldc,eakl,cbmj->abij" [(ESlice (EVar "g_aaaa") [SV "o"; SV "v"; SV "v"; SV "o"]); (EVar "l2_aaaa"); (EVar "t2_aaaa"); (EVar "t2_abab")]));
   (*L2109*) SAug true "doubles_res" (EScale (-1 # 2) (EEins "dmie,kldc,aekl,cbjm->abij" [(ESlice (EVar "g_abab") [SV "v"; SV "o"; SV "o"; SV "v"]); (EVar "l2_abab"); (EVar "t2_abab"); (EVar "t2_bbbb")]));
   (*L2112*) SAug true "doubles_res" (EScale (1 # 2) (EEins "mdie,klcd,aekl,cbmj->abij" [(ESlice (EVar "g_abab") [SV "o"; SV "v"; SV "o"; SV "v"]); (EVar "l2_abab"); (EVar "t2_abab"); (EVar "t2_abab")]));
   (*L2115*) SAug true "doubles_res" (EScale (-1 # 2) (EEins "dmie,lkdc,aelk,cbjm->abij" [(ESlice (EVar "g_abab") [SV "v"; SV "o"; SV "o"; SV "v"]); (EVar "l2_abab"); (EVar "t2_abab"); (EVar "t2_bbbb")]));
   (*L2118*) SAug true "doubles_res" (EScale (1 # 2) (EEins "mdie,lkcd,aelk,cbmj->abij" [(ESlice (EVar "g_abab") [SV "o"; SV "v"; SV "o"; SV "v"]); (EVar "l2_abab"); (EVar "t2_abab"); (EVar "t2_abab")]));
   (*L2121*) SAug true "doubles_res" (EScale (-1 # 2) (EEins "mdei,kldc,ebkl,acmj->abij" [(ESlice (EVar "g_aaaa") [SV "o"; SV "v"; SV "v"; SV "o"]); (EVar "l2_abab"); (EVar "t2_abab"); (EVar "t2_abab")]));
   (*L2124*) SAug true "doubles_res" (EScale (-1 # 2) (EEins "mdei,lkdc,eblk,acmj->abij" [(ESlice (EVar "g_aaaa") [SV "o"; SV "v"; SV "v"; SV "o"]); (EVar "l2_abab"); (EVar "t2_abab"); (EVar "t2_abab")]));
   (*L2127*) SAug true "doubles_res" (EScale (1 # 2) (EEins "mdie,kldc,ebkl,acmj->abij" [(ESlice (EVar "g_abab") [SV "o"; SV "v"; SV "o"; SV "v"]); (EVar "l2_bbbb"); (EVar "t2_bbbb"); (EVar "t2_abab")]));
   (*L2130*) SAug true "doubles_res" (EScale (-1 # 1) (EEins "dmej,kldc,eail,cbkm->abij" [(ESlice (EVar "g_abab") [SV "v"; SV "o"; SV "v"; SV "o"]); (EVar "l2_aaaa"); (EVar "t2_aaaa"); (EVar "t2_abab")]));
   (*L2133*) SAug true "doubles_res" (EScale (1 # 1) (EEins "mdej,klcd,aeil,cbkm->abij" [(ESlice (EVar "g_bbbb") [SV "o"; SV "v"; SV "v"; SV "o"]); (EVar "l2_abab"); (EVar "t2_abab"); (EVar "t2_abab")]));
   (*L2136*) SAug true "doubles_res" (EScale (1 # 1) (EEins "dmej,lkdc,eail,cbkm->abij" [(ESlice (EVar "g_abab") [SV "v"; SV "o"; SV "v"; SV "o"]); (EVar "l2_abab"); (EVar "t2_aaaa"); (EVar "t2_bbbb")]));
   (*L2139*) SAug true "doubles_res" (EScale (-1 # 1) (EEins "mdej,lkcd,eail,cbmk->abij" [(ESlice (EVar "g_abab") [SV "o"; SV "v"; SV "v"; SV "o"]); (EVar "l2_abab"); (EVar "t2_aaaa"); (EVar "t2_abab")]));
   (*L2142*) SAug true "doubles_res" (EScale (-1 # 1) (EEins "mdej,kldc,aeil,cbkm->abij" [(ESlice (EVar "g_bbbb") [SV "o"; SV "v"; SV "v"; SV "o"]); (EVar "l2_bbbb"); (EVar "t2_abab"); (EVar "t2_bbbb")]));
   (*L2145*) SAug true "doubles_res" (EScale (-1 # 1) (EEins "dmej,kldc,ebil,ackm->abij" [(ESlice (EVar "g_abab") [SV "v"; SV "o"; SV "v"; SV "o"]); (EVar "l2_abab"); (EVar "t2_abab"); (EVar "t2_abab")]));
   (*L2148*) SAug true "doubles_res" (EScale (1 # 1) (EEins "mdej,klcd,ebil,cakm->abij" [(ESlice (EVar "g_abab") [SV "o"; SV "v"; SV "v"; SV "o"]); (EVar "l2_abab"); (EVar "t2_abab"); (EVar "t2_aaaa")]));
   (*L2151*) SAug true "doubles_res" (EScale (-1 # 1) (EEins "mdej,kldc,ebil,acmk->abij" [(ESlice (EVar "g_abab") [SV "o"; SV "v"; SV "v"; SV "o"]); (EVar "l2_bbbb"); (EVar "t2_abab"); (EVar "t2_abab")]));
   (*L2154*) SAug true "doubles_res" (EScale (-1 # 1) (EEins "dmie,kldc,aelj,cbkm->abij" [(ESlice (EVar "g_abab") [SV "v"; SV "o"; SV "o"; SV "v"]); (EVar "l2_aaaa"); (EVar "t2_abab"); (EVar "t2_abab")]));
   (*L2157*) SAug true "doubles_res" (EScale (1 # 1) (EEins "dmie,lkdc,aelj,cbkm->abij" [(ESlice (EVar "g_abab") [SV "v"; SV "o"; SV "o"; SV "v"]); (EVar "l2_abab"); (EVar "t2_abab"); (EVar "t2_bbbb")]));
   (*L2160*) SAug true "doubles_res" (EScale (-1 # 1) (EEins "mdie,lkcd,aelj,cbmk->abij" [(ESlice (EVar "g_abab") [SV "o"; SV "v"; SV "o"; SV "v"]); (EVar "l2_abab"); (EVar "t2_abab"); (EVar "t2_abab")]));
   (*L2163*) SAug true "doubles_res" (EScale (-1 # 1) (EEins "mdei,kldc,eblj,cakm->abij" [(ESlice (EVar "g_aaaa") [SV "o"; SV "v"; SV "v"; SV "o"]); (EVar "l2_aaaa"); (EVar "t2_abab"); (EVar "t2_aaaa")]));
   (*L2166*) SAug true "doubles_res" (EScale (-1 # 1) (EEins "dmie,kldc,ebjl,ackm->abij" [(ESlice (EVar "g_abab") [SV "v"; SV "o"; SV "o"; SV "v"]); (EVar "l2_abab"); (EVar "t2_bbbb"); (EVar "t2_abab")]));
   (*L2169*) SAug true "doubles_res" (EScale (1 # 1) (EEins "mdie,klcd,ebjl,cakm->abij" [(ESlice (EVar "g_abab") [SV "o"; SV "v"; SV "o"; SV "v"]); (EVar "l2_abab"); (EVar "t2_bbbb"); (EVar "t2_aaaa")]));
   (*L2172*) SAug true "doubles_res" (EScale (1 # 1) (EEins "mdei,lkdc,eblj,acmk->abij" [(ESlice (EVar "g_aaaa") [SV "o"; SV "v"; SV "v"; SV "o"]); (EVar "l2_abab"); (EVar "t2_abab"); (EVar "t2_abab")]));
   (*L2175*) SAug true "doubles_res" (EScale (-1 # 1) (EEins "mdie,kldc,ebjl,acmk->abij" [(ESlice (EVar "g_abab") [SV "o"; SV "v"; SV "o"; SV "v"]); (EVar "l2_bbbb"); (EVar "t2_bbbb"); (EVar "t2_abab")]));
   (*L2178*) SAug true "doubles_res" (EScale (1 # 1) (EEins "amle,kldc,dekj,cbim->abij" [(ESlice (EVar "g_abab") [SV "v"; SV "o"; SV "o"; SV "v"]); (EVar "l2_aaaa"); (EVar "t2_abab"); (EVar "t2_abab")]));
   (*L2181*) SAug true "doubles_res" (EScale (-1 # 1) (EEins "amel,klcd,edkj,cbim->abij" [(ESlice (EVar "g_abab") [SV "v"; SV "o"; SV "v"; SV "o"]); (EVar "l2_abab"); (EVar "t2_abab"); (EVar "t2_abab")]));
   (*L2184*) SAug true "doubles_res" (EScale (1 # 1) (EEins "amle,lkcd,edjk,cbim->abij" [(ESlice (EVar "g_abab") [SV "v"; SV "o"; SV "o"; SV "v"]); (EVar "l2_abab"); (EVar "t2_bbbb"); (EVar "t2_abab")]));
   (*L2187*) SAug true "doubles_res" (EScale (1 # 1) (EEins "mble,kldc,dekj,caim->abij" [(ESlice (EVar "g_abab") [SV "o"; SV "v"; SV "o"; SV "v"]); (EVar "l2_aaaa"); (EVar "t2_abab"); (EVar "t2_aaaa")]));
   (*L2190*) SAug true "doubles_res" (EScale (1 # 1) (EEins "mbel,kldc,dekj,acim->abij" [(ESlice (EVar "g_bbbb") [SV "o"; SV "v"; SV "v"; SV "o"]); (EVar "l2_abab"); (EVar "t2_abab"); (EVar "t2_abab")]));
   (*L2193*) SAug true "doubles_res" (EScale (-1 # 1) (EEins "mbel,klcd,edkj,caim->abij" [(ESlice (EVar "g_abab") [SV "o"; SV "v"; SV "v"; SV "o"]); (EVar "l2_abab"); (EVar "t2_abab"); (EVar "t2_aaaa")]));
   (*L2196*) SAug true "doubles_res" (EScale (1 # 1) (EEins "mble,lkcd,edjk,caim->abij" [(ESlice (EVar "g_abab") [SV "o"; SV "v"; SV "o"; SV "v"]); (EVar "l2_abab"); (EVar "t2_bbbb"); (EVar "t2_aaaa")]));
   (*L2199*) SAug true "doubles_res" (EScale (1 # 1) (EEins "mbel,kldc,edjk,acim->abij" [(ESlice (EVar "g_bbbb") [SV "o"; SV "v"; SV "v"; SV "o"]); (EVar "l2_bbbb"); (EVar "t2_bbbb"); (EVar "t2_abab")]));
   (*L2202*) SAug true "doubles_res" (EScale (1 # 1) (EEins "mael,kldc,edik,cbmj->abij" [(ESlice (EVar "g_aaaa") [SV "o"; SV "v"; SV "v"; SV "o"]); (EVar "l2_aaaa"); (EVar "t2_aaaa"); (EVar "t2_abab")]));
   (*L2205*) SAug true "doubles_res" (EScale (1 # 1) (EEins "amel,kldc,edik,cbjm->abij" [(ESlice (EVar "g_abab") [SV "v"; SV "o"; SV "v"; SV "o"]); (EVar "l2_abab"); (EVar "t2_aaaa"); (EVar "t2_bbbb")]));
   (*L2208*) SAug true "doubles_res" (EScale (-1 # 1) (EEins "amle,lkdc,deik,cbjm->abij" [(ESlice (EVar "g_abab") [SV "v"; SV "o"; SV "o"; SV "v"]); (EVar "l2_abab"); (EVar "t2_abab"); (EVar "t2_bbbb")]));
   (*L2211*) SAug true "doubles_res" (EScale (1 # 1) (EEins "mael,lkcd,edik,cbmj->abij" [(ESlice (EVar "g_aaaa") [SV "o"; SV "v"; SV "v"; SV "o"]); (EVar "l2_abab"); (EVar "t2_abab"); (EVar "t2_abab")]));
   (*L2214*) SAug true "doubles_res" (EScale (1 # 1) (EEins "amel,kldc,edik,cbjm->abij" [(ESlice (EVar "g_abab") [SV "v"; SV "o"; SV "v"; SV "o"]); (EVar "l2_bbbb"); (EVar "t2_abab"); (EVar "t2_bbbb")]));
   (*L2217*) SAug true "doubles_res" (EScale (1 # 1) (EEins "mbel,kldc,edik,acmj->abij" [(ESlice (EVar "g_abab") [SV "o"; SV "v"; SV "v"; SV "o"]); (EVar "l2_abab"); (EVar "t2_aaaa"); (EVar "t2_abab")]));
   (*L2220*) SAug true "doubles_res" (EScale (-1 # 1) (EEins "mble,lkdc,deik,acmj->abij" [(ESlice (EVar "g_abab") [SV "o"; SV "v"; SV "o"; SV "v"]); (EVar "l2_abab"); (EVar "t2_abab"); (EVar "t2_abab")]));
   (*L2223*) SAug true "doubles_res" (EScale (1 # 1) (EEins "mbel,kldc,edik,acmj->abij" [(ESlice (EVar "g_abab") [SV "o"; SV "v"; SV "v"; SV "o"]); (EVar "l2_bbbb"); (EVar "t2_abab"); (EVar "t2_abab")]));
   (*L2226*) SAug true "doubles_res" (EScale (-1 # 1) (EEins "amle,kldc,deij,cbkm->abij" [(ESlice (EVar "g_abab") [SV "v"; SV "o"; SV "o"; SV "v"]); (EVar "l2_aaaa"); (EVar "t2_abab"); (EVar "t2_abab")]));
   (*L2229*) SAug true "doubles_res" (EScale (1 # 1) (EEins "amel,klcd,edij,cbkm->abij" [(ESlice (EVar "g_abab") [SV "v"; SV "o"; SV "v"; SV "o"]); (EVar "l2_abab"); (EVar "t2_abab"); (EVar "t2_abab")]));
   (*L2232*) SAug true "doubles_res" (EScale (1 # 1) (EEins "amle,lkdc,deij,cbkm->abij" [(ESlice (EVar "g_abab") [SV "v"; SV "o"; SV "o"; SV "v"]); (EVar "l2_abab"); (EVar "t2_abab"); (EVar "t2_bbbb")]));
   (*L2235*) SAug true "doubles_res" (EScale (-1 # 1) (EEins "mael,lkcd,edij,cbmk->abij" [(ESlice (EVar "g_aaaa") [SV "o"; SV "v"; SV "v"; SV "o"]); (EVar "l2_abab"); (EVar "t2_abab"); (EVar "t2_abab")]));
   (*L2238*) SAug true "doubles_res" (EScale (-1 # 1) (EEins "amel,kldc,edij,cbkm->abij" [(ESlice (EVar "g_abab") [SV "v"; SV "o"; SV "v"; SV "o"]); (EVar "l2_bbbb"); (EVar "t2_abab"); (EVar "t2_bbbb")]));
   (*L2241*) SAug true "doubles_res" (EScale (-1 # 1) (EEins "mble,kldc,deij,cakm->abij" [(ESlice (EVar "g_abab") [SV "o"; SV "v"; SV "o"; SV "v"]); (EVar "l2_aaaa"); (EVar "t2_abab"); (EVar "t2_aaaa")]));
   (*L2244*) SAug true "doubles_res" (EScale (-1 # 1) (EEins "mbel,kldc,deij,ackm->abij" [(ESlice (EVar "g_bbbb") [SV "o"; SV "v"; SV "v"; SV "o"]); (EVar "l2_abab"); (EVar "t2_abab"); (EVar "t2_abab")]));
   (*L2247*) SAug true "doubles_res" (EScale (1 # 1) (EEins "mbel,klcd,edij,cakm->abij" [(ESlice (EVar "g_abab") [SV "o"; SV "v"; SV "v"; SV "o"]); (EVar "l2_abab"); (EVar "t2_abab"); (EVar "t2_aaaa")]));
   (*L2250*) SAug true "doubles_res" (EScale (1 # 1) (EEins "mble,lkdc,deij,acmk->abij" [(ESlice (EVar "g_abab") [SV "o"; SV "v"; SV "o"; SV "v"]); (EVar "l2_abab"); (EVar "t2_abab"); (EVar "t2_abab")]));
   (*L2253*) SAug true "doubles_res" (EScale (-1 # 1) (EEins "mbel,kldc,edij,acmk->abij" [(ESlice (EVar "g_abab") [SV "o"; SV "v"; SV "v"; SV "o"]); (EVar "l2_bbbb"); (EVar "t2_abab"); (EVar "t2_abab")]));
   (*L2256*) SAug true "doubles_res" (EScale (-1 # 2) (EEins "mael,kldc,ebkj,dcim->abij" [(ESlice (EVar "g_aaaa") [SV "o"; SV "v"; SV "v"; SV "o"]); (EVar "l2_aaaa"); (EVar "t2_abab"); (EVar "t2_aaaa")]));
   (*L2259*) SAug true "doubles_res" (EScale (1 # 2) (EEins "amel,kldc,ebkj,dcim->abij" [(ESlice (EVar "g_abab") [SV "v"; SV "o"; SV "v"; SV "o"]); (EVar "l2_abab"); (EVar "t2_abab"); (EVar "t2_abab")]));
   (*L2262*) SAug true "doubles_res" (EScale (1 # 2) (EEins "amel,klcd,ebkj,cdim->abij" [(ESlice (EVar "g_abab") [SV "v"; SV "o"; SV "v"; SV "o"]); (EVar "l2_abab"); (EVar "t2_abab"); (EVar "t2_abab")]));
   (*L2265*) SAug true "doubles_res" (EScale (-1 # 2) (EEins "amle,lkdc,ebjk,dcim->abij" [(ESlice (EVar "g_abab") [SV "v"; SV "o"; SV "o"; SV "v"]); (EVar "l2_abab"); (EVar "t2_bbbb"); (EVar "t2_abab")]));
   (*L2268*) SAug true "doubles_res" (EScale (-1 # 2) (EEins "amle,lkcd,ebjk,cdim->abij" [(ESlice (EVar "g_abab") [SV "v"; SV "o"; SV "o"; SV "v"]); (EVar "l2_abab"); (EVar "t2_bbbb"); (EVar "t2_abab")]));
   (*L2271*) SAug true "doubles_res" (EScale (1 # 2) (EEins "mble,kldc,aekj,dcim->abij" [(ESlice (EVar "g_abab") [SV "o"; SV "v"; SV "o"; SV "v"]); (EVar "l2_aaaa"); (EVar "t2_abab"); (EVar "t2_aaaa")]));
   (*L2274*) SAug true "doubles_res" (EScale (-1 # 2) (EEins "mbel,kldc,aekj,dcim->abij" [(ESlice (EVar "g_bbbb") [SV "o"; SV "v"; SV "v"; SV "o"]); (EVar "l2_abab"); (EVar "t2_abab"); (EVar "t2_abab")]));
   (*L2277*) SAug true "doubles_res" (EScale (-1 # 2) (EEins "mbel,klcd,aekj,cdim->abij" [(ESlice (EVar "g_bbbb") [SV "o"; SV "v"; SV "v"; SV "o"]); (EVar "l2_abab"); (EVar "t2_abab"); (EVar "t2_abab")]));
   (*L2280*) SAug true "doubles_res" (EScale (-1 # 2) (EEins "mael,lkdc,ebik,dcmj->abij" [(ESlice (EVar "g_aaaa") [SV "o"; SV "v"; SV "v"; SV "o"]); (EVar "l2_abab"); (EVar "t2_abab"); (EVar "t2_abab")]));
   (*L2283*) SAug true "doubles_res" (EScale (-1 # 2) (EEins "mael,lkcd,ebik,cdmj->abij" [(ESlice (EVar "g_aaaa") [SV "o"; SV "v"; SV "v"; SV "o"]); (EVar "l2_abab"); (EVar "t2_abab"); (EVar "t2_abab")]));
   (*L2286*) SAug true "doubles_res" (EScale (1 # 2) (EEins "amel,kldc,ebik,dcjm->abij" [(ESlice (EVar "g_abab") [SV "v"; SV "o"; SV "v"; SV "o"]); (EVar "l2_bbbb"); (EVar "t2_abab"); (EVar "t2_bbbb")]));
   (*L2289*) SAug true "doubles_res" (EScale (-1 # 2) (EEins "mbel,kldc,eaik,dcmj->abij" [(ESlice (EVar "g_abab") [SV "o"; SV "v"; SV "v"; SV "o"]); (EVar "l2_abab"); (EVar "t2_aaaa"); (EVar "t2_abab")]));
   (*L2292*) SAug true "doubles_res" (EScale (-1 # 2) (EEins "mbel,klcd,eaik,cdmj->abij" [(ESlice (EVar "g_abab") [SV "o"; SV "v"; SV "v"; SV "o"]); (EVar "l2_abab"); (EVar "t2_aaaa"); (EVar "t2_abab")]));
   (*L2295*) SAug true "doubles_res" (EScale (1 # 2) (EEins "mble,lkdc,aeik,dcmj->abij" [(ESlice (EVar "g_abab") [SV "o"; SV "v"; SV "o"; SV "v"]); (EVar "l2_abab"); (EVar "t2_abab"); (EVar "t2_abab")]));
   (*L2298*) SAug true "doubles_res" (EScale (1 # 2) (EEins "mble,lkcd,aeik,cdmj->abij" [(ESlice (EVar "g_abab") [SV "o"; SV "v"; SV "o"; SV "v"]); (EVar "l2_abab"); (EVar "t2_abab"); (EVar "t2_abab")]));
   (*L2301*) SAug true "doubles_res" (EScale (-1 # 2) (EEins "mbel,kldc,aeik,dcjm->abij" [(ESlice (EVar "g_bbbb") [SV "o"; SV "v"; SV "v"; SV "o"]); (EVar "l2_bbbb"); (EVar "t2_abab"); (EVar "t2_bbbb")]));
   (*L2304*) SAug true "doubles_res" (EScale (1 # 2) (EEins "mael,kldc,ebij,dckm->abij" [(ESlice (EVar "g_aaaa") [SV "o"; SV "v"; SV "v"; SV "o"]); (EVar "l2_aaaa"); (EVar "t2_abab"); (EVar "t2_aaaa")]));
   (*L2307*) SAug true "doubles_res" (EScale (-1 # 2) (EEins "amel,kldc,ebij,dckm->abij" [(ESlice (EVar "g_abab") [SV "v"; SV "o"; SV "v"; SV "o"]); (EVar "l2_abab"); (EVar "t2_abab"); (EVar "t2_abab")]));
   (*L2310*) SAug true "doubles_res" (EScale (-1 # 2) (EEins "amel,klcd,ebij,cdkm->abij" [(ESlice (EVar "g_abab") [SV "v"; SV "o"; SV "v"; SV "o"]); (EVar "l2_abab"); (EVar "t2_abab"); (EVar "t2_abab")]));
   (*L2313*) SAug true "doubles_res" (EScale (1 # 2) (EEins "mael,lkdc,ebij,dcmk->abij" [(ESlice (EVar "g_aaaa") [SV "o"; SV "v"; SV "v"; SV "o"]); (EVar "l2_abab"); (EVar "t2_abab"); (EVar "t2_abab")]));
   (*L2316*) SAug true "doubles_res" (EScale (1 # 2) (EEins "mael,lkcd,ebij,cdmk->abij" [(ESlice (EVar "g_aaaa") [SV "o"; SV "v"; SV "v"; SV "o"]); (EVar "l2_abab"); (EVar "t2_abab"); (EVar "t2_abab")]));
   (*L2319*) SAug true "doubles_res" (EScale (-1 # 2) (EEins "amel,kldc,ebij,dckm->abij" [(ESlice (EVar "g_abab") [SV "v"; SV "o"; SV "v"; SV "o"]); (EVar "l2_bbbb"); (EVar "t2_abab"); (EVar "t2_bbbb")]));
   (*L2322*) SAug true "doubles_res" (EScale (-1 # 2) (EEins "mble,kldc,aeij,dckm->abij" [(ESlice (EVar "g_abab") [SV "o"; SV "v"; SV "o"; SV "v"]); (EVar "l2_aaaa"); (EVar "t2_abab"); (EVar "t2_aaaa")]));
   (*L2325*) SAug true "doubles_res" (EScale (1 # 2) (EEins "mbel,kldc,aeij,dckm->abij" [(ESlice (EVar "g_bbbb") [SV "o"; SV "v"; SV "v"; SV "o"]); (EVar "l2_abab"); (EVar "t2_abab"); (EVar "t2_abab")]));
   (*L2328*) SAug true "doubles_res" (EScale (1 # 2) (EEins "mbel,klcd,aeij,cdkm->abij" [(ESlice (EVar "g_bbbb") [SV "o"; SV "v"; SV "v"; SV "o"]); (EVar "l2_abab"); (EVar "t2_abab"); (EVar "t2_abab")]));
   (*L2331*) SAug true "doubles_res" (EScale (-1 # 2) (EEins "mble,lkdc,aeij,dcmk->abij" [(ESlice (EVar "g_abab") [SV "o"; SV "v"; SV "o"; SV "v"]); (EVar "l2_abab"); (EVar "t2_abab"); (EVar "t2_abab")]));
   (*L2334*) SAug true "doubles_res" (EScale (-1 # 2) (EEins "mble,lkcd,aeij,cdmk->abij" [(ESlice (EVar "g_abab") [SV "o"; SV "v"; SV "o"; SV "v"]); (EVar "l2_abab"); (EVar "t2_abab"); (EVar "t2_abab")]));
   (*L2337*) SAug true "doubles_res" (EScale (1 # 2) (EEins "mbel,kldc,aeij,dckm->abij" [(ESlice (EVar "g_bbbb") [SV "o"; SV "v"; SV "v"; SV "o"]); (EVar "l2_bbbb"); (EVar "t2_abab"); (EVar "t2_bbbb")]));
   (*L2340*) SAug true "doubles_res" (EScale (-1 # 2) (EEins "amej,kldc,edkl,cbim->abij" [(ESlice (EVar "g_abab") [SV "v"; SV "o"; SV "v"; SV "o"]); (EVar "l2_aaaa"); (EVar "t2_aaaa"); (EVar "t2_abab")]));
   (*L2343*) SAug true "doubles_res" (EScale (1 # 2) (EEins "amej,klcd,edkl,cbim->abij" [(ESlice (EVar "g_abab") [SV "v"; SV "o"; SV "v"; SV "o"]); (EVar "l2_abab"); (EVar "t2_abab"); (EVar "t2_abab")]));
   (*L2346*) SAug true "doubles_res" (EScale (1 # 2) (EEins "amej,lkcd,edlk,cbim->abij" [(ESlice (EVar "g_abab") [SV "v"; SV "o"; SV "v"; SV "o"]); (EVar "l2_abab"); (EVar "t2_abab"); (EVar "t2_abab")]));
   (*L2349*) SAug true "doubles_res" (EScale (-1 # 2) (EEins "mbej,kldc,edkl,caim->abij" [(ESlice (EVar "g_abab") [SV "o"; SV "v"; SV "v"; SV "o"]); (EVar "l2_aaaa"); (EVar "t2_aaaa"); (EVar "t2_aaaa")]));
   (*L2352*) SAug true "doubles_res" (EScale (-1 # 2) (EEins "mbej,kldc,dekl,acim->abij" [(ESlice (EVar "g_bbbb") [SV "o"; SV "v"; SV "v"; SV "o"]); (EVar "l2_abab"); (EVar "t2_abab"); (EVar "t2_abab")]));
   (*L2355*) SAug true "doubles_res" (EScale (1 # 2) (EEins "mbej,klcd,edkl,caim->abij" [(ESlice (EVar "g_abab") [SV "o"; SV "v"; SV "v"; SV "o"]); (EVar "l2_abab"); (EVar "t2_abab"); (EVar "t2_aaaa")]));
   (*L2358*) SAug true "doubles_res" (EScale (-1 # 2) (EEins "mbej,lkdc,delk,acim->abij" [(ESlice (EVar "g_bbbb") [SV "o"; SV "v"; SV "v"; SV "o"]); (EVar "l2_abab"); (EVar "t2_abab"); (EVar "t2_abab")]));
   (*L2361*) SAug true "doubles_res" (EScale (1 # 2) (EEins "mbej,lkcd,edlk,caim->abij" [(ESlice (EVar "g_abab") [SV "o"; SV "v"; SV "v"; SV "o"]); (EVar "l2_abab"); (EVar "t2_abab"); (EVar "t2_aaaa")]));
   (*L2364*) SAug true "doubles_res" (EScale (1 # 2) (EEins "mbej,kldc,edkl,acim->abij" [(ESlice (EVar "g_bbbb") [SV "o"; SV "v"; SV "v"; SV "o"]); (EVar "l2_bbbb"); (EVar "t2_bbbb"); (EVar "t2_abab")]));
   (*L2367*) SAug true "doubles_res" (EScale (1 # 2) (EEins "maei,kldc,edkl,cbmj->abij" [(ESlice (EVar "g_aaaa") [SV "o"; SV "v"; SV "v"; SV "o"]); (EVar "l2_aaaa"); (EVar "t2_aaaa"); (EVar "t2_abab")]));
   (*L2370*) SAug true "doubles_res" (EScale (1 # 2) (EEins "amie,kldc,dekl,cbjm->abij" [(ESlice (EVar "g_abab") [SV "v"; SV "o"; SV "o"; SV "v"]); (EVar "l2_abab"); (EVar "t2_abab"); (EVar "t2_bbbb")]));
   (*L2373*) SAug true "doubles_res" (EScale (-1 # 2) (EEins "maei,klcd,edkl,cbmj->abij" [(ESlice (EVar "g_aaaa") [SV "o"; SV "v"; SV "v"; SV "o"]); (EVar "l2_abab"); (EVar "t2_abab"); (EVar "t2_abab")]));
   (*L2376*) SAug true "doubles_res" (EScale (1 # 2) (EEins "amie,lkdc,delk,cbjm->abij" [(ESlice (EVar "g_abab") [SV "v"; SV "o"; SV "o"; SV "v"]); (EVar "l2_abab"); (EVar "t2_abab"); (EVar "t2_bbbb")]));
   (*L2379*) SAug true "doubles_res" (EScale (-1 # 2) (EEins "maei,lkcd,edlk,cbmj->abij" [(ESlice (EVar "g_aaaa") [SV "o"; SV "v"; SV "v"; SV "o"]); (EVar "l2_abab"); (EVar "t2_abab"); (EVar "t2_abab")]));
   (*L2382*) SAug true "doubles_res" (EScale (-1 # 2) (EEins "amie,kldc,edkl,cbjm->abij" [(ESlice (EVar "g_abab") [SV "v"; SV "o"; SV "o"; SV "v"]); (EVar "l2_bbbb"); (EVar "t2_bbbb"); (EVar "t2_bbbb")]));
   (*L2385*) SAug true "doubles_res" (EScale (1 # 2) (EEins "mbie,kldc,dekl,acmj->abij" [(ESlice (EVar "g_abab") [SV "o"; SV "v"; SV "o"; SV "v"]); (EVar "l2_abab"); (EVar "t2_abab"); (EVar "t2_abab")]));
   (*L2388*) SAug true "doubles_res" (EScale (1 # 2) (EEins "mbie,lkdc,delk,acmj->abij" [(ESlice (EVar "g_abab") [SV "o"; SV "v"; SV "o"; SV "v"]); (EVar "l2_abab"); (EVar "t2_abab"); (EVar "t2_abab")]));
   (*L2391*) SAug true "doubles_res" (EScale (-1 # 2) (EEins "mbie,kldc,edkl,acmj->abij" [(ESlice (EVar "g_abab") [SV "o"; SV "v"; SV "o"; SV "v"]); (EVar "l2_bbbb"); (EVar "t2_bbbb"); (EVar "t2_abab")]));
   (*L2394*) SAug true "doubles_res" (EScale (1 # 1) (EEins "amej,kldc,edil,cbkm->abij" [(ESlice (EVar "g_abab") [SV "v"; SV "o"; SV "v"; SV "o"]); (EVar "l2_aaaa"); (EVar "t2_aaaa"); (EVar "t2_abab")]));
   (*L2397*) SAug true "doubles_res" (EScale (-1 # 1) (EEins "amej,klcd,edil,cbkm->abij" [(ESlice (EVar "g_abab") [SV "v"; SV "o"; SV "v"; SV "o"]); (EVar "l2_abab"); (EVar "t2_abab"); (EVar "t2_abab")]));
   (*L2400*) SAug true "doubles_res" (EScale (-1 # 1) (EEins "amej,lkdc,edil,cbkm->abij" [(ESlice (EVar "g_abab") [SV "v"; SV "o"; SV "v"; SV "o"]); (EVar "l2_abab"); (EVar "t2_aaaa"); (EVar "t2_bbbb")]));
   (*L2403*) SAug true "doubles_res" (EScale (1 # 1) (EEins "amej,kldc,edil,cbkm->abij" [(ESlice (EVar "g_abab") [SV "v"; SV "o"; SV "v"; SV "o"]); (EVar "l2_bbbb"); (EVar "t2_abab"); (EVar "t2_bbbb")]));
   (*L2406*) SAug true "doubles_res" (EScale (1 # 1) (EEins "mbej,kldc,edil,cakm->abij" [(ESlice (EVar "g_abab") [SV "o"; SV "v"; SV "v"; SV "o"]); (EVar "l2_aaaa"); (EVar "t2_aaaa"); (EVar "t2_aaaa")]));
   (*L2409*) SAug true "doubles_res" (EScale (1 # 1) (EEins "mbej,kldc,deil,ackm->abij" [(ESlice (EVar "g_bbbb") [SV "o"; SV "v"; SV "v"; SV "o"]); (EVar "l2_abab"); (EVar "t2_abab"); (EVar "t2_abab")]));
   (*L2412*) SAug true "doubles_res" (EScale (-1 # 1) (EEins "mbej,klcd,edil,cakm->abij" [(ESlice (EVar "g_abab") [SV "o"; SV "v"; SV "v"; SV "o"]); (EVar "l2_abab"); (EVar "t2_abab"); (EVar "t2_aaaa")]));
   (*L2415*) SAug true "doubles_res" (EScale (-1 # 1) (EEins "mbej,lkdc,edil,acmk->abij" [(ESlice (EVar "g_abab") [SV "o"; SV "v"; SV "v"; SV "o"]); (EVar "l2_abab"); (EVar "t2_aaaa"); (EVar "t2_abab")]));
   (*L2418*) SAug true "doubles_res" (EScale (1 # 1) (EEins "mbej,kldc,edil,acmk->abij" [(ESlice (EVar "g_abab") [SV "o"; SV "v"; SV "v"; SV "o"]); (EVar "l2_bbbb"); (EVar "t2_abab"); (EVar "t2_abab")]));
   (*L2421*) SAug true "doubles_res" (EScale (1 # 1) (EEins "amie,kldc,delj,cbkm->abij" [(ESlice (EVar "g_abab") [SV "v"; SV "o"; SV "o"; SV "v"]); (EVar "l2_aaaa"); (EVar "t2_abab"); (EVar "t2_abab")]));
   (*L2424*) SAug true "doubles_res" (EScale (-1 # 1) (EEins "amie,klcd,edjl,cbkm->abij" [(ESlice (EVar "g_abab") [SV "v"; SV "o"; SV "o"; SV "v"]); (EVar "l2_abab"); (EVar "t2_bbbb"); (EVar "t2_abab")]));
   (*L2427*) SAug true "doubles_res" (EScale (-1 # 1) (EEins "amie,lkdc,delj,cbkm->abij" [(ESlice (EVar "g_abab") [SV "v"; SV "o"; SV "o"; SV "v"]); (EVar "l2_abab"); (EVar "t2_abab"); (EVar "t2_bbbb")]));
   (*L2430*) SAug true "doubles_res" (EScale (1 # 1) (EEins "maei,lkcd,edlj,cbmk->abij" [(ESlice (EVar "g_aaaa") [SV "o"; SV "v"; SV "v"; SV "o"]); (EVar "l2_abab"); (EVar "t2_abab"); (EVar "t2_abab")]));
   (*L2433*) SAug true "doubles_res" (EScale (1 # 1) (EEins "amie,kldc,edjl,cbkm->abij" [(ESlice (EVar "g_abab") [SV "v"; SV "o"; SV "o"; SV "v"]); (EVar "l2_bbbb"); (EVar "t2_bbbb"); (EVar "t2_bbbb")]));
   (*L2436*) SAug true "doubles_res" (EScale (1 # 1) (EEins "mbie,kldc,delj,cakm->abij" [(ESlice (EVar "g_abab") [SV "o"; SV "v"; SV "o"; SV "v"]); (EVar "l2_aaaa"); (EVar "t2_abab"); (EVar "t2_aaaa")]));
   (*L2439*) SAug true "doubles_res" (EScale (-1 # 1) (EEins "mbie,klcd,edjl,cakm->abij" [(ESlice (EVar "g_abab") [SV "o"; SV "v"; SV "o"; SV "v"]); (EVar "l2_abab"); (EVar "t2_bbbb"); (EVar "t2_aaaa")]));
   (*L2442*) SAug true "doubles_res" (EScale (-1 # 1) (EEins "mbie,lkdc,delj,acmk->abij" [(ESlice (EVar "g_abab") [SV "o"; SV "v"; SV "o"; SV "v"]); (EVar "l2_abab"); (EVar "t2_abab"); (EVar "t2_abab")]));
   (*L2445*) SAug true "doubles_res" (EScale (1 # 1) (EEins "mbie,kldc,edjl,acmk->abij" [(ESlice (EVar "g_abab") [SV "o"; SV "v"; SV "o"; SV "v"]); (EVar "l2_bbbb"); (EVar "t2_bbbb"); (EVar "t2_abab")]));
   (*L2448*) SAug true "doubles_res" (EScale (-1 # 4) (EEins "amej,kldc,ebkl,dcim->abij" [(ESlice (EVar "g_abab") [SV "v"; SV "o"; SV "v"; SV "o"]); (EVar "l2_abab"); (EVar "t2_abab"); (EVar "t2_abab")]));
   (*L2451*) SAug true "doubles_res" (EScale (-1 # 4) (EEins "amej,klcd,ebkl,cdim->abij" [(ESlice (EVar "g_abab") [SV "v"; SV "o"; SV "v"; SV "o"]); (EVar "l2_abab"); (EVar "t2_abab"); (EVar "t2_abab")]));
   (*L2454*) SAug true "doubles_res" (EScale (-1 # 4) (EEins "amej,lkdc,eblk,dcim->abij" [(ESlice (EVar "g_abab") [SV "v"; SV "o"; SV "v"; SV "o"]); (EVar "l2_abab"); (EVar "t2_abab"); (EVar "t2_abab")]));
   (*L2457*) SAug true "doubles_res" (EScale (-1 # 4) (EEins "amej,lkcd,eblk,cdim->abij" [(ESlice (EVar "g_abab") [SV "v"; SV "o"; SV "v"; SV "o"]); (EVar "l2_abab"); (EVar "t2_abab"); (EVar "t2_abab")]));
   (*L2460*) SAug true "doubles_res" (EScale (-1 # 4) (EEins "mbej,kldc,eakl,dcim->abij" [(ESlice (EVar "g_abab") [SV "o"; SV "v"; SV "v"; SV "o"]); (EVar "l2_aaaa"); (EVar "t2_aaaa"); (EVar "t2_aaaa")]));
   (*L2463*) SAug true "doubles_res" (EScale (1 # 4) (EEins "mbej,kldc,aekl,dcim->abij" [(ESlice (EVar "g_bbbb") [SV "o"; SV "v"; SV "v"; SV "o"]); (EVar "l2_abab"); (EVar "t2_abab"); (EVar "t2_abab")]));
   (*L2466*) SAug true "doubles_res" (EScale (1 # 4) (EEins "mbej,klcd,aekl,cdim->abij" [(ESlice (EVar "g_bbbb") [SV "o"; SV "v"; SV "v"; SV "o"]); (EVar "l2_abab"); (EVar "t2_abab"); (EVar "t2_abab")]));
   (*L2469*) SAug true "doubles_res" (EScale (1 # 4) (EEins "mbej,lkdc,aelk,dcim->abij" [(ESlice (EVar "g_bbbb") [SV "o"; SV "v"; SV "v"; SV "o"]); (EVar "l2_abab"); (EVar "t2_abab"); (EVar "t2_abab")]));
   (*L2472*) SAug true "doubles_res" (EScale (1 # 4) (EEins "mbej,lkcd,aelk,cdim->abij" [(ESlice (EVar "g_bbbb") [SV "o"; SV "v"; SV "v"; SV "o"]); (EVar "l2_abab"); (EVar "t2_abab"); (EVar "t2_abab")]));
   (*L2475*) SAug true "doubles_res" (EScale (1 # 4) (EEins "maei,kldc,ebkl,dcmj->abij" [(ESlice (EVar "g_aaaa") [SV "o"; SV "v"; SV "v"; SV "o"]); (EVar "l2_abab"); (EVar "t2_abab"); (EVar "t2_abab")]));
   (*L2478*) SAug true "doubles_res" (EScale (1 # 4) (EEins "maei,klcd,ebkl,cdmj->abij" [(ESlice (EVar "g_aaaa") [SV "o"; SV "v"; SV "v"; SV "o"]); (EVar "l2_abab"); (EVar "t2_abab"); (EVar "t2_abab")]));
   (*L2481*) SAug true "doubles_res" (EScale (1 # 4) (EEins "maei,lkdc,eblk,dcmj->abij" [(ESlice (EVar "g_aaaa") [SV "o"; SV "v"; SV "v"; SV "o"]); (EVar "l2_abab"); (EVar "t2_abab"); (EVar "t2_abab")]));
   (*L2484*) SAug true "doubles_res" (EScale (1 # 4) (EEins "maei,lkcd,eblk,cdmj->abij" [(ESlice (EVar "g_aaaa") [SV "o"; SV "v"; SV "v"; SV "o"]); (EVar "l2_abab"); (EVar "t2_abab"); (EVar "t2_abab")]));
   (*L2487*) SAug true "doubles_res" (EScale (-1 # 4) (EEins "amie,kldc,ebkl,dcjm->abij" [(ESlice (EVar "g_abab") [SV "v"; SV "o"; SV "o"; SV "v"]); (EVar "l2_bbbb"); (EVar "t2_bbbb"); (EVar "t2_bbbb")]));
   (*L2490*) SAug true "doubles_res" (EScale (-1 # 4) (EEins "mbie,kldc,aekl,dcmj->abij" [(ESlice (EVar "g_abab") [SV "o"; SV "v"; SV "o"; SV "v"]); (EVar "l2_abab"); (EVar "t2_abab"); (EVar "t2_abab")]));
   (*L2493*) SAug true "doubles_res" (EScale (-1 # 4) (EEins "mbie,klcd,aekl,cdmj->abij" [(ESlice (EVar "g_abab") [SV "o"; SV "v"; SV "o"; SV "v"]); (EVar "l2_abab"); (EVar "t2_abab"); (EVar "t2_abab")]));
   (*L2496*) SAug true "doubles_res" (EScale (-1 # 4) (EEins "mbie,lkdc,aelk,dcmj->abij" [(ESlice (EVar "g_abab") [SV "o"; SV "v"; SV "o"; SV "v"]); (EVar "l2_abab"); (EVar "t2_abab"); (EVar "t2_abab")]));
   (*L2499*) SAug true "doubles_res" (EScale (-1 # 4) (EEins "mbie,lkcd,aelk,cdmj->abij" [(ESlice (EVar "g_abab") [SV "o"; SV "v"; SV "o"; SV "v"]); (EVar "l2_abab"); (EVar "t2_abab"); (EVar "t2_abab")]));
   (*L2502*) SAug true "doubles_res" (EScale (1 # 2) (EEins "amej,kldc,ebil,dckm->abij" [(ESlice (EVar "g_abab") [SV "v"; SV "o"; SV "v"; SV "o"]); (EVar "l2_abab"); (EVar "t2_abab"); (EVar "t2_abab")]));
   (*L2505*) SAug true "doubles_res" (EScale (1 # 2) (EEins "amej,klcd,ebil,cdkm->abij" [(ESlice (EVar "g_abab") [SV "v"; SV "o"; SV "v"; SV "o"]); (EVar "l2_abab"); (EVar "t2_abab"); (EVar "t2_abab")]));
   (*L2508*) SAug true "doubles_res" (EScale (1 # 2) (EEins "amej,kldc,ebil,dckm->abij" [(ESlice (EVar "g_abab") [SV "v"; SV "o"; SV "v"; SV "o"]); (EVar "l2_bbbb"); (EVar "t2_abab"); (EVar "t2_bbbb")]));
   (*L2511*) SAug true "doubles_res" (EScale (1 # 2) (EEins "mbej,kldc,eail,dckm->abij" [(ESlice (EVar "g_abab") [SV "o"; SV "v"; SV "v"; SV "o"]); (EVar "l2_aaaa"); (EVar "t2_aaaa"); (EVar "t2_aaaa")]));
   (*L2514*) SAug true "doubles_res" (EScale (-1 # 2) (EEins "mbej,kldc,aeil,dckm->abij" [(ESlice (EVar "g_bbbb") [SV "o"; SV "v"; SV "v"; SV "o"]); (EVar "l2_abab"); (EVar "t2_abab"); (EVar "t2_abab")]));
   (*L2517*) SAug true "doubles_res" (EScale (-1 # 2) (EEins "mbej,klcd,aeil,cdkm->abij" [(ESlice (EVar "g_bbbb") [SV "o"; SV "v"; SV "v"; SV "o"]); (EVar "l2_abab"); (EVar "t2_abab"); (EVar "t2_abab")]));
   (*L2520*) SAug true "doubles_res" (EScale (1 # 2) (EEins "mbej,lkdc,eail,dcmk->abij" [(ESlice (EVar "g_abab") [SV "o"; SV "v"; SV "v"; SV "o"]); (EVar "l2_abab"); (EVar "t2_aaaa"); (EVar "t2_abab")]));
   (*L2523*) SAug true "doubles_res" (EScale (1 # 2) (EEins "mbej,lkcd,eail,cdmk->abij" [(ESlice (EVar "g_abab") [SV "o"; SV "v"; SV "v"; SV "o"]); (EVar "l2_abab"); (EVar "t2_aaaa"); (EVar "t2_abab")]));
   (*L2526*) SAug true "doubles_res" (EScale (-1 # 2) (EEins "mbej,kldc,aeil,dckm->abij" [(ESlice (EVar "g_bbbb") [SV "o"; SV "v"; SV "v"; SV "o"]); (EVar "l2_bbbb"); (EVar "t2_abab"); (EVar "t2_bbbb")]));
   (*L2529*) SAug true "doubles_res" (EScale (-1 # 2) (EEins "maei,kldc,eblj,dckm->abij" [(ESlice (EVar "g_aaaa") [SV "o"; SV "v"; SV "v"; SV "o"]); (EVar "l2_aaaa"); (EVar "t2_abab"); (EVar "t2_aaaa")]));
   (*L2532*) SAug true "doubles_res" (EScale (1 # 2) (EEins "amie,kldc,ebjl,dckm->abij" [(ESlice (EVar "g_abab") [SV "v"; SV "o"; SV "o"; SV "v"]); (EVar "l2_abab"); (EVar "t2_bbbb"); (EVar "t2_abab")]));
   (*L2535*) SAug true "doubles_res" (EScale (1 # 2) (EEins "amie,klcd,ebjl,cdkm->abij" [(ESlice (EVar "g_abab") [SV "v"; SV "o"; SV "o"; SV "v"]); (EVar "l2_abab"); (EVar "t2_bbbb"); (EVar "t2_abab")]));
   (*L2538*) SAug true "doubles_res" (EScale (-1 # 2) (EEins "maei,lkdc,eblj,dcmk->abij" [(ESlice (EVar "g_aaaa") [SV "o"; SV "v"; SV "v"; SV "o"]); (EVar "l2_abab"); (EVar "t2_abab"); (EVar "t2_abab")]));
   (*L2541*) SAug true "doubles_res" (EScale (-1 # 2) (EEins "maei,lkcd,eblj,cdmk->abij" [(ESlice (EVar "g_aaaa") [SV "o"; SV "v"; SV "v"; SV "o"]); (EVar "l2_abab"); (EVar "t2_abab"); (EVar "t2_abab")]));
   (*L2544*) SAug true "doubles_res" (EScale (1 # 2) (EEins "amie,kldc,ebjl,dckm->abij" [(ESlice (EVar "g_abab") [SV "v"; SV "o"; SV "o"; SV "v"]); (EVar "l2_bbbb"); (EVar "t2_bbbb"); (EVar "t2_bbbb")]));
   (*L2547*) SAug true "doubles_res" (EScale (1 # 2) (EEins "mbie,kldc,aelj,dckm->abij" [(ESlice (EVar "g_abab") [SV "o"; SV "v"; SV "o"; SV "v"]); (EVar "l2_aaaa"); (EVar "t2_abab"); (EVar "t2_aaaa")]));
   (*L2550*) SAug true "doubles_res" (EScale (1 # 2) (EEins "mbie,lkdc,aelj,dcmk->abij" [(ESlice (EVar "g_abab") [SV "o"; SV "v"; SV "o"; SV "v"]); (EVar "l2_abab"); (EVar "t2_abab"); (EVar "t2_abab")]));
   (*L2553*) SAug true "doubles_res" (EScale (1 # 2) (EEins "mbie,lkcd,aelj,cdmk->abij" [(ESlice (EVar "g_abab") [SV "o"; SV "v"; SV "o"; SV "v"]); (EVar "l2_abab"); (EVar "t2_abab"); (EVar "t2_abab")]));
   (*L2556*) SAug true "doubles_res" (EScale (-1 # 4) (EEins "dcef,kldc,eakl,fbij->abij" [(ESlice (EVar "g_aaaa") [SV "v"; SV "v"; SV "v"; SV "v"]); (EVar "l2_aaaa"); (EVar "t2_aaaa"); (EVar "t2_abab")]));
   (*L2559*) SAug true "doubles_res" (EScale (-1 # 4) (EEins "dcfe,kldc,aekl,fbij->abij" [(ESlice (EVar "g_abab") [SV "v"; SV "v"; SV "v"; SV "v"]); (EVar "l2_abab"); (EVar "t2_abab"); (EVar "t2_abab")]));
   (*L2562*) SAug true "doubles_res" (EScale (-1 # 4) (EEins "cdfe,klcd,aekl,fbij->abij" [(ESlice (EVar "g_abab") [SV "v"; SV "v"; SV "v"; SV "v"]); (EVar "l2_abab"); (EVar "t2_abab"); (EVar "t2_abab")]));
   (*L2565*) SAug true "doubles_res" (EScale (-1 # 4) (EEins "dcfe,lkdc,aelk,fbij->abij" [(ESlice (EVar "g_abab") [SV "v"; SV "v"; SV "v"; SV "v"]); (EVar "l2_abab"); (EVar "t2_abab"); (EVar "t2_abab")]));
   (*L2568*) SAug true "doubles_res" (EScale (-1 # 4) (EEins "cdfe,lkcd,aelk,fbij->abij" [(ESlice (EVar "g_abab") [SV "v"; SV "v"; SV "v"; SV "v"]); (EVar "l2_abab"); (EVar "t2_abab"); (EVar "t2_abab")]));
   (*L2571*) SAug true "doubles_res" (EScale (1 # 2) (EEins "dcfe,lkdc,aelj,fbik->abij" [(ESlice (EVar "g_abab") [SV "v"; SV "v"; SV "v"; SV "v"]); (EVar "l2_abab"); (EVar "t2_abab"); (EVar "t2_abab")]));
   (*L2574*) SAug true "doubles_res" (EScale (1 # 2) (EEins "cdfe,lkcd,aelj,fbik->abij" [(ESlice (EVar "g_abab") [SV "v"; SV "v"; SV "v"; SV "v"]); (EVar "l2_abab"); (EVar "t2_abab"); (EVar "t2_abab")]));
   (*L2577*) SAug true "doubles_res" (EScale (1 # 2) (EEins "dcef,kldc,eail,fbkj->abij" [(ESlice (EVar "g_aaaa") [SV "v"; SV "v"; SV "v"; SV "v"]); (EVar "l2_aaaa"); (EVar "t2_aaaa"); (EVar "t2_abab")]));
   (*L2580*) SAug true "doubles_res" (EScale (1 # 2) (EEins "dcfe,kldc,aeil,fbkj->abij" [(ESlice (EVar "g_abab") [SV "v"; SV "v"; SV "v"; SV "v"]); (EVar "l2_abab"); (EVar "t2_abab"); (EVar "t2_abab")]));
   (*L2583*) SAug true "doubles_res" (EScale (1 # 2) (EEins "cdfe,klcd,aeil,fbkj->abij" [(ESlice (EVar "g_abab") [SV "v"; SV "v"; SV "v"; SV "v"]); (EVar "l2_abab"); (EVar "t2_abab"); (EVar "t2_abab")]));
   (*L2586*) SAug true "doubles_res" (EScale (1 # 2) (EEins "dcef,lkdc,eail,fbjk->abij" [(ESlice (EVar "g_abab") [SV "v"; SV "v"; SV "v"; SV "v"]); (EVar "l2_abab"); (EVar "t2_aaaa"); (EVar "t2_bbbb")]));
   (*L2589*) SAug true "doubles_res" (EScale (1 # 2) (EEins "cdef,lkcd,eail,fbjk->abij" [(ESlice (EVar "g_abab") [SV "v"; SV "v"; SV "v"; SV "v"]); (EVar "l2_abab"); (EVar "t2_aaaa"); (EVar "t2_bbbb")]));
   (*L2592*) SAug true "doubles_res" (EScale (1 # 2) (EEins "dcef,kldc,aeil,fbjk->abij" [(ESlice (EVar "g_bbbb") [SV "v"; SV "v"; SV "v"; SV "v"]); (EVar "l2_bbbb"); (EVar "t2_abab"); (EVar "t2_bbbb")]));
   (*L2595*) SAug true "doubles_res" (EScale (-1 # 4) (EEins "dcfe,kldc,aeij,fbkl->abij" [(ESlice (EVar "g_abab") [SV "v"; SV "v"; SV "v"; SV "v"]); (EVar "l2_abab"); (EVar "t2_abab"); (EVar "t2_abab")]));
   (*L2598*) SAug true "doubles_res" (EScale (-1 # 4) (EEins "cdfe,klcd,aeij,fbkl->abij" [(ESlice (EVar "g_abab") [SV "v"; SV "v"; SV "v"; SV "v"]); (EVar "l2_abab"); (EVar "t2_abab"); (EVar "t2_abab")]));
   (*L2601*) SAug true "doubles_res" (EScale (-1 # 4) (EEins "dcfe,lkdc,aeij,fblk->abij" [(ESlice (EVar "g_abab") [SV "v"; SV "v"; SV "v"; SV "v"]); (EVar "l2_abab"); (EVar "t2_abab"); (EVar "t2_abab")]));
   (*L2604*) SAug true "doubles_res" (EScale (-1 # 4) (EEins "cdfe,lkcd,aeij,fblk->abij" [(ESlice (EVar "g_abab") [SV "v"; SV "v"; SV "v"; SV "v"]); (EVar "l2_abab"); (EVar "t2_abab"); (EVar "t2_abab")]));
   (*L2607*) SAug true "doubles_res" (EScale (1 # 4) (EEins "dcef,kldc,aeij,fbkl->abij" [(ESlice (EVar "g_bbbb") [SV "v"; SV "v"; SV "v"; SV "v"]); (EVar "l2_bbbb"); (EVar "t2_abab"); (EVar "t2_bbbb")]));
   (*L2610*) SAug true "doubles_res" (EScale (1 # 2) (EEins "daef,kldc,eckl,fbij->abij" [(ESlice (EVar "g_aaaa") [SV "v"; SV "v"; SV "v"; SV "v"]); (EVar "l2_aaaa"); (EVar "t2_aaaa"); (EVar "t2_abab")]));
   (*L2613*) SAug true "doubles_res" (EScale (1 # 2) (EEins "daef,kldc,eckl,fbij->abij" [(ESlice (EVar "g_aaaa") [SV "v"; SV "v"; SV "v"; SV "v"]); (EVar "l2_abab"); (EVar "t2_abab"); (EVar "t2_abab")]));
   (*L2616*) SAug true "doubles_res" (EScale (1 # 2) (EEins "adfe,klcd,cekl,fbij->abij" [(ESlice (EVar "g_abab") [SV "v"; SV "v"; SV "v"; SV "v"]); (EVar "l2_abab"); (EVar "t2_abab"); (EVar "t2_abab")]));
   (*L2619*) SAug true "doubles_res" (EScale (1 # 2) (EEins "daef,lkdc,eclk,fbij->abij" [(ESlice (EVar "g_aaaa") [SV "v"; SV "v"; SV "v"; SV "v"]); (EVar "l2_abab"); (EVar "t2_abab"); (EVar "t2_abab")]));
   (*L2622*) SAug true "doubles_res" (EScale (1 # 2) (EEins "adfe,lkcd,celk,fbij->abij" [(ESlice (EVar "g_abab") [SV "v"; SV "v"; SV "v"; SV "v"]); (EVar "l2_abab"); (EVar "t2_abab"); (EVar "t2_abab")]));
   (*L2625*) SAug true "doubles_res" (EScale (1 # 2) (EEins "adfe,kldc,eckl,fbij->abij" [(ESlice (EVar "g_abab") [SV "v"; SV "v"; SV "v"; SV "v"]); (EVar "l2_bbbb"); (EVar "t2_bbbb"); (EVar "t2_abab")]));
   (*L2628*) SAug true "doubles_res" (EScale (1 # 2) (EEins "dbef,kldc,eckl,afij->abij" [(ESlice (EVar "g_abab") [SV "v"; SV "v"; SV "v"; SV "v"]); (EVar "l2_aaaa"); (EVar "t2_aaaa"); (EVar "t2_abab")]));
   (*L2631*) SAug true "doubles_res" (EScale (1 # 2) (EEins "dbef,kldc,eckl,afij->abij" [(ESlice (EVar "g_abab") [SV "v"; SV "v"; SV "v"; SV "v"]); (EVar "l2_abab"); (EVar "t2_abab"); (EVar "t2_abab")]));
   (*L2634*) SAug true "doubles_res" (EScale (1 # 2) (EEins "dbef,klcd,cekl,afij->abij" [(ESlice (EVar "g_bbbb") [SV "v"; SV "v"; SV "v"; SV "v"]); (EVar "l2_abab"); (EVar "t2_abab"); (EVar "t2_abab")]));
   (*L2637*) SAug true "doubles_res" (EScale (1 # 2) (EEins "dbef,lkdc,eclk,afij->abij" [(ESlice (EVar "g_abab") [SV "v"; SV "v"; SV "v"; SV "v"]); (EVar "l2_abab"); (EVar "t2_abab"); (EVar "t2_abab")]));
   (*L2640*) SAug true "doubles_res" (EScale (1 # 2) (EEins "dbef,lkcd,celk,afij->abij" [(ESlice (EVar "g_bbbb") [SV "v"; SV "v"; SV "v"; SV "v"]); (EVar "l2_abab"); (EVar "t2_abab"); (EVar "t2_abab")]));
   (*L2643*) SAug true "doubles_res" (EScale (1 # 2) (EEins "dbef,kldc,eckl,afij->abij" [(ESlice (EVar "g_bbbb") [SV "v"; SV "v"; SV "v"; SV "v"]); (EVar "l2_bbbb"); (EVar "t2_bbbb"); (EVar "t2_abab")]));
   (*L2646*) SAug true "doubles_res" (EScale (-1 # 1) (EEins "daef,lkdc,eclj,fbik->abij" [(ESlice (EVar "g_aaaa") [SV "v"; SV "v"; SV "v"; SV "v"]); (EVar "l2_abab"); (EVar "t2_abab"); (EVar "t2_abab")]));
   (*L2649*) SAug true "doubles_res" (EScale (-1 # 1) (EEins "adfe,lkcd,celj,fbik->abij" [(ESlice (EVar "g_abab") [SV "v"; SV "v"; SV "v"; SV "v"]); (EVar "l2_abab"); (EVar "t2_abab"); (EVar "t2_abab")]));
   (*L2652*) SAug true "doubles_res" (EScale (-1 # 1) (EEins "adfe,kldc,ecjl,fbik->abij" [(ESlice (EVar "g_abab") [SV "v"; SV "v"; SV "v"; SV "v"]); (EVar "l2_bbbb"); (EVar "t2_bbbb"); (EVar "t2_abab")]));
   (*L2655*) SAug true "doubles_res" (EScale (-1 # 1) (EEins "dbfe,kldc,celj,faik->abij" [(ESlice (EVar "g_abab") [SV "v"; SV "v"; SV "v"; SV "v"]); (EVar "l2_aaaa"); (EVar "t2_abab"); (EVar "t2_aaaa")]));
   (*L2658*) SAug true "doubles_res" (EScale (-1 # 1) (EEins "dbfe,kldc,ecjl,faik->abij" [(ESlice (EVar "g_abab") [SV "v"; SV "v"; SV "v"; SV "v"]); (EVar "l2_abab"); (EVar "t2_bbbb"); (EVar "t2_aaaa")]));
   (*L2661*) SAug true "doubles_res" (EScale (-1 # 1) (EEins "dbef,lkdc,eclj,afik->abij" [(ESlice (EVar "g_abab") [SV "v"; SV "v"; SV "v"; SV "v"]); (EVar "l2_abab"); (EVar "t2_abab"); (EVar "t2_abab")]));
   (*L2664*) SAug true "doubles_res" (EScale (-1 # 1) (EEins "dbef,lkcd,celj,afik->abij" [(ESlice (EVar "g_bbbb") [SV "v"; SV "v"; SV "v"; SV "v"]); (EVar "l2_abab"); (EVar "t2_abab"); (EVar "t2_abab")]));
   (*L2667*) SAug true "doubles_res" (EScale (-1 # 1) (EEins "dbef,kldc,ecjl,afik->abij" [(ESlice (EVar "g_bbbb") [SV "v"; SV "v"; SV "v"; SV "v"]); (EVar "l2_bbbb"); (EVar "t2_bbbb"); (EVar "t2_abab")]));
   (*L2670*) SAug true "doubles_res" (EScale (-1 # 1) (EEins "daef,kldc,ecil,fbkj->abij" [(ESlice (EVar "g_aaaa") [SV "v"; SV "v"; SV "v"; SV "v"]); (EVar "l2_aaaa"); (EVar "t2_aaaa"); (EVar "t2_abab")]));
   (*L2673*) SAug true "doubles_res" (EScale (-1 # 1) (EEins "daef,kldc,ecil,fbkj->abij" [(ESlice (EVar "g_aaaa") [SV "v"; SV "v"; SV "v"; SV "v"]); (EVar "l2_abab"); (EVar "t2_abab"); (EVar "t2_abab")]));
   (*L2676*) SAug true "doubles_res" (EScale (-1 # 1) (EEins "adfe,klcd,ceil,fbkj->abij" [(ESlice (EVar "g_abab") [SV "v"; SV "v"; SV "v"; SV "v"]); (EVar "l2_abab"); (EVar "t2_abab"); (EVar "t2_abab")]));
   (*L2679*) SAug true "doubles_res" (EScale (-1 # 1) (EEins "adef,lkcd,ecil,fbjk->abij" [(ESlice (EVar "g_abab") [SV "v"; SV "v"; SV "v"; SV "v"]); (EVar "l2_abab"); (EVar "t2_aaaa"); (EVar "t2_bbbb")]));
   (*L2682*) SAug true "doubles_res" (EScale (-1 # 1) (EEins "adef,kldc,ecil,fbjk->abij" [(ESlice (EVar "g_abab") [SV "v"; SV "v"; SV "v"; SV "v"]); (EVar "l2_bbbb"); (EVar "t2_abab"); (EVar "t2_bbbb")]));
   (*L2685*) SAug true "doubles_res" (EScale (-1 # 1) (EEins "dbef,kldc,ecil,afkj->abij" [(ESlice (EVar "g_abab") [SV "v"; SV "v"; SV "v"; SV "v"]); (EVar "l2_aaaa"); (EVar "t2_aaaa"); (EVar "t2_abab")]));
   (*L2688*) SAug true "doubles_res" (EScale (-1 # 1) (EEins "dbef,kldc,ecil,afkj->abij" [(ESlice (EVar "g_abab") [SV "v"; SV "v"; SV "v"; SV "v"]); (EVar "l2_abab"); (EVar "t2_abab"); (EVar "t2_abab")]));
   (*L2691*) SAug true "doubles_res" (EScale (-1 # 1) (EEins "dbef,klcd,ceil,afkj->abij" [(ESlice (EVar "g_bbbb") [SV "v"; SV "v"; SV "v"; SV "v"]); (EVar "l2_abab"); (EVar "t2_abab"); (EVar "t2_abab")]));
   (*L2694*) SAug true "doubles_res" (EScale (1 # 2) (EEins "daef,kldc,ecij,fbkl->abij" [(ESlice (EVar "g_aaaa") [SV "v"; SV "v"; SV "v"; SV "v"]); (EVar "l2_abab"); (EVar "t2_abab"); (EVar "t2_abab")]));
   (*L2697*) SAug true "doubles_res" (EScale (1 # 2) (EEins "adfe,klcd,ceij,fbkl->abij" [(ESlice (EVar "g_abab") [SV "v"; SV "v"; SV "v"; SV "v"]); (EVar "l2_abab"); (EVar "t2_abab"); (EVar "t2_abab")]));
   (*L2700*) SAug true "doubles_res" (EScale (1 # 2) (EEins "daef,lkdc,ecij,fblk->abij" [(ESlice (EVar "g_aaaa") [SV "v"; SV "v"; SV "v"; SV "v"]); (EVar "l2_abab"); (EVar "t2_abab"); (EVar "t2_abab")]));
   (*L2703*) SAug true "doubles_res" (EScale (1 # 2) (EEins "adfe,lkcd,ceij,fblk->abij" [(ESlice (EVar "g_abab") [SV "v"; SV "v"; SV "v"; SV "v"]); (EVar "l2_abab"); (EVar "t2_abab"); (EVar "t2_abab")]));
   (*L2706*) SAug true "doubles_res" (EScale (-1 # 2) (EEins "adef,kldc,ecij,fbkl->abij" [(ESlice (EVar "g_abab") [SV "v"; SV "v"; SV "v"; SV "v"]); (EVar "l2_bbbb"); (EVar "t2_abab"); (EVar "t2_bbbb")]));
   (*L2709*) SAug true "doubles_res" (EScale (-1 # 2) (EEins "dbfe,kldc,ceij,fakl->abij" [(ESlice (EVar "g_abab") [SV "v"; SV "v"; SV "v"; SV "v"]); (EVar "l2_aaaa"); (EVar "t2_abab"); (EVar "t2_aaaa")]));
   (*L2712*) SAug true "doubles_res" (EScale (1 # 2) (EEins "dbef,kldc,ecij,afkl->abij" [(ESlice (EVar "g_abab") [SV "v"; SV "v"; SV "v"; SV "v"]); (EVar "l2_abab"); (EVar "t2_abab"); (EVar "t2_abab")]));
   (*L2715*) SAug true "doubles_res" (EScale (1 # 2) (EEins "dbef,klcd,ceij,afkl->abij" [(ESlice (EVar "g_bbbb") [SV "v"; SV "v"; SV "v"; SV "v"]); (EVar "l2_abab"); (EVar "t2_abab"); (EVar "t2_abab")]));
   (*L2718*) SAug true "doubles_res" (EScale (1 # 2) (EEins "dbef,lkdc,ecij,aflk->abij" [(ESlice (EVar "g_abab") [SV "v"; SV "v"; SV "v"; SV "v"]); (EVar "l2_abab"); (EVar "t2_abab"); (EVar "t2_abab")]));
   (*L2721*) SAug true "doubles_res" (EScale (1 # 2) (EEins "dbef,lkcd,ceij,aflk->abij" [(ESlice (EVar "g_bbbb") [SV "v"; SV "v"; SV "v"; SV "v"]); (EVar "l2_abab"); (EVar "t2_abab"); (EVar "t2_abab")]));
   (*L2724*) SAug true "doubles_res" (EScale (1 # 2) (EEins "abef,kldc,edkl,cfij->abij" [(ESlice (EVar "g_abab") [SV "v"; SV "v"; SV "v"; SV "v"]); (EVar "l2_aaaa"); (EVar "t2_aaaa"); (EVar "t2_abab")]));
   (*L2727*) SAug true "doubles_res" (EScale (-1 # 2) (EEins "abfe,kldc,dekl,fcij->abij" [(ESlice (EVar "g_abab") [SV "v"; SV "v"; SV "v"; SV "v"]); (EVar "l2_abab"); (EVar "t2_abab"); (EVar "t2_abab")]));
   (*L2730*) SAug true "doubles_res" (EScale (-1 # 2) (EEins "abef,klcd,edkl,cfij->abij" [(ESlice (EVar "g_abab") [SV "v"; SV "v"; SV "v"; SV "v"]); (EVar "l2_abab"); (EVar "t2_abab"); (EVar "t2_abab")]));
   (*L2733*) SAug true "doubles_res" (EScale (-1 # 2) (EEins "abfe,lkdc,delk,fcij->abij" [(ESlice (EVar "g_abab") [SV "v"; SV "v"; SV "v"; SV "v"]); (EVar "l2_abab"); (EVar "t2_abab"); (EVar "t2_abab")]));
   (*L2736*) SAug true "doubles_res" (EScale (-1 # 2) (EEins "abef,lkcd,edlk,cfij->abij" [(ESlice (EVar "g_abab") [SV "v"; SV "v"; SV "v"; SV "v"]); (EVar "l2_abab"); (EVar "t2_abab"); (EVar "t2_abab")]));
   (*L2739*) SAug true "doubles_res" (EScale (1 # 2) (EEins "abfe,kldc,edkl,fcij->abij" [(ESlice (EVar "g_abab") [SV "v"; SV "v"; SV "v"; SV "v"]); (EVar "l2_bbbb"); (EVar "t2_bbbb"); (EVar "t2_abab")]));
   (*L2742*) SAug true "doubles_res" (EScale (-1 # 2) (EEins "abfe,kldc,delj,fcik->abij" [(ESlice (EVar "g_abab") [SV "v"; SV "v"; SV "v"; SV "v"]); (EVar "l2_aaaa"); (EVar "t2_abab"); (EVar "t2_aaaa")]));
   (*L2745*) SAug true "doubles_res" (EScale (1 # 2) (EEins "abfe,klcd,edjl,fcik->abij" [(ESlice (EVar "g_abab") [SV "v"; SV "v"; SV "v"; SV "v"]); (EVar "l2_abab"); (EVar "t2_bbbb"); (EVar "t2_aaaa")]));
   (*L2748*) SAug true "doubles_res" (EScale (1 # 2) (EEins "abfe,lkdc,delj,fcik->abij" [(ESlice (EVar "g_abab") [SV "v"; SV "v"; SV "v"; SV "v"]); (EVar "l2_abab"); (EVar "t2_abab"); (EVar "t2_abab")]));
   (*L2751*) SAug true "doubles_res" (EScale (1 # 2) (EEins "abef,lkcd,edlj,cfik->abij" [(ESlice (EVar "g_abab") [SV "v"; SV "v"; SV "v"; SV "v"]); (EVar "l2_abab"); (EVar "t2_abab"); (EVar "t2_abab")]));
   (*L2754*) SAug true "doubles_res" (EScale (-1 # 2) (EEins "abfe,kldc,edjl,fcik->abij" [(ESlice (EVar "g_abab") [SV "v"; SV "v"; SV "v"; SV "v"]); (EVar "l2_bbbb"); (EVar "t2_bbbb"); (EVar "t2_abab")]));
   (*L2757*) SAug true "doubles_res" (EScale (-1 # 2) (EEins "abef,kldc,edil,cfkj->abij" [(ESlice (EVar "g_abab") [SV "v"; SV "v"; SV "v"; SV "v"]); (EVar "l2_aaaa"); (EVar "t2_aaaa"); (EVar "t2_abab")]));
   (*L2760*) SAug true "doubles_res" (EScale (1 # 2) (EEins "abfe,kldc,deil,fckj->abij" [(ESlice (EVar "g_abab") [SV "v"; SV "v"; SV "v"; SV "v"]); (EVar "l2_abab"); (EVar "t2_abab"); (EVar "t2_abab")]));
   (*L2763*) SAug true "doubles_res" (EScale (1 # 2) (EEins "abef,klcd,edil,cfkj->abij" [(ESlice (EVar "g_abab") [SV "v"; SV "v"; SV "v"; SV "v"]); (EVar "l2_abab"); (EVar "t2_abab"); (EVar "t2_abab")]));
   (*L2766*) SAug true "doubles_res" (EScale (1 # 2) (EEins "abef,lkdc,edil,fcjk->abij" [(ESlice (EVar "g_abab") [SV "v"; SV "v"; SV "v"; SV "v"]); (EVar "l2_abab"); (EVar "t2_aaaa"); (EVar "t2_bbbb")]));
   (*L2769*) SAug true "doubles_res" (EScale (-1 # 2) (EEins "abef,kldc,edil,fcjk->abij" [(ESlice (EVar "g_abab") [SV "v"; SV "v"; SV "v"; SV "v"]); (EVar "l2_bbbb"); (EVar "t2_abab"); (EVar "t2_bbbb")]));
   (*L2772*) SAug true "doubles_res" (EScale (-1 # 2) (EEins "mdkl,kldc,cabimj->abij" [(ESlice (EVar "g_aaaa") [SV "o"; SV "v"; SV "o"; SV "o"]); (EVar "l2_aaaa"); (EVar "t3_aabaab")]));
   (*L2775*) SAug true "doubles_res" (EScale (1 # 2) (EEins "dmkl,kldc,acbijm->abij" [(ESlice (EVar "g_abab") [SV "v"; SV "o"; SV "o"; SV "o"]); (EVar "l2_abab"); (EVar "t3_abbabb")]));
   (*L2778*) SAug true "doubles_res" (EScale (1 # 2) (EEins "mdkl,klcd,cabimj->abij" [(ESlice (EVar "g_abab") [SV "o"; SV "v"; SV "o"; SV "o"]); (EVar "l2_abab"); (EVar "t3_aabaab")]));
   (*L2781*) SAug true "doubles_res" (EScale (1 # 2) (EEins "dmlk,lkdc,acbijm->abij" [(ESlice (EVar "g_abab") [SV "v"; SV "o"; SV "o"; SV "o"]); (EVar "l2_abab"); (EVar "t3_abbabb")]));
   (*L2784*) SAug true "doubles_res" (EScale (1 # 2) (EEins "mdlk,lkcd,cabimj->abij" [(ESlice (EVar "g_abab") [SV "o"; SV "v"; SV "o"; SV "o"]); (EVar "l2_abab"); (EVar "t3_aabaab")]));
   (*L2787*) SAug true "doubles_res" (EScale (-1 # 2) (EEins "mdkl,kldc,acbijm->abij" [(ESlice (EVar "g_bbbb") [SV "o"; SV "v"; SV "o"; SV "o"]); (EVar "l2_bbbb"); (EVar "t3_abbabb")]));
   (*L2790*) SAug true "doubles_res" (EScale (-1 # 1) (EEins "dmlj,kldc,cabikm->abij" [(ESlice (EVar "g_abab") [SV "v"; SV "o"; SV "o"; SV "o"]); (EVar "l2_aaaa"); (EVar "t3_aabaab")]));
   (*L2793*) SAug true "doubles_res" (EScale (1 # 1) (EEins "mdjl,klcd,cabikm->abij" [(ESlice (EVar "g_bbbb") [SV "o"; SV "v"; SV "o"; SV "o"]); (EVar "l2_abab"); (EVar "t3_aabaab")]));
   (*L2796*) SAug true "doubles_res" (EScale (-1 # 1) (EEins "dmlj,lkdc,acbikm->abij" [(ESlice (EVar "g_abab") [SV "v"; SV "o"; SV "o"; SV "o"]); (EVar "l2_abab"); (EVar "t3_abbabb")]));
   (*L2799*) SAug true "doubles_res" (EScale (-1 # 1) (EEins "mdlj,lkcd,cabimk->abij" [(ESlice (EVar "g_abab") [SV "o"; SV "v"; SV "o"; SV "o"]); (EVar "l2_abab"); (EVar "t3_aabaab")]));
   (*L2802*) SAug true "doubles_res" (EScale (1 # 1) (EEins "mdjl,kldc,acbikm->abij" [(ESlice (EVar "g_bbbb") [SV "o"; SV "v"; SV "o"; SV "o"]); (EVar "l2_bbbb"); (EVar "t3_abbabb")]));
   (*L2805*) SAug true "doubles_res" (EScale (-1 # 1) (EEins "mdil,kldc,cabmkj->abij" [(ESlice (EVar "g_aaaa") [SV "o"; SV "v"; SV "o"; SV "o"]); (EVar "l2_aaaa"); (EVar "t3_aabaab")]));
   (*L2808*) SAug true "doubles_res" (EScale (-1 # 1) (EEins "dmil,kldc,acbkjm->abij" [(ESlice (EVar "g_abab") [SV "v"; SV "o"; SV "o"; SV "o"]); (EVar "l2_abab"); (EVar "t3_abbabb")]));
   (*L2811*) SAug true "doubles_res" (EScale (1 # 1) (EEins "mdil,klcd,cabmkj->abij" [(ESlice (EVar "g_abab") [SV "o"; SV "v"; SV "o"; SV "o"]); (EVar "l2_abab"); (EVar "t3_aabaab")]));
   (*L2814*) SAug true "doubles_res" (EScale (-1 # 1) (EEins "mdil,lkdc,acbmkj->abij" [(ESlice (EVar "g_aaaa") [SV "o"; SV "v"; SV "o"; SV "o"]); (EVar "l2_abab"); (EVar "t3_abbabb")]));
   (*L2817*) SAug true "doubles_res" (EScale (1 # 1) (EEins "mdil,kldc,acbmkj->abij" [(ESlice (EVar "g_abab") [SV "o"; SV "v"; SV "o"; SV "o"]); (EVar "l2_bbbb"); (EVar "t3_abbabb")]));
   (*L2820*) SAug true "doubles_res" (EScale (-1 # 2) (EEins "dmij,kldc,cabklm->abij" [(ESlice (EVar "g_abab") [SV "v"; SV "o"; SV "o"; SV "o"]); (EVar "l2_aaaa"); (EVar "t3_aabaab")]));
   (*L2823*) SAug true "doubles_res" (EScale (1 # 2) (EEins "dmij,kldc,acbklm->abij" [(ESlice (EVar "g_abab") [SV "v"; SV "o"; SV "o"; SV "o"]); (EVar "l2_abab"); (EVar "t3_abbabb")]));
   (*L2826*) SAug true "doubles_res" (EScale (1 # 2) (EEins "mdij,klcd,cabkml->abij" [(ESlice (EVar "g_abab") [SV "o"; SV "v"; SV "o"; SV "o"]); (EVar "l2_abab"); (EVar "t3_aabaab")]));
   (*L2829*) SAug true "doubles_res" (EScale (1 # 2) (EEins "dmij,lkdc,acblkm->abij" [(ESlice (EVar "g_abab") [SV "v"; SV "o"; SV "o"; SV "o"]); (EVar "l2_abab"); (EVar "t3_abbabb")]));
   (*L2832*) SAug true "doubles_res" (EScale (-1 # 2) (EEins "mdij,lkcd,cabmlk->abij" [(ESlice (EVar "g_abab") [SV "o"; SV "v"; SV "o"; SV "o"]); (EVar "l2_abab"); (EVar "t3_aabaab")]));
   (*L2835*) SAug true "doubles_res" (EScale (1 # 2) (EEins "mdij,kldc,acbmlk->abij" [(ESlice (EVar "g_abab") [SV "o"; SV "v"; SV "o"; SV "o"]); (EVar "l2_bbbb"); (EVar "t3_abbabb")]));
   (*L2838*) SAug true "doubles_res" (EScale (-1 # 4) (EEins "makl,kldc,dcbimj->abij" [(ESlice (EVar "g_aaaa") [SV "o"; SV "v"; SV "o"; SV "o"]); (EVar "l2_aaaa"); (EVar "t3_aabaab")]));
   (*L2841*) SAug true "doubles_res" (EScale (-1 # 4) (EEins "amkl,kldc,dcbijm->abij" [(ESlice (EVar "g_abab") [SV "v"; SV "o"; SV "o"; SV "o"]); (EVar "l2_abab"); (EVar "t3_abbabb")]));
   (*L2844*) SAug true "doubles_res" (EScale (-1 # 4) (EEins "amkl,klcd,cdbijm->abij" [(ESlice (EVar "g_abab") [SV "v"; SV "o"; SV "o"; SV "o"]); (EVar "l2_abab"); (EVar "t3_abbabb")]));
   (*L2847*) SAug true "doubles_res" (EScale (-1 # 4) (EEins "amlk,lkdc,dcbijm->abij" [(ESlice (EVar "g_abab") [SV "v"; SV "o"; SV "o"; SV "o"]); (EVar "l2_abab"); (EVar "t3_abbabb")]));
   (*L2850*) SAug true "doubles_res" (EScale (-1 # 4) (EEins "amlk,lkcd,cdbijm->abij" [(ESlice (EVar "g_abab") [SV "v"; SV "o"; SV "o"; SV "o"]); (EVar "l2_abab"); (EVar "t3_abbabb")]));
   (*L2853*) SAug true "doubles_res" (EScale (-1 # 4) (EEins "mbkl,kldc,dacimj->abij" [(ESlice (EVar "g_abab") [SV "o"; SV "v"; SV "o"; SV "o"]); (EVar "l2_abab"); (EVar "t3_aabaab")]));
   (*L2856*) SAug true "doubles_res" (EScale (1 # 4) (EEins "mbkl,klcd,acdimj->abij" [(ESlice (EVar "g_abab") [SV "o"; SV "v"; SV "o"; SV "o"]); (EVar "l2_abab"); (EVar "t3_aabaab")]));
   (*L2859*) SAug true "doubles_res" (EScale (-1 # 4) (EEins "mblk,lkdc,dacimj->abij" [(ESlice (EVar "g_abab") [SV "o"; SV "v"; SV "o"; SV "o"]); (EVar "l2_abab"); (EVar "t3_aabaab")]));
   (*L2862*) SAug true "doubles_res" (EScale (1 # 4) (EEins "mblk,lkcd,acdimj->abij" [(ESlice (EVar "g_abab") [SV "o"; SV "v"; SV "o"; SV "o"]); (EVar "l2_abab"); (EVar "t3_aabaab")]));
   (*L2865*) SAug true "doubles_res" (EScale (1 # 4) (EEins "mbkl,kldc,acdijm->abij" [(ESlice (EVar "g_bbbb") [SV "o"; SV "v"; SV "o"; SV "o"]); (EVar "l2_bbbb"); (EVar "t3_abbabb")]));
   (*L2868*) SAug true "doubles_res" (EScale (-1 # 2) (EEins "amlj,kldc,dcbikm->abij" [(ESlice (EVar "g_abab") [SV "v"; SV "o"; SV "o"; SV "o"]); (EVar "l2_aaaa"); (EVar "t3_aabaab")]));
   (*L2871*) SAug true "doubles_res" (EScale (1 # 2) (EEins "amlj,lkdc,dcbikm->abij" [(ESlice (EVar "g_abab") [SV "v"; SV "o"; SV "o"; SV "o"]); (EVar "l2_abab"); (EVar "t3_abbabb")]));
   (*L2874*) SAug true "doubles_res" (EScale (1 # 2) (EEins "amlj,lkcd,cdbikm->abij" [(ESlice (EVar "g_abab") [SV "v"; SV "o"; SV "o"; SV "o"]); (EVar "l2_abab"); (EVar "t3_abbabb")]));
   (*L2877*) SAug true "doubles_res" (EScale (-1 # 2) (EEins "mblj,kldc,dcaikm->abij" [(ESlice (EVar "g_abab") [SV "o"; SV "v"; SV "o"; SV "o"]); (EVar "l2_aaaa"); (EVar "t3_aaaaaa")]));
   (*L2880*) SAug true "doubles_res" (EScale (-1 # 2) (EEins "mbjl,kldc,dacikm->abij" [(ESlice (EVar "g_bbbb") [SV "o"; SV "v"; SV "o"; SV "o"]); (EVar "l2_abab"); (EVar "t3_aabaab")]));
   (*L2883*) SAug true "doubles_res" (EScale (1 # 2) (EEins "mbjl,klcd,acdikm->abij" [(ESlice (EVar "g_bbbb") [SV "o"; SV "v"; SV "o"; SV "o"]); (EVar "l2_abab"); (EVar "t3_aabaab")]));
   (*L2886*) SAug true "doubles_res" (EScale (1 # 2) (EEins "mblj,lkdc,dacimk->abij" [(ESlice (EVar "g_abab") [SV "o"; SV "v"; SV "o"; SV "o"]); (EVar "l2_abab"); (EVar "t3_aabaab")]));
   (*L2889*) SAug true "doubles_res" (EScale (-1 # 2) (EEins "mblj,lkcd,acdimk->abij" [(ESlice (EVar "g_abab") [SV "o"; SV "v"; SV "o"; SV "o"]); (EVar "l2_abab"); (EVar "t3_aabaab")]));
   (*L2892*) SAug true "doubles_res" (EScale (-1 # 2) (EEins "mbjl,kldc,acdikm->abij" [(ESlice (EVar "g_bbbb") [SV "o"; SV "v"; SV "o"; SV "o"]); (EVar "l2_bbbb"); (EVar "t3_abbabb")]));
   (*L2895*) SAug true "doubles_res" (EScale (-1 # 2) (EEins "mail,kldc,dcbmkj->abij" [(ESlice (EVar "g_aaaa") [SV "o"; SV "v"; SV "o"; SV "o"]); (EVar "l2_aaaa"); (EVar "t3_aabaab")]));
   (*L2898*) SAug true "doubles_res" (EScale (1 # 2) (EEins "amil,kldc,dcbkjm->abij" [(ESlice (EVar "g_abab") [SV "v"; SV "o"; SV "o"; SV "o"]); (EVar "l2_abab"); (EVar "t3_abbabb")]));
   (*L2901*) SAug true "doubles_res" (EScale (1 # 2) (EEins "amil,klcd,cdbkjm->abij" [(ESlice (EVar "g_abab") [SV "v"; SV "o"; SV "o"; SV "o"]); (EVar "l2_abab"); (EVar "t3_abbabb")]));
   (*L2904*) SAug true "doubles_res" (EScale (1 # 2) (EEins "mail,lkdc,dcbmkj->abij" [(ESlice (EVar "g_aaaa") [SV "o"; SV "v"; SV "o"; SV "o"]); (EVar "l2_abab"); (EVar "t3_abbabb")]));
   (*L2907*) SAug true "doubles_res" (EScale (1 # 2) (EEins "mail,lkcd,cdbmkj->abij" [(ESlice (EVar "g_aaaa") [SV "o"; SV "v"; SV "o"; SV "o"]); (EVar "l2_abab"); (EVar "t3_abbabb")]));
   (*L2910*) SAug true "doubles_res" (EScale (-1 # 2) (EEins "amil,kldc,dcbjkm->abij" [(ESlice (EVar "g_abab") [SV "v"; SV "o"; SV "o"; SV "o"]); (EVar "l2_bbbb"); (EVar "t3_bbbbbb")]));
   (*L2913*) SAug true "doubles_res" (EScale (-1 # 2) (EEins "mbil,kldc,dacmkj->abij" [(ESlice (EVar "g_abab") [SV "o"; SV "v"; SV "o"; SV "o"]); (EVar "l2_abab"); (EVar "t3_aabaab")]));
   (*L2916*) SAug true "doubles_res" (EScale (1 # 2) (EEins "mbil,klcd,acdmkj->abij" [(ESlice (EVar "g_abab") [SV "o"; SV "v"; SV "o"; SV "o"]); (EVar "l2_abab"); (EVar "t3_aabaab")]));
   (*L2919*) SAug true "doubles_res" (EScale (-1 # 2) (EEins "mbil,kldc,acdmkj->abij" [(ESlice (EVar "g_abab") [SV "o"; SV "v"; SV "o"; SV "o"]); (EVar "l2_bbbb"); (EVar "t3_abbabb")]));
   (*L2922*) SAug true "doubles_res" (EScale (-1 # 4) (EEins "amij,kldc,dcbklm->abij" [(ESlice (EVar "g_abab") [SV "v"; SV "o"; SV "o"; SV "o"]); (EVar "l2_aaaa"); (EVar "t3_aabaab")]));
   (*L2925*) SAug true "doubles_res" (EScale (-1 # 4) (EEins "amij,kldc,dcbklm->abij" [(ESlice (EVar "g_abab") [SV "v"; SV "o"; SV "o"; SV "o"]); (EVar "l2_abab"); (EVar "t3_abbabb")]));
   (*L2928*) SAug true "doubles_res" (EScale (-1 # 4) (EEins "amij,klcd,cdbklm->abij" [(ESlice (EVar "g_abab") [SV "v"; SV "o"; SV "o"; SV "o"]); (EVar "l2_abab"); (EVar "t3_abbabb")]));
   (*L2931*) SAug true "doubles_res" (EScale (-1 # 4) (EEins "amij,lkdc,dcblkm->abij" [(ESlice (EVar "g_abab") [SV "v"; SV "o"; SV "o"; SV "o"]); (EVar "l2_abab"); (EVar "t3_abbabb")]));
   (*L2934*) SAug true "doubles_res" (EScale (-1 # 4) (EEins "amij,lkcd,cdblkm->abij" [(ESlice (EVar "g_abab") [SV "v"; SV "o"; SV "o"; SV "o"]); (EVar "l2_abab"); (EVar "t3_abbabb")]));
   (*L2937*) SAug true "doubles_res" (EScale (-1 # 4) (EEins "amij,kldc,dcbklm->abij" [(ESlice (EVar "g_abab") [SV "v"; SV "o"; SV "o"; SV "o"]); (EVar "l2_bbbb"); (EVar "t3_bbbbbb")]));
   (*L2940*) SAug true "doubles_res" (EScale (-1 # 4) (EEins "mbij,kldc,dcaklm->abij" [(ESlice (EVar "g_abab") [SV "o"; SV "v"; SV "o"; SV "o"]); (EVar "l2_aaaa"); (EVar "t3_aaaaaa")]));
   (*L2943*) SAug true "doubles_res" (EScale (-1 # 4) (EEins "mbij,kldc,dackml->abij" [(ESlice (EVar "g_abab") [SV "o"; SV "v"; SV "o"; SV "o"]); (EVar "l2_abab"); (EVar "t3_aabaab")]));
   (*L2946*) SAug true "doubles_res" (EScale (1 # 4) (EEins "mbij,klcd,acdkml->abij" [(ESlice (EVar "g_abab") [SV "o"; SV "v"; SV "o"; SV "o"]); (EVar "l2_abab"); (EVar "t3_aabaab")]));
   (*L2949*) SAug true "doubles_res" (EScale (1 # 4) (EEins "mbij,lkdc,dacmlk->abij" [(ESlice (EVar "g_abab") [SV "o"; SV "v"; SV "o"; SV "o"]); (EVar "l2_abab"); (EVar "t3_aabaab")]));
   (*L2952*) SAug true "doubles_res" (EScale (-1 # 4) (EEins "mbij,lkcd,acdmlk->abij" [(ESlice (EVar "g_abab") [SV "o"; SV "v"; SV "o"; SV "o"]); (EVar "l2_abab"); (EVar "t3_aabaab")]));
   (*L2955*) SAug true "doubles_res" (EScale (-1 # 4) (EEins "mbij,kldc,acdmlk->abij" [(ESlice (EVar "g_abab") [SV "o"; SV "v"; SV "o"; SV "o"]); (EVar "l2_bbbb"); (EVar "t3_abbabb")]));
   (*L2958*) SAug true "doubles_res" (EScale (-1 # 2) (EEins "dcel,kldc,eabikj->abij" [(ESlice (EVar "g_aaaa") [SV "v"; SV "v"; SV "v"; SV "o"]); (EVar "l2_aaaa"); (EVar "t3_aabaab")]));
   (*L2961*) SAug true "doubles_res" (EScale (-1 # 2) (EEins "dcel,kldc,eabikj->abij" [(ESlice (EVar "g_abab") [SV "v"; SV "v"; SV "v"; SV "o"]); (EVar "l2_abab"); (EVar "t3_aabaab")]));
   (*L2964*) SAug true "doubles_res" (EScale (-1 # 2) (EEins "cdel,klcd,eabikj->abij" [(ESlice (EVar "g_abab") [SV "v"; SV "v"; SV "v"; SV "o"]); (EVar "l2_abab"); (EVar "t3_aabaab")]));
   (*L2967*) SAug true "doubles_res" (EScale (-1 # 2) (EEins "dcle,lkdc,aebijk->abij" [(ESlice (EVar "g_abab") [SV "v"; SV "v"; SV "o"; SV "v"]); (EVar "l2_abab"); (EVar "t3_abbabb")]));
   (*L2970*) SAug true "doubles_res" (EScale (-1 # 2) (EEins "cdle,lkcd,aebijk->abij" [(ESlice (EVar "g_abab") [SV "v"; SV "v"; SV "o"; SV "v"]); (EVar "l2_abab"); (EVar "t3_abbabb")]));
   (*L2973*) SAug true "doubles_res" (EScale (-1 # 2) (EEins "dcel,kldc,aebijk->abij" [(ESlice (EVar "g_bbbb") [SV "v"; SV "v"; SV "v"; SV "o"]); (EVar "l2_bbbb"); (EVar "t3_abbabb")]));
   (*L2976*) SAug true "doubles_res" (EScale (1 # 4) (EEins "dcej,kldc,eabikl->abij" [(ESlice (EVar "g_abab") [SV "v"; SV "v"; SV "v"; SV "o"]); (EVar "l2_abab"); (EVar "t3_aabaab")]));
   (*L2979*) SAug true "doubles_res" (EScale (1 # 4) (EEins "cdej,klcd,eabikl->abij" [(ESlice (EVar "g_abab") [SV "v"; SV "v"; SV "v"; SV "o"]); (EVar "l2_abab"); (EVar "t3_aabaab")]));
   (*L2982*) SAug true "doubles_res" (EScale (1 # 4) (EEins "dcej,lkdc,eabilk->abij" [(ESlice (EVar "g_abab") [SV "v"; SV "v"; SV "v"; SV "o"]); (EVar "l2_abab"); (EVar "t3_aabaab")]));
   (*L2985*) SAug true "doubles_res" (EScale (1 # 4) (EEins "cdej,lkcd,eabilk->abij" [(ESlice (EVar "g_abab") [SV "v"; SV "v"; SV "v"; SV "o"]); (EVar "l2_abab"); (EVar "t3_aabaab")]));
   (*L2988*) SAug true "doubles_res" (EScale (-1 # 4) (EEins "dcej,kldc,aebikl->abij" [(ESlice (EVar "g_bbbb") [SV "v"; SV "v"; SV "v"; SV "o"]); (EVar "l2_bbbb"); (EVar "t3_abbabb")]));
   (*L2991*) SAug true "doubles_res" (EScale (1 # 4) (EEins "dcei,kldc,eablkj->abij" [(ESlice (EVar "g_aaaa") [SV "v"; SV "v"; SV "v"; SV "o"]); (EVar "l2_aaaa"); (EVar "t3_aabaab")]));
   (*L2994*) SAug true "doubles_res" (EScale (1 # 4) (EEins "dcie,kldc,aebkjl->abij" [(ESlice (EVar "g_abab") [SV "v"; SV "v"; SV "o"; SV "v"]); (EVar "l2_abab"); (EVar "t3_abbabb")]));
   (*L2997*) SAug true "doubles_res" (EScale (1 # 4) (EEins "cdie,klcd,aebkjl->abij" [(ESlice (EVar "g_abab") [SV "v"; SV "v"; SV "o"; SV "v"]); (EVar "l2_abab"); (EVar "t3_abbabb")]));
   (*L3000*) SAug true "doubles_res" (EScale (-1 # 4) (EEins "dcie,lkdc,aeblkj->abij" [(ESlice (EVar "g_abab") [SV "v"; SV "v"; SV "o"; SV "v"]); (EVar "l2_abab"); (EVar "t3_abbabb")]));
   (*L3003*) SAug true "doubles_res" (EScale (-1 # 4) (EEins "cdie,lkcd,aeblkj->abij" [(ESlice (EVar "g_abab") [SV "v"; SV "v"; SV "o"; SV "v"]); (EVar "l2_abab"); (EVar "t3_abbabb")]));
   (*L3006*) SAug true "doubles_res" (EScale (1 # 1) (EEins "dael,kldc,ecbikj->abij" [(ESlice (EVar "g_aaaa") [SV "v"; SV "v"; SV "v"; SV "o"]); (EVar "l2_aaaa"); (EVar "t3_aabaab")]));
   (*L3009*) SAug true "doubles_res" (EScale (1 # 1) (EEins "adel,klcd,ecbikj->abij" [(ESlice (EVar "g_abab") [SV "v"; SV "v"; SV "v"; SV "o"]); (EVar "l2_abab"); (EVar "t3_aabaab")]));
   (*L3012*) SAug true "doubles_res" (EScale (1 # 1) (EEins "dael,lkdc,ecbijk->abij" [(ESlice (EVar "g_aaaa") [SV "v"; SV "v"; SV "v"; SV "o"]); (EVar "l2_abab"); (EVar "t3_abbabb")]));
   (*L3015*) SAug true "doubles_res" (EScale (1 # 1) (EEins "adle,lkcd,cebijk->abij" [(ESlice (EVar "g_abab") [SV "v"; SV "v"; SV "o"; SV "v"]); (EVar "l2_abab"); (EVar "t3_abbabb")]));
   (*L3018*) SAug true "doubles_res" (EScale (1 # 1) (EEins "adel,kldc,ecbijk->abij" [(ESlice (EVar "g_abab") [SV "v"; SV "v"; SV "v"; SV "o"]); (EVar "l2_bbbb"); (EVar "t3_abbabb")]));
   (*L3021*) SAug true "doubles_res" (EScale (-1 # 1) (EEins "dble,kldc,aceikj->abij" [(ESlice (EVar "g_abab") [SV "v"; SV "v"; SV "o"; SV "v"]); (EVar "l2_aaaa"); (EVar "t3_aabaab")]));
   (*L3024*) SAug true "doubles_res" (EScale (1 # 1) (EEins "dbel,kldc,eacikj->abij" [(ESlice (EVar "g_abab") [SV "v"; SV "v"; SV "v"; SV "o"]); (EVar "l2_abab"); (EVar "t3_aabaab")]));
   (*L3027*) SAug true "doubles_res" (EScale (-1 # 1) (EEins "dbel,klcd,aceikj->abij" [(ESlice (EVar "g_bbbb") [SV "v"; SV "v"; SV "v"; SV "o"]); (EVar "l2_abab"); (EVar "t3_aabaab")]));
   (*L3030*) SAug true "doubles_res" (EScale (-1 # 1) (EEins "dble,lkdc,aceijk->abij" [(ESlice (EVar "g_abab") [SV "v"; SV "v"; SV "o"; SV "v"]); (EVar "l2_abab"); (EVar "t3_abbabb")]));
   (*L3033*) SAug true "doubles_res" (EScale (-1 # 1) (EEins "dbel,kldc,aceijk->abij" [(ESlice (EVar "g_bbbb") [SV "v"; SV "v"; SV "v"; SV "o"]); (EVar "l2_bbbb"); (EVar "t3_abbabb")]));
   (*L3036*) SAug true "doubles_res" (EScale (-1 # 2) (EEins "adej,klcd,ecbikl->abij" [(ESlice (EVar "g_abab") [SV "v"; SV "v"; SV "v"; SV "o"]); (EVar "l2_abab"); (EVar "t3_aabaab")]));
   (*L3039*) SAug true "doubles_res" (EScale (-1 # 2) (EEins "adej,lkcd,ecbilk->abij" [(ESlice (EVar "g_abab") [SV "v"; SV "v"; SV "v"; SV "o"]); (EVar "l2_abab"); (EVar "t3_aabaab")]));
   (*L3042*) SAug true "doubles_res" (EScale (1 # 2) (EEins "adej,kldc,ecbikl->abij" [(ESlice (EVar "g_abab") [SV "v"; SV "v"; SV "v"; SV "o"]); (EVar "l2_bbbb"); (EVar "t3_abbabb")]));
   (*L3045*) SAug true "doubles_res" (EScale (1 # 2) (EEins "dbej,kldc,ecaikl->abij" [(ESlice (EVar "g_abab") [SV "v"; SV "v"; SV "v"; SV "o"]); (EVar "l2_aaaa"); (EVar "t3_aaaaaa")]));
   (*L3048*) SAug true "doubles_res" (EScale (-1 # 2) (EEins "dbej,kldc,eacikl->abij" [(ESlice (EVar "g_abab") [SV "v"; SV "v"; SV "v"; SV "o"]); (EVar "l2_abab"); (EVar "t3_aabaab")]));
   (*L3051*) SAug true "doubles_res" (EScale (1 # 2) (EEins "dbej,klcd,aceikl->abij" [(ESlice (EVar "g_bbbb") [SV "v"; SV "v"; SV "v"; SV "o"]); (EVar "l2_abab"); (EVar "t3_aabaab")]));
   (*L3054*) SAug true "doubles_res" (EScale (-1 # 2) (EEins "dbej,lkdc,eacilk->abij" [(ESlice (EVar "g_abab") [SV "v"; SV "v"; SV "v"; SV "o"]); (EVar "l2_abab"); (EVar "t3_aabaab")]));
   (*L3057*) SAug true "doubles_res" (EScale (1 # 2) (EEins "dbej,lkcd,aceilk->abij" [(ESlice (EVar "g_bbbb") [SV "v"; SV "v"; SV "v"; SV "o"]); (EVar "l2_abab"); (EVar "t3_aabaab")]));
   (*L3060*) SAug true "doubles_res" (EScale (-1 # 2) (EEins "dbej,kldc,aceikl->abij" [(ESlice (EVar "g_bbbb") [SV "v"; SV "v"; SV "v"; SV "o"]); (EVar "l2_bbbb"); (EVar "t3_abbabb")]));
   (*L3063*) SAug true "doubles_res" (EScale (-1 # 2) (EEins "daei,kldc,ecblkj->abij" [(ESlice (EVar "g_aaaa") [SV "v"; SV "v"; SV "v"; SV "o"]); (EVar "l2_aaaa"); (EVar "t3_aabaab")]));
   (*L3066*) SAug true "doubles_res" (EScale (-1 # 2) (EEins "daei,kldc,ecbkjl->abij" [(ESlice (EVar "g_aaaa") [SV "v"; SV "v"; SV "v"; SV "o"]); (EVar "l2_abab"); (EVar "t3_abbabb")]));
   (*L3069*) SAug true "doubles_res" (EScale (-1 # 2) (EEins "adie,klcd,cebkjl->abij" [(ESlice (EVar "g_abab") [SV "v"; SV "v"; SV "o"; SV "v"]); (EVar "l2_abab"); (EVar "t3_abbabb")]));
   (*L3072*) SAug true "doubles_res" (EScale (1 # 2) (EEins "daei,lkdc,ecblkj->abij" [(ESlice (EVar "g_aaaa") [SV "v"; SV "v"; SV "v"; SV "o"]); (EVar "l2_abab"); (EVar "t3_abbabb")]));
   (*L3075*) SAug true "doubles_res" (EScale (1 # 2) (EEins "adie,lkcd,ceblkj->abij" [(ESlice (EVar "g_abab") [SV "v"; SV "v"; SV "o"; SV "v"]); (EVar "l2_abab"); (EVar "t3_abbabb")]));
   (*L3078*) SAug true "doubles_res" (EScale (1 # 2) (EEins "adie,kldc,ecbjkl->abij" [(ESlice (EVar "g_abab") [SV "v"; SV "v"; SV "o"; SV "v"]); (EVar "l2_bbbb"); (EVar "t3_bbbbbb")]));
   (*L3081*) SAug true "doubles_res" (EScale (1 # 2) (EEins "dbie,kldc,acelkj->abij" [(ESlice (EVar "g_abab") [SV "v"; SV "v"; SV "o"; SV "v"]); (EVar "l2_aaaa"); (EVar "t3_aabaab")]));
   (*L3084*) SAug true "doubles_res" (EScale (1 # 2) (EEins "dbie,kldc,acekjl->abij" [(ESlice (EVar "g_abab") [SV "v"; SV "v"; SV "o"; SV "v"]); (EVar "l2_abab"); (EVar "t3_abbabb")]));
   (*L3087*) SAug true "doubles_res" (EScale (-1 # 2) (EEins "dbie,lkdc,acelkj->abij" [(ESlice (EVar "g_abab") [SV "v"; SV "v"; SV "o"; SV "v"]); (EVar "l2_abab"); (EVar "t3_abbabb")]));
   (*L3090*) SAug true "doubles_res" (EScale (-1 # 2) (EEins "able,kldc,cdeikj->abij" [(ESlice (EVar "g_abab") [SV "v"; SV "v"; SV "o"; SV "v"]); (EVar "l2_aaaa"); (EVar "t3_aabaab")]));
   (*L3093*) SAug true "doubles_res" (EScale (-1 # 2) (EEins "abel,kldc,edcikj->abij" [(ESlice (EVar "g_abab") [SV "v"; SV "v"; SV "v"; SV "o"]); (EVar "l2_abab"); (EVar "t3_aabaab")]));
   (*L3096*) SAug true "doubles_res" (EScale (-1 # 2) (EEins "abel,klcd,ecdikj->abij" [(ESlice (EVar "g_abab") [SV "v"; SV "v"; SV "v"; SV "o"]); (EVar "l2_abab"); (EVar "t3_aabaab")]));
   (*L3099*) SAug true "doubles_res" (EScale (-1 # 2) (EEins "able,lkdc,decijk->abij" [(ESlice (EVar "g_abab") [SV "v"; SV "v"; SV "o"; SV "v"]); (EVar "l2_abab"); (EVar "t3_abbabb")]));
   (*L3102*) SAug true "doubles_res" (EScale (1 # 2) (EEins "able,lkcd,cdeijk->abij" [(ESlice (EVar "g_abab") [SV "v"; SV "v"; SV "o"; SV "v"]); (EVar "l2_abab"); (EVar "t3_abbabb")]));
   (*L3105*) SAug true "doubles_res" (EScale (1 # 2) (EEins "abel,kldc,edcijk->abij" [(ESlice (EVar "g_abab") [SV "v"; SV "v"; SV "v"; SV "o"]); (EVar "l2_bbbb"); (EVar "t3_abbabb")]));
   (*L3108*) SAug true "doubles_res" (EScale (1 # 4) (EEins "abej,kldc,edcikl->abij" [(ESlice (EVar "g_abab") [SV "v"; SV "v"; SV "v"; SV "o"]); (EVar "l2_aaaa"); (EVar "t3_aaaaaa")]));
   (*L3111*) SAug true "doubles_res" (EScale (1 # 4) (EEins "abej,kldc,edcikl->abij" [(ESlice (EVar "g_abab") [SV "v"; SV "v"; SV "v"; SV "o"]); (EVar "l2_abab"); (EVar "t3_aabaab")]));
   (*L3114*) SAug true "doubles_res" (EScale (1 # 4) (EEins "abej,klcd,ecdikl->abij" [(ESlice (EVar "g_abab") [SV "v"; SV "v"; SV "v"; SV "o"]); (EVar "l2_abab"); (EVar "t3_aabaab")]));
   (*L3117*) SAug true "doubles_res" (EScale (1 # 4) (EEins "abej,lkdc,edcilk->abij" [(ESlice (EVar "g_abab") [SV "v"; SV "v"; SV "v"; SV "o"]); (EVar "l2_abab"); (EVar "t3_aabaab")]));
   (*L3120*) SAug true "doubles_res" (EScale (1 # 4) (EEins "abej,lkcd,ecdilk->abij" [(ESlice (EVar "g_abab") [SV "v"; SV "v"; SV "v"; SV "o"]); (EVar "l2_abab"); (EVar "t3_aabaab")]));
   (*L3123*) SAug true "doubles_res" (EScale (1 # 4) (EEins "abej,kldc,edcikl->abij" [(ESlice (EVar "g_abab") [SV "v"; SV "v"; SV "v"; SV "o"]); (EVar "l2_bbbb"); (EVar "t3_abbabb")]));
   (*L3126*) SAug true "doubles_res" (EScale (1 # 4) (EEins "abie,kldc,cdelkj->abij" [(ESlice (EVar "g_abab") [SV "v"; SV "v"; SV "o"; SV "v"]); (EVar "l2_aaaa"); (EVar "t3_aabaab")]));
   (*L3129*) SAug true "doubles_res" (EScale (1 # 4) (EEins "abie,kldc,deckjl->abij" [(ESlice (EVar "g_abab") [SV "v"; SV "v"; SV "o"; SV "v"]); (EVar "l2_abab"); (EVar "t3_abbabb")]));
   (*L3132*) SAug true "doubles_res" (EScale (-1 # 4) (EEins "abie,klcd,cdekjl->abij" [(ESlice (EVar "g_abab") [SV "v"; SV "v"; SV "o"; SV "v"]); (EVar "l2_abab"); (EVar "t3_abbabb")]));
   (*L3135*) SAug true "doubles_res" (EScale (-1 # 4) (EEins "abie,lkdc,declkj->abij" [(ESlice (EVar "g_abab") [SV "v"; SV "v"; SV "o"; SV "v"]); (EVar "l2_abab"); (EVar "t3_abbabb")]));
   (*L3138*) SAug true "doubles_res" (EScale (1 # 4) (EEins "abie,lkcd,cdelkj->abij" [(ESlice (EVar "g_abab") [SV "v"; SV "v"; SV "o"; SV "v"]); (EVar "l2_abab"); (EVar "t3_abbabb")]));
   (*L3141*) SAug true "doubles_res" (EScale (1 # 4) (EEins "abie,kldc,edcjkl->abij" [(ESlice (EVar "g_abab") [SV "v"; SV "v"; SV "o"; SV "v"]); (EVar "l2_bbbb"); (EVar "t3_bbbbbb")]))]
  (*L3143*) (EVar "doubles_res").
