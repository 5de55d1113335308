(** Generated by tools/transcribe.py from /repo/UT2/modify_T2resid_T4Qf1Slow.py; do not edit. *)
From Coq Require Import String List QArith.
From Verif Require Import Interp.
Import ListNotations.
Open Scope string_scope.

(** /repo/UT2/modify_T2resid_T4Qf1Slow.py:5-18  def unsym_residQf1 *)
Definition unsym_residQf1 : fn := mkFn
  ["g"; "t2_aa"; "o"; "v"; "nocc"; "nvir"]
  [(*L7*) SAssign "t" (ETransp (EVar "t2_aa") [2; 3; 0; 1]%nat);
   (*L9*) SAssign "g_occ" (ESlice (EVar "g") [SV "o"; SV "o"; SV "o"; SV "o"]);
   (*L10*) SAssign "g_ov" (ESlice (EVar "g") [SV "o"; SV "v"; SV "o"; SV "v"]);
   (*L11*) SAssign "g_virt" (ESlice (EVar "g") [SV "v"; SV "v"; SV "v"; SV "v"]);
   (*L12*) SAssign "Roooovvvv" (EScale (-1 # 16) (EEins "imab,jncd,klmn" [(EVar "t"); (EVar "t"); (EVar "g_occ")]));
   (*L14*) SAug true "Roooovvvv" (EScale (-1 # 4) (EEins "imab,jkce,lemd" [(EVar "t"); (EVar "t"); (EVar "g_ov")]));
   (*L15*) SAug true "Roooovvvv" (EScale (-1 # 16) (EEins "ijae,klbf,efcd" [(EVar "t"); (EVar "t"); (EVar "g_virt")]))]
  (*L18*) (EVar "Roooovvvv").

(** /repo/UT2/modify_T2resid_T4Qf1Slow.py:21-30  def unsym_residQf2 *)
Definition unsym_residQf2 : fn := mkFn
  ["g"; "t2_aa"; "o"; "v"; "nocc"; "nvir"]
  [(*L23*) SAssign "t" (ETransp (EVar "t2_aa") [2; 3; 0; 1]%nat);
   (*L24*) SAssign "g_ov" (ESlice (EVar "g") [SV "v"; SV "v"; SV "o"; SV "o"]);
   (*L27*) SAssign "Roooovvvv" (EScale (-1 # 32) (EEins "imab,jncd,klef,efmn" [(EVar "t"); (EVar "t"); (EVar "t"); (EVar "g_ov")]));
   (*L28*) SAug true "Roooovvvv" (EScale (1 # 4) (EEins "imab,jkce,lndf,efmn" [(EVar "t"); (EVar "t"); (EVar "t"); (EVar "g_ov")]));
   (*L29*) SAug true "Roooovvvv" (EScale (-1 # 32) (EEins "mnab,ijce,kldf,efmn" [(EVar "t"); (EVar "t"); (EVar "t"); (EVar "g_ov")]))]
  (*L30*) (EVar "Roooovvvv").

(** /repo/UT2/modify_T2resid_T4Qf1Slow.py:33-159  def residQf1_aaaa *)
Definition residQf1_aaaa : fn := mkFn
  ["g"; "l2"; "t2"; "o"; "v"]
  [(*L37*) SAssign "contracted_intermediate" (EScale (-1 # 4) (EEins "nmkl,kldc,dcjm,abin->abij" [(ESlice (EVar "g") [SV "o"; SV "o"; SV "o"; SV "o"]); (EVar "l2"); (EVar "t2"); (EVar "t2")]));
   (*L38*) SAssign "double_res" (EAdd (EScale (1 # 1) (EVar "contracted_intermediate")) (EScale (-1 # 1) (EEins "abij->abji" [(EVar "contracted_intermediate")])));
   (*L41*) SAssign "contracted_intermediate" (EScale (1 # 2) (EEins "nmkl,kldc,dajm,cbin->abij" [(ESlice (EVar "g") [SV "o"; SV "o"; SV "o"; SV "o"]); (EVar "l2"); (EVar "t2"); (EVar "t2")]));
   (*L42*) SAug true "double_res" (EAdd (EScale (1 # 1) (EVar "contracted_intermediate")) (EScale (-1 # 1) (EEins "abij->abji" [(EVar "contracted_intermediate")])));
   (*L45*) SAssign "contracted_intermediate" (EScale (1 # 2) (EEins "nmjl,kldc,dckm,abin->abij" [(ESlice (EVar "g") [SV "o"; SV "o"; SV "o"; SV "o"]); (EVar "l2"); (EVar "t2"); (EVar "t2")]));
   (*L46*) SAug true "double_res" (EAdd (EScale (1 # 1) (EVar "contracted_intermediate")) (EScale (-1 # 1) (EEins "abij->abji" [(EVar "contracted_intermediate")])));
   (*L49*) SAssign "contracted_intermediate" (EScale (-1 # 2) (EEins "nmjl,kldc,dcim,abkn->abij" [(ESlice (EVar "g") [SV "o"; SV "o"; SV "o"; SV "o"]); (EVar "l2"); (EVar "t2"); (EVar "t2")]));
   (*L50*) SAug true "double_res" (EAdd (EScale (1 # 1) (EVar "contracted_intermediate")) (EScale (-1 # 1) (EEins "abij->abji" [(EVar "contracted_intermediate")])));
   (*L53*) SAssign "contracted_intermediate" (EScale (-1 # 1) (EEins "nmjl,kldc,dakm,cbin->abij" [(ESlice (EVar "g") [SV "o"; SV "o"; SV "o"; SV "o"]); (EVar "l2"); (EVar "t2"); (EVar "t2")]));
   (*L54*) SAug true "double_res" (EAdd (EScale (1 # 1) (EVar "contracted_intermediate")) (EScale (-1 # 1) (EEins "abij->abji" [(EVar "contracted_intermediate")])));
   (*L57*) SAssign "contracted_intermediate" (EScale (1 # 1) (EEins "nmjl,kldc,daim,cbkn->abij" [(ESlice (EVar "g") [SV "o"; SV "o"; SV "o"; SV "o"]); (EVar "l2"); (EVar "t2"); (EVar "t2")]));
   (*L58*) SAug true "double_res" (EAdd (EScale (1 # 1) (EVar "contracted_intermediate")) (EScale (-1 # 1) (EEins "abij->abji" [(EVar "contracted_intermediate")])));
   (*L61*) SAug true "double_res" (EScale (-1 # 2) (EEins "nmij,kldc,dclm,abkn->abij" [(ESlice (EVar "g") [SV "o"; SV "o"; SV "o"; SV "o"]); (EVar "l2"); (EVar "t2"); (EVar "t2")]));
   (*L64*) SAssign "contracted_intermediate" (EScale (1 # 2) (EEins "nmij,kldc,dalm,cbkn->abij" [(ESlice (EVar "g") [SV "o"; SV "o"; SV "o"; SV "o"]); (EVar "l2"); (EVar "t2"); (EVar "t2")]));
   (*L65*) SAug true "double_res" (EAdd (EScale (1 # 1) (EVar "contracted_intermediate")) (EScale (-1 # 1) (EEins "abij->baij" [(EVar "contracted_intermediate")])));
   (*L68*) SAssign "contracted_intermediate" (EScale (1 # 1) (EEins "mdel,kldc,ecjk,abim->abij" [(ESlice (EVar "g") [SV "o"; SV "v"; SV "v"; SV "o"]); (EVar "l2"); (EVar "t2"); (EVar "t2")]));
   (*L69*) SAug true "double_res" (EAdd (EScale (1 # 1) (EVar "contracted_intermediate")) (EScale (-1 # 1) (EEins "abij->abji" [(EVar "contracted_intermediate")])));
   (*L72*) SAug true "double_res" (EScale (1 # 1) (EEins "mdel,kldc,ecij,abkm->abij" [(ESlice (EVar "g") [SV "o"; SV "v"; SV "v"; SV "o"]); (EVar "l2"); (EVar "t2"); (EVar "t2")]));
   (*L75*) SAssign "contracted_intermediate" (EScale (-1 # 1) (EEins "mdel,kldc,eajk,cbim->abij" [(ESlice (EVar "g") [SV "o"; SV "v"; SV "v"; SV "o"]); (EVar "l2"); (EVar "t2"); (EVar "t2")]));
   (*L76*) SAug true "double_res" (EAdd (EAdd (EAdd (EScale (1 # 1) (EVar "contracted_intermediate")) (EScale (-1 # 1) (EEins "abij->abji" [(EVar "contracted_intermediate")]))) (EScale (-1 # 1) (EEins "abij->baij" [(EVar "contracted_intermediate")]))) (EScale (1 # 1) (EEins "abij->baji" [(EVar "contracted_intermediate")])));
   (*L79*) SAssign "contracted_intermediate" (EScale (-1 # 1) (EEins "mdel,kldc,eaij,cbkm->abij" [(ESlice (EVar "g") [SV "o"; SV "v"; SV "v"; SV "o"]); (EVar "l2"); (EVar "t2"); (EVar "t2")]));
   (*L80*) SAug true "double_res" (EAdd (EScale (1 # 1) (EVar "contracted_intermediate")) (EScale (-1 # 1) (EEins "abij->baij" [(EVar "contracted_intermediate")])));
   (*L83*) SAssign "contracted_intermediate" (EScale (1 # 2) (EEins "mdej,kldc,eckl,abim->abij" [(ESlice (EVar "g") [SV "o"; SV "v"; SV "v"; SV "o"]); (EVar "l2"); (EVar "t2"); (EVar "t2")]));
   (*L84*) SAug true "double_res" (EAdd (EScale (1 # 1) (EVar "contracted_intermediate")) (EScale (-1 # 1) (EEins "abij->abji" [(EVar "contracted_intermediate")])));
   (*L87*) SAssign "contracted_intermediate" (EScale (-1 # 1) (EEins "mdej,kldc,ecil,abkm->abij" [(ESlice (EVar "g") [SV "o"; SV "v"; SV "v"; SV "o"]); (EVar "l2"); (EVar "t2"); (EVar "t2")]));
   (*L88*) SAug true "double_res" (EAdd (EScale (1 # 1) (EVar "contracted_intermediate")) (EScale (-1 # 1) (EEins "abij->abji" [(EVar "contracted_intermediate")])));
   (*L91*) SAssign "contracted_intermediate" (EScale (-1 # 2) (EEins "mdej,kldc,eakl,cbim->abij" [(ESlice (EVar "g") [SV "o"; SV "v"; SV "v"; SV "o"]); (EVar "l2"); (EVar "t2"); (EVar "t2")]));
   (*L92*) SAug true "double_res" (EAdd (EAdd (EAdd (EScale (1 # 1) (EVar "contracted_intermediate")) (EScale (-1 # 1) (EEins "abij->abji" [(EVar "contracted_intermediate")]))) (EScale (-1 # 1) (EEins "abij->baij" [(EVar "contracted_intermediate")]))) (EScale (1 # 1) (EEins "abij->baji" [(EVar "contracted_intermediate")])));
   (*L95*) SAssign "contracted_intermediate" (EScale (1 # 1) (EEins "mdej,kldc,eail,cbkm->abij" [(ESlice (EVar "g") [SV "o"; SV "v"; SV "v"; SV "o"]); (EVar "l2"); (EVar "t2"); (EVar "t2")]));
   (*L96*) SAug true "double_res" (EAdd (EAdd (EAdd (EScale (1 # 1) (EVar "contracted_intermediate")) (EScale (-1 # 1) (EEins "abij->abji" [(EVar "contracted_intermediate")]))) (EScale (-1 # 1) (EEins "abij->baij" [(EVar "contracted_intermediate")]))) (EScale (1 # 1) (EEins "abij->baji" [(EVar "contracted_intermediate")])));
   (*L99*) SAssign "contracted_intermediate" (EScale (1 # 1) (EEins "mael,kldc,edjk,cbim->abij" [(ESlice (EVar "g") [SV "o"; SV "v"; SV "v"; SV "o"]); (EVar "l2"); (EVar "t2"); (EVar "t2")]));
   (*L100*) SAug true "double_res" (EAdd (EAdd (EAdd (EScale (1 # 1) (EVar "contracted_intermediate")) (EScale (-1 # 1) (EEins "abij->abji" [(EVar "contracted_intermediate")]))) (EScale (-1 # 1) (EEins "abij->baij" [(EVar "contracted_intermediate")]))) (EScale (1 # 1) (EEins "abij->baji" [(EVar "contracted_intermediate")])));
   (*L103*) SAssign "contracted_intermediate" (EScale (1 # 1) (EEins "mael,kldc,edij,cbkm->abij" [(ESlice (EVar "g") [SV "o"; SV "v"; SV "v"; SV "o"]); (EVar "l2"); (EVar "t2"); (EVar "t2")]));
   (*L104*) SAug true "double_res" (EAdd (EScale (1 # 1) (EVar "contracted_intermediate")) (EScale (-1 # 1) (EEins "abij->baij" [(EVar "contracted_intermediate")])));
   (*L107*) SAssign "contracted_intermediate" (EScale (1 # 2) (EEins "mael,kldc,ebjk,dcim->abij" [(ESlice (EVar "g") [SV "o"; SV "v"; SV "v"; SV "o"]); (EVar "l2"); (EVar "t2"); (EVar "t2")]));
   (*L108*) SAug true "double_res" (EAdd (EAdd (EAdd (EScale (1 # 1) (EVar "contracted_intermediate")) (EScale (-1 # 1) (EEins "abij->abji" [(EVar "contracted_intermediate")]))) (EScale (-1 # 1) (EEins "abij->baij" [(EVar "contracted_intermediate")]))) (EScale (1 # 1) (EEins "abij->baji" [(EVar "contracted_intermediate")])));
   (*L111*) SAssign "contracted_intermediate" (EScale (1 # 2) (EEins "mael,kldc,ebij,dckm->abij" [(ESlice (EVar "g") [SV "o"; SV "v"; SV "v"; SV "o"]); (EVar "l2"); (EVar "t2"); (EVar "t2")]));
   (*L112*) SAug true "double_res" (EAdd (EScale (1 # 1) (EVar "contracted_intermediate")) (EScale (-1 # 1) (EEins "abij->baij" [(EVar "contracted_intermediate")])));
   (*L115*) SAssign "contracted_intermediate" (EScale (1 # 2) (EEins "maej,kldc,edkl,cbim->abij" [(ESlice (EVar "g") [SV "o"; SV "v"; SV "v"; SV "o"]); (EVar "l2"); (EVar "t2"); (EVar "t2")]));
   (*L116*) SAug true "double_res" (EAdd (EAdd (EAdd (EScale (1 # 1) (EVar "contracted_intermediate")) (EScale (-1 # 1) (EEins "abij->abji" [(EVar "contracted_intermediate")]))) (EScale (-1 # 1) (EEins "abij->baij" [(EVar "contracted_intermediate")]))) (EScale (1 # 1) (EEins "abij->baji" [(EVar "contracted_intermediate")])));
   (*L119*) SAssign "contracted_intermediate" (EScale (-1 # 1) (EEins "maej,kldc,edil,cbkm->abij" [(ESlice (EVar "g") [SV "o"; SV "v"; SV "v"; SV "o"]); (EVar "l2"); (EVar "t2"); (EVar "t2")]));
   (*L120*) SAug true "double_res" (EAdd (EAdd (EAdd (EScale (1 # 1) (EVar "contracted_intermediate")) (EScale (-1 # 1) (EEins "abij->abji" [(EVar "contracted_intermediate")]))) (EScale (-1 # 1) (EEins "abij->baij" [(EVar "contracted_intermediate")]))) (EScale (1 # 1) (EEins "abij->baji" [(EVar "contracted_intermediate")])));
   (*L123*) SAssign "contracted_intermediate" (EScale (1 # 4) (EEins "maej,kldc,ebkl,dcim->abij" [(ESlice (EVar "g") [SV "o"; SV "v"; SV "v"; SV "o"]); (EVar "l2"); (EVar "t2"); (EVar "t2")]));
   (*L124*) SAug true "double_res" (EAdd (EAdd (EAdd (EScale (1 # 1) (EVar "contracted_intermediate")) (EScale (-1 # 1) (EEins "abij->abji" [(EVar "contracted_intermediate")]))) (EScale (-1 # 1) (EEins "abij->baij" [(EVar "contracted_intermediate")]))) (EScale (1 # 1) (EEins "abij->baji" [(EVar "contracted_intermediate")])));
   (*L127*) SAssign "contracted_intermediate" (EScale (-1 # 2) (EEins "maej,kldc,ebil,dckm->abij" [(ESlice (EVar "g") [SV "o"; SV "v"; SV "v"; SV "o"]); (EVar "l2"); (EVar "t2"); (EVar "t2")]));
   (*L128*) SAug true "double_res" (EAdd (EAdd (EAdd (EScale (1 # 1) (EVar "contracted_intermediate")) (EScale (-1 # 1) (EEins "abij->abji" [(EVar "contracted_intermediate")]))) (EScale (-1 # 1) (EEins "abij->baij" [(EVar "contracted_intermediate")]))) (EScale (1 # 1) (EEins "abij->baji" [(EVar "contracted_intermediate")])));
   (*L131*) SAug true "double_res" (EScale (-1 # 4) (EEins "dcef,kldc,eakl,fbij->abij" [(ESlice (EVar "g") [SV "v"; SV "v"; SV "v"; SV "v"]); (EVar "l2"); (EVar "t2"); (EVar "t2")]));
   (*L134*) SAssign "contracted_intermediate" (EScale (1 # 2) (EEins "dcef,kldc,eajl,fbik->abij" [(ESlice (EVar "g") [SV "v"; SV "v"; SV "v"; SV "v"]); (EVar "l2"); (EVar "t2"); (EVar "t2")]));
   (*L135*) SAug true "double_res" (EAdd (EScale (1 # 1) (EVar "contracted_intermediate")) (EScale (-1 # 1) (EEins "abij->abji" [(EVar "contracted_intermediate")])));
   (*L138*) SAug true "double_res" (EScale (-1 # 4) (EEins "dcef,kldc,eaij,fbkl->abij" [(ESlice (EVar "g") [SV "v"; SV "v"; SV "v"; SV "v"]); (EVar "l2"); (EVar "t2"); (EVar "t2")]));
   (*L141*) SAssign "contracted_intermediate" (EScale (1 # 2) (EEins "daef,kldc,eckl,fbij->abij" [(ESlice (EVar "g") [SV "v"; SV "v"; SV "v"; SV "v"]); (EVar "l2"); (EVar "t2"); (EVar "t2")]));
   (*L142*) SAug true "double_res" (EAdd (EScale (1 # 1) (EVar "contracted_intermediate")) (EScale (-1 # 1) (EEins "abij->baij" [(EVar "contracted_intermediate")])));
   (*L145*) SAssign "contracted_intermediate" (EScale (-1 # 1) (EEins "daef,kldc,ecjl,fbik->abij" [(ESlice (EVar "g") [SV "v"; SV "v"; SV "v"; SV "v"]); (EVar "l2"); (EVar "t2"); (EVar "t2")]));
   (*L146*) SAug true "double_res" (EAdd (EAdd (EAdd (EScale (1 # 1) (EVar "contracted_intermediate")) (EScale (-1 # 1) (EEins "abij->abji" [(EVar "contracted_intermediate")]))) (EScale (-1 # 1) (EEins "abij->baij" [(EVar "contracted_intermediate")]))) (EScale (1 # 1) (EEins "abij->baji" [(EVar "contracted_intermediate")])));
   (*L149*) SAssign "contracted_intermediate" (EScale (1 # 2) (EEins "daef,kldc,ecij,fbkl->abij" [(ESlice (EVar "g") [SV "v"; SV "v"; SV "v"; SV "v"]); (EVar "l2"); (EVar "t2"); (EVar "t2")]));
   (*L150*) SAug true "double_res" (EAdd (EScale (1 # 1) (EVar "contracted_intermediate")) (EScale (-1 # 1) (EEins "abij->baij" [(EVar "contracted_intermediate")])));
   (*L153*) SAug true "double_res" (EScale (-1 # 2) (EEins "abef,kldc,edkl,fcij->abij" [(ESlice (EVar "g") [SV "v"; SV "v"; SV "v"; SV "v"]); (EVar "l2"); (EVar "t2"); (EVar "t2")]));
   (*L156*) SAssign "contracted_intermediate" (EScale (1 # 2) (EEins "abef,kldc,edjl,fcik->abij" [(ESlice (EVar "g") [SV "v"; SV "v"; SV "v"; SV "v"]); (EVar "l2"); (EVar "t2"); (EVar "t2")]));
   (*L157*) SAug true "double_res" (EAdd (EScale (1 # 1) (EVar "contracted_intermediate")) (EScale (-1 # 1) (EEins "abij->abji" [(EVar "contracted_intermediate")])))]
  (*L159*) (EVar "double_res").
