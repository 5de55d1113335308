(** Generated by tools/transcribe.py from /repo/UT2/ccdq_eqns.py; do not edit. *)
From Coq Require Import String List QArith.
From Verif Require Import Interp.
Import ListNotations.
Open Scope string_scope.

(** /repo/UT2/ccdq_eqns.py:5-19  def ccdq_t2eqns *)
Definition ccdq_t2eqns : fn := mkFn
  ["F"; "W"; "T2"; "T4"; "o"; "v"]
  [(*L6*) SAssign "roovv" (EScale (1 # 2) (EEins "ik,jkab->ijab" [(ESlice (EVar "F") [SV "o"; SV "o"]); (EVar "T2")]));
   (*L7*) SAug true "roovv" (EScale (-1 # 2) (EEins "ca,ijbc->ijab" [(ESlice (EVar "F") [SV "v"; SV "v"]); (EVar "T2")]));
   (*L8*) SAug true "roovv" (EScale (-1 # 4) (EEins "ikab,jlcd,cdkl->ijab" [(EVar "T2"); (EVar "T2"); (ESlice (EVar "W") [SV "v"; SV "v"; SV "o"; SV "o"])]));
   (*L9*) SAug true "roovv" (EScale (1 # 16) (EEins "klab,ijcd,cdkl->ijab" [(EVar "T2"); (EVar "T2"); (ESlice (EVar "W") [SV "v"; SV "v"; SV "o"; SV "o"])]));
   (*L10*) SAug true "roovv" (EScale (1 # 8) (EEins "klab,ijkl->ijab" [(EVar "T2"); (ESlice (EVar "W") [SV "o"; SV "o"; SV "o"; SV "o"])]));
   (*L11*) SAug true "roovv" (EScale (-1 # 4) (EEins "ijac,klbd,cdkl->ijab" [(EVar "T2"); (EVar "T2"); (ESlice (EVar "W") [SV "v"; SV "v"; SV "o"; SV "o"])]));
   (*L12*) SAug true "roovv" (EScale (1 # 2) (EEins "ikac,jlbd,cdkl->ijab" [(EVar "T2"); (EVar "T2"); (ESlice (EVar "W") [SV "v"; SV "v"; SV "o"; SV "o"])]));
   (*L13*) SAug true "roovv" (EScale (-1 # 1) (EEins "ikac,jckb->ijab" [(EVar "T2"); (ESlice (EVar "W") [SV "o"; SV "v"; SV "o"; SV "v"])]));
   (*L14*) SAug true "roovv" (EScale (1 # 8) (EEins "ijcd,cdab->ijab" [(EVar "T2"); (ESlice (EVar "W") [SV "v"; SV "v"; SV "v"; SV "v"])]));
   (*L15*) SAug true "roovv" (EScale (1 # 16) (EEins "ijklabcd,cdkl->ijab" [(EVar "T4"); (ESlice (EVar "W") [SV "v"; SV "v"; SV "o"; SV "o"])]));
   (*L16*) SAug true "roovv" (EScale (1 # 4) (EEins "ijab->ijab" [(ESlice (EVar "W") [SV "o"; SV "o"; SV "v"; SV "v"])]));
   (*L17*) SAssign "nvir" ENone;
   (*L17*) SAssign "nocc" ENone;
   (*L18*) SAssign "roovv" (ECall "tamps.antisym_T2" [(EVar "roovv"); (EVar "nocc"); (EVar "nvir")])]
  (*L19*) (EVar "roovv").

(** /repo/UT2/ccdq_eqns.py:22-44  def ccdq_t4eqns *)
Definition ccdq_t4eqns : fn := mkFn
  ["F"; "W"; "T2"; "T4"; "o"; "v"]
  [(*L24*) SAssign "roooovvvv" (EScale (1736111 # 250000000) (EEins "im,jklmabcd->ijklabcd" [(ESlice (EVar "F") [SV "o"; SV "o"]); (EVar "T4")]));
   (*L25*) SAug true "roooovvvv" (EScale (-1736111 # 250000000) (EEins "ea,ijklbcde->ijklabcd" [(ESlice (EVar "F") [SV "v"; SV "v"]); (EVar "T4")]));
   (*L26*) SAug true "roooovvvv" (EScale (-1 # 32) (EEins "imab,jncd,klef,efmn->ijklabcd" [(EVar "T2"); (EVar "T2"); (EVar "T2"); (ESlice (EVar "W") [SV "v"; SV "v"; SV "o"; SV "o"])]));
   (*L27*) SAug true "roooovvvv" (EScale (-1 # 16) (EEins "imab,jncd,klmn->ijklabcd" [(EVar "T2"); (EVar "T2"); (ESlice (EVar "W") [SV "o"; SV "o"; SV "o"; SV "o"])]));
   (*L28*) SAug true "roooovvvv" (EScale (1 # 4) (EEins "imab,jkce,lndf,efmn->ijklabcd" [(EVar "T2"); (EVar "T2"); (EVar "T2"); (ESlice (EVar "W") [SV "v"; SV "v"; SV "o"; SV "o"])]));
   (*L29*) SAug true "roooovvvv" (EScale (-1 # 4) (EEins "imab,jkce,lemd->ijklabcd" [(EVar "T2"); (EVar "T2"); (ESlice (EVar "W") [SV "o"; SV "v"; SV "o"; SV "v"])]));
   (*L30*) SAug true "roooovvvv" (EScale (-20833333 # 1000000000) (EEins "imab,jklncdef,efmn->ijklabcd" [(EVar "T2"); (EVar "T4"); (ESlice (EVar "W") [SV "v"; SV "v"; SV "o"; SV "o"])]));
   (*L31*) SAug true "roooovvvv" (EScale (-1 # 32) (EEins "mnab,ijce,kldf,efmn->ijklabcd" [(EVar "T2"); (EVar "T2"); (EVar "T2"); (ESlice (EVar "W") [SV "v"; SV "v"; SV "o"; SV "o"])]));
   (*L32*) SAug true "roooovvvv" (EScale (2604167 # 1000000000) (EEins "mnab,ijklcdef,efmn->ijklabcd" [(EVar "T2"); (EVar "T4"); (ESlice (EVar "W") [SV "v"; SV "v"; SV "o"; SV "o"])]));
   (*L33*) SAug true "roooovvvv" (EScale (-1 # 16) (EEins "ijae,klbf,efcd->ijklabcd" [(EVar "T2"); (EVar "T2"); (ESlice (EVar "W") [SV "v"; SV "v"; SV "v"; SV "v"])]));
   (*L34*) SAug true "roooovvvv" (EScale (-20833333 # 1000000000) (EEins "ijae,klmnbcdf,efmn->ijklabcd" [(EVar "T2"); (EVar "T4"); (ESlice (EVar "W") [SV "v"; SV "v"; SV "o"; SV "o"])]));
   (*L35*) SAug true "roooovvvv" (EScale (13888889 # 500000000) (EEins "imae,jklnbcdf,efmn->ijklabcd" [(EVar "T2"); (EVar "T4"); (ESlice (EVar "W") [SV "v"; SV "v"; SV "o"; SV "o"])]));
   (*L36*) SAug true "roooovvvv" (EScale (-1736111 # 500000000) (EEins "mnae,ijklbcdf,efmn->ijklabcd" [(EVar "T2"); (EVar "T4"); (ESlice (EVar "W") [SV "v"; SV "v"; SV "o"; SV "o"])]));
   (*L37*) SAug true "roooovvvv" (EScale (2604167 # 1000000000) (EEins "ijef,klmnabcd,efmn->ijklabcd" [(EVar "T2"); (EVar "T4"); (ESlice (EVar "W") [SV "v"; SV "v"; SV "o"; SV "o"])]));
   (*L38*) SAug true "roooovvvv" (EScale (-1736111 # 500000000) (EEins "imef,jklnabcd,efmn->ijklabcd" [(EVar "T2"); (EVar "T4"); (ESlice (EVar "W") [SV "v"; SV "v"; SV "o"; SV "o"])]));
   (*L39*) SAug true "roooovvvv" (EScale (5208333 # 1000000000) (EEins "ijmnabcd,klmn->ijklabcd" [(EVar "T4"); (ESlice (EVar "W") [SV "o"; SV "o"; SV "o"; SV "o"])]));
   (*L40*) SAug true "roooovvvv" (EScale (-13888889 # 500000000) (EEins "ijkmabce,lemd->ijklabcd" [(EVar "T4"); (ESlice (EVar "W") [SV "o"; SV "v"; SV "o"; SV "v"])]));
   (*L41*) SAug true "roooovvvv" (EScale (5208333 # 1000000000) (EEins "ijklabef,efcd->ijklabcd" [(EVar "T4"); (ESlice (EVar "W") [SV "v"; SV "v"; SV "v"; SV "v"])]));
   (*L42*) SAssign "nvir" ENone;
   (*L42*) SAssign "nocc" ENone;
   (*L43*) SAssign "roooovvvv" (ECall "tamps.antisym_T4" [(EVar "roooovvvv"); (EVar "nocc"); (EVar "nvir")])]
  (*L44*) (EVar "roooovvvv").
