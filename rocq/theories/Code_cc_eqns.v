(** Generated by tools/transcribe.py from /repo/UT2/cc_eqns.py; do not edit. *)
From Coq Require Import String List QArith.
From Verif Require Import Interp.
Import ListNotations.
Open Scope string_scope.

(** /repo/UT2/cc_eqns.py:67-83  def ccsd_t1resid *)
Definition ccsd_t1resid : fn := mkFn
  ["F"; "W"; "T1"; "T2"; "o"; "v"]
  [(*L69*) SAssign "rov" (EScale (-1 # 1) (EEins "ij,ja->ia" [(ESlice (EVar "F") [SV "o"; SV "o"]); (EVar "T1")]));
   (*L70*) SAug true "rov" (EScale (-1 # 1) (EEins "bj,ja,ib->ia" [(ESlice (EVar "F") [SV "v"; SV "o"]); (EVar "T1"); (EVar "T1")]));
   (*L71*) SAug true "rov" (EScale (1 # 1) (EEins "bj,ijab->ia" [(ESlice (EVar "F") [SV "v"; SV "o"]); (EVar "T2")]));
   (*L72*) SAug true "rov" (EScale (1 # 1) (EEins "ia->ia" [(ESlice (EVar "F") [SV "o"; SV "v"])]));
   (*L73*) SAug true "rov" (EScale (1 # 1) (EEins "ba,ib->ia" [(ESlice (EVar "F") [SV "v"; SV "v"]); (EVar "T1")]));
   (*L74*) SAug true "rov" (EScale (-1 # 1) (EEins "ja,ib,kc,bcjk->ia" [(EVar "T1"); (EVar "T1"); (EVar "T1"); (ESlice (EVar "W") [SV "v"; SV "v"; SV "o"; SV "o"])]));
   (*L75*) SAug true "rov" (EScale (-1 # 1) (EEins "ja,kb,ibjk->ia" [(EVar "T1"); (EVar "T1"); (ESlice (EVar "W") [SV "o"; SV "v"; SV "o"; SV "o"])]));
   (*L76*) SAug true "rov" (EScale (-1 # 2) (EEins "ja,ikbc,bcjk->ia" [(EVar "T1"); (EVar "T2"); (ESlice (EVar "W") [SV "v"; SV "v"; SV "o"; SV "o"])]));
   (*L77*) SAug true "rov" (EScale (-1 # 1) (EEins "ib,jc,bcja->ia" [(EVar "T1"); (EVar "T1"); (ESlice (EVar "W") [SV "v"; SV "v"; SV "o"; SV "v"])]));
   (*L78*) SAug true "rov" (EScale (-1 # 2) (EEins "ib,jkac,bcjk->ia" [(EVar "T1"); (EVar "T2"); (ESlice (EVar "W") [SV "v"; SV "v"; SV "o"; SV "o"])]));
   (*L79*) SAug true "rov" (EScale (1 # 1) (EEins "jb,ikac,bcjk->ia" [(EVar "T1"); (EVar "T2"); (ESlice (EVar "W") [SV "v"; SV "v"; SV "o"; SV "o"])]));
   (*L80*) SAug true "rov" (EScale (-1 # 1) (EEins "jb,ibja->ia" [(EVar "T1"); (ESlice (EVar "W") [SV "o"; SV "v"; SV "o"; SV "v"])]));
   (*L81*) SAug true "rov" (EScale (-1 # 2) (EEins "jkab,ibjk->ia" [(EVar "T2"); (ESlice (EVar "W") [SV "o"; SV "v"; SV "o"; SV "o"])]));
   (*L82*) SAug true "rov" (EScale (-1 # 2) (EEins "ijbc,bcja->ia" [(EVar "T2"); (ESlice (EVar "W") [SV "v"; SV "v"; SV "o"; SV "v"])]))]
  (*L83*) (EVar "rov").

(** /repo/UT2/cc_eqns.py:86-122  def ccsd_t2resid *)
Definition ccsd_t2resid : fn := mkFn
  ["F"; "W"; "T1"; "T2"; "o"; "v"; "nocc"; "nvir"]
  [(*L88*) SAssign "roovv" (EScale (1 # 2) (EEins "ik,jkab->ijab" [(ESlice (EVar "F") [SV "o"; SV "o"]); (EVar "T2")]));
   (*L89*) SAug true "roovv" (EScale (1 # 2) (EEins "ck,ka,ijbc->ijab" [(ESlice (EVar "F") [SV "v"; SV "o"]); (EVar "T1"); (EVar "T2")]));
   (*L90*) SAug true "roovv" (EScale (1 # 2) (EEins "ck,ic,jkab->ijab" [(ESlice (EVar "F") [SV "v"; SV "o"]); (EVar "T1"); (EVar "T2")]));
   (*L91*) SAug true "roovv" (EScale (-1 # 2) (EEins "ca,ijbc->ijab" [(ESlice (EVar "F") [SV "v"; SV "v"]); (EVar "T2")]));
   (*L92*) SAug true "roovv" (EScale (1 # 4) (EEins "ka,lb,ic,jd,cdkl->ijab" [(EVar "T1"); (EVar "T1"); (EVar "T1"); (EVar "T1"); (ESlice (EVar "W") [SV "v"; SV "v"; SV "o"; SV "o"])]));
   (*L93*) SAug true "roovv" (EScale (-1 # 2) (EEins "ka,lb,ic,jckl->ijab" [(EVar "T1"); (EVar "T1"); (EVar "T1"); (ESlice (EVar "W") [SV "o"; SV "v"; SV "o"; SV "o"])]));
   (*L94*) SAug true "roovv" (EScale (1 # 8) (EEins "ka,lb,ijcd,cdkl->ijab" [(EVar "T1"); (EVar "T1"); (EVar "T2"); (ESlice (EVar "W") [SV "v"; SV "v"; SV "o"; SV "o"])]));
   (*L95*) SAug true "roovv" (EScale (1 # 4) (EEins "ka,lb,ijkl->ijab" [(EVar "T1"); (EVar "T1"); (ESlice (EVar "W") [SV "o"; SV "o"; SV "o"; SV "o"])]));
   (*L96*) SAug true "roovv" (EScale (-1 # 2) (EEins "ka,ic,jd,cdkb->ijab" [(EVar "T1"); (EVar "T1"); (EVar "T1"); (ESlice (EVar "W") [SV "v"; SV "v"; SV "o"; SV "v"])]));
   (*L97*) SAug true "roovv" (EScale (-1 # 1) (EEins "ka,ic,jlbd,cdkl->ijab" [(EVar "T1"); (EVar "T1"); (EVar "T2"); (ESlice (EVar "W") [SV "v"; SV "v"; SV "o"; SV "o"])]));
   (*L98*) SAug true "roovv" (EScale (1 # 1) (EEins "ka,ic,jckb->ijab" [(EVar "T1"); (EVar "T1"); (ESlice (EVar "W") [SV "o"; SV "v"; SV "o"; SV "v"])]));
   (*L99*) SAug true "roovv" (EScale (-1 # 2) (EEins "ka,lc,ijbd,cdkl->ijab" [(EVar "T1"); (EVar "T1"); (EVar "T2"); (ESlice (EVar "W") [SV "v"; SV "v"; SV "o"; SV "o"])]));
   (*L100*) SAug true "roovv" (EScale (1 # 1) (EEins "ka,ilbc,jckl->ijab" [(EVar "T1"); (EVar "T2"); (ESlice (EVar "W") [SV "o"; SV "v"; SV "o"; SV "o"])]));
   (*L101*) SAug true "roovv" (EScale (-1 # 4) (EEins "ka,ijcd,cdkb->ijab" [(EVar "T1"); (EVar "T2"); (ESlice (EVar "W") [SV "v"; SV "v"; SV "o"; SV "v"])]));
   (*L102*) SAug true "roovv" (EScale (-1 # 2) (EEins "ka,ijkb->ijab" [(EVar "T1"); (ESlice (EVar "W") [SV "o"; SV "o"; SV "o"; SV "v"])]));
   (*L103*) SAug true "roovv" (EScale (1 # 8) (EEins "ic,jd,klab,cdkl->ijab" [(EVar "T1"); (EVar "T1"); (EVar "T2"); (ESlice (EVar "W") [SV "v"; SV "v"; SV "o"; SV "o"])]));
   (*L104*) SAug true "roovv" (EScale (1 # 4) (EEins "ic,jd,cdab->ijab" [(EVar "T1"); (EVar "T1"); (ESlice (EVar "W") [SV "v"; SV "v"; SV "v"; SV "v"])]));
   (*L105*) SAug true "roovv" (EScale (-1 # 2) (EEins "ic,kd,jlab,cdkl->ijab" [(EVar "T1"); (EVar "T1"); (EVar "T2"); (ESlice (EVar "W") [SV "v"; SV "v"; SV "o"; SV "o"])]));
   (*L106*) SAug true "roovv" (EScale (-1 # 4) (EEins "ic,klab,jckl->ijab" [(EVar "T1"); (EVar "T2"); (ESlice (EVar "W") [SV "o"; SV "v"; SV "o"; SV "o"])]));
   (*L107*) SAug true "roovv" (EScale (1 # 1) (EEins "ic,jkad,cdkb->ijab" [(EVar "T1"); (EVar "T2"); (ESlice (EVar "W") [SV "v"; SV "v"; SV "o"; SV "v"])]));
   (*L108*) SAug true "roovv" (EScale (-1 # 2) (EEins "ic,jcab->ijab" [(EVar "T1"); (ESlice (EVar "W") [SV "o"; SV "v"; SV "v"; SV "v"])]));
   (*L109*) SAug true "roovv" (EScale (1 # 2) (EEins "kc,ilab,jckl->ijab" [(EVar "T1"); (EVar "T2"); (ESlice (EVar "W") [SV "o"; SV "v"; SV "o"; SV "o"])]));
   (*L110*) SAug true "roovv" (EScale (1 # 2) (EEins "kc,ijad,cdkb->ijab" [(EVar "T1"); (EVar "T2"); (ESlice (EVar "W") [SV "v"; SV "v"; SV "o"; SV "v"])]));
   (*L111*) SAug true "roovv" (EScale (-1 # 4) (EEins "ikab,jlcd,cdkl->ijab" [(EVar "T2"); (EVar "T2"); (ESlice (EVar "W") [SV "v"; SV "v"; SV "o"; SV "o"])]));
   (*L112*) SAug true "roovv" (EScale (1 # 16) (EEins "klab,ijcd,cdkl->ijab" [(EVar "T2"); (EVar "T2"); (ESlice (EVar "W") [SV "v"; SV "v"; SV "o"; SV "o"])]));
   (*L113*) SAug true "roovv" (EScale (1 # 8) (EEins "klab,ijkl->ijab" [(EVar "T2"); (ESlice (EVar "W") [SV "o"; SV "o"; SV "o"; SV "o"])]));
   (*L114*) SAug true "roovv" (EScale (-1 # 4) (EEins "ijac,klbd,cdkl->ijab" [(EVar "T2"); (EVar "T2"); (ESlice (EVar "W") [SV "v"; SV "v"; SV "o"; SV "o"])]));
   (*L115*) SAug true "roovv" (EScale (1 # 2) (EEins "ikac,jlbd,cdkl->ijab" [(EVar "T2"); (EVar "T2"); (ESlice (EVar "W") [SV "v"; SV "v"; SV "o"; SV "o"])]));
   (*L116*) SAug true "roovv" (EScale (-1 # 1) (EEins "ikac,jckb->ijab" [(EVar "T2"); (ESlice (EVar "W") [SV "o"; SV "v"; SV "o"; SV "v"])]));
   (*L117*) SAug true "roovv" (EScale (1 # 8) (EEins "ijcd,cdab->ijab" [(EVar "T2"); (ESlice (EVar "W") [SV "v"; SV "v"; SV "v"; SV "v"])]));
   (*L118*) SAug true "roovv" (EScale (1 # 4) (EEins "ijab->ijab" [(ESlice (EVar "W") [SV "o"; SV "o"; SV "v"; SV "v"])]));
   (*L120*) SAssign "roovv" (ECall "tamps.antisym_T2" [(EVar "roovv"); (EVar "nocc"); (EVar "nvir")])]
  (*L122*) (EVar "roovv").
