(** Generated by tools/transcribe.py from /repo/UT2/ccsdt_eqns.py; do not edit. *)
From Coq Require Import String List QArith.
From Verif Require Import Interp.
Import ListNotations.
Open Scope string_scope.

(** /repo/UT2/ccsdt_eqns.py:5-22  def ccsdt_t1eqns *)
Definition ccsdt_t1eqns : fn := mkFn
  ["F"; "W"; "T1"; "T2"; "T3"; "o"; "v"]
  [(*L7*) SAssign "rov" (EScale (-1 # 1) (EEins "ij,ja->ia" [(ESlice (EVar "F") [SV "o"; SV "o"]); (EVar "T1")]));
   (*L8*) SAug true "rov" (EScale (-1 # 1) (EEins "bj,ja,ib->ia" [(ESlice (EVar "F") [SV "v"; SV "o"]); (EVar "T1"); (EVar "T1")]));
   (*L9*) SAug true "rov" (EScale (1 # 1) (EEins "bj,ijab->ia" [(ESlice (EVar "F") [SV "v"; SV "o"]); (EVar "T2")]));
   (*L10*) SAug true "rov" (EScale (1 # 1) (EEins "ia->ia" [(ESlice (EVar "F") [SV "o"; SV "v"])]));
   (*L11*) SAug true "rov" (EScale (1 # 1) (EEins "ba,ib->ia" [(ESlice (EVar "F") [SV "v"; SV "v"]); (EVar "T1")]));
   (*L12*) SAug true "rov" (EScale (-1 # 1) (EEins "ja,ib,kc,bcjk->ia" [(EVar "T1"); (EVar "T1"); (EVar "T1"); (ESlice (EVar "W") [SV "v"; SV "v"; SV "o"; SV "o"])]));
   (*L13*) SAug true "rov" (EScale (-1 # 1) (EEins "ja,kb,ibjk->ia" [(EVar "T1"); (EVar "T1"); (ESlice (EVar "W") [SV "o"; SV "v"; SV "o"; SV "o"])]));
   (*L14*) SAug true "rov" (EScale (-1 # 2) (EEins "ja,ikbc,bcjk->ia" [(EVar "T1"); (EVar "T2"); (ESlice (EVar "W") [SV "v"; SV "v"; SV "o"; SV "o"])]));
   (*L15*) SAug true "rov" (EScale (-1 # 1) (EEins "ib,jc,bcja->ia" [(EVar "T1"); (EVar "T1"); (ESlice (EVar "W") [SV "v"; SV "v"; SV "o"; SV "v"])]));
   (*L16*) SAug true "rov" (EScale (-1 # 2) (EEins "ib,jkac,bcjk->ia" [(EVar "T1"); (EVar "T2"); (ESlice (EVar "W") [SV "v"; SV "v"; SV "o"; SV "o"])]));
   (*L17*) SAug true "rov" (EScale (1 # 1) (EEins "jb,ikac,bcjk->ia" [(EVar "T1"); (EVar "T2"); (ESlice (EVar "W") [SV "v"; SV "v"; SV "o"; SV "o"])]));
   (*L18*) SAug true "rov" (EScale (-1 # 1) (EEins "jb,ibja->ia" [(EVar "T1"); (ESlice (EVar "W") [SV "o"; SV "v"; SV "o"; SV "v"])]));
   (*L19*) SAug true "rov" (EScale (-1 # 2) (EEins "jkab,ibjk->ia" [(EVar "T2"); (ESlice (EVar "W") [SV "o"; SV "v"; SV "o"; SV "o"])]));
   (*L20*) SAug true "rov" (EScale (-1 # 2) (EEins "ijbc,bcja->ia" [(EVar "T2"); (ESlice (EVar "W") [SV "v"; SV "v"; SV "o"; SV "v"])]));
   (*L21*) SAug true "rov" (EScale (1 # 4) (EEins "ijkabc,bcjk->ia" [(EVar "T3"); (ESlice (EVar "W") [SV "v"; SV "v"; SV "o"; SV "o"])]))]
  (*L22*) (EVar "rov").

(** /repo/UT2/ccsdt_eqns.py:24-66  def ccsdt_t2eqns *)
Definition ccsdt_t2eqns : fn := mkFn
  ["F"; "W"; "T1"; "T2"; "T3"; "o"; "v"]
  [(*L26*) SAssign "roovv" (EScale (1 # 2) (EEins "ik,jkab->ijab" [(ESlice (EVar "F") [SV "o"; SV "o"]); (EVar "T2")]));
   (*L27*) SAug true "roovv" (EScale (1 # 2) (EEins "ck,ka,ijbc->ijab" [(ESlice (EVar "F") [SV "v"; SV "o"]); (EVar "T1"); (EVar "T2")]));
   (*L28*) SAug true "roovv" (EScale (1 # 2) (EEins "ck,ic,jkab->ijab" [(ESlice (EVar "F") [SV "v"; SV "o"]); (EVar "T1"); (EVar "T2")]));
   (*L29*) SAug true "roovv" (EScale (1 # 4) (EEins "ck,ijkabc->ijab" [(ESlice (EVar "F") [SV "v"; SV "o"]); (EVar "T3")]));
   (*L30*) SAug true "roovv" (EScale (-1 # 2) (EEins "ca,ijbc->ijab" [(ESlice (EVar "F") [SV "v"; SV "v"]); (EVar "T2")]));
   (*L31*) SAug true "roovv" (EScale (1 # 4) (EEins "ka,lb,ic,jd,cdkl->ijab" [(EVar "T1"); (EVar "T1"); (EVar "T1"); (EVar "T1"); (ESlice (EVar "W") [SV "v"; SV "v"; SV "o"; SV "o"])]));
   (*L32*) SAug true "roovv" (EScale (-1 # 2) (EEins "ka,lb,ic,jckl->ijab" [(EVar "T1"); (EVar "T1"); (EVar "T1"); (ESlice (EVar "W") [SV "o"; SV "v"; SV "o"; SV "o"])]));
   (*L33*) SAug true "roovv" (EScale (1 # 8) (EEins "ka,lb,ijcd,cdkl->ijab" [(EVar "T1"); (EVar "T1"); (EVar "T2"); (ESlice (EVar "W") [SV "v"; SV "v"; SV "o"; SV "o"])]));
   (*L34*) SAug true "roovv" (EScale (1 # 4) (EEins "ka,lb,ijkl->ijab" [(EVar "T1"); (EVar "T1"); (ESlice (EVar "W") [SV "o"; SV "o"; SV "o"; SV "o"])]));
   (*L35*) SAug true "roovv" (EScale (-1 # 2) (EEins "ka,ic,jd,cdkb->ijab" [(EVar "T1"); (EVar "T1"); (EVar "T1"); (ESlice (EVar "W") [SV "v"; SV "v"; SV "o"; SV "v"])]));
   (*L36*) SAug true "roovv" (EScale (-1 # 1) (EEins "ka,ic,jlbd,cdkl->ijab" [(EVar "T1"); (EVar "T1"); (EVar "T2"); (ESlice (EVar "W") [SV "v"; SV "v"; SV "o"; SV "o"])]));
   (*L37*) SAug true "roovv" (EScale (1 # 1) (EEins "ka,ic,jckb->ijab" [(EVar "T1"); (EVar "T1"); (ESlice (EVar "W") [SV "o"; SV "v"; SV "o"; SV "v"])]));
   (*L38*) SAug true "roovv" (EScale (-1 # 2) (EEins "ka,lc,ijbd,cdkl->ijab" [(EVar "T1"); (EVar "T1"); (EVar "T2"); (ESlice (EVar "W") [SV "v"; SV "v"; SV "o"; SV "o"])]));
   (*L39*) SAug true "roovv" (EScale (1 # 1) (EEins "ka,ilbc,jckl->ijab" [(EVar "T1"); (EVar "T2"); (ESlice (EVar "W") [SV "o"; SV "v"; SV "o"; SV "o"])]));
   (*L40*) SAug true "roovv" (EScale (-1 # 4) (EEins "ka,ijcd,cdkb->ijab" [(EVar "T1"); (EVar "T2"); (ESlice (EVar "W") [SV "v"; SV "v"; SV "o"; SV "v"])]));
   (*L41*) SAug true "roovv" (EScale (1 # 4) (EEins "ka,ijlbcd,cdkl->ijab" [(EVar "T1"); (EVar "T3"); (ESlice (EVar "W") [SV "v"; SV "v"; SV "o"; SV "o"])]));
   (*L42*) SAug true "roovv" (EScale (-1 # 2) (EEins "ka,ijkb->ijab" [(EVar "T1"); (ESlice (EVar "W") [SV "o"; SV "o"; SV "o"; SV "v"])]));
   (*L43*) SAug true "roovv" (EScale (1 # 8) (EEins "ic,jd,klab,cdkl->ijab" [(EVar "T1"); (EVar "T1"); (EVar "T2"); (ESlice (EVar "W") [SV "v"; SV "v"; SV "o"; SV "o"])]));
   (*L44*) SAug true "roovv" (EScale (1 # 4) (EEins "ic,jd,cdab->ijab" [(EVar "T1"); (EVar "T1"); (ESlice (EVar "W") [SV "v"; SV "v"; SV "v"; SV "v"])]));
   (*L45*) SAug true "roovv" (EScale (-1 # 2) (EEins "ic,kd,jlab,cdkl->ijab" [(EVar "T1"); (EVar "T1"); (EVar "T2"); (ESlice (EVar "W") [SV "v"; SV "v"; SV "o"; SV "o"])]));
   (*L46*) SAug true "roovv" (EScale (-1 # 4) (EEins "ic,klab,jckl->ijab" [(EVar "T1"); (EVar "T2"); (ESlice (EVar "W") [SV "o"; SV "v"; SV "o"; SV "o"])]));
   (*L47*) SAug true "roovv" (EScale (1 # 1) (EEins "ic,jkad,cdkb->ijab" [(EVar "T1"); (EVar "T2"); (ESlice (EVar "W") [SV "v"; SV "v"; SV "o"; SV "v"])]));
   (*L48*) SAug true "roovv" (EScale (1 # 4) (EEins "ic,jklabd,cdkl->ijab" [(EVar "T1"); (EVar "T3"); (ESlice (EVar "W") [SV "v"; SV "v"; SV "o"; SV "o"])]));
   (*L49*) SAug true "roovv" (EScale (-1 # 2) (EEins "ic,jcab->ijab" [(EVar "T1"); (ESlice (EVar "W") [SV "o"; SV "v"; SV "v"; SV "v"])]));
   (*L50*) SAug true "roovv" (EScale (1 # 2) (EEins "kc,ilab,jckl->ijab" [(EVar "T1"); (EVar "T2"); (ESlice (EVar "W") [SV "o"; SV "v"; SV "o"; SV "o"])]));
   (*L51*) SAug true "roovv" (EScale (1 # 2) (EEins "kc,ijad,cdkb->ijab" [(EVar "T1"); (EVar "T2"); (ESlice (EVar "W") [SV "v"; SV "v"; SV "o"; SV "v"])]));
   (*L52*) SAug true "roovv" (EScale (1 # 4) (EEins "kc,ijlabd,cdkl->ijab" [(EVar "T1"); (EVar "T3"); (ESlice (EVar "W") [SV "v"; SV "v"; SV "o"; SV "o"])]));
   (*L53*) SAug true "roovv" (EScale (-1 # 4) (EEins "ikab,jlcd,cdkl->ijab" [(EVar "T2"); (EVar "T2"); (ESlice (EVar "W") [SV "v"; SV "v"; SV "o"; SV "o"])]));
   (*L54*) SAug true "roovv" (EScale (1 # 16) (EEins "klab,ijcd,cdkl->ijab" [(EVar "T2"); (EVar "T2"); (ESlice (EVar "W") [SV "v"; SV "v"; SV "o"; SV "o"])]));
   (*L55*) SAug true "roovv" (EScale (1 # 8) (EEins "klab,ijkl->ijab" [(EVar "T2"); (ESlice (EVar "W") [SV "o"; SV "o"; SV "o"; SV "o"])]));
   (*L56*) SAug true "roovv" (EScale (-1 # 4) (EEins "ijac,klbd,cdkl->ijab" [(EVar "T2"); (EVar "T2"); (ESlice (EVar "W") [SV "v"; SV "v"; SV "o"; SV "o"])]));
   (*L57*) SAug true "roovv" (EScale (1 # 2) (EEins "ikac,jlbd,cdkl->ijab" [(EVar "T2"); (EVar "T2"); (ESlice (EVar "W") [SV "v"; SV "v"; SV "o"; SV "o"])]));
   (*L58*) SAug true "roovv" (EScale (-1 # 1) (EEins "ikac,jckb->ijab" [(EVar "T2"); (ESlice (EVar "W") [SV "o"; SV "v"; SV "o"; SV "v"])]));
   (*L59*) SAug true "roovv" (EScale (1 # 8) (EEins "ijcd,cdab->ijab" [(EVar "T2"); (ESlice (EVar "W") [SV "v"; SV "v"; SV "v"; SV "v"])]));
   (*L60*) SAug true "roovv" (EScale (-1 # 4) (EEins "iklabc,jckl->ijab" [(EVar "T3"); (ESlice (EVar "W") [SV "o"; SV "v"; SV "o"; SV "o"])]));
   (*L61*) SAug true "roovv" (EScale (-1 # 4) (EEins "ijkacd,cdkb->ijab" [(EVar "T3"); (ESlice (EVar "W") [SV "v"; SV "v"; SV "o"; SV "v"])]));
   (*L62*) SAug true "roovv" (EScale (1 # 4) (EEins "ijab->ijab" [(ESlice (EVar "W") [SV "o"; SV "o"; SV "v"; SV "v"])]));
   (*L64*) SAssign "nvir" ENone;
   (*L64*) SAssign "nocc" ENone;
   (*L65*) SAssign "roovv" (ECall "tamps.antisym_T2" [(EVar "roovv"); (EVar "nocc"); (EVar "nvir")])]
  (*L66*) (EVar "roovv").

(** /repo/UT2/ccsdt_eqns.py:69-122  def ccsdt_t3eqns *)
Definition ccsdt_t3eqns : fn := mkFn
  ["F"; "W"; "T1"; "T2"; "T3"; "o"; "v"]
  [(*L71*) SAssign "rooovvv" (EScale (-83333333 # 1000000000) (EEins "il,jklabc->ijkabc" [(ESlice (EVar "F") [SV "o"; SV "o"]); (EVar "T3")]));
   (*L72*) SAug true "rooovvv" (EScale (-83333333 # 1000000000) (EEins "dl,la,ijkbcd->ijkabc" [(ESlice (EVar "F") [SV "v"; SV "o"]); (EVar "T1"); (EVar "T3")]));
   (*L73*) SAug true "rooovvv" (EScale (-83333333 # 1000000000) (EEins "dl,id,jklabc->ijkabc" [(ESlice (EVar "F") [SV "v"; SV "o"]); (EVar "T1"); (EVar "T3")]));
   (*L74*) SAug true "rooovvv" (EScale (1 # 4) (EEins "dl,ilab,jkcd->ijkabc" [(ESlice (EVar "F") [SV "v"; SV "o"]); (EVar "T2"); (EVar "T2")]));
   (*L75*) SAug true "rooovvv" (EScale (83333333 # 1000000000) (EEins "da,ijkbcd->ijkabc" [(ESlice (EVar "F") [SV "v"; SV "v"]); (EVar "T3")]));
   (*L76*) SAug true "rooovvv" (EScale (-1 # 4) (EEins "la,mb,id,jkce,delm->ijkabc" [(EVar "T1"); (EVar "T1"); (EVar "T1"); (EVar "T2"); (ESlice (EVar "W") [SV "v"; SV "v"; SV "o"; SV "o"])]));
   (*L77*) SAug true "rooovvv" (EScale (-1 # 4) (EEins "la,mb,ijcd,kdlm->ijkabc" [(EVar "T1"); (EVar "T1"); (EVar "T2"); (ESlice (EVar "W") [SV "o"; SV "v"; SV "o"; SV "o"])]));
   (*L78*) SAug true "rooovvv" (EScale (41666667 # 1000000000) (EEins "la,mb,ijkcde,delm->ijkabc" [(EVar "T1"); (EVar "T1"); (EVar "T3"); (ESlice (EVar "W") [SV "v"; SV "v"; SV "o"; SV "o"])]));
   (*L79*) SAug true "rooovvv" (EScale (-1 # 4) (EEins "la,id,je,kmbc,delm->ijkabc" [(EVar "T1"); (EVar "T1"); (EVar "T1"); (EVar "T2"); (ESlice (EVar "W") [SV "v"; SV "v"; SV "o"; SV "o"])]));
   (*L80*) SAug true "rooovvv" (EScale (-1 # 2) (EEins "la,id,jmbc,kdlm->ijkabc" [(EVar "T1"); (EVar "T1"); (EVar "T2"); (ESlice (EVar "W") [SV "o"; SV "v"; SV "o"; SV "o"])]));
   (*L81*) SAug true "rooovvv" (EScale (-1 # 2) (EEins "la,id,jkbe,delc->ijkabc" [(EVar "T1"); (EVar "T1"); (EVar "T2"); (ESlice (EVar "W") [SV "v"; SV "v"; SV "o"; SV "v"])]));
   (*L82*) SAug true "rooovvv" (EScale (-1 # 4) (EEins "la,id,jkmbce,delm->ijkabc" [(EVar "T1"); (EVar "T1"); (EVar "T3"); (ESlice (EVar "W") [SV "v"; SV "v"; SV "o"; SV "o"])]));
   (*L83*) SAug true "rooovvv" (EScale (83333333 # 1000000000) (EEins "la,md,ijkbce,delm->ijkabc" [(EVar "T1"); (EVar "T1"); (EVar "T3"); (ESlice (EVar "W") [SV "v"; SV "v"; SV "o"; SV "o"])]));
   (*L84*) SAug true "rooovvv" (EScale (-1 # 8) (EEins "la,imbc,jkde,delm->ijkabc" [(EVar "T1"); (EVar "T2"); (EVar "T2"); (ESlice (EVar "W") [SV "v"; SV "v"; SV "o"; SV "o"])]));
   (*L85*) SAug true "rooovvv" (EScale (-1 # 4) (EEins "la,imbc,jklm->ijkabc" [(EVar "T1"); (EVar "T2"); (ESlice (EVar "W") [SV "o"; SV "o"; SV "o"; SV "o"])]));
   (*L86*) SAug true "rooovvv" (EScale (1 # 2) (EEins "la,ijbd,kmce,delm->ijkabc" [(EVar "T1"); (EVar "T2"); (EVar "T2"); (ESlice (EVar "W") [SV "v"; SV "v"; SV "o"; SV "o"])]));
   (*L87*) SAug true "rooovvv" (EScale (-1 # 2) (EEins "la,ijbd,kdlc->ijkabc" [(EVar "T1"); (EVar "T2"); (ESlice (EVar "W") [SV "o"; SV "v"; SV "o"; SV "v"])]));
   (*L88*) SAug true "rooovvv" (EScale (-1 # 4) (EEins "la,ijmbcd,kdlm->ijkabc" [(EVar "T1"); (EVar "T3"); (ESlice (EVar "W") [SV "o"; SV "v"; SV "o"; SV "o"])]));
   (*L89*) SAug true "rooovvv" (EScale (83333333 # 1000000000) (EEins "la,ijkbde,delc->ijkabc" [(EVar "T1"); (EVar "T3"); (ESlice (EVar "W") [SV "v"; SV "v"; SV "o"; SV "v"])]));
   (*L90*) SAug true "rooovvv" (EScale (-1 # 4) (EEins "id,je,klab,delc->ijkabc" [(EVar "T1"); (EVar "T1"); (EVar "T2"); (ESlice (EVar "W") [SV "v"; SV "v"; SV "o"; SV "v"])]));
   (*L91*) SAug true "rooovvv" (EScale (41666667 # 1000000000) (EEins "id,je,klmabc,delm->ijkabc" [(EVar "T1"); (EVar "T1"); (EVar "T3"); (ESlice (EVar "W") [SV "v"; SV "v"; SV "o"; SV "o"])]));
   (*L92*) SAug true "rooovvv" (EScale (83333333 # 1000000000) (EEins "id,le,jkmabc,delm->ijkabc" [(EVar "T1"); (EVar "T1"); (EVar "T3"); (ESlice (EVar "W") [SV "v"; SV "v"; SV "o"; SV "o"])]));
   (*L93*) SAug true "rooovvv" (EScale (1 # 2) (EEins "id,jlab,kmce,delm->ijkabc" [(EVar "T1"); (EVar "T2"); (EVar "T2"); (ESlice (EVar "W") [SV "v"; SV "v"; SV "o"; SV "o"])]));
   (*L94*) SAug true "rooovvv" (EScale (-1 # 2) (EEins "id,jlab,kdlc->ijkabc" [(EVar "T1"); (EVar "T2"); (ESlice (EVar "W") [SV "o"; SV "v"; SV "o"; SV "v"])]));
   (*L95*) SAug true "rooovvv" (EScale (-1 # 8) (EEins "id,lmab,jkce,delm->ijkabc" [(EVar "T1"); (EVar "T2"); (EVar "T2"); (ESlice (EVar "W") [SV "v"; SV "v"; SV "o"; SV "o"])]));
   (*L96*) SAug true "rooovvv" (EScale (-1 # 4) (EEins "id,jkae,debc->ijkabc" [(EVar "T1"); (EVar "T2"); (ESlice (EVar "W") [SV "v"; SV "v"; SV "v"; SV "v"])]));
   (*L97*) SAug true "rooovvv" (EScale (83333333 # 1000000000) (EEins "id,jlmabc,kdlm->ijkabc" [(EVar "T1"); (EVar "T3"); (ESlice (EVar "W") [SV "o"; SV "v"; SV "o"; SV "o"])]));
   (*L98*) SAug true "rooovvv" (EScale (-1 # 4) (EEins "id,jklabe,delc->ijkabc" [(EVar "T1"); (EVar "T3"); (ESlice (EVar "W") [SV "v"; SV "v"; SV "o"; SV "v"])]));
   (*L99*) SAug true "rooovvv" (EScale (1 # 4) (EEins "ld,imab,jkce,delm->ijkabc" [(EVar "T1"); (EVar "T2"); (EVar "T2"); (ESlice (EVar "W") [SV "v"; SV "v"; SV "o"; SV "o"])]));
   (*L100*) SAug true "rooovvv" (EScale (83333333 # 1000000000) (EEins "ld,ijmabc,kdlm->ijkabc" [(EVar "T1"); (EVar "T3"); (ESlice (EVar "W") [SV "o"; SV "v"; SV "o"; SV "o"])]));
   (*L101*) SAug true "rooovvv" (EScale (83333333 # 1000000000) (EEins "ld,ijkabe,delc->ijkabc" [(EVar "T1"); (EVar "T3"); (ESlice (EVar "W") [SV "v"; SV "v"; SV "o"; SV "v"])]));
   (*L102*) SAug true "rooovvv" (EScale (1 # 2) (EEins "ilab,jmcd,kdlm->ijkabc" [(EVar "T2"); (EVar "T2"); (ESlice (EVar "W") [SV "o"; SV "v"; SV "o"; SV "o"])]));
   (*L103*) SAug true "rooovvv" (EScale (-1 # 8) (EEins "ilab,jkde,delc->ijkabc" [(EVar "T2"); (EVar "T2"); (ESlice (EVar "W") [SV "v"; SV "v"; SV "o"; SV "v"])]));
   (*L104*) SAug true "rooovvv" (EScale (1 # 8) (EEins "ilab,jkmcde,delm->ijkabc" [(EVar "T2"); (EVar "T3"); (ESlice (EVar "W") [SV "v"; SV "v"; SV "o"; SV "o"])]));
   (*L105*) SAug true "rooovvv" (EScale (-1 # 4) (EEins "ilab,jklc->ijkabc" [(EVar "T2"); (ESlice (EVar "W") [SV "o"; SV "o"; SV "o"; SV "v"])]));
   (*L106*) SAug true "rooovvv" (EScale (-1 # 8) (EEins "lmab,ijcd,kdlm->ijkabc" [(EVar "T2"); (EVar "T2"); (ESlice (EVar "W") [SV "o"; SV "v"; SV "o"; SV "o"])]));
   (*L107*) SAug true "rooovvv" (EScale (20833333 # 1000000000) (EEins "lmab,ijkcde,delm->ijkabc" [(EVar "T2"); (EVar "T3"); (ESlice (EVar "W") [SV "v"; SV "v"; SV "o"; SV "o"])]));
   (*L108*) SAug true "rooovvv" (EScale (1 # 2) (EEins "ijad,klbe,delc->ijkabc" [(EVar "T2"); (EVar "T2"); (ESlice (EVar "W") [SV "v"; SV "v"; SV "o"; SV "v"])]));
   (*L109*) SAug true "rooovvv" (EScale (1 # 8) (EEins "ijad,klmbce,delm->ijkabc" [(EVar "T2"); (EVar "T3"); (ESlice (EVar "W") [SV "v"; SV "v"; SV "o"; SV "o"])]));
   (*L110*) SAug true "rooovvv" (EScale (-1 # 4) (EEins "ijad,kdbc->ijkabc" [(EVar "T2"); (ESlice (EVar "W") [SV "o"; SV "v"; SV "v"; SV "v"])]));
   (*L111*) SAug true "rooovvv" (EScale (1 # 4) (EEins "ilad,jkmbce,delm->ijkabc" [(EVar "T2"); (EVar "T3"); (ESlice (EVar "W") [SV "v"; SV "v"; SV "o"; SV "o"])]));
   (*L112*) SAug true "rooovvv" (EScale (41666667 # 1000000000) (EEins "lmad,ijkbce,delm->ijkabc" [(EVar "T2"); (EVar "T3"); (ESlice (EVar "W") [SV "v"; SV "v"; SV "o"; SV "o"])]));
   (*L113*) SAug true "rooovvv" (EScale (20833333 # 1000000000) (EEins "ijde,klmabc,delm->ijkabc" [(EVar "T2"); (EVar "T3"); (ESlice (EVar "W") [SV "v"; SV "v"; SV "o"; SV "o"])]));
   (*L114*) SAug true "rooovvv" (EScale (41666667 # 1000000000) (EEins "ilde,jkmabc,delm->ijkabc" [(EVar "T2"); (EVar "T3"); (ESlice (EVar "W") [SV "v"; SV "v"; SV "o"; SV "o"])]));
   (*L115*) SAug true "rooovvv" (EScale (41666667 # 1000000000) (EEins "ilmabc,jklm->ijkabc" [(EVar "T3"); (ESlice (EVar "W") [SV "o"; SV "o"; SV "o"; SV "o"])]));
   (*L116*) SAug true "rooovvv" (EScale (-1 # 4) (EEins "ijlabd,kdlc->ijkabc" [(EVar "T3"); (ESlice (EVar "W") [SV "o"; SV "v"; SV "o"; SV "v"])]));
   (*L117*) SAug true "rooovvv" (EScale (41666667 # 1000000000) (EEins "ijkade,debc->ijkabc" [(EVar "T3"); (ESlice (EVar "W") [SV "v"; SV "v"; SV "v"; SV "v"])]));
   (*L120*) SAssign "nvir" ENone;
   (*L120*) SAssign "nocc" ENone;
   (*L121*) SAssign "rooovvv" (ECall "tamps.antisym_T3" [(EVar "rooovvv"); (EVar "nocc"); (EVar "nvir")])]
  (*L122*) (EVar "rooovvv").
