(** Generated by tools/transcribe.py from /repo/UT2/wicked_T3corr.py; do not edit. *)
From Coq Require Import String List QArith.
From Verif Require Import Interp.
Import ListNotations.
Open Scope string_scope.

(** /repo/UT2/wicked_T3corr.py:49-55  def fifthOrder_capC *)
Definition fifthOrder_capC : fn := mkFn
  ["g"; "o"; "v"; "t2_dag"; "nocc"; "nvirt"]
  [(*L50*) SAssign "rvvvooo" (EScale (-1 # 8) (EEins "abij,dekl,lcde->abcijk" [(EVar "t2_dag"); (EVar "t2_dag"); (ESlice (EVar "g") [SV "o"; SV "v"; SV "v"; SV "v"])]));
   (*L51*) SAug true "rvvvooo" (EScale (-1 # 8) (EEins "abij,cdlm,lmkd->abcijk" [(EVar "t2_dag"); (EVar "t2_dag"); (ESlice (EVar "g") [SV "o"; SV "o"; SV "o"; SV "v"])]));
   (*L52*) SAssign "rvvvooo" (ETransp (EVar "rvvvooo") [3; 4; 5; 0; 1; 2]%nat);
   (*L53*) SAssign "rvvvooo" (ECall "antisym_T3" [(EVar "rvvvooo"); (EVar "nocc"); (EVar "nvirt")]);
   (*L54*) SAssign "rvvvooo" (ETransp (EVar "rvvvooo") [3; 4; 5; 0; 1; 2]%nat)]
  (*L55*) (EVar "rvvvooo").

(** /repo/UT2/wicked_T3corr.py:57-65  def fifthOrder_capA *)
Definition fifthOrder_capA : fn := mkFn
  ["g"; "o"; "v"; "t2_dag"; "nocc"; "nvirt"]
  [(*L58*) SAssign "rvvvooo" (EScale (1 # 1) (EEins "adij,bekl,lcde->abcijk" [(EVar "t2_dag"); (EVar "t2_dag"); (ESlice (EVar "g") [SV "o"; SV "v"; SV "v"; SV "v"])]));
   (*L59*) SAug true "rvvvooo" (EScale (-1 # 4) (EEins "adij,bclm,lmkd->abcijk" [(EVar "t2_dag"); (EVar "t2_dag"); (ESlice (EVar "g") [SV "o"; SV "o"; SV "o"; SV "v"])]));
   (*L60*) SAug true "rvvvooo" (EScale (-1 # 4) (EEins "deij,abkl,lcde->abcijk" [(EVar "t2_dag"); (EVar "t2_dag"); (ESlice (EVar "g") [SV "o"; SV "v"; SV "v"; SV "v"])]));
   (*L61*) SAug true "rvvvooo" (EScale (1 # 1) (EEins "abil,cdjm,lmkd->abcijk" [(EVar "t2_dag"); (EVar "t2_dag"); (ESlice (EVar "g") [SV "o"; SV "o"; SV "o"; SV "v"])]));
   (*L62*) SAssign "rvvvooo" (ETransp (EVar "rvvvooo") [3; 4; 5; 0; 1; 2]%nat);
   (*L63*) SAssign "rvvvooo" (ECall "antisym_T3" [(EVar "rvvvooo"); (EVar "nocc"); (EVar "nvirt")]);
   (*L64*) SAssign "rvvvooo" (ETransp (EVar "rvvvooo") [3; 4; 5; 0; 1; 2]%nat)]
  (*L65*) (EVar "rvvvooo").

(** /repo/UT2/wicked_T3corr.py:68-71  def get_fourthOrder *)
Definition get_fourthOrder : fn := mkFn
  ["t3resid"; "D3denom"]
  [(*L69*) SAssign "t3_dag" (ETransp (EVar "t3resid") [3; 4; 5; 0; 1; 2]%nat);
   (*L70*) SAssign "t3_dag" (EMul (EVar "t3_dag") (EVar "D3denom"))]
  (*L71*) (ECall "contractE" [(EVar "t3resid"); (EVar "t3_dag")]).

(** /repo/UT2/wicked_T3corr.py:73-74  def contractE *)
Definition contractE : fn := mkFn
  ["t3resid"; "t3_dag"]
  []
  (*L74*) (EScale (111111111 # 1000000000) (EEins "ijkabc,abcijk->" [(EVar "t3resid"); (EVar "t3_dag")])).

(** /repo/UT2/wicked_T3corr.py:90-95  def build_T3_thirdO *)
Definition build_T3_thirdO : fn := mkFn
  ["g"; "o"; "v"; "t2"]
  [(*L91*) SAssign "rooovvv" (EScale (1 # 2) (EEins "ilab,jmcd,kdlm->ijkabc" [(EVar "t2"); (EVar "t2"); (ESlice (EVar "g") [SV "o"; SV "v"; SV "o"; SV "o"])]));
   (*L92*) SAug true "rooovvv" (EScale (-1 # 8) (EEins "ilab,jkde,delc->ijkabc" [(EVar "t2"); (EVar "t2"); (ESlice (EVar "g") [SV "v"; SV "v"; SV "o"; SV "v"])]));
   (*L93*) SAug true "rooovvv" (EScale (-1 # 8) (EEins "lmab,ijcd,kdlm->ijkabc" [(EVar "t2"); (EVar "t2"); (ESlice (EVar "g") [SV "o"; SV "v"; SV "o"; SV "o"])]));
   (*L94*) SAug true "rooovvv" (EScale (1 # 2) (EEins "ijad,klbe,delc->ijkabc" [(EVar "t2"); (EVar "t2"); (ESlice (EVar "g") [SV "v"; SV "v"; SV "o"; SV "v"])]))]
  (*L95*) (EVar "rooovvv").

(** /repo/UT2/wicked_T3corr.py:97-101  def build_netT2 *)
Definition build_netT2 : fn := mkFn
  ["g"; "o"; "v"; "t3"]
  [(*L98*) SAssign "roovv" (EScale (-1 # 4) (EEins "iklabc,jckl->ijab" [(EVar "t3"); (ESlice (EVar "g") [SV "o"; SV "v"; SV "o"; SV "o"])]));
   (*L99*) SAug true "roovv" (EScale (-1 # 4) (EEins "ijkacd,cdkb->ijab" [(EVar "t3"); (ESlice (EVar "g") [SV "v"; SV "v"; SV "o"; SV "v"])]))]
  (*L101*) (EVar "roovv").

(** /repo/UT2/wicked_T3corr.py:103-107  def build_T3_secondO *)
Definition build_T3_secondO : fn := mkFn
  ["g"; "o"; "v"; "t2"]
  [(*L105*) SAssign "rooovvv" (EScale (-1 # 4) (EEins "ilab,jklc->ijkabc" [(EVar "t2"); (ESlice (EVar "g") [SV "o"; SV "o"; SV "o"; SV "v"])]));
   (*L106*) SAug true "rooovvv" (EScale (-1 # 4) (EEins "ijad,kdbc->ijkabc" [(EVar "t2"); (ESlice (EVar "g") [SV "o"; SV "v"; SV "v"; SV "v"])]))]
  (*L107*) (EVar "rooovvv").

(** /repo/UT2/wicked_T3corr.py:109-113  def getE_squareBrackT *)
Definition getE_squareBrackT : fn := mkFn
  ["g"; "o"; "v"; "t3"; "t2_dag"]
  [(*L110*) SAssign "energy" (ENum (0 # 1));
   (*L111*) SAug true "energy" (EScale (-1 # 4) (EEins "ijkabc,adij,bckd->" [(EVar "t3"); (EVar "t2_dag"); (ESlice (EVar "g") [SV "v"; SV "v"; SV "o"; SV "v"])]));
   (*L112*) SAug true "energy" (EScale (-1 # 4) (EEins "ijkabc,abil,lcjk->" [(EVar "t3"); (EVar "t2_dag"); (ESlice (EVar "g") [SV "o"; SV "v"; SV "o"; SV "o"])]))]
  (*L113*) (EVar "energy").

(** /repo/UT2/wicked_T3corr.py:115-118  def getE_parenT_t1 *)
Definition getE_parenT_t1 : fn := mkFn
  ["g"; "o"; "v"; "t3"; "t1_dag"]
  [(*L116*) SAssign "energy" (ENum (0 # 1));
   (*L117*) SAug true "energy" (EScale (1 # 4) (EEins "ijkabc,ai,bcjk->" [(EVar "t3"); (EVar "t1_dag"); (ESlice (EVar "g") [SV "v"; SV "v"; SV "o"; SV "o"])]))]
  (*L118*) (EVar "energy").

(** /repo/UT2/wicked_T3corr.py:122-125  def get_netT1_fromT2 *)
Definition get_netT1_fromT2 : fn := mkFn
  ["g"; "o"; "v"; "t2"]
  [(*L123*) SAssign "rov" (EScale (-1 # 2) (EEins "jkab,ibjk->ia" [(EVar "t2"); (ESlice (EVar "g") [SV "o"; SV "v"; SV "o"; SV "o"])]));
   (*L124*) SAug true "rov" (EScale (-1 # 2) (EEins "ijbc,bcja->ia" [(EVar "t2"); (ESlice (EVar "g") [SV "v"; SV "v"; SV "o"; SV "v"])]))]
  (*L125*) (EVar "rov").

(** /repo/UT2/wicked_T3corr.py:127-137  def get_netT1_thirdO *)
Definition get_netT1_thirdO : fn := mkFn
  ["g"; "o"; "v"; "t2"]
  [(*L128*) SAssign "t2dag" (ETransp (EVar "t2") [2; 3; 0; 1]%nat);
   (*L129*) SAssign "rov" (EScale (-1 # 2) (EEins "ijab,cdjk,kbcd->ia" [(EVar "t2"); (EVar "t2dag"); (ESlice (EVar "g") [SV "o"; SV "v"; SV "v"; SV "v"])]));
   (*L130*) SAug true "rov" (EScale (-1 # 2) (EEins "ijab,bckl,kljc->ia" [(EVar "t2"); (EVar "t2dag"); (ESlice (EVar "g") [SV "o"; SV "o"; SV "o"; SV "v"])]));
   (*L131*) SAug true "rov" (EScale (-1 # 4) (EEins "jkab,cdjk,ibcd->ia" [(EVar "t2"); (EVar "t2dag"); (ESlice (EVar "g") [SV "o"; SV "v"; SV "v"; SV "v"])]));
   (*L132*) SAug true "rov" (EScale (1 # 1) (EEins "jkab,bcjl,ilkc->ia" [(EVar "t2"); (EVar "t2dag"); (ESlice (EVar "g") [SV "o"; SV "o"; SV "o"; SV "v"])]));
   (*L133*) SAug true "rov" (EScale (1 # 1) (EEins "ijbc,bdjk,kcad->ia" [(EVar "t2"); (EVar "t2dag"); (ESlice (EVar "g") [SV "o"; SV "v"; SV "v"; SV "v"])]));
   (*L134*) SAug true "rov" (EScale (-1 # 4) (EEins "ijbc,bckl,klja->ia" [(EVar "t2"); (EVar "t2dag"); (ESlice (EVar "g") [SV "o"; SV "o"; SV "o"; SV "v"])]));
   (*L135*) SAug true "rov" (EScale (1 # 2) (EEins "jkbc,bdjk,icad->ia" [(EVar "t2"); (EVar "t2dag"); (ESlice (EVar "g") [SV "o"; SV "v"; SV "v"; SV "v"])]));
   (*L136*) SAug true "rov" (EScale (1 # 2) (EEins "jkbc,bcjl,ilka->ia" [(EVar "t2"); (EVar "t2dag"); (ESlice (EVar "g") [SV "o"; SV "o"; SV "o"; SV "v"])]))]
  (*L137*) (EVar "rov").

(** /repo/UT2/wicked_T3corr.py:139-142  def get_T2resid_fromT1bar *)
Definition get_T2resid_fromT1bar : fn := mkFn
  ["g"; "o"; "v"; "t1_bar"]
  [(*L140*) SAssign "roovv" (EScale (-1 # 2) (EEins "ka,ijkb->ijab" [(EVar "t1_bar"); (ESlice (EVar "g") [SV "o"; SV "o"; SV "o"; SV "v"])]));
   (*L141*) SAug true "roovv" (EScale (-1 # 2) (EEins "ic,jcab->ijab" [(EVar "t1_bar"); (ESlice (EVar "g") [SV "o"; SV "v"; SV "v"; SV "v"])]))]
  (*L142*) (EVar "roovv").

(** /repo/UT2/wicked_T3corr.py:146-185  def antisym_T3 *)
Definition antisym_T3 : fn := mkFn
  ["Rooovvv"; "nocc"; "nvir"]
  [(*L148*) SAssign "Rooovvv_anti" (EZeros [(EVar "nocc"); (EVar "nocc"); (EVar "nocc"); (EVar "nvir"); (EVar "nvir"); (EVar "nvir")]);
   (*L149*) SAug true "Rooovvv_anti" (EScale (1 # 1) (EEins "ijkabc->ijkabc" [(EVar "Rooovvv")]));
   (*L150*) SAug true "Rooovvv_anti" (EScale (-1 # 1) (EEins "ijkabc->ijkacb" [(EVar "Rooovvv")]));
   (*L151*) SAug true "Rooovvv_anti" (EScale (-1 # 1) (EEins "ijkabc->ijkbac" [(EVar "Rooovvv")]));
   (*L152*) SAug true "Rooovvv_anti" (EScale (1 # 1) (EEins "ijkabc->ijkbca" [(EVar "Rooovvv")]));
   (*L153*) SAug true "Rooovvv_anti" (EScale (1 # 1) (EEins "ijkabc->ijkcab" [(EVar "Rooovvv")]));
   (*L154*) SAug true "Rooovvv_anti" (EScale (-1 # 1) (EEins "ijkabc->ijkcba" [(EVar "Rooovvv")]));
   (*L155*) SAug true "Rooovvv_anti" (EScale (-1 # 1) (EEins "ijkabc->ikjabc" [(EVar "Rooovvv")]));
   (*L156*) SAug true "Rooovvv_anti" (EScale (1 # 1) (EEins "ijkabc->ikjacb" [(EVar "Rooovvv")]));
   (*L157*) SAug true "Rooovvv_anti" (EScale (1 # 1) (EEins "ijkabc->ikjbac" [(EVar "Rooovvv")]));
   (*L158*) SAug true "Rooovvv_anti" (EScale (-1 # 1) (EEins "ijkabc->ikjbca" [(EVar "Rooovvv")]));
   (*L159*) SAug true "Rooovvv_anti" (EScale (-1 # 1) (EEins "ijkabc->ikjcab" [(EVar "Rooovvv")]));
   (*L160*) SAug true "Rooovvv_anti" (EScale (1 # 1) (EEins "ijkabc->ikjcba" [(EVar "Rooovvv")]));
   (*L161*) SAug true "Rooovvv_anti" (EScale (-1 # 1) (EEins "ijkabc->jikabc" [(EVar "Rooovvv")]));
   (*L162*) SAug true "Rooovvv_anti" (EScale (1 # 1) (EEins "ijkabc->jikacb" [(EVar "Rooovvv")]));
   (*L163*) SAug true "Rooovvv_anti" (EScale (1 # 1) (EEins "ijkabc->jikbac" [(EVar "Rooovvv")]));
   (*L164*) SAug true "Rooovvv_anti" (EScale (-1 # 1) (EEins "ijkabc->jikbca" [(EVar "Rooovvv")]));
   (*L165*) SAug true "Rooovvv_anti" (EScale (-1 # 1) (EEins "ijkabc->jikcab" [(EVar "Rooovvv")]));
   (*L166*) SAug true "Rooovvv_anti" (EScale (1 # 1) (EEins "ijkabc->jikcba" [(EVar "Rooovvv")]));
   (*L167*) SAug true "Rooovvv_anti" (EScale (1 # 1) (EEins "ijkabc->jkiabc" [(EVar "Rooovvv")]));
   (*L168*) SAug true "Rooovvv_anti" (EScale (-1 # 1) (EEins "ijkabc->jkiacb" [(EVar "Rooovvv")]));
   (*L169*) SAug true "Rooovvv_anti" (EScale (-1 # 1) (EEins "ijkabc->jkibac" [(EVar "Rooovvv")]));
   (*L170*) SAug true "Rooovvv_anti" (EScale (1 # 1) (EEins "ijkabc->jkibca" [(EVar "Rooovvv")]));
   (*L171*) SAug true "Rooovvv_anti" (EScale (1 # 1) (EEins "ijkabc->jkicab" [(EVar "Rooovvv")]));
   (*L172*) SAug true "Rooovvv_anti" (EScale (-1 # 1) (EEins "ijkabc->jkicba" [(EVar "Rooovvv")]));
   (*L173*) SAug true "Rooovvv_anti" (EScale (1 # 1) (EEins "ijkabc->kijabc" [(EVar "Rooovvv")]));
   (*L174*) SAug true "Rooovvv_anti" (EScale (-1 # 1) (EEins "ijkabc->kijacb" [(EVar "Rooovvv")]));
   (*L175*) SAug true "Rooovvv_anti" (EScale (-1 # 1) (EEins "ijkabc->kijbac" [(EVar "Rooovvv")]));
   (*L176*) SAug true "Rooovvv_anti" (EScale (1 # 1) (EEins "ijkabc->kijbca" [(EVar "Rooovvv")]));
   (*L177*) SAug true "Rooovvv_anti" (EScale (1 # 1) (EEins "ijkabc->kijcab" [(EVar "Rooovvv")]));
   (*L178*) SAug true "Rooovvv_anti" (EScale (-1 # 1) (EEins "ijkabc->kijcba" [(EVar "Rooovvv")]));
   (*L179*) SAug true "Rooovvv_anti" (EScale (-1 # 1) (EEins "ijkabc->kjiabc" [(EVar "Rooovvv")]));
   (*L180*) SAug true "Rooovvv_anti" (EScale (1 # 1) (EEins "ijkabc->kjiacb" [(EVar "Rooovvv")]));
   (*L181*) SAug true "Rooovvv_anti" (EScale (1 # 1) (EEins "ijkabc->kjibac" [(EVar "Rooovvv")]));
   (*L182*) SAug true "Rooovvv_anti" (EScale (-1 # 1) (EEins "ijkabc->kjibca" [(EVar "Rooovvv")]));
   (*L183*) SAug true "Rooovvv_anti" (EScale (-1 # 1) (EEins "ijkabc->kjicab" [(EVar "Rooovvv")]));
   (*L184*) SAug true "Rooovvv_anti" (EScale (1 # 1) (EEins "ijkabc->kjicba" [(EVar "Rooovvv")]))]
  (*L185*) (EVar "Rooovvv_anti").

(** /repo/UT2/wicked_T3corr.py:188-195  def antisym_T2 *)
Definition antisym_T2 : fn := mkFn
  ["Roovv"; "nocc"; "nvir"]
  [(*L190*) SAssign "Roovv_anti" (EZeros [(EVar "nocc"); (EVar "nocc"); (EVar "nvir"); (EVar "nvir")]);
   (*L191*) SAug true "Roovv_anti" (EEins "ijab->ijab" [(EVar "Roovv")]);
   (*L192*) SAug false "Roovv_anti" (EEins "ijab->jiab" [(EVar "Roovv")]);
   (*L193*) SAug false "Roovv_anti" (EEins "ijab->ijba" [(EVar "Roovv")]);
   (*L194*) SAug true "Roovv_anti" (EEins "ijab->jiba" [(EVar "Roovv")])]
  (*L195*) (EVar "Roovv_anti").
