(** Generated by tools/transcribe.py from /repo/UT2/build_qf_correction.py; do not edit. *)
From Coq Require Import String List QArith.
From Verif Require Import Interp.
Import ListNotations.
Open Scope string_scope.

(** /repo/UT2/build_qf_correction.py:6-17  def wnT2T3_toT4 *)
Definition wnT2T3_toT4 : fn := mkFn
  ["W"; "T2"; "T3"; "o"; "v"]
  [(*L7*) SAssign "roooovvvv" (EScale (-1 # 8) (EEins "imab,jkncde,lemn->ijklabcd" [(EVar "T2"); (EVar "T3"); (ESlice (EVar "W") [SV "o"; SV "v"; SV "o"; SV "o"])]));
   (*L8*) SAug true "roooovvvv" (EScale (41666667 # 1000000000) (EEins "imab,jklcef,efmd->ijklabcd" [(EVar "T2"); (EVar "T3"); (ESlice (EVar "W") [SV "v"; SV "v"; SV "o"; SV "v"])]));
   (*L9*) SAug true "roooovvvv" (EScale (-20833333 # 1000000000) (EEins "mnab,ijkcde,lemn->ijklabcd" [(EVar "T2"); (EVar "T3"); (ESlice (EVar "W") [SV "o"; SV "v"; SV "o"; SV "o"])]));
   (*L10*) SAug true "roooovvvv" (EScale (41666667 # 1000000000) (EEins "ijae,kmnbcd,lemn->ijklabcd" [(EVar "T2"); (EVar "T3"); (ESlice (EVar "W") [SV "o"; SV "v"; SV "o"; SV "o"])]));
   (*L11*) SAug true "roooovvvv" (EScale (-1 # 8) (EEins "ijae,klmbcf,efmd->ijklabcd" [(EVar "T2"); (EVar "T3"); (ESlice (EVar "W") [SV "v"; SV "v"; SV "o"; SV "v"])]));
   (*L12*) SAug true "roooovvvv" (EScale (83333333 # 1000000000) (EEins "imae,jknbcd,lemn->ijklabcd" [(EVar "T2"); (EVar "T3"); (ESlice (EVar "W") [SV "o"; SV "v"; SV "o"; SV "o"])]));
   (*L13*) SAug true "roooovvvv" (EScale (83333333 # 1000000000) (EEins "imae,jklbcf,efmd->ijklabcd" [(EVar "T2"); (EVar "T3"); (ESlice (EVar "W") [SV "v"; SV "v"; SV "o"; SV "v"])]));
   (*L14*) SAug true "roooovvvv" (EScale (-20833333 # 1000000000) (EEins "ijef,klmabc,efmd->ijklabcd" [(EVar "T2"); (EVar "T3"); (ESlice (EVar "W") [SV "v"; SV "v"; SV "o"; SV "v"])]));
   (*L16*) SAssign "roooovvvv" (ECall "tamps.antisym_T4" [(EVar "roooovvvv"); ENone; ENone])]
  (*L17*) (EVar "roooovvvv").

(** /repo/UT2/build_qf_correction.py:20-29  def wnT2cubed_toT4 *)
Definition wnT2cubed_toT4 : fn := mkFn
  ["W"; "T2"; "o"; "v"]
  [(*L21*) SAssign "roooovvvv" (EScale (-1 # 32) (EEins "imab,jncd,klef,efmn->ijklabcd" [(EVar "T2"); (EVar "T2"); (EVar "T2"); (ESlice (EVar "W") [SV "v"; SV "v"; SV "o"; SV "o"])]));
   (*L22*) SAug true "roooovvvv" (EScale (-1 # 16) (EEins "imab,jncd,klmn->ijklabcd" [(EVar "T2"); (EVar "T2"); (ESlice (EVar "W") [SV "o"; SV "o"; SV "o"; SV "o"])]));
   (*L23*) SAug true "roooovvvv" (EScale (1 # 4) (EEins "imab,jkce,lndf,efmn->ijklabcd" [(EVar "T2"); (EVar "T2"); (EVar "T2"); (ESlice (EVar "W") [SV "v"; SV "v"; SV "o"; SV "o"])]));
   (*L24*) SAug true "roooovvvv" (EScale (-1 # 4) (EEins "imab,jkce,lemd->ijklabcd" [(EVar "T2"); (EVar "T2"); (ESlice (EVar "W") [SV "o"; SV "v"; SV "o"; SV "v"])]));
   (*L25*) SAug true "roooovvvv" (EScale (-1 # 32) (EEins "mnab,ijce,kldf,efmn->ijklabcd" [(EVar "T2"); (EVar "T2"); (EVar "T2"); (ESlice (EVar "W") [SV "v"; SV "v"; SV "o"; SV "o"])]));
   (*L26*) SAug true "roooovvvv" (EScale (-1 # 16) (EEins "ijae,klbf,efcd->ijklabcd" [(EVar "T2"); (EVar "T2"); (ESlice (EVar "W") [SV "v"; SV "v"; SV "v"; SV "v"])]));
   (*L28*) SAssign "roooovvvv" (ECall "tamps.antisym_T4" [(EVar "roooovvvv"); ENone; ENone])]
  (*L29*) (EVar "roooovvvv").

(** /repo/UT2/build_qf_correction.py:32-67  def wnT2cubed_toT2 *)
Definition wnT2cubed_toT2 : fn := mkFn
  ["W"; "T2"; "o"; "v"]
  [(*L33*) SAssign "T2dag" (ETransp (EVar "T2") [2; 3; 0; 1]%nat);
   (*L34*) SAssign "roovv" (EScale (1 # 2) (EEins "ikab,jlcd,mnef,celm,dfkn->ijab" [(EVar "T2"); (EVar "T2"); (EVar "T2"); (EVar "T2dag"); (ESlice (EVar "W") [SV "v"; SV "v"; SV "o"; SV "o"])]));
   (*L35*) SAug true "roovv" (EScale (-1 # 8) (EEins "ikab,jlcd,mnef,eflm,cdkn->ijab" [(EVar "T2"); (EVar "T2"); (EVar "T2"); (EVar "T2dag"); (ESlice (EVar "W") [SV "v"; SV "v"; SV "o"; SV "o"])]));
   (*L36*) SAug true "roovv" (EScale (1 # 4) (EEins "ikab,jlcd,mnef,cemn,dfkl->ijab" [(EVar "T2"); (EVar "T2"); (EVar "T2"); (EVar "T2dag"); (ESlice (EVar "W") [SV "v"; SV "v"; SV "o"; SV "o"])]));
   (*L37*) SAug true "roovv" (EScale (-1 # 16) (EEins "ikab,lmcd,jnef,eflm,cdkn->ijab" [(EVar "T2"); (EVar "T2"); (EVar "T2"); (EVar "T2dag"); (ESlice (EVar "W") [SV "v"; SV "v"; SV "o"; SV "o"])]));
   (*L38*) SAug true "roovv" (EScale (1 # 4) (EEins "klab,ijcd,mnef,cekm,dfln->ijab" [(EVar "T2"); (EVar "T2"); (EVar "T2"); (EVar "T2dag"); (ESlice (EVar "W") [SV "v"; SV "v"; SV "o"; SV "o"])]));
   (*L39*) SAug true "roovv" (EScale (-1 # 16) (EEins "klab,ijcd,mnef,efkm,cdln->ijab" [(EVar "T2"); (EVar "T2"); (EVar "T2"); (EVar "T2dag"); (ESlice (EVar "W") [SV "v"; SV "v"; SV "o"; SV "o"])]));
   (*L40*) SAug true "roovv" (EScale (-1 # 16) (EEins "klab,ijcd,mnef,cemn,dfkl->ijab" [(EVar "T2"); (EVar "T2"); (EVar "T2"); (EVar "T2dag"); (ESlice (EVar "W") [SV "v"; SV "v"; SV "o"; SV "o"])]));
   (*L41*) SAug true "roovv" (EScale (1 # 8) (EEins "klab,imcd,jnef,efkm,cdln->ijab" [(EVar "T2"); (EVar "T2"); (EVar "T2"); (EVar "T2dag"); (ESlice (EVar "W") [SV "v"; SV "v"; SV "o"; SV "o"])]));
   (*L42*) SAug true "roovv" (EScale (1 # 2) (EEins "klab,imcd,jnef,cekn,dflm->ijab" [(EVar "T2"); (EVar "T2"); (EVar "T2"); (EVar "T2dag"); (ESlice (EVar "W") [SV "v"; SV "v"; SV "o"; SV "o"])]));
   (*L43*) SAug true "roovv" (EScale (1 # 8) (EEins "klab,imcd,jnef,cemn,dfkl->ijab" [(EVar "T2"); (EVar "T2"); (EVar "T2"); (EVar "T2dag"); (ESlice (EVar "W") [SV "v"; SV "v"; SV "o"; SV "o"])]));
   (*L44*) SAug true "roovv" (EScale (-1 # 16) (EEins "ijac,klbd,mnef,efkl,cdmn->ijab" [(EVar "T2"); (EVar "T2"); (EVar "T2"); (EVar "T2dag"); (ESlice (EVar "W") [SV "v"; SV "v"; SV "o"; SV "o"])]));
   (*L45*) SAug true "roovv" (EScale (1 # 2) (EEins "ijac,klbd,mnef,dekm,cfln->ijab" [(EVar "T2"); (EVar "T2"); (EVar "T2"); (EVar "T2dag"); (ESlice (EVar "W") [SV "v"; SV "v"; SV "o"; SV "o"])]));
   (*L46*) SAug true "roovv" (EScale (1 # 4) (EEins "ijac,klbd,mnef,efkm,cdln->ijab" [(EVar "T2"); (EVar "T2"); (EVar "T2"); (EVar "T2dag"); (ESlice (EVar "W") [SV "v"; SV "v"; SV "o"; SV "o"])]));
   (*L47*) SAug true "roovv" (EScale (-1 # 8) (EEins "ijac,klbd,mnef,demn,cfkl->ijab" [(EVar "T2"); (EVar "T2"); (EVar "T2"); (EVar "T2dag"); (ESlice (EVar "W") [SV "v"; SV "v"; SV "o"; SV "o"])]));
   (*L48*) SAug true "roovv" (EScale (1 # 8) (EEins "ikac,jlbd,mnef,efkl,cdmn->ijab" [(EVar "T2"); (EVar "T2"); (EVar "T2"); (EVar "T2dag"); (ESlice (EVar "W") [SV "v"; SV "v"; SV "o"; SV "o"])]));
   (*L49*) SAug true "roovv" (EScale (-1 # 1) (EEins "ikac,jlbd,mnef,dekm,cfln->ijab" [(EVar "T2"); (EVar "T2"); (EVar "T2"); (EVar "T2dag"); (ESlice (EVar "W") [SV "v"; SV "v"; SV "o"; SV "o"])]));
   (*L50*) SAug true "roovv" (EScale (1 # 2) (EEins "ikac,jlbd,mnef,eflm,cdkn->ijab" [(EVar "T2"); (EVar "T2"); (EVar "T2"); (EVar "T2dag"); (ESlice (EVar "W") [SV "v"; SV "v"; SV "o"; SV "o"])]));
   (*L51*) SAug true "roovv" (EScale (1 # 2) (EEins "ikac,jlbd,mnef,demn,cfkl->ijab" [(EVar "T2"); (EVar "T2"); (EVar "T2"); (EVar "T2dag"); (ESlice (EVar "W") [SV "v"; SV "v"; SV "o"; SV "o"])]));
   (*L52*) SAug true "roovv" (EScale (1 # 1) (EEins "ikac,lmbd,jnef,dekl,cfmn->ijab" [(EVar "T2"); (EVar "T2"); (EVar "T2"); (EVar "T2dag"); (ESlice (EVar "W") [SV "v"; SV "v"; SV "o"; SV "o"])]));
   (*L53*) SAug true "roovv" (EScale (1 # 2) (EEins "ikac,lmbd,jnef,efkl,cdmn->ijab" [(EVar "T2"); (EVar "T2"); (EVar "T2"); (EVar "T2dag"); (ESlice (EVar "W") [SV "v"; SV "v"; SV "o"; SV "o"])]));
   (*L54*) SAug true "roovv" (EScale (1 # 2) (EEins "ikac,lmbd,jnef,dekn,cflm->ijab" [(EVar "T2"); (EVar "T2"); (EVar "T2"); (EVar "T2dag"); (ESlice (EVar "W") [SV "v"; SV "v"; SV "o"; SV "o"])]));
   (*L55*) SAug true "roovv" (EScale (1 # 4) (EEins "ikac,lmbd,jnef,eflm,cdkn->ijab" [(EVar "T2"); (EVar "T2"); (EVar "T2"); (EVar "T2dag"); (ESlice (EVar "W") [SV "v"; SV "v"; SV "o"; SV "o"])]));
   (*L56*) SAug true "roovv" (EScale (-1 # 1) (EEins "ikac,lmbd,jnef,deln,cfkm->ijab" [(EVar "T2"); (EVar "T2"); (EVar "T2"); (EVar "T2dag"); (ESlice (EVar "W") [SV "v"; SV "v"; SV "o"; SV "o"])]));
   (*L57*) SAug true "roovv" (EScale (1 # 2) (EEins "klac,imbd,jnef,dekl,cfmn->ijab" [(EVar "T2"); (EVar "T2"); (EVar "T2"); (EVar "T2dag"); (ESlice (EVar "W") [SV "v"; SV "v"; SV "o"; SV "o"])]));
   (*L58*) SAug true "roovv" (EScale (1 # 1) (EEins "klac,imbd,jnef,dekn,cflm->ijab" [(EVar "T2"); (EVar "T2"); (EVar "T2"); (EVar "T2dag"); (ESlice (EVar "W") [SV "v"; SV "v"; SV "o"; SV "o"])]));
   (*L59*) SAug true "roovv" (EScale (-1 # 8) (EEins "klac,mnbd,ijef,dekl,cfmn->ijab" [(EVar "T2"); (EVar "T2"); (EVar "T2"); (EVar "T2dag"); (ESlice (EVar "W") [SV "v"; SV "v"; SV "o"; SV "o"])]));
   (*L60*) SAug true "roovv" (EScale (1 # 2) (EEins "klac,mnbd,ijef,dekm,cfln->ijab" [(EVar "T2"); (EVar "T2"); (EVar "T2"); (EVar "T2dag"); (ESlice (EVar "W") [SV "v"; SV "v"; SV "o"; SV "o"])]));
   (*L61*) SAug true "roovv" (EScale (1 # 8) (EEins "ijcd,klae,mnbf,efkm,cdln->ijab" [(EVar "T2"); (EVar "T2"); (EVar "T2"); (EVar "T2dag"); (ESlice (EVar "W") [SV "v"; SV "v"; SV "o"; SV "o"])]));
   (*L62*) SAug true "roovv" (EScale (-1 # 2) (EEins "ikcd,jlae,mnbf,efkm,cdln->ijab" [(EVar "T2"); (EVar "T2"); (EVar "T2"); (EVar "T2dag"); (ESlice (EVar "W") [SV "v"; SV "v"; SV "o"; SV "o"])]));
   (*L63*) SAug true "roovv" (EScale (1 # 8) (EEins "klcd,imae,jnbf,efkl,cdmn->ijab" [(EVar "T2"); (EVar "T2"); (EVar "T2"); (EVar "T2dag"); (ESlice (EVar "W") [SV "v"; SV "v"; SV "o"; SV "o"])]));
   (*L66*) SAssign "roovv" (ECall "tamps.antisym_T2" [(EVar "roovv"); ENone; ENone])]
  (*L67*) (EVar "roovv").

(** /repo/UT2/build_qf_correction.py:70-142  def wnT2T3_toT2 *)
Definition wnT2T3_toT2 : fn := mkFn
  ["W"; "T2"; "T3"; "o"; "v"]
  [(*L71*) SAssign "T2dag" (ETransp (EVar "T2") [2; 3; 0; 1]%nat);
   (*L72*) SAssign "roovv" (EScale (1 # 4) (EEins "ikab,cdlm,jmncde,lekn->ijab" [(EVar "T2"); (EVar "T2dag"); (EVar "T3"); (ESlice (EVar "W") [SV "o"; SV "v"; SV "o"; SV "o"])]));
   (*L73*) SAug true "roovv" (EScale (-1 # 8) (EEins "ikab,cdlm,lmncde,jekn->ijab" [(EVar "T2"); (EVar "T2dag"); (EVar "T3"); (ESlice (EVar "W") [SV "o"; SV "v"; SV "o"; SV "o"])]));
   (*L74*) SAug true "roovv" (EScale (-1 # 8) (EEins "ikab,cdlm,jlmdef,efkc->ijab" [(EVar "T2"); (EVar "T2dag"); (EVar "T3"); (ESlice (EVar "W") [SV "v"; SV "v"; SV "o"; SV "v"])]));
   (*L75*) SAug true "roovv" (EScale (-1 # 8) (EEins "klab,cdkm,ijncde,meln->ijab" [(EVar "T2"); (EVar "T2dag"); (EVar "T3"); (ESlice (EVar "W") [SV "o"; SV "v"; SV "o"; SV "o"])]));
   (*L76*) SAug true "roovv" (EScale (1 # 4) (EEins "klab,cdkm,imncde,jeln->ijab" [(EVar "T2"); (EVar "T2dag"); (EVar "T3"); (ESlice (EVar "W") [SV "o"; SV "v"; SV "o"; SV "o"])]));
   (*L77*) SAug true "roovv" (EScale (-1 # 8) (EEins "klab,cdkm,ijmdef,eflc->ijab" [(EVar "T2"); (EVar "T2dag"); (EVar "T3"); (ESlice (EVar "W") [SV "v"; SV "v"; SV "o"; SV "v"])]));
   (*L78*) SAug true "roovv" (EScale (1 # 16) (EEins "klab,cdmn,ijncde,mekl->ijab" [(EVar "T2"); (EVar "T2dag"); (EVar "T3"); (ESlice (EVar "W") [SV "o"; SV "v"; SV "o"; SV "o"])]));
   (*L79*) SAug true "roovv" (EScale (-1 # 16) (EEins "klab,cdmn,imncde,jekl->ijab" [(EVar "T2"); (EVar "T2dag"); (EVar "T3"); (ESlice (EVar "W") [SV "o"; SV "v"; SV "o"; SV "o"])]));
   (*L80*) SAug true "roovv" (EScale (-1 # 8) (EEins "ijac,dekl,lmnbde,kcmn->ijab" [(EVar "T2"); (EVar "T2dag"); (EVar "T3"); (ESlice (EVar "W") [SV "o"; SV "v"; SV "o"; SV "o"])]));
   (*L81*) SAug true "roovv" (EScale (1 # 4) (EEins "ijac,dekl,klmbef,cfmd->ijab" [(EVar "T2"); (EVar "T2dag"); (EVar "T3"); (ESlice (EVar "W") [SV "v"; SV "v"; SV "o"; SV "v"])]));
   (*L82*) SAug true "roovv" (EScale (-1 # 8) (EEins "ijac,dekl,klmdef,cfmb->ijab" [(EVar "T2"); (EVar "T2dag"); (EVar "T3"); (ESlice (EVar "W") [SV "v"; SV "v"; SV "o"; SV "v"])]));
   (*L83*) SAug true "roovv" (EScale (-1 # 4) (EEins "ikac,dekl,jmnbde,lcmn->ijab" [(EVar "T2"); (EVar "T2dag"); (EVar "T3"); (ESlice (EVar "W") [SV "o"; SV "v"; SV "o"; SV "o"])]));
   (*L84*) SAug true "roovv" (EScale (1 # 4) (EEins "ikac,dekl,lmnbde,jcmn->ijab" [(EVar "T2"); (EVar "T2dag"); (EVar "T3"); (ESlice (EVar "W") [SV "o"; SV "v"; SV "o"; SV "o"])]));
   (*L85*) SAug true "roovv" (EScale (-1 # 1) (EEins "ikac,dekl,jlmbef,cfmd->ijab" [(EVar "T2"); (EVar "T2dag"); (EVar "T3"); (ESlice (EVar "W") [SV "v"; SV "v"; SV "o"; SV "v"])]));
   (*L86*) SAug true "roovv" (EScale (1 # 2) (EEins "ikac,dekl,jlmdef,cfmb->ijab" [(EVar "T2"); (EVar "T2dag"); (EVar "T3"); (ESlice (EVar "W") [SV "v"; SV "v"; SV "o"; SV "v"])]));
   (*L87*) SAug true "roovv" (EScale (-1 # 1) (EEins "ikac,cdlm,jmnbde,lekn->ijab" [(EVar "T2"); (EVar "T2dag"); (EVar "T3"); (ESlice (EVar "W") [SV "o"; SV "v"; SV "o"; SV "o"])]));
   (*L88*) SAug true "roovv" (EScale (1 # 2) (EEins "ikac,cdlm,lmnbde,jekn->ijab" [(EVar "T2"); (EVar "T2dag"); (EVar "T3"); (ESlice (EVar "W") [SV "o"; SV "v"; SV "o"; SV "o"])]));
   (*L89*) SAug true "roovv" (EScale (-1 # 4) (EEins "ikac,cdlm,jlmbef,efkd->ijab" [(EVar "T2"); (EVar "T2dag"); (EVar "T3"); (ESlice (EVar "W") [SV "v"; SV "v"; SV "o"; SV "v"])]));
   (*L90*) SAug true "roovv" (EScale (1 # 4) (EEins "ikac,cdlm,jlmdef,efkb->ijab" [(EVar "T2"); (EVar "T2dag"); (EVar "T3"); (ESlice (EVar "W") [SV "v"; SV "v"; SV "o"; SV "v"])]));
   (*L91*) SAug true "roovv" (EScale (-1 # 2) (EEins "ikac,delm,jmnbde,lckn->ijab" [(EVar "T2"); (EVar "T2dag"); (EVar "T3"); (ESlice (EVar "W") [SV "o"; SV "v"; SV "o"; SV "o"])]));
   (*L92*) SAug true "roovv" (EScale (1 # 4) (EEins "ikac,delm,lmnbde,jckn->ijab" [(EVar "T2"); (EVar "T2dag"); (EVar "T3"); (ESlice (EVar "W") [SV "o"; SV "v"; SV "o"; SV "o"])]));
   (*L93*) SAug true "roovv" (EScale (-1 # 2) (EEins "ikac,delm,jlmbef,cfkd->ijab" [(EVar "T2"); (EVar "T2dag"); (EVar "T3"); (ESlice (EVar "W") [SV "v"; SV "v"; SV "o"; SV "v"])]));
   (*L94*) SAug true "roovv" (EScale (1 # 4) (EEins "ikac,delm,jlmdef,cfkb->ijab" [(EVar "T2"); (EVar "T2dag"); (EVar "T3"); (ESlice (EVar "W") [SV "v"; SV "v"; SV "o"; SV "v"])]));
   (*L95*) SAug true "roovv" (EScale (1 # 8) (EEins "klac,dekl,imnbde,jcmn->ijab" [(EVar "T2"); (EVar "T2dag"); (EVar "T3"); (ESlice (EVar "W") [SV "o"; SV "v"; SV "o"; SV "o"])]));
   (*L96*) SAug true "roovv" (EScale (1 # 4) (EEins "klac,dekl,ijmbef,cfmd->ijab" [(EVar "T2"); (EVar "T2dag"); (EVar "T3"); (ESlice (EVar "W") [SV "v"; SV "v"; SV "o"; SV "v"])]));
   (*L97*) SAug true "roovv" (EScale (-1 # 8) (EEins "klac,dekl,ijmdef,cfmb->ijab" [(EVar "T2"); (EVar "T2dag"); (EVar "T3"); (ESlice (EVar "W") [SV "v"; SV "v"; SV "o"; SV "v"])]));
   (*L98*) SAug true "roovv" (EScale (1 # 2) (EEins "klac,cdkm,ijnbde,meln->ijab" [(EVar "T2"); (EVar "T2dag"); (EVar "T3"); (ESlice (EVar "W") [SV "o"; SV "v"; SV "o"; SV "o"])]));
   (*L99*) SAug true "roovv" (EScale (-1 # 1) (EEins "klac,cdkm,imnbde,jeln->ijab" [(EVar "T2"); (EVar "T2dag"); (EVar "T3"); (ESlice (EVar "W") [SV "o"; SV "v"; SV "o"; SV "o"])]));
   (*L100*) SAug true "roovv" (EScale (-1 # 4) (EEins "klac,cdkm,ijmbef,efld->ijab" [(EVar "T2"); (EVar "T2dag"); (EVar "T3"); (ESlice (EVar "W") [SV "v"; SV "v"; SV "o"; SV "v"])]));
   (*L101*) SAug true "roovv" (EScale (1 # 4) (EEins "klac,cdkm,ijmdef,eflb->ijab" [(EVar "T2"); (EVar "T2dag"); (EVar "T3"); (ESlice (EVar "W") [SV "v"; SV "v"; SV "o"; SV "v"])]));
   (*L102*) SAug true "roovv" (EScale (1 # 4) (EEins "klac,dekm,ijnbde,mcln->ijab" [(EVar "T2"); (EVar "T2dag"); (EVar "T3"); (ESlice (EVar "W") [SV "o"; SV "v"; SV "o"; SV "o"])]));
   (*L103*) SAug true "roovv" (EScale (-1 # 2) (EEins "klac,dekm,imnbde,jcln->ijab" [(EVar "T2"); (EVar "T2dag"); (EVar "T3"); (ESlice (EVar "W") [SV "o"; SV "v"; SV "o"; SV "o"])]));
   (*L104*) SAug true "roovv" (EScale (-1 # 2) (EEins "klac,dekm,ijmbef,cfld->ijab" [(EVar "T2"); (EVar "T2dag"); (EVar "T3"); (ESlice (EVar "W") [SV "v"; SV "v"; SV "o"; SV "v"])]));
   (*L105*) SAug true "roovv" (EScale (1 # 4) (EEins "klac,dekm,ijmdef,cflb->ijab" [(EVar "T2"); (EVar "T2dag"); (EVar "T3"); (ESlice (EVar "W") [SV "v"; SV "v"; SV "o"; SV "v"])]));
   (*L106*) SAug true "roovv" (EScale (-1 # 4) (EEins "klac,cdmn,ijnbde,mekl->ijab" [(EVar "T2"); (EVar "T2dag"); (EVar "T3"); (ESlice (EVar "W") [SV "o"; SV "v"; SV "o"; SV "o"])]));
   (*L107*) SAug true "roovv" (EScale (1 # 4) (EEins "klac,cdmn,imnbde,jekl->ijab" [(EVar "T2"); (EVar "T2dag"); (EVar "T3"); (ESlice (EVar "W") [SV "o"; SV "v"; SV "o"; SV "o"])]));
   (*L108*) SAug true "roovv" (EScale (-1 # 8) (EEins "ijcd,cekl,lmnabe,kdmn->ijab" [(EVar "T2"); (EVar "T2dag"); (EVar "T3"); (ESlice (EVar "W") [SV "o"; SV "v"; SV "o"; SV "o"])]));
   (*L109*) SAug true "roovv" (EScale (-1 # 8) (EEins "ijcd,cekl,klmabf,dfme->ijab" [(EVar "T2"); (EVar "T2dag"); (EVar "T3"); (ESlice (EVar "W") [SV "v"; SV "v"; SV "o"; SV "v"])]));
   (*L110*) SAug true "roovv" (EScale (1 # 4) (EEins "ijcd,cekl,klmaef,dfmb->ijab" [(EVar "T2"); (EVar "T2dag"); (EVar "T3"); (ESlice (EVar "W") [SV "v"; SV "v"; SV "o"; SV "v"])]));
   (*L111*) SAug true "roovv" (EScale (1 # 16) (EEins "ijcd,efkl,klmabf,cdme->ijab" [(EVar "T2"); (EVar "T2dag"); (EVar "T3"); (ESlice (EVar "W") [SV "v"; SV "v"; SV "o"; SV "v"])]));
   (*L112*) SAug true "roovv" (EScale (-1 # 16) (EEins "ijcd,efkl,klmaef,cdmb->ijab" [(EVar "T2"); (EVar "T2dag"); (EVar "T3"); (ESlice (EVar "W") [SV "v"; SV "v"; SV "o"; SV "v"])]));
   (*L113*) SAug true "roovv" (EScale (-1 # 4) (EEins "ikcd,cekl,jmnabe,ldmn->ijab" [(EVar "T2"); (EVar "T2dag"); (EVar "T3"); (ESlice (EVar "W") [SV "o"; SV "v"; SV "o"; SV "o"])]));
   (*L114*) SAug true "roovv" (EScale (1 # 4) (EEins "ikcd,cekl,lmnabe,jdmn->ijab" [(EVar "T2"); (EVar "T2dag"); (EVar "T3"); (ESlice (EVar "W") [SV "o"; SV "v"; SV "o"; SV "o"])]));
   (*L115*) SAug true "roovv" (EScale (1 # 2) (EEins "ikcd,cekl,jlmabf,dfme->ijab" [(EVar "T2"); (EVar "T2dag"); (EVar "T3"); (ESlice (EVar "W") [SV "v"; SV "v"; SV "o"; SV "v"])]));
   (*L116*) SAug true "roovv" (EScale (-1 # 1) (EEins "ikcd,cekl,jlmaef,dfmb->ijab" [(EVar "T2"); (EVar "T2dag"); (EVar "T3"); (ESlice (EVar "W") [SV "v"; SV "v"; SV "o"; SV "v"])]));
   (*L117*) SAug true "roovv" (EScale (-1 # 4) (EEins "ikcd,efkl,jlmabf,cdme->ijab" [(EVar "T2"); (EVar "T2dag"); (EVar "T3"); (ESlice (EVar "W") [SV "v"; SV "v"; SV "o"; SV "v"])]));
   (*L118*) SAug true "roovv" (EScale (1 # 4) (EEins "ikcd,efkl,jlmaef,cdmb->ijab" [(EVar "T2"); (EVar "T2dag"); (EVar "T3"); (ESlice (EVar "W") [SV "v"; SV "v"; SV "o"; SV "v"])]));
   (*L119*) SAug true "roovv" (EScale (1 # 4) (EEins "ikcd,cdlm,jmnabe,lekn->ijab" [(EVar "T2"); (EVar "T2dag"); (EVar "T3"); (ESlice (EVar "W") [SV "o"; SV "v"; SV "o"; SV "o"])]));
   (*L120*) SAug true "roovv" (EScale (-1 # 8) (EEins "ikcd,cdlm,lmnabe,jekn->ijab" [(EVar "T2"); (EVar "T2dag"); (EVar "T3"); (ESlice (EVar "W") [SV "o"; SV "v"; SV "o"; SV "o"])]));
   (*L121*) SAug true "roovv" (EScale (1 # 8) (EEins "ikcd,cdlm,jlmaef,efkb->ijab" [(EVar "T2"); (EVar "T2dag"); (EVar "T3"); (ESlice (EVar "W") [SV "v"; SV "v"; SV "o"; SV "v"])]));
   (*L122*) SAug true "roovv" (EScale (-1 # 2) (EEins "ikcd,celm,jmnabe,ldkn->ijab" [(EVar "T2"); (EVar "T2dag"); (EVar "T3"); (ESlice (EVar "W") [SV "o"; SV "v"; SV "o"; SV "o"])]));
   (*L123*) SAug true "roovv" (EScale (1 # 4) (EEins "ikcd,celm,lmnabe,jdkn->ijab" [(EVar "T2"); (EVar "T2dag"); (EVar "T3"); (ESlice (EVar "W") [SV "o"; SV "v"; SV "o"; SV "o"])]));
   (*L124*) SAug true "roovv" (EScale (1 # 4) (EEins "ikcd,celm,jlmabf,dfke->ijab" [(EVar "T2"); (EVar "T2dag"); (EVar "T3"); (ESlice (EVar "W") [SV "v"; SV "v"; SV "o"; SV "v"])]));
   (*L125*) SAug true "roovv" (EScale (-1 # 2) (EEins "ikcd,celm,jlmaef,dfkb->ijab" [(EVar "T2"); (EVar "T2dag"); (EVar "T3"); (ESlice (EVar "W") [SV "v"; SV "v"; SV "o"; SV "v"])]));
   (*L126*) SAug true "roovv" (EScale (1 # 8) (EEins "klcd,cekl,imnabe,jdmn->ijab" [(EVar "T2"); (EVar "T2dag"); (EVar "T3"); (ESlice (EVar "W") [SV "o"; SV "v"; SV "o"; SV "o"])]));
   (*L127*) SAug true "roovv" (EScale (-1 # 8) (EEins "klcd,cekl,ijmabf,dfme->ijab" [(EVar "T2"); (EVar "T2dag"); (EVar "T3"); (ESlice (EVar "W") [SV "v"; SV "v"; SV "o"; SV "v"])]));
   (*L128*) SAug true "roovv" (EScale (1 # 4) (EEins "klcd,cekl,ijmaef,dfmb->ijab" [(EVar "T2"); (EVar "T2dag"); (EVar "T3"); (ESlice (EVar "W") [SV "v"; SV "v"; SV "o"; SV "v"])]));
   (*L129*) SAug true "roovv" (EScale (1 # 16) (EEins "klcd,efkl,ijmabf,cdme->ijab" [(EVar "T2"); (EVar "T2dag"); (EVar "T3"); (ESlice (EVar "W") [SV "v"; SV "v"; SV "o"; SV "v"])]));
   (*L130*) SAug true "roovv" (EScale (-1 # 16) (EEins "klcd,efkl,ijmaef,cdmb->ijab" [(EVar "T2"); (EVar "T2dag"); (EVar "T3"); (ESlice (EVar "W") [SV "v"; SV "v"; SV "o"; SV "v"])]));
   (*L131*) SAug true "roovv" (EScale (-1 # 8) (EEins "klcd,cdkm,ijnabe,meln->ijab" [(EVar "T2"); (EVar "T2dag"); (EVar "T3"); (ESlice (EVar "W") [SV "o"; SV "v"; SV "o"; SV "o"])]));
   (*L132*) SAug true "roovv" (EScale (1 # 4) (EEins "klcd,cdkm,imnabe,jeln->ijab" [(EVar "T2"); (EVar "T2dag"); (EVar "T3"); (ESlice (EVar "W") [SV "o"; SV "v"; SV "o"; SV "o"])]));
   (*L133*) SAug true "roovv" (EScale (1 # 8) (EEins "klcd,cdkm,ijmaef,eflb->ijab" [(EVar "T2"); (EVar "T2dag"); (EVar "T3"); (ESlice (EVar "W") [SV "v"; SV "v"; SV "o"; SV "v"])]));
   (*L134*) SAug true "roovv" (EScale (1 # 4) (EEins "klcd,cekm,ijnabe,mdln->ijab" [(EVar "T2"); (EVar "T2dag"); (EVar "T3"); (ESlice (EVar "W") [SV "o"; SV "v"; SV "o"; SV "o"])]));
   (*L135*) SAug true "roovv" (EScale (-1 # 2) (EEins "klcd,cekm,imnabe,jdln->ijab" [(EVar "T2"); (EVar "T2dag"); (EVar "T3"); (ESlice (EVar "W") [SV "o"; SV "v"; SV "o"; SV "o"])]));
   (*L136*) SAug true "roovv" (EScale (1 # 4) (EEins "klcd,cekm,ijmabf,dfle->ijab" [(EVar "T2"); (EVar "T2dag"); (EVar "T3"); (ESlice (EVar "W") [SV "v"; SV "v"; SV "o"; SV "v"])]));
   (*L137*) SAug true "roovv" (EScale (-1 # 2) (EEins "klcd,cekm,ijmaef,dflb->ijab" [(EVar "T2"); (EVar "T2dag"); (EVar "T3"); (ESlice (EVar "W") [SV "v"; SV "v"; SV "o"; SV "v"])]));
   (*L138*) SAug true "roovv" (EScale (1 # 16) (EEins "klcd,cdmn,ijnabe,mekl->ijab" [(EVar "T2"); (EVar "T2dag"); (EVar "T3"); (ESlice (EVar "W") [SV "o"; SV "v"; SV "o"; SV "o"])]));
   (*L139*) SAug true "roovv" (EScale (-1 # 16) (EEins "klcd,cdmn,imnabe,jekl->ijab" [(EVar "T2"); (EVar "T2dag"); (EVar "T3"); (ESlice (EVar "W") [SV "o"; SV "v"; SV "o"; SV "o"])]));
   (*L141*) SAssign "roovv" (ECall "tamps.antisym_T2" [(EVar "roovv"); ENone; ENone])]
  (*L142*) (EVar "roovv").
