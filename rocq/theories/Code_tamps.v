(** Generated by tools/transcribe.py from /repo/UT2/tamps.py; do not edit. *)
From Coq Require Import String List QArith.
From Verif Require Import Interp.
Import ListNotations.
Open Scope string_scope.

(** /repo/UT2/tamps.py:53-61  def antisym_T2 *)
Definition antisym_T2 : fn := mkFn
  ["Roovv"; "nocc"; "nvir"]
  [(*L54*) SAssign "nocc" (EShape (EVar "Roovv") 0%nat);
   (*L55*) SAssign "nvir" (EShape (EVar "Roovv") 2%nat);
   (*L56*) SAssign "Roovv_anti" (EZeros [(EVar "nocc"); (EVar "nocc"); (EVar "nvir"); (EVar "nvir")]);
   (*L57*) SAug true "Roovv_anti" (EEins "ijab->ijab" [(EVar "Roovv")]);
   (*L58*) SAug false "Roovv_anti" (EEins "ijab->jiab" [(EVar "Roovv")]);
   (*L59*) SAug false "Roovv_anti" (EEins "ijab->ijba" [(EVar "Roovv")]);
   (*L60*) SAug true "Roovv_anti" (EEins "ijab->jiba" [(EVar "Roovv")])]
  (*L61*) (EVar "Roovv_anti").

(** /repo/UT2/tamps.py:65-107  def antisym_T3 *)
Definition antisym_T3 : fn := mkFn
  ["Rooovvv"; "nocc"; "nvir"]
  [(*L68*) SAssign "nocc" (EShape (EVar "Rooovvv") 0%nat);
   (*L69*) SAssign "nvir" (EShape (EVar "Rooovvv") 3%nat);
   (*L70*) SAssign "Rooovvv_anti" (EZeros [(EVar "nocc"); (EVar "nocc"); (EVar "nocc"); (EVar "nvir"); (EVar "nvir"); (EVar "nvir")]);
   (*L71*) SAug true "Rooovvv_anti" (EScale (1 # 1) (EEins "ijkabc->ijkabc" [(EVar "Rooovvv")]));
   (*L72*) SAug true "Rooovvv_anti" (EScale (-1 # 1) (EEins "ijkabc->ijkacb" [(EVar "Rooovvv")]));
   (*L73*) SAug true "Rooovvv_anti" (EScale (-1 # 1) (EEins "ijkabc->ijkbac" [(EVar "Rooovvv")]));
   (*L74*) SAug true "Rooovvv_anti" (EScale (1 # 1) (EEins "ijkabc->ijkbca" [(EVar "Rooovvv")]));
   (*L75*) SAug true "Rooovvv_anti" (EScale (1 # 1) (EEins "ijkabc->ijkcab" [(EVar "Rooovvv")]));
   (*L76*) SAug true "Rooovvv_anti" (EScale (-1 # 1) (EEins "ijkabc->ijkcba" [(EVar "Rooovvv")]));
   (*L77*) SAug true "Rooovvv_anti" (EScale (-1 # 1) (EEins "ijkabc->ikjabc" [(EVar "Rooovvv")]));
   (*L78*) SAug true "Rooovvv_anti" (EScale (1 # 1) (EEins "ijkabc->ikjacb" [(EVar "Rooovvv")]));
   (*L79*) SAug true "Rooovvv_anti" (EScale (1 # 1) (EEins "ijkabc->ikjbac" [(EVar "Rooovvv")]));
   (*L80*) SAug true "Rooovvv_anti" (EScale (-1 # 1) (EEins "ijkabc->ikjbca" [(EVar "Rooovvv")]));
   (*L81*) SAug true "Rooovvv_anti" (EScale (-1 # 1) (EEins "ijkabc->ikjcab" [(EVar "Rooovvv")]));
   (*L82*) SAug true "Rooovvv_anti" (EScale (1 # 1) (EEins "ijkabc->ikjcba" [(EVar "Rooovvv")]));
   (*L83*) SAug true "Rooovvv_anti" (EScale (-1 # 1) (EEins "ijkabc->jikabc" [(EVar "Rooovvv")]));
   (*L84*) SAug true "Rooovvv_anti" (EScale (1 # 1) (EEins "ijkabc->jikacb" [(EVar "Rooovvv")]));
   (*L85*) SAug true "Rooovvv_anti" (EScale (1 # 1) (EEins "ijkabc->jikbac" [(EVar "Rooovvv")]));
   (*L86*) SAug true "Rooovvv_anti" (EScale (-1 # 1) (EEins "ijkabc->jikbca" [(EVar "Rooovvv")]));
   (*L87*) SAug true "Rooovvv_anti" (EScale (-1 # 1) (EEins "ijkabc->jikcab" [(EVar "Rooovvv")]));
   (*L88*) SAug true "Rooovvv_anti" (EScale (1 # 1) (EEins "ijkabc->jikcba" [(EVar "Rooovvv")]));
   (*L89*) SAug true "Rooovvv_anti" (EScale (1 # 1) (EEins "ijkabc->jkiabc" [(EVar "Rooovvv")]));
   (*L90*) SAug true "Rooovvv_anti" (EScale (-1 # 1) (EEins "ijkabc->jkiacb" [(EVar "Rooovvv")]));
   (*L91*) SAug true "Rooovvv_anti" (EScale (-1 # 1) (EEins "ijkabc->jkibac" [(EVar "Rooovvv")]));
   (*L92*) SAug true "Rooovvv_anti" (EScale (1 # 1) (EEins "ijkabc->jkibca" [(EVar "Rooovvv")]));
   (*L93*) SAug true "Rooovvv_anti" (EScale (1 # 1) (EEins "ijkabc->jkicab" [(EVar "Rooovvv")]));
   (*L94*) SAug true "Rooovvv_anti" (EScale (-1 # 1) (EEins "ijkabc->jkicba" [(EVar "Rooovvv")]));
   (*L95*) SAug true "Rooovvv_anti" (EScale (1 # 1) (EEins "ijkabc->kijabc" [(EVar "Rooovvv")]));
   (*L96*) SAug true "Rooovvv_anti" (EScale (-1 # 1) (EEins "ijkabc->kijacb" [(EVar "Rooovvv")]));
   (*L97*) SAug true "Rooovvv_anti" (EScale (-1 # 1) (EEins "ijkabc->kijbac" [(EVar "Rooovvv")]));
   (*L98*) SAug true "Rooovvv_anti" (EScale (1 # 1) (EEins "ijkabc->kijbca" [(EVar "Rooovvv")]));
   (*L99*) SAug true "Rooovvv_anti" (EScale (1 # 1) (EEins "ijkabc->kijcab" [(EVar "Rooovvv")]));
   (*L100*) SAug true "Rooovvv_anti" (EScale (-1 # 1) (EEins "ijkabc->kijcba" [(EVar "Rooovvv")]));
   (*L101*) SAug true "Rooovvv_anti" (EScale (-1 # 1) (EEins "ijkabc->kjiabc" [(EVar "Rooovvv")]));
   (*L102*) SAug true "Rooovvv_anti" (EScale (1 # 1) (EEins "ijkabc->kjiacb" [(EVar "Rooovvv")]));
   (*L103*) SAug true "Rooovvv_anti" (EScale (1 # 1) (EEins "ijkabc->kjibac" [(EVar "Rooovvv")]));
   (*L104*) SAug true "Rooovvv_anti" (EScale (-1 # 1) (EEins "ijkabc->kjibca" [(EVar "Rooovvv")]));
   (*L105*) SAug true "Rooovvv_anti" (EScale (-1 # 1) (EEins "ijkabc->kjicab" [(EVar "Rooovvv")]));
   (*L106*) SAug true "Rooovvv_anti" (EScale (1 # 1) (EEins "ijkabc->kjicba" [(EVar "Rooovvv")]))]
  (*L107*) (EVar "Rooovvv_anti").

(** /repo/UT2/tamps.py:110-692  def antisym_T4 *)
Definition antisym_T4 : fn := mkFn
  ["Roooovvvv"; "nocc"; "nvirt"]
  [(*L111*) SAssign "nocc" (EShape (EVar "Roooovvvv") 0%nat);
   (*L112*) SAssign "nvirt" (EShape (EVar "Roooovvvv") 4%nat);
   (*L114*) SAssign "Roooovvvv_anti" (EZeros [(EVar "nocc"); (EVar "nocc"); (EVar "nocc"); (EVar "nocc"); (EVar "nvirt"); (EVar "nvirt"); (EVar "nvirt"); (EVar "nvirt")]);
   (*L116*) SAssign "Roooovvvv_anti" (EScale (1 # 1) (EEins "ijklabcd->ijklabcd" [(EVar "Roooovvvv")]));
   (*L117*) SAug true "Roooovvvv_anti" (EScale (-1 # 1) (EEins "ijklabcd->ijklabdc" [(EVar "Roooovvvv")]));
   (*L118*) SAug true "Roooovvvv_anti" (EScale (-1 # 1) (EEins "ijklabcd->ijklacbd" [(EVar "Roooovvvv")]));
   (*L119*) SAug true "Roooovvvv_anti" (EScale (1 # 1) (EEins "ijklabcd->ijklacdb" [(EVar "Roooovvvv")]));
   (*L120*) SAug true "Roooovvvv_anti" (EScale (-1 # 1) (EEins "ijklabcd->ijkladcb" [(EVar "Roooovvvv")]));
   (*L121*) SAug true "Roooovvvv_anti" (EScale (1 # 1) (EEins "ijklabcd->ijkladbc" [(EVar "Roooovvvv")]));
   (*L122*) SAug true "Roooovvvv_anti" (EScale (-1 # 1) (EEins "ijklabcd->ijklbacd" [(EVar "Roooovvvv")]));
   (*L123*) SAug true "Roooovvvv_anti" (EScale (1 # 1) (EEins "ijklabcd->ijklbadc" [(EVar "Roooovvvv")]));
   (*L124*) SAug true "Roooovvvv_anti" (EScale (1 # 1) (EEins "ijklabcd->ijklbcad" [(EVar "Roooovvvv")]));
   (*L125*) SAug true "Roooovvvv_anti" (EScale (-1 # 1) (EEins "ijklabcd->ijklbcda" [(EVar "Roooovvvv")]));
   (*L126*) SAug true "Roooovvvv_anti" (EScale (1 # 1) (EEins "ijklabcd->ijklbdca" [(EVar "Roooovvvv")]));
   (*L127*) SAug true "Roooovvvv_anti" (EScale (-1 # 1) (EEins "ijklabcd->ijklbdac" [(EVar "Roooovvvv")]));
   (*L128*) SAug true "Roooovvvv_anti" (EScale (-1 # 1) (EEins "ijklabcd->ijklcbad" [(EVar "Roooovvvv")]));
   (*L129*) SAug true "Roooovvvv_anti" (EScale (1 # 1) (EEins "ijklabcd->ijklcbda" [(EVar "Roooovvvv")]));
   (*L130*) SAug true "Roooovvvv_anti" (EScale (1 # 1) (EEins "ijklabcd->ijklcabd" [(EVar "Roooovvvv")]));
   (*L131*) SAug true "Roooovvvv_anti" (EScale (-1 # 1) (EEins "ijklabcd->ijklcadb" [(EVar "Roooovvvv")]));
   (*L132*) SAug true "Roooovvvv_anti" (EScale (1 # 1) (EEins "ijklabcd->ijklcdab" [(EVar "Roooovvvv")]));
   (*L133*) SAug true "Roooovvvv_anti" (EScale (-1 # 1) (EEins "ijklabcd->ijklcdba" [(EVar "Roooovvvv")]));
   (*L134*) SAug true "Roooovvvv_anti" (EScale (-1 # 1) (EEins "ijklabcd->ijkldbca" [(EVar "Roooovvvv")]));
   (*L135*) SAug true "Roooovvvv_anti" (EScale (1 # 1) (EEins "ijklabcd->ijkldbac" [(EVar "Roooovvvv")]));
   (*L136*) SAug true "Roooovvvv_anti" (EScale (1 # 1) (EEins "ijklabcd->ijkldcba" [(EVar "Roooovvvv")]));
   (*L137*) SAug true "Roooovvvv_anti" (EScale (-1 # 1) (EEins "ijklabcd->ijkldcab" [(EVar "Roooovvvv")]));
   (*L138*) SAug true "Roooovvvv_anti" (EScale (1 # 1) (EEins "ijklabcd->ijkldacb" [(EVar "Roooovvvv")]));
   (*L139*) SAug true "Roooovvvv_anti" (EScale (-1 # 1) (EEins "ijklabcd->ijkldabc" [(EVar "Roooovvvv")]));
   (*L140*) SAug true "Roooovvvv_anti" (EScale (-1 # 1) (EEins "ijklabcd->ijlkabcd" [(EVar "Roooovvvv")]));
   (*L141*) SAug true "Roooovvvv_anti" (EScale (1 # 1) (EEins "ijklabcd->ijlkabdc" [(EVar "Roooovvvv")]));
   (*L142*) SAug true "Roooovvvv_anti" (EScale (1 # 1) (EEins "ijklabcd->ijlkacbd" [(EVar "Roooovvvv")]));
   (*L143*) SAug true "Roooovvvv_anti" (EScale (-1 # 1) (EEins "ijklabcd->ijlkacdb" [(EVar "Roooovvvv")]));
   (*L144*) SAug true "Roooovvvv_anti" (EScale (1 # 1) (EEins "ijklabcd->ijlkadcb" [(EVar "Roooovvvv")]));
   (*L145*) SAug true "Roooovvvv_anti" (EScale (-1 # 1) (EEins "ijklabcd->ijlkadbc" [(EVar "Roooovvvv")]));
   (*L146*) SAug true "Roooovvvv_anti" (EScale (1 # 1) (EEins "ijklabcd->ijlkbacd" [(EVar "Roooovvvv")]));
   (*L147*) SAug true "Roooovvvv_anti" (EScale (-1 # 1) (EEins "ijklabcd->ijlkbadc" [(EVar "Roooovvvv")]));
   (*L148*) SAug true "Roooovvvv_anti" (EScale (-1 # 1) (EEins "ijklabcd->ijlkbcad" [(EVar "Roooovvvv")]));
   (*L149*) SAug true "Roooovvvv_anti" (EScale (1 # 1) (EEins "ijklabcd->ijlkbcda" [(EVar "Roooovvvv")]));
   (*L150*) SAug true "Roooovvvv_anti" (EScale (-1 # 1) (EEins "ijklabcd->ijlkbdca" [(EVar "Roooovvvv")]));
   (*L151*) SAug true "Roooovvvv_anti" (EScale (1 # 1) (EEins "ijklabcd->ijlkbdac" [(EVar "Roooovvvv")]));
   (*L152*) SAug true "Roooovvvv_anti" (EScale (1 # 1) (EEins "ijklabcd->ijlkcbad" [(EVar "Roooovvvv")]));
   (*L153*) SAug true "Roooovvvv_anti" (EScale (-1 # 1) (EEins "ijklabcd->ijlkcbda" [(EVar "Roooovvvv")]));
   (*L154*) SAug true "Roooovvvv_anti" (EScale (-1 # 1) (EEins "ijklabcd->ijlkcabd" [(EVar "Roooovvvv")]));
   (*L155*) SAug true "Roooovvvv_anti" (EScale (1 # 1) (EEins "ijklabcd->ijlkcadb" [(EVar "Roooovvvv")]));
   (*L156*) SAug true "Roooovvvv_anti" (EScale (-1 # 1) (EEins "ijklabcd->ijlkcdab" [(EVar "Roooovvvv")]));
   (*L157*) SAug true "Roooovvvv_anti" (EScale (1 # 1) (EEins "ijklabcd->ijlkcdba" [(EVar "Roooovvvv")]));
   (*L158*) SAug true "Roooovvvv_anti" (EScale (1 # 1) (EEins "ijklabcd->ijlkdbca" [(EVar "Roooovvvv")]));
   (*L159*) SAug true "Roooovvvv_anti" (EScale (-1 # 1) (EEins "ijklabcd->ijlkdbac" [(EVar "Roooovvvv")]));
   (*L160*) SAug true "Roooovvvv_anti" (EScale (-1 # 1) (EEins "ijklabcd->ijlkdcba" [(EVar "Roooovvvv")]));
   (*L161*) SAug true "Roooovvvv_anti" (EScale (1 # 1) (EEins "ijklabcd->ijlkdcab" [(EVar "Roooovvvv")]));
   (*L162*) SAug true "Roooovvvv_anti" (EScale (-1 # 1) (EEins "ijklabcd->ijlkdacb" [(EVar "Roooovvvv")]));
   (*L163*) SAug true "Roooovvvv_anti" (EScale (1 # 1) (EEins "ijklabcd->ijlkdabc" [(EVar "Roooovvvv")]));
   (*L164*) SAug true "Roooovvvv_anti" (EScale (-1 # 1) (EEins "ijklabcd->ikjlabcd" [(EVar "Roooovvvv")]));
   (*L165*) SAug true "Roooovvvv_anti" (EScale (1 # 1) (EEins "ijklabcd->ikjlabdc" [(EVar "Roooovvvv")]));
   (*L166*) SAug true "Roooovvvv_anti" (EScale (1 # 1) (EEins "ijklabcd->ikjlacbd" [(EVar "Roooovvvv")]));
   (*L167*) SAug true "Roooovvvv_anti" (EScale (-1 # 1) (EEins "ijklabcd->ikjlacdb" [(EVar "Roooovvvv")]));
   (*L168*) SAug true "Roooovvvv_anti" (EScale (1 # 1) (EEins "ijklabcd->ikjladcb" [(EVar "Roooovvvv")]));
   (*L169*) SAug true "Roooovvvv_anti" (EScale (-1 # 1) (EEins "ijklabcd->ikjladbc" [(EVar "Roooovvvv")]));
   (*L170*) SAug true "Roooovvvv_anti" (EScale (1 # 1) (EEins "ijklabcd->ikjlbacd" [(EVar "Roooovvvv")]));
   (*L171*) SAug true "Roooovvvv_anti" (EScale (-1 # 1) (EEins "ijklabcd->ikjlbadc" [(EVar "Roooovvvv")]));
   (*L172*) SAug true "Roooovvvv_anti" (EScale (-1 # 1) (EEins "ijklabcd->ikjlbcad" [(EVar "Roooovvvv")]));
   (*L173*) SAug true "Roooovvvv_anti" (EScale (1 # 1) (EEins "ijklabcd->ikjlbcda" [(EVar "Roooovvvv")]));
   (*L174*) SAug true "Roooovvvv_anti" (EScale (-1 # 1) (EEins "ijklabcd->ikjlbdca" [(EVar "Roooovvvv")]));
   (*L175*) SAug true "Roooovvvv_anti" (EScale (1 # 1) (EEins "ijklabcd->ikjlbdac" [(EVar "Roooovvvv")]));
   (*L176*) SAug true "Roooovvvv_anti" (EScale (1 # 1) (EEins "ijklabcd->ikjlcbad" [(EVar "Roooovvvv")]));
   (*L177*) SAug true "Roooovvvv_anti" (EScale (-1 # 1) (EEins "ijklabcd->ikjlcbda" [(EVar "Roooovvvv")]));
   (*L178*) SAug true "Roooovvvv_anti" (EScale (-1 # 1) (EEins "ijklabcd->ikjlcabd" [(EVar "Roooovvvv")]));
   (*L179*) SAug true "Roooovvvv_anti" (EScale (1 # 1) (EEins "ijklabcd->ikjlcadb" [(EVar "Roooovvvv")]));
   (*L180*) SAug true "Roooovvvv_anti" (EScale (-1 # 1) (EEins "ijklabcd->ikjlcdab" [(EVar "Roooovvvv")]));
   (*L181*) SAug true "Roooovvvv_anti" (EScale (1 # 1) (EEins "ijklabcd->ikjlcdba" [(EVar "Roooovvvv")]));
   (*L182*) SAug true "Roooovvvv_anti" (EScale (1 # 1) (EEins "ijklabcd->ikjldbca" [(EVar "Roooovvvv")]));
   (*L183*) SAug true "Roooovvvv_anti" (EScale (-1 # 1) (EEins "ijklabcd->ikjldbac" [(EVar "Roooovvvv")]));
   (*L184*) SAug true "Roooovvvv_anti" (EScale (-1 # 1) (EEins "ijklabcd->ikjldcba" [(EVar "Roooovvvv")]));
   (*L185*) SAug true "Roooovvvv_anti" (EScale (1 # 1) (EEins "ijklabcd->ikjldcab" [(EVar "Roooovvvv")]));
   (*L186*) SAug true "Roooovvvv_anti" (EScale (-1 # 1) (EEins "ijklabcd->ikjldacb" [(EVar "Roooovvvv")]));
   (*L187*) SAug true "Roooovvvv_anti" (EScale (1 # 1) (EEins "ijklabcd->ikjldabc" [(EVar "Roooovvvv")]));
   (*L188*) SAug true "Roooovvvv_anti" (EScale (1 # 1) (EEins "ijklabcd->ikljabcd" [(EVar "Roooovvvv")]));
   (*L189*) SAug true "Roooovvvv_anti" (EScale (-1 # 1) (EEins "ijklabcd->ikljabdc" [(EVar "Roooovvvv")]));
   (*L190*) SAug true "Roooovvvv_anti" (EScale (-1 # 1) (EEins "ijklabcd->ikljacbd" [(EVar "Roooovvvv")]));
   (*L191*) SAug true "Roooovvvv_anti" (EScale (1 # 1) (EEins "ijklabcd->ikljacdb" [(EVar "Roooovvvv")]));
   (*L192*) SAug true "Roooovvvv_anti" (EScale (-1 # 1) (EEins "ijklabcd->ikljadcb" [(EVar "Roooovvvv")]));
   (*L193*) SAug true "Roooovvvv_anti" (EScale (1 # 1) (EEins "ijklabcd->ikljadbc" [(EVar "Roooovvvv")]));
   (*L194*) SAug true "Roooovvvv_anti" (EScale (-1 # 1) (EEins "ijklabcd->ikljbacd" [(EVar "Roooovvvv")]));
   (*L195*) SAug true "Roooovvvv_anti" (EScale (1 # 1) (EEins "ijklabcd->ikljbadc" [(EVar "Roooovvvv")]));
   (*L196*) SAug true "Roooovvvv_anti" (EScale (1 # 1) (EEins "ijklabcd->ikljbcad" [(EVar "Roooovvvv")]));
   (*L197*) SAug true "Roooovvvv_anti" (EScale (-1 # 1) (EEins "ijklabcd->ikljbcda" [(EVar "Roooovvvv")]));
   (*L198*) SAug true "Roooovvvv_anti" (EScale (1 # 1) (EEins "ijklabcd->ikljbdca" [(EVar "Roooovvvv")]));
   (*L199*) SAug true "Roooovvvv_anti" (EScale (-1 # 1) (EEins "ijklabcd->ikljbdac" [(EVar "Roooovvvv")]));
   (*L200*) SAug true "Roooovvvv_anti" (EScale (-1 # 1) (EEins "ijklabcd->ikljcbad" [(EVar "Roooovvvv")]));
   (*L201*) SAug true "Roooovvvv_anti" (EScale (1 # 1) (EEins "ijklabcd->ikljcbda" [(EVar "Roooovvvv")]));
   (*L202*) SAug true "Roooovvvv_anti" (EScale (1 # 1) (EEins "ijklabcd->ikljcabd" [(EVar "Roooovvvv")]));
   (*L203*) SAug true "Roooovvvv_anti" (EScale (-1 # 1) (EEins "ijklabcd->ikljcadb" [(EVar "Roooovvvv")]));
   (*L204*) SAug true "Roooovvvv_anti" (EScale (1 # 1) (EEins "ijklabcd->ikljcdab" [(EVar "Roooovvvv")]));
   (*L205*) SAug true "Roooovvvv_anti" (EScale (-1 # 1) (EEins "ijklabcd->ikljcdba" [(EVar "Roooovvvv")]));
   (*L206*) SAug true "Roooovvvv_anti" (EScale (-1 # 1) (EEins "ijklabcd->ikljdbca" [(EVar "Roooovvvv")]));
   (*L207*) SAug true "Roooovvvv_anti" (EScale (1 # 1) (EEins "ijklabcd->ikljdbac" [(EVar "Roooovvvv")]));
   (*L208*) SAug true "Roooovvvv_anti" (EScale (1 # 1) (EEins "ijklabcd->ikljdcba" [(EVar "Roooovvvv")]));
   (*L209*) SAug true "Roooovvvv_anti" (EScale (-1 # 1) (EEins "ijklabcd->ikljdcab" [(EVar "Roooovvvv")]));
   (*L210*) SAug true "Roooovvvv_anti" (EScale (1 # 1) (EEins "ijklabcd->ikljdacb" [(EVar "Roooovvvv")]));
   (*L211*) SAug true "Roooovvvv_anti" (EScale (-1 # 1) (EEins "ijklabcd->ikljdabc" [(EVar "Roooovvvv")]));
   (*L212*) SAug true "Roooovvvv_anti" (EScale (-1 # 1) (EEins "ijklabcd->ilkjabcd" [(EVar "Roooovvvv")]));
   (*L213*) SAug true "Roooovvvv_anti" (EScale (1 # 1) (EEins "ijklabcd->ilkjabdc" [(EVar "Roooovvvv")]));
   (*L214*) SAug true "Roooovvvv_anti" (EScale (1 # 1) (EEins "ijklabcd->ilkjacbd" [(EVar "Roooovvvv")]));
   (*L215*) SAug true "Roooovvvv_anti" (EScale (-1 # 1) (EEins "ijklabcd->ilkjacdb" [(EVar "Roooovvvv")]));
   (*L216*) SAug true "Roooovvvv_anti" (EScale (1 # 1) (EEins "ijklabcd->ilkjadcb" [(EVar "Roooovvvv")]));
   (*L217*) SAug true "Roooovvvv_anti" (EScale (-1 # 1) (EEins "ijklabcd->ilkjadbc" [(EVar "Roooovvvv")]));
   (*L218*) SAug true "Roooovvvv_anti" (EScale (1 # 1) (EEins "ijklabcd->ilkjbacd" [(EVar "Roooovvvv")]));
   (*L219*) SAug true "Roooovvvv_anti" (EScale (-1 # 1) (EEins "ijklabcd->ilkjbadc" [(EVar "Roooovvvv")]));
   (*L220*) SAug true "Roooovvvv_anti" (EScale (-1 # 1) (EEins "ijklabcd->ilkjbcad" [(EVar "Roooovvvv")]));
   (*L221*) SAug true "Roooovvvv_anti" (EScale (1 # 1) (EEins "ijklabcd->ilkjbcda" [(EVar "Roooovvvv")]));
   (*L222*) SAug true "Roooovvvv_anti" (EScale (-1 # 1) (EEins "ijklabcd->ilkjbdca" [(EVar "Roooovvvv")]));
   (*L223*) SAug true "Roooovvvv_anti" (EScale (1 # 1) (EEins "ijklabcd->ilkjbdac" [(EVar "Roooovvvv")]));
   (*L224*) SAug true "Roooovvvv_anti" (EScale (1 # 1) (EEins "ijklabcd->ilkjcbad" [(EVar "Roooovvvv")]));
   (*L225*) SAug true "Roooovvvv_anti" (EScale (-1 # 1) (EEins "ijklabcd->ilkjcbda" [(EVar "Roooovvvv")]));
   (*L226*) SAug true "Roooovvvv_anti" (EScale (-1 # 1) (EEins "ijklabcd->ilkjcabd" [(EVar "Roooovvvv")]));
   (*L227*) SAug true "Roooovvvv_anti" (EScale (1 # 1) (EEins "ijklabcd->ilkjcadb" [(EVar "Roooovvvv")]));
   (*L228*) SAug true "Roooovvvv_anti" (EScale (-1 # 1) (EEins "ijklabcd->ilkjcdab" [(EVar "Roooovvvv")]));
   (*L229*) SAug true "Roooovvvv_anti" (EScale (1 # 1) (EEins "ijklabcd->ilkjcdba" [(EVar "Roooovvvv")]));
   (*L230*) SAug true "Roooovvvv_anti" (EScale (1 # 1) (EEins "ijklabcd->ilkjdbca" [(EVar "Roooovvvv")]));
   (*L231*) SAug true "Roooovvvv_anti" (EScale (-1 # 1) (EEins "ijklabcd->ilkjdbac" [(EVar "Roooovvvv")]));
   (*L232*) SAug true "Roooovvvv_anti" (EScale (-1 # 1) (EEins "ijklabcd->ilkjdcba" [(EVar "Roooovvvv")]));
   (*L233*) SAug true "Roooovvvv_anti" (EScale (1 # 1) (EEins "ijklabcd->ilkjdcab" [(EVar "Roooovvvv")]));
   (*L234*) SAug true "Roooovvvv_anti" (EScale (-1 # 1) (EEins "ijklabcd->ilkjdacb" [(EVar "Roooovvvv")]));
   (*L235*) SAug true "Roooovvvv_anti" (EScale (1 # 1) (EEins "ijklabcd->ilkjdabc" [(EVar "Roooovvvv")]));
   (*L236*) SAug true "Roooovvvv_anti" (EScale (1 # 1) (EEins "ijklabcd->iljkabcd" [(EVar "Roooovvvv")]));
   (*L237*) SAug true "Roooovvvv_anti" (EScale (-1 # 1) (EEins "ijklabcd->iljkabdc" [(EVar "Roooovvvv")]));
   (*L238*) SAug true "Roooovvvv_anti" (EScale (-1 # 1) (EEins "ijklabcd->iljkacbd" [(EVar "Roooovvvv")]));
   (*L239*) SAug true "Roooovvvv_anti" (EScale (1 # 1) (EEins "ijklabcd->iljkacdb" [(EVar "Roooovvvv")]));
   (*L240*) SAug true "Roooovvvv_anti" (EScale (-1 # 1) (EEins "ijklabcd->iljkadcb" [(EVar "Roooovvvv")]));
   (*L241*) SAug true "Roooovvvv_anti" (EScale (1 # 1) (EEins "ijklabcd->iljkadbc" [(EVar "Roooovvvv")]));
   (*L242*) SAug true "Roooovvvv_anti" (EScale (-1 # 1) (EEins "ijklabcd->iljkbacd" [(EVar "Roooovvvv")]));
   (*L243*) SAug true "Roooovvvv_anti" (EScale (1 # 1) (EEins "ijklabcd->iljkbadc" [(EVar "Roooovvvv")]));
   (*L244*) SAug true "Roooovvvv_anti" (EScale (1 # 1) (EEins "ijklabcd->iljkbcad" [(EVar "Roooovvvv")]));
   (*L245*) SAug true "Roooovvvv_anti" (EScale (-1 # 1) (EEins "ijklabcd->iljkbcda" [(EVar "Roooovvvv")]));
   (*L246*) SAug true "Roooovvvv_anti" (EScale (1 # 1) (EEins "ijklabcd->iljkbdca" [(EVar "Roooovvvv")]));
   (*L247*) SAug true "Roooovvvv_anti" (EScale (-1 # 1) (EEins "ijklabcd->iljkbdac" [(EVar "Roooovvvv")]));
   (*L248*) SAug true "Roooovvvv_anti" (EScale (-1 # 1) (EEins "ijklabcd->iljkcbad" [(EVar "Roooovvvv")]));
   (*L249*) SAug true "Roooovvvv_anti" (EScale (1 # 1) (EEins "ijklabcd->iljkcbda" [(EVar "Roooovvvv")]));
   (*L250*) SAug true "Roooovvvv_anti" (EScale (1 # 1) (EEins "ijklabcd->iljkcabd" [(EVar "Roooovvvv")]));
   (*L251*) SAug true "Roooovvvv_anti" (EScale (-1 # 1) (EEins "ijklabcd->iljkcadb" [(EVar "Roooovvvv")]));
   (*L252*) SAug true "Roooovvvv_anti" (EScale (1 # 1) (EEins "ijklabcd->iljkcdab" [(EVar "Roooovvvv")]));
   (*L253*) SAug true "Roooovvvv_anti" (EScale (-1 # 1) (EEins "ijklabcd->iljkcdba" [(EVar "Roooovvvv")]));
   (*L254*) SAug true "Roooovvvv_anti" (EScale (-1 # 1) (EEins "ijklabcd->iljkdbca" [(EVar "Roooovvvv")]));
   (*L255*) SAug true "Roooovvvv_anti" (EScale (1 # 1) (EEins "ijklabcd->iljkdbac" [(EVar "Roooovvvv")]));
   (*L256*) SAug true "Roooovvvv_anti" (EScale (1 # 1) (EEins "ijklabcd->iljkdcba" [(EVar "Roooovvvv")]));
   (*L257*) SAug true "Roooovvvv_anti" (EScale (-1 # 1) (EEins "ijklabcd->iljkdcab" [(EVar "Roooovvvv")]));
   (*L258*) SAug true "Roooovvvv_anti" (EScale (1 # 1) (EEins "ijklabcd->iljkdacb" [(EVar "Roooovvvv")]));
   (*L259*) SAug true "Roooovvvv_anti" (EScale (-1 # 1) (EEins "ijklabcd->iljkdabc" [(EVar "Roooovvvv")]));
   (*L260*) SAug true "Roooovvvv_anti" (EScale (-1 # 1) (EEins "ijklabcd->jiklabcd" [(EVar "Roooovvvv")]));
   (*L261*) SAug true "Roooovvvv_anti" (EScale (1 # 1) (EEins "ijklabcd->jiklabdc" [(EVar "Roooovvvv")]));
   (*L262*) SAug true "Roooovvvv_anti" (EScale (1 # 1) (EEins "ijklabcd->jiklacbd" [(EVar "Roooovvvv")]));
   (*L263*) SAug true "Roooovvvv_anti" (EScale (-1 # 1) (EEins "ijklabcd->jiklacdb" [(EVar "Roooovvvv")]));
   (*L264*) SAug true "Roooovvvv_anti" (EScale (1 # 1) (EEins "ijklabcd->jikladcb" [(EVar "Roooovvvv")]));
   (*L265*) SAug true "Roooovvvv_anti" (EScale (-1 # 1) (EEins "ijklabcd->jikladbc" [(EVar "Roooovvvv")]));
   (*L266*) SAug true "Roooovvvv_anti" (EScale (1 # 1) (EEins "ijklabcd->jiklbacd" [(EVar "Roooovvvv")]));
   (*L267*) SAug true "Roooovvvv_anti" (EScale (-1 # 1) (EEins "ijklabcd->jiklbadc" [(EVar "Roooovvvv")]));
   (*L268*) SAug true "Roooovvvv_anti" (EScale (-1 # 1) (EEins "ijklabcd->jiklbcad" [(EVar "Roooovvvv")]));
   (*L269*) SAug true "Roooovvvv_anti" (EScale (1 # 1) (EEins "ijklabcd->jiklbcda" [(EVar "Roooovvvv")]));
   (*L270*) SAug true "Roooovvvv_anti" (EScale (-1 # 1) (EEins "ijklabcd->jiklbdca" [(EVar "Roooovvvv")]));
   (*L271*) SAug true "Roooovvvv_anti" (EScale (1 # 1) (EEins "ijklabcd->jiklbdac" [(EVar "Roooovvvv")]));
   (*L272*) SAug true "Roooovvvv_anti" (EScale (1 # 1) (EEins "ijklabcd->jiklcbad" [(EVar "Roooovvvv")]));
   (*L273*) SAug true "Roooovvvv_anti" (EScale (-1 # 1) (EEins "ijklabcd->jiklcbda" [(EVar "Roooovvvv")]));
   (*L274*) SAug true "Roooovvvv_anti" (EScale (-1 # 1) (EEins "ijklabcd->jiklcabd" [(EVar "Roooovvvv")]));
   (*L275*) SAug true "Roooovvvv_anti" (EScale (1 # 1) (EEins "ijklabcd->jiklcadb" [(EVar "Roooovvvv")]));
   (*L276*) SAug true "Roooovvvv_anti" (EScale (-1 # 1) (EEins "ijklabcd->jiklcdab" [(EVar "Roooovvvv")]));
   (*L277*) SAug true "Roooovvvv_anti" (EScale (1 # 1) (EEins "ijklabcd->jiklcdba" [(EVar "Roooovvvv")]));
   (*L278*) SAug true "Roooovvvv_anti" (EScale (1 # 1) (EEins "ijklabcd->jikldbca" [(EVar "Roooovvvv")]));
   (*L279*) SAug true "Roooovvvv_anti" (EScale (-1 # 1) (EEins "ijklabcd->jikldbac" [(EVar "Roooovvvv")]));
   (*L280*) SAug true "Roooovvvv_anti" (EScale (-1 # 1) (EEins "ijklabcd->jikldcba" [(EVar "Roooovvvv")]));
   (*L281*) SAug true "Roooovvvv_anti" (EScale (1 # 1) (EEins "ijklabcd->jikldcab" [(EVar "Roooovvvv")]));
   (*L282*) SAug true "Roooovvvv_anti" (EScale (-1 # 1) (EEins "ijklabcd->jikldacb" [(EVar "Roooovvvv")]));
   (*L283*) SAug true "Roooovvvv_anti" (EScale (1 # 1) (EEins "ijklabcd->jikldabc" [(EVar "Roooovvvv")]));
   (*L284*) SAug true "Roooovvvv_anti" (EScale (1 # 1) (EEins "ijklabcd->jilkabcd" [(EVar "Roooovvvv")]));
   (*L285*) SAug true "Roooovvvv_anti" (EScale (-1 # 1) (EEins "ijklabcd->jilkabdc" [(EVar "Roooovvvv")]));
   (*L286*) SAug true "Roooovvvv_anti" (EScale (-1 # 1) (EEins "ijklabcd->jilkacbd" [(EVar "Roooovvvv")]));
   (*L287*) SAug true "Roooovvvv_anti" (EScale (1 # 1) (EEins "ijklabcd->jilkacdb" [(EVar "Roooovvvv")]));
   (*L288*) SAug true "Roooovvvv_anti" (EScale (-1 # 1) (EEins "ijklabcd->jilkadcb" [(EVar "Roooovvvv")]));
   (*L289*) SAug true "Roooovvvv_anti" (EScale (1 # 1) (EEins "ijklabcd->jilkadbc" [(EVar "Roooovvvv")]));
   (*L290*) SAug true "Roooovvvv_anti" (EScale (-1 # 1) (EEins "ijklabcd->jilkbacd" [(EVar "Roooovvvv")]));
   (*L291*) SAug true "Roooovvvv_anti" (EScale (1 # 1) (EEins "ijklabcd->jilkbadc" [(EVar "Roooovvvv")]));
   (*L292*) SAug true "Roooovvvv_anti" (EScale (1 # 1) (EEins "ijklabcd->jilkbcad" [(EVar "Roooovvvv")]));
   (*L293*) SAug true "Roooovvvv_anti" (EScale (-1 # 1) (EEins "ijklabcd->jilkbcda" [(EVar "Roooovvvv")]));
   (*L294*) SAug true "Roooovvvv_anti" (EScale (1 # 1) (EEins "ijklabcd->jilkbdca" [(EVar "Roooovvvv")]));
   (*L295*) SAug true "Roooovvvv_anti" (EScale (-1 # 1) (EEins "ijklabcd->jilkbdac" [(EVar "Roooovvvv")]));
   (*L296*) SAug true "Roooovvvv_anti" (EScale (-1 # 1) (EEins "ijklabcd->jilkcbad" [(EVar "Roooovvvv")]));
   (*L297*) SAug true "Roooovvvv_anti" (EScale (1 # 1) (EEins "ijklabcd->jilkcbda" [(EVar "Roooovvvv")]));
   (*L298*) SAug true "Roooovvvv_anti" (EScale (1 # 1) (EEins "ijklabcd->jilkcabd" [(EVar "Roooovvvv")]));
   (*L299*) SAug true "Roooovvvv_anti" (EScale (-1 # 1) (EEins "ijklabcd->jilkcadb" [(EVar "Roooovvvv")]));
   (*L300*) SAug true "Roooovvvv_anti" (EScale (1 # 1) (EEins "ijklabcd->jilkcdab" [(EVar "Roooovvvv")]));
   (*L301*) SAug true "Roooovvvv_anti" (EScale (-1 # 1) (EEins "ijklabcd->jilkcdba" [(EVar "Roooovvvv")]));
   (*L302*) SAug true "Roooovvvv_anti" (EScale (-1 # 1) (EEins "ijklabcd->jilkdbca" [(EVar "Roooovvvv")]));
   (*L303*) SAug true "Roooovvvv_anti" (EScale (1 # 1) (EEins "ijklabcd->jilkdbac" [(EVar "Roooovvvv")]));
   (*L304*) SAug true "Roooovvvv_anti" (EScale (1 # 1) (EEins "ijklabcd->jilkdcba" [(EVar "Roooovvvv")]));
   (*L305*) SAug true "Roooovvvv_anti" (EScale (-1 # 1) (EEins "ijklabcd->jilkdcab" [(EVar "Roooovvvv")]));
   (*L306*) SAug true "Roooovvvv_anti" (EScale (1 # 1) (EEins "ijklabcd->jilkdacb" [(EVar "Roooovvvv")]));
   (*L307*) SAug true "Roooovvvv_anti" (EScale (-1 # 1) (EEins "ijklabcd->jilkdabc" [(EVar "Roooovvvv")]));
   (*L308*) SAug true "Roooovvvv_anti" (EScale (1 # 1) (EEins "ijklabcd->jkilabcd" [(EVar "Roooovvvv")]));
   (*L309*) SAug true "Roooovvvv_anti" (EScale (-1 # 1) (EEins "ijklabcd->jkilabdc" [(EVar "Roooovvvv")]));
   (*L310*) SAug true "Roooovvvv_anti" (EScale (-1 # 1) (EEins "ijklabcd->jkilacbd" [(EVar "Roooovvvv")]));
   (*L311*) SAug true "Roooovvvv_anti" (EScale (1 # 1) (EEins "ijklabcd->jkilacdb" [(EVar "Roooovvvv")]));
   (*L312*) SAug true "Roooovvvv_anti" (EScale (-1 # 1) (EEins "ijklabcd->jkiladcb" [(EVar "Roooovvvv")]));
   (*L313*) SAug true "Roooovvvv_anti" (EScale (1 # 1) (EEins "ijklabcd->jkiladbc" [(EVar "Roooovvvv")]));
   (*L314*) SAug true "Roooovvvv_anti" (EScale (-1 # 1) (EEins "ijklabcd->jkilbacd" [(EVar "Roooovvvv")]));
   (*L315*) SAug true "Roooovvvv_anti" (EScale (1 # 1) (EEins "ijklabcd->jkilbadc" [(EVar "Roooovvvv")]));
   (*L316*) SAug true "Roooovvvv_anti" (EScale (1 # 1) (EEins "ijklabcd->jkilbcad" [(EVar "Roooovvvv")]));
   (*L317*) SAug true "Roooovvvv_anti" (EScale (-1 # 1) (EEins "ijklabcd->jkilbcda" [(EVar "Roooovvvv")]));
   (*L318*) SAug true "Roooovvvv_anti" (EScale (1 # 1) (EEins "ijklabcd->jkilbdca" [(EVar "Roooovvvv")]));
   (*L319*) SAug true "Roooovvvv_anti" (EScale (-1 # 1) (EEins "ijklabcd->jkilbdac" [(EVar "Roooovvvv")]));
   (*L320*) SAug true "Roooovvvv_anti" (EScale (-1 # 1) (EEins "ijklabcd->jkilcbad" [(EVar "Roooovvvv")]));
   (*L321*) SAug true "Roooovvvv_anti" (EScale (1 # 1) (EEins "ijklabcd->jkilcbda" [(EVar "Roooovvvv")]));
   (*L322*) SAug true "Roooovvvv_anti" (EScale (1 # 1) (EEins "ijklabcd->jkilcabd" [(EVar "Roooovvvv")]));
   (*L323*) SAug true "Roooovvvv_anti" (EScale (-1 # 1) (EEins "ijklabcd->jkilcadb" [(EVar "Roooovvvv")]));
   (*L324*) SAug true "Roooovvvv_anti" (EScale (1 # 1) (EEins "ijklabcd->jkilcdab" [(EVar "Roooovvvv")]));
   (*L325*) SAug true "Roooovvvv_anti" (EScale (-1 # 1) (EEins "ijklabcd->jkilcdba" [(EVar "Roooovvvv")]));
   (*L326*) SAug true "Roooovvvv_anti" (EScale (-1 # 1) (EEins "ijklabcd->jkildbca" [(EVar "Roooovvvv")]));
   (*L327*) SAug true "Roooovvvv_anti" (EScale (1 # 1) (EEins "ijklabcd->jkildbac" [(EVar "Roooovvvv")]));
   (*L328*) SAug true "Roooovvvv_anti" (EScale (1 # 1) (EEins "ijklabcd->jkildcba" [(EVar "Roooovvvv")]));
   (*L329*) SAug true "Roooovvvv_anti" (EScale (-1 # 1) (EEins "ijklabcd->jkildcab" [(EVar "Roooovvvv")]));
   (*L330*) SAug true "Roooovvvv_anti" (EScale (1 # 1) (EEins "ijklabcd->jkildacb" [(EVar "Roooovvvv")]));
   (*L331*) SAug true "Roooovvvv_anti" (EScale (-1 # 1) (EEins "ijklabcd->jkildabc" [(EVar "Roooovvvv")]));
   (*L332*) SAug true "Roooovvvv_anti" (EScale (-1 # 1) (EEins "ijklabcd->jkliabcd" [(EVar "Roooovvvv")]));
   (*L333*) SAug true "Roooovvvv_anti" (EScale (1 # 1) (EEins "ijklabcd->jkliabdc" [(EVar "Roooovvvv")]));
   (*L334*) SAug true "Roooovvvv_anti" (EScale (1 # 1) (EEins "ijklabcd->jkliacbd" [(EVar "Roooovvvv")]));
   (*L335*) SAug true "Roooovvvv_anti" (EScale (-1 # 1) (EEins "ijklabcd->jkliacdb" [(EVar "Roooovvvv")]));
   (*L336*) SAug true "Roooovvvv_anti" (EScale (1 # 1) (EEins "ijklabcd->jkliadcb" [(EVar "Roooovvvv")]));
   (*L337*) SAug true "Roooovvvv_anti" (EScale (-1 # 1) (EEins "ijklabcd->jkliadbc" [(EVar "Roooovvvv")]));
   (*L338*) SAug true "Roooovvvv_anti" (EScale (1 # 1) (EEins "ijklabcd->jklibacd" [(EVar "Roooovvvv")]));
   (*L339*) SAug true "Roooovvvv_anti" (EScale (-1 # 1) (EEins "ijklabcd->jklibadc" [(EVar "Roooovvvv")]));
   (*L340*) SAug true "Roooovvvv_anti" (EScale (-1 # 1) (EEins "ijklabcd->jklibcad" [(EVar "Roooovvvv")]));
   (*L341*) SAug true "Roooovvvv_anti" (EScale (1 # 1) (EEins "ijklabcd->jklibcda" [(EVar "Roooovvvv")]));
   (*L342*) SAug true "Roooovvvv_anti" (EScale (-1 # 1) (EEins "ijklabcd->jklibdca" [(EVar "Roooovvvv")]));
   (*L343*) SAug true "Roooovvvv_anti" (EScale (1 # 1) (EEins "ijklabcd->jklibdac" [(EVar "Roooovvvv")]));
   (*L344*) SAug true "Roooovvvv_anti" (EScale (1 # 1) (EEins "ijklabcd->jklicbad" [(EVar "Roooovvvv")]));
   (*L345*) SAug true "Roooovvvv_anti" (EScale (-1 # 1) (EEins "ijklabcd->jklicbda" [(EVar "Roooovvvv")]));
   (*L346*) SAug true "Roooovvvv_anti" (EScale (-1 # 1) (EEins "ijklabcd->jklicabd" [(EVar "Roooovvvv")]));
   (*L347*) SAug true "Roooovvvv_anti" (EScale (1 # 1) (EEins "ijklabcd->jklicadb" [(EVar "Roooovvvv")]));
   (*L348*) SAug true "Roooovvvv_anti" (EScale (-1 # 1) (EEins "ijklabcd->jklicdab" [(EVar "Roooovvvv")]));
   (*L349*) SAug true "Roooovvvv_anti" (EScale (1 # 1) (EEins "ijklabcd->jklicdba" [(EVar "Roooovvvv")]));
   (*L350*) SAug true "Roooovvvv_anti" (EScale (1 # 1) (EEins "ijklabcd->jklidbca" [(EVar "Roooovvvv")]));
   (*L351*) SAug true "Roooovvvv_anti" (EScale (-1 # 1) (EEins "ijklabcd->jklidbac" [(EVar "Roooovvvv")]));
   (*L352*) SAug true "Roooovvvv_anti" (EScale (-1 # 1) (EEins "ijklabcd->jklidcba" [(EVar "Roooovvvv")]));
   (*L353*) SAug true "Roooovvvv_anti" (EScale (1 # 1) (EEins "ijklabcd->jklidcab" [(EVar "Roooovvvv")]));
   (*L354*) SAug true "Roooovvvv_anti" (EScale (-1 # 1) (EEins "ijklabcd->jklidacb" [(EVar "Roooovvvv")]));
   (*L355*) SAug true "Roooovvvv_anti" (EScale (1 # 1) (EEins "ijklabcd->jklidabc" [(EVar "Roooovvvv")]));
   (*L356*) SAug true "Roooovvvv_anti" (EScale (1 # 1) (EEins "ijklabcd->jlkiabcd" [(EVar "Roooovvvv")]));
   (*L357*) SAug true "Roooovvvv_anti" (EScale (-1 # 1) (EEins "ijklabcd->jlkiabdc" [(EVar "Roooovvvv")]));
   (*L358*) SAug true "Roooovvvv_anti" (EScale (-1 # 1) (EEins "ijklabcd->jlkiacbd" [(EVar "Roooovvvv")]));
   (*L359*) SAug true "Roooovvvv_anti" (EScale (1 # 1) (EEins "ijklabcd->jlkiacdb" [(EVar "Roooovvvv")]));
   (*L360*) SAug true "Roooovvvv_anti" (EScale (-1 # 1) (EEins "ijklabcd->jlkiadcb" [(EVar "Roooovvvv")]));
   (*L361*) SAug true "Roooovvvv_anti" (EScale (1 # 1) (EEins "ijklabcd->jlkiadbc" [(EVar "Roooovvvv")]));
   (*L362*) SAug true "Roooovvvv_anti" (EScale (-1 # 1) (EEins "ijklabcd->jlkibacd" [(EVar "Roooovvvv")]));
   (*L363*) SAug true "Roooovvvv_anti" (EScale (1 # 1) (EEins "ijklabcd->jlkibadc" [(EVar "Roooovvvv")]));
   (*L364*) SAug true "Roooovvvv_anti" (EScale (1 # 1) (EEins "ijklabcd->jlkibcad" [(EVar "Roooovvvv")]));
   (*L365*) SAug true "Roooovvvv_anti" (EScale (-1 # 1) (EEins "ijklabcd->jlkibcda" [(EVar "Roooovvvv")]));
   (*L366*) SAug true "Roooovvvv_anti" (EScale (1 # 1) (EEins "ijklabcd->jlkibdca" [(EVar "Roooovvvv")]));
   (*L367*) SAug true "Roooovvvv_anti" (EScale (-1 # 1) (EEins "ijklabcd->jlkibdac" [(EVar "Roooovvvv")]));
   (*L368*) SAug true "Roooovvvv_anti" (EScale (-1 # 1) (EEins "ijklabcd->jlkicbad" [(EVar "Roooovvvv")]));
   (*L369*) SAug true "Roooovvvv_anti" (EScale (1 # 1) (EEins "ijklabcd->jlkicbda" [(EVar "Roooovvvv")]));
   (*L370*) SAug true "Roooovvvv_anti" (EScale (1 # 1) (EEins "ijklabcd->jlkicabd" [(EVar "Roooovvvv")]));
   (*L371*) SAug true "Roooovvvv_anti" (EScale (-1 # 1) (EEins "ijklabcd->jlkicadb" [(EVar "Roooovvvv")]));
   (*L372*) SAug true "Roooovvvv_anti" (EScale (1 # 1) (EEins "ijklabcd->jlkicdab" [(EVar "Roooovvvv")]));
   (*L373*) SAug true "Roooovvvv_anti" (EScale (-1 # 1) (EEins "ijklabcd->jlkicdba" [(EVar "Roooovvvv")]));
   (*L374*) SAug true "Roooovvvv_anti" (EScale (-1 # 1) (EEins "ijklabcd->jlkidbca" [(EVar "Roooovvvv")]));
   (*L375*) SAug true "Roooovvvv_anti" (EScale (1 # 1) (EEins "ijklabcd->jlkidbac" [(EVar "Roooovvvv")]));
   (*L376*) SAug true "Roooovvvv_anti" (EScale (1 # 1) (EEins "ijklabcd->jlkidcba" [(EVar "Roooovvvv")]));
   (*L377*) SAug true "Roooovvvv_anti" (EScale (-1 # 1) (EEins "ijklabcd->jlkidcab" [(EVar "Roooovvvv")]));
   (*L378*) SAug true "Roooovvvv_anti" (EScale (1 # 1) (EEins "ijklabcd->jlkidacb" [(EVar "Roooovvvv")]));
   (*L379*) SAug true "Roooovvvv_anti" (EScale (-1 # 1) (EEins "ijklabcd->jlkidabc" [(EVar "Roooovvvv")]));
   (*L380*) SAug true "Roooovvvv_anti" (EScale (-1 # 1) (EEins "ijklabcd->jlikabcd" [(EVar "Roooovvvv")]));
   (*L381*) SAug true "Roooovvvv_anti" (EScale (1 # 1) (EEins "ijklabcd->jlikabdc" [(EVar "Roooovvvv")]));
   (*L382*) SAug true "Roooovvvv_anti" (EScale (1 # 1) (EEins "ijklabcd->jlikacbd" [(EVar "Roooovvvv")]));
   (*L383*) SAug true "Roooovvvv_anti" (EScale (-1 # 1) (EEins "ijklabcd->jlikacdb" [(EVar "Roooovvvv")]));
   (*L384*) SAug true "Roooovvvv_anti" (EScale (1 # 1) (EEins "ijklabcd->jlikadcb" [(EVar "Roooovvvv")]));
   (*L385*) SAug true "Roooovvvv_anti" (EScale (-1 # 1) (EEins "ijklabcd->jlikadbc" [(EVar "Roooovvvv")]));
   (*L386*) SAug true "Roooovvvv_anti" (EScale (1 # 1) (EEins "ijklabcd->jlikbacd" [(EVar "Roooovvvv")]));
   (*L387*) SAug true "Roooovvvv_anti" (EScale (-1 # 1) (EEins "ijklabcd->jlikbadc" [(EVar "Roooovvvv")]));
   (*L388*) SAug true "Roooovvvv_anti" (EScale (-1 # 1) (EEins "ijklabcd->jlikbcad" [(EVar "Roooovvvv")]));
   (*L389*) SAug true "Roooovvvv_anti" (EScale (1 # 1) (EEins "ijklabcd->jlikbcda" [(EVar "Roooovvvv")]));
   (*L390*) SAug true "Roooovvvv_anti" (EScale (-1 # 1) (EEins "ijklabcd->jlikbdca" [(EVar "Roooovvvv")]));
   (*L391*) SAug true "Roooovvvv_anti" (EScale (1 # 1) (EEins "ijklabcd->jlikbdac" [(EVar "Roooovvvv")]));
   (*L392*) SAug true "Roooovvvv_anti" (EScale (1 # 1) (EEins "ijklabcd->jlikcbad" [(EVar "Roooovvvv")]));
   (*L393*) SAug true "Roooovvvv_anti" (EScale (-1 # 1) (EEins "ijklabcd->jlikcbda" [(EVar "Roooovvvv")]));
   (*L394*) SAug true "Roooovvvv_anti" (EScale (-1 # 1) (EEins "ijklabcd->jlikcabd" [(EVar "Roooovvvv")]));
   (*L395*) SAug true "Roooovvvv_anti" (EScale (1 # 1) (EEins "ijklabcd->jlikcadb" [(EVar "Roooovvvv")]));
   (*L396*) SAug true "Roooovvvv_anti" (EScale (-1 # 1) (EEins "ijklabcd->jlikcdab" [(EVar "Roooovvvv")]));
   (*L397*) SAug true "Roooovvvv_anti" (EScale (1 # 1) (EEins "ijklabcd->jlikcdba" [(EVar "Roooovvvv")]));
   (*L398*) SAug true "Roooovvvv_anti" (EScale (1 # 1) (EEins "ijklabcd->jlikdbca" [(EVar "Roooovvvv")]));
   (*L399*) SAug true "Roooovvvv_anti" (EScale (-1 # 1) (EEins "ijklabcd->jlikdbac" [(EVar "Roooovvvv")]));
   (*L400*) SAug true "Roooovvvv_anti" (EScale (-1 # 1) (EEins "ijklabcd->jlikdcba" [(EVar "Roooovvvv")]));
   (*L401*) SAug true "Roooovvvv_anti" (EScale (1 # 1) (EEins "ijklabcd->jlikdcab" [(EVar "Roooovvvv")]));
   (*L402*) SAug true "Roooovvvv_anti" (EScale (-1 # 1) (EEins "ijklabcd->jlikdacb" [(EVar "Roooovvvv")]));
   (*L403*) SAug true "Roooovvvv_anti" (EScale (1 # 1) (EEins "ijklabcd->jlikdabc" [(EVar "Roooovvvv")]));
   (*L404*) SAug true "Roooovvvv_anti" (EScale (-1 # 1) (EEins "ijklabcd->kjilabcd" [(EVar "Roooovvvv")]));
   (*L405*) SAug true "Roooovvvv_anti" (EScale (1 # 1) (EEins "ijklabcd->kjilabdc" [(EVar "Roooovvvv")]));
   (*L406*) SAug true "Roooovvvv_anti" (EScale (1 # 1) (EEins "ijklabcd->kjilacbd" [(EVar "Roooovvvv")]));
   (*L407*) SAug true "Roooovvvv_anti" (EScale (-1 # 1) (EEins "ijklabcd->kjilacdb" [(EVar "Roooovvvv")]));
   (*L408*) SAug true "Roooovvvv_anti" (EScale (1 # 1) (EEins "ijklabcd->kjiladcb" [(EVar "Roooovvvv")]));
   (*L409*) SAug true "Roooovvvv_anti" (EScale (-1 # 1) (EEins "ijklabcd->kjiladbc" [(EVar "Roooovvvv")]));
   (*L410*) SAug true "Roooovvvv_anti" (EScale (1 # 1) (EEins "ijklabcd->kjilbacd" [(EVar "Roooovvvv")]));
   (*L411*) SAug true "Roooovvvv_anti" (EScale (-1 # 1) (EEins "ijklabcd->kjilbadc" [(EVar "Roooovvvv")]));
   (*L412*) SAug true "Roooovvvv_anti" (EScale (-1 # 1) (EEins "ijklabcd->kjilbcad" [(EVar "Roooovvvv")]));
   (*L413*) SAug true "Roooovvvv_anti" (EScale (1 # 1) (EEins "ijklabcd->kjilbcda" [(EVar "Roooovvvv")]));
   (*L414*) SAug true "Roooovvvv_anti" (EScale (-1 # 1) (EEins "ijklabcd->kjilbdca" [(EVar "Roooovvvv")]));
   (*L415*) SAug true "Roooovvvv_anti" (EScale (1 # 1) (EEins "ijklabcd->kjilbdac" [(EVar "Roooovvvv")]));
   (*L416*) SAug true "Roooovvvv_anti" (EScale (1 # 1) (EEins "ijklabcd->kjilcbad" [(EVar "Roooovvvv")]));
   (*L417*) SAug true "Roooovvvv_anti" (EScale (-1 # 1) (EEins "ijklabcd->kjilcbda" [(EVar "Roooovvvv")]));
   (*L418*) SAug true "Roooovvvv_anti" (EScale (-1 # 1) (EEins "ijklabcd->kjilcabd" [(EVar "Roooovvvv")]));
   (*L419*) SAug true "Roooovvvv_anti" (EScale (1 # 1) (EEins "ijklabcd->kjilcadb" [(EVar "Roooovvvv")]));
   (*L420*) SAug true "Roooovvvv_anti" (EScale (-1 # 1) (EEins "ijklabcd->kjilcdab" [(EVar "Roooovvvv")]));
   (*L421*) SAug true "Roooovvvv_anti" (EScale (1 # 1) (EEins "ijklabcd->kjilcdba" [(EVar "Roooovvvv")]));
   (*L422*) SAug true "Roooovvvv_anti" (EScale (1 # 1) (EEins "ijklabcd->kjildbca" [(EVar "Roooovvvv")]));
   (*L423*) SAug true "Roooovvvv_anti" (EScale (-1 # 1) (EEins "ijklabcd->kjildbac" [(EVar "Roooovvvv")]));
   (*L424*) SAug true "Roooovvvv_anti" (EScale (-1 # 1) (EEins "ijklabcd->kjildcba" [(EVar "Roooovvvv")]));
   (*L425*) SAug true "Roooovvvv_anti" (EScale (1 # 1) (EEins "ijklabcd->kjildcab" [(EVar "Roooovvvv")]));
   (*L426*) SAug true "Roooovvvv_anti" (EScale (-1 # 1) (EEins "ijklabcd->kjildacb" [(EVar "Roooovvvv")]));
   (*L427*) SAug true "Roooovvvv_anti" (EScale (1 # 1) (EEins "ijklabcd->kjildabc" [(EVar "Roooovvvv")]));
   (*L428*) SAug true "Roooovvvv_anti" (EScale (1 # 1) (EEins "ijklabcd->kjliabcd" [(EVar "Roooovvvv")]));
   (*L429*) SAug true "Roooovvvv_anti" (EScale (-1 # 1) (EEins "ijklabcd->kjliabdc" [(EVar "Roooovvvv")]));
   (*L430*) SAug true "Roooovvvv_anti" (EScale (-1 # 1) (EEins "ijklabcd->kjliacbd" [(EVar "Roooovvvv")]));
   (*L431*) SAug true "Roooovvvv_anti" (EScale (1 # 1) (EEins "ijklabcd->kjliacdb" [(EVar "Roooovvvv")]));
   (*L432*) SAug true "Roooovvvv_anti" (EScale (-1 # 1) (EEins "ijklabcd->kjliadcb" [(EVar "Roooovvvv")]));
   (*L433*) SAug true "Roooovvvv_anti" (EScale (1 # 1) (EEins "ijklabcd->kjliadbc" [(EVar "Roooovvvv")]));
   (*L434*) SAug true "Roooovvvv_anti" (EScale (-1 # 1) (EEins "ijklabcd->kjlibacd" [(EVar "Roooovvvv")]));
   (*L435*) SAug true "Roooovvvv_anti" (EScale (1 # 1) (EEins "ijklabcd->kjlibadc" [(EVar "Roooovvvv")]));
   (*L436*) SAug true "Roooovvvv_anti" (EScale (1 # 1) (EEins "ijklabcd->kjlibcad" [(EVar "Roooovvvv")]));
   (*L437*) SAug true "Roooovvvv_anti" (EScale (-1 # 1) (EEins "ijklabcd->kjlibcda" [(EVar "Roooovvvv")]));
   (*L438*) SAug true "Roooovvvv_anti" (EScale (1 # 1) (EEins "ijklabcd->kjlibdca" [(EVar "Roooovvvv")]));
   (*L439*) SAug true "Roooovvvv_anti" (EScale (-1 # 1) (EEins "ijklabcd->kjlibdac" [(EVar "Roooovvvv")]));
   (*L440*) SAug true "Roooovvvv_anti" (EScale (-1 # 1) (EEins "ijklabcd->kjlicbad" [(EVar "Roooovvvv")]));
   (*L441*) SAug true "Roooovvvv_anti" (EScale (1 # 1) (EEins "ijklabcd->kjlicbda" [(EVar "Roooovvvv")]));
   (*L442*) SAug true "Roooovvvv_anti" (EScale (1 # 1) (EEins "ijklabcd->kjlicabd" [(EVar "Roooovvvv")]));
   (*L443*) SAug true "Roooovvvv_anti" (EScale (-1 # 1) (EEins "ijklabcd->kjlicadb" [(EVar "Roooovvvv")]));
   (*L444*) SAug true "Roooovvvv_anti" (EScale (1 # 1) (EEins "ijklabcd->kjlicdab" [(EVar "Roooovvvv")]));
   (*L445*) SAug true "Roooovvvv_anti" (EScale (-1 # 1) (EEins "ijklabcd->kjlicdba" [(EVar "Roooovvvv")]));
   (*L446*) SAug true "Roooovvvv_anti" (EScale (-1 # 1) (EEins "ijklabcd->kjlidbca" [(EVar "Roooovvvv")]));
   (*L447*) SAug true "Roooovvvv_anti" (EScale (1 # 1) (EEins "ijklabcd->kjlidbac" [(EVar "Roooovvvv")]));
   (*L448*) SAug true "Roooovvvv_anti" (EScale (1 # 1) (EEins "ijklabcd->kjlidcba" [(EVar "Roooovvvv")]));
   (*L449*) SAug true "Roooovvvv_anti" (EScale (-1 # 1) (EEins "ijklabcd->kjlidcab" [(EVar "Roooovvvv")]));
   (*L450*) SAug true "Roooovvvv_anti" (EScale (1 # 1) (EEins "ijklabcd->kjlidacb" [(EVar "Roooovvvv")]));
   (*L451*) SAug true "Roooovvvv_anti" (EScale (-1 # 1) (EEins "ijklabcd->kjlidabc" [(EVar "Roooovvvv")]));
   (*L452*) SAug true "Roooovvvv_anti" (EScale (1 # 1) (EEins "ijklabcd->kijlabcd" [(EVar "Roooovvvv")]));
   (*L453*) SAug true "Roooovvvv_anti" (EScale (-1 # 1) (EEins "ijklabcd->kijlabdc" [(EVar "Roooovvvv")]));
   (*L454*) SAug true "Roooovvvv_anti" (EScale (-1 # 1) (EEins "ijklabcd->kijlacbd" [(EVar "Roooovvvv")]));
   (*L455*) SAug true "Roooovvvv_anti" (EScale (1 # 1) (EEins "ijklabcd->kijlacdb" [(EVar "Roooovvvv")]));
   (*L456*) SAug true "Roooovvvv_anti" (EScale (-1 # 1) (EEins "ijklabcd->kijladcb" [(EVar "Roooovvvv")]));
   (*L457*) SAug true "Roooovvvv_anti" (EScale (1 # 1) (EEins "ijklabcd->kijladbc" [(EVar "Roooovvvv")]));
   (*L458*) SAug true "Roooovvvv_anti" (EScale (-1 # 1) (EEins "ijklabcd->kijlbacd" [(EVar "Roooovvvv")]));
   (*L459*) SAug true "Roooovvvv_anti" (EScale (1 # 1) (EEins "ijklabcd->kijlbadc" [(EVar "Roooovvvv")]));
   (*L460*) SAug true "Roooovvvv_anti" (EScale (1 # 1) (EEins "ijklabcd->kijlbcad" [(EVar "Roooovvvv")]));
   (*L461*) SAug true "Roooovvvv_anti" (EScale (-1 # 1) (EEins "ijklabcd->kijlbcda" [(EVar "Roooovvvv")]));
   (*L462*) SAug true "Roooovvvv_anti" (EScale (1 # 1) (EEins "ijklabcd->kijlbdca" [(EVar "Roooovvvv")]));
   (*L463*) SAug true "Roooovvvv_anti" (EScale (-1 # 1) (EEins "ijklabcd->kijlbdac" [(EVar "Roooovvvv")]));
   (*L464*) SAug true "Roooovvvv_anti" (EScale (-1 # 1) (EEins "ijklabcd->kijlcbad" [(EVar "Roooovvvv")]));
   (*L465*) SAug true "Roooovvvv_anti" (EScale (1 # 1) (EEins "ijklabcd->kijlcbda" [(EVar "Roooovvvv")]));
   (*L466*) SAug true "Roooovvvv_anti" (EScale (1 # 1) (EEins "ijklabcd->kijlcabd" [(EVar "Roooovvvv")]));
   (*L467*) SAug true "Roooovvvv_anti" (EScale (-1 # 1) (EEins "ijklabcd->kijlcadb" [(EVar "Roooovvvv")]));
   (*L468*) SAug true "Roooovvvv_anti" (EScale (1 # 1) (EEins "ijklabcd->kijlcdab" [(EVar "Roooovvvv")]));
   (*L469*) SAug true "Roooovvvv_anti" (EScale (-1 # 1) (EEins "ijklabcd->kijlcdba" [(EVar "Roooovvvv")]));
   (*L470*) SAug true "Roooovvvv_anti" (EScale (-1 # 1) (EEins "ijklabcd->kijldbca" [(EVar "Roooovvvv")]));
   (*L471*) SAug true "Roooovvvv_anti" (EScale (1 # 1) (EEins "ijklabcd->kijldbac" [(EVar "Roooovvvv")]));
   (*L472*) SAug true "Roooovvvv_anti" (EScale (1 # 1) (EEins "ijklabcd->kijldcba" [(EVar "Roooovvvv")]));
   (*L473*) SAug true "Roooovvvv_anti" (EScale (-1 # 1) (EEins "ijklabcd->kijldcab" [(EVar "Roooovvvv")]));
   (*L474*) SAug true "Roooovvvv_anti" (EScale (1 # 1) (EEins "ijklabcd->kijldacb" [(EVar "Roooovvvv")]));
   (*L475*) SAug true "Roooovvvv_anti" (EScale (-1 # 1) (EEins "ijklabcd->kijldabc" [(EVar "Roooovvvv")]));
   (*L476*) SAug true "Roooovvvv_anti" (EScale (-1 # 1) (EEins "ijklabcd->kiljabcd" [(EVar "Roooovvvv")]));
   (*L477*) SAug true "Roooovvvv_anti" (EScale (1 # 1) (EEins "ijklabcd->kiljabdc" [(EVar "Roooovvvv")]));
   (*L478*) SAug true "Roooovvvv_anti" (EScale (1 # 1) (EEins "ijklabcd->kiljacbd" [(EVar "Roooovvvv")]));
   (*L479*) SAug true "Roooovvvv_anti" (EScale (-1 # 1) (EEins "ijklabcd->kiljacdb" [(EVar "Roooovvvv")]));
   (*L480*) SAug true "Roooovvvv_anti" (EScale (1 # 1) (EEins "ijklabcd->kiljadcb" [(EVar "Roooovvvv")]));
   (*L481*) SAug true "Roooovvvv_anti" (EScale (-1 # 1) (EEins "ijklabcd->kiljadbc" [(EVar "Roooovvvv")]));
   (*L482*) SAug true "Roooovvvv_anti" (EScale (1 # 1) (EEins "ijklabcd->kiljbacd" [(EVar "Roooovvvv")]));
   (*L483*) SAug true "Roooovvvv_anti" (EScale (-1 # 1) (EEins "ijklabcd->kiljbadc" [(EVar "Roooovvvv")]));
   (*L484*) SAug true "Roooovvvv_anti" (EScale (-1 # 1) (EEins "ijklabcd->kiljbcad" [(EVar "Roooovvvv")]));
   (*L485*) SAug true "Roooovvvv_anti" (EScale (1 # 1) (EEins "ijklabcd->kiljbcda" [(EVar "Roooovvvv")]));
   (*L486*) SAug true "Roooovvvv_anti" (EScale (-1 # 1) (EEins "ijklabcd->kiljbdca" [(EVar "Roooovvvv")]));
   (*L487*) SAug true "Roooovvvv_anti" (EScale (1 # 1) (EEins "ijklabcd->kiljbdac" [(EVar "Roooovvvv")]));
   (*L488*) SAug true "Roooovvvv_anti" (EScale (1 # 1) (EEins "ijklabcd->kiljcbad" [(EVar "Roooovvvv")]));
   (*L489*) SAug true "Roooovvvv_anti" (EScale (-1 # 1) (EEins "ijklabcd->kiljcbda" [(EVar "Roooovvvv")]));
   (*L490*) SAug true "Roooovvvv_anti" (EScale (-1 # 1) (EEins "ijklabcd->kiljcabd" [(EVar "Roooovvvv")]));
   (*L491*) SAug true "Roooovvvv_anti" (EScale (1 # 1) (EEins "ijklabcd->kiljcadb" [(EVar "Roooovvvv")]));
   (*L492*) SAug true "Roooovvvv_anti" (EScale (-1 # 1) (EEins "ijklabcd->kiljcdab" [(EVar "Roooovvvv")]));
   (*L493*) SAug true "Roooovvvv_anti" (EScale (1 # 1) (EEins "ijklabcd->kiljcdba" [(EVar "Roooovvvv")]));
   (*L494*) SAug true "Roooovvvv_anti" (EScale (1 # 1) (EEins "ijklabcd->kiljdbca" [(EVar "Roooovvvv")]));
   (*L495*) SAug true "Roooovvvv_anti" (EScale (-1 # 1) (EEins "ijklabcd->kiljdbac" [(EVar "Roooovvvv")]));
   (*L496*) SAug true "Roooovvvv_anti" (EScale (-1 # 1) (EEins "ijklabcd->kiljdcba" [(EVar "Roooovvvv")]));
   (*L497*) SAug true "Roooovvvv_anti" (EScale (1 # 1) (EEins "ijklabcd->kiljdcab" [(EVar "Roooovvvv")]));
   (*L498*) SAug true "Roooovvvv_anti" (EScale (-1 # 1) (EEins "ijklabcd->kiljdacb" [(EVar "Roooovvvv")]));
   (*L499*) SAug true "Roooovvvv_anti" (EScale (1 # 1) (EEins "ijklabcd->kiljdabc" [(EVar "Roooovvvv")]));
   (*L500*) SAug true "Roooovvvv_anti" (EScale (1 # 1) (EEins "ijklabcd->klijabcd" [(EVar "Roooovvvv")]));
   (*L501*) SAug true "Roooovvvv_anti" (EScale (-1 # 1) (EEins "ijklabcd->klijabdc" [(EVar "Roooovvvv")]));
   (*L502*) SAug true "Roooovvvv_anti" (EScale (-1 # 1) (EEins "ijklabcd->klijacbd" [(EVar "Roooovvvv")]));
   (*L503*) SAug true "Roooovvvv_anti" (EScale (1 # 1) (EEins "ijklabcd->klijacdb" [(EVar "Roooovvvv")]));
   (*L504*) SAug true "Roooovvvv_anti" (EScale (-1 # 1) (EEins "ijklabcd->klijadcb" [(EVar "Roooovvvv")]));
   (*L505*) SAug true "Roooovvvv_anti" (EScale (1 # 1) (EEins "ijklabcd->klijadbc" [(EVar "Roooovvvv")]));
   (*L506*) SAug true "Roooovvvv_anti" (EScale (-1 # 1) (EEins "ijklabcd->klijbacd" [(EVar "Roooovvvv")]));
   (*L507*) SAug true "Roooovvvv_anti" (EScale (1 # 1) (EEins "ijklabcd->klijbadc" [(EVar "Roooovvvv")]));
   (*L508*) SAug true "Roooovvvv_anti" (EScale (1 # 1) (EEins "ijklabcd->klijbcad" [(EVar "Roooovvvv")]));
   (*L509*) SAug true "Roooovvvv_anti" (EScale (-1 # 1) (EEins "ijklabcd->klijbcda" [(EVar "Roooovvvv")]));
   (*L510*) SAug true "Roooovvvv_anti" (EScale (1 # 1) (EEins "ijklabcd->klijbdca" [(EVar "Roooovvvv")]));
   (*L511*) SAug true "Roooovvvv_anti" (EScale (-1 # 1) (EEins "ijklabcd->klijbdac" [(EVar "Roooovvvv")]));
   (*L512*) SAug true "Roooovvvv_anti" (EScale (-1 # 1) (EEins "ijklabcd->klijcbad" [(EVar "Roooovvvv")]));
   (*L513*) SAug true "Roooovvvv_anti" (EScale (1 # 1) (EEins "ijklabcd->klijcbda" [(EVar "Roooovvvv")]));
   (*L514*) SAug true "Roooovvvv_anti" (EScale (1 # 1) (EEins "ijklabcd->klijcabd" [(EVar "Roooovvvv")]));
   (*L515*) SAug true "Roooovvvv_anti" (EScale (-1 # 1) (EEins "ijklabcd->klijcadb" [(EVar "Roooovvvv")]));
   (*L516*) SAug true "Roooovvvv_anti" (EScale (1 # 1) (EEins "ijklabcd->klijcdab" [(EVar "Roooovvvv")]));
   (*L517*) SAug true "Roooovvvv_anti" (EScale (-1 # 1) (EEins "ijklabcd->klijcdba" [(EVar "Roooovvvv")]));
   (*L518*) SAug true "Roooovvvv_anti" (EScale (-1 # 1) (EEins "ijklabcd->klijdbca" [(EVar "Roooovvvv")]));
   (*L519*) SAug true "Roooovvvv_anti" (EScale (1 # 1) (EEins "ijklabcd->klijdbac" [(EVar "Roooovvvv")]));
   (*L520*) SAug true "Roooovvvv_anti" (EScale (1 # 1) (EEins "ijklabcd->klijdcba" [(EVar "Roooovvvv")]));
   (*L521*) SAug true "Roooovvvv_anti" (EScale (-1 # 1) (EEins "ijklabcd->klijdcab" [(EVar "Roooovvvv")]));
   (*L522*) SAug true "Roooovvvv_anti" (EScale (1 # 1) (EEins "ijklabcd->klijdacb" [(EVar "Roooovvvv")]));
   (*L523*) SAug true "Roooovvvv_anti" (EScale (-1 # 1) (EEins "ijklabcd->klijdabc" [(EVar "Roooovvvv")]));
   (*L524*) SAug true "Roooovvvv_anti" (EScale (-1 # 1) (EEins "ijklabcd->kljiabcd" [(EVar "Roooovvvv")]));
   (*L525*) SAug true "Roooovvvv_anti" (EScale (1 # 1) (EEins "ijklabcd->kljiabdc" [(EVar "Roooovvvv")]));
   (*L526*) SAug true "Roooovvvv_anti" (EScale (1 # 1) (EEins "ijklabcd->kljiacbd" [(EVar "Roooovvvv")]));
   (*L527*) SAug true "Roooovvvv_anti" (EScale (-1 # 1) (EEins "ijklabcd->kljiacdb" [(EVar "Roooovvvv")]));
   (*L528*) SAug true "Roooovvvv_anti" (EScale (1 # 1) (EEins "ijklabcd->kljiadcb" [(EVar "Roooovvvv")]));
   (*L529*) SAug true "Roooovvvv_anti" (EScale (-1 # 1) (EEins "ijklabcd->kljiadbc" [(EVar "Roooovvvv")]));
   (*L530*) SAug true "Roooovvvv_anti" (EScale (1 # 1) (EEins "ijklabcd->kljibacd" [(EVar "Roooovvvv")]));
   (*L531*) SAug true "Roooovvvv_anti" (EScale (-1 # 1) (EEins "ijklabcd->kljibadc" [(EVar "Roooovvvv")]));
   (*L532*) SAug true "Roooovvvv_anti" (EScale (-1 # 1) (EEins "ijklabcd->kljibcad" [(EVar "Roooovvvv")]));
   (*L533*) SAug true "Roooovvvv_anti" (EScale (1 # 1) (EEins "ijklabcd->kljibcda" [(EVar "Roooovvvv")]));
   (*L534*) SAug true "Roooovvvv_anti" (EScale (-1 # 1) (EEins "ijklabcd->kljibdca" [(EVar "Roooovvvv")]));
   (*L535*) SAug true "Roooovvvv_anti" (EScale (1 # 1) (EEins "ijklabcd->kljibdac" [(EVar "Roooovvvv")]));
   (*L536*) SAug true "Roooovvvv_anti" (EScale (1 # 1) (EEins "ijklabcd->kljicbad" [(EVar "Roooovvvv")]));
   (*L537*) SAug true "Roooovvvv_anti" (EScale (-1 # 1) (EEins "ijklabcd->kljicbda" [(EVar "Roooovvvv")]));
   (*L538*) SAug true "Roooovvvv_anti" (EScale (-1 # 1) (EEins "ijklabcd->kljicabd" [(EVar "Roooovvvv")]));
   (*L539*) SAug true "Roooovvvv_anti" (EScale (1 # 1) (EEins "ijklabcd->kljicadb" [(EVar "Roooovvvv")]));
   (*L540*) SAug true "Roooovvvv_anti" (EScale (-1 # 1) (EEins "ijklabcd->kljicdab" [(EVar "Roooovvvv")]));
   (*L541*) SAug true "Roooovvvv_anti" (EScale (1 # 1) (EEins "ijklabcd->kljicdba" [(EVar "Roooovvvv")]));
   (*L542*) SAug true "Roooovvvv_anti" (EScale (1 # 1) (EEins "ijklabcd->kljidbca" [(EVar "Roooovvvv")]));
   (*L543*) SAug true "Roooovvvv_anti" (EScale (-1 # 1) (EEins "ijklabcd->kljidbac" [(EVar "Roooovvvv")]));
   (*L544*) SAug true "Roooovvvv_anti" (EScale (-1 # 1) (EEins "ijklabcd->kljidcba" [(EVar "Roooovvvv")]));
   (*L545*) SAug true "Roooovvvv_anti" (EScale (1 # 1) (EEins "ijklabcd->kljidcab" [(EVar "Roooovvvv")]));
   (*L546*) SAug true "Roooovvvv_anti" (EScale (-1 # 1) (EEins "ijklabcd->kljidacb" [(EVar "Roooovvvv")]));
   (*L547*) SAug true "Roooovvvv_anti" (EScale (1 # 1) (EEins "ijklabcd->kljidabc" [(EVar "Roooovvvv")]));
   (*L548*) SAug true "Roooovvvv_anti" (EScale (-1 # 1) (EEins "ijklabcd->ljkiabcd" [(EVar "Roooovvvv")]));
   (*L549*) SAug true "Roooovvvv_anti" (EScale (1 # 1) (EEins "ijklabcd->ljkiabdc" [(EVar "Roooovvvv")]));
   (*L550*) SAug true "Roooovvvv_anti" (EScale (1 # 1) (EEins "ijklabcd->ljkiacbd" [(EVar "Roooovvvv")]));
   (*L551*) SAug true "Roooovvvv_anti" (EScale (-1 # 1) (EEins "ijklabcd->ljkiacdb" [(EVar "Roooovvvv")]));
   (*L552*) SAug true "Roooovvvv_anti" (EScale (1 # 1) (EEins "ijklabcd->ljkiadcb" [(EVar "Roooovvvv")]));
   (*L553*) SAug true "Roooovvvv_anti" (EScale (-1 # 1) (EEins "ijklabcd->ljkiadbc" [(EVar "Roooovvvv")]));
   (*L554*) SAug true "Roooovvvv_anti" (EScale (1 # 1) (EEins "ijklabcd->ljkibacd" [(EVar "Roooovvvv")]));
   (*L555*) SAug true "Roooovvvv_anti" (EScale (-1 # 1) (EEins "ijklabcd->ljkibadc" [(EVar "Roooovvvv")]));
   (*L556*) SAug true "Roooovvvv_anti" (EScale (-1 # 1) (EEins "ijklabcd->ljkibcad" [(EVar "Roooovvvv")]));
   (*L557*) SAug true "Roooovvvv_anti" (EScale (1 # 1) (EEins "ijklabcd->ljkibcda" [(EVar "Roooovvvv")]));
   (*L558*) SAug true "Roooovvvv_anti" (EScale (-1 # 1) (EEins "ijklabcd->ljkibdca" [(EVar "Roooovvvv")]));
   (*L559*) SAug true "Roooovvvv_anti" (EScale (1 # 1) (EEins "ijklabcd->ljkibdac" [(EVar "Roooovvvv")]));
   (*L560*) SAug true "Roooovvvv_anti" (EScale (1 # 1) (EEins "ijklabcd->ljkicbad" [(EVar "Roooovvvv")]));
   (*L561*) SAug true "Roooovvvv_anti" (EScale (-1 # 1) (EEins "ijklabcd->ljkicbda" [(EVar "Roooovvvv")]));
   (*L562*) SAug true "Roooovvvv_anti" (EScale (-1 # 1) (EEins "ijklabcd->ljkicabd" [(EVar "Roooovvvv")]));
   (*L563*) SAug true "Roooovvvv_anti" (EScale (1 # 1) (EEins "ijklabcd->ljkicadb" [(EVar "Roooovvvv")]));
   (*L564*) SAug true "Roooovvvv_anti" (EScale (-1 # 1) (EEins "ijklabcd->ljkicdab" [(EVar "Roooovvvv")]));
   (*L565*) SAug true "Roooovvvv_anti" (EScale (1 # 1) (EEins "ijklabcd->ljkicdba" [(EVar "Roooovvvv")]));
   (*L566*) SAug true "Roooovvvv_anti" (EScale (1 # 1) (EEins "ijklabcd->ljkidbca" [(EVar "Roooovvvv")]));
   (*L567*) SAug true "Roooovvvv_anti" (EScale (-1 # 1) (EEins "ijklabcd->ljkidbac" [(EVar "Roooovvvv")]));
   (*L568*) SAug true "Roooovvvv_anti" (EScale (-1 # 1) (EEins "ijklabcd->ljkidcba" [(EVar "Roooovvvv")]));
   (*L569*) SAug true "Roooovvvv_anti" (EScale (1 # 1) (EEins "ijklabcd->ljkidcab" [(EVar "Roooovvvv")]));
   (*L570*) SAug true "Roooovvvv_anti" (EScale (-1 # 1) (EEins "ijklabcd->ljkidacb" [(EVar "Roooovvvv")]));
   (*L571*) SAug true "Roooovvvv_anti" (EScale (1 # 1) (EEins "ijklabcd->ljkidabc" [(EVar "Roooovvvv")]));
   (*L572*) SAug true "Roooovvvv_anti" (EScale (1 # 1) (EEins "ijklabcd->ljikabcd" [(EVar "Roooovvvv")]));
   (*L573*) SAug true "Roooovvvv_anti" (EScale (-1 # 1) (EEins "ijklabcd->ljikabdc" [(EVar "Roooovvvv")]));
   (*L574*) SAug true "Roooovvvv_anti" (EScale (-1 # 1) (EEins "ijklabcd->ljikacbd" [(EVar "Roooovvvv")]));
   (*L575*) SAug true "Roooovvvv_anti" (EScale (1 # 1) (EEins "ijklabcd->ljikacdb" [(EVar "Roooovvvv")]));
   (*L576*) SAug true "Roooovvvv_anti" (EScale (-1 # 1) (EEins "ijklabcd->ljikadcb" [(EVar "Roooovvvv")]));
   (*L577*) SAug true "Roooovvvv_anti" (EScale (1 # 1) (EEins "ijklabcd->ljikadbc" [(EVar "Roooovvvv")]));
   (*L578*) SAug true "Roooovvvv_anti" (EScale (-1 # 1) (EEins "ijklabcd->ljikbacd" [(EVar "Roooovvvv")]));
   (*L579*) SAug true "Roooovvvv_anti" (EScale (1 # 1) (EEins "ijklabcd->ljikbadc" [(EVar "Roooovvvv")]));
   (*L580*) SAug true "Roooovvvv_anti" (EScale (1 # 1) (EEins "ijklabcd->ljikbcad" [(EVar "Roooovvvv")]));
   (*L581*) SAug true "Roooovvvv_anti" (EScale (-1 # 1) (EEins "ijklabcd->ljikbcda" [(EVar "Roooovvvv")]));
   (*L582*) SAug true "Roooovvvv_anti" (EScale (1 # 1) (EEins "ijklabcd->ljikbdca" [(EVar "Roooovvvv")]));
   (*L583*) SAug true "Roooovvvv_anti" (EScale (-1 # 1) (EEins "ijklabcd->ljikbdac" [(EVar "Roooovvvv")]));
   (*L584*) SAug true "Roooovvvv_anti" (EScale (-1 # 1) (EEins "ijklabcd->ljikcbad" [(EVar "Roooovvvv")]));
   (*L585*) SAug true "Roooovvvv_anti" (EScale (1 # 1) (EEins "ijklabcd->ljikcbda" [(EVar "Roooovvvv")]));
   (*L586*) SAug true "Roooovvvv_anti" (EScale (1 # 1) (EEins "ijklabcd->ljikcabd" [(EVar "Roooovvvv")]));
   (*L587*) SAug true "Roooovvvv_anti" (EScale (-1 # 1) (EEins "ijklabcd->ljikcadb" [(EVar "Roooovvvv")]));
   (*L588*) SAug true "Roooovvvv_anti" (EScale (1 # 1) (EEins "ijklabcd->ljikcdab" [(EVar "Roooovvvv")]));
   (*L589*) SAug true "Roooovvvv_anti" (EScale (-1 # 1) (EEins "ijklabcd->ljikcdba" [(EVar "Roooovvvv")]));
   (*L590*) SAug true "Roooovvvv_anti" (EScale (-1 # 1) (EEins "ijklabcd->ljikdbca" [(EVar "Roooovvvv")]));
   (*L591*) SAug true "Roooovvvv_anti" (EScale (1 # 1) (EEins "ijklabcd->ljikdbac" [(EVar "Roooovvvv")]));
   (*L592*) SAug true "Roooovvvv_anti" (EScale (1 # 1) (EEins "ijklabcd->ljikdcba" [(EVar "Roooovvvv")]));
   (*L593*) SAug true "Roooovvvv_anti" (EScale (-1 # 1) (EEins "ijklabcd->ljikdcab" [(EVar "Roooovvvv")]));
   (*L594*) SAug true "Roooovvvv_anti" (EScale (1 # 1) (EEins "ijklabcd->ljikdacb" [(EVar "Roooovvvv")]));
   (*L595*) SAug true "Roooovvvv_anti" (EScale (-1 # 1) (EEins "ijklabcd->ljikdabc" [(EVar "Roooovvvv")]));
   (*L596*) SAug true "Roooovvvv_anti" (EScale (1 # 1) (EEins "ijklabcd->lkjiabcd" [(EVar "Roooovvvv")]));
   (*L597*) SAug true "Roooovvvv_anti" (EScale (-1 # 1) (EEins "ijklabcd->lkjiabdc" [(EVar "Roooovvvv")]));
   (*L598*) SAug true "Roooovvvv_anti" (EScale (-1 # 1) (EEins "ijklabcd->lkjiacbd" [(EVar "Roooovvvv")]));
   (*L599*) SAug true "Roooovvvv_anti" (EScale (1 # 1) (EEins "ijklabcd->lkjiacdb" [(EVar "Roooovvvv")]));
   (*L600*) SAug true "Roooovvvv_anti" (EScale (-1 # 1) (EEins "ijklabcd->lkjiadcb" [(EVar "Roooovvvv")]));
   (*L601*) SAug true "Roooovvvv_anti" (EScale (1 # 1) (EEins "ijklabcd->lkjiadbc" [(EVar "Roooovvvv")]));
   (*L602*) SAug true "Roooovvvv_anti" (EScale (-1 # 1) (EEins "ijklabcd->lkjibacd" [(EVar "Roooovvvv")]));
   (*L603*) SAug true "Roooovvvv_anti" (EScale (1 # 1) (EEins "ijklabcd->lkjibadc" [(EVar "Roooovvvv")]));
   (*L604*) SAug true "Roooovvvv_anti" (EScale (1 # 1) (EEins "ijklabcd->lkjibcad" [(EVar "Roooovvvv")]));
   (*L605*) SAug true "Roooovvvv_anti" (EScale (-1 # 1) (EEins "ijklabcd->lkjibcda" [(EVar "Roooovvvv")]));
   (*L606*) SAug true "Roooovvvv_anti" (EScale (1 # 1) (EEins "ijklabcd->lkjibdca" [(EVar "Roooovvvv")]));
   (*L607*) SAug true "Roooovvvv_anti" (EScale (-1 # 1) (EEins "ijklabcd->lkjibdac" [(EVar "Roooovvvv")]));
   (*L608*) SAug true "Roooovvvv_anti" (EScale (-1 # 1) (EEins "ijklabcd->lkjicbad" [(EVar "Roooovvvv")]));
   (*L609*) SAug true "Roooovvvv_anti" (EScale (1 # 1) (EEins "ijklabcd->lkjicbda" [(EVar "Roooovvvv")]));
   (*L610*) SAug true "Roooovvvv_anti" (EScale (1 # 1) (EEins "ijklabcd->lkjicabd" [(EVar "Roooovvvv")]));
   (*L611*) SAug true "Roooovvvv_anti" (EScale (-1 # 1) (EEins "ijklabcd->lkjicadb" [(EVar "Roooovvvv")]));
   (*L612*) SAug true "Roooovvvv_anti" (EScale (1 # 1) (EEins "ijklabcd->lkjicdab" [(EVar "Roooovvvv")]));
   (*L613*) SAug true "Roooovvvv_anti" (EScale (-1 # 1) (EEins "ijklabcd->lkjicdba" [(EVar "Roooovvvv")]));
   (*L614*) SAug true "Roooovvvv_anti" (EScale (-1 # 1) (EEins "ijklabcd->lkjidbca" [(EVar "Roooovvvv")]));
   (*L615*) SAug true "Roooovvvv_anti" (EScale (1 # 1) (EEins "ijklabcd->lkjidbac" [(EVar "Roooovvvv")]));
   (*L616*) SAug true "Roooovvvv_anti" (EScale (1 # 1) (EEins "ijklabcd->lkjidcba" [(EVar "Roooovvvv")]));
   (*L617*) SAug true "Roooovvvv_anti" (EScale (-1 # 1) (EEins "ijklabcd->lkjidcab" [(EVar "Roooovvvv")]));
   (*L618*) SAug true "Roooovvvv_anti" (EScale (1 # 1) (EEins "ijklabcd->lkjidacb" [(EVar "Roooovvvv")]));
   (*L619*) SAug true "Roooovvvv_anti" (EScale (-1 # 1) (EEins "ijklabcd->lkjidabc" [(EVar "Roooovvvv")]));
   (*L620*) SAug true "Roooovvvv_anti" (EScale (-1 # 1) (EEins "ijklabcd->lkijabcd" [(EVar "Roooovvvv")]));
   (*L621*) SAug true "Roooovvvv_anti" (EScale (1 # 1) (EEins "ijklabcd->lkijabdc" [(EVar "Roooovvvv")]));
   (*L622*) SAug true "Roooovvvv_anti" (EScale (1 # 1) (EEins "ijklabcd->lkijacbd" [(EVar "Roooovvvv")]));
   (*L623*) SAug true "Roooovvvv_anti" (EScale (-1 # 1) (EEins "ijklabcd->lkijacdb" [(EVar "Roooovvvv")]));
   (*L624*) SAug true "Roooovvvv_anti" (EScale (1 # 1) (EEins "ijklabcd->lkijadcb" [(EVar "Roooovvvv")]));
   (*L625*) SAug true "Roooovvvv_anti" (EScale (-1 # 1) (EEins "ijklabcd->lkijadbc" [(EVar "Roooovvvv")]));
   (*L626*) SAug true "Roooovvvv_anti" (EScale (1 # 1) (EEins "ijklabcd->lkijbacd" [(EVar "Roooovvvv")]));
   (*L627*) SAug true "Roooovvvv_anti" (EScale (-1 # 1) (EEins "ijklabcd->lkijbadc" [(EVar "Roooovvvv")]));
   (*L628*) SAug true "Roooovvvv_anti" (EScale (-1 # 1) (EEins "ijklabcd->lkijbcad" [(EVar "Roooovvvv")]));
   (*L629*) SAug true "Roooovvvv_anti" (EScale (1 # 1) (EEins "ijklabcd->lkijbcda" [(EVar "Roooovvvv")]));
   (*L630*) SAug true "Roooovvvv_anti" (EScale (-1 # 1) (EEins "ijklabcd->lkijbdca" [(EVar "Roooovvvv")]));
   (*L631*) SAug true "Roooovvvv_anti" (EScale (1 # 1) (EEins "ijklabcd->lkijbdac" [(EVar "Roooovvvv")]));
   (*L632*) SAug true "Roooovvvv_anti" (EScale (1 # 1) (EEins "ijklabcd->lkijcbad" [(EVar "Roooovvvv")]));
   (*L633*) SAug true "Roooovvvv_anti" (EScale (-1 # 1) (EEins "ijklabcd->lkijcbda" [(EVar "Roooovvvv")]));
   (*L634*) SAug true "Roooovvvv_anti" (EScale (-1 # 1) (EEins "ijklabcd->lkijcabd" [(EVar "Roooovvvv")]));
   (*L635*) SAug true "Roooovvvv_anti" (EScale (1 # 1) (EEins "ijklabcd->lkijcadb" [(EVar "Roooovvvv")]));
   (*L636*) SAug true "Roooovvvv_anti" (EScale (-1 # 1) (EEins "ijklabcd->lkijcdab" [(EVar "Roooovvvv")]));
   (*L637*) SAug true "Roooovvvv_anti" (EScale (1 # 1) (EEins "ijklabcd->lkijcdba" [(EVar "Roooovvvv")]));
   (*L638*) SAug true "Roooovvvv_anti" (EScale (1 # 1) (EEins "ijklabcd->lkijdbca" [(EVar "Roooovvvv")]));
   (*L639*) SAug true "Roooovvvv_anti" (EScale (-1 # 1) (EEins "ijklabcd->lkijdbac" [(EVar "Roooovvvv")]));
   (*L640*) SAug true "Roooovvvv_anti" (EScale (-1 # 1) (EEins "ijklabcd->lkijdcba" [(EVar "Roooovvvv")]));
   (*L641*) SAug true "Roooovvvv_anti" (EScale (1 # 1) (EEins "ijklabcd->lkijdcab" [(EVar "Roooovvvv")]));
   (*L642*) SAug true "Roooovvvv_anti" (EScale (-1 # 1) (EEins "ijklabcd->lkijdacb" [(EVar "Roooovvvv")]));
   (*L643*) SAug true "Roooovvvv_anti" (EScale (1 # 1) (EEins "ijklabcd->lkijdabc" [(EVar "Roooovvvv")]));
   (*L644*) SAug true "Roooovvvv_anti" (EScale (1 # 1) (EEins "ijklabcd->likjabcd" [(EVar "Roooovvvv")]));
   (*L645*) SAug true "Roooovvvv_anti" (EScale (-1 # 1) (EEins "ijklabcd->likjabdc" [(EVar "Roooovvvv")]));
   (*L646*) SAug true "Roooovvvv_anti" (EScale (-1 # 1) (EEins "ijklabcd->likjacbd" [(EVar "Roooovvvv")]));
   (*L647*) SAug true "Roooovvvv_anti" (EScale (1 # 1) (EEins "ijklabcd->likjacdb" [(EVar "Roooovvvv")]));
   (*L648*) SAug true "Roooovvvv_anti" (EScale (-1 # 1) (EEins "ijklabcd->likjadcb" [(EVar "Roooovvvv")]));
   (*L649*) SAug true "Roooovvvv_anti" (EScale (1 # 1) (EEins "ijklabcd->likjadbc" [(EVar "Roooovvvv")]));
   (*L650*) SAug true "Roooovvvv_anti" (EScale (-1 # 1) (EEins "ijklabcd->likjbacd" [(EVar "Roooovvvv")]));
   (*L651*) SAug true "Roooovvvv_anti" (EScale (1 # 1) (EEins "ijklabcd->likjbadc" [(EVar "Roooovvvv")]));
   (*L652*) SAug true "Roooovvvv_anti" (EScale (1 # 1) (EEins "ijklabcd->likjbcad" [(EVar "Roooovvvv")]));
   (*L653*) SAug true "Roooovvvv_anti" (EScale (-1 # 1) (EEins "ijklabcd->likjbcda" [(EVar "Roooovvvv")]));
   (*L654*) SAug true "Roooovvvv_anti" (EScale (1 # 1) (EEins "ijklabcd->likjbdca" [(EVar "Roooovvvv")]));
   (*L655*) SAug true "Roooovvvv_anti" (EScale (-1 # 1) (EEins "ijklabcd->likjbdac" [(EVar "Roooovvvv")]));
   (*L656*) SAug true "Roooovvvv_anti" (EScale (-1 # 1) (EEins "ijklabcd->likjcbad" [(EVar "Roooovvvv")]));
   (*L657*) SAug true "Roooovvvv_anti" (EScale (1 # 1) (EEins "ijklabcd->likjcbda" [(EVar "Roooovvvv")]));
   (*L658*) SAug true "Roooovvvv_anti" (EScale (1 # 1) (EEins "ijklabcd->likjcabd" [(EVar "Roooovvvv")]));
   (*L659*) SAug true "Roooovvvv_anti" (EScale (-1 # 1) (EEins "ijklabcd->likjcadb" [(EVar "Roooovvvv")]));
   (*L660*) SAug true "Roooovvvv_anti" (EScale (1 # 1) (EEins "ijklabcd->likjcdab" [(EVar "Roooovvvv")]));
   (*L661*) SAug true "Roooovvvv_anti" (EScale (-1 # 1) (EEins "ijklabcd->likjcdba" [(EVar "Roooovvvv")]));
   (*L662*) SAug true "Roooovvvv_anti" (EScale (-1 # 1) (EEins "ijklabcd->likjdbca" [(EVar "Roooovvvv")]));
   (*L663*) SAug true "Roooovvvv_anti" (EScale (1 # 1) (EEins "ijklabcd->likjdbac" [(EVar "Roooovvvv")]));
   (*L664*) SAug true "Roooovvvv_anti" (EScale (1 # 1) (EEins "ijklabcd->likjdcba" [(EVar "Roooovvvv")]));
   (*L665*) SAug true "Roooovvvv_anti" (EScale (-1 # 1) (EEins "ijklabcd->likjdcab" [(EVar "Roooovvvv")]));
   (*L666*) SAug true "Roooovvvv_anti" (EScale (1 # 1) (EEins "ijklabcd->likjdacb" [(EVar "Roooovvvv")]));
   (*L667*) SAug true "Roooovvvv_anti" (EScale (-1 # 1) (EEins "ijklabcd->likjdabc" [(EVar "Roooovvvv")]));
   (*L668*) SAug true "Roooovvvv_anti" (EScale (-1 # 1) (EEins "ijklabcd->lijkabcd" [(EVar "Roooovvvv")]));
   (*L669*) SAug true "Roooovvvv_anti" (EScale (1 # 1) (EEins "ijklabcd->lijkabdc" [(EVar "Roooovvvv")]));
   (*L670*) SAug true "Roooovvvv_anti" (EScale (1 # 1) (EEins "ijklabcd->lijkacbd" [(EVar "Roooovvvv")]));
   (*L671*) SAug true "Roooovvvv_anti" (EScale (-1 # 1) (EEins "ijklabcd->lijkacdb" [(EVar "Roooovvvv")]));
   (*L672*) SAug true "Roooovvvv_anti" (EScale (1 # 1) (EEins "ijklabcd->lijkadcb" [(EVar "Roooovvvv")]));
   (*L673*) SAug true "Roooovvvv_anti" (EScale (-1 # 1) (EEins "ijklabcd->lijkadbc" [(EVar "Roooovvvv")]));
   (*L674*) SAug true "Roooovvvv_anti" (EScale (1 # 1) (EEins "ijklabcd->lijkbacd" [(EVar "Roooovvvv")]));
   (*L675*) SAug true "Roooovvvv_anti" (EScale (-1 # 1) (EEins "ijklabcd->lijkbadc" [(EVar "Roooovvvv")]));
   (*L676*) SAug true "Roooovvvv_anti" (EScale (-1 # 1) (EEins "ijklabcd->lijkbcad" [(EVar "Roooovvvv")]));
   (*L677*) SAug true "Roooovvvv_anti" (EScale (1 # 1) (EEins "ijklabcd->lijkbcda" [(EVar "Roooovvvv")]));
   (*L678*) SAug true "Roooovvvv_anti" (EScale (-1 # 1) (EEins "ijklabcd->lijkbdca" [(EVar "Roooovvvv")]));
   (*L679*) SAug true "Roooovvvv_anti" (EScale (1 # 1) (EEins "ijklabcd->lijkbdac" [(EVar "Roooovvvv")]));
   (*L680*) SAug true "Roooovvvv_anti" (EScale (1 # 1) (EEins "ijklabcd->lijkcbad" [(EVar "Roooovvvv")]));
   (*L681*) SAug true "Roooovvvv_anti" (EScale (-1 # 1) (EEins "ijklabcd->lijkcbda" [(EVar "Roooovvvv")]));
   (*L682*) SAug true "Roooovvvv_anti" (EScale (-1 # 1) (EEins "ijklabcd->lijkcabd" [(EVar "Roooovvvv")]));
   (*L683*) SAug true "Roooovvvv_anti" (EScale (1 # 1) (EEins "ijklabcd->lijkcadb" [(EVar "Roooovvvv")]));
   (*L684*) SAug true "Roooovvvv_anti" (EScale (-1 # 1) (EEins "ijklabcd->lijkcdab" [(EVar "Roooovvvv")]));
   (*L685*) SAug true "Roooovvvv_anti" (EScale (1 # 1) (EEins "ijklabcd->lijkcdba" [(EVar "Roooovvvv")]));
   (*L686*) SAug true "Roooovvvv_anti" (EScale (1 # 1) (EEins "ijklabcd->lijkdbca" [(EVar "Roooovvvv")]));
   (*L687*) SAug true "Roooovvvv_anti" (EScale (-1 # 1) (EEins "ijklabcd->lijkdbac" [(EVar "Roooovvvv")]));
   (*L688*) SAug true "Roooovvvv_anti" (EScale (-1 # 1) (EEins "ijklabcd->lijkdcba" [(EVar "Roooovvvv")]));
   (*L689*) SAug true "Roooovvvv_anti" (EScale (1 # 1) (EEins "ijklabcd->lijkdcab" [(EVar "Roooovvvv")]));
   (*L690*) SAug true "Roooovvvv_anti" (EScale (-1 # 1) (EEins "ijklabcd->lijkdacb" [(EVar "Roooovvvv")]));
   (*L691*) SAug true "Roooovvvv_anti" (EScale (1 # 1) (EEins "ijklabcd->lijkdabc" [(EVar "Roooovvvv")]))]
  (*L692*) (EVar "Roooovvvv_anti").
