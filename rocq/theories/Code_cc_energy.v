(** Generated by tools/transcribe.py from /repo/UT2/cc_energy.py; do not edit. *)
From Coq Require Import String List QArith.
From Verif Require Import Interp.
Import ListNotations.
Open Scope string_scope.

(** /repo/UT2/cc_energy.py:28-40  def spinorbitalCCSDE_noT1 *)
Definition spinorbitalCCSDE_noT1 : fn := mkFn
  ["T2"; "W"; "F"; "o"; "v"; "T1"]
  [(*L30*) SAssign "energy" (EScale (1 # 1) (EEins "ii" [(ESlice (EVar "F") [SV "o"; SV "o"])]));
   (*L32*) SAug true "energy" (EScale (-1 # 2) (EEins "jiji" [(ESlice (EVar "W") [SV "o"; SV "o"; SV "o"; SV "o"])]));
   (*L33*) SAug true "energy" (EScale (1 # 4) (EEins "ijab,abij->" [(EVar "T2"); (ESlice (EVar "W") [SV "v"; SV "v"; SV "o"; SV "o"])]))]
  (*L40*) (EVar "energy").

(** /repo/UT2/cc_energy.py:28-40  def spinorbitalCCSDE_T1 *)
Definition spinorbitalCCSDE_T1 : fn := mkFn
  ["T2"; "W"; "F"; "o"; "v"; "T1"]
  [(*L30*) SAssign "energy" (EScale (1 # 1) (EEins "ii" [(ESlice (EVar "F") [SV "o"; SV "o"])]));
   (*L32*) SAug true "energy" (EScale (-1 # 2) (EEins "jiji" [(ESlice (EVar "W") [SV "o"; SV "o"; SV "o"; SV "o"])]));
   (*L33*) SAug true "energy" (EScale (1 # 4) (EEins "ijab,abij->" [(EVar "T2"); (ESlice (EVar "W") [SV "v"; SV "v"; SV "o"; SV "o"])]));
   (*L36*) SAug true "energy" (EScale (1 # 1) (EEins "ai,ia->" [(ESlice (EVar "F") [SV "v"; SV "o"]); (EVar "T1")]));
   (*L37*) SAug true "energy" (EScale (1 # 2) (EEins "ia,jb,abij->" [(EVar "T1"); (EVar "T1"); (ESlice (EVar "W") [SV "v"; SV "v"; SV "o"; SV "o"])]))]
  (*L40*) (EVar "energy").

(** /repo/UT2/cc_energy.py:91-103  def sixthOrderQf_wnT2cubed_L96 *)
Definition sixthOrderQf_wnT2cubed_L96 : fn := mkFn
  ["W"; "T2"; "o"; "v"; "D2"]
  [(*L92*) SAssign "D4T4" (ECall "qf.wnT2cubed_toT4" [(EVar "W"); (EVar "T2"); (EVar "o"); (EVar "v")]);
   (*L93*) SAssign "D4T4" (ETransp (EVar "D4T4") [4; 5; 6; 7; 0; 1; 2; 3]%nat);
   (*L94*) SAssign "resid_aaaa" (EScale (1 # 8) (EEins "klcd,abcdijkl->abij" [(EVar "T2"); (EVar "D4T4")]));
   (*L95*) SAssign "sixthO_wnT2cubed" (EScale (1 # 4) (EEins "ijab,abij" [(EMul (ESlice (EVar "W") [SV "o"; SV "o"; SV "v"; SV "v"]) (EVar "D2")); (EVar "resid_aaaa")]))]
  (*L96*) (EVar "sixthO_wnT2cubed").

(** /repo/UT2/cc_energy.py:91-103  def sixthOrderQf_wnT2cubed_L103 *)
Definition sixthOrderQf_wnT2cubed_L103 : fn := mkFn
  ["W"; "T2"; "o"; "v"; "D2"]
  [(*L92*) SAssign "D4T4" (ECall "qf.wnT2cubed_toT4" [(EVar "W"); (EVar "T2"); (EVar "o"); (EVar "v")]);
   (*L93*) SAssign "D4T4" (ETransp (EVar "D4T4") [4; 5; 6; 7; 0; 1; 2; 3]%nat);
   (*L94*) SAssign "resid_aaaa" (EScale (1 # 8) (EEins "klcd,abcdijkl->abij" [(EVar "T2"); (EVar "D4T4")]));
   (*L95*) SAssign "sixthO_wnT2cubed" (EScale (1 # 4) (EEins "ijab,abij" [(EMul (ESlice (EVar "W") [SV "o"; SV "o"; SV "v"; SV "v"]) (EVar "D2")); (EVar "resid_aaaa")]));
   (*L100*) SAssign "D2T2" (EScale (1 # 2) (ECall "qf.wnT2cubed_toT2" [(EVar "W"); (EVar "T2"); (EVar "o"); (EVar "v")]));
   (*L101*) SAssign "D2T2" (ETransp (EVar "D2T2") [2; 3; 0; 1]%nat);
   (*L102*) SAssign "teste" (EScale (1 # 4) (EEins "ijab,abij" [(EMul (ESlice (EVar "W") [SV "o"; SV "o"; SV "v"; SV "v"]) (EVar "D2")); (EVar "D2T2")]))]
  (*L103*) (EVar "teste").

(** /repo/UT2/cc_energy.py:105-116  def sixthOrderQf_wnT2T3_L110 *)
Definition sixthOrderQf_wnT2T3_L110 : fn := mkFn
  ["W"; "T2"; "T3"; "o"; "v"; "D2"]
  [(*L106*) SAssign "D4T4" (ECall "qf.wnT2T3_toT4" [(EVar "W"); (EVar "T2"); (EVar "T3"); (EVar "o"); (EVar "v")]);
   (*L107*) SAssign "D4T4" (ETransp (EVar "D4T4") [4; 5; 6; 7; 0; 1; 2; 3]%nat);
   (*L108*) SAssign "resid_aaaa" (EScale (1 # 8) (EEins "klcd,abcdijkl->abij" [(EVar "T2"); (EVar "D4T4")]));
   (*L109*) SAssign "sixthO_wnT2T3" (EScale (1 # 4) (EEins "ijab,abij" [(EMul (ESlice (EVar "W") [SV "o"; SV "o"; SV "v"; SV "v"]) (EVar "D2")); (EVar "resid_aaaa")]))]
  (*L110*) (EVar "sixthO_wnT2T3").

(** /repo/UT2/cc_energy.py:105-116  def sixthOrderQf_wnT2T3_L116 *)
Definition sixthOrderQf_wnT2T3_L116 : fn := mkFn
  ["W"; "T2"; "T3"; "o"; "v"; "D2"]
  [(*L106*) SAssign "D4T4" (ECall "qf.wnT2T3_toT4" [(EVar "W"); (EVar "T2"); (EVar "T3"); (EVar "o"); (EVar "v")]);
   (*L107*) SAssign "D4T4" (ETransp (EVar "D4T4") [4; 5; 6; 7; 0; 1; 2; 3]%nat);
   (*L108*) SAssign "resid_aaaa" (EScale (1 # 8) (EEins "klcd,abcdijkl->abij" [(EVar "T2"); (EVar "D4T4")]));
   (*L109*) SAssign "sixthO_wnT2T3" (EScale (1 # 4) (EEins "ijab,abij" [(EMul (ESlice (EVar "W") [SV "o"; SV "o"; SV "v"; SV "v"]) (EVar "D2")); (EVar "resid_aaaa")]));
   (*L113*) SAssign "D2T2" (EScale (1 # 2) (ECall "qf.wnT2T3_toT2" [(EVar "W"); (EVar "T2"); (EVar "T3"); (EVar "o"); (EVar "v")]));
   (*L114*) SAssign "D2T2" (ETransp (EVar "D2T2") [2; 3; 0; 1]%nat);
   (*L115*) SAssign "teste" (EScale (1 # 4) (EEins "ijab,abij" [(EMul (ESlice (EVar "W") [SV "o"; SV "o"; SV "v"; SV "v"]) (EVar "D2")); (EVar "D2T2")]))]
  (*L116*) (EVar "teste").

(** /repo/UT2/cc_energy.py:118-175  def long_testQf5Order_L134 *)
Definition long_testQf5Order_L134 : fn := mkFn
  ["W"; "T2"; "T3"; "o"; "v"; "D2"]
  [(*L119*) SAssign "v_oo" (ESlice (EVar "W") [SV "o"; SV "o"; SV "o"; SV "o"]);
   (*L120*) SAssign "v_vo" (ESlice (EVar "W") [SV "o"; SV "v"; SV "o"; SV "v"]);
   (*L121*) SAssign "v_vv" (ESlice (EVar "W") [SV "v"; SV "v"; SV "v"; SV "v"]);
   (*L122*) SAssign "no" (EShape (EVar "T2") 0%nat);
   (*L123*) SAssign "nv" (EShape (EVar "T2") 2%nat);
   (*L124*) SAssign "Roooovvvv" (EZeros [(EVar "no"); (EVar "no"); (EVar "no"); (EVar "no"); (EVar "nv"); (EVar "nv"); (EVar "nv"); (EVar "nv")]);
   (*L125*) SAug true "Roooovvvv" (EScale (-1 # 16) (EEins "imab,jncd,klmn->ijklabcd" [(EVar "T2"); (EVar "T2"); (EVar "v_oo")]));
   (*L126*) SAug true "Roooovvvv" (EScale (-1 # 4) (EEins "imab,jkce,lemd->ijklabcd" [(EVar "T2"); (EVar "T2"); (EVar "v_vo")]));
   (*L127*) SAug true "Roooovvvv" (EScale (-1 # 16) (EEins "ijae,klbf,efcd->ijklabcd" [(EVar "T2"); (EVar "T2"); (EVar "v_vv")]));
   (*L129*) SAssign "Roooovvvv" (ECall "tamps.antisym_T4" [(EVar "Roooovvvv"); ENone; ENone]);
   (*L130*) SAssign "t4T" (ETransp (EVar "Roooovvvv") [4; 5; 6; 7; 0; 1; 2; 3]%nat);
   (*L132*) SAssign "resid_aaaa" (EScale (1 # 8) (EEins "klcd,abcdijkl->abij" [(EVar "T2"); (EVar "t4T")]));
   (*L133*) SAssign "fifthorder_wnt2" (EScale (1 # 4) (EEins "ijab,abij" [(EMul (ESlice (EVar "W") [SV "o"; SV "o"; SV "v"; SV "v"]) (EVar "D2")); (EVar "resid_aaaa")]))]
  (*L134*) (EVar "fifthorder_wnt2").

(** /repo/UT2/cc_energy.py:118-175  def long_testQf5Order_L141 *)
Definition long_testQf5Order_L141 : fn := mkFn
  ["W"; "T2"; "T3"; "o"; "v"; "D2"]
  [(*L119*) SAssign "v_oo" (ESlice (EVar "W") [SV "o"; SV "o"; SV "o"; SV "o"]);
   (*L120*) SAssign "v_vo" (ESlice (EVar "W") [SV "o"; SV "v"; SV "o"; SV "v"]);
   (*L121*) SAssign "v_vv" (ESlice (EVar "W") [SV "v"; SV "v"; SV "v"; SV "v"]);
   (*L122*) SAssign "no" (EShape (EVar "T2") 0%nat);
   (*L123*) SAssign "nv" (EShape (EVar "T2") 2%nat);
   (*L124*) SAssign "Roooovvvv" (EZeros [(EVar "no"); (EVar "no"); (EVar "no"); (EVar "no"); (EVar "nv"); (EVar "nv"); (EVar "nv"); (EVar "nv")]);
   (*L125*) SAug true "Roooovvvv" (EScale (-1 # 16) (EEins "imab,jncd,klmn->ijklabcd" [(EVar "T2"); (EVar "T2"); (EVar "v_oo")]));
   (*L126*) SAug true "Roooovvvv" (EScale (-1 # 4) (EEins "imab,jkce,lemd->ijklabcd" [(EVar "T2"); (EVar "T2"); (EVar "v_vo")]));
   (*L127*) SAug true "Roooovvvv" (EScale (-1 # 16) (EEins "ijae,klbf,efcd->ijklabcd" [(EVar "T2"); (EVar "T2"); (EVar "v_vv")]));
   (*L129*) SAssign "Roooovvvv" (ECall "tamps.antisym_T4" [(EVar "Roooovvvv"); ENone; ENone]);
   (*L130*) SAssign "t4T" (ETransp (EVar "Roooovvvv") [4; 5; 6; 7; 0; 1; 2; 3]%nat);
   (*L132*) SAssign "resid_aaaa" (EScale (1 # 8) (EEins "klcd,abcdijkl->abij" [(EVar "T2"); (EVar "t4T")]));
   (*L133*) SAssign "fifthorder_wnt2" (EScale (1 # 4) (EEins "ijab,abij" [(EMul (ESlice (EVar "W") [SV "o"; SV "o"; SV "v"; SV "v"]) (EVar "D2")); (EVar "resid_aaaa")]));
   (*L137*) SAssign "t2test" (EScale (1 # 2) (ECall "optWnT2sqr" [(EVar "W"); (EVar "T2"); (EVar "o"); (EVar "v")]));
   (*L138*) SAssign "t2test" (ECall "tamps.antisym_T2" [(EVar "t2test"); ENone; ENone]);
   (*L139*) SAssign "t2test" (ETransp (EVar "t2test") [2; 3; 0; 1]%nat);
   (*L140*) SAssign "teste" (EScale (1 # 4) (EEins "ijab,abij" [(EMul (ESlice (EVar "W") [SV "o"; SV "o"; SV "v"; SV "v"]) (EVar "D2")); (EVar "t2test")]))]
  (*L141*) (EVar "teste").

(** /repo/UT2/cc_energy.py:118-175  def long_testQf5Order_L149 *)
Definition long_testQf5Order_L149 : fn := mkFn
  ["W"; "T2"; "T3"; "o"; "v"; "D2"]
  [(*L119*) SAssign "v_oo" (ESlice (EVar "W") [SV "o"; SV "o"; SV "o"; SV "o"]);
   (*L120*) SAssign "v_vo" (ESlice (EVar "W") [SV "o"; SV "v"; SV "o"; SV "v"]);
   (*L121*) SAssign "v_vv" (ESlice (EVar "W") [SV "v"; SV "v"; SV "v"; SV "v"]);
   (*L122*) SAssign "no" (EShape (EVar "T2") 0%nat);
   (*L123*) SAssign "nv" (EShape (EVar "T2") 2%nat);
   (*L124*) SAssign "Roooovvvv" (EZeros [(EVar "no"); (EVar "no"); (EVar "no"); (EVar "no"); (EVar "nv"); (EVar "nv"); (EVar "nv"); (EVar "nv")]);
   (*L125*) SAug true "Roooovvvv" (EScale (-1 # 16) (EEins "imab,jncd,klmn->ijklabcd" [(EVar "T2"); (EVar "T2"); (EVar "v_oo")]));
   (*L126*) SAug true "Roooovvvv" (EScale (-1 # 4) (EEins "imab,jkce,lemd->ijklabcd" [(EVar "T2"); (EVar "T2"); (EVar "v_vo")]));
   (*L127*) SAug true "Roooovvvv" (EScale (-1 # 16) (EEins "ijae,klbf,efcd->ijklabcd" [(EVar "T2"); (EVar "T2"); (EVar "v_vv")]));
   (*L129*) SAssign "Roooovvvv" (ECall "tamps.antisym_T4" [(EVar "Roooovvvv"); ENone; ENone]);
   (*L130*) SAssign "t4T" (ETransp (EVar "Roooovvvv") [4; 5; 6; 7; 0; 1; 2; 3]%nat);
   (*L132*) SAssign "resid_aaaa" (EScale (1 # 8) (EEins "klcd,abcdijkl->abij" [(EVar "T2"); (EVar "t4T")]));
   (*L133*) SAssign "fifthorder_wnt2" (EScale (1 # 4) (EEins "ijab,abij" [(EMul (ESlice (EVar "W") [SV "o"; SV "o"; SV "v"; SV "v"]) (EVar "D2")); (EVar "resid_aaaa")]));
   (*L137*) SAssign "t2test" (EScale (1 # 2) (ECall "optWnT2sqr" [(EVar "W"); (EVar "T2"); (EVar "o"); (EVar "v")]));
   (*L138*) SAssign "t2test" (ECall "tamps.antisym_T2" [(EVar "t2test"); ENone; ENone]);
   (*L139*) SAssign "t2test" (ETransp (EVar "t2test") [2; 3; 0; 1]%nat);
   (*L140*) SAssign "teste" (EScale (1 # 4) (EEins "ijab,abij" [(EMul (ESlice (EVar "W") [SV "o"; SV "o"; SV "v"; SV "v"]) (EVar "D2")); (EVar "t2test")]));
   (*L145*) SAssign "t2test" (EScale (1 # 2) (ECall "optWnT3" [(EVar "W"); (EVar "T3"); (EVar "T2"); (EVar "o"); (EVar "v")]));
   (*L146*) SAssign "t2test" (ECall "tamps.antisym_T2" [(EVar "t2test"); ENone; ENone]);
   (*L147*) SAssign "t2test" (ETransp (EVar "t2test") [2; 3; 0; 1]%nat);
   (*L148*) SAssign "teste" (EScale (1 # 4) (EEins "ijab,abij" [(EMul (ESlice (EVar "W") [SV "o"; SV "o"; SV "v"; SV "v"]) (EVar "D2")); (EVar "t2test")]))]
  (*L149*) (EVar "teste").

(** /repo/UT2/cc_energy.py:118-175  def long_testQf5Order_L161 *)
Definition long_testQf5Order_L161 : fn := mkFn
  ["W"; "T2"; "T3"; "o"; "v"; "D2"]
  [(*L119*) SAssign "v_oo" (ESlice (EVar "W") [SV "o"; SV "o"; SV "o"; SV "o"]);
   (*L120*) SAssign "v_vo" (ESlice (EVar "W") [SV "o"; SV "v"; SV "o"; SV "v"]);
   (*L121*) SAssign "v_vv" (ESlice (EVar "W") [SV "v"; SV "v"; SV "v"; SV "v"]);
   (*L122*) SAssign "no" (EShape (EVar "T2") 0%nat);
   (*L123*) SAssign "nv" (EShape (EVar "T2") 2%nat);
   (*L124*) SAssign "Roooovvvv" (EZeros [(EVar "no"); (EVar "no"); (EVar "no"); (EVar "no"); (EVar "nv"); (EVar "nv"); (EVar "nv"); (EVar "nv")]);
   (*L125*) SAug true "Roooovvvv" (EScale (-1 # 16) (EEins "imab,jncd,klmn->ijklabcd" [(EVar "T2"); (EVar "T2"); (EVar "v_oo")]));
   (*L126*) SAug true "Roooovvvv" (EScale (-1 # 4) (EEins "imab,jkce,lemd->ijklabcd" [(EVar "T2"); (EVar "T2"); (EVar "v_vo")]));
   (*L127*) SAug true "Roooovvvv" (EScale (-1 # 16) (EEins "ijae,klbf,efcd->ijklabcd" [(EVar "T2"); (EVar "T2"); (EVar "v_vv")]));
   (*L129*) SAssign "Roooovvvv" (ECall "tamps.antisym_T4" [(EVar "Roooovvvv"); ENone; ENone]);
   (*L130*) SAssign "t4T" (ETransp (EVar "Roooovvvv") [4; 5; 6; 7; 0; 1; 2; 3]%nat);
   (*L132*) SAssign "resid_aaaa" (EScale (1 # 8) (EEins "klcd,abcdijkl->abij" [(EVar "T2"); (EVar "t4T")]));
   (*L133*) SAssign "fifthorder_wnt2" (EScale (1 # 4) (EEins "ijab,abij" [(EMul (ESlice (EVar "W") [SV "o"; SV "o"; SV "v"; SV "v"]) (EVar "D2")); (EVar "resid_aaaa")]));
   (*L137*) SAssign "t2test" (EScale (1 # 2) (ECall "optWnT2sqr" [(EVar "W"); (EVar "T2"); (EVar "o"); (EVar "v")]));
   (*L138*) SAssign "t2test" (ECall "tamps.antisym_T2" [(EVar "t2test"); ENone; ENone]);
   (*L139*) SAssign "t2test" (ETransp (EVar "t2test") [2; 3; 0; 1]%nat);
   (*L140*) SAssign "teste" (EScale (1 # 4) (EEins "ijab,abij" [(EMul (ESlice (EVar "W") [SV "o"; SV "o"; SV "v"; SV "v"]) (EVar "D2")); (EVar "t2test")]));
   (*L145*) SAssign "t2test" (EScale (1 # 2) (ECall "optWnT3" [(EVar "W"); (EVar "T3"); (EVar "T2"); (EVar "o"); (EVar "v")]));
   (*L146*) SAssign "t2test" (ECall "tamps.antisym_T2" [(EVar "t2test"); ENone; ENone]);
   (*L147*) SAssign "t2test" (ETransp (EVar "t2test") [2; 3; 0; 1]%nat);
   (*L148*) SAssign "teste" (EScale (1 # 4) (EEins "ijab,abij" [(EMul (ESlice (EVar "W") [SV "o"; SV "o"; SV "v"; SV "v"]) (EVar "D2")); (EVar "t2test")]));
   (*L152*) SAssign "Roooovvvv" (EZeros [(EVar "no"); (EVar "no"); (EVar "no"); (EVar "no"); (EVar "nv"); (EVar "nv"); (EVar "nv"); (EVar "nv")]);
   (*L153*) SAug true "Roooovvvv" (EScale (-41666667 # 1000000000) (EEins "ijmabc,klmd->ijklabcd" [(EVar "T3"); (ESlice (EVar "W") [SV "o"; SV "o"; SV "o"; SV "v"])]));
   (*L154*) SAug true "Roooovvvv" (EScale (-41666667 # 1000000000) (EEins "ijkabe,lecd->ijklabcd" [(EVar "T3"); (ESlice (EVar "W") [SV "o"; SV "v"; SV "v"; SV "v"])]));
   (*L156*) SAssign "Roooovvvv" (ECall "tamps.antisym_T4" [(EVar "Roooovvvv"); ENone; ENone]);
   (*L157*) SAssign "t4T" (ETransp (EVar "Roooovvvv") [4; 5; 6; 7; 0; 1; 2; 3]%nat);
   (*L159*) SAssign "resid_aaaa" (EScale (1 # 8) (EEins "klcd,abcdijkl->abij" [(EVar "T2"); (EVar "t4T")]));
   (*L160*) SAssign "fifthorder_wnt3" (EScale (1 # 4) (EEins "ijab,abij" [(EMul (ESlice (EVar "W") [SV "o"; SV "o"; SV "v"; SV "v"]) (EVar "D2")); (EVar "resid_aaaa")]))]
  (*L161*) (EVar "fifthorder_wnt3").

(** /repo/UT2/cc_energy.py:118-175  def long_testQf5Order_L162 *)
Definition long_testQf5Order_L162 : fn := mkFn
  ["W"; "T2"; "T3"; "o"; "v"; "D2"]
  [(*L119*) SAssign "v_oo" (ESlice (EVar "W") [SV "o"; SV "o"; SV "o"; SV "o"]);
   (*L120*) SAssign "v_vo" (ESlice (EVar "W") [SV "o"; SV "v"; SV "o"; SV "v"]);
   (*L121*) SAssign "v_vv" (ESlice (EVar "W") [SV "v"; SV "v"; SV "v"; SV "v"]);
   (*L122*) SAssign "no" (EShape (EVar "T2") 0%nat);
   (*L123*) SAssign "nv" (EShape (EVar "T2") 2%nat);
   (*L124*) SAssign "Roooovvvv" (EZeros [(EVar "no"); (EVar "no"); (EVar "no"); (EVar "no"); (EVar "nv"); (EVar "nv"); (EVar "nv"); (EVar "nv")]);
   (*L125*) SAug true "Roooovvvv" (EScale (-1 # 16) (EEins "imab,jncd,klmn->ijklabcd" [(EVar "T2"); (EVar "T2"); (EVar "v_oo")]));
   (*L126*) SAug true "Roooovvvv" (EScale (-1 # 4) (EEins "imab,jkce,lemd->ijklabcd" [(EVar "T2"); (EVar "T2"); (EVar "v_vo")]));
   (*L127*) SAug true "Roooovvvv" (EScale (-1 # 16) (EEins "ijae,klbf,efcd->ijklabcd" [(EVar "T2"); (EVar "T2"); (EVar "v_vv")]));
   (*L129*) SAssign "Roooovvvv" (ECall "tamps.antisym_T4" [(EVar "Roooovvvv"); ENone; ENone]);
   (*L130*) SAssign "t4T" (ETransp (EVar "Roooovvvv") [4; 5; 6; 7; 0; 1; 2; 3]%nat);
   (*L132*) SAssign "resid_aaaa" (EScale (1 # 8) (EEins "klcd,abcdijkl->abij" [(EVar "T2"); (EVar "t4T")]));
   (*L133*) SAssign "fifthorder_wnt2" (EScale (1 # 4) (EEins "ijab,abij" [(EMul (ESlice (EVar "W") [SV "o"; SV "o"; SV "v"; SV "v"]) (EVar "D2")); (EVar "resid_aaaa")]));
   (*L137*) SAssign "t2test" (EScale (1 # 2) (ECall "optWnT2sqr" [(EVar "W"); (EVar "T2"); (EVar "o"); (EVar "v")]));
   (*L138*) SAssign "t2test" (ECall "tamps.antisym_T2" [(EVar "t2test"); ENone; ENone]);
   (*L139*) SAssign "t2test" (ETransp (EVar "t2test") [2; 3; 0; 1]%nat);
   (*L140*) SAssign "teste" (EScale (1 # 4) (EEins "ijab,abij" [(EMul (ESlice (EVar "W") [SV "o"; SV "o"; SV "v"; SV "v"]) (EVar "D2")); (EVar "t2test")]));
   (*L145*) SAssign "t2test" (EScale (1 # 2) (ECall "optWnT3" [(EVar "W"); (EVar "T3"); (EVar "T2"); (EVar "o"); (EVar "v")]));
   (*L146*) SAssign "t2test" (ECall "tamps.antisym_T2" [(EVar "t2test"); ENone; ENone]);
   (*L147*) SAssign "t2test" (ETransp (EVar "t2test") [2; 3; 0; 1]%nat);
   (*L148*) SAssign "teste" (EScale (1 # 4) (EEins "ijab,abij" [(EMul (ESlice (EVar "W") [SV "o"; SV "o"; SV "v"; SV "v"]) (EVar "D2")); (EVar "t2test")]));
   (*L152*) SAssign "Roooovvvv" (EZeros [(EVar "no"); (EVar "no"); (EVar "no"); (EVar "no"); (EVar "nv"); (EVar "nv"); (EVar "nv"); (EVar "nv")]);
   (*L153*) SAug true "Roooovvvv" (EScale (-41666667 # 1000000000) (EEins "ijmabc,klmd->ijklabcd" [(EVar "T3"); (ESlice (EVar "W") [SV "o"; SV "o"; SV "o"; SV "v"])]));
   (*L154*) SAug true "Roooovvvv" (EScale (-41666667 # 1000000000) (EEins "ijkabe,lecd->ijklabcd" [(EVar "T3"); (ESlice (EVar "W") [SV "o"; SV "v"; SV "v"; SV "v"])]));
   (*L156*) SAssign "Roooovvvv" (ECall "tamps.antisym_T4" [(EVar "Roooovvvv"); ENone; ENone]);
   (*L157*) SAssign "t4T" (ETransp (EVar "Roooovvvv") [4; 5; 6; 7; 0; 1; 2; 3]%nat);
   (*L159*) SAssign "resid_aaaa" (EScale (1 # 8) (EEins "klcd,abcdijkl->abij" [(EVar "T2"); (EVar "t4T")]));
   (*L160*) SAssign "fifthorder_wnt3" (EScale (1 # 4) (EEins "ijab,abij" [(EMul (ESlice (EVar "W") [SV "o"; SV "o"; SV "v"; SV "v"]) (EVar "D2")); (EVar "resid_aaaa")]))]
  (*L162*) (EAdd (EVar "fifthorder_wnt3") (EVar "fifthorder_wnt2")).

(** /repo/UT2/cc_energy.py:118-175  def long_testQf5Order_L175 *)
Definition long_testQf5Order_L175 : fn := mkFn
  ["W"; "T2"; "T3"; "o"; "v"; "D2"]
  [(*L119*) SAssign "v_oo" (ESlice (EVar "W") [SV "o"; SV "o"; SV "o"; SV "o"]);
   (*L120*) SAssign "v_vo" (ESlice (EVar "W") [SV "o"; SV "v"; SV "o"; SV "v"]);
   (*L121*) SAssign "v_vv" (ESlice (EVar "W") [SV "v"; SV "v"; SV "v"; SV "v"]);
   (*L122*) SAssign "no" (EShape (EVar "T2") 0%nat);
   (*L123*) SAssign "nv" (EShape (EVar "T2") 2%nat);
   (*L124*) SAssign "Roooovvvv" (EZeros [(EVar "no"); (EVar "no"); (EVar "no"); (EVar "no"); (EVar "nv"); (EVar "nv"); (EVar "nv"); (EVar "nv")]);
   (*L125*) SAug true "Roooovvvv" (EScale (-1 # 16) (EEins "imab,jncd,klmn->ijklabcd" [(EVar "T2"); (EVar "T2"); (EVar "v_oo")]));
   (*L126*) SAug true "Roooovvvv" (EScale (-1 # 4) (EEins "imab,jkce,lemd->ijklabcd" [(EVar "T2"); (EVar "T2"); (EVar "v_vo")]));
   (*L127*) SAug true "Roooovvvv" (EScale (-1 # 16) (EEins "ijae,klbf,efcd->ijklabcd" [(EVar "T2"); (EVar "T2"); (EVar "v_vv")]));
   (*L129*) SAssign "Roooovvvv" (ECall "tamps.antisym_T4" [(EVar "Roooovvvv"); ENone; ENone]);
   (*L130*) SAssign "t4T" (ETransp (EVar "Roooovvvv") [4; 5; 6; 7; 0; 1; 2; 3]%nat);
   (*L132*) SAssign "resid_aaaa" (EScale (1 # 8) (EEins "klcd,abcdijkl->abij" [(EVar "T2"); (EVar "t4T")]));
   (*L133*) SAssign "fifthorder_wnt2" (EScale (1 # 4) (EEins "ijab,abij" [(EMul (ESlice (EVar "W") [SV "o"; SV "o"; SV "v"; SV "v"]) (EVar "D2")); (EVar "resid_aaaa")]));
   (*L137*) SAssign "t2test" (EScale (1 # 2) (ECall "optWnT2sqr" [(EVar "W"); (EVar "T2"); (EVar "o"); (EVar "v")]));
   (*L138*) SAssign "t2test" (ECall "tamps.antisym_T2" [(EVar "t2test"); ENone; ENone]);
   (*L139*) SAssign "t2test" (ETransp (EVar "t2test") [2; 3; 0; 1]%nat);
   (*L140*) SAssign "teste" (EScale (1 # 4) (EEins "ijab,abij" [(EMul (ESlice (EVar "W") [SV "o"; SV "o"; SV "v"; SV "v"]) (EVar "D2")); (EVar "t2test")]));
   (*L145*) SAssign "t2test" (EScale (1 # 2) (ECall "optWnT3" [(EVar "W"); (EVar "T3"); (EVar "T2"); (EVar "o"); (EVar "v")]));
   (*L146*) SAssign "t2test" (ECall "tamps.antisym_T2" [(EVar "t2test"); ENone; ENone]);
   (*L147*) SAssign "t2test" (ETransp (EVar "t2test") [2; 3; 0; 1]%nat);
   (*L148*) SAssign "teste" (EScale (1 # 4) (EEins "ijab,abij" [(EMul (ESlice (EVar "W") [SV "o"; SV "o"; SV "v"; SV "v"]) (EVar "D2")); (EVar "t2test")]));
   (*L152*) SAssign "Roooovvvv" (EZeros [(EVar "no"); (EVar "no"); (EVar "no"); (EVar "no"); (EVar "nv"); (EVar "nv"); (EVar "nv"); (EVar "nv")]);
   (*L153*) SAug true "Roooovvvv" (EScale (-41666667 # 1000000000) (EEins "ijmabc,klmd->ijklabcd" [(EVar "T3"); (ESlice (EVar "W") [SV "o"; SV "o"; SV "o"; SV "v"])]));
   (*L154*) SAug true "Roooovvvv" (EScale (-41666667 # 1000000000) (EEins "ijkabe,lecd->ijklabcd" [(EVar "T3"); (ESlice (EVar "W") [SV "o"; SV "v"; SV "v"; SV "v"])]));
   (*L156*) SAssign "Roooovvvv" (ECall "tamps.antisym_T4" [(EVar "Roooovvvv"); ENone; ENone]);
   (*L157*) SAssign "t4T" (ETransp (EVar "Roooovvvv") [4; 5; 6; 7; 0; 1; 2; 3]%nat);
   (*L159*) SAssign "resid_aaaa" (EScale (1 # 8) (EEins "klcd,abcdijkl->abij" [(EVar "T2"); (EVar "t4T")]));
   (*L160*) SAssign "fifthorder_wnt3" (EScale (1 # 4) (EEins "ijab,abij" [(EMul (ESlice (EVar "W") [SV "o"; SV "o"; SV "v"; SV "v"]) (EVar "D2")); (EVar "resid_aaaa")]));
   (*L165*) SAssign "Roooovvvv" (EZeros [(EVar "no"); (EVar "no"); (EVar "no"); (EVar "no"); (EVar "nv"); (EVar "nv"); (EVar "nv"); (EVar "nv")]);
   (*L166*) SAug true "Roooovvvv" (EScale (-41666667 # 1000000000) (EEins "ijmabc,klmd->ijklabcd" [(EVar "T3"); (ESlice (EVar "W") [SV "o"; SV "o"; SV "o"; SV "v"])]));
   (*L167*) SAug true "Roooovvvv" (EScale (-41666667 # 1000000000) (EEins "ijkabe,lecd->ijklabcd" [(EVar "T3"); (ESlice (EVar "W") [SV "o"; SV "v"; SV "v"; SV "v"])]));
   (*L169*) SAssign "Roooovvvv" (ECall "tamps.antisym_T4" [(EVar "Roooovvvv"); ENone; ENone]);
   (*L170*) SAssign "t4T" (ETransp (EVar "Roooovvvv") [4; 5; 6; 7; 0; 1; 2; 3]%nat);
   (*L172*) SAssign "resid_aaaa" (EScale (1 # 16) (EEins "klcd,abcdijkl->abij" [(EVar "T2"); (EVar "t4T")]));
   (*L173*) SAssign "resid_aaaa" (ECall "tamps.antisym_T2" [(EVar "resid_aaaa"); ENone; ENone]);
   (*L174*) SAssign "fifthorder_wnt3" (EScale (1 # 4) (EEins "ijab,abij" [(EMul (ESlice (EVar "W") [SV "o"; SV "o"; SV "v"; SV "v"]) (EVar "D2")); (EVar "resid_aaaa")]))]
  (*L175*) (EVar "fifthorder_wnt3").

(** /repo/UT2/cc_energy.py:118-175  def long_testQf5Order_L175_2 *)
Definition long_testQf5Order_L175_2 : fn := mkFn
  ["W"; "T2"; "T3"; "o"; "v"; "D2"]
  [(*L119*) SAssign "v_oo" (ESlice (EVar "W") [SV "o"; SV "o"; SV "o"; SV "o"]);
   (*L120*) SAssign "v_vo" (ESlice (EVar "W") [SV "o"; SV "v"; SV "o"; SV "v"]);
   (*L121*) SAssign "v_vv" (ESlice (EVar "W") [SV "v"; SV "v"; SV "v"; SV "v"]);
   (*L122*) SAssign "no" (EShape (EVar "T2") 0%nat);
   (*L123*) SAssign "nv" (EShape (EVar "T2") 2%nat);
   (*L124*) SAssign "Roooovvvv" (EZeros [(EVar "no"); (EVar "no"); (EVar "no"); (EVar "no"); (EVar "nv"); (EVar "nv"); (EVar "nv"); (EVar "nv")]);
   (*L125*) SAug true "Roooovvvv" (EScale (-1 # 16) (EEins "imab,jncd,klmn->ijklabcd" [(EVar "T2"); (EVar "T2"); (EVar "v_oo")]));
   (*L126*) SAug true "Roooovvvv" (EScale (-1 # 4) (EEins "imab,jkce,lemd->ijklabcd" [(EVar "T2"); (EVar "T2"); (EVar "v_vo")]));
   (*L127*) SAug true "Roooovvvv" (EScale (-1 # 16) (EEins "ijae,klbf,efcd->ijklabcd" [(EVar "T2"); (EVar "T2"); (EVar "v_vv")]));
   (*L129*) SAssign "Roooovvvv" (ECall "tamps.antisym_T4" [(EVar "Roooovvvv"); ENone; ENone]);
   (*L130*) SAssign "t4T" (ETransp (EVar "Roooovvvv") [4; 5; 6; 7; 0; 1; 2; 3]%nat);
   (*L132*) SAssign "resid_aaaa" (EScale (1 # 8) (EEins "klcd,abcdijkl->abij" [(EVar "T2"); (EVar "t4T")]));
   (*L133*) SAssign "fifthorder_wnt2" (EScale (1 # 4) (EEins "ijab,abij" [(EMul (ESlice (EVar "W") [SV "o"; SV "o"; SV "v"; SV "v"]) (EVar "D2")); (EVar "resid_aaaa")]));
   (*L137*) SAssign "t2test" (EScale (1 # 2) (ECall "optWnT2sqr" [(EVar "W"); (EVar "T2"); (EVar "o"); (EVar "v")]));
   (*L138*) SAssign "t2test" (ECall "tamps.antisym_T2" [(EVar "t2test"); ENone; ENone]);
   (*L139*) SAssign "t2test" (ETransp (EVar "t2test") [2; 3; 0; 1]%nat);
   (*L140*) SAssign "teste" (EScale (1 # 4) (EEins "ijab,abij" [(EMul (ESlice (EVar "W") [SV "o"; SV "o"; SV "v"; SV "v"]) (EVar "D2")); (EVar "t2test")]));
   (*L145*) SAssign "t2test" (EScale (1 # 2) (ECall "optWnT3" [(EVar "W"); (EVar "T3"); (EVar "T2"); (EVar "o"); (EVar "v")]));
   (*L146*) SAssign "t2test" (ECall "tamps.antisym_T2" [(EVar "t2test"); ENone; ENone]);
   (*L147*) SAssign "t2test" (ETransp (EVar "t2test") [2; 3; 0; 1]%nat);
   (*L148*) SAssign "teste" (EScale (1 # 4) (EEins "ijab,abij" [(EMul (ESlice (EVar "W") [SV "o"; SV "o"; SV "v"; SV "v"]) (EVar "D2")); (EVar "t2test")]));
   (*L152*) SAssign "Roooovvvv" (EZeros [(EVar "no"); (EVar "no"); (EVar "no"); (EVar "no"); (EVar "nv"); (EVar "nv"); (EVar "nv"); (EVar "nv")]);
   (*L153*) SAug true "Roooovvvv" (EScale (-41666667 # 1000000000) (EEins "ijmabc,klmd->ijklabcd" [(EVar "T3"); (ESlice (EVar "W") [SV "o"; SV "o"; SV "o"; SV "v"])]));
   (*L154*) SAug true "Roooovvvv" (EScale (-41666667 # 1000000000) (EEins "ijkabe,lecd->ijklabcd" [(EVar "T3"); (ESlice (EVar "W") [SV "o"; SV "v"; SV "v"; SV "v"])]));
   (*L156*) SAssign "Roooovvvv" (ECall "tamps.antisym_T4" [(EVar "Roooovvvv"); ENone; ENone]);
   (*L157*) SAssign "t4T" (ETransp (EVar "Roooovvvv") [4; 5; 6; 7; 0; 1; 2; 3]%nat);
   (*L159*) SAssign "resid_aaaa" (EScale (1 # 8) (EEins "klcd,abcdijkl->abij" [(EVar "T2"); (EVar "t4T")]));
   (*L160*) SAssign "fifthorder_wnt3" (EScale (1 # 4) (EEins "ijab,abij" [(EMul (ESlice (EVar "W") [SV "o"; SV "o"; SV "v"; SV "v"]) (EVar "D2")); (EVar "resid_aaaa")]));
   (*L165*) SAssign "Roooovvvv" (EZeros [(EVar "no"); (EVar "no"); (EVar "no"); (EVar "no"); (EVar "nv"); (EVar "nv"); (EVar "nv"); (EVar "nv")]);
   (*L166*) SAug true "Roooovvvv" (EScale (-41666667 # 1000000000) (EEins "ijmabc,klmd->ijklabcd" [(EVar "T3"); (ESlice (EVar "W") [SV "o"; SV "o"; SV "o"; SV "v"])]));
   (*L167*) SAug true "Roooovvvv" (EScale (-41666667 # 1000000000) (EEins "ijkabe,lecd->ijklabcd" [(EVar "T3"); (ESlice (EVar "W") [SV "o"; SV "v"; SV "v"; SV "v"])]));
   (*L169*) SAssign "Roooovvvv" (ECall "tamps.antisym_T4" [(EVar "Roooovvvv"); ENone; ENone]);
   (*L170*) SAssign "t4T" (ETransp (EVar "Roooovvvv") [4; 5; 6; 7; 0; 1; 2; 3]%nat);
   (*L172*) SAssign "resid_aaaa" (EScale (1 # 16) (EEins "klcd,abcdijkl->abij" [(EVar "T2"); (EVar "t4T")]));
   (*L173*) SAssign "resid_aaaa" (ECall "tamps.antisym_T2" [(EVar "resid_aaaa"); ENone; ENone]);
   (*L174*) SAssign "fifthorder_wnt3" (EScale (1 # 4) (EEins "ijab,abij" [(EMul (ESlice (EVar "W") [SV "o"; SV "o"; SV "v"; SV "v"]) (EVar "D2")); (EVar "resid_aaaa")]))]
  (*L175*) (EScale (1 # 2) (EVar "fifthorder_wnt3")).

(** /repo/UT2/cc_energy.py:177-193  def optWnT3 *)
Definition optWnT3 : fn := mkFn
  ["W"; "T3"; "T2"; "o"; "v"]
  [(*L178*) SAssign "T2dag" (ETransp (EVar "T2") [2; 3; 0; 1]%nat);
   (*L180*) SAssign "roovv" (EScale (1 # 8) (EEins "cdkl,ijmabd,klmc->ijab" [(EVar "T2dag"); (EVar "T3"); (ESlice (EVar "W") [SV "o"; SV "o"; SV "o"; SV "v"])]));
   (*L181*) SAug true "roovv" (EScale (1 # 2) (EEins "cdkl,ilmabd,jkmc->ijab" [(EVar "T2dag"); (EVar "T3"); (ESlice (EVar "W") [SV "o"; SV "o"; SV "o"; SV "v"])]));
   (*L182*) SAug true "roovv" (EScale (1 # 8) (EEins "cdkl,klmabd,ijmc->ijab" [(EVar "T2dag"); (EVar "T3"); (ESlice (EVar "W") [SV "o"; SV "o"; SV "o"; SV "v"])]));
   (*L183*) SAug true "roovv" (EScale (1 # 8) (EEins "cdkl,ijlabe,kecd->ijab" [(EVar "T2dag"); (EVar "T3"); (ESlice (EVar "W") [SV "o"; SV "v"; SV "v"; SV "v"])]));
   (*L184*) SAug true "roovv" (EScale (-1 # 8) (EEins "cdkl,iklabe,jecd->ijab" [(EVar "T2dag"); (EVar "T3"); (ESlice (EVar "W") [SV "o"; SV "v"; SV "v"; SV "v"])]));
   (*L185*) SAug true "roovv" (EScale (-1 # 8) (EEins "cdkl,ijmacd,klmb->ijab" [(EVar "T2dag"); (EVar "T3"); (ESlice (EVar "W") [SV "o"; SV "o"; SV "o"; SV "v"])]));
   (*L186*) SAug true "roovv" (EScale (-1 # 2) (EEins "cdkl,ilmacd,jkmb->ijab" [(EVar "T2dag"); (EVar "T3"); (ESlice (EVar "W") [SV "o"; SV "o"; SV "o"; SV "v"])]));
   (*L187*) SAug true "roovv" (EScale (-1 # 8) (EEins "cdkl,klmacd,ijmb->ijab" [(EVar "T2dag"); (EVar "T3"); (ESlice (EVar "W") [SV "o"; SV "o"; SV "o"; SV "v"])]));
   (*L188*) SAug true "roovv" (EScale (1 # 2) (EEins "cdkl,ijlade,kebc->ijab" [(EVar "T2dag"); (EVar "T3"); (ESlice (EVar "W") [SV "o"; SV "v"; SV "v"; SV "v"])]));
   (*L189*) SAug true "roovv" (EScale (-1 # 2) (EEins "cdkl,iklade,jebc->ijab" [(EVar "T2dag"); (EVar "T3"); (ESlice (EVar "W") [SV "o"; SV "v"; SV "v"; SV "v"])]));
   (*L190*) SAug true "roovv" (EScale (1 # 8) (EEins "cdkl,ijlcde,keab->ijab" [(EVar "T2dag"); (EVar "T3"); (ESlice (EVar "W") [SV "o"; SV "v"; SV "v"; SV "v"])]));
   (*L191*) SAug true "roovv" (EScale (-1 # 8) (EEins "cdkl,iklcde,jeab->ijab" [(EVar "T2dag"); (EVar "T3"); (ESlice (EVar "W") [SV "o"; SV "v"; SV "v"; SV "v"])]))]
  (*L193*) (EVar "roovv").

(** /repo/UT2/cc_energy.py:198-231  def optWnT2sqr *)
Definition optWnT2sqr : fn := mkFn
  ["W"; "T2"; "o"; "v"]
  [(*L199*) SAssign "T2dag" (ETransp (EVar "T2") [2; 3; 0; 1]%nat);
   (*L201*) SAssign "roovv" (EScale (-1 # 2) (EEins "ikab,jlcd,celm,mdke->ijab" [(EVar "T2"); (EVar "T2"); (EVar "T2dag"); (ESlice (EVar "W") [SV "o"; SV "v"; SV "o"; SV "v"])]));
   (*L202*) SAug true "roovv" (EScale (-1 # 8) (EEins "ikab,jlcd,cdmn,mnkl->ijab" [(EVar "T2"); (EVar "T2"); (EVar "T2dag"); (ESlice (EVar "W") [SV "o"; SV "o"; SV "o"; SV "o"])]));
   (*L203*) SAug true "roovv" (EScale (-1 # 4) (EEins "ikab,lmcd,celm,jdke->ijab" [(EVar "T2"); (EVar "T2"); (EVar "T2dag"); (ESlice (EVar "W") [SV "o"; SV "v"; SV "o"; SV "v"])]));
   (*L204*) SAug true "roovv" (EScale (1 # 4) (EEins "ikab,lmcd,cdln,jnkm->ijab" [(EVar "T2"); (EVar "T2"); (EVar "T2dag"); (ESlice (EVar "W") [SV "o"; SV "o"; SV "o"; SV "o"])]));
   (*L205*) SAug true "roovv" (EScale (-1 # 4) (EEins "klab,ijcd,cekm,mdle->ijab" [(EVar "T2"); (EVar "T2"); (EVar "T2dag"); (ESlice (EVar "W") [SV "o"; SV "v"; SV "o"; SV "v"])]));
   (*L206*) SAug true "roovv" (EScale (1 # 2) (EEins "klab,imcd,cekm,jdle->ijab" [(EVar "T2"); (EVar "T2"); (EVar "T2dag"); (ESlice (EVar "W") [SV "o"; SV "v"; SV "o"; SV "v"])]));
   (*L207*) SAug true "roovv" (EScale (-1 # 4) (EEins "klab,imcd,cdkn,jnlm->ijab" [(EVar "T2"); (EVar "T2"); (EVar "T2dag"); (ESlice (EVar "W") [SV "o"; SV "o"; SV "o"; SV "o"])]));
   (*L208*) SAug true "roovv" (EScale (-1 # 8) (EEins "klab,mncd,cdkm,ijln->ijab" [(EVar "T2"); (EVar "T2"); (EVar "T2dag"); (ESlice (EVar "W") [SV "o"; SV "o"; SV "o"; SV "o"])]));
   (*L209*) SAug true "roovv" (EScale (-1 # 8) (EEins "ijac,klbd,efkl,cdef->ijab" [(EVar "T2"); (EVar "T2"); (EVar "T2dag"); (ESlice (EVar "W") [SV "v"; SV "v"; SV "v"; SV "v"])]));
   (*L210*) SAug true "roovv" (EScale (-1 # 2) (EEins "ijac,klbd,dekm,mcle->ijab" [(EVar "T2"); (EVar "T2"); (EVar "T2dag"); (ESlice (EVar "W") [SV "o"; SV "v"; SV "o"; SV "v"])]));
   (*L211*) SAug true "roovv" (EScale (1 # 4) (EEins "ijac,klde,dfkl,cebf->ijab" [(EVar "T2"); (EVar "T2"); (EVar "T2dag"); (ESlice (EVar "W") [SV "v"; SV "v"; SV "v"; SV "v"])]));
   (*L212*) SAug true "roovv" (EScale (-1 # 4) (EEins "ijac,klde,dekm,mclb->ijab" [(EVar "T2"); (EVar "T2"); (EVar "T2dag"); (ESlice (EVar "W") [SV "o"; SV "v"; SV "o"; SV "v"])]));
   (*L213*) SAug true "roovv" (EScale (1 # 4) (EEins "ikac,jlbd,efkl,cdef->ijab" [(EVar "T2"); (EVar "T2"); (EVar "T2dag"); (ESlice (EVar "W") [SV "v"; SV "v"; SV "v"; SV "v"])]));
   (*L214*) SAug true "roovv" (EScale (1 # 1) (EEins "ikac,jlbd,dekm,mcle->ijab" [(EVar "T2"); (EVar "T2"); (EVar "T2dag"); (ESlice (EVar "W") [SV "o"; SV "v"; SV "o"; SV "v"])]));
   (*L215*) SAug true "roovv" (EScale (1 # 4) (EEins "ikac,jlbd,cdmn,mnkl->ijab" [(EVar "T2"); (EVar "T2"); (EVar "T2dag"); (ESlice (EVar "W") [SV "o"; SV "o"; SV "o"; SV "o"])]));
   (*L216*) SAug true "roovv" (EScale (-1 # 1) (EEins "ikac,lmbd,dekl,jcme->ijab" [(EVar "T2"); (EVar "T2"); (EVar "T2dag"); (ESlice (EVar "W") [SV "o"; SV "v"; SV "o"; SV "v"])]));
   (*L217*) SAug true "roovv" (EScale (-1 # 1) (EEins "ikac,lmbd,cdln,jnkm->ijab" [(EVar "T2"); (EVar "T2"); (EVar "T2dag"); (ESlice (EVar "W") [SV "o"; SV "o"; SV "o"; SV "o"])]));
   (*L218*) SAug true "roovv" (EScale (-1 # 1) (EEins "ikac,jlde,dfkl,cebf->ijab" [(EVar "T2"); (EVar "T2"); (EVar "T2dag"); (ESlice (EVar "W") [SV "v"; SV "v"; SV "v"; SV "v"])]));
   (*L219*) SAug true "roovv" (EScale (1 # 2) (EEins "ikac,jlde,dekm,mclb->ijab" [(EVar "T2"); (EVar "T2"); (EVar "T2dag"); (ESlice (EVar "W") [SV "o"; SV "v"; SV "o"; SV "v"])]));
   (*L220*) SAug true "roovv" (EScale (-1 # 1) (EEins "ikac,jlde,cdlm,mekb->ijab" [(EVar "T2"); (EVar "T2"); (EVar "T2dag"); (ESlice (EVar "W") [SV "o"; SV "v"; SV "o"; SV "v"])]));
   (*L221*) SAug true "roovv" (EScale (-1 # 2) (EEins "ikac,lmde,dekl,jcmb->ijab" [(EVar "T2"); (EVar "T2"); (EVar "T2dag"); (ESlice (EVar "W") [SV "o"; SV "v"; SV "o"; SV "v"])]));
   (*L222*) SAug true "roovv" (EScale (-1 # 2) (EEins "ikac,lmde,cdlm,jekb->ijab" [(EVar "T2"); (EVar "T2"); (EVar "T2dag"); (ESlice (EVar "W") [SV "o"; SV "v"; SV "o"; SV "v"])]));
   (*L223*) SAug true "roovv" (EScale (-1 # 2) (EEins "klac,imbd,dekl,jcme->ijab" [(EVar "T2"); (EVar "T2"); (EVar "T2dag"); (ESlice (EVar "W") [SV "o"; SV "v"; SV "o"; SV "v"])]));
   (*L224*) SAug true "roovv" (EScale (1 # 4) (EEins "klac,mnbd,cdkm,ijln->ijab" [(EVar "T2"); (EVar "T2"); (EVar "T2dag"); (ESlice (EVar "W") [SV "o"; SV "o"; SV "o"; SV "o"])]));
   (*L225*) SAug true "roovv" (EScale (1 # 4) (EEins "klac,ijde,dfkl,cebf->ijab" [(EVar "T2"); (EVar "T2"); (EVar "T2dag"); (ESlice (EVar "W") [SV "v"; SV "v"; SV "v"; SV "v"])]));
   (*L226*) SAug true "roovv" (EScale (-1 # 2) (EEins "klac,ijde,cdkm,melb->ijab" [(EVar "T2"); (EVar "T2"); (EVar "T2dag"); (ESlice (EVar "W") [SV "o"; SV "v"; SV "o"; SV "v"])]));
   (*L227*) SAug true "roovv" (EScale (-1 # 4) (EEins "klac,imde,dekl,jcmb->ijab" [(EVar "T2"); (EVar "T2"); (EVar "T2dag"); (ESlice (EVar "W") [SV "o"; SV "v"; SV "o"; SV "v"])]));
   (*L228*) SAug true "roovv" (EScale (1 # 1) (EEins "klac,imde,cdkm,jelb->ijab" [(EVar "T2"); (EVar "T2"); (EVar "T2dag"); (ESlice (EVar "W") [SV "o"; SV "v"; SV "o"; SV "v"])]));
   (*L229*) SAug true "roovv" (EScale (-1 # 8) (EEins "ijcd,klef,cekl,dfab->ijab" [(EVar "T2"); (EVar "T2"); (EVar "T2dag"); (ESlice (EVar "W") [SV "v"; SV "v"; SV "v"; SV "v"])]));
   (*L230*) SAug true "roovv" (EScale (1 # 4) (EEins "ikcd,jlef,cekl,dfab->ijab" [(EVar "T2"); (EVar "T2"); (EVar "T2dag"); (ESlice (EVar "W") [SV "v"; SV "v"; SV "v"; SV "v"])]))]
  (*L231*) (EVar "roovv").

(** /repo/UT2/cc_energy.py:235-249  def T3portion_Qf *)
Definition T3portion_Qf : fn := mkFn
  ["W"; "T2dag"; "T3"; "o"; "v"]
  [(*L237*) SAssign "roovv" (EScale (1 # 8) (EEins "cdkl,ijmabd,klmc->ijab" [(EVar "T2dag"); (EVar "T3"); (ESlice (EVar "W") [SV "o"; SV "o"; SV "o"; SV "v"])]));
   (*L238*) SAug true "roovv" (EScale (1 # 2) (EEins "cdkl,ilmabd,jkmc->ijab" [(EVar "T2dag"); (EVar "T3"); (ESlice (EVar "W") [SV "o"; SV "o"; SV "o"; SV "v"])]));
   (*L239*) SAug true "roovv" (EScale (1 # 8) (EEins "cdkl,klmabd,ijmc->ijab" [(EVar "T2dag"); (EVar "T3"); (ESlice (EVar "W") [SV "o"; SV "o"; SV "o"; SV "v"])]));
   (*L240*) SAug true "roovv" (EScale (1 # 8) (EEins "cdkl,ijlabe,kecd->ijab" [(EVar "T2dag"); (EVar "T3"); (ESlice (EVar "W") [SV "o"; SV "v"; SV "v"; SV "v"])]));
   (*L241*) SAug true "roovv" (EScale (-1 # 8) (EEins "cdkl,iklabe,jecd->ijab" [(EVar "T2dag"); (EVar "T3"); (ESlice (EVar "W") [SV "o"; SV "v"; SV "v"; SV "v"])]));
   (*L242*) SAug true "roovv" (EScale (-1 # 8) (EEins "cdkl,ijmacd,klmb->ijab" [(EVar "T2dag"); (EVar "T3"); (ESlice (EVar "W") [SV "o"; SV "o"; SV "o"; SV "v"])]));
   (*L243*) SAug true "roovv" (EScale (-1 # 2) (EEins "cdkl,ilmacd,jkmb->ijab" [(EVar "T2dag"); (EVar "T3"); (ESlice (EVar "W") [SV "o"; SV "o"; SV "o"; SV "v"])]));
   (*L244*) SAug true "roovv" (EScale (-1 # 8) (EEins "cdkl,klmacd,ijmb->ijab" [(EVar "T2dag"); (EVar "T3"); (ESlice (EVar "W") [SV "o"; SV "o"; SV "o"; SV "v"])]));
   (*L245*) SAug true "roovv" (EScale (1 # 2) (EEins "cdkl,ijlade,kebc->ijab" [(EVar "T2dag"); (EVar "T3"); (ESlice (EVar "W") [SV "o"; SV "v"; SV "v"; SV "v"])]));
   (*L246*) SAug true "roovv" (EScale (-1 # 2) (EEins "cdkl,iklade,jebc->ijab" [(EVar "T2dag"); (EVar "T3"); (ESlice (EVar "W") [SV "o"; SV "v"; SV "v"; SV "v"])]));
   (*L247*) SAug true "roovv" (EScale (1 # 8) (EEins "cdkl,ijlcde,keab->ijab" [(EVar "T2dag"); (EVar "T3"); (ESlice (EVar "W") [SV "o"; SV "v"; SV "v"; SV "v"])]));
   (*L248*) SAug true "roovv" (EScale (-1 # 8) (EEins "cdkl,iklcde,jeab->ijab" [(EVar "T2dag"); (EVar "T3"); (ESlice (EVar "W") [SV "o"; SV "v"; SV "v"; SV "v"])]))]
  (*L249*) (EVar "roovv").

(** /repo/UT2/cc_energy.py:251-255  def build_approxT3 *)
Definition build_approxT3 : fn := mkFn
  ["W"; "T2"; "o"; "v"]
  [(*L253*) SAssign "rooovvv" (EScale (-1 # 4) (EEins "ilab,jklc->ijkabc" [(EVar "T2"); (ESlice (EVar "W") [SV "o"; SV "o"; SV "o"; SV "v"])]));
   (*L254*) SAug true "rooovvv" (EScale (-1 # 4) (EEins "ijad,kdbc->ijkabc" [(EVar "T2"); (ESlice (EVar "W") [SV "o"; SV "v"; SV "v"; SV "v"])]))]
  (*L255*) (EVar "rooovvv").
