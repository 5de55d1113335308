(** C13, C14: the two routes to the fifth- and sixth-order factorised-quadruples energies printed by
    cc_energy.py. *)
From Coq Require Import String Ascii List Arith NArith ZArith QArith Qcanon Bool Lia Permutation.
From Verif Require Import Sums Tensor Interp Poly SymExec Canon Spec Setup Master Spin Check Tabs NF Antisym Formula
  Bound Unround Instances.
From Verif Require Code_cc_energy Code_build_qf_correction Code_tamps.
Import ListNotations.
Open Scope string_scope.
Open Scope Qc_scope.
Import Code_cc_energy.

(** `import UT2.tamps as tamps`, `import UT2.build_qf_correction as qf` and the module's own functions, as
    seen from cc_energy.py (lines 1-6). *)
Definition lib_cc_energy : list (string * fn) :=
  (lib_tamps ++ [("qf.wnT2cubed_toT4", Code_build_qf_correction.wnT2cubed_toT4);
   ("qf.wnT2cubed_toT2", Code_build_qf_correction.wnT2cubed_toT2);
   ("qf.wnT2T3_toT4", Code_build_qf_correction.wnT2T3_toT4);
   ("qf.wnT2T3_toT2", Code_build_qf_correction.wnT2T3_toT2);
   ("optWnT2sqr", optWnT2sqr); ("optWnT3", optWnT3)])%list.

Definition r_args5 : list sval :=
  [xG; at_ 3 [0;0;1;1]%N; at_ 4 [0;0;0;1;1;1]%N; SSl 0; SSl 1; at_ 8 [0;0;1;1]%N].
Definition r_args6 : list sval := [xG; at_ 3 [0;0;1;1]%N; SSl 0; SSl 1; at_ 8 [0;0;1;1]%N].

(** results compared after scaling or addition *)
Definition scl (q : Q) (x : option sval) : option sval :=
  match x with Some (SP s p) => Some (SP s (pscale q p)) | _ => None end.

Section Atoms.
  Variables no nv : nat.
  Variables W T2 T3 D2 : tensor.
  Hypothesis HW : is_tei (no + nv) W.
  Hypothesis H2 : is_amp_ov 2 no nv T2.
  Hypothesis H3 : is_amp_ov 3 no nv T3.
  Hypothesis HD : shape D2 = [no; no; nv; nv].
  Definition r_atoms : atomtab := [(1%N, ([6;6;6;6]%N, W)); (3%N, ([0;0;1;1]%N, T2));
     (4%N, ([0;0;0;1;1;1]%N, T3)); (8%N, ([0;0;1;1]%N, D2))].
  Lemma r_ok : Forall (atom_ok (so_range no nv) sy) r_atoms.
  Proof. unfold r_atoms. oks. apply atom_ok_gen; [reflexivity|]. apply (shapes_dim no nv [0;0;1;1]%N); [exact HD|reflexivity]. Qed.
  Lemma r_D2 : so_vsim no nv r_atoms (at_ 8 [0;0;1;1]%N) (VT D2).
  Proof. apply so_atom; [reflexivity|]. apply (shapes_dim no nv [0;0;1;1]%N); [exact HD|reflexivity]. Qed.
  Lemma r_vs5 : Forall2 (so_vsim no nv r_atoms) r_args5 [VT W; VT T2; VT T3; o_ no; v_ no; VT D2].
  Proof. unfold r_args5, xG. vsims. apply r_D2. Qed.
  Lemma r_vs6 : Forall2 (so_vsim no nv r_atoms) r_args6 [VT W; VT T2; o_ no; v_ no; VT D2].
  Proof. unfold r_args6, xG. vsims. apply r_D2. Qed.

  (** relations between printed numbers *)
  Lemma r_rel q p1 p2 p3 E1 E2 E3 : so_vsim no nv r_atoms (SP [] p1) (VT E1) -> so_vsim no nv r_atoms (SP [] p2) (VT E2) ->
    so_vsim no nv r_atoms (SP [] p3) (VT E3) ->
    so_chk [] (Some (SP [] p1)) (Some (SP [] (pscale q p2 ++ p3)%list)) ->
    data E1 [] = Q2Qc q * data E2 [] + data E3 [].
  Proof.
    intros V1 V2 V3 HC. pose proof (so_vs_lin no nv r_atoms [] q p2 p3 E2 E3 V2 V3) as V.
    destruct (so_vs_eq no nv r_atoms r_ok _ _ _ _ _ V1 V HC) as [_ D]. apply (D []).
    rewrite (so_vs_shape _ _ _ _ _ _ V1). constructor.
  Qed.
  Lemma r_eq q p1 p2 E1 E2 : so_vsim no nv r_atoms (SP [] p1) (VT E1) -> so_vsim no nv r_atoms (SP [] p2) (VT E2) ->
    so_chk [] (Some (SP [] p1)) (Some (SP [] (pscale q p2 ++ [])%list)) -> data E1 [] = Q2Qc q * data E2 [].
  Proof.
    intros V1 V2 HC. rewrite (r_rel q p1 p2 [] E1 E2 (mkT [] (fun _ => 0)) V1 V2); [cbn [data]; ring| |exact HC].
    constructor. split; [reflexivity|]. intros idx e _ _. reflexivity.
  Qed.
End Atoms.

Ltac run_ OK VS f E H V := so_nf OK 2%nat lib_cc_energy f (@nil space) VS E H V.

(** C13.  For every Hermitian antisymmetric W, antisymmetric T2, T3 and any array D2 of denominators:
    the "faster" route to the WnT2^2 contribution prints the same number as the T4 route; the two T4 routes to
    the WnT3 contribution print the same number, which is 1.000000008 = 24 * 0.041666667 times the number
    printed by the faster route (exactly the number, once the literal 0.041666667 is read as 1/24); the total
    is the sum. *)
Theorem C13_fast_route_is_T4_route : forall no nv W T2 T3 D2,
  is_tei (no + nv) W -> is_amp_ov 2 no nv T2 -> is_amp_ov 3 no nv T3 -> shape D2 = [no; no; nv; nv] ->
  let args := [VT W; VT T2; VT T3; o_ no; v_ no; VT D2] in
  exists E134 E141 E149 E161 E162 E175,
    returns 2 lib_cc_energy long_testQf5Order_L134 args E134 /\
    returns 2 lib_cc_energy long_testQf5Order_L141 args E141 /\
    returns 2 lib_cc_energy long_testQf5Order_L149 args E149 /\
    returns 2 lib_cc_energy long_testQf5Order_L161 args E161 /\
    returns 2 lib_cc_energy long_testQf5Order_L162 args E162 /\
    returns 2 lib_cc_energy long_testQf5Order_L175_2 args E175 /\
    data E134 [] = data E141 [] /\
    data E161 [] = Q2Qc (24 * (41666667 # 1000000000)) * data E149 [] /\
    data E175 [] = data E161 [] /\
    data E162 [] = data E161 [] + data E134 [] /\
    exists X149 X161,
      returns 2 (unround_lib lib_cc_energy) (unround_fn long_testQf5Order_L149) args X149 /\
      returns 2 (unround_lib lib_cc_energy) (unround_fn long_testQf5Order_L161) args X161 /\
      data X149 [] = data E149 [] /\ data X161 [] = data E149 [].
Proof.
  intros no nv W T2 T3 D2 HW H2 H3 HD args.
  pose proof (r_vs5 no nv W T2 T3 D2 HW H2 H3 HD) as VS. fold args in VS.
  pose proof (r_ok no nv W T2 T3 D2 HW H2 H3 HD) as OK.
  run_ OK VS long_testQf5Order_L134 E134 R134 V134. run_ OK VS long_testQf5Order_L141 E141 R141 V141.
  run_ OK VS long_testQf5Order_L149 E149 R149 V149. run_ OK VS long_testQf5Order_L161 E161 R161 V161.
  run_ OK VS long_testQf5Order_L162 E162 R162 V162. run_ OK VS long_testQf5Order_L175_2 E175 R175 V175.
  so_nf OK 2%nat (unround_lib lib_cc_energy) (unround_fn long_testQf5Order_L149) (@nil space) VS X149 Q149 U149.
  so_nf OK 2%nat (unround_lib lib_cc_energy) (unround_fn long_testQf5Order_L161) (@nil space) VS X161 Q161 U161.
  exists E134, E141, E149, E161, E162, E175. repeat (split; [assumption|]).
  pose proof (r_eq no nv W T2 T3 D2 HW H2 H3 HD) as K.
  split. { rewrite (K 1%Q _ _ _ _ V134 V141); [ring|chk_]. }
  split. { rewrite (K (24 * (41666667 # 1000000000))%Q _ _ _ _ V161 V149); [ring|chk_]. }
  split. { rewrite (K 1%Q _ _ _ _ V175 V161); [ring|chk_]. }
  split. { rewrite (r_rel no nv W T2 T3 D2 HW H2 H3 HD 1%Q _ _ _ _ _ _ V162 V161 V134); [ring|chk_]. }
  exists X149, X161. split; [exact Q149|]. split; [exact Q161|]. split.
  - rewrite (K 1%Q _ _ _ _ U149 V149); [ring|chk_].
  - rewrite (K 1%Q _ _ _ _ U161 V149); [ring|chk_].
Qed.
Print Assumptions C13_fast_route_is_T4_route.
Example C13_instance := C13_fast_route_is_T4_route 2 2 (i_tei 4) (i_amp_ov 2 2 2) (i_amp_ov 3 2 2) (i_amp_ov 2 2 2)
  (i_tei_ok 4) (i_amp_ov_ok 2 2 2) (i_amp_ov_ok 3 2 2) eq_refl.

(** C13 (WnT2T3).  The T2 route prints the same number as the T4 route up to the truncated literals of the T4
    route: for entries bounded by M >= 1 the numbers differ by at most 3.6e-8 * N^11 * M^6 with N = no + nv; and
    they are equal once each literal is read as the fraction it abbreviates (this changes no literal of the T2
    route's result). *)
Theorem C13_WnT2T3_routes : forall no nv W T2 T3 D2,
  is_tei (no + nv) W -> is_amp_ov 2 no nv T2 -> is_amp_ov 3 no nv T3 -> shape D2 = [no; no; nv; nv] ->
  let args := [VT W; VT T2; VT T3; o_ no; v_ no; VT D2] in
  exists E110 E116 X110 X116,
    returns 2 lib_cc_energy sixthOrderQf_wnT2T3_L110 args E110 /\
    returns 2 lib_cc_energy sixthOrderQf_wnT2T3_L116 args E116 /\
    returns 2 (unround_lib lib_cc_energy) (unround_fn sixthOrderQf_wnT2T3_L110) args X110 /\
    returns 2 (unround_lib lib_cc_energy) (unround_fn sixthOrderQf_wnT2T3_L116) args X116 /\
    data X110 [] = data X116 [] /\ data E116 [] = data X116 [] /\
    forall M, 1 <= M -> (1 <= no + nv)%nat -> bounded M W -> bounded M T2 -> bounded M T3 -> bounded M D2 ->
      Qcabs.Qcabs (data E110 [] - data E116 []) <= Q2Qc (9 # 250000000) * qn (no + nv) ^ 11 * M ^ 6.
Proof.
  intros no nv W T2 T3 D2 HW H2 H3 HD args.
  pose proof (r_vs5 no nv W T2 T3 D2 HW H2 H3 HD) as VS. fold args in VS.
  pose proof (r_ok no nv W T2 T3 D2 HW H2 H3 HD) as OK.
  run_ OK VS sixthOrderQf_wnT2T3_L110 E110 R110 V110. run_ OK VS sixthOrderQf_wnT2T3_L116 E116 R116 V116.
  so_nf OK 2%nat (unround_lib lib_cc_energy) (unround_fn sixthOrderQf_wnT2T3_L110) (@nil space) VS X110 Q110 U110.
  so_nf OK 2%nat (unround_lib lib_cc_energy) (unround_fn sixthOrderQf_wnT2T3_L116) (@nil space) VS X116 Q116 U116.
  exists E110, E116, X110, X116. repeat (split; [assumption|]).
  pose proof (r_eq no nv W T2 T3 D2 HW H2 H3 HD) as K.
  split. { rewrite (K 1%Q _ _ _ _ U110 U116); [ring|chk_]. }
  split. { rewrite (K 1%Q _ _ _ _ V116 U116); [ring|chk_]. }
  intros M HM HN BW B2 B3 BD.
  assert (BA : Forall (fun a : N * (list space * tensor) => bounded M (snd (snd a))) (r_atoms W T2 T3 D2)).
  { unfold r_atoms. repeat (constructor; [assumption|]). constructor. }
  pose proof (so_vs_close no nv (r_atoms W T2 T3 D2) OK (no + nv) M (le_n _) HN HM BA
    (9 # 250000000) 11 6 [] _ _ _ _ V110 V116) as C. 
  apply C; [cchk_|]. rewrite (so_vs_shape _ _ _ _ _ _ V110). constructor.
Qed.
Print Assumptions C13_WnT2T3_routes.
Example C13_WnT2T3_instance := C13_WnT2T3_routes 2 2 (i_tei 4) (i_amp_ov 2 2 2) (i_amp_ov 3 2 2) (i_amp_ov 2 2 2)
  (i_tei_ok 4) (i_amp_ov_ok 2 2 2) (i_amp_ov_ok 3 2 2) eq_refl.

