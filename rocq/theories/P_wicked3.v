(** C76: the diagrams printed by run_UCCDcheck, and the third-order energy of run_wickedTest, as matrix elements. *)
From Coq Require Import String Ascii List Arith NArith ZArith QArith Qcanon Bool Lia Permutation.
From Verif Require P_slow.
From Verif Require Import Sums Tensor Interp Poly SymExec Canon Spec SpecDriver Instances Setup Master Spin Check Tabs NF Antisym Formula Fock Wick CCState P_fock Dress Commut NOrd Proj Elem P_antisym Asym
  Wicked P_wicked P_wicked2 P_fock2 P_fock4.
Import ListNotations.
Open Scope string_scope.
Open Scope list_scope.
Open Scope Qc_scope.

(** the Fock expectation value between l and t *)
Definition E_fock2 (no nv : nat) (f : tensor) (l t : nat -> nat -> nat -> nat -> Qc) : Qc :=
  Q2Qc (1 # 2) * (Sum a < nv, Sum b < nv, Sum i < no, Sum j < no, Sum c < nv, data f [no + a; no + b]%nat * l i j a c * t i j b c) +
  Q2Qc (-1 # 2) * (Sum i < no, Sum j < no, Sum k < no, Sum a < nv, Sum b < nv, data f [i; j] * l i k a b * t j k a b).
Definition p_W3 : poly := Eval vm_compute in
  [mkterm "" "ijabcd" (1 # 8) [(6%N, "ijab"); (1%N, "abcd"); (3%N, "cdij")];
   mkterm "" "ijabkl" (1 # 8) [(6%N, "ijab"); (1%N, "ijkl"); (3%N, "abkl")];
   mkterm "" "ijabkc" (-1 # 1) [(6%N, "ijab"); (1%N, "jckb"); (3%N, "acik")]].
Definition p_F3 : poly := Eval vm_compute in
  [mkterm "" "abijc" (1 # 2) [(0%N, "ab"); (6%N, "ijac"); (3%N, "bcij")];
   mkterm "" "ijkab" (-1 # 2) [(0%N, "ij"); (6%N, "ikab"); (3%N, "abjk")]].
Definition p_FW3 : poly := Eval vm_compute in (p_F3 ++ p_W3)%list.
Definition p_E3 : poly := Eval vm_compute in [mkterm "" "ijab" (1 # 4) [(1%N, "ijab"); (3%N, "abij")]].
Definition p_B3 : poly := Eval vm_compute in [mkterm "" "ijab" (1 # 4) [(1%N, "ijab"); (6%N, "ijab")]].
Section Elem2.
  Variables no nv : nat.
  Variables f g t2 l2 : tensor.
  Hypothesis Hf : is_fock (no + nv) f.
  Hypothesis Hg : is_tei (no + nv) g.
  Hypothesis H2 : is_amp 2 no nv t2.
  Hypothesis Hl : is_amp_ov 2 no nv l2.
  Notation range := (so_range no nv).
  Notation tab := [(0%N, ([6;6]%N, f)); (1%N, ([6;6;6;6]%N, g)); (3%N, ([1;1;0;0]%N, t2)); (6%N, ([0;0;1;1]%N, l2))].
  Notation A := (Aof range tab).
  Lemma e2_OK : Forall (atom_ok range sy) tab.
  Proof. oks. Qed.
  Notation t := (fun i j a b => data t2 [a; b; i; j]).
  Lemma elem_dot h psi x (p : poly) : is_op no nv A x h -> psi = x (Phi no nv) ->
    forallb (closed_term (xi 2 ++ xa 2)) (ctsum 2 h) = true ->
    antisymmetrised 2 (carr no nv 2 tab (ctsum 2 h)) (elem2_ov no nv psi) ->
    so_vsim no nv tab (SP [] (dotp 2 6 (ctsum 2 h))) (VT (arr0 (dot 2 no nv l2 (carr no nv 2 tab (ctsum 2 h))))) ->
    forall E, so_vsim no nv tab (SP [] p) (VT (arr0 E)) -> so_chk [] (Some (SP [] p)) (Some (SP [] (dotp 2 6 (ctsum 2 h)))) ->
    E = bra0 no nv (L2op no nv l2 psi).
  Proof using All.
    intros HO EP CL AS V2 E VE CK.
    destruct (so_vs_eq no nv tab e2_OK [] _ _ _ _ VE V2 CK) as [_ EE].
    specialize (EE [] (Forall2_nil _)). cbn [arr0 data] in EE. rewrite EE.
    transitivity (Q2Qc (1 # 4) * dot 2 no nv l2 (elem2_ov no nv psi)).
    - rewrite (anti_dot 2 no nv l2 (carr no nv 2 tab (ctsum 2 h)) _ (sh_ov no nv 2) AS (anti2 no nv l2 Hl)). change (fact 2) with 2%nat.
      rewrite !Qcmult_assoc. replace (Q2Qc (1 # 4) * Q2Qc (inject_Z (Z.of_nat 2)) * Q2Qc (inject_Z (Z.of_nat 2))) with 1 by (apply Qc_is_canon; reflexivity). ring.
    - rewrite dot2. reflexivity.
  Qed.
  Lemma FW_elem : E_fock2 no nv f (fun4 l2) t + E3 no nv g (fun4 l2) t = bra0 no nv (L2op no nv l2 (comm (Ham no nv f g) (T2op no nv t2) (Phi no nv))).
  Proof using All.
    set (psi := comm (Ham no nv f g) (T2op no nv t2) (Phi no nv)).
    assert (IO : is_op no nv A (comm (Ham no nv f g) (T2op no nv t2)) hT2) by exact (hT2_op no nv f g tab eq_refl eq_refl t2 eq_refl).
    assert (CL : forallb (closed_term (xi 2 ++ xa 2)) (ctsum 2 hT2) = true) by vm_cast_no_check (@eq_refl bool true).
    assert (AS : antisymmetrised 2 (carr no nv 2 tab (ctsum 2 hT2)) (elem2_ov no nv psi)).
    { apply (elem_antis no nv 2 tab eq_refl eq_refl hT2 psi); [reflexivity|apply ent2| |vm_cast_no_check (@eq_refl bool true)|exact CL]. intros e. apply (is_op_elem no nv A), IO. }
    assert (V2 : so_vsim no nv tab (SP [] (dotp 2 6 (ctsum 2 hT2))) (VT (arr0 (dot 2 no nv l2 (carr no nv 2 tab (ctsum 2 hT2)))))).
    { pose proof (vsim_tsim no nv tab _ _ _ (carr_vsim no nv 2 eq_refl tab (ctsum 2 hT2) CL)) as TC. constructor. split; [reflexivity|]. intros idx e _ _. cbn [arr0 data].
      apply (dot_poly no nv 2 eq_refl tab 6%N l2); [reflexivity|exact TC|vm_cast_no_check (@eq_refl bool true)]. }
    apply (elem_dot hT2 psi _ p_FW3 IO eq_refl CL AS V2); [|chk_].
    unfold p_FW3, E_fock2, E3, fun4. apply so_formula; [vm_compute; reflexivity|reflexivity|]. given_entries.
  Qed.
  Lemma A_elem : E2 no nv g t = bra0 no nv (comm (Ham no nv f g) (T2op no nv t2) (Phi no nv)).
  Proof using All.
    set (psi := comm (Ham no nv f g) (T2op no nv t2) (Phi no nv)).
    assert (IO : is_op no nv A (comm (Ham no nv f g) (T2op no nv t2)) hT2) by exact (hT2_op no nv f g tab eq_refl eq_refl t2 eq_refl).
    assert (CL : forallb (closed_term (xi 0 ++ xa 0)) (ctsum 0 hT2) = true) by vm_cast_no_check (@eq_refl bool true).
    assert (V2 : so_vsim no nv tab (SP [] (ctsum 0 hT2)) (VT (elem0 no nv psi))).
    { apply (mat0 no nv tab psi [] D0); [reflexivity|reflexivity|]. intros e He. apply (low_elem no nv tab 0 hT2 psi e); [lia|vm_cast_no_check (@eq_refl bool true)|exact CL|exact He|].
      intros e'. apply (is_op_elem no nv A), IO. }
    assert (VE : so_vsim no nv tab (SP [] p_E3) (VT (arr0 (E2 no nv g t)))).
    { unfold p_E3, E2. apply so_formula; [vm_compute; reflexivity|reflexivity|]. given_entries. }
    destruct (so_vs_eq no nv tab e2_OK [] _ _ _ _ VE V2) as [_ EE]; [chk_|].
    exact (EE [] (Forall2_nil _)).
  Qed.
  Lemma B_elem : E2 no nv g (fun4 l2) = bra0 no nv (L2op no nv l2 (Ham no nv f g (Phi no nv))).
  Proof using All.
    set (psi := Ham no nv f g (Phi no nv)).
    assert (IO : is_op no nv A (Ham no nv f g) hams).
    { intros e phi n _. exact (ham_sem no nv (A' A) f g (read_f no nv tab f eq_refl) (read_g no nv tab g eq_refl) e phi n). }
    assert (CL : forallb (closed_term (xi 2 ++ xa 2)) (ctsum 2 hams) = true) by vm_cast_no_check (@eq_refl bool true).
    assert (AS : antisymmetrised 2 (carr no nv 2 tab (ctsum 2 hams)) (elem2_ov no nv psi)).
    { apply (elem_antis no nv 2 tab eq_refl eq_refl hams psi); [reflexivity|apply ent2| |vm_cast_no_check (@eq_refl bool true)|exact CL]. intros e. apply (is_op_elem no nv A), IO. }
    assert (V2 : so_vsim no nv tab (SP [] (dotp 2 6 (ctsum 2 hams))) (VT (arr0 (dot 2 no nv l2 (carr no nv 2 tab (ctsum 2 hams)))))).
    { pose proof (vsim_tsim no nv tab _ _ _ (carr_vsim no nv 2 eq_refl tab (ctsum 2 hams) CL)) as TC. constructor. split; [reflexivity|]. intros idx e _ _. cbn [arr0 data].
      apply (dot_poly no nv 2 eq_refl tab 6%N l2); [reflexivity|exact TC|vm_cast_no_check (@eq_refl bool true)]. }
    apply (elem_dot hams psi _ p_B3 IO eq_refl CL AS V2); [|chk_].
    unfold p_B3, E2, fun4. apply so_formula; [vm_compute; reflexivity|reflexivity|]. given_entries.
  Qed.
End Elem2.

(** C76.  In terms of the reference |0>, the fluctuation potential W and the Hamiltonian H: diagram A is <0| [W, T2] |0>, diagram B
    <0| L2 W |0>, diagram C <0| L2 [W, T2] |0>, and C with the Fock part <0| L2 [H, T2] |0>, where the de-excitation L2 need not be
    the adjoint of T2.  The third-order energy of C74 is the case of first-order amplitudes. *)
Theorem C76_matrix_elements : forall no nv f g t2 l2,
  is_fock (no + nv) f -> is_tei (no + nv) g -> is_amp 2 no nv t2 -> is_amp_ov 2 no nv l2 ->
  let l i j a b := data l2 [i; j; a; b] in let t i j a b := data t2 [a; b; i; j] in
  let W := Fluct no nv g in let H := Ham no nv f g in let T2 := T2op no nv t2 in let L2 := L2op no nv l2 in
  E2 no nv g t = bra0 no nv (comm W T2 (Phi no nv)) /\
  E2 no nv g l = bra0 no nv (L2 (W (Phi no nv))) /\
  E3 no nv g l t = bra0 no nv (L2 (comm W T2 (Phi no nv))) /\
  E_fock2 no nv f l t + E3 no nv g l t = bra0 no nv (L2 (comm H T2 (Phi no nv))).
Proof.
  intros no nv f g t2 l2 Hf Hg H2 Hl l t W H T2 L2.
  split; [exact (A_elem no nv _ g t2 l2 (zf_ok no nv) Hg H2 Hl)|]. split; [exact (B_elem no nv _ g t2 l2 (zf_ok no nv) Hg H2 Hl)|].
  split; [|apply FW_elem; assumption].
  unfold W, Fluct, L2, T2. rewrite <- (FW_elem no nv _ g t2 l2 (zf_ok no nv) Hg H2 Hl).
  assert (Z : E_fock2 no nv (mkT [no + nv; no + nv]%nat (fun _ => 0)) (fun4 l2) (fun i j a b => data t2 [a; b; i; j]) = 0).
  { unfold E_fock2. cbn [data]. rewrite !suml_zero; [ring| |]; repeat (intros; apply suml_zero); intros; ring. }
  rewrite Z. unfold fun4. fold l t. change (fun i j a b => data l2 [i; j; a; b]) with l. change (fun i j a b => data t2 [a; b; i; j]) with t. ring.
Qed.
Print Assumptions C76_matrix_elements.
Example C76_matrix_instance := C76_matrix_elements 2 2 (i_fock 4) (i_tei 4) (i_amp 2 2 2) (i_amp_ov 2 2 2) (i_fock_ok 4) (i_tei_ok 4) (i_amp_ok 2 2 2) (i_amp_ov_ok 2 2 2).
Lemma E_fock_same no nv f t : E_fock no nv f t = E_fock2 no nv f t t. Proof. reflexivity. Qed.
(** C76, together: the numbers printed are matrix elements of the Hamiltonian with the doubles and their adjoint (whose amplitudes
    are those of T2 with the two halves exchanged), and the total is the sum of those of W; the last-but-one number adds the energy of one molecule. *)
Theorem C76_printed_matrix_elements : forall no nv f g t2 l2,
  is_fock (no + nv) f -> is_tei (no + nv) g -> is_amp 2 no nv t2 -> swapped 2 t2 l2 ->
  let W := Fluct no nv g in let H := Ham no nv f g in let T2 := T2op no nv t2 in let T2' := L2op no nv l2 in let vac := Phi no nv in
  let A := bra0 no nv (comm W T2 vac) in let B := bra0 no nv (T2' (W vac)) in let C := bra0 no nv (T2' (comm W T2 vac)) in
  exists F,
    printed_UCCD no nv g f t2 =
      Some [("energies A,B,C", A); ("", B); ("", C); ("fockpart:", F); ("total corr E", A + B + C); ("", A + B + C + Q2Qc (-111632556448611 # 100000000000000)); ("new diagram C energy:", C)] /\
    F + C = bra0 no nv (T2' (comm H T2 vac)).
Proof.
  intros no nv f g t2 l2 Hf Hg H2 SW W H T2 T2' vac A B C.
  pose proof H2 as [S2 _]. cbn [repeat app] in S2. pose proof SW as [SL DL]. rewrite S2 in SL. cbn [skipn firstn app] in SL.
  destruct (P_slow.transp_amp no nv t2 H2) as [u [_ [[SU DU] AU]]].
  assert (AL : is_amp_ov 2 no nv l2).
  { split; [exact SL|]. destruct AU as [SU' AU]. intros i Hi. destruct (AU i Hi) as [P1 P2].
    assert (EQ : forall idx, inr idx [no; no; nv; nv] -> data l2 idx = data u idx).
    { intros idx I. pose proof (inr_len _ _ I) as L. cbn in L. destruct idx as [|i' [|j' [|a' [|b' [|]]]]]; try discriminate.
      repeat match goal with H : inr (_ :: _) _ |- _ => inversion H; subst; clear H | H : Forall2 _ (_ :: _) _ |- _ => inversion H; subst; clear H end.
      transitivity (data t2 [a'; b'; i'; j']); [|symmetry]; [apply (DL [a'; b'] [i'; j'] eq_refl)|apply (DU [a'; b'] [i'; j'] eq_refl)]; rewrite S2; repeat constructor; assumption. }
    cbn [repeat app] in SU'.
    split; intros pre x y post HL I1 I2; rewrite SL in I1, I2; rewrite !EQ by assumption; [apply P1|apply P2]; try assumption; rewrite SU'; assumption. }
  destruct (C76_matrix_elements no nv f g t2 l2 Hf Hg H2 AL) as [MA [MB [M1 M2]]].
  assert (X : forall i j a b, (i < no)%nat -> (j < no)%nat -> (a < nv)%nat -> (b < nv)%nat -> data t2 [a; b; i; j] = data l2 [i; j; a; b]).
  { intros i j a b Hi Hj Ha Hb. symmetry. apply (DL [a; b] [i; j] eq_refl). rewrite S2. repeat constructor; assumption. }
  assert (EC : E3 no nv g (fun i j a b => data t2 [a; b; i; j]) (fun i j a b => data t2 [a; b; i; j]) = E3 no nv g (fun i j a b => data l2 [i; j; a; b]) (fun i j a b => data t2 [a; b; i; j])).
  { apply E3_ext; [exact X|reflexivity]. }
  assert (ED : E_fock no nv f (fun i j a b => data t2 [a; b; i; j]) = E_fock2 no nv f (fun i j a b => data l2 [i; j; a; b]) (fun i j a b => data t2 [a; b; i; j])).
  { rewrite E_fock_same. unfold E_fock2. f_equal; f_equal.
    - sums_ext a Ha. sums_ext b Hb. sums_ext i Hi. sums_ext j Hj. sums_ext c Hc. rewrite (X i j a c) by assumption. reflexivity.
    - sums_ext i Hi. sums_ext j Hj. sums_ext k Hk. sums_ext a Ha. sums_ext b Hb. rewrite (X i k a b) by assumption. reflexivity. }
  assert (EB : E2 no nv g (fun i j a b => data t2 [a; b; i; j]) = E2 no nv g (fun i j a b => data l2 [i; j; a; b])).
  { apply E2_ext. exact X. }
  pose proof (C76_printed_UCCD no nv f g t2 Hf Hg H2) as P. cbv zeta in P, MA, MB, M1, M2. fold W T2 T2' vac H in MA, MB, M1, M2. fold A in MA. fold B in MB. fold C in M1.
  rewrite EC, ED, M1 in P. rewrite MB, MA in EB. rewrite MA in P.
  exists (E_fock2 no nv f (fun i j a b => data l2 [i; j; a; b]) (fun i j a b => data t2 [a; b; i; j])).
  split; [rewrite P, <- EB; reflexivity|]. rewrite <- M2, M1. reflexivity.
Qed.
Print Assumptions C76_printed_matrix_elements.
Example C76_elements_instance := C76_printed_matrix_elements 2 2 (i_fock 4) (i_tei 4) (i_amp 2 2 2) _ (i_fock_ok 4) (i_tei_ok 4) (i_amp_ok 2 2 2) (swap_t_ok 2 _).
