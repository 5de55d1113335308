(** The third driver (test.py): SCF results the theorems of P_drive3 apply to, and what a frozen core does to the reported energy. *)
From Coq Require Import String Ascii List Arith NArith ZArith QArith Qcanon Bool Lia Permutation.
From Coq Require Qcabs.
From Verif Require Import Sums Tensor Interp Numpy Spec SpecDriver Instances.
From Verif Require Import Diis Kernel Denoms P_denoms Ints P_ints P_ints2 SlowCC P_slow P_endtoend Drive SpecDrive P_drive P_drive2 P_drive3.
Import ListNotations.
Open Scope string_scope.
Open Scope Qc_scope.

(** Two orbitals: two electrons, restricted or not, or one electron. *)
Definition h_scf (rhf : bool) (nb : nat) : scf := mkScf rhf 2 1 nb h_I (teye 2) (teye 2) h_eps h_eps (Q2Qc (-2 # 1)) 1.
Example h_scf_ok rhf nb : (nb <= 2)%nat -> scf_result 2 (h_scf rhf nb) h_order.
Proof. intros H. repeat (split; [reflexivity || lia || exact h_I_ok || assumption|]). split; [cbn; lia|]. split; [exact H|]. exact (proj1 h_argsort). Qed.
Definition h_job (label : string) (drop : nat) : job := mkJob label 50 (Q2Qc (1 # 1000000)) drop (Some (6%nat, None)) None.
Example C56_instance rhf label := C56_closed_shell_setup 2 (h_scf rhf 1) h_order (h_job label 0) (h_scf_ok rhf 1 ltac:(lia)) eq_refl ltac:(cbn; lia) (fun _ => eq_refl).
Example C56_instance_integral rhf : match setup_cc h_order (h_scf rhf 1) (h_job "CCSD" 0) with
  Some x => Qeq_bool (data (x_g x) [0; 1; 2; 3]%nat) (Q2Qc (4 # 1)) && Qeq_bool (data (x_f x) [2; 2]%nat) 1 | None => false end = true.
Proof. destruct rhf; vm_compute; reflexivity. Qed.
Example C56_open_instance label := C56_open_shell_refuted 2 (h_scf false 0) h_order (h_job label 0) (h_scf_ok false 0 ltac:(lia)) eq_refl ltac:(cbn; lia).

(** A run of the two-electron calculation with T2 moving, for C57; and CCSDTQ runs that finish, for C58. *)
Example C57_instance : exists thr r, drive_from (i_setup "CCSD") (mkJob "CCSD" 20 thr 0 (Some (6%nat, None)) None) = Some r :=
  some_threshold 2 2 (i_setup "CCSD") "CCSD" None 20 0 _ (i_prepared _) eq_refl I ltac:(discriminate) ltac:(lia).
Example C58_instance : exists thr r, drive_from (i_setup "CCSDTQ") (mkJob "CCSDTQ" 20 thr 0 None None) = Some r :=
  some_threshold 2 2 (i_setup "CCSDTQ") "CCSDTQ" None 20 0 _ (i_prepared _) eq_refl I ltac:(discriminate) ltac:(lia).

(** Four electrons in three orbitals that do not interact *)
Definition c_eps : list Qc := [Q2Qc (-3 # 1); Q2Qc (-1 # 1); Q2Qc (1 # 1)].
Definition c_order (_ : list Qc) : list nat := [0; 3; 1; 4; 2; 5]%nat.
Definition c_scf : scf := mkScf false 3 2 2 (tzeros [3; 3; 3; 3]%nat) (teye 3) (teye 3) c_eps c_eps (Q2Qc (-7 # 1)) 1.
Example c_argsort : is_argsort (c_eps ++ c_eps)%list (c_order (c_eps ++ c_eps)%list).
Proof.
  split.
  - cbn. apply NoDup_Permutation_bis; [|cbn; lia|intros x; cbn; lia]. repeat constructor; cbn; lia.
  - intros i j Hi Hj. cbn [length app c_eps] in Hj. destruct j as [|[|[|[|[|[|]]]]]]; try lia; (destruct i as [|[|[|[|[|]]]]]; try lia); vm_compute; discriminate.
Qed.
Example c_scf_ok : scf_result 3 c_scf c_order.
Proof.
  split; [reflexivity|]. split; [lia|]. split; [split; [reflexivity|]; intros; repeat split; reflexivity|]. repeat (split; [reflexivity|]).
  split; [cbn; lia|]. split; [cbn; lia|]. exact (proj1 c_argsort).
Qed.
Lemma sum_zero n (F : nat -> Qc) : (forall i, (i < n)%nat -> F i = 0) -> (Sum i < n, F i) = 0.
Proof. intros H. apply suml_zero. intros i Hi. apply H. apply in_seq in Hi. lia. Qed.
(** without interaction the energy of any doubles amplitudes is the sum of the occupied orbital energies *)
Lemma no_interaction no nv f g d : (forall p q r s, (p < no + nv)%nat -> (q < no + nv)%nat -> (r < no + nv)%nat -> (s < no + nv)%nat -> data g [p; q; r; s] = 0) ->
  slook "t1aa" d = None -> cc_energy no nv f g d = Sum i < no, data f [i; i].
Proof.
  intros Z H. unfold cc_energy, reference_energy. rewrite H.
  rewrite (sum_zero no (fun i => Sum j < no, data g [i; j; i; j])) by (intros; apply sum_zero; intros; apply Z; lia).
  assert (D : forall T2, doubles_energy no nv g T2 = 0).
  { intros T2. unfold doubles_energy. rewrite sum_zero; [ring|]. intros i Hi. apply sum_zero. intros j Hj. apply sum_zero. intros a Ha. apply sum_zero. intros b Hb. rewrite Z by lia. ring. }
  destruct (slook "t2aa" d) as [u|]; [rewrite D|]; ring.
Qed.
Lemma c_run drop : (drop <= 1)%nat -> exists x r, setup_cc c_order c_scf (h_job "CCD" drop) = Some x /\ prepared (2 * (2 - drop)) 2 "CCD" x /\ x_f x = tdiag (x_e x) /\
  x_e x = map (fun k => nth k (c_eps ++ c_eps)%list 0) (skipn (2 * drop) [0; 3; 1; 4; 2; 5]%nat) /\ x_hf x = Q2Qc (-7 # 1) /\ x_nuc x = 1 /\
  (forall p q r s, (p < 2 * (2 - drop) + 2)%nat -> (q < 2 * (2 - drop) + 2)%nat -> (r < 2 * (2 - drop) + 2)%nat -> (s < 2 * (2 - drop) + 2)%nat -> data (x_g x) [p; q; r; s] = 0) /\
  drive_from x (h_job "CCD" drop) = Some r /\ slook "t1aa" (r_tamps r) = None.
Proof.
  intros Hd. destruct (C56_closed_shell_setup 3 c_scf c_order (h_job "CCD" drop) c_scf_ok eq_refl ltac:(cbn; lia) ltac:(discriminate)) as [x [E [P [EF [EE [EH [EN EI]]]]]]].
  change (2 * (s_na c_scf - j_drop (h_job "CCD" drop)))%nat with (2 * (2 - drop))%nat in *. change (2 * (3 - s_na c_scf))%nat with 2%nat in *.
  assert (Z : forall p q r s, (p < 2 * (2 - drop) + 2)%nat -> (q < 2 * (2 - drop) + 2)%nat -> (r < 2 * (2 - drop) + 2)%nat -> (s < 2 * (2 - drop) + 2)%nat -> data (x_g x) [p; q; r; s] = 0).
  { intros p q r s Hp Hq Hr Hs. rewrite EI by assumption. unfold so_integral. rewrite !mo_int_fold.
    assert (M : forall a b c d, sum4 3 (fun i j k l => data (s_eri c_scf) [i; j; k; l] * (a i * (b j * (c k * d l)))) = 0).
    { intros. unfold sum4. apply sum_zero. intros. apply sum_zero. intros. apply sum_zero. intros. apply sum_zero. intros. cbn [data s_eri c_scf tzeros]. ring. }
    rewrite !M. ring. }
  exists x. destruct (C54_drive_run _ _ x "CCD" None P eq_refl I) as [A [_ [_ [HA [_ H]]]]]. destruct (H (h_job "CCD" drop) eq_refl eq_refl) as [K _]. clear H.
  assert (EC : forall n, cc_energy (2 * (2 - drop)) 2 (x_f x) (x_g x) (A n) = Sum i < 2 * (2 - drop), data (x_f x) [i; i]).
  { intros n. apply no_interaction; [exact Z|]. exact (proj1 (HA n)). }
  destruct (K 0%nat) as [K0 _]; [cbn; lia| |lia|].
  { unfold settled. rewrite !EC. replace (_ - _) with 0 by ring. reflexivity. }
  eexists. split; [exact E|]. split; [exact P|]. split; [exact EF|]. split; [exact EE|]. split; [exact EH|]. split; [exact EN|]. split; [exact Z|]. split; [exact (K0 eq_refl)|].
  cbn [r_tamps]. exact (proj1 (HA 1%nat)).
Qed.
(** C57, refuted: (1) with one orbital of each spin frozen, the reported correlation energy of electrons that do not interact is not zero; (2) the reported total
    energy of the same calculation without a frozen core is not SCF energy plus correlation energy. *)
Theorem C57_frozen_core_refuted : exists r, scf_result 3 c_scf c_order /\
  (exists x, setup_cc c_order c_scf (h_job "CCD" 0) = Some x /\ x_hf x = x_nuc x + reference_energy 4 (x_f x) (x_g x)) /\
  drive_cc c_order c_scf (h_job "CCD" 1) = Some r /\ r_corr r <> 0 /\
  exists x, setup_cc c_order c_scf (h_job "CCD" 1) = Some x /\ correlation 2 2 (x_f x) (x_g x) (r_tamps r) = 0.
Proof.
  destruct (c_run 0) as [x0 [r0 [E0 [P0 [F0 [EE0 [H0 [N0 [Z0 [R0 S0]]]]]]]]]]; [lia|]. destruct (c_run 1) as [x [r [E [P [F [EE [H [N [Z [R S0']]]]]]]]]]; [lia|].
  cbn [Nat.mul Nat.sub Nat.add skipn] in *. exists r. split; [exact c_scf_ok|]. split; [|split; [|split]].
  - exists x0. split; [exact E0|]. rewrite H0, N0. unfold reference_energy. rewrite (sum_zero 4 (fun i => Sum j < 4, _)) by (intros; apply sum_zero; intros; apply Z0; lia).
    rewrite F0, EE0. apply Qc_is_canon. vm_compute. reflexivity.
  - unfold drive_cc. rewrite E. exact R.
  - destruct (C57_reported_energies 2 2 x (h_job "CCD" 1) r P eq_refl I R) as [T [C _]]. rewrite C. clear C.
    assert (K : correlation 2 2 (x_f x) (x_g x) (r_tamps r) = cc_energy 2 2 (x_f x) (x_g x) (r_tamps r) - reference_energy 2 (x_f x) (x_g x)) by (unfold correlation, cc_energy; ring).
    rewrite K, (no_interaction 2 2 _ _ _ Z S0'). unfold reference_energy. rewrite (sum_zero 2 (fun i => Sum j < 2, _)) by (intros; apply sum_zero; intros; apply Z; lia).
    rewrite F, EE, N, H. vm_compute. discriminate.
  - exists x. split; [exact E|]. assert (K : correlation 2 2 (x_f x) (x_g x) (r_tamps r) = cc_energy 2 2 (x_f x) (x_g x) (r_tamps r) - reference_energy 2 (x_f x) (x_g x)) by (unfold correlation, cc_energy; ring).
    rewrite K, (no_interaction 2 2 _ _ _ Z S0'). unfold reference_energy. rewrite (sum_zero 2 (fun i => Sum j < 2, _)) by (intros; apply sum_zero; intros; apply Z; lia). ring.
Qed.
Print Assumptions C57_frozen_core_refuted.
Theorem C57_total_energy_refuted : exists x r, setup_cc c_order c_scf (h_job "CCD" 0) = Some x /\ drive_from x (h_job "CCD" 0) = Some r /\
  r_total r <> x_hf x + correlation 4 2 (x_f x) (x_g x) (r_tamps r).
Proof.
  destruct (c_run 0) as [x [r [E [P [F [EE [H [N [Z [R S0]]]]]]]]]]; [lia|]. cbn [Nat.mul Nat.sub Nat.add skipn] in *. exists x, r. split; [exact E|]. split; [exact R|].
  destruct (C57_reported_energies 4 2 x (h_job "CCD" 0) r P eq_refl I R) as [T _]. rewrite T. clear T.
  assert (K : correlation 4 2 (x_f x) (x_g x) (r_tamps r) = cc_energy 4 2 (x_f x) (x_g x) (r_tamps r) - reference_energy 4 (x_f x) (x_g x)) by (unfold correlation, cc_energy; ring).
  rewrite K, (no_interaction 4 2 _ _ _ Z S0). unfold reference_energy. rewrite (sum_zero 4 (fun i => Sum j < 4, _)) by (intros; apply sum_zero; intros; apply Z; lia).
  rewrite F, EE, H. vm_compute. discriminate.
Qed.
Print Assumptions C57_total_energy_refuted.
