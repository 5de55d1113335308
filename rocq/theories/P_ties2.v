(** C73 for the third driver (test.py): the order of spin orbitals of equal energy does not matter, also with a frozen core. *)
From Coq Require Import String Ascii List Arith ZArith QArith Qcanon Bool Lia Permutation.
From Verif Require Import Sums Tensor Interp Numpy Spec SpecDriver SpecDrive SpecRot Ints P_ints P_ints2 P_ints3 Kernel Drive P_drive3 P_drive4 P_rot P_rot3 P_rot4 P_ties.
Import ListNotations.
Open Scope string_scope.
Open Scope list_scope.
Open Scope Qc_scope.

(** in the order [p], the first k energies are below the others *)
Definition gap_at (k : nat) (eps : list Qc) (p : list nat) : Prop :=
  forall i a, (i < k)%nat -> (k <= a)%nat -> (a < length eps)%nat -> nth (nth i p O) eps 0 < nth (nth a p O) eps 0.

Section Kept.
  Variables (eps : list Qc) (p p' : list nat) (K M : nat).
  Hypothesis HP : is_argsort eps p.
  Hypothesis HP' : is_argsort eps p'.
  Hypothesis HL : length eps = (K + M)%nat.
  Hypothesis HG : gap_at K eps p.
  Lemma Lp : length p = (K + M)%nat.
  Proof using HP HL. rewrite (Permutation_length (proj1 HP)), seq_length. exact HL. Qed.
  Lemma Lp' : length p' = (K + M)%nat.
  Proof using HP' HL. rewrite (Permutation_length (proj1 HP')), seq_length. exact HL. Qed.
  Lemma HG' : forall i a, (i < K)%nat -> (K <= a)%nat -> (a < K + M)%nat -> nth i (sorted_by eps p) 0 < nth a (sorted_by eps p) 0.
  Proof using HP HL HG. intros i a Hi Ha Ha'. pose proof Lp. rewrite !sorted_by_nth by lia. apply HG; lia. Qed.
  Definition kept (q : list nat) : list Qc := map (fun k => nth k eps 0) (skipn K q).
  Definition moved_to (k : nat) : nat := (rho p p' (K + k) - K)%nat.
  Definition q' : list nat := map moved_to (seq 0 M).
  Lemma nth_kept q k : length q = (K + M)%nat -> (k < M)%nat -> nth k (kept q) 0 = nth (K + k) (sorted_by eps q) 0.
  Proof using HL.
    intros Lq Hk. unfold kept. rewrite (nth_indep (map (fun k => nth k eps 0) (skipn K q)) 0 ((fun k => nth k eps 0) O)) by (rewrite map_length, skipn_length; lia).
    rewrite (map_nth (fun k => nth k eps 0)). rewrite sorted_by_nth by lia. f_equal. rewrite <- (firstn_skipn K q) at 2.
    rewrite app_nth2 by (rewrite firstn_length; lia). f_equal. rewrite firstn_length. lia.
  Qed.
  Lemma moved_ok k : (k < M)%nat -> (K + moved_to k)%nat = rho p p' (K + k) /\ (moved_to k < M)%nat.
  Proof using HP HP' HL HG.
    intros Hk. assert (B : (K + k < K + M)%nat) by lia. pose proof (rho_lt eps p K M HP HL HG' p p' (K + k) HP HP' B) as Z. destruct (rho_ok eps K M HL p p' (K + k) HP HP' B) as [_ L].
    unfold moved_to. lia.
  Qed.
  Lemma nth_q' k : (k < M)%nat -> nth k q' O = moved_to k.
  Proof using. clear. intros Hk. unfold q'. rewrite (nth_indep (map moved_to (seq 0 M)) O (moved_to O)) by (rewrite map_length, seq_length; lia). rewrite map_nth, seq_nth by lia. reflexivity. Qed.
  Lemma kept_sorted q : is_argsort eps q -> kept q = kept p.
  Proof using HP HL.
    intros Hq. assert (Lq : length q = (K + M)%nat) by (rewrite (Permutation_length (proj1 Hq)), seq_length; exact HL). pose proof Lp as LP.
    apply (nth_ext _ _ 0 0); [unfold kept; rewrite !map_length, !skipn_length; lia|]. intros k Hk. unfold kept in Hk. rewrite map_length, skipn_length in Hk.
    rewrite !nth_kept by lia. rewrite (argsort_unique eps p q HP Hq). reflexivity.
  Qed.
  Lemma Lkept : length (kept p) = M.
  Proof using HP HL. unfold kept. rewrite map_length, skipn_length, Lp. lia. Qed.
  Lemma id_sort : is_argsort (kept p) (seq 0 M).
  Proof using HP HL.
    split; [rewrite Lkept; apply Permutation_refl|]. intros i j Hi Hj. rewrite Lkept in Hj. pose proof Lp as LP. rewrite !seq_nth by lia. cbn [Nat.add]. rewrite !nth_kept by lia.
    rewrite !sorted_by_nth by lia. apply (proj2 HP); lia.
  Qed.
  Lemma q'_sort : is_argsort (kept p) q'.
  Proof using HP HP' HL HG.
    pose proof Lp as LP. split.
    - rewrite Lkept. apply NoDup_Permutation_bis.
      + unfold q'. apply (NoDup_nth _ O). intros i j Hi Hj E. rewrite map_length, seq_length in Hi, Hj. fold q' in E. rewrite !nth_q' in E by lia.
        destruct (moved_ok i Hi) as [A1 _]. destruct (moved_ok j Hj) as [A2 _].
        assert (Bi : (K + i < K + M)%nat) by lia. assert (Bj : (K + j < K + M)%nat) by lia.
        pose proof (rho_inv eps K M HL p' p (K + i) HP' HP Bi) as I1. pose proof (rho_inv eps K M HL p' p (K + j) HP' HP Bj) as I2.
        rewrite <- A1 in I1. rewrite <- A2, <- E in I2. rewrite I1 in I2. lia.
      + unfold q'. rewrite map_length, !seq_length. lia.
      + intros x Hx. unfold q' in Hx. apply in_map_iff in Hx. destruct Hx as [k [<- Hk]]. apply in_seq in Hk. apply in_seq. destruct (moved_ok k ltac:(lia)). lia.
    - intros i j Hi Hj. rewrite Lkept in Hj. assert (Hi' : (i < M)%nat) by lia. rewrite !nth_q' by lia. destruct (moved_ok i Hi') as [A1 B1]. destruct (moved_ok j Hj) as [A2 B2].
      rewrite !nth_kept by lia. rewrite A1, A2. assert (Bi : (K + i < K + M)%nat) by lia. assert (Bj : (K + j < K + M)%nat) by lia.
      rewrite (rho_val eps p K M HP HL p p' (K + i) HP HP' Bi), (rho_val eps p K M HP HL p p' (K + j) HP HP' Bj). rewrite !sorted_by_nth by lia. apply (proj2 HP); lia.
  Qed.
  (** the orbital at a kept position of the second order *)
  Lemma kept_orbital k : (k < M)%nat -> (rho (seq 0 M) q' k < M)%nat /\ nth (rho (seq 0 M) q' k) (skipn K p) O = nth k (skipn K p') O.
  Proof using HP HP' HL HG.
    intros Hk. assert (HLk : length (kept p) = (0 + M)%nat) by exact Lkept. destruct (rho_ok (kept p) 0 M HLk (seq 0 M) q' k id_sort q'_sort ltac:(lia)) as [E L]. split; [exact L|].
    rewrite seq_nth, nth_q' in E by lia. cbn [Nat.add] in E, L. rewrite E. destruct (moved_ok k Hk) as [A B]. pose proof Lp as LP. pose proof Lp' as LP'.
    assert (NS : forall (q : list nat) i, length q = (K + M)%nat -> nth i (skipn K q) O = nth (K + i) q O).
    { intros q i Lq. rewrite <- (firstn_skipn K q) at 2. rewrite app_nth2 by (rewrite firstn_length; lia). f_equal. rewrite firstn_length. lia. }
    rewrite !NS by assumption. rewrite A. assert (Bk : (K + k < K + M)%nat) by lia. exact (proj1 (rho_ok eps K M HL p p' (K + k) HP HP' Bk)).
  Qed.
End Kept.

(** C73 for `DriveCC`: for a closed-shell SCF result, restricted or with [drop] frozen orbitals of each spin, and any label with a D: if the
    energies of the highest occupied and lowest virtual orbital differ, and those of the highest frozen and lowest kept orbital, then two
    runs that differ in the order `argsort` gives to equal energies report the same numbers and return the same amplitudes, up to the order
    of the orbitals, or both raise. *)
Theorem C73_drive_order : forall n s order order' j, scf_result n s order -> scf_result n s order' ->
  s_na s = s_nb s -> (j_drop j <= s_na s)%nat -> (s_rhf s = true -> j_drop j = 0%nat) -> contains "D" (j_label j) = true -> j_t2file j = None ->
  let eps := s_ea s ++ s_eb s in is_argsort eps (order eps) -> is_argsort eps (order' eps) ->
  gap_at (2 * s_na s) eps (order eps) -> gap_at (2 * j_drop j) eps (order eps) ->
  let no := (2 * (s_na s - j_drop j))%nat in let nv := (2 * (n - s_na s))%nat in
  exists qo qv, is_relabelling no qo (fun _ => 1) /\ is_relabelling nv qv (fun _ => 1) /\
    same_report no nv (relabelling_matrix qo (fun _ => 1)) (relabelling_matrix qv (fun _ => 1)) (drive_cc order s j) (drive_cc order' s j).
Proof.
  intros n s order order' j HS HS' HAB HD HR HL2 HT eps HP HP' HG HGK no nv.
  destruct (C56_closed_shell_setup n s order j HS HAB HD HR) as [x [E [PX [EF [Ee [Hh [Hn VG]]]]]]].
  destruct (C56_closed_shell_setup n s order' j HS' HAB HD HR) as [x' [E' [PX' [EF' [Ee' [Hh' [Hn' VG']]]]]]].
  fold no nv eps in PX, PX', VG, VG', Ee, Ee'.
  assert (L : length eps = (2 * j_drop j + (no + nv))%nat).
  { destruct HS as [_ [_ [_ [_ [_ [La [Lb [Hna _]]]]]]]]. unfold eps, no, nv. rewrite app_length. lia. }
  set (K := (2 * j_drop j)%nat) in *. set (p := order eps) in *. set (p' := order' eps) in *. set (M := (no + nv)%nat) in *.
  fold (kept eps K p) in Ee. fold (kept eps K p') in Ee'. rewrite (kept_sorted eps p K M HP L p' HP') in Ee'.
  pose proof (id_sort eps p K M HP L) as S1. pose proof (q'_sort eps p p' K M HP HP' L HGK) as S2. pose proof (Lkept eps p K M HP L) as LK. unfold M in LK.
  set (e := kept eps K p) in *. set (qq := q' p p' K M) in *.
  assert (G2 : forall i a, (i < no)%nat -> (no <= a)%nat -> (a < no + nv)%nat -> nth i (sorted_by e (seq 0 M)) 0 < nth a (sorted_by e (seq 0 M)) 0).
  { intros i a Hi Ha Ha'. rewrite !sorted_by_nth by (rewrite seq_length; unfold M; lia). rewrite !seq_nth by (unfold M; lia). cbn [Nat.add].
    pose proof (Lp eps p K M HP L) as LP. unfold e. rewrite !(nth_kept eps K M L p) by first [exact LP|unfold M; lia]. rewrite !sorted_by_nth by (rewrite LP; unfold M; lia).
    apply HG; [unfold K; unfold no in Hi; lia|unfold K; unfold no in Ha; lia|rewrite L; unfold M; lia]. }
  pose proof (rel_o e (seq 0 M) qq no nv S1 S2 LK G2) as RO. pose proof (rel_v e (seq 0 M) qq no nv S1 S2 LK G2) as RV.
  eexists _, _. split; [exact RO|]. split; [exact RV|]. unfold drive_cc. rewrite E, E'. cbn [obind].
  destruct (C67_relabelling_is_rotation no nv _ _ _ _ RO RV) as [OO [OV RR]].
  assert (VAL : forall k, (k < no + nv)%nat -> nth (rho (seq 0 M) qq k) e 0 = nth k e 0).
  { intros k Hk. pose proof (rho_val e (seq 0 M) no nv S1 LK (seq 0 M) qq k S1 S2 Hk) as X. destruct (rho_ok e no nv LK (seq 0 M) qq k S1 S2 Hk) as [_ B].
    rewrite !sorted_by_nth in X by (rewrite seq_length; first [exact B|exact Hk]). rewrite !seq_nth in X by first [exact B|exact Hk]. exact X. }
  destruct PX as [N1 [N2 [N3 [IF [IG [N6 N7]]]]]] eqn:EPX. destruct PX' as [N1' [N2' [N3' [IF' [IG' [N6' N7']]]]]] eqn:EPX'.
  assert (EE : energies_of x' = energies_of x) by (unfold energies_of; rewrite Ee, Ee'; reflexivity).
  assert (CAN : forall y, x_f y = tdiag (x_e y) -> length (x_e y) = (no + nv)%nat -> canonical (no + nv) (energies_of y) (x_f y)).
  { intros y Ey Ly. rewrite Ey. split; [unfold tdiag, arr2; cbn [shape]; rewrite Ly; reflexivity|]. intros P Q _ _. reflexivity. }
  apply C68_drive_canonical; try assumption; try reflexivity; try congruence; try (apply CAN; assumption).
  - apply RR. apply (rel2 e (seq 0 M) qq no nv S1 S2 LK G2 (x_f x) (x_f x') (proj1 IF) (proj1 IF')). intros P Q Hp Hq. rewrite EF, EF', Ee, Ee'. unfold tdiag, arr2. cbn [data]. rewrite (VAL P Hp).
    destruct (Nat.eqb_spec P Q) as [->|NE]; [rewrite Nat.eqb_refl; reflexivity|]. destruct (Nat.eqb_spec (rho (seq 0 M) qq P) (rho (seq 0 M) qq Q)) as [X|_]; [|reflexivity].
    exfalso. apply NE. rewrite <- (rho_inv e no nv LK qq (seq 0 M) P S2 S1 Hp), <- (rho_inv e no nv LK qq (seq 0 M) Q S2 S1 Hq), X. reflexivity.
  - apply RR. apply (rel4 e (seq 0 M) qq no nv S1 S2 LK G2 (x_g x) (x_g x') (proj1 IG) (proj1 IG')). intros P Q R S Hp Hq Hr Hs.
    destruct (kept_orbital eps p p' K M HP HP' L HGK P Hp) as [B1 A1]. destruct (kept_orbital eps p p' K M HP HP' L HGK Q Hq) as [B2 A2].
    destruct (kept_orbital eps p p' K M HP HP' L HGK R Hr) as [B3 A3]. destruct (kept_orbital eps p p' K M HP HP' L HGK S Hs) as [B4 A4].
    fold qq in A1, A2, A3, A4, B1, B2, B3, B4. rewrite (VG _ _ _ _ B1 B2 B3 B4), (VG' _ _ _ _ Hp Hq Hr Hs). unfold so_integral. rewrite A1, A2, A3, A4. reflexivity.
  - rewrite HT. exact I.
Qed.
Print Assumptions C73_drive_order.

(** ** Concrete case: four electrons in three interacting orbitals, one orbital of each spin frozen; alpha first and beta first *)
Definition t_scf : scf := mkScf false 3 2 2 (arr4 3 3 3 3 (fun p q r s => Q2Qc (Z.of_nat ((p + q + 1) * (r + s + 1)) # 1))) (teye 3) (teye 3) c_eps c_eps (Q2Qc (-7 # 1)) 1.
Definition beta_order (_ : list Qc) : list nat := [3; 0; 4; 1; 5; 2]%nat.
Example beta_argsort : is_argsort (c_eps ++ c_eps) (beta_order (c_eps ++ c_eps)).
Proof.
  split.
  - cbn. apply NoDup_Permutation_bis; [|cbn; lia|intros x; cbn; lia]. repeat constructor; cbn; lia.
  - intros i j Hi Hj. cbn [length app c_eps] in Hj. destruct j as [|[|[|[|[|[|]]]]]]; try lia; (destruct i as [|[|[|[|[|]]]]]; try lia); vm_compute; discriminate.
Qed.
Lemma t_scf_ok order : Permutation (order (c_eps ++ c_eps)) (seq 0 6) -> scf_result 3 t_scf order.
Proof.
  intros H. split; [reflexivity|]. split; [lia|]. split; [split; [reflexivity|]; intros p q r s _ _ _ _; cbn [data t_scf s_eri arr4]; repeat split; do 3 f_equal; lia|]. repeat (split; [reflexivity|]).
  split; [cbn; lia|]. split; [cbn; lia|]. exact H.
Qed.
Lemma t_gap k : k = 2%nat \/ k = 4%nat -> gap_at k (c_eps ++ c_eps) (c_order (c_eps ++ c_eps)).
Proof.
  intros Hk i a Hi Ha Ha'. cbn [length app c_eps] in Ha'. destruct Hk as [-> | ->].
  - destruct i as [|[|]]; try lia; (destruct a as [|[|[|[|[|[|]]]]]]; try lia); vm_compute; reflexivity.
  - destruct i as [|[|[|[|]]]]; try lia; (destruct a as [|[|[|[|[|[|]]]]]]; try lia); vm_compute; reflexivity.
Qed.
Example C73_drive_instance label (HD : contains "D" label = true) :=
  C73_drive_order 3 t_scf c_order beta_order (h_job label 1) (t_scf_ok _ (proj1 c_argsort)) (t_scf_ok _ (proj1 beta_argsort)) eq_refl ltac:(cbn; lia) ltac:(discriminate) HD eq_refl
    c_argsort beta_argsort (t_gap 4 ltac:(auto)) (t_gap 2 ltac:(auto)).
