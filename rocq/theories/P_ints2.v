(** C51: the spin-orbital and the spin-integrated routes get the same Hamiltonian from the same closed-shell SCF result. *)
From Coq Require Import String Ascii List Arith ZArith QArith Qcanon Bool Lia Permutation.
From Verif Require Import Sums Tensor Interp Numpy Spec SpecDriver Ints P_ints P_denoms.
Import ListNotations.
Open Scope Qc_scope.

Lemma NoDup_map_in {A B} (f : A -> B) l : NoDup l -> (forall x y, In x l -> In y l -> f x = f y -> x = y) -> NoDup (map f l).
Proof.
  induction 1 as [|x l Hx HN IH]; intros HI; cbn [map]; constructor.
  - intros H. apply in_map_iff in H. destruct H as [y [E Hy]]. apply HI in E; [subst; contradiction|right; assumption|left; reflexivity].
  - apply IH. intros y z Hy Hz. apply HI; right; assumption.
Qed.
Lemma index_nth (p : list nat) j : In j p -> nth (index_of j p) p O = j /\ (index_of j p < length p)%nat.
Proof.
  induction p as [|x p IH]; intros H; [destruct H|]. cbn [index_of]. destruct (Nat.eqb_spec j x) as [->|N]; [cbn; split; [reflexivity|lia]|].
  destruct H as [->|H]; [congruence|]. cbn [nth length]. destruct (IH H). split; [assumption|lia].
Qed.
Lemma nth_index (p : list nat) k : NoDup p -> (k < length p)%nat -> index_of (nth k p O) p = k.
Proof.
  intros HN. revert k. induction HN as [|x p Hx HN IH]; intros k Hk; [cbn in Hk; lia|]. destruct k as [|k]; cbn [nth index_of].
  - rewrite Nat.eqb_refl. reflexivity.
  - cbn in Hk. destruct (Nat.eqb_spec (nth k p O) x) as [E|]; [elim Hx; rewrite <- E; apply nth_In; lia|]. f_equal. apply IH. lia.
Qed.
Lemma count_perm f l l' : Permutation l l' -> count f l = count f l'.
Proof.
  unfold count. induction 1 as [|x l l' H IH|x y l|]; cbn [filter]; auto.
  - destruct (f x); cbn [length]; congruence.
  - destruct (f x), (f y); reflexivity.
  - congruence.
Qed.
Lemma count_app f l l' : count f (l ++ l') = (count f l + count f l')%nat.
Proof. unfold count. rewrite filter_app, app_length. reflexivity. Qed.
Lemma count_true f l : (forall x, In x l -> f x = true) -> count f l = length l.
Proof. unfold count. induction l as [|x l IH]; intros H; cbn [filter]; [reflexivity|]. rewrite H by (left; reflexivity). cbn [length]. rewrite IH; [reflexivity|]. intros; apply H; right; assumption. Qed.
Lemma count_false f l : (forall x, In x l -> f x = false) -> count f l = O.
Proof. unfold count. induction l as [|x l IH]; intros H; cbn [filter]; [reflexivity|]. rewrite H by (left; reflexivity). apply IH. intros; apply H; right; assumption. Qed.
Lemma count_le f l : (count f l <= length l)%nat.
Proof. unfold count. induction l as [|x l IH]; cbn [filter length]; [lia|]. destruct (f x); cbn [length]; lia. Qed.
Lemma count_lt f l x : In x l -> f x = false -> (count f l < length l)%nat.
Proof.
  intros HI HF. induction l as [|y l IH]; [destruct HI|]. unfold count in *. cbn [filter length]. pose proof (count_le f l) as CL. unfold count in CL. destruct HI as [->|HI].
  - rewrite HF. lia.
  - specialize (IH HI). destruct (f y); cbn [length]; lia.
Qed.
Lemma count_pos f l : (0 < count f l)%nat -> exists x, In x l /\ f x = true.
Proof.
  induction l as [|y l IH]; unfold count; cbn [filter length]; [lia|]. destruct (f y) eqn:E; intros H; [exists y; split; [left; reflexivity|exact E]|].
  destruct (IH H) as [x [A B]]. exists x. split; [right; exact A|exact B].
Qed.

(** *** Sorting puts the occupied orbitals first *)
Section Sorted.
  Variables (no nv : nat) (eps_a eps_b : list Qc) (p : list nat).
  Notation m := (no + nv)%nat.
  Notation eps := (eps_a ++ eps_b)%list.
  Hypothesis Ha : length eps_a = m.
  Hypothesis Hb : length eps_b = m.
  Hypothesis Hp : Permutation p (seq 0 (2 * m)).
  Hypothesis Hsort : forall i j, (i < j)%nat -> (j < 2 * m)%nat -> nth (nth i p O) eps 0 <= nth (nth j p O) eps 0.
  Hypothesis Hgap : homo_lumo (fun _ => no) (fun _ => nv) (spin_eps eps_a eps_b).
  Lemma len_p : length p = (2 * m)%nat. Proof. rewrite (Permutation_length Hp). apply seq_length. Qed.
  Lemma in_p j : In j p <-> (j < 2 * m)%nat.
  Proof. split; intros H; [apply (Permutation_in _ Hp) in H; apply in_seq in H; lia|apply (Permutation_in _ (Permutation_sym Hp)), in_seq; lia]. Qed.
  Lemma nodup_p : NoDup p. Proof. apply (Permutation_NoDup (Permutation_sym Hp)), seq_NoDup. Qed.
  Lemma energy_of j : (j < 2 * m)%nat -> nth j eps 0 = spin_eps eps_a eps_b (spin_of m j) (spat m j).
  Proof.
    intros Hj. unfold spin_of, spat, spin_eps. destruct (Nat.ltb_spec j m); [rewrite app_nth1 by lia|rewrite app_nth2 by lia; rewrite Ha]; reflexivity.
  Qed.
  Definition isocc (j : nat) : bool := Nat.ltb (spat m j) no.
  Lemma spat_lt j : (j < 2 * m)%nat -> (spat m j < m)%nat.
  Proof using. clear Ha Hb. unfold spat. destruct (Nat.ltb_spec j m); lia. Qed.
  Lemma occ_lower i j : (i < 2 * m)%nat -> (j < 2 * m)%nat -> isocc i = true -> isocc j = false -> nth i eps 0 < nth j eps 0.
  Proof.
    unfold isocc. intros Hi Hj Oi Oj. apply Nat.ltb_lt in Oi. apply Nat.ltb_ge in Oj. rewrite !energy_of by assumption. pose proof (spat_lt j Hj).
    replace (spat m j) with (no + (spat m j - no))%nat by lia. apply Hgap; lia.
  Qed.
  Lemma count_occ_p : count isocc p = (2 * no)%nat.
  Proof.
    rewrite (count_perm _ _ _ Hp). replace (2 * m)%nat with (no + (nv + (no + nv)))%nat by lia. rewrite !seq_app, !count_app.
    rewrite (count_true _ (seq 0 no)), (count_false _ (seq (0 + no) nv)), (count_true _ (seq (0 + no + nv) no)), (count_false _ (seq (0 + no + nv + no) nv)).
    - rewrite !seq_length. lia.
    - intros x Hx. apply in_seq in Hx. unfold isocc, spat. destruct (Nat.ltb_spec x m); [lia|]. apply Nat.ltb_ge. lia.
    - intros x Hx. apply in_seq in Hx. unfold isocc, spat. destruct (Nat.ltb_spec x m); [lia|]. apply Nat.ltb_lt. lia.
    - intros x Hx. apply in_seq in Hx. unfold isocc, spat. destruct (Nat.ltb_spec x m); [|lia]. apply Nat.ltb_ge. lia.
    - intros x Hx. apply in_seq in Hx. unfold isocc, spat. destruct (Nat.ltb_spec x m); [|lia]. apply Nat.ltb_lt. lia.
  Qed.
  Lemma split_p : (p = firstn (2 * no) p ++ skipn (2 * no) p)%list. Proof. symmetry. apply firstn_skipn. Qed.
  Lemma nth_first k : (k < 2 * no)%nat -> In (nth k p O) (firstn (2 * no) p).
  Proof. intros H. replace (nth k p O) with (nth k (firstn (2 * no) p) O); [apply nth_In; rewrite firstn_length, len_p; lia|]. rewrite <- (firstn_skipn (2 * no) p) at 2. rewrite app_nth1; [reflexivity|]. rewrite firstn_length, len_p. lia. Qed.
  Lemma in_skip j : In j (skipn (2 * no) p) -> exists k, (2 * no <= k)%nat /\ (k < 2 * m)%nat /\ nth k p O = j.
  Proof.
    intros H. apply In_nth with (d := O) in H. destruct H as [i [Hi E]]. rewrite skipn_length, len_p in Hi. exists (2 * no + i)%nat. split; [lia|]. split; [lia|].
    rewrite <- E. rewrite <- (firstn_skipn (2 * no) p) at 1. rewrite app_nth2; rewrite firstn_length, len_p; [|lia]. f_equal. lia.
  Qed.
  Lemma first_occ k : (k < 2 * no)%nat -> isocc (nth k p O) = true.
  Proof.
    intros Hk. destruct (isocc (nth k p O)) eqn:E; [reflexivity|]. exfalso.
    pose proof (count_lt isocc _ _ (nth_first k Hk) E) as CL. rewrite firstn_length, len_p in CL.
    pose proof count_occ_p as CP. rewrite split_p, count_app in CP.
    destruct (count_pos isocc (skipn (2 * no) p)) as [j [Hj Oj]]; [lia|]. destruct (in_skip j Hj) as [k' [K1 [K2 <-]]].
    assert (L1 : (nth k p O < 2 * m)%nat) by (apply in_p, nth_In; rewrite len_p; lia).
    assert (L2 : (nth k' p O < 2 * m)%nat) by (apply in_p, nth_In; rewrite len_p; lia).
    pose proof (occ_lower _ _ L2 L1 Oj E) as LT. pose proof (Hsort k k' ltac:(lia) K2) as LE. apply (Qclt_not_le _ _ LT LE).
  Qed.
  Lemma later_vir k : (2 * no <= k)%nat -> (k < 2 * m)%nat -> isocc (nth k p O) = false.
  Proof.
    intros K1 K2. destruct (isocc (nth k p O)) eqn:E; [|reflexivity]. exfalso.
    pose proof count_occ_p as CP. rewrite split_p, count_app in CP.
    assert (C1 : count isocc (firstn (2 * no) p) = (2 * no)%nat).
    { rewrite count_true; [rewrite firstn_length, len_p; lia|]. intros x Hx. apply In_nth with (d := O) in Hx. destruct Hx as [i [Hi <-]]. rewrite firstn_length, len_p in Hi.
      replace (nth i (firstn (2 * no) p) O) with (nth i p O); [apply first_occ; lia|]. rewrite <- (firstn_skipn (2 * no) p) at 1. rewrite app_nth1; [reflexivity|]. rewrite firstn_length, len_p. lia. }
    assert (C2 : (0 < count isocc (skipn (2 * no) p))%nat); [|lia].
    assert (IN : In (nth k p O) (skipn (2 * no) p)).
    { replace (nth k p O) with (nth (k - 2 * no) (skipn (2 * no) p) O); [apply nth_In; rewrite skipn_length, len_p; lia|].
      rewrite <- (firstn_skipn (2 * no) p) at 2. rewrite app_nth2; rewrite firstn_length, len_p; [|lia]. f_equal. lia. }
    clear - IN E. induction (skipn (2 * no) p) as [|x l IH]; [destruct IN|]. unfold count in *. cbn [filter]. destruct IN as [->|IN].
    - rewrite E. cbn [length]. lia.
    - specialize (IH IN). destruct (isocc x); cbn [length]; lia.
  Qed.

  (** the spin labelling that the sorting produces *)
  Definition so (s : spin) (q : nat) : nat := (of_spin s 0 m + q)%nat.
  Definition sorted_map : spinmap := mkSM (fun s => map (fun q => index_of (so s q) p) (seq 0 no)) (fun s => map (fun q => index_of (so s q) p - 2 * no)%nat (seq no nv)).
  Lemma so_lt s q : (q < m)%nat -> (so s q < 2 * m)%nat. Proof using. clear Ha Hb. destruct s; cbn; lia. Qed.
  Lemma so_spin s q : (q < m)%nat -> spin_of m (so s q) = s /\ spat m (so s q) = q.
  Proof using. clear Ha Hb.
    intros H. unfold spin_of, spat, so. destruct s; cbn [of_spin].
    - destruct (Nat.ltb_spec (0 + q) m); [split; reflexivity|lia].
    - destruct (Nat.ltb_spec (m + q) m); [lia|split; [reflexivity|lia]].
  Qed.
  Lemma so_of j : (j < 2 * m)%nat -> so (spin_of m j) (spat m j) = j.
  Proof using. clear Ha Hb. intros H. unfold spin_of, spat, so. destruct (Nat.ltb_spec j m); cbn [of_spin]; lia. Qed.
  Lemma so_inj s q s' q' : (q < m)%nat -> (q' < m)%nat -> so s q = so s' q' -> s = s' /\ q = q'.
  Proof using. clear Ha Hb. intros H H' E. destruct (so_spin s q H) as [A B], (so_spin s' q' H') as [C D]. rewrite E in A, B. split; congruence. Qed.
  Lemma pos_spec s q : (q < m)%nat -> nth (index_of (so s q) p) p O = so s q /\ (index_of (so s q) p < 2 * m)%nat /\ (index_of (so s q) p < 2 * no <-> q < no)%nat.
  Proof.
    intros H. destruct (index_nth p (so s q)) as [A B]; [apply in_p, so_lt, H|]. rewrite len_p in B. split; [exact A|]. split; [exact B|].
    split; intros L.
    - pose proof (first_occ _ L) as O1. rewrite A in O1. unfold isocc in O1. rewrite (proj2 (so_spin s q H)) in O1. apply Nat.ltb_lt in O1. exact O1.
    - destruct (Nat.lt_ge_cases (index_of (so s q) p) (2 * no)) as [|G]; [assumption|]. pose proof (later_vir _ G B) as O1. rewrite A in O1. unfold isocc in O1. rewrite (proj2 (so_spin s q H)) in O1. apply Nat.ltb_ge in O1. lia.
  Qed.
  Lemma orb_sorted s q : (q < m)%nat -> orb sorted_map no s q = index_of (so s q) p.
  Proof.
    intros H. unfold orb, sorted_map. cbn [occ vir]. destruct (pos_spec s q H) as [_ [_ E]]. destruct (Nat.ltb_spec q no) as [L|L].
    - rewrite nth_indep with (d' := index_of (so s 0) p) by (rewrite map_length, seq_length; lia).
      rewrite (map_nth (fun q => index_of (so s q) p)), seq_nth by lia. reflexivity.
    - rewrite nth_indep with (d' := (index_of (so s 0) p - 2 * no)%nat) by (rewrite map_length, seq_length; lia).
      rewrite (map_nth (fun q => index_of (so s q) p - 2 * no)%nat), seq_nth by lia. replace (no + (q - no))%nat with q by lia. lia.
  Qed.
  Lemma sorted_ok : spin_ok no nv sorted_map.
  Proof.
    assert (INJ : forall s q s' q', (q < m)%nat -> (q' < m)%nat -> index_of (so s q) p = index_of (so s' q') p -> s = s' /\ q = q').
    { intros s q s' q' H H' E. apply so_inj; try assumption. rewrite <- (proj1 (pos_spec s q H)), <- (proj1 (pos_spec s' q' H')), E. reflexivity. }
    split; [intros s; cbn; rewrite map_length, seq_length; reflexivity|]. split; [intros s; cbn; rewrite map_length, seq_length; reflexivity|].
    assert (PERM : forall (f : spin -> nat -> nat) l N, NoDup l -> (forall s q s' q', In q l -> In q' l -> f s q = f s' q' -> s = s' /\ q = q') ->
       (forall s q, In q l -> f s q < N)%nat -> (2 * length l = N)%nat -> Permutation (map (f Up) l ++ map (f Dn) l) (seq 0 N)).
    { intros f l N ND FI FL LN. apply NoDup_Permutation_bis.
      - assert (E : (map (f Up) l ++ map (f Dn) l = map (fun sq => f (fst sq) (snd sq)) (list_prod [Up; Dn] l))%list).
        { cbn [list_prod]. rewrite app_nil_r, map_app, !map_map. reflexivity. }
        rewrite E. apply NoDup_map_in.
        + assert (NP : forall ss : list spin, NoDup ss -> NoDup (list_prod ss l)).
          { induction 1 as [|s ss Hs NS IH]; cbn [list_prod]; [constructor|].
            assert (NA : forall l1 l2 : list (spin * nat), NoDup l1 -> NoDup l2 -> (forall x, In x l1 -> ~ In x l2) -> NoDup (l1 ++ l2)).
            { induction l1 as [|x l1 IH1]; intros l2 N1 N2 D; cbn [app]; [assumption|]. inversion N1 as [|? ? X Y]; subst. constructor.
              - intros C. apply in_app_or in C. destruct C as [C|C]; [contradiction|apply (D x); [left; reflexivity|assumption]].
              - apply IH1; try assumption. intros y Hy. apply D. right; assumption. }
            apply NA; [|exact IH|].
            - apply NoDup_map_in; [assumption|]. intros x y _ _ E2. congruence.
            - intros x H1 H2. apply in_map_iff in H1. destruct H1 as [y [<- Hy]]. apply in_prod_iff in H2. destruct H2; contradiction. }
          apply NP. constructor; [intros [H|[]]; discriminate|]. constructor; [intros []|constructor].
        + intros [s q] [s' q'] H1 H2 E2. apply in_prod_iff in H1, H2. destruct (FI s q s' q' (proj2 H1) (proj2 H2) E2) as [-> ->]. reflexivity.
      - rewrite seq_length, app_length, !map_length. lia.
      - intros x Hx. apply in_seq. split; [lia|]. apply in_app_or in Hx. destruct Hx as [Hx|Hx]; apply in_map_iff in Hx; destruct Hx as [q [<- Hq]]; apply FL; assumption. }
    split; cbn [occ vir sorted_map].
    - apply (PERM (fun s q => index_of (so s q) p)); [apply seq_NoDup| | |rewrite seq_length; lia].
      + intros s q s' q' H1 H2. apply in_seq in H1, H2. apply INJ; lia.
      + intros s q H1. apply in_seq in H1. apply (pos_spec s q); lia.
    - apply (PERM (fun s q => index_of (so s q) p - 2 * no)%nat); [apply seq_NoDup| | |rewrite seq_length; lia].
      + intros s q s' q' H1 H2 E. apply in_seq in H1, H2. pose proof (pos_spec s q ltac:(lia)) as [_ [_ A]]. pose proof (pos_spec s' q' ltac:(lia)) as [_ [_ A']]. apply INJ; lia.
      + intros s q H1. apply in_seq in H1. pose proof (pos_spec s q ltac:(lia)) as [_ [B A]]. lia.
  Qed.
  Lemma isup_sorted k : (k < 2 * m)%nat -> isup sorted_map no k = spin_eqb (spin_of m (nth k p O)) Up.
  Proof.
    intros Hk. assert (HJ : (nth k p O < 2 * m)%nat) by (apply in_p, nth_In; rewrite len_p; exact Hk).
    assert (IK : index_of (nth k p O) p = k) by (apply nth_index; [apply nodup_p|rewrite len_p; exact Hk]).
    assert (SJ := so_of _ HJ). pose proof (spat_lt _ HJ) as SL.
    unfold isup, isup_occ, isup_vir, sorted_map. cbn [occ vir].
    destruct (Nat.ltb_spec k (2 * no)) as [L|L].
    - pose proof (first_occ k L) as O1. unfold isocc in O1. apply Nat.ltb_lt in O1.
      destruct (spin_of m (nth k p O)) eqn:ES; cbn [spin_eqb].
      + apply existsb_exists. exists k. split; [|apply Nat.eqb_refl]. apply in_map_iff. exists (spat m (nth k p O)). split; [rewrite SJ; exact IK|apply in_seq; lia].
      + apply not_true_iff_false. intros X. apply existsb_exists in X. destruct X as [x [X1 X2]]. apply Nat.eqb_eq in X2. subst x.
        apply in_map_iff in X1. destruct X1 as [q [E Hq]]. apply in_seq in Hq. destruct (pos_spec Up q ltac:(lia)) as [A _]. rewrite E in A. rewrite A in ES.
        rewrite (proj1 (so_spin Up q ltac:(lia))) in ES. discriminate.
    - pose proof (later_vir k L Hk) as O1. unfold isocc in O1. apply Nat.ltb_ge in O1.
      destruct (spin_of m (nth k p O)) eqn:ES; cbn [spin_eqb].
      + apply existsb_exists. exists (k - 2 * no)%nat. split; [|apply Nat.eqb_refl]. apply in_map_iff. exists (spat m (nth k p O)). split; [rewrite SJ, IK; reflexivity|apply in_seq; lia].
      + apply not_true_iff_false. intros X. apply existsb_exists in X. destruct X as [x [X1 X2]]. apply Nat.eqb_eq in X2. subst x.
        apply in_map_iff in X1. destruct X1 as [q [E Hq]]. apply in_seq in Hq. destruct (pos_spec Up q ltac:(lia)) as [A [B D]].
        assert (E2 : index_of (so Up q) p = k) by lia. rewrite E2 in A. rewrite A in ES.
        rewrite (proj1 (so_spin Up q ltac:(lia))) in ES. discriminate.
  Qed.
End Sorted.

(** *** The spin-integrated conversion *)
Lemma in_mo_spec f c n m : shape f = [n; n] -> shape c = [n; m] -> exists R, in_mo f c = Some R /\ shape R = [m; m] /\
  forall p q, data R [p; q] = Sum a < n, Sum b < n, data c [a; p] * data f [a; b] * data c [b; q].
Proof.
  intros Hf Hc. unfold in_mo, tT. rewrite Hc. cbn [length rev seq app]. unfold ttransp. rewrite Hc. cbn -[tmatmul]. unfold tmatmul. es_go. rewrite Hf, Hc. cbn -[suml seq]. repeat (rewrite Nat.eqb_refl; cbn -[suml seq]).
  eexists. split; [reflexivity|]. split; [reflexivity|]. intros p q. cbn -[suml seq].
  etransitivity; [|apply suml_swap]. apply suml_ext. intros b _.
  rewrite ?Qcmult_1_r. rewrite <- suml_scale_r. apply suml_ext. intros a _. ring.
Qed.

Lemma dirac_anti_spec g m : shape g = [m; m; m; m] -> exists R, dirac_anti g = Some R /\ shape R = [m; m; m; m] /\
  forall p q r s, data R [p; q; r; s] = data g [p; r; q; s] - data g [p; s; r; q].
Proof.
  intros H. unfold dirac_anti, ttransp. rewrite H. cbn. unfold tbin. cbn [shape]. rewrite ?H. cbn. rewrite !Nat.eqb_refl. cbn.
  eexists. split; [reflexivity|]. split; [reflexivity|]. intros p q r s. reflexivity.
Qed.
Lemma phys_spec g a b c d : shape g = [a; b; c; d] -> exists R, ttransp [0; 2; 1; 3]%nat g = Some R /\ shape R = [a; c; b; d] /\
  forall p q r s, data R [p; q; r; s] = data g [p; r; q; s].
Proof.
  intros H. unfold ttransp. rewrite H. cbn. rewrite ?H. cbn. eexists. split; [reflexivity|]. split; [reflexivity|]. intros. reflexivity.
Qed.

(** C51.  Specification.  The SCF result is closed-shell or unrestricted with equal numbers [no] of alpha and beta electrons;
    its orbitals diagonalise the Fock matrices, with the orbital energies as eigenvalues. *)
Definition canonical (n m : nat) (f C : tensor) (eps : list Qc) : Prop :=
  shape f = [n; n] /\ shape C = [n; m] /\ length eps = m /\
  forall p q, (p < m)%nat -> (q < m)%nat ->
    (Sum a < n, Sum b < n, data C [a; p] * data f [a; b] * data C [b; q]) = if Nat.eqb p q then nth p eps 0 else 0.
(** what `argsort` returns: a permutation of the positions that makes the list nondecreasing *)
Definition is_argsort (l : list Qc) (p : list nat) : Prop :=
  Permutation p (seq 0 (length l)) /\ forall i j, (i < j)%nat -> (j < length l)%nat -> nth (nth i p O) l 0 <= nth (nth j p O) l 0.

Section SameHamiltonian.
  Variables (n no nv : nat) (I fa fb Ca Cb : tensor) (eps_a eps_b : list Qc) (order : list Qc -> list nat).
  Notation m := (no + nv)%nat.
  Notation eps := (eps_a ++ eps_b)%list.
  Notation p := (order eps).
  Hypothesis N0 : (0 < n)%nat.
  Hypothesis HI : eri_symmetric n I.
  Hypothesis Ka : canonical n m fa Ca eps_a.
  Hypothesis Kb : canonical n m fb Cb eps_b.
  Hypothesis Ho : is_argsort eps p.
  Hypothesis Hgap : homo_lumo (fun _ => no) (fun _ => nv) (spin_eps eps_a eps_b).
  Let Ha : length eps_a = m. Proof. apply Ka. Qed.
  Let Hb : length eps_b = m. Proof. apply Kb. Qed.
  Let Hl : length eps = (2 * m)%nat. Proof. rewrite app_length, Ha, Hb. lia. Qed.
  Let Hp : Permutation p (seq 0 (2 * m)). Proof. rewrite <- Hl. apply Ho. Qed.
  Let Hs : forall i j, (i < j)%nat -> (j < 2 * m)%nat -> nth (nth i p O) eps 0 <= nth (nth j p O) eps 0. Proof. rewrite <- Hl. apply Ho. Qed.
  Notation S := (sorted_map no nv p).
  Let Q2 : forall q, (q < m)%nat -> forall s, nth (index_of (so no nv s q) p) p O = so no nv s q.
  Proof. intros q H s. apply (pos_spec no nv eps_a eps_b p Ha Hb Hp Hs Hgap s q H). Qed.
  Lemma coef_so s q a : (q < m)%nat -> coef m Ca Cb (so no nv s q) a = data (of_spin s Ca Cb) [a; q].
  Proof. intros H. unfold coef. destruct (so_spin no nv s q H) as [-> ->]. reflexivity. Qed.
  Lemma mo_int_ext x y z w x' y' z' w' : (forall a, x a = x' a) -> (forall a, y a = y' a) -> (forall a, z a = z' a) -> (forall a, w a = w' a) ->
    mo_int n I x y z w = mo_int n I x' y' z' w'.
  Proof. intros A B C D. rewrite !mo_int_fold. apply sum4_ext. intros. rewrite A, B, C, D. reflexivity. Qed.
  Lemma so_block s1 s2 s3 s4 a b c d : (a < m)%nat -> (b < m)%nat -> (c < m)%nat -> (d < m)%nat ->
    so_integral n m I Ca Cb p (orb S no s1 a) (orb S no s2 b) (orb S no s3 c) (orb S no s4 d) =
    (let x s k := fun i => data (of_spin s Ca Cb) [i; k] in
     same (spin_eqb s1 s3) * same (spin_eqb s2 s4) * mo_int n I (x s1 a) (x s3 c) (x s2 b) (x s4 d) -
     same (spin_eqb s1 s4) * same (spin_eqb s2 s3) * mo_int n I (x s1 a) (x s4 d) (x s2 b) (x s3 c)).
  Proof.
    intros A B C D. rewrite !(orb_sorted no nv eps_a eps_b p Ha Hb Hp Hs Hgap) by assumption. unfold so_integral. cbv zeta. rewrite !Q2 by assumption.
    destruct (so_spin no nv s1 a A) as [-> _], (so_spin no nv s2 b B) as [-> _], (so_spin no nv s3 c C) as [-> _], (so_spin no nv s4 d D) as [-> _].
    assert (M : forall s s' s'' s''' q q' q'' q''', (q < m)%nat -> (q' < m)%nat -> (q'' < m)%nat -> (q''' < m)%nat ->
      mo_int n I (coef m Ca Cb (so no nv s q)) (coef m Ca Cb (so no nv s' q')) (coef m Ca Cb (so no nv s'' q'')) (coef m Ca Cb (so no nv s''' q''')) =
      mo_int n I (fun i => data (of_spin s Ca Cb) [i; q]) (fun i => data (of_spin s' Ca Cb) [i; q']) (fun i => data (of_spin s'' Ca Cb) [i; q'']) (fun i => data (of_spin s''' Ca Cb) [i; q'''])).
    { intros. apply mo_int_ext; intros; apply coef_so; assumption. }
    rewrite !M by assumption. reflexivity.
  Qed.
  Let IN4 : forall idx, inr idx [m; m; m; m] -> exists a b c d, idx = [a; b; c; d] /\ (a < m)%nat /\ (b < m)%nat /\ (c < m)%nat /\ (d < m)%nat.
  Proof.
    intros idx H. inversion H as [|a ? l1 ? A B]; subst. inversion B as [|b ? l2 ? A2 B2]; subst. inversion B2 as [|c ? l3 ? A3 B3]; subst.
    inversion B3 as [|d ? l4 ? A4 B4]; subst. inversion B4; subst. exists a, b, c, d. auto.
  Qed.
  Theorem C51_same_hamiltonian : exists F G e f_aa f_bb g_aaaa g_bbbb g_abab S,
    convert_slow order I Ca Cb eps_a eps_b = Some (F, G, e) /\
    convert_fast I fa fb Ca Cb = Some (f_aa, f_bb, g_aaaa, g_bbbb, g_abab) /\
    spin_ok no nv S /\ spin_hamiltonian S no nv F G f_aa f_bb g_aaaa g_bbbb g_abab /\
    length e = (2 * no + 2 * nv)%nat /\
    forall s q, (q < no + nv)%nat -> nth (orb S no s q) e 0 = spin_eps eps_a eps_b s q.
  Proof.
    pose proof Ka as [Sfa [SCa [_ Da]]]. pose proof Kb as [Sfb [SCb [_ Db]]].
    destruct (C37_spin_orbital_integrals n m I Ca Cb eps_a eps_b order N0 HI SCa SCb Ha Hb Hp) as [F [G [e [ES [Ee [EF [IF [IG VG]]]]]]]].
    destruct (in_mo_spec fa Ca n m Sfa SCa) as [faa [E1 [S1 V1]]]. destruct (in_mo_spec fb Cb n m Sfb SCb) as [fbb [E2 [S2 V2]]].
    destruct (ao2mo_spec I Ca Ca Ca Ca n m m m m (proj1 HI) SCa SCa SCa SCa) as [ga [E3 [S3 V3]]].
    destruct (ao2mo_spec I Cb Cb Cb Cb n m m m m (proj1 HI) SCb SCb SCb SCb) as [gb [E4 [S4 V4]]].
    destruct (ao2mo_spec I Ca Ca Cb Cb n m m m m (proj1 HI) SCa SCa SCb SCb) as [gc [E5 [S5 V5]]].
    destruct (dirac_anti_spec ga m S3) as [Ga [E6 [S6 V6]]]. destruct (dirac_anti_spec gb m S4) as [Gb [E7 [S7 V7]]].
    destruct (phys_spec gc _ _ _ _ S5) as [Gc [E8 [S8 V8]]].
    exists F, G, e, faa, fbb, Ga, Gb, Gc, S. split; [exact ES|].
    split; [unfold convert_fast; rewrite E1; cbn [obind]; rewrite E2; cbn [obind]; rewrite E3; cbn [obind]; rewrite E4; cbn [obind]; rewrite E5; cbn [obind]; rewrite E6; cbn [obind]; rewrite E7; cbn [obind]; rewrite E8; reflexivity|].
    split; [apply (sorted_ok no nv eps_a eps_b p Ha Hb Hp Hs Hgap)|].
    assert (Le : length e = (2 * m)%nat) by (rewrite Ee, map_length, (Permutation_length Hp), seq_length; reflexivity).
    assert (EV : forall s q, (q < m)%nat -> nth (orb S no s q) e 0 = spin_eps eps_a eps_b s q).
    { intros s q Hq. rewrite (orb_sorted no nv eps_a eps_b p Ha Hb Hp Hs Hgap) by assumption. subst e.
      destruct (pos_spec no nv eps_a eps_b p Ha Hb Hp Hs Hgap s q Hq) as [A [B _]].
      rewrite nth_indep with (d' := nth 0 eps 0) by (rewrite Le; exact B). rewrite (map_nth (fun k => nth k eps 0)), A.
      rewrite (energy_of no nv eps_a eps_b Ha Hb) by (apply so_lt; exact Hq). destruct (so_spin no nv s q Hq) as [-> ->]. reflexivity. }
    assert (OI : forall s q q', (q < m)%nat -> (q' < m)%nat -> Nat.eqb (orb S no s q) (orb S no s q') = Nat.eqb q q').
    { intros s q q' H H'. rewrite !(orb_sorted no nv eps_a eps_b p Ha Hb Hp Hs Hgap) by assumption. destruct (Nat.eqb_spec q q') as [->|N]; [apply Nat.eqb_refl|].
      apply Nat.eqb_neq. intros E. apply N. apply (so_inj no nv s q s q' H H'). rewrite <- (Q2 q H s), <- (Q2 q' H' s), E. reflexivity. }
    assert (LO : forall s q, (q < m)%nat -> (orb S no s q < 2 * m)%nat).
    { intros s q H. rewrite (orb_sorted no nv eps_a eps_b p Ha Hb Hp Hs Hgap) by assumption. apply (pos_spec no nv eps_a eps_b p Ha Hb Hp Hs Hgap s q H). }
    assert (M2 : (2 * no + 2 * nv = 2 * m)%nat) by lia.
    assert (BF : forall s q q', (q < m)%nat -> (q' < m)%nat -> data F [orb S no s q; orb S no s q'] = if Nat.eqb q q' then spin_eps eps_a eps_b s q else 0).
    { intros s q q' H H'. rewrite EF. cbn [tdiag arr2 data]. rewrite OI by assumption. rewrite EV by assumption. reflexivity. }
    split; [|split; [rewrite Le; symmetry; exact M2|exact EV]].
    unfold spin_hamiltonian. rewrite M2. split; [exact IF|]. split; [|split; [exact IG|split]].
    - intros l1 l2 H1 H2 HN HC. destruct l1 as [|i [|]]; try discriminate. destruct l2 as [|j [|]]; try discriminate.
      rewrite EF. cbn [tdiag arr2 data app]. destruct (Nat.eqb_spec i j) as [->|]; [congruence|reflexivity].
    - intros l1 l2 H1 H2 HN HC. destruct l1 as [|i [|j [|]]]; try discriminate. destruct l2 as [|k [|l [|]]]; try discriminate.
      cbn [app] in *. rewrite (proj1 IG) in HN. inversion HN as [|? ? ? ? A1 B1]; inversion B1 as [|? ? ? ? A2 B2]; inversion B2 as [|? ? ? ? A3 B3]; inversion B3 as [|? ? ? ? A4 B4]; subst; clear B1 B2 B3 B4.
      rewrite VG by assumption. unfold count in HC. cbn [filter] in HC. rewrite !(isup_sorted no nv eps_a eps_b p Ha Hb Hp Hs Hgap) in HC by assumption.
      unfold so_integral. cbv zeta.
      destruct (spin_of m (nth i p O)), (spin_of m (nth j p O)), (spin_of m (nth k p O)), (spin_of m (nth l p O)); cbn in HC; try (exfalso; apply HC; reflexivity); cbn [spin_eqb same]; ring.
    - clear EF Ee. assert (DF : forall s f, shape f = [m; m] -> (forall q q', (q < m)%nat -> (q' < m)%nat -> data f [q; q'] = if Nat.eqb q q' then spin_eps eps_a eps_b s q else 0) -> block_full S no nv [s; s] F f).
      { intros s f Sf Vf. split; [exact Sf|]. intros idx H. rewrite Sf in H. inversion H as [|q ? ? ? A1 B1]; inversion B1 as [|q' ? ? ? A2 B2]; inversion B2; subst.
        rewrite Vf by assumption. symmetry. apply BF; assumption. }
      assert (MK := mo_ket n I HI).
      split; [apply DF; [exact S1|]; intros q q' H H'; rewrite V1; apply Da; assumption|].
      split; [apply DF; [exact S2|]; intros q q' H H'; rewrite V2; apply Db; assumption|].
      split; [|split]; (split; [assumption|]); intros idx H;
        [rewrite S6 in H|rewrite S7 in H|rewrite S8 in H]; destruct (IN4 _ H) as [a [b [c [d [-> [A [B [C D]]]]]]]]; unfold zipw; cbn [combine map fst snd];
        rewrite VG by (apply LO; assumption); rewrite so_block by assumption; cbn [spin_eqb same of_spin].
      + rewrite V6, !V3. rewrite (MK _ _ (fun i => data Ca [i; c])). ring.
      + rewrite V7, !V4. rewrite (MK _ _ (fun i => data Cb [i; c])). ring.
      + rewrite V8, !V5. ring.
  Qed.
End SameHamiltonian.
Print Assumptions C51_same_hamiltonian.
