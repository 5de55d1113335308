(** Spin blocks of two-particle amplitudes: putting them together to a spin-orbital array, and conservation of
    spin by computed arrays.  Proof machinery; it models no particular source line. *)
From Coq Require Import String Ascii List Arith NArith ZArith QArith Qcanon Bool Lia Permutation.
From Verif Require Import Sums Tensor Interp Poly SymExec Canon Spec Setup Master Spin Check Tabs NF.
Import ListNotations.
Open Scope Qc_scope.

Lemma inr4 a b i j n1 n2 n3 n4 : inr [a; b; i; j] [n1; n2; n3; n4] <-> ((a < n1 /\ b < n2) /\ (i < n3 /\ j < n4))%nat.
Proof.
  split.
  - intros H. unfold inr in H. inversion H as [|? ? ? ? H1 H2]; subst. inversion H2 as [|? ? ? ? H3 H4]; subst.
    inversion H4 as [|? ? ? ? H5 H6]; subst. inversion H6; subst. auto.
  - intros [[A B] [C D]]. repeat constructor; assumption.
Qed.
Lemma inr_4 idx n1 n2 n3 n4 : inr idx [n1; n2; n3; n4] -> exists a b i j, idx = [a; b; i; j] /\ ((a < n1 /\ b < n2) /\ (i < n3 /\ j < n4))%nat.
Proof.
  intros H. pose proof (Forall2_len _ _ _ H) as L. destruct idx as [|a [|b [|i [|j [|? ?]]]]]; try discriminate L.
  exists a, b, i, j. split; [reflexivity|]. apply inr4, H.
Qed.
Lemma amp2_intro no nv t : shape t = [nv; nv; no; no] ->
  (forall a b i j, (a < nv)%nat -> (b < nv)%nat -> (i < no)%nat -> (j < no)%nat -> data t [a; b; i; j] = - data t [b; a; i; j]) ->
  (forall a b i j, (a < nv)%nat -> (b < nv)%nat -> (i < no)%nat -> (j < no)%nat -> data t [a; b; i; j] = - data t [a; b; j; i]) ->
  is_amp 2 no nv t.
Proof.
  intros HS H1 H2. split; [exact HS|]. intros i Hi. assert (i = 0%nat) as -> by lia. cbn [Nat.add]. split.
  - intros pre x y post LP I1 _. rewrite HS in I1. destruct pre; [|discriminate LP]. cbn [app] in *.
    destruct (inr_4 _ _ _ _ _ I1) as [a [b [i [j [E [[A B] [C D]]]]]]]. injection E as -> -> ->. apply H1; assumption.
  - intros pre x y post LP I1 _. rewrite HS in I1. destruct pre as [|p [|q [|]]]; try discriminate LP. cbn [app] in *.
    destruct (inr_4 _ _ _ _ _ I1) as [a [b [i [j [E [[A B] [C D]]]]]]]. injection E as -> -> -> -> ->. apply H2; assumption.
Qed.
Lemma amp2_elim no nv t : is_amp 2 no nv t -> shape t = [nv; nv; no; no] /\
  forall a b i j, (a < nv)%nat -> (b < nv)%nat -> (i < no)%nat -> (j < no)%nat ->
    data t [a; b; i; j] = - data t [b; a; i; j] /\ data t [a; b; i; j] = - data t [a; b; j; i].
Proof.
  intros [HS HA]. split; [exact HS|]. intros a b i j A B C D. destruct (HA 0%nat ltac:(lia)) as [H1 H2]. cbn [repeat app] in HS. split.
  - apply (H1 [] a b [i; j] eq_refl); rewrite HS; apply inr4; auto.
  - apply (H2 [a; b] i j [] eq_refl); rewrite HS; apply inr4; auto.
Qed.

Section Link.
  Variables no nv : nat.
  Variable S : spinmap.
  Hypothesis HS : spin_ok no nv S.

  (** spin and position of a virtual or occupied spin orbital *)
  Definition sv (a : nat) : spin := if isup_vir S a then Up else Dn.
  Definition so_ (i : nat) : spin := if isup_occ S i then Up else Dn.
  Definition pv (a : nat) : nat := index_of a (vir S (sv a)).
  Definition po (i : nat) : nat := index_of i (occ S (so_ i)).
  Lemma isup_in l a : existsb (Nat.eqb a) l = true <-> In a l.
  Proof.
    rewrite existsb_exists. split; [intros [x [H1 H2]]; apply Nat.eqb_eq in H2; subst; exact H1|].
    intros H. exists a. split; [exact H|apply Nat.eqb_refl].
  Qed.
  Lemma sv_in a : (a < 2 * nv)%nat -> In a (vir S (sv a)).
  Proof.
    intros H. unfold sv. destruct (isup_vir S a) eqn:E; [apply isup_in, E|].
    assert (I : In a (vir S Up ++ vir S Dn)) by (eapply Permutation_in; [symmetry; apply HS|apply in_seq; lia]).
    apply in_app_iff in I. destruct I as [I|I]; [|exact I]. apply isup_in in I. unfold isup_vir in E. congruence.
  Qed.
  Lemma so_in i : (i < 2 * no)%nat -> In i (occ S (so_ i)).
  Proof.
    intros H. unfold so_. destruct (isup_occ S i) eqn:E; [apply isup_in, E|].
    assert (I : In i (occ S Up ++ occ S Dn)) by (eapply Permutation_in; [symmetry; apply HS|apply in_seq; lia]).
    apply in_app_iff in I. destruct I as [I|I]; [|exact I]. apply isup_in in I. unfold isup_occ in E. congruence.
  Qed.
  Lemma pv_lt a : (a < 2 * nv)%nat -> (pv a < nv)%nat.
  Proof. intros H. unfold pv. rewrite <- (vir_len no nv S HS (sv a)). apply index_of_lt, sv_in, H. Qed.
  Lemma po_lt i : (i < 2 * no)%nat -> (po i < no)%nat.
  Proof. intros H. unfold po. rewrite <- (occ_len no nv S HS (so_ i)). apply index_of_lt, so_in, H. Qed.
  Lemma pv_nth a : (a < 2 * nv)%nat -> nth (pv a) (vir S (sv a)) O = a.
  Proof. intros H. apply nth_index_of, sv_in, H. Qed.
  Lemma po_nth i : (i < 2 * no)%nat -> nth (po i) (occ S (so_ i)) O = i.
  Proof. intros H. apply nth_index_of, so_in, H. Qed.
  Lemma nth_vir_lt s a : (a < nv)%nat -> (nth a (vir S s) O < 2 * nv)%nat.
  Proof. intros H. apply (vir_lt no nv S HS s), nth_In. rewrite (vir_len no nv S HS). exact H. Qed.
  Lemma nth_occ_lt s i : (i < no)%nat -> (nth i (occ S s) O < 2 * no)%nat.
  Proof. intros H. apply (occ_lt no nv S HS s), nth_In. rewrite (occ_len no nv S HS). exact H. Qed.
  Lemma vir_nd s : NoDup (vir S s).
  Proof. pose proof (vir_nodup no nv S HS) as H. destruct s; [eapply nodup_app_l|eapply nodup_app_r]; exact H. Qed.
  Lemma occ_nd s : NoDup (occ S s).
  Proof. pose proof (occ_nodup no nv S HS) as H. destruct s; [eapply nodup_app_l|eapply nodup_app_r]; exact H. Qed.
  Lemma sv_nth s a : (a < nv)%nat -> sv (nth a (vir S s) O) = s.
  Proof.
    intros H. unfold sv. rewrite (isup_vir_spec no nv S HS s); [destruct s; reflexivity|].
    apply nth_In. rewrite (vir_len no nv S HS). exact H.
  Qed.
  Lemma so_nth s i : (i < no)%nat -> so_ (nth i (occ S s) O) = s.
  Proof.
    intros H. unfold so_. rewrite (isup_occ_spec no nv S HS s); [destruct s; reflexivity|].
    apply nth_In. rewrite (occ_len no nv S HS). exact H.
  Qed.
  Lemma pv_of s a : (a < nv)%nat -> pv (nth a (vir S s) O) = a.
  Proof. intros H. unfold pv. rewrite sv_nth by exact H. apply index_of_nth; [apply vir_nd|rewrite (vir_len no nv S HS); exact H]. Qed.
  Lemma po_of s i : (i < no)%nat -> po (nth i (occ S s) O) = i.
  Proof. intros H. unfold po. rewrite so_nth by exact H. apply index_of_nth; [apply occ_nd|rewrite (occ_len no nv S HS); exact H]. Qed.

  (** the spin-orbital array with given spin blocks *)
  Definition assemble (t_aaaa t_bbbb t_abab : tensor) : tensor :=
    arr4 (2 * nv) (2 * nv) (2 * no) (2 * no) (fun a b i j =>
      match sv a, sv b, so_ i, so_ j with
      | Up, Up, Up, Up => data t_aaaa [pv a; pv b; po i; po j]
      | Dn, Dn, Dn, Dn => data t_bbbb [pv a; pv b; po i; po j]
      | Up, Dn, Up, Dn => data t_abab [pv a; pv b; po i; po j]
      | Up, Dn, Dn, Up => - data t_abab [pv a; pv b; po j; po i]
      | Dn, Up, Up, Dn => - data t_abab [pv b; pv a; po i; po j]
      | Dn, Up, Dn, Up => data t_abab [pv b; pv a; po j; po i]
      | _, _, _, _ => 0
      end).
  Lemma block2_intro s1 s2 T B : shape B = [nv; nv; no; no] ->
    (forall a b i j, (a < nv)%nat -> (b < nv)%nat -> (i < no)%nat -> (j < no)%nat ->
       data B [a; b; i; j] = data T [nth a (vir S s1) O; nth b (vir S s2) O; nth i (occ S s1) O; nth j (occ S s2) O]) ->
    block_amp S no nv [s1; s2] T B.
  Proof.
    intros HB H. split; [exact HB|]. intros l1 l2 L1 I. rewrite HB in I. cbn [length] in L1.
    destruct l1 as [|a [|b [|]]]; try discriminate L1. cbn [app] in I. destruct (inr_4 _ _ _ _ _ I) as [a' [b' [i [j [E [[A B'] [C D]]]]]]].
    injection E as -> -> ->. cbn [app]. rewrite H by assumption. reflexivity.
  Qed.
  Lemma block2_elim s1 s2 T B : block_amp S no nv [s1; s2] T B -> shape B = [nv; nv; no; no] /\
    forall a b i j, (a < nv)%nat -> (b < nv)%nat -> (i < no)%nat -> (j < no)%nat ->
       data B [a; b; i; j] = data T [nth a (vir S s1) O; nth b (vir S s2) O; nth i (occ S s1) O; nth j (occ S s2) O].
  Proof.
    intros [HB H]. split; [exact HB|]. intros a b i j A B' C D.
    apply (H [a; b] [i; j] eq_refl). rewrite HB. apply (proj2 (inr4 a b i j nv nv no no)). auto.
  Qed.
  Lemma assemble_ok t_aaaa t_bbbb t_abab : is_amp 2 no nv t_aaaa -> is_amp 2 no nv t_bbbb -> shape t_abab = [nv; nv; no; no] ->
    spin_amp S 2 no nv (assemble t_aaaa t_bbbb t_abab) /\ blocks2 S no nv (assemble t_aaaa t_bbbb t_abab) t_aaaa t_bbbb t_abab.
  Proof.
    intros HA HB HC. destruct (amp2_elim _ _ _ HA) as [SA A2]. destruct (amp2_elim _ _ _ HB) as [SB B2].
    split; [split|split; [|split]].
    - apply amp2_intro; [reflexivity| |]; intros a b i j Ha Hb Hi Hj; unfold assemble, arr4; cbn [data];
        pose proof (pv_lt a Ha); pose proof (pv_lt b Hb); pose proof (po_lt i Hi); pose proof (po_lt j Hj);
        destruct (A2 (pv a) (pv b) (po i) (po j)) as [X1 X2]; try assumption;
        destruct (B2 (pv a) (pv b) (po i) (po j)) as [Y1 Y2]; try assumption;
        destruct (sv a), (sv b), (so_ i), (so_ j); try assumption; ring.
    - intros l1 l2 L1 L2 I HN. destruct l1 as [|a [|b [|]]]; try discriminate L1. destruct l2 as [|i [|j [|]]]; try discriminate L2.
      unfold assemble, arr4. cbn [app data]. revert HN. unfold count, sv, so_. cbn [filter].
      destruct (isup_vir S a), (isup_vir S b), (isup_occ S i), (isup_occ S j); cbn [length]; intros HN; try reflexivity; congruence.
    - apply block2_intro; [exact SA|]. intros. unfold assemble, arr4. cbn [data]. rewrite !sv_nth, !so_nth, !pv_of, !po_of by assumption. reflexivity.
    - apply block2_intro; [exact SB|]. intros. unfold assemble, arr4. cbn [data]. rewrite !sv_nth, !so_nth, !pv_of, !po_of by assumption. reflexivity.
    - apply block2_intro; [exact HC|]. intros. unfold assemble, arr4. cbn [data]. rewrite !sv_nth, !so_nth, !pv_of, !po_of by assumption. reflexivity.
  Qed.
  Lemma block_is_amp s R B : is_amp 2 (2 * no) (2 * nv) R -> block_amp S no nv [s; s] R B -> is_amp 2 no nv B.
  Proof.
    intros HR HB. destruct (amp2_elim _ _ _ HR) as [_ R2]. destruct (block2_elim _ _ _ _ HB) as [SB EB].
    apply amp2_intro; [exact SB| |]; intros a b i j Ha Hb Hi Hj; rewrite !EB by assumption;
      apply R2; (apply nth_vir_lt || apply nth_occ_lt); assumption.
  Qed.
  (** two arrays with the same blocks are equal *)
  Lemma blocks_determine T T' a b c : spin_amp S 2 no nv T -> spin_amp S 2 no nv T' -> blocks2 S no nv T a b c -> blocks2 S no nv T' a b c -> teq T T'.
  Proof.
    intros [H1 C1] [H2 C2] [A1 [A2 A3]] [B1 [B2 B3]]. destruct (amp2_elim _ _ _ H1) as [S1 E1]. destruct (amp2_elim _ _ _ H2) as [S2 E2].
    split; [congruence|]. rewrite S1. intros idx I. destruct (inr_4 _ _ _ _ _ I) as [x [y [i [j [-> [[X Y] [P Q]]]]]]].
    destruct (block2_elim _ _ _ _ A1) as [_ F1]. destruct (block2_elim _ _ _ _ A2) as [_ F2]. destruct (block2_elim _ _ _ _ A3) as [_ F3].
    destruct (block2_elim _ _ _ _ B1) as [_ G1]. destruct (block2_elim _ _ _ _ B2) as [_ G2]. destruct (block2_elim _ _ _ _ B3) as [_ G3].
    pose proof (pv_lt x X) as X'. pose proof (pv_lt y Y) as Y'. pose proof (po_lt i P) as P'. pose proof (po_lt j Q) as Q'.
    assert (K : forall s1 s2 s3 s4, sv x = s1 -> sv y = s2 -> so_ i = s3 -> so_ j = s4 ->
       nth (pv x) (vir S s1) O = x /\ nth (pv y) (vir S s2) O = y /\ nth (po i) (occ S s3) O = i /\ nth (po j) (occ S s4) O = j).
    { intros s1 s2 s3 s4 <- <- <- <-. rewrite !pv_nth, !po_nth by assumption. auto. }
    assert (Z : count (isup_vir S) [x; y] <> count (isup_occ S) [i; j] -> data T [x; y; i; j] = data T' [x; y; i; j]).
    { intros N. transitivity 0; [apply (C1 [x; y] [i; j])|symmetry; apply (C2 [x; y] [i; j])]; try reflexivity; try exact N;
        [rewrite S1|rewrite S2]; exact I. }
    destruct (sv x) eqn:Ex, (sv y) eqn:Ey, (so_ i) eqn:Ei, (so_ j) eqn:Ej;
      destruct (K _ _ _ _ eq_refl eq_refl eq_refl eq_refl) as [Kx [Ky [Ki Kj]]];
      first [ apply Z; clear -Ex Ey Ei Ej; unfold count, sv, so_ in *; cbn [filter];
                destruct (isup_vir S x), (isup_vir S y), (isup_occ S i), (isup_occ S j); try discriminate; cbn [length]; lia
            | idtac ].
    - rewrite <- Kx, <- Ky, <- Ki, <- Kj. rewrite <- F1, <- G1 by assumption. reflexivity.
    - rewrite <- Kx, <- Ky, <- Ki, <- Kj. rewrite <- F3, <- G3 by assumption. reflexivity.
    - destruct (E1 x y i j X Y P Q) as [_ ->]. destruct (E2 x y i j X Y P Q) as [_ ->].
      rewrite <- Kx, <- Ky, <- Ki, <- Kj. rewrite <- F3, <- G3 by assumption. reflexivity.
    - destruct (E1 x y i j X Y P Q) as [-> _]. destruct (E2 x y i j X Y P Q) as [-> _].
      rewrite <- Kx, <- Ky, <- Ki, <- Kj. rewrite <- F3, <- G3 by assumption. reflexivity.
    - destruct (E1 x y i j X Y P Q) as [-> _]. destruct (E2 x y i j X Y P Q) as [-> _].
      destruct (E1 y x i j Y X P Q) as [_ ->]. destruct (E2 y x i j Y X P Q) as [_ ->].
      rewrite <- Kx, <- Ky, <- Ki, <- Kj. rewrite <- F3, <- G3 by assumption. reflexivity.
    - rewrite <- Kx, <- Ky, <- Ki, <- Kj. rewrite <- F2, <- G2 by assumption. reflexivity.
  Qed.

  (** ** Conservation of spin by a computed array *)
  Fixpoint words (k : nat) : list (list spin) :=
    match k with O => [[]] | Datatypes.S k' => (map (cons Up) (words k') ++ map (cons Dn) (words k'))%list end.
  Lemma words_all l : In l (words (length l)).
  Proof.
    induction l as [|s l IH]; [left; reflexivity|]. cbn [length words]. apply in_app_iff.
    destruct s; [left|right]; apply in_map; exact IH.
  Qed.
  Definition ups (l : list spin) : nat := length (filter (fun s => match s with Up => true | Dn => false end) l).
  Definition zero_block (k : nat) (p : poly) (w : list spin * list spin) : bool :=
    let q := (map viof (fst w) ++ map ocof (snd w))%list in
    Nat.eqb (ups (fst w)) (ups (snd w)) ||
    (good q && match retype q (Some (SP (repeat 1%N k ++ repeat 0%N k) p)) with
               | Some (SP _ p') => peq sy sp_split sp_bad [] (xvs q) p' []
               | _ => false end)%bool.
  Definition conserves (k : nat) (p : poly) : bool := forallb (zero_block k p) (list_prod (words k) (words k)).

  Variable atoms : atomtab.
  Hypothesis Hat : Forall (atom_ok (sp_range no nv S) sy) atoms.
  Hypothesis Hcons : Forall (conserving no nv S) atoms.
  Lemma retype_shape q v s p : retype q v = Some (SP s p) -> s = q.
  Proof. unfold retype. destruct v as [[]|]; try discriminate. destruct (_ && _)%bool; [|discriminate]. destruct (relabel _ _ _); [|discriminate]. congruence. Qed.
  Lemma retype_some q v r : retype q v = Some r -> exists p, r = SP q p.
  Proof. unfold retype. destruct v as [[]|]; try discriminate. destruct (_ && _)%bool; [|discriminate]. destruct (relabel _ _ _); [|discriminate]. intros H. injection H as <-. eauto. Qed.
  Theorem conserves_ok k p R : conserves k p = true ->
    sp_vsim no nv S atoms (SP (repeat 1%N k ++ repeat 0%N k) p) (VT R) -> spin_conserving_amp S k R.
  Proof.
    intros HC V. inversion V as [? ? ? T1| | | | |]; subst. clear V. intros l1 l2 L1 L2 I HN.
    set (s1 := map sv l1). set (s2 := map so_ l2).
    assert (HZ : zero_block k p (s1, s2) = true).
    { unfold conserves in HC. rewrite forallb_forall in HC. apply HC. apply in_prod.
      - replace k with (length s1) by (unfold s1; rewrite map_length; exact L1). apply words_all.
      - replace k with (length s2) by (unfold s2; rewrite map_length; exact L2). apply words_all. }
    unfold zero_block in HZ. cbn [fst snd] in HZ. apply orb_true_iff in HZ. destruct HZ as [HZ|HZ].
    - exfalso. apply HN. apply Nat.eqb_eq in HZ. clear -HZ. unfold ups, count, s1, s2 in *.
      assert (A : forall l, length (filter (fun s => match s with Up => true | Dn => false end) (map sv l)) = length (filter (isup_vir S) l)).
      { induction l as [|x l IH]; [reflexivity|]. cbn [map filter]. unfold sv at 1. destruct (isup_vir S x); cbn [length]; rewrite ?IH; reflexivity. }
      assert (B : forall l, length (filter (fun s => match s with Up => true | Dn => false end) (map so_ l)) = length (filter (isup_occ S) l)).
      { induction l as [|x l IH]; [reflexivity|]. cbn [map filter]. unfold so_ at 1. destruct (isup_occ S x); cbn [length]; rewrite ?IH; reflexivity. }
      rewrite A, B in HZ. exact HZ.
    - apply andb_true_iff in HZ. destruct HZ as [Hg HZ]. set (q := (map viof s1 ++ map ocof s2)%list) in *.
      destruct (retype q _) as [r|] eqn:ER; [|discriminate]. destruct (retype_some _ _ _ ER) as [p' ->].
      pose proof T1 as [HsR _]. rewrite HsR in I. rewrite map_app, !map_repeat in I.
      rewrite (dimO no nv S), (dimV no nv S) in I.
      assert (F1 : Forall2 lt l1 (repeat (2 * nv)%nat k)).
      { apply Forall2_app_inv_l in I. destruct I as [m1 [m2 [X1 [X2 EQ]]]]. pose proof (Forall2_len _ _ _ X1) as LX.
        assert (m1 = repeat (2 * nv)%nat k) as <-; [|exact X1].
        apply (f_equal (firstn k)) in EQ. rewrite !firstn_app, !repeat_length in EQ. rewrite <- LX, L1, Nat.sub_diag in EQ. cbn [firstn] in EQ.
        rewrite !app_nil_r in EQ. rewrite !firstn_all2 in EQ by (rewrite ?repeat_length; lia). congruence. }
      assert (F2 : Forall2 lt l2 (repeat (2 * no)%nat k)).
      { apply Forall2_app_inv_l in I. destruct I as [m1 [m2 [X1 [X2 EQ]]]]. pose proof (Forall2_len _ _ _ X1) as LX.
        assert (m2 = repeat (2 * no)%nat k) as <-; [|exact X2].
        apply (f_equal (skipn k)) in EQ. rewrite !skipn_app, !repeat_length in EQ. rewrite <- LX, L1, Nat.sub_diag in EQ. cbn [skipn] in EQ.
        rewrite !skipn_all2 in EQ by (rewrite ?repeat_length; lia). cbn [app] in EQ. congruence. }
      assert (G1 : (forall x, In x l1 -> x < 2 * nv)%nat).
      { clear -F1. revert F1. generalize k. induction l1 as [|y l IH]; intros k0 F x; [intros []|]. destruct k0; inversion F; subst. intros [<-|H]; [assumption|eapply IH; eassumption]. }
      assert (G2 : (forall x, In x l2 -> x < 2 * no)%nat).
      { clear -F2. revert F2. generalize k. induction l2 as [|y l IH]; intros k0 F x; [intros []|]. destruct k0; inversion F; subst. intros [<-|H]; [assumption|eapply IH; eassumption]. }
      set (idx := (map pv l1 ++ map po l2)%list).
      assert (Hi : inr idx (map (dim (sp_range no nv S)) q)).
      { unfold idx, q. rewrite map_app, !map_map. apply Forall2_app.
        - unfold s1. rewrite map_map. clear -HS G1. induction l1 as [|x l IH]; [constructor|]. cbn [map]. constructor.
          + rewrite (dim_vi no nv S HS). apply pv_lt, G1. left; reflexivity.
          + apply IH. intros y Hy. apply G1. right; exact Hy.
        - unfold s2. rewrite map_map. clear -HS G2. induction l2 as [|x l IH]; [constructor|]. cbn [map]. constructor.
          + rewrite (dim_oc no nv S HS). apply po_lt, G2. left; reflexivity.
          + apply IH. intros y Hy. apply G2. right; exact Hy. }
      unfold good in Hg. apply andb_true_iff in Hg. destruct Hg as [HNq HX].
      rewrite (block_tsim (sp_range no nv S) _ _ _ _ _ _ idx (l1 ++ l2) ER HNq T1 Hi).
      + transitivity (evalP (sp_range no nv S) (Aof (sp_range no nv S) atoms) (env_of q (orbs (sp_range no nv S) q idx)) []); [|reflexivity].
        apply (sp_evalP no nv S HS atoms Hcons Hat [] q p' [] HZ). intros v Hv.
        eapply inr_in; [exact Hi|apply agree_env; assumption|exact Hv|exact HX].
      + rewrite HsR, map_app, !map_repeat, (dimO no nv S), (dimV no nv S). exact I.
      + rewrite (orbs_app no nv S) by (rewrite repeat_length; lia). unfold q, idx. rewrite (orbs_app no nv S) by (unfold s1; rewrite !map_length; reflexivity). f_equal.
        * unfold s1. clear -HS G1 L1. revert k L1 G1. induction l1 as [|x l IH]; intros [|k] L1 G1; try discriminate; [reflexivity|].
          cbn [repeat map]. unfold orbs. rewrite !zipw_cons. f_equal; [|apply IH; [injection L1 as L1; exact L1|intros y Hy; apply G1; right; exact Hy]].
          assert (Hx : (x < 2 * nv)%nat) by (apply G1; left; reflexivity).
          cbn [sp_range]. rewrite seq_nth by exact Hx.
          pose proof (pv_nth x Hx) as E. pose proof (pv_lt x Hx) as Lx. unfold viof. destruct (sv x); cbn [sp_range];
            rewrite nth_map_add by (rewrite (vir_len no nv S HS); exact Lx); rewrite E; reflexivity.
        * unfold s2. clear -HS G2 L2. revert k L2 G2. induction l2 as [|x l IH]; intros [|k] L2 G2; try discriminate; [reflexivity|].
          cbn [repeat map]. unfold orbs. rewrite !zipw_cons. f_equal; [|apply IH; [injection L2 as L2; exact L2|intros y Hy; apply G2; right; exact Hy]].
          assert (Hx : (x < 2 * no)%nat) by (apply G2; left; reflexivity).
          cbn [sp_range]. rewrite seq_nth by exact Hx. cbn [Nat.add].
          pose proof (po_nth x Hx) as E. unfold ocof. destruct (so_ x); cbn [sp_range]; rewrite E; reflexivity.
  Qed.
End Link.
