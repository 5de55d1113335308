(** C24: exchanging alpha and beta in all inputs of the spin-integrated residual routines exchanges their results. *)
From Coq Require Import String Ascii List Arith NArith ZArith QArith Qcanon Bool Lia Permutation.
From Verif Require Import Sums Tensor Interp Poly SymExec Canon Spec Instances Setup Master Spin Check Tabs Unround.
From Verif Require Import P_ccd P_spin_ccd P_spin_ccsdt P_spin_ccsdt3 P_spin_ccdq P_spin_qf SlowCC P_slow P_spinrun P_wanti.
From Verif Require Code_t2residEqns Code_t2residEqnsSlow Code_fullCCresidEqns Code_ccdq_resids Code_modify_T2resid_T4Qf1 Code_modify_T2resid_T4Qf2 Code_ccsdt_eqns Code_ccdq_eqns.
Import ListNotations.
Open Scope string_scope.

(** The electrons of a block with k of them, renumbered: t'[a1..ak,i1..ik] = t[a_p(1)..a_p(k),i_p(1)..i_p(k)]. *)
Definition pick (p l : list nat) : list nat := map (fun i => nth i l O) p.
Definition renumbered (p : list nat) (t t' : tensor) : Prop :=
  shape t' = shape t /\
  forall l1 l2, length l1 = length p -> length l2 = length p -> inr (l1 ++ l2) (shape t) -> data t' (l1 ++ l2)%list = data t (pick p l1 ++ pick p l2)%list.

(** ** Exchanging the spins *)
Definition opp (s : spin) : spin := match s with Up => Dn | Dn => Up end.
Definition flipS (S : spinmap) : spinmap := mkSM (fun s => occ S (opp s)) (fun s => vir S (opp s)).
Lemma flip_ok no nv S : spin_ok no nv S -> spin_ok no nv (flipS S).
Proof.
  intros [A [B [C D]]]. split; [|split; [|split]]; cbn [flipS occ vir opp]; intros; try apply A; try apply B.
  - eapply perm_trans; [apply Permutation_app_comm|exact C].
  - eapply perm_trans; [apply Permutation_app_comm|exact D].
Qed.
Lemma opp_opp s : opp (opp s) = s. Proof. destruct s; reflexivity. Qed.
Lemma zipw_map_l {X X' Y Z} (f : X -> Y -> Z) (h : X' -> X) a b : zipw f (map h a) b = zipw (fun x y => f (h x) y) a b.
Proof. revert b; induction a as [|x a IH]; intros [|y b]; try reflexivity. cbn [map]. rewrite !zipw_cons. f_equal. apply IH. Qed.
Lemma block_flip S no nv ss T b : block_amp S no nv ss T b -> block_amp (flipS S) no nv (map opp ss) T b.
Proof.
  intros [A B]. split; [rewrite map_length; exact A|]. intros l1 l2 L I. rewrite map_length in L. rewrite (B _ _ L I), !zipw_map_l.
  cbn [flipS occ vir]. f_equal. f_equal; (unfold zipw; apply map_ext; intros [s x]; cbn [fst snd]; rewrite opp_opp; reflexivity).
Qed.
Lemma unflip S no nv ss T b : block_amp (flipS S) no nv (map opp ss) T b -> block_amp S no nv ss T b.
Proof.
  intros [A B]. rewrite map_length in A. split; [exact A|]. intros l1 l2 L I. rewrite (B _ _ (eq_trans L (eq_sym (map_length opp ss))) I), !zipw_map_l.
  cbn [flipS occ vir]. f_equal. f_equal; (unfold zipw; apply map_ext; intros [s x]; cbn [fst snd]; rewrite opp_opp; reflexivity).
Qed.
Lemma block_ov_flip S no nv ss T b : block_amp_ov S no nv ss T b -> block_amp_ov (flipS S) no nv (map opp ss) T b.
Proof.
  intros [A B]. split; [rewrite map_length; exact A|]. intros l1 l2 L I. rewrite map_length in L. rewrite (B _ _ L I), !zipw_map_l.
  cbn [flipS occ vir]. f_equal. f_equal; (unfold zipw; apply map_ext; intros [s x]; cbn [fst snd]; rewrite opp_opp; reflexivity).
Qed.
Lemma orb_flip S no s p : orb (flipS S) no s p = orb S no (opp s) p. Proof. reflexivity. Qed.
Lemma full_flip S no nv ss T b : block_full S no nv ss T b -> block_full (flipS S) no nv (map opp ss) T b.
Proof.
  intros [A B]. split; [rewrite map_length; exact A|]. intros idx I. rewrite (B _ I), zipw_map_l.
  f_equal; (unfold zipw; apply map_ext; intros [s x]; cbn [fst snd]; rewrite orb_flip, opp_opp; reflexivity).
Qed.

(** counting down spins instead of up spins *)
Section Count.
  Variables no nv : nat.
  Variable S : spinmap.
  Hypothesis HS : spin_ok no nv S.
  Lemma occ_in i : (i < 2 * no)%nat -> In i (occ S Up) \/ In i (occ S Dn).
  Proof. intros H. apply in_app_or. destruct HS as [_ [_ [P _]]]. eapply Permutation_in; [symmetry; exact P|]. apply in_seq. lia. Qed.
  Lemma vir_in i : (i < 2 * nv)%nat -> In i (vir S Up) \/ In i (vir S Dn).
  Proof. intros H. apply in_app_or. destruct HS as [_ [_ [_ P]]]. eapply Permutation_in; [symmetry; exact P|]. apply in_seq. lia. Qed.
  Lemma isup_occ_flip i : (i < 2 * no)%nat -> isup_occ (flipS S) i = negb (isup_occ S i).
  Proof.
    intros H. destruct (occ_in i H) as [U|D].
    - rewrite (isup_occ_spec no nv S HS Up i U). apply (isup_occ_spec no nv (flipS S) (flip_ok _ _ _ HS) Dn i). exact U.
    - rewrite (isup_occ_spec no nv S HS Dn i D). apply (isup_occ_spec no nv (flipS S) (flip_ok _ _ _ HS) Up i). exact D.
  Qed.
  Lemma isup_vir_flip i : (i < 2 * nv)%nat -> isup_vir (flipS S) i = negb (isup_vir S i).
  Proof.
    intros H. destruct (vir_in i H) as [U|D].
    - rewrite (isup_vir_spec no nv S HS Up i U). apply (isup_vir_spec no nv (flipS S) (flip_ok _ _ _ HS) Dn i). exact U.
    - rewrite (isup_vir_spec no nv S HS Dn i D). apply (isup_vir_spec no nv (flipS S) (flip_ok _ _ _ HS) Up i). exact D.
  Qed.
  Lemma isup_flip i : (i < 2 * no + 2 * nv)%nat -> isup (flipS S) no i = negb (isup S no i).
  Proof. intros H. unfold isup. destruct (Nat.ltb_spec i (2 * no)); [apply isup_occ_flip; assumption|apply isup_vir_flip; lia]. Qed.
  Lemma count_neg f g l : (forall i, In i l -> g i = negb (f i)) -> (count g l + count f l = length l)%nat.
  Proof.
    unfold count. induction l as [|x l IH]; intros H; [reflexivity|]. cbn [filter length].
    rewrite (H x (or_introl eq_refl)). specialize (IH (fun i Hi => H i (or_intror Hi))). destruct (f x); cbn [negb length]; lia.
  Qed.
  Lemma inr_parts l1 l2 s1 s2 : length l1 = length s1 -> inr (l1 ++ l2) (s1 ++ s2) -> inr l1 s1 /\ inr l2 s2.
  Proof.
    intros L H. apply Forall2_app_inv_l in H. destruct H as [a [b [H1 [H2 E]]]].
    assert (La : length a = length s1) by (rewrite <- L; symmetry; eapply Forall2_len; exact H1).
    assert (a = s1 /\ b = s2) as [-> ->]; [|split; assumption].
    clear -E La. revert s1 E La. induction a as [|x a IH]; intros [|y s1] E La; try discriminate.
    - split; [reflexivity|symmetry; exact E].
    - cbn in E. injection E as -> E. cbn in La. destruct (IH s1 E ltac:(lia)). subst. auto.
  Qed.
  Lemma inr_rep n : forall k l, inr l (repeat n k) -> forall x, In x l -> (x < n)%nat.
  Proof.
    induction k as [|k IH]; intros l H x Hx; inversion H; subst; [destruct Hx|]. destruct Hx as [<-|Hx]; [assumption|]. eapply IH; eassumption.
  Qed.
  Lemma amp_parts n m k l1 l2 : length l1 = k -> inr (l1 ++ l2) (repeat n k ++ repeat m k) ->
    (forall x, In x l1 -> (x < n)%nat) /\ (forall x, In x l2 -> (x < m)%nat).
  Proof.
    intros L I. destruct (inr_parts l1 l2 _ _ ltac:(rewrite repeat_length; exact L) I) as [A B].
    split; eapply inr_rep; eassumption.
  Qed.
  Lemma cons_amp_flip k T : shape T = (repeat (2 * nv)%nat k ++ repeat (2 * no)%nat k)%list -> spin_conserving_amp S k T -> spin_conserving_amp (flipS S) k T.
  Proof.
    intros Sh H l1 l2 L1 L2 I N. apply H; try assumption. rewrite Sh in I. destruct (amp_parts _ _ k l1 l2 L1 I) as [A B].
    pose proof (count_neg (isup_vir S) (isup_vir (flipS S)) l1 (fun i Hi => isup_vir_flip i (A i Hi))).
    pose proof (count_neg (isup_occ S) (isup_occ (flipS S)) l2 (fun i Hi => isup_occ_flip i (B i Hi))). lia.
  Qed.
  Lemma cons_amp_ov_flip k T : shape T = (repeat (2 * no)%nat k ++ repeat (2 * nv)%nat k)%list -> spin_conserving_amp_ov S k T -> spin_conserving_amp_ov (flipS S) k T.
  Proof.
    intros Sh H l1 l2 L1 L2 I N. apply H; try assumption. rewrite Sh in I. destruct (amp_parts _ _ k l1 l2 L1 I) as [A B].
    pose proof (count_neg (isup_occ S) (isup_occ (flipS S)) l1 (fun i Hi => isup_occ_flip i (A i Hi))).
    pose proof (count_neg (isup_vir S) (isup_vir (flipS S)) l2 (fun i Hi => isup_vir_flip i (B i Hi))). lia.
  Qed.
  Lemma cons_full_flip k T : shape T = repeat (2 * no + 2 * nv)%nat (k + k) -> spin_conserving S no k T -> spin_conserving (flipS S) no k T.
  Proof.
    intros Sh H l1 l2 L1 L2 I N. apply H; try assumption. rewrite Sh, repeat_app in I. destruct (amp_parts _ _ k l1 l2 L1 I) as [A B].
    pose proof (count_neg (isup S no) (isup (flipS S) no) l1 (fun i Hi => isup_flip i (A i Hi))).
    pose proof (count_neg (isup S no) (isup (flipS S) no) l2 (fun i Hi => isup_flip i (B i Hi))). lia.
  Qed.
  Lemma amp_flip k T : spin_amp S k no nv T -> spin_amp (flipS S) k no nv T.
  Proof. intros [A B]. split; [exact A|]. apply cons_amp_flip; [apply A|exact B]. Qed.
  Lemma amp_ov_flip k T : spin_amp_ov S k no nv T -> spin_amp_ov (flipS S) k no nv T.
  Proof. intros [A B]. split; [exact A|]. apply cons_amp_ov_flip; [apply A|exact B]. Qed.
End Count.

(** ** Renumbering the electrons does not change an antisymmetric array *)
Lemma electrons n1 n2 k T : shape T = (repeat n1 k ++ repeat n2 k)%list -> antisymmetric k T -> forall ps qs, Permutation ps qs ->
  forall pre, length (pre ++ ps) = k -> (forall p, In p (pre ++ ps) -> (fst p < n1)%nat /\ (snd p < n2)%nat) ->
  data T (map fst (pre ++ ps) ++ map snd (pre ++ ps))%list = data T (map fst (pre ++ qs) ++ map snd (pre ++ qs))%list.
Proof.
  intros Sh An. induction 1 as [|x l l' P IH|x y l|l l' l'' P1 IH1 P2 IH2]; intros pre L B.
  - reflexivity.
  - specialize (IH (pre ++ [x])%list). rewrite <- !app_assoc in IH. cbn [app] in IH. apply IH; assumption.
  - assert (In1 : forall l, length l = k -> (forall p, In p l -> (fst p < n1)%nat /\ (snd p < n2)%nat) -> inr (map fst l) (repeat n1 k) /\ inr (map snd l) (repeat n2 k)).
    { clear. intros l L B. revert k L; induction l as [|q l IH]; intros k L; cbn in L; subst k; cbn [repeat map]; [split; constructor|].
      destruct (IH (fun p Hp => B p (or_intror Hp)) _ eq_refl). destruct (B q (or_introl eq_refl)). split; constructor; assumption. }
    assert (B' : forall p, In p (pre ++ x :: y :: l) -> (fst p < n1)%nat /\ (snd p < n2)%nat).
    { intros p Hp. apply B. apply in_app_or in Hp. apply in_or_app. destruct Hp as [Hp|Hp]; [left; exact Hp|right]. cbn in *. tauto. }
    assert (L' : length (pre ++ x :: y :: l) = k) by (rewrite app_length in *; cbn [length] in *; lia).
    destruct (In1 _ L B) as [I1 I2], (In1 _ L' B') as [J1 J2].
    assert (Hi : (Datatypes.S (length pre) < k)%nat) by (rewrite app_length in L; cbn [length] in L; lia).
    destruct (An (length pre) Hi) as [A1 A2].
    assert (C : forall a b, inr a (repeat n1 k) -> inr b (repeat n2 k) -> inr (a ++ b) (shape T)) by (intros; rewrite Sh; apply Forall2_app; assumption).
    transitivity (- data T (map fst (pre ++ x :: y :: l) ++ map snd (pre ++ y :: x :: l))%list)%Qc.
    + rewrite !map_app. cbn [map]. rewrite <- !app_assoc. cbn [app].
      rewrite !map_app in *. cbn [map] in *. apply A1; [apply map_length| |].
      * specialize (C _ _ I1 I2). rewrite <- !app_assoc in C. cbn [app] in C. exact C.
      * specialize (C _ _ J1 I2). rewrite <- !app_assoc in C. cbn [app] in C. exact C.
    + rewrite !map_app in *. cbn [map] in *.
      specialize (A2 ((map fst pre ++ fst x :: fst y :: map fst l) ++ map snd pre)%list (snd y) (snd x) (map snd l)).
      rewrite <- !app_assoc in A2. cbn [app] in A2. rewrite <- !app_assoc. cbn [app]. rewrite A2.
      * ring.
      * repeat (rewrite ?app_length, ?map_length; cbn [length]). rewrite app_length in L. cbn [length] in L. lia.
      * specialize (C _ _ J1 I2). rewrite <- !app_assoc in C. cbn [app] in C. exact C.
      * specialize (C _ _ J1 J2). rewrite <- !app_assoc in C. cbn [app] in C. exact C.
  - rewrite IH1 by assumption. apply IH2.
    + rewrite app_length in *. rewrite <- (Permutation_length P1). exact L.
    + intros p Hp. apply B. apply in_app_or in Hp. apply in_or_app. destruct Hp as [Hp|Hp]; [left; exact Hp|right; eapply Permutation_in; [symmetry; exact P1|exact Hp]].
Qed.
Lemma map_fst_combine {X Y} (a : list X) (b : list Y) : length a = length b -> map fst (combine a b) = a /\ map snd (combine a b) = b.
Proof. revert b; induction a as [|x a IH]; intros [|y b] L; try discriminate; [split; reflexivity|]. cbn. destruct (IH b ltac:(cbn in L; lia)) as [-> ->]. split; reflexivity. Qed.
Lemma pick_combine p a b : length a = length b -> (forall i, In i p -> (i < length a)%nat) ->
  combine (pick p a) (pick p b) = map (fun i => nth i (combine a b) (O, O)) p.
Proof.
  intros L. unfold pick. induction p as [|i p IH]; intros H; [reflexivity|]. cbn [map combine]. rewrite IH by (intros; apply H; right; assumption).
  f_equal. rewrite combine_nth by exact L. reflexivity.
Qed.
Lemma perm_pick {X} (d : X) p : forall l, Permutation p (seq 0 (length l)) -> Permutation (map (fun i => nth i l d) p) l.
Proof.
  intros l P. eapply perm_trans; [apply Permutation_map, P|]. clear.
  assert (E : map (fun i => nth i l d) (seq 0 (length l)) = l); [|rewrite E; reflexivity].
  apply nth_ext with (d := d) (d' := d); [rewrite map_length, seq_length; reflexivity|].
  intros n Hn. rewrite map_length, seq_length in Hn.
  transitivity (nth n (map (fun i => nth i l d) (seq 0 (length l))) (nth O l d)).
  - apply nth_indep. rewrite map_length, seq_length. exact Hn.
  - rewrite (map_nth (fun i => nth i l d)), seq_nth by exact Hn. reflexivity.
Qed.
Lemma picked n1 n2 k T p l1 l2 : shape T = (repeat n1 k ++ repeat n2 k)%list -> antisymmetric k T -> Permutation p (seq 0 k) ->
  length l1 = k -> length l2 = k -> (forall x, In x l1 -> (x < n1)%nat) -> (forall x, In x l2 -> (x < n2)%nat) ->
  data T (pick p l1 ++ pick p l2)%list = data T (l1 ++ l2)%list.
Proof.
  intros Sh An P L1 L2 A B.
  assert (LC : length (combine l1 l2) = k) by (rewrite combine_length; lia).
  assert (HP : forall i, In i p -> (i < length l1)%nat) by (intros i Hi; eapply Permutation_in in Hi; [|exact P]; apply in_seq in Hi; lia).
  pose proof (electrons n1 n2 k T Sh An (combine l1 l2) (combine (pick p l1) (pick p l2))) as E.
  rewrite pick_combine in E by (assumption || congruence).
  specialize (E (Permutation_sym (perm_pick _ p (combine l1 l2) ltac:(rewrite LC; exact P))) [] LC). cbn [app] in E.
  rewrite <- pick_combine in E by (assumption || congruence).
  destruct (map_fst_combine l1 l2 ltac:(congruence)) as [E1 E2]. rewrite E1, E2 in E.
  destruct (map_fst_combine (pick p l1) (pick p l2) ltac:(unfold pick; rewrite !map_length; reflexivity)) as [E3 E4]. rewrite E3, E4 in E.
  symmetry. apply E. intros [x y] Hp. split; [apply A; exact (in_combine_l _ _ _ _ Hp)|apply B; exact (in_combine_r _ _ _ _ Hp)].
Qed.
Lemma pick_len p l : length (pick p l) = length p. Proof. apply map_length. Qed.
Lemma pick_zipw (f : spin -> nat -> nat) p ss l : length l = length ss -> (forall i, In i p -> (i < length ss)%nat) ->
  zipw f (map (fun i => nth i ss Up) p) (pick p l) = pick p (zipw f ss l).
Proof.
  intros L H. unfold pick. induction p as [|i p IH]; [reflexivity|]. cbn [map]. rewrite zipw_cons, IH by (intros; apply H; right; assumption). f_equal.
  specialize (H i (or_introl eq_refl)). clear -L H. revert i l L H. induction ss as [|s ss IH]; intros i [|x l] L H; cbn in *; try lia.
  destruct i as [|i]; [reflexivity|]. apply (IH i l); lia.
Qed.
Lemma zipw_in {X Y} (f : X -> Y -> nat) n a b : (forall x y, In y b -> (f x y < n)%nat) -> forall z, In z (zipw f a b) -> (z < n)%nat.
Proof. intros H z Hz. unfold zipw in Hz. apply in_map_iff in Hz. destruct Hz as [[x y] [<- Hp]]. apply H. exact (in_combine_r _ _ _ _ Hp). Qed.
Lemma block_renumbered no nv S p ss ss' T b b' : spin_ok no nv S -> is_amp (length ss') (2 * no) (2 * nv) T -> Permutation p (seq 0 (length ss')) ->
  ss = map (fun i => nth i ss' Up) p -> block_amp S no nv ss T b -> renumbered p b b' -> block_amp S no nv ss' T b'.
Proof.
  intros HS [Sh An] P E [Sb Db] [Sr Dr]. assert (Lp : length p = length ss') by (rewrite (Permutation_length P), seq_length; reflexivity).
  assert (LS : length ss = length ss') by (subst ss; rewrite map_length; exact Lp).
  rewrite LS in Sb, Db. split; [congruence|]. intros l1 l2 L I. rewrite Sr in I.
  assert (L2 : length l2 = length ss').
  { pose proof (inr_len _ _ I) as X. rewrite Sb, !app_length, !repeat_length in X. lia. }
  rewrite Dr by (congruence || assumption).
  pose proof I as I0. rewrite Sb in I. destruct (amp_parts _ _ _ l1 l2 L I) as [A B].
  assert (HP : forall i, In i p -> (i < length ss')%nat) by (intros i Hi; eapply Permutation_in in Hi; [|exact P]; apply in_seq in Hi; lia).
  assert (PI : forall n l, (forall x, In x l -> (x < n)%nat) -> length l = length ss' -> forall x, In x (pick p l) -> (x < n)%nat).
  { intros n l H Ll x Hx. unfold pick in Hx. apply in_map_iff in Hx. destruct Hx as [i [<- Hi]]. apply H, nth_In. rewrite Ll. apply HP, Hi. }
  assert (IR : forall n l, length l = length ss' -> (forall x, In x l -> (x < n)%nat) -> inr l (repeat n (length ss'))).
  { clear. intros n l L. rewrite <- L. clear L. induction l as [|x l IH]; intros H; cbn; constructor; [apply H; left; reflexivity|apply IH; intros; apply H; right; assumption]. }
  rewrite Db; [|rewrite pick_len; exact Lp|].
  2:{ rewrite Sb. apply Forall2_app; apply IR; rewrite ?pick_len; try exact Lp; apply PI; assumption. }
  subst ss. rewrite !pick_zipw by assumption.
  apply (picked (2 * nv) (2 * no) (length ss')); try assumption.
  - unfold zipw. rewrite map_length, combine_length. lia.
  - unfold zipw. rewrite map_length, combine_length. lia.
  - apply zipw_in. intros s y Hy. apply (vir_lt no nv S HS s). apply nth_In. rewrite (vir_len no nv S HS). apply A, Hy.
  - apply zipw_in. intros s y Hy. apply (occ_lt no nv S HS s). apply nth_In. rewrite (occ_len no nv S HS). apply B, Hy.
Qed.
Lemma block_ov_renumbered no nv S p ss ss' T b b' : spin_ok no nv S -> is_amp_ov (length ss') (2 * no) (2 * nv) T -> Permutation p (seq 0 (length ss')) ->
  ss = map (fun i => nth i ss' Up) p -> block_amp_ov S no nv ss T b -> renumbered p b b' -> block_amp_ov S no nv ss' T b'.
Proof.
  intros HS [Sh An] P E [Sb Db] [Sr Dr]. assert (Lp : length p = length ss') by (rewrite (Permutation_length P), seq_length; reflexivity).
  assert (LS : length ss = length ss') by (subst ss; rewrite map_length; exact Lp).
  rewrite LS in Sb, Db. split; [congruence|]. intros l1 l2 L I. rewrite Sr in I.
  assert (L2 : length l2 = length ss').
  { pose proof (inr_len _ _ I) as X. rewrite Sb, !app_length, !repeat_length in X. lia. }
  rewrite Dr by (congruence || assumption).
  pose proof I as I0. rewrite Sb in I. destruct (amp_parts _ _ _ l1 l2 L I) as [A B].
  assert (HP : forall i, In i p -> (i < length ss')%nat) by (intros i Hi; eapply Permutation_in in Hi; [|exact P]; apply in_seq in Hi; lia).
  assert (PI : forall n l, (forall x, In x l -> (x < n)%nat) -> length l = length ss' -> forall x, In x (pick p l) -> (x < n)%nat).
  { intros n l H Ll x Hx. unfold pick in Hx. apply in_map_iff in Hx. destruct Hx as [i [<- Hi]]. apply H, nth_In. rewrite Ll. apply HP, Hi. }
  assert (IR : forall n l, length l = length ss' -> (forall x, In x l -> (x < n)%nat) -> inr l (repeat n (length ss'))).
  { clear. intros n l L. rewrite <- L. clear L. induction l as [|x l IH]; intros H; cbn; constructor; [apply H; left; reflexivity|apply IH; intros; apply H; right; assumption]. }
  rewrite Db; [|rewrite pick_len; exact Lp|].
  2:{ rewrite Sb. apply Forall2_app; apply IR; rewrite ?pick_len; try exact Lp; apply PI; assumption. }
  subst ss. rewrite !pick_zipw by assumption.
  apply (picked (2 * no) (2 * nv) (length ss')); try assumption.
  - unfold zipw. rewrite map_length, combine_length. lia.
  - unfold zipw. rewrite map_length, combine_length. lia.
  - apply zipw_in. intros s y Hy. apply (occ_lt no nv S HS s). apply nth_In. rewrite (occ_len no nv S HS). apply A, Hy.
  - apply zipw_in. intros s y Hy. apply (vir_lt no nv S HS s). apply nth_In. rewrite (vir_len no nv S HS). apply B, Hy.
Qed.

(** ** Two descriptions of the same block agree *)
Lemma teq_refl a : teq a a. Proof. split; auto. Qed.
Lemma block_unique S no nv ss T b b' : block_amp S no nv ss T b -> block_amp S no nv ss T b' -> teq b b'.
Proof.
  intros [A B] [C D]. split; [congruence|]. intros idx I.
  set (l1 := firstn (length ss) idx). set (l2 := skipn (length ss) idx). assert (E : idx = (l1 ++ l2)%list) by (symmetry; apply firstn_skipn).
  assert (L : length l1 = length ss).
  { unfold l1. rewrite firstn_length. pose proof (inr_len _ _ I) as X. rewrite A, app_length, !repeat_length in X. lia. }
  rewrite E in *. rewrite (B _ _ L I). symmetry. apply D; [exact L|]. rewrite C, <- A. exact I.
Qed.
Definition renum (p : list nat) (t : tensor) : tensor :=
  mkT (shape t) (fun idx => data t (pick p (firstn (length p) idx) ++ pick p (skipn (length p) idx))%list).
Lemma renum_ok p t : renumbered p t (renum p t).
Proof.
  split; [reflexivity|]. intros l1 l2 L1 L2 _. cbn [renum data]. rewrite <- L1, firstn_app, firstn_all, Nat.sub_diag, app_nil_r, skipn_app, skipn_all, Nat.sub_diag. reflexivity.
Qed.
Lemma renumbered_teq p t a b : renumbered p t a -> teq a b -> renumbered p t b.
Proof.
  intros [A B] [C D]. split; [congruence|]. intros l1 l2 L1 L2 I. rewrite <- D by (rewrite A; exact I). apply B; assumption.
Qed.
Lemma blocks_renumbered no nv S p ss ss' T b b' : spin_ok no nv S -> is_amp (length ss') (2 * no) (2 * nv) T -> Permutation p (seq 0 (length ss')) ->
  ss = map (fun i => nth i ss' Up) p -> block_amp S no nv ss T b -> block_amp S no nv ss' T b' -> renumbered p b b'.
Proof.
  intros HS HT P E B B'. eapply renumbered_teq; [apply renum_ok|]. eapply block_unique; [|exact B'].
  eapply block_renumbered; try eassumption. apply renum_ok.
Qed.
Lemma block_teq no nv S ss T T' b : spin_ok no nv S -> shape T = (repeat (2 * nv)%nat (length ss) ++ repeat (2 * no)%nat (length ss))%list ->
  teq T T' -> block_amp S no nv ss T b -> block_amp S no nv ss T' b.
Proof.
  intros HS Sh [E1 E2] [A B]. split; [exact A|]. intros l1 l2 L I. rewrite (B _ _ L I). apply E2. rewrite Sh.
  pose proof (inr_len _ _ I) as X. rewrite A in X, I. rewrite !app_length, !repeat_length in X.
  destruct (amp_parts _ _ _ l1 l2 L I) as [HA HB].
  assert (IR : forall n (f : spin -> nat -> nat) l, length l = length ss -> (forall s x, In x l -> (f s x < n)%nat) -> inr (zipw f ss l) (repeat n (length ss))).
  { clear. intros n f l. revert l. induction ss as [|s ss IH]; intros [|x l] L H; cbn in L; try lia; [constructor|]. rewrite zipw_cons. cbn [length repeat]. constructor; [apply H; left; reflexivity|].
    apply IH; [lia|]. intros; apply H; right; assumption. }
  apply Forall2_app; apply IR; try lia.
  - intros s y Hy. apply (vir_lt no nv S HS s). apply nth_In. rewrite (vir_len no nv S HS). apply HA, Hy.
  - intros s y Hy. apply (occ_lt no nv S HS s). apply nth_In. rewrite (occ_len no nv S HS). apply HB, Hy.
Qed.
Lemma swapped_shape k no nv T Tw : swapped k T Tw -> shape Tw = (repeat no k ++ repeat nv k)%list -> shape T = (repeat nv k ++ repeat no k)%list.
Proof.
  intros [A _] B. rewrite B in A. assert (L : length (shape T) = (k + k)%nat).
  { rewrite <- (firstn_skipn k (shape T)), app_length. apply (f_equal (@length nat)) in A. rewrite !app_length, !repeat_length in A. lia. }
  rewrite <- (firstn_skipn k (shape T)).
  assert (L1 : length (skipn k (shape T)) = k) by (rewrite skipn_length; lia).
  assert (H : forall (a b c d : list nat), (a ++ b)%list = (c ++ d)%list -> length a = length c -> a = c /\ b = d).
  { clear. induction a as [|x a IH]; intros b [|y c] d E L; try discriminate; [split; [reflexivity|exact E]|]. cbn in *. injection E as -> E. destruct (IH _ _ _ E ltac:(lia)) as [-> ->]. split; reflexivity. }
  destruct (H _ _ _ _ A ltac:(rewrite repeat_length; lia)) as [<- <-]. reflexivity.
Qed.
Lemma inr_turn k n m l1 l2 : length l1 = k -> inr (l1 ++ l2) (repeat n k ++ repeat m k) -> inr (l2 ++ l1) (repeat m k ++ repeat n k).
Proof. intros L I. destruct (inr_parts l1 l2 (repeat n k) (repeat m k) ltac:(rewrite repeat_length; exact L) I). apply Forall2_app; assumption. Qed.
Lemma swapped_amp k no nv T Tw : swapped k T Tw -> is_amp_ov k no nv Tw -> is_amp k no nv T.
Proof.
  intros Sw [A An]. pose proof (swapped_shape k no nv T Tw Sw A) as Sh. split; [exact Sh|]. destruct Sw as [_ Sw].
  intros i Hi. destruct (An i Hi) as [A1 A2]. split; intros pre x y post L I1 I2;
    assert (LL : (length pre + Datatypes.S (Datatypes.S (length post)) = k + k)%nat) by
     (pose proof (inr_len _ _ I1) as X; rewrite Sh, !app_length, !repeat_length in X; cbn [length] in X; lia).
  - set (p1 := firstn (k - i - 2) post). set (p2 := skipn (k - i - 2) post). assert (EP : post = (p1 ++ p2)%list) by (symmetry; apply firstn_skipn).
    assert (L1 : length p1 = (k - i - 2)%nat) by (unfold p1; rewrite firstn_length; lia).
    assert (L2 : length p2 = k) by (unfold p2; rewrite skipn_length; lia).
    clearbody p1 p2. subst post. change (x :: y :: p1 ++ p2)%list with ((x :: y :: p1) ++ p2)%list in *. change (y :: x :: p1 ++ p2)%list with ((y :: x :: p1) ++ p2)%list in *.
    rewrite !app_assoc in *.
    assert (K1 : length (pre ++ x :: y :: p1) = k) by (rewrite app_length; cbn [length]; lia).
    assert (K2 : length (pre ++ y :: x :: p1) = k) by (rewrite app_length; cbn [length]; lia).
    rewrite <- !Sw by assumption. rewrite Sh in I1, I2. apply inr_turn in I1, I2; try assumption. rewrite <- A in I1, I2. rewrite app_assoc in I1, I2 |- *. rewrite app_assoc.
    apply A2; [rewrite app_length; lia|assumption|assumption].
  - set (p1 := firstn k pre). set (p2 := skipn k pre). assert (EP : pre = (p1 ++ p2)%list) by (symmetry; apply firstn_skipn).
    assert (L1 : length p1 = k) by (unfold p1; rewrite firstn_length; lia).
    assert (L2 : length p2 = i) by (unfold p2; rewrite skipn_length; lia).
    clearbody p1 p2. subst pre. rewrite <- !app_assoc in *.
    rewrite <- !Sw by assumption. rewrite Sh in I1, I2. apply inr_turn in I1, I2; try assumption. rewrite <- A in I1, I2. rewrite <- app_assoc in I1, I2 |- *. rewrite <- app_assoc. cbn [app] in *.
    apply A1; assumption.
Qed.
Lemma swapped_teq k no nv T T' Tw : swapped k T Tw -> swapped k T' Tw -> shape Tw = (repeat no k ++ repeat nv k)%list -> teq T T'.
Proof.
  intros A B H. pose proof (swapped_shape _ _ _ _ _ A H) as S1. pose proof (swapped_shape _ _ _ _ _ B H) as S2. split; [congruence|].
  intros idx I. set (l1 := firstn k idx). set (l2 := skipn k idx). assert (E : idx = (l1 ++ l2)%list) by (symmetry; apply firstn_skipn).
  assert (L : length l1 = k). { unfold l1. rewrite firstn_length. pose proof (inr_len _ _ I) as X. rewrite S1, app_length, !repeat_length in X. lia. }
  rewrite E in *. rewrite <- (proj2 A), <- (proj2 B); try assumption; [reflexivity|]. rewrite S2, <- S1. exact I.
Qed.

(** ** Spin-exchanged inputs *)
Section Flip.
  Variables no nv : nat.
  Variable S : spinmap.
  Hypothesis HS : spin_ok no nv S.
  Let S' := flipS S.
  Lemma flip_same n ss T b : block_amp S no nv (map opp ss) T b -> n = length ss -> block_amp S' no nv ss T b.
  Proof. intros H _. apply block_flip in H. rewrite map_map in H. erewrite map_ext in H; [rewrite map_id in H; exact H|]. apply opp_opp. Qed.
  Lemma flip_mixed p ss ss' T b b' : is_amp (length ss') (2 * no) (2 * nv) T -> Permutation p (seq 0 (length ss')) ->
    ss = map (fun i => opp (nth i ss' Dn)) p -> block_amp S no nv ss T b -> renumbered p b b' -> block_amp S' no nv ss' T b'.
  Proof.
    intros HT P E B R. apply (flip_same (length ss') ss'); [|reflexivity]. eapply (block_renumbered no nv S p ss); rewrite ?map_length; try eassumption.
    rewrite E. apply map_ext. intros i. change Up with (opp Dn). rewrite map_nth. reflexivity.
  Qed.
  Lemma flip1 T a b : blocks1 S no nv T a b -> blocks1 S' no nv T b a.
  Proof. intros [A B]. split; apply (flip_same 1); auto. Qed.
  Lemma flip2 T aa bb ab ba : is_amp 2 (2 * no) (2 * nv) T -> blocks2 S no nv T aa bb ab -> renumbered [1;0]%nat ab ba -> blocks2 S' no nv T bb aa ba.
  Proof.
    intros HT [A [B C]] R. split; [|split]; [apply (flip_same 2); auto|apply (flip_same 2); auto|].
    eapply (flip_mixed [1;0]%nat [Up;Dn] [Up;Dn]); try eassumption; [cbn; constructor|reflexivity].
  Qed.
  Lemma flip3 T aaa aab abb bbb baa bba : is_amp 3 (2 * no) (2 * nv) T -> blocks3 S no nv T aaa aab abb bbb ->
    renumbered [2;0;1]%nat abb bba -> renumbered [1;2;0]%nat aab baa -> blocks3 S' no nv T bbb bba baa aaa.
  Proof.
    intros HT [A [B [C D]]] R1 R2. split; [|split; [|split]]; [apply (flip_same 3); auto| | |apply (flip_same 3); auto].
    - eapply (flip_mixed [2;0;1]%nat [Up;Dn;Dn] [Up;Up;Dn]); try eassumption; [|reflexivity].
      cbn [length seq]. eapply perm_trans; [apply perm_swap|]. apply perm_skip. apply perm_swap.
    - eapply (flip_mixed [1;2;0]%nat [Up;Up;Dn] [Up;Dn;Dn]); try eassumption; [|reflexivity].
      cbn [length seq]. eapply perm_trans; [apply perm_skip, perm_swap|]. apply perm_swap.
  Qed.
  Lemma p3 : Permutation [3;0;1;2]%nat [0;1;2;3]%nat.
  Proof. change [3;0;1;2]%nat with ([3] ++ [0;1;2])%nat%list. eapply perm_trans; [apply Permutation_app_comm|]. reflexivity. Qed.
  Lemma p1 : Permutation [1;2;3;0]%nat [0;1;2;3]%nat.
  Proof. change [1;2;3;0]%nat with ([1;2;3] ++ [0])%nat%list. eapply perm_trans; [apply Permutation_app_comm|]. reflexivity. Qed.
  Lemma p2 : Permutation [2;3;0;1]%nat [0;1;2;3]%nat.
  Proof. change [2;3;0;1]%nat with ([2;3] ++ [0;1])%nat%list. eapply perm_trans; [apply Permutation_app_comm|]. reflexivity. Qed.
  Lemma flip4 T aaaa aaab aabb abbb bbbb baaa bbaa bbba : is_amp 4 (2 * no) (2 * nv) T -> blocks4 S no nv T aaaa aaab aabb abbb bbbb ->
    renumbered [3;0;1;2]%nat abbb bbba -> renumbered [2;3;0;1]%nat aabb bbaa -> renumbered [1;2;3;0]%nat aaab baaa ->
    blocks4 S' no nv T bbbb bbba bbaa baaa aaaa.
  Proof.
    intros HT [A [B [C [D E]]]] R1 R2 R3. split; [|split; [|split; [|split]]]; [apply (flip_same 4); auto| | | |apply (flip_same 4); auto].
    - eapply (flip_mixed [3;0;1;2]%nat [Up;Dn;Dn;Dn] [Up;Up;Up;Dn]); try eassumption; [apply p3|reflexivity].
    - eapply (flip_mixed [2;3;0;1]%nat [Up;Up;Dn;Dn] [Up;Up;Dn;Dn]); try eassumption; [apply p2|reflexivity].
    - eapply (flip_mixed [1;2;3;0]%nat [Up;Up;Up;Dn] [Up;Dn;Dn;Dn]); try eassumption; [apply p1|reflexivity].
  Qed.
  Lemma flip2_ov T aa bb ab ba : is_amp_ov 2 (2 * no) (2 * nv) T -> blocks2_ov S no nv T aa bb ab -> renumbered [1;0]%nat ab ba -> blocks2_ov S' no nv T bb aa ba.
  Proof.
    intros HT [A [B C]] R. split; [|split]; [apply block_ov_flip in B; exact B|apply block_ov_flip in A; exact A|].
    assert (X : block_amp_ov S no nv [Dn;Up] T ba).
    { eapply (block_ov_renumbered no nv S [1;0]%nat [Up;Dn] [Dn;Up]); try eassumption; [cbn; constructor|reflexivity]. }
    apply block_ov_flip in X. exact X.
  Qed.
  Lemma flip_ham F G f_aa f_bb g_aaaa g_bbbb g_abab g_baba : spin_hamiltonian S no nv F G f_aa f_bb g_aaaa g_bbbb g_abab ->
    renumbered [1;0]%nat g_abab g_baba -> spin_hamiltonian S' no nv F G f_bb f_aa g_bbbb g_aaaa g_baba.
  Proof.
    intros [HF [HFc [HG [HGc [B1 [B2 [B3 [B4 B5]]]]]]]] [R1 R2].
    split; [exact HF|]. split; [apply (cons_full_flip no nv S HS); [apply HF|exact HFc]|]. split; [exact HG|].
    split; [apply (cons_full_flip no nv S HS); [apply HG|exact HGc]|].
    split; [apply full_flip in B2; exact B2|]. split; [apply full_flip in B1; exact B1|]. split; [apply full_flip in B4; exact B4|].
    split; [apply full_flip in B3; exact B3|]. split.
    - rewrite R1. apply B5.
    - intros idx I. rewrite R1 in I. destruct B5 as [Sg Dg]. pose proof (inr_len _ _ I) as L. rewrite Sg in L. cbn in L.
      destruct idx as [|p [|q [|r [|s [|? ?]]]]]; cbn in L; try discriminate.
      change [p; q; r; s] with ([p; q] ++ [r; s])%list. rewrite (R2 [p; q] [r; s]) by (try reflexivity; exact I). cbn [pick map nth app].
      rewrite Sg in I. cbn [length repeat] in I. inversion I as [|? ? ? ? Ip I1]; subst. inversion I1 as [|? ? ? ? Iq I2]; subst. inversion I2 as [|? ? ? ? Ir I3]; subst. inversion I3 as [|? ? ? ? Is I4]; subst.
      rewrite Dg by (rewrite Sg; repeat constructor; assumption). unfold zipw. cbn [combine map fst snd].
      unfold S'. rewrite !orb_flip. cbn [opp].
      destruct HG as [SG [AG _]]. destruct (AG O ltac:(lia)) as [A1 A2].
      assert (OL : forall s x, (x < no + nv)%nat -> (orb S no s x < 2 * no + 2 * nv)%nat).
      { intros s0 x Hx. unfold orb. destruct (Nat.ltb_spec x no).
        - enough (nth x (occ S s0) O < 2 * no)%nat by lia. apply (occ_lt no nv S HS s0), nth_In. rewrite (occ_len no nv S HS). assumption.
        - enough (nth (x - no) (vir S s0) O < 2 * nv)%nat by lia. apply (vir_lt no nv S HS s0), nth_In. rewrite (vir_len no nv S HS). lia. }
      pose proof (A1 [] (orb S no Up q) (orb S no Dn p) [orb S no Up s; orb S no Dn r] eq_refl ltac:(rewrite SG; repeat constructor; apply OL; assumption) ltac:(rewrite SG; repeat constructor; apply OL; assumption)) as X1.
      pose proof (A2 [orb S no Dn p; orb S no Up q] (orb S no Up s) (orb S no Dn r) [] eq_refl ltac:(rewrite SG; repeat constructor; apply OL; assumption) ltac:(rewrite SG; repeat constructor; apply OL; assumption)) as X2.
      cbn [app] in X1, X2. rewrite X1, X2. ring.
  Qed.
  (** results *)
  Lemma back1 R R' a b a' b' : shape R = (repeat (2 * nv)%nat 1 ++ repeat (2 * no)%nat 1)%list -> teq R' R -> blocks1 S no nv R a b -> blocks1 S' no nv R' a' b' -> teq a' b /\ teq b' a.
  Proof.
    intros Sh E [A B] [A' B'].
    assert (Sh' : shape R' = (repeat (2 * nv)%nat 1 ++ repeat (2 * no)%nat 1)%list) by (rewrite (proj1 E); exact Sh).
    split.
    - eapply block_unique; [|exact B]. eapply block_teq; [exact HS|exact Sh'|exact E|]. apply unflip. exact A'.
    - eapply block_unique; [|exact A]. eapply block_teq; [exact HS|exact Sh'|exact E|]. apply unflip. exact B'.
  Qed.
  Lemma back2 R R' aa bb ab aa' bb' ab' : is_amp 2 (2 * no) (2 * nv) R -> teq R' R -> blocks2 S no nv R aa bb ab -> blocks2 S' no nv R' aa' bb' ab' ->
    teq aa' bb /\ teq bb' aa /\ renumbered [1;0]%nat ab ab'.
  Proof.
    intros HR E [A [B C]] [A' [B' C']]. pose proof (proj1 HR) as Sh.
    assert (Sh' : shape R' = (repeat (2 * nv)%nat 2 ++ repeat (2 * no)%nat 2)%list) by (rewrite (proj1 E); exact Sh).
    split; [|split].
    - eapply block_unique; [|exact B]. eapply block_teq; [exact HS|exact Sh'|exact E|]. apply unflip. exact A'.
    - eapply block_unique; [|exact A]. eapply block_teq; [exact HS|exact Sh'|exact E|]. apply unflip. exact B'.
    - eapply (blocks_renumbered no nv S [1;0]%nat [Up;Dn] [Dn;Up]); try eassumption; [cbn; constructor|reflexivity|].
      eapply block_teq; [exact HS|exact Sh'|exact E|]. apply unflip. exact C'.
  Qed.
  Lemma back3 R R' aaa aab abb bbb aaa' aab' abb' bbb' : is_amp 3 (2 * no) (2 * nv) R -> teq R' R -> blocks3 S no nv R aaa aab abb bbb -> blocks3 S' no nv R' aaa' aab' abb' bbb' ->
    teq aaa' bbb /\ teq bbb' aaa /\ renumbered [2;0;1]%nat abb aab' /\ renumbered [1;2;0]%nat aab abb'.
  Proof.
    intros HR E [A [B [C D]]] [A' [B' [C' D']]]. pose proof (proj1 HR) as Sh.
    assert (Sh' : shape R' = (repeat (2 * nv)%nat 3 ++ repeat (2 * no)%nat 3)%list) by (rewrite (proj1 E); exact Sh).
    split; [|split; [|split]].
    - eapply block_unique; [|exact D]. eapply block_teq; [exact HS|exact Sh'|exact E|]. apply unflip. exact A'.
    - eapply block_unique; [|exact A]. eapply block_teq; [exact HS|exact Sh'|exact E|]. apply unflip. exact D'.
    - eapply (blocks_renumbered no nv S [2;0;1]%nat [Up;Dn;Dn] [Dn;Dn;Up]); try eassumption; [|reflexivity|].
      + cbn [length seq]. eapply perm_trans; [apply perm_swap|]. apply perm_skip. apply perm_swap.
      + eapply block_teq; [exact HS|exact Sh'|exact E|]. apply unflip. exact B'.
    - eapply (blocks_renumbered no nv S [1;2;0]%nat [Up;Up;Dn] [Dn;Up;Up]); try eassumption; [|reflexivity|].
      + cbn [length seq]. eapply perm_trans; [apply perm_skip, perm_swap|]. apply perm_swap.
      + eapply block_teq; [exact HS|exact Sh'|exact E|]. apply unflip. exact C'.
  Qed.
  Lemma back4 R R' aaaa aaab aabb abbb bbbb aaaa' aaab' aabb' abbb' bbbb' : is_amp 4 (2 * no) (2 * nv) R -> teq R' R ->
    blocks4 S no nv R aaaa aaab aabb abbb bbbb -> blocks4 S' no nv R' aaaa' aaab' aabb' abbb' bbbb' ->
    teq aaaa' bbbb /\ teq bbbb' aaaa /\ renumbered [3;0;1;2]%nat abbb aaab' /\ renumbered [2;3;0;1]%nat aabb aabb' /\ renumbered [1;2;3;0]%nat aaab abbb'.
  Proof.
    intros HR E [A [B [C [D F]]]] [A' [B' [C' [D' F']]]]. pose proof (proj1 HR) as Sh.
    assert (Sh' : shape R' = (repeat (2 * nv)%nat 4 ++ repeat (2 * no)%nat 4)%list) by (rewrite (proj1 E); exact Sh).
    split; [|split; [|split; [|split]]].
    - eapply block_unique; [|exact F]. eapply block_teq; [exact HS|exact Sh'|exact E|]. apply unflip. exact A'.
    - eapply block_unique; [|exact A]. eapply block_teq; [exact HS|exact Sh'|exact E|]. apply unflip. exact F'.
    - eapply (blocks_renumbered no nv S [3;0;1;2]%nat [Up;Dn;Dn;Dn] [Dn;Dn;Dn;Up]); try eassumption; [apply p3|reflexivity|].
      eapply block_teq; [exact HS|exact Sh'|exact E|]. apply unflip. exact B'.
    - eapply (blocks_renumbered no nv S [2;3;0;1]%nat [Up;Up;Dn;Dn] [Dn;Dn;Up;Up]); try eassumption; [apply p2|reflexivity|].
      eapply block_teq; [exact HS|exact Sh'|exact E|]. apply unflip. exact C'.
    - eapply (blocks_renumbered no nv S [1;2;3;0]%nat [Up;Up;Up;Dn] [Dn;Up;Up;Up]); try eassumption; [apply p1|reflexivity|].
      eapply block_teq; [exact HS|exact Sh'|exact E|]. apply unflip. exact D'.
  Qed.
End Flip.

(** ** C24.  The routines applied to the spin-exchanged inputs
    t_baba[a,b,i,j] = t_abab[b,a,j,i] is the mixed block seen with the spins exchanged; likewise for the other arrays. *)
Theorem C24_spin_exchange_ccd :
  forall no nv S F G f_aa f_bb g_aaaa g_bbbb g_abab g_baba T2 t_aaaa t_bbbb t_abab t_baba,
  spin_ok no nv S -> spin_hamiltonian S no nv F G f_aa f_bb g_aaaa g_bbbb g_abab -> renumbered [1;0]%nat g_abab g_baba ->
  spin_amp S 2 no nv T2 -> blocks2 S no nv T2 t_aaaa t_bbbb t_abab -> renumbered [1;0]%nat t_abab t_baba ->
  let args := [VT t_aaaa; VT t_bbbb; VT t_abab; VT f_aa; VT f_bb; VT g_aaaa; VT g_bbbb; VT g_abab; o_ no; o_ no; v_ no; v_ no; VNone] in
  let exch := [VT t_bbbb; VT t_aaaa; VT t_baba; VT f_bb; VT f_aa; VT g_bbbb; VT g_aaaa; VT g_baba; o_ no; o_ no; v_ no; v_ no; VNone] in
  exists r_aaaa r_bbbb r_abab x_aaaa x_bbbb x_abab,
    returns 0 [] Code_t2residEqns.ccd_t2_aaaa_residual args r_aaaa /\ returns 0 [] Code_t2residEqns.ccd_t2_aaaa_residual exch x_aaaa /\
    returns 0 [] Code_t2residEqns.ccd_t2_bbbb_residual args r_bbbb /\ returns 0 [] Code_t2residEqns.ccd_t2_bbbb_residual exch x_bbbb /\
    returns 0 [] Code_t2residEqns.ccd_t2_abab_residual args r_abab /\ returns 0 [] Code_t2residEqns.ccd_t2_abab_residual exch x_abab /\
    teq x_aaaa r_bbbb /\ teq x_bbbb r_aaaa /\ renumbered [1;0]%nat r_abab x_abab.
Proof.
  intros no nv S F G f_aa f_bb g_aaaa g_bbbb g_abab g_baba T2 t_aaaa t_bbbb t_abab t_baba HS HH RG HT HB RT args exch.
  destruct (C04_spin_ccd_residual no nv S F G _ _ _ _ _ T2 _ _ _ HS HH HT HB) as [R [r1 [r2 [r3 [H0 [H1 [H2 [H3 H4]]]]]]]].
  destruct (C04_spin_ccd_residual no nv (flipS S) F G _ _ _ _ _ T2 _ _ _ (flip_ok _ _ _ HS) (flip_ham no nv S HS _ _ _ _ _ _ _ _ HH RG) (amp_flip no nv S HS _ _ HT)
    (flip2 no nv S HS _ _ _ _ _ (proj1 HT) HB RT)) as [R' [x1 [x2 [x3 [J0 [J1 [J2 [J3 J4]]]]]]]].
  assert (R' = R) as -> by (unfold returns in *; congruence).
  destruct (ccd_runs (2 * no) (2 * nv) F G T2 (proj1 HH) (proj1 (proj2 (proj2 HH))) (proj1 HT)) as [R' [K0 KA]].
  assert (R' = R) as -> by (unfold returns in *; congruence).
  destruct (back2 no nv S HS R R _ _ _ _ _ _ KA (teq_refl R) H4 J4) as [Q1 [Q2 Q3]].
  exists r1, r2, r3, x1, x2, x3. repeat (split; [assumption|]). assumption.
Qed.
Print Assumptions C24_spin_exchange_ccd.
Example C24_ccd_instance := C24_spin_exchange_ccd 2 2 S22 _ _ _ _ _ _ _ _ _ _ _ _ _
  S22_ok (s_ham_ok S22 2 2) (renum_ok _ _) (s_amp_ok S22 2 2 2) (blocks2_ok S22 2 2 _) (renum_ok _ _).

Theorem C24_spin_exchange_ccsdt :
  forall no nv S F G f_aa f_bb g_aaaa g_bbbb g_abab g_baba T1 t_aa t_bb T2 t_aaaa t_bbbb t_abab t_baba
         T3 t_aaa t_aab t_abb t_bbb t_bba t_baa,
  spin_ok no nv S -> spin_hamiltonian S no nv F G f_aa f_bb g_aaaa g_bbbb g_abab -> renumbered [1;0]%nat g_abab g_baba ->
  spin_amp S 1 no nv T1 -> blocks1 S no nv T1 t_aa t_bb ->
  spin_amp S 2 no nv T2 -> blocks2 S no nv T2 t_aaaa t_bbbb t_abab -> renumbered [1;0]%nat t_abab t_baba ->
  spin_amp S 3 no nv T3 -> blocks3 S no nv T3 t_aaa t_aab t_abb t_bbb -> renumbered [2;0;1]%nat t_abb t_bba -> renumbered [1;2;0]%nat t_aab t_baa ->
  let args := [VT t_aa; VT t_bb; VT t_aaaa; VT t_bbbb; VT t_abab; VT t_aaa; VT t_aab; VT t_abb; VT t_bbb;
               VT f_aa; VT f_bb; VT g_aaaa; VT g_bbbb; VT g_abab; o_ no; o_ no; v_ no; v_ no] in
  let exch := [VT t_bb; VT t_aa; VT t_bbbb; VT t_aaaa; VT t_baba; VT t_bbb; VT t_bba; VT t_baa; VT t_aaa;
               VT f_bb; VT f_aa; VT g_bbbb; VT g_aaaa; VT g_baba; o_ no; o_ no; v_ no; v_ no] in
  exists r_aa r_bb x_aa x_bb r_aaaa r_bbbb r_abab x_aaaa x_bbbb x_abab r_aaa r_aab r_abb r_bbb x_aaa x_aab x_abb x_bbb,
    returns 0 [] Code_fullCCresidEqns.ccsdt_t1_aa_residual args r_aa /\ returns 0 [] Code_fullCCresidEqns.ccsdt_t1_aa_residual exch x_aa /\
    returns 0 [] Code_fullCCresidEqns.ccsdt_t1_bb_residual args r_bb /\ returns 0 [] Code_fullCCresidEqns.ccsdt_t1_bb_residual exch x_bb /\
    teq x_aa r_bb /\ teq x_bb r_aa /\
    returns 0 [] Code_fullCCresidEqns.ccsdt_t2_aaaa_residual args r_aaaa /\ returns 0 [] Code_fullCCresidEqns.ccsdt_t2_aaaa_residual exch x_aaaa /\
    returns 0 [] Code_fullCCresidEqns.ccsdt_t2_bbbb_residual args r_bbbb /\ returns 0 [] Code_fullCCresidEqns.ccsdt_t2_bbbb_residual exch x_bbbb /\
    returns 0 [] Code_fullCCresidEqns.ccsdt_t2_abab_residual args r_abab /\ returns 0 [] Code_fullCCresidEqns.ccsdt_t2_abab_residual exch x_abab /\
    teq x_aaaa r_bbbb /\ teq x_bbbb r_aaaa /\ renumbered [1;0]%nat r_abab x_abab /\
    returns 0 [] (unround_fn Code_fullCCresidEqns.ccsdt_t3_aaaaaa_residual) args r_aaa /\ returns 0 [] (unround_fn Code_fullCCresidEqns.ccsdt_t3_aaaaaa_residual) exch x_aaa /\
    returns 0 [] (unround_fn Code_fullCCresidEqns.ccsdt_t3_aabaab_residual) args r_aab /\ returns 0 [] (unround_fn Code_fullCCresidEqns.ccsdt_t3_aabaab_residual) exch x_aab /\
    returns 0 [] (unround_fn Code_fullCCresidEqns.ccsdt_t3_abbabb_residual) args r_abb /\ returns 0 [] (unround_fn Code_fullCCresidEqns.ccsdt_t3_abbabb_residual) exch x_abb /\
    returns 0 [] (unround_fn Code_fullCCresidEqns.ccsdt_t3_bbbbbb_residual) args r_bbb /\ returns 0 [] (unround_fn Code_fullCCresidEqns.ccsdt_t3_bbbbbb_residual) exch x_bbb /\
    teq x_aaa r_bbb /\ teq x_bbb r_aaa /\ renumbered [2;0;1]%nat r_abb x_aab /\ renumbered [1;2;0]%nat r_aab x_abb.
Proof.
  intros no nv S F G f_aa f_bb g_aaaa g_bbbb g_abab g_baba T1 t_aa t_bb T2 t_aaaa t_bbbb t_abab t_baba T3 t_aaa t_aab t_abb t_bbb t_bba t_baa
    HS HH RG HT1 HB1 HT2 HB2 R2 HT3 HB3 R3 R3' args exch.
  pose proof (flip_ok _ _ _ HS) as HS'. pose proof (flip_ham no nv S HS _ _ _ _ _ _ _ _ HH RG) as HH'.
  pose proof (amp_flip no nv S HS _ _ HT1) as HT1'. pose proof (amp_flip no nv S HS _ _ HT2) as HT2'. pose proof (amp_flip no nv S HS _ _ HT3) as HT3'.
  pose proof (flip1 no nv S _ _ _ HB1) as HB1'. pose proof (flip2 no nv S HS _ _ _ _ _ (proj1 HT2) HB2 R2) as HB2'.
  pose proof (flip3 no nv S HS _ _ _ _ _ _ _ (proj1 HT3) HB3 R3 R3') as HB3'.
  destruct (C06_spin_ccsdt_singles_doubles no nv S F G _ _ _ _ _ T1 _ _ _ T2 _ _ _ _ T3 _ _ _ _ _ HS HH HT1 HB1 (swap_t_ok 1 T1) HT2 HB2 (swap_t_ok 2 T2) HT3 HB3 (swap_t_ok 3 T3))
    as [A1w [A1 [p1_ [p2_ [A2w [A2 [p3_ [p4_ [p5_ [H1 [W1 [H2 [H3 [B1 [H4 [W2 [H5 [H6 [H7 B2]]]]]]]]]]]]]]]]]]].
  destruct (C06_spin_ccsdt_singles_doubles no nv (flipS S) F G _ _ _ _ _ T1 _ _ _ T2 _ _ _ _ T3 _ _ _ _ _ HS' HH' HT1' HB1' (swap_t_ok 1 T1) HT2' HB2' (swap_t_ok 2 T2) HT3' HB3' (swap_t_ok 3 T3))
    as [A1w' [A1' [q1_ [q2_ [A2w' [A2' [q3_ [q4_ [q5_ [J1 [W1' [J2 [J3 [B1' [J4 [W2' [J5 [J6 [J7 B2']]]]]]]]]]]]]]]]]]].
  destruct (C07_spin_ccsdt_triples_unrounded no nv S F G _ _ _ _ _ T1 _ _ _ T2 _ _ _ _ T3 _ _ _ _ _ HS HH HT1 HB1 (swap_t_ok 1 T1) HT2 HB2 (swap_t_ok 2 T2) HT3 HB3 (swap_t_ok 3 T3))
    as [A3w [A3 [p6_ [p7_ [p8_ [p9_ [K1 [W3 [K2 [K3 [K4 [K5 B3]]]]]]]]]]]].
  destruct (C07_spin_ccsdt_triples_unrounded no nv (flipS S) F G _ _ _ _ _ T1 _ _ _ T2 _ _ _ _ T3 _ _ _ _ _ HS' HH' HT1' HB1' (swap_t_ok 1 T1) HT2' HB2' (swap_t_ok 2 T2) HT3' HB3' (swap_t_ok 3 T3))
    as [A3w' [A3' [q6_ [q7_ [q8_ [q9_ [M1 [W3' [M2 [M3 [M4 [M5 B3']]]]]]]]]]]].
  assert (A1w' = A1w) as -> by (unfold returns in *; congruence).
  assert (A2w' = A2w) as -> by (unfold returns in *; congruence).
  assert (A3w' = A3w) as -> by (unfold returns in *; congruence).
  assert (SF : shape F = [2 * no + 2 * nv; 2 * no + 2 * nv]%nat) by apply HH.
  assert (SG : shape G = [2 * no + 2 * nv; 2 * no + 2 * nv; 2 * no + 2 * nv; 2 * no + 2 * nv]%nat) by (apply HH).
  assert (S1 : shape (swap_t 1 T1) = [2 * no; 2 * nv]%nat) by (rewrite (proj1 (swap_t_ok 1 T1)), (proj1 (proj1 HT1)); reflexivity).
  assert (S2 : shape (swap_t 2 T2) = [2 * no; 2 * no; 2 * nv; 2 * nv]%nat) by (rewrite (proj1 (swap_t_ok 2 T2)), (proj1 (proj1 HT2)); reflexivity).
  assert (S3 : shape (swap_t 3 T3) = [2 * no; 2 * no; 2 * no; 2 * nv; 2 * nv; 2 * nv]%nat) by (rewrite (proj1 (swap_t_ok 3 T3)), (proj1 (proj1 HT3)); reflexivity).
  destruct (sdt_t1 (2 * no) (2 * nv) F G _ _ _ T1 SF SG S1 S2 S3) as [Y [HY AY]]. assert (Y = A1w) as -> by (unfold returns in *; congruence).
  destruct (sdt_t2 (2 * no) (2 * nv) F G _ _ _ T1 SF SG S1 S2 S3) as [Y [HY' AY2]]. assert (Y = A2w) as -> by (unfold returns in *; congruence).
  destruct (sdt_t3u (2 * no) (2 * nv) F G _ _ _ T1 SF SG S1 S2 S3) as [Y [HY'' AY3]]. assert (Y = A3w) as -> by (unfold returns in *; congruence).
  destruct (back1 no nv S HS A1 A1' _ _ _ _ (swapped_shape 1 _ _ _ _ W1 AY) (swapped_teq 1 _ _ _ _ _ W1' W1 AY) B1 B1') as [Q1 Q2].
  destruct (back2 no nv S HS A2 A2' _ _ _ _ _ _ (swapped_amp 2 _ _ _ _ W2 AY2) (swapped_teq 2 _ _ _ _ _ W2' W2 (proj1 AY2)) B2 B2') as [Q3 [Q4 Q5]].
  destruct (back3 no nv S HS A3 A3' _ _ _ _ _ _ _ _ (swapped_amp 3 _ _ _ _ W3 AY3) (swapped_teq 3 _ _ _ _ _ W3' W3 (proj1 AY3)) B3 B3') as [Q6 [Q7 [Q8 Q9]]].
  exists p1_, p2_, q1_, q2_, p3_, p4_, p5_, q3_, q4_, q5_, p6_, p7_, p8_, p9_, q6_, q7_, q8_, q9_.
  repeat (split; [assumption|]). assumption.
Qed.
Print Assumptions C24_spin_exchange_ccsdt.
Example C24_ccsdt_instance := C24_spin_exchange_ccsdt 2 2 S22 _ _ _ _ _ _ _ _ _ _ _ _ _ _ _ _ _ _ _ _ _ _ _
  S22_ok (s_ham_ok S22 2 2) (renum_ok _ _) (s_amp_ok S22 2 2 1) (blocks1_ok S22 2 2 _) (s_amp_ok S22 2 2 2) (blocks2_ok S22 2 2 _) (renum_ok _ _)
  (s_amp_ok S22 2 2 3) (blocks3_ok S22 2 2 _) (renum_ok _ _) (renum_ok _ _).

Theorem C24_spin_exchange_ccdq :
  forall no nv S F G f_aa f_bb g_aaaa g_bbbb g_abab g_baba T2 t_aaaa t_bbbb t_abab t_baba
         T4 q_aaaa q_aaab q_aabb q_abbb q_bbbb q_bbba q_bbaa q_baaa,
  spin_ok no nv S -> spin_hamiltonian S no nv F G f_aa f_bb g_aaaa g_bbbb g_abab -> renumbered [1;0]%nat g_abab g_baba ->
  spin_amp S 2 no nv T2 -> blocks2 S no nv T2 t_aaaa t_bbbb t_abab -> renumbered [1;0]%nat t_abab t_baba ->
  spin_amp S 4 no nv T4 -> blocks4 S no nv T4 q_aaaa q_aaab q_aabb q_abbb q_bbbb ->
  renumbered [3;0;1;2]%nat q_abbb q_bbba -> renumbered [2;3;0;1]%nat q_aabb q_bbaa -> renumbered [1;2;3;0]%nat q_aaab q_baaa ->
  let args := [VT t_aaaa; VT t_bbbb; VT t_abab; VT q_aaaa; VT q_aaab; VT q_aabb; VT q_abbb; VT q_bbbb;
               VT f_aa; VT f_bb; VT g_aaaa; VT g_bbbb; VT g_abab; o_ no; o_ no; v_ no; v_ no] in
  let exch := [VT t_bbbb; VT t_aaaa; VT t_baba; VT q_bbbb; VT q_bbba; VT q_bbaa; VT q_baaa; VT q_aaaa;
               VT f_bb; VT f_aa; VT g_bbbb; VT g_aaaa; VT g_baba; o_ no; o_ no; v_ no; v_ no] in
  exists r_aaaa r_bbbb r_abab x_aaaa x_bbbb x_abab s_aaaa s_aaab s_aabb s_abbb s_bbbb y_aaaa y_aaab y_aabb y_abbb y_bbbb,
    returns 0 [] Code_ccdq_resids.ccdq_t2_aaaa_residual args r_aaaa /\ returns 0 [] Code_ccdq_resids.ccdq_t2_aaaa_residual exch x_aaaa /\
    returns 0 [] Code_ccdq_resids.ccdq_t2_bbbb_residual args r_bbbb /\ returns 0 [] Code_ccdq_resids.ccdq_t2_bbbb_residual exch x_bbbb /\
    returns 0 [] Code_ccdq_resids.ccdq_t2_abab_residual args r_abab /\ returns 0 [] Code_ccdq_resids.ccdq_t2_abab_residual exch x_abab /\
    teq x_aaaa r_bbbb /\ teq x_bbbb r_aaaa /\ renumbered [1;0]%nat r_abab x_abab /\
    returns 0 [] (unround_fn Code_ccdq_resids.ccdq_t4_aaaaaaaa_residual) args s_aaaa /\ returns 0 [] (unround_fn Code_ccdq_resids.ccdq_t4_aaaaaaaa_residual) exch y_aaaa /\
    returns 0 [] (unround_fn Code_ccdq_resids.ccdq_t4_aaabaaab_residual) args s_aaab /\ returns 0 [] (unround_fn Code_ccdq_resids.ccdq_t4_aaabaaab_residual) exch y_aaab /\
    returns 0 [] (unround_fn Code_ccdq_resids.ccdq_t4_aabbaabb_residual) args s_aabb /\ returns 0 [] (unround_fn Code_ccdq_resids.ccdq_t4_aabbaabb_residual) exch y_aabb /\
    returns 0 [] (unround_fn Code_ccdq_resids.ccdq_t4_abbbabbb_residual) args s_abbb /\ returns 0 [] (unround_fn Code_ccdq_resids.ccdq_t4_abbbabbb_residual) exch y_abbb /\
    returns 0 [] (unround_fn Code_ccdq_resids.ccdq_t4_bbbbbbbb_residual) args s_bbbb /\ returns 0 [] (unround_fn Code_ccdq_resids.ccdq_t4_bbbbbbbb_residual) exch y_bbbb /\
    teq y_aaaa s_bbbb /\ teq y_bbbb s_aaaa /\ renumbered [3;0;1;2]%nat s_abbb y_aaab /\ renumbered [2;3;0;1]%nat s_aabb y_aabb /\ renumbered [1;2;3;0]%nat s_aaab y_abbb.
Proof.
  intros no nv S F G f_aa f_bb g_aaaa g_bbbb g_abab g_baba T2 t_aaaa t_bbbb t_abab t_baba T4 q_aaaa q_aaab q_aabb q_abbb q_bbbb q_bbba q_bbaa q_baaa
    HS HH RG HT2 HB2 R2 HT4 HB4 R4 R4' R4'' args exch.
  pose proof (flip_ok _ _ _ HS) as HS'. pose proof (flip_ham no nv S HS _ _ _ _ _ _ _ _ HH RG) as HH'.
  pose proof (amp_flip no nv S HS _ _ HT2) as HT2'. pose proof (amp_flip no nv S HS _ _ HT4) as HT4'.
  pose proof (flip2 no nv S HS _ _ _ _ _ (proj1 HT2) HB2 R2) as HB2'.
  pose proof (flip4 no nv S HS _ _ _ _ _ _ _ _ _ (proj1 HT4) HB4 R4 R4' R4'') as HB4'.
  destruct (C08_spin_ccdq_doubles no nv S F G _ _ _ _ _ T2 _ _ _ _ T4 _ _ _ _ _ _ HS HH HT2 HB2 (swap_t_ok 2 T2) HT4 HB4 (swap_t_ok 4 T4))
    as [A2w [A2 [p3_ [p4_ [p5_ [H4 [W2 [H5 [H6 [H7 B2]]]]]]]]]].
  destruct (C08_spin_ccdq_doubles no nv (flipS S) F G _ _ _ _ _ T2 _ _ _ _ T4 _ _ _ _ _ _ HS' HH' HT2' HB2' (swap_t_ok 2 T2) HT4' HB4' (swap_t_ok 4 T4))
    as [A2w' [A2' [q3_ [q4_ [q5_ [J4 [W2' [J5 [J6 [J7 B2']]]]]]]]]].
  destruct (C08_spin_ccdq_quadruples_unrounded no nv S F G _ _ _ _ _ T2 _ _ _ _ T4 _ _ _ _ _ _ HS HH HT2 HB2 (swap_t_ok 2 T2) HT4 HB4 (swap_t_ok 4 T4))
    as [A4w [A4 [p6_ [p7_ [p8_ [p9_ [p10_ [K1 [W4 [K2 [K3 [K4 [K5 [K6 B4]]]]]]]]]]]]]].
  destruct (C08_spin_ccdq_quadruples_unrounded no nv (flipS S) F G _ _ _ _ _ T2 _ _ _ _ T4 _ _ _ _ _ _ HS' HH' HT2' HB2' (swap_t_ok 2 T2) HT4' HB4' (swap_t_ok 4 T4))
    as [A4w' [A4' [q6_ [q7_ [q8_ [q9_ [q10_ [M1 [W4' [M2 [M3 [M4 [M5 [M6 B4']]]]]]]]]]]]]].
  assert (A2w' = A2w) as -> by (unfold returns in *; congruence).
  assert (A4w' = A4w) as -> by (unfold returns in *; congruence).
  assert (SF : shape F = [2 * no + 2 * nv; 2 * no + 2 * nv]%nat) by apply HH.
  assert (SG : shape G = [2 * no + 2 * nv; 2 * no + 2 * nv; 2 * no + 2 * nv; 2 * no + 2 * nv]%nat) by (apply HH).
  assert (S2 : shape (swap_t 2 T2) = [2 * no; 2 * no; 2 * nv; 2 * nv]%nat) by (rewrite (proj1 (swap_t_ok 2 T2)), (proj1 (proj1 HT2)); reflexivity).
  assert (S4 : shape (swap_t 4 T4) = [2 * no; 2 * no; 2 * no; 2 * no; 2 * nv; 2 * nv; 2 * nv; 2 * nv]%nat) by (rewrite (proj1 (swap_t_ok 4 T4)), (proj1 (proj1 HT4)); reflexivity).
  destruct (dq_t2 (2 * no) (2 * nv) F G T2 _ T2 _ SF SG S2 S4) as [Y [HY AY2]]. assert (Y = A2w) as -> by (unfold returns in *; congruence).
  destruct (dq_t4u (2 * no) (2 * nv) F G T2 _ T2 _ SF SG S2 S4) as [Y [HY' AY4]]. assert (Y = A4w) as -> by (unfold returns in *; congruence).
  destruct (back2 no nv S HS A2 A2' _ _ _ _ _ _ (swapped_amp 2 _ _ _ _ W2 AY2) (swapped_teq 2 _ _ _ _ _ W2' W2 (proj1 AY2)) B2 B2') as [Q3 [Q4 Q5]].
  destruct (back4 no nv S HS A4 A4' _ _ _ _ _ _ _ _ _ _ (swapped_amp 4 _ _ _ _ W4 AY4) (swapped_teq 4 _ _ _ _ _ W4' W4 (proj1 AY4)) B4 B4') as [Q6 [Q7 [Q8 [Q9 Q10]]]].
  exists p3_, p4_, p5_, q3_, q4_, q5_, p6_, p7_, p8_, p9_, p10_, q6_, q7_, q8_, q9_, q10_.
  repeat (split; [assumption|]). assumption.
Qed.
Print Assumptions C24_spin_exchange_ccdq.
Example C24_ccdq_instance := C24_spin_exchange_ccdq 2 2 S22 _ _ _ _ _ _ _ _ _ _ _ _ _ _ _ _ _ _ _ _ _ _
  S22_ok (s_ham_ok S22 2 2) (renum_ok _ _) (s_amp_ok S22 2 2 2) (blocks2_ok S22 2 2 _) (renum_ok _ _)
  (s_amp_ok S22 2 2 4) (blocks4_ok S22 2 2 _) (renum_ok _ _) (renum_ok _ _) (renum_ok _ _).

Theorem C24_spin_exchange_ccdqf :
  forall no nv S F G f_aa f_bb g_aaaa g_bbbb g_abab g_baba T2 t_aaaa t_bbbb t_abab t_baba L2 l_aaaa l_bbbb l_abab l_baba,
  spin_ok no nv S -> spin_hamiltonian S no nv F G f_aa f_bb g_aaaa g_bbbb g_abab -> renumbered [1;0]%nat g_abab g_baba ->
  spin_amp S 2 no nv T2 -> blocks2 S no nv T2 t_aaaa t_bbbb t_abab -> renumbered [1;0]%nat t_abab t_baba ->
  spin_amp_ov S 2 no nv L2 -> blocks2_ov S no nv L2 l_aaaa l_bbbb l_abab -> renumbered [1;0]%nat l_abab l_baba ->
  let args := [spin_dict g_aaaa g_bbbb g_abab; spin_dict l_aaaa l_bbbb l_abab; spin_dict t_aaaa t_bbbb t_abab; o_ no; v_ no] in
  let exch := [spin_dict g_bbbb g_aaaa g_baba; spin_dict l_bbbb l_aaaa l_baba; spin_dict t_bbbb t_aaaa t_baba; o_ no; v_ no] in
  exists r_aaaa r_bbbb r_abab x_aaaa x_bbbb x_abab s_aaaa s_bbbb s_abab y_aaaa y_bbbb y_abab,
    returns 0 [] Code_modify_T2resid_T4Qf1.residQf1_aaaa args r_aaaa /\ returns 0 [] Code_modify_T2resid_T4Qf1.residQf1_aaaa exch x_aaaa /\
    returns 0 [] Code_modify_T2resid_T4Qf1.residQf1_bbbb args r_bbbb /\ returns 0 [] Code_modify_T2resid_T4Qf1.residQf1_bbbb exch x_bbbb /\
    returns 0 [] Code_modify_T2resid_T4Qf1.residQf1_abab args r_abab /\ returns 0 [] Code_modify_T2resid_T4Qf1.residQf1_abab exch x_abab /\
    teq x_aaaa r_bbbb /\ teq x_bbbb r_aaaa /\ renumbered [1;0]%nat r_abab x_abab /\
    returns 0 [] Code_modify_T2resid_T4Qf2.residQf2_aaaa args s_aaaa /\ returns 0 [] Code_modify_T2resid_T4Qf2.residQf2_aaaa exch y_aaaa /\
    returns 0 [] Code_modify_T2resid_T4Qf2.residQf2_bbbb args s_bbbb /\ returns 0 [] Code_modify_T2resid_T4Qf2.residQf2_bbbb exch y_bbbb /\
    returns 0 [] Code_modify_T2resid_T4Qf2.residQf2_abab args s_abab /\ returns 0 [] Code_modify_T2resid_T4Qf2.residQf2_abab exch y_abab /\
    teq y_aaaa s_bbbb /\ teq y_bbbb s_aaaa /\ renumbered [1;0]%nat s_abab y_abab.
Proof.
  intros no nv S F G f_aa f_bb g_aaaa g_bbbb g_abab g_baba T2 t_aaaa t_bbbb t_abab t_baba L2 l_aaaa l_bbbb l_abab l_baba HS HH RG HT HB RT HL HLB RL args exch.
  destruct (C11_spin_ccdqf_residuals no nv S F G _ _ _ _ _ T2 _ _ _ L2 _ _ _ HS HH HT HB HL HLB)
    as [A1 [p1_ [p2_ [p3_ [A2 [p4_ [p5_ [p6_ [H0 [H1 [H2 [H3 [B1 [H4 [H5 [H6 [H7 B2]]]]]]]]]]]]]]]]].
  destruct (C11_spin_ccdqf_residuals no nv (flipS S) F G _ _ _ _ _ T2 _ _ _ L2 _ _ _ (flip_ok _ _ _ HS) (flip_ham no nv S HS _ _ _ _ _ _ _ _ HH RG) (amp_flip no nv S HS _ _ HT)
    (flip2 no nv S HS _ _ _ _ _ (proj1 HT) HB RT) (amp_ov_flip no nv S HS _ _ HL) (flip2_ov no nv S HS _ _ _ _ _ (proj1 HL) HLB RL))
    as [A1' [q1_ [q2_ [q3_ [A2' [q4_ [q5_ [q6_ [J0 [J1 [J2 [J3 [B1' [J4 [J5 [J6 [J7 B2']]]]]]]]]]]]]]]]].
  assert (A1' = A1) as -> by (unfold returns in *; congruence). assert (A2' = A2) as -> by (unfold returns in *; congruence).
  pose proof (proj1 (proj2 (proj2 HH))) as HG.
  destruct (qf1_amp (2 * no) (2 * nv) G T2 L2 HG (proj1 HT) (proj1 HL)) as [Y [KY AY]]. apply call0_returns in H0 as C0. assert (Y = A1) as -> by congruence.
  destruct (qf2_amp (2 * no) (2 * nv) G T2 L2 HG (proj1 HT) (proj1 HL)) as [Y [KY' AY']]. apply call0_returns in H4 as C4. assert (Y = A2) as -> by congruence.
  destruct (back2 no nv S HS A1 A1 _ _ _ _ _ _ AY (teq_refl A1) B1 B1') as [Q1 [Q2 Q3]].
  destruct (back2 no nv S HS A2 A2 _ _ _ _ _ _ AY' (teq_refl A2) B2 B2') as [Q4 [Q5 Q6]].
  exists p1_, p2_, p3_, q1_, q2_, q3_, p4_, p5_, p6_, q4_, q5_, q6_. repeat (split; [assumption|]). assumption.
Qed.
Print Assumptions C24_spin_exchange_ccdqf.
Example C24_ccdqf_instance := C24_spin_exchange_ccdqf 2 2 S22 _ _ _ _ _ _ _ _ _ _ _ _ _ _ _ _ _ _
  S22_ok (s_ham_ok S22 2 2) (renum_ok _ _) (s_amp_ok S22 2 2 2) (blocks2_ok S22 2 2 _) (renum_ok _ _) (s_amp_ov_ok S22 2 2 2) (blocks2_ov_ok S22 2 2 _) (renum_ok _ _).
