(** C71: what DIIS does to the amplitudes in a calculation. *)
From Coq Require Import String Ascii List Arith ZArith QArith Qcanon Bool Lia.
From Verif Require Import Sums Tensor Interp Numpy Spec Diis P_diis Kernel P_kernel P_driver SlowCC SpinCC FullCC.
Import ListNotations.
Open Scope string_scope.
Open Scope Qc_scope.

(** ** Specification *)
(** All entries of the arrays stored under the names [ks], one after the other. *)
Definition entries (ks : list string) (d : dict) : list Qc :=
  concat (map (fun k => match slook k d with Some t => flatten t | None => [] end) ks).
Section Spec.
  Variable World : Type.
  Variable solve : solver.
  Variable resid : resid_fn -> dict -> dict -> World -> option (dict * World).
  Variable energy : energy_fn -> dict -> World -> option (Qc * World).
  Variable c : calc.
  (** the amplitudes that the residual routine makes of those of [s] (before any extrapolation) *)
  Definition update_of (s : kstate World) : option dict :=
    do l2 <- l2_of (amps World s); do rf <- resid_call c; do dw <- resid rf (amps World s) l2 (world World s); Some (fst dw).
  (** [st i]: the state after i passes, [ud i]: the amplitudes that the residual routine made in pass i, for K passes *)
  Definition history (K : nat) (st : nat -> kstate World) (ud : nat -> dict) : Prop :=
    forall i, (i < K)%nat -> (exists e, iteration World solve resid energy c (st i) = Some (st (S i), e)) /\ update_of (st i) = Some (ud (S i)).
  (** the amplitudes that pass i+1 is compared with: those after pass i, and [a0] for the first pass *)
  Definition before (a0 : dict) (st : nat -> kstate World) (i : nat) : dict := match i with O => a0 | S _ => amps World (st i) end.
  (** the squared norm of the weighted sum of the changes made in the passes k-m+1, ..., k *)
  Definition error_norm (a0 : dict) (st : nat -> kstate World) (ud : nat -> dict) (k m : nat) (w : nat -> Qc) : Qc :=
    let ks := vec_keys (cc_type c) in
    let err p := Sum j < m, w j * (nth p (entries ks (before a0 st (k - m + j))) 0 - nth p (entries ks (ud (k - m + 1 + j)%nat)) 0) in
    Sum p < (length (entries ks (ud k))), err p * err p.
  (** What pass k does to the amplitudes, with at most [n] passes combined. *)
  Definition extrapolated (n : nat) (a0 : dict) (st : nat -> kstate World) (ud : nat -> dict) (k : nat) : Prop :=
    let ks := vec_keys (cc_type c) in
    let new := entries ks (amps World (st k)) in
    let m := Nat.min n (k - diis_start c) in
    ((k <= diis_start c)%nat -> new = entries ks (ud k)) /\
    ((diis_start c < k)%nat -> exists w, (Sum j < m, w j) = 1 /\
       (forall p, nth p new 0 = Sum j < m, w j * nth p (entries ks (ud (k - m + 1 + j)%nat)) 0) /\
       forall u, (Sum j < m, u j) = 1 -> error_norm a0 st ud k m w <= error_norm a0 st ud k m u) /\
    (forall x, ~ In x ks -> slook x (amps World (st k)) = slook x (ud k)) /\
    (forall x, In x ks -> option_map shape (slook x (amps World (st k))) = option_map shape (slook x (ud k))).
End Spec.

(** ** Flattening *)
Lemma map_ravel sh : map (ravel sh) (all_idx sh) = seq 0 (size sh).
Proof.
  induction sh as [|n r IH]; [reflexivity|]. cbn [all_idx size fold_right]. fold (size r).
  assert (G : forall m n s, map (ravel (m :: r)) (flat_map (fun i => map (cons i) (all_idx r)) (seq s n)) = seq (s * size r) (n * size r)).
  { clear n. intros m. assert (RN : forall i x, ravel (m :: r) (i :: x) = (i * size r + ravel r x)%nat) by reflexivity.
    induction n as [|n IHn]; intros s; [reflexivity|]. cbn [seq flat_map]. rewrite map_app, (IHn (S s)), map_map.
    rewrite (map_ext _ (fun x => s * size r + ravel r x)%nat) by (intros x; apply RN).
    rewrite <- (map_map (ravel r) (fun y => s * size r + y)%nat), IH.
    assert (SH : forall a b k, map (fun y => a + y)%nat (seq b k) = seq (a + b) k).
    { intros a b k. revert b. induction k as [|k IHk]; intros b; [reflexivity|]. cbn [seq map]. rewrite IHk. f_equal. f_equal. lia. }
    rewrite SH, Nat.add_0_r. cbn [Nat.mul]. rewrite seq_app. f_equal. f_equal. lia. }
  rewrite (G n n 0%nat). reflexivity.
Qed.
Lemma flatten_reshape sh v t : reshape sh v = Some t -> flatten t = v /\ shape t = sh.
Proof.
  unfold reshape. destruct (Nat.eqb_spec (length v) (size sh)) as [L|]; [|discriminate]. intros H. injection H as <-. split; [|reflexivity].
  unfold flatten. cbn [shape data]. rewrite <- (map_map (ravel sh) (fun p => nth p v 0)), map_ravel, <- L. clear L sh.
  assert (G : forall (u pre : list Qc), map (fun p => nth p (pre ++ u)%list 0) (seq (length pre) (length u)) = u).
  { induction u as [|x u IH]; intros pre; [reflexivity|]. cbn [length seq map]. f_equal; [rewrite app_nth2, Nat.sub_diag by lia; reflexivity|].
    specialize (IH (pre ++ [x])%list). rewrite app_length, <- app_assoc in IH. cbn [length app] in IH. rewrite Nat.add_1_r in IH. exact IH. }
  exact (G v []).
Qed.
Lemma vectorise_entries ks d v : vectorise ks d = Some v -> v = entries ks d.
Proof.
  unfold vectorise, entries, hstack. revert v. induction ks as [|k ks IH]; intros v; cbn [omap obind map concat].
  - intros H. injection H as <-. reflexivity.
  - destruct (slook k d) as [t|]; cbn [obind]; [|discriminate]. destruct (omap _ ks) as [ts|]; cbn [obind] in *; [|discriminate].
    intros H. injection H as <-. cbn [map concat]. rewrite (IH _ eq_refl). reflexivity.
Qed.
Lemma entries_ext ks d d' : (forall k, In k ks -> slook k d = slook k d') -> entries ks d = entries ks d'.
Proof. intros H. unfold entries. f_equal. apply map_ext_in. intros k I. rewrite (H k I). reflexivity. Qed.
Lemma skipn_skipn' {A} (l : list A) : forall a b, skipn a (skipn b l) = skipn (a + b) l.
Proof.
  intros a b. revert l. induction b as [|b IH]; intros l; [rewrite Nat.add_0_r; reflexivity|]. rewrite Nat.add_succ_r. destruct l as [|x l]; [destruct a; reflexivity|]. cbn [skipn]. apply IH.
Qed.
Lemma unvectorise_entries ks : NoDup ks -> ks <> [] -> forall off v d d', unvectorise ks off v d = Some d' ->
  entries ks d' = skipn off v /\ (forall k, ~ In k ks -> slook k d' = slook k d) /\
  (forall k, In k ks -> option_map shape (slook k d') = option_map shape (slook k d)).
Proof.
  induction 1 as [|k ks HN ND IH]; [congruence|]. intros _ off v d d'. destruct ks as [|k2 ks].
  - cbn [unvectorise]. destruct (slook k d) as [t|] eqn:Ek; cbn [obind]; [|discriminate]. destruct (reshape (shape t) (vfrom off v)) as [t'|] eqn:ER; cbn [obind]; [|discriminate].
    intros H. injection H as <-. destruct (flatten_reshape _ _ _ ER) as [F S]. split; [|split].
    + unfold entries. cbn [map concat]. rewrite slook_sset_same, F, app_nil_r. reflexivity.
    + intros k' N. apply slook_sset_other. intros E. apply N. left. exact E.
    + intros k' [<-|[]]. rewrite slook_sset_same, Ek. cbn. rewrite S. reflexivity.
  - change (unvectorise (k :: k2 :: ks) off v d) with
      (do t <- slook k d; do t' <- reshape (shape t) (vslice off (off + size (shape t)) v); unvectorise (k2 :: ks) (off + size (shape t)) v (sset k t' d)).
    destruct (slook k d) as [t|] eqn:Ek; cbn [obind]; [|discriminate]. destruct (reshape (shape t) (vslice _ _ v)) as [t'|] eqn:ER; cbn [obind]; [|discriminate].
    intros H. destruct (flatten_reshape _ _ _ ER) as [F S]. destruct (IH ltac:(discriminate) _ _ _ _ H) as [H1 [H2 H3]].
    assert (Ek' : slook k d' = Some t') by (rewrite (H2 k HN); apply slook_sset_same).
    split; [|split].
    + change (entries (k :: k2 :: ks) d') with ((match slook k d' with Some t => flatten t | None => [] end) ++ entries (k2 :: ks) d')%list.
      rewrite Ek', F, H1. unfold vslice. replace (off + size (shape t) - off)%nat with (size (shape t)) by lia.
      rewrite Nat.add_comm, <- skipn_skipn'. apply firstn_skipn.
    + intros k' N. rewrite (H2 k') by (intros I; apply N; right; exact I). apply slook_sset_other. intros E. apply N. left. exact E.
    + intros k' [<-|I]; [rewrite Ek', Ek; cbn; rewrite S; reflexivity|]. rewrite (H3 k' I).
      destruct (string_dec k k') as [<-|N]; [contradiction|]. rewrite slook_sset_other by exact N. reflexivity.
Qed.

(** ** Sequences of DIIS steps *)
Lemma diis_calls_snoc solve x e : forall l d, diis_calls solve d (l ++ [(x, e)]) =
  do rd <- diis_calls solve d l; do vd <- compute_new_vec solve (snd rd) x e; Some ((fst rd ++ [fst vd])%list, snd vd).
Proof.
  induction l as [|[y f] l IH]; intros d; cbn [app diis_calls].
  - cbn [obind fst snd]. destruct (compute_new_vec solve d x e) as [vd|]; reflexivity.
  - destruct (compute_new_vec solve d y f) as [vd|]; cbn [obind]; [|reflexivity]. rewrite IH. destruct (diis_calls solve (snd vd) l) as [rd|]; cbn [obind fst snd]; [|reflexivity].
    destruct (compute_new_vec solve (snd rd) x e); reflexivity.
Qed.
Lemma compute_idx solve d x e v d' : compute_new_vec solve d x e = Some (v, d') -> iter_idx d' = S (iter_idx d) /\ start_iter d' = start_iter d.
Proof.
  unfold compute_new_vec. destruct (Nat.ltb _ _); [intros H; injection H as <- <-; split; reflexivity|].
  destruct (if Nat.ltb _ _ then _ else _) as [pv ev]. destruct (get_bmat _ _); cbn [obind]; [|discriminate]. destruct (solve _ _ _); cbn [obind]; [|discriminate].
  destruct (combination _ _); cbn [obind]; [|discriminate]. intros H. injection H as <- <-. split; reflexivity.
Qed.
Lemma lastn_seq n s k : lastn n (seq s k) = seq (s + (k - n)) (Nat.min n k).
Proof.
  unfold lastn. rewrite seq_length. assert (G : forall j s k, (j <= k)%nat -> skipn j (seq s k) = seq (s + j) (k - j)).
  { induction j as [|j IH]; intros s' k' H; [rewrite Nat.add_0_r, Nat.sub_0_r; reflexivity|]. destruct k' as [|k']; [lia|]. cbn [seq skipn Nat.sub]. rewrite IH by lia. f_equal. lia. }
  rewrite G by lia. f_equal. lia.
Qed.
Lemma skipn_seq j : forall s k, skipn j (seq s k) = seq (s + j) (k - j).
Proof.
  induction j as [|j IH]; intros s k; [rewrite Nat.add_0_r, Nat.sub_0_r; reflexivity|]. destruct k as [|k]; [reflexivity|]. cbn [seq skipn Nat.sub]. rewrite IH. f_equal. lia.
Qed.
Lemma skipn_map' {A B} (f : A -> B) : forall j l, skipn j (map f l) = map f (skipn j l).
Proof. induction j as [|j IH]; intros [|x l]; cbn; auto. Qed.
Lemma lastn_map {A B} (f : A -> B) n l : lastn n (map f l) = map f (lastn n l).
Proof. unfold lastn. rewrite map_length. apply skipn_map'. Qed.

Section Proof_.
  Variable World : Type.
  Variable solve : solver.
  Variable resid : resid_fn -> dict -> dict -> World -> option (dict * World).
  Variable energy : energy_fn -> dict -> World -> option (Qc * World).
  Variable c : calc.
  Variable n : nat.
  Variable a0 : dict.
  Variables (st : nat -> kstate World) (ud : nat -> dict).
  Variable K : nat.
  Notation ks := (vec_keys (cc_type c)).
  Notation bf := (before World a0 st).
  Hypothesis HN : diis_size c = Some n.
  Hypothesis HH : history World solve resid energy c K st ud.
  Hypothesis H0 : dstate World (st 0) = diis_new n (diis_start c).
  Hypothesis HO : old_vec World (st 0) = entries ks a0.
  Definition V i := entries ks (ud i).
  Definition E i := zipw Qcminus (entries ks (bf (i - 1))) (V i).
  Definition calls k := map (fun i => (V i, E i)) (seq 1 k).
  Lemma ks_ne : ks <> [].
  Proof using. unfold vec_keys. destruct (contains _ _); [discriminate|]. destruct (contains _ _); discriminate. Qed.
  (** one pass *)
  Lemma one k : (k < K)%nat -> old_vec World (st k) = entries ks (bf k) ->
    exists v nd, compute_new_vec solve (dstate World (st k)) (V (S k)) (E (S k)) = Some (v, nd) /\ dstate World (st (S k)) = nd /\
      old_vec World (st (S k)) = v /\ entries ks (amps World (st (S k))) = v /\ length (entries ks (bf k)) = length (V (S k)) /\
      (forall x, ~ In x ks -> slook x (amps World (st (S k))) = slook x (ud (S k))) /\
      (forall x, In x ks -> option_map shape (slook x (amps World (st (S k)))) = option_map shape (slook x (ud (S k)))).
  Proof using HN HH.
    intros HK HOk. destruct (HH k HK) as [[e HI] HU]. unfold iteration in HI. unfold update_of in HU.
    destruct (l2_of (amps World (st k))) as [l2|]; cbn [obind] in HI, HU; [|discriminate]. destruct (resid_call c) as [rf|]; cbn [obind] in HI, HU; [|discriminate].
    destruct (resid rf (amps World (st k)) l2 (world World (st k))) as [[d w]|]; cbn [obind fst snd] in HI, HU; [|discriminate]. injection HU as EU. subst d.
    unfold diis_block in HI at 1. rewrite HN in HI. cbn [amps old_vec dstate l2amps world] in HI.
    destruct (vectorise ks (ud (S k))) as [v|] eqn:EV; cbn [obind] in HI; [|discriminate]. apply vectorise_entries in EV. fold (V (S k)) in EV. subst v.
    rewrite HOk in HI. destruct (vbin Qcminus (entries ks (bf k)) (V (S k))) as [er|] eqn:EB; cbn [obind] in HI; [|discriminate].
    unfold vbin in EB. destruct (Nat.eqb_spec (length (entries ks (bf k))) (length (V (S k)))) as [L|]; [|discriminate]. injection EB as <-.
    assert (EE : zipw Qcminus (entries ks (bf k)) (V (S k)) = E (S k)) by (unfold E; rewrite Nat.sub_succ, Nat.sub_0_r; reflexivity). rewrite EE in HI.
    destruct (compute_new_vec solve (dstate World (st k)) (V (S k)) (E (S k))) as [[v nd]|] eqn:EC; cbn [obind fst snd] in HI; [|discriminate].
    destruct (unvectorise ks 0 v (ud (S k))) as [d2|] eqn:EU; cbn [obind] in HI; [|discriminate]. cbn [amps old_vec dstate l2amps world] in HI.
    destruct (energy_call c) as [ef|]; cbn [obind] in HI; [|discriminate]. destruct (energy ef d2 w) as [[e1 w1]|]; cbn [obind fst snd] in HI; [|discriminate].
    injection HI as HI _. exists v, nd. rewrite <- HI. cbn [amps old_vec dstate]. destruct (unvectorise_entries ks (vec_keys_nodup _) ks_ne 0 v (ud (S k)) d2 EU) as [U1 [U2 U3]]. auto 10.
  Qed.
  Lemma trace k : (k <= K)%nat -> (exists outs, diis_calls solve (diis_new n (diis_start c)) (calls k) = Some (outs, dstate World (st k))) /\
    old_vec World (st k) = entries ks (bf k) /\ iter_idx (dstate World (st k)) = k /\ start_iter (dstate World (st k)) = diis_start c.
  Proof using HN HH H0 HO.
    induction k as [|k IH]; intros HK.
    - split; [exists []; rewrite H0; reflexivity|]. rewrite H0. split; [exact HO|split; reflexivity].
    - destruct IH as [[outs IC] [IO [II IS]]]; [lia|]. destruct (one k ltac:(lia) IO) as [v [nd [EC [ED [EO [EA _]]]]]].
      destruct (compute_idx _ _ _ _ _ _ EC) as [X1 X2]. split; [|split; [|split]].
      + exists (outs ++ [v])%list. unfold calls. rewrite seq_S, map_app. cbn [map]. rewrite diis_calls_snoc. fold (calls k). rewrite IC. cbn [obind fst snd]. cbn [Nat.add]. rewrite EC. cbn [obind fst snd]. rewrite ED. reflexivity.
      + cbn [before]. congruence.
      + rewrite ED, X1, II. reflexivity.
      + rewrite ED, X2. exact IS.
  Qed.
End Proof_.

(** C71.  In a calculation with DIIS, up to the start iteration a pass leaves the amplitudes that the residual routine
    made.  After it, with m the number of passes since then, at most [n], the amplitudes left by pass k are a weighted
    sum of those that the residual routine made in the passes k-m+1, ..., k, with weights that sum to one and, among
    all such weights, give the smallest norm of the weighted sum of the changes made in these passes.  The arrays keep
    their shapes, and arrays that are not amplitudes of the method are those of the residual routine. *)
Theorem C71_diis_run : forall World solve resid energy c n a0 st ud K,
  exact_solver solve -> diis_size c = Some n -> (1 <= n)%nat -> history World solve resid energy c K st ud ->
  dstate World (st 0%nat) = diis_new n (diis_start c) -> old_vec World (st 0%nat) = entries (vec_keys (cc_type c)) a0 ->
  forall k, (1 <= k)%nat -> (k <= K)%nat -> extrapolated World c n a0 st ud k.
Proof.
  intros World solve resid energy c n a0 st ud K HS HN Hn HH H0 HO k H1k HK.
  destruct k as [|k]; [lia|]. clear H1k.
  unfold extrapolated. set (ks := vec_keys (cc_type c)). set (new := entries ks (amps World (st (S k)))). set (m := Nat.min n (S k - diis_start c)).
  pose proof (trace World solve resid energy c n a0 st ud K HN HH H0 HO) as T.
  destruct (T k ltac:(lia)) as [[outs TC] [TO [TI TS]]]. destruct (T (S k) HK) as [[outs' TC'] _].
  destruct (one World solve resid energy c n a0 st ud K HN HH k ltac:(lia) TO) as [v [nd [EC [ED [EO [EA [EL [EK ES]]]]]]]].
  fold ks in EA. fold new in EA. split; [|split; [|split; [exact EK|exact ES]]].
  - intros L. unfold compute_new_vec in EC. rewrite TI, TS in EC. rewrite (proj2 (Nat.ltb_lt k (diis_start c))) in EC by lia. injection EC as <- _. exact EA.
  - intros L. destruct (C28_diis_history _ _ _ _ _ _ Hn TC) as [_ [_ [P1 [P2 _]]]]. destruct (C28_diis_history _ _ _ _ _ _ Hn TC') as [_ [_ [P1' [P2' _]]]].
    assert (HF : forall j, map fst (calls World c a0 st ud j) = map (V c ud) (seq 1 j)) by (intros; unfold calls; rewrite map_map; reflexivity).
    assert (HG : forall j, map snd (calls World c a0 st ud j) = map (E World c a0 st ud) (seq 1 j)) by (intros; unfold calls; rewrite map_map; reflexivity).
    assert (LL : length (prev_vecs (dstate World (st k))) = length (error_vecs (dstate World (st k)))).
    { rewrite P1, P2, HF, HG, !skipn_map', !lastn_map, !map_length. reflexivity. }
    rewrite HF, skipn_map', skipn_seq, lastn_map, lastn_seq in P1'. rewrite HG, skipn_map', skipn_seq, lastn_map, lastn_seq in P2'. fold m in P1', P2'.
    replace (1 + diis_start c + (S k - diis_start c - n))%nat with (S k - m + 1)%nat in P1', P2' by (unfold m; lia).
    assert (SI : (start_iter (dstate World (st k)) <= iter_idx (dstate World (st k)))%nat) by lia.
    destruct (C27_diis_extrapolation _ _ _ _ _ _ HS SI LL EC) as [w [W1 [W2 [W3 [W4 [W5 [[Ln [W6 W7]] _]]]]]]].
    rewrite ED in P1', P2'. rewrite P1' in W3, W5, W7. rewrite P2' in W6, W7. rewrite map_length, seq_length in W3, W7.
    assert (Hm : (1 <= m)%nat) by (unfold m; lia).
    assert (NV : forall j, (j < m)%nat -> nth j (map (V c ud) (seq (S k - m + 1) m)) [] = V c ud (S k - m + 1 + j)).
    { intros j Hj. rewrite (nth_indep _ [] (V c ud 0)) by (rewrite map_length, seq_length; exact Hj). rewrite map_nth, seq_nth by exact Hj. reflexivity. }
    assert (NE : forall j, (j < m)%nat -> nth j (map (E World c a0 st ud) (seq (S k - m + 1) m)) [] = E World c a0 st ud (S k - m + 1 + j)).
    { intros j Hj. rewrite (nth_indep _ [] (E World c a0 st ud 0)) by (rewrite map_length, seq_length; exact Hj). rewrite map_nth, seq_nth by exact Hj. reflexivity. }
    assert (HE : forall i p, (i < K)%nat -> nth p (E World c a0 st ud (S i)) 0 = nth p (entries ks (before World a0 st i)) 0 - nth p (entries ks (ud (S i))) 0 /\ length (E World c a0 st ud (S i)) = length (V c ud (S i))).
    { intros i p Hi. destruct (T i ltac:(lia)) as [_ [TOi _]]. destruct (one World solve resid energy c n a0 st ud K HN HH i Hi TOi) as [_ [_ [_ [_ [_ [_ [ELi _]]]]]]].
      unfold E. rewrite Nat.sub_succ, Nat.sub_0_r. split.
      - apply zipw_nth; [exact ELi|ring].
      - unfold zipw. rewrite map_length, combine_length, ELi. apply Nat.min_id. }
    assert (HL : Ln = length (entries ks (ud (S k)))).
    { change (entries ks (ud (S k))) with (V c ud (S k)). rewrite <- (proj2 (HE k 0%nat ltac:(lia))). symmetry. apply W6. apply in_map. apply in_seq. lia. }
    assert (NW : forall u, norm2 Ln u (map (E World c a0 st ud) (seq (S k - m + 1) m)) = error_norm World c a0 st ud (S k) m u).
    { intros u. unfold norm2, error_norm. fold ks. rewrite HL. apply suml_ext. intros p _. unfold weighted. rewrite map_length, seq_length.
      assert (X : (Sum i < m, u i * nth p (nth i (map (E World c a0 st ud) (seq (S k - m + 1) m)) []) 0)
        = Sum j < m, u j * (nth p (entries ks (before World a0 st (S k - m + j))) 0 - nth p (entries ks (ud (S k - m + 1 + j)%nat)) 0)).
      { apply suml_ext. intros j Hj. apply in_seq in Hj. rewrite NE by lia. replace (S k - m + 1 + j)%nat with (S (S k - m + j)) by lia.
        rewrite (proj1 (HE (S k - m + j)%nat p ltac:(lia))). reflexivity. }
      rewrite X. reflexivity. }
    exists w. split; [exact W3|split].
    + intros p. rewrite EA, W5. unfold weighted. rewrite map_length, seq_length. apply suml_ext. intros j Hj. apply in_seq in Hj. rewrite NV by lia. reflexivity.
    + intros u Hu. rewrite <- !NW. apply W7. exact Hu.
Qed.
Print Assumptions C71_diis_run.

(** ** The three kinds of run *)
Lemma start_facts World energy guess c d0 ov w s e n : diis_size c = Some n -> start World energy guess c d0 ov w = Some (s, e) ->
  dstate World s = diis_new n (diis_start c) /\ old_vec World s = ov.
Proof.
  intros HN. unfold start. rewrite HN. destruct (if cc_label c =? "ccdTypeSlow" then _ else _) as [d1|]; cbn [obind]; [|discriminate].
  destruct (energy_call c) as [ef|]; cbn [obind]; [|discriminate]. destruct (energy ef d1 w) as [[e1 w1]|]; cbn [obind fst snd]; [|discriminate].
  intros H. injection H as <- _. split; reflexivity.
Qed.
Lemma three_vec c (a b d : tensor) r : contains "UCC(4)" (cc_type c) = false -> contains "CCDQ" (cc_type c) = false ->
  match vectorise (old_keys false (cc_type c)) ([("t2aa", a); ("t2bb", b); ("t2ab", d)] ++ r)%list with Some v => v | None => [] end
  = entries (vec_keys (cc_type c)) ([("t2aa", a); ("t2bb", b); ("t2ab", d)] ++ r)%list.
Proof. intros HU HQ. unfold old_keys, vec_keys. rewrite HU, HQ. reflexivity. Qed.
(** C71 for a spin-orbital calculation.  The first pass is compared with zero amplitudes, although the calculation starts from the
    first-order ones. *)
Theorem C71_slow_diis : forall no nv f g D1 D2 D3 c solve w n st e ud K, exact_solver solve -> diis_size c = Some n -> (1 <= n)%nat ->
  contains "CCDQ" (cc_type c) = false ->
  start disk (slow_energy no nv f g D2 c) (mp_guess no g D2) c (slow_init no nv c) (slow_old no nv c) w = Some (st 0%nat, e) ->
  history disk solve (slow_resid no nv f g D1 D2 D3 c) (slow_energy no nv f g D2 c) c K st ud ->
  forall k, (1 <= k)%nat -> (k <= K)%nat -> extrapolated disk c n (slow_init no nv c) st ud k.
Proof.
  intros no nv f g D1 D2 D3 c solve w n st e ud K HS HN Hn HQ H0 HH. destruct (start_facts _ _ _ _ _ _ _ _ _ _ HN H0) as [HD HO].
  apply (C71_diis_run disk solve _ _ c n _ st ud K HS HN Hn HH HD). rewrite HO. unfold slow_old, slow_init.
  destruct (contains "UCC(4)" (cc_type c)) eqn:HU; [|apply three_vec; assumption]. rewrite HN. unfold old_keys, vec_keys. rewrite HU. reflexivity.
Qed.
Print Assumptions C71_slow_diis.
(** C71 for a spin-integrated calculation: it starts from the zero amplitudes with which the first pass is compared. *)
Theorem C71_spin_diis : forall na nb nva f_aa f_bb g_aaaa g_bbbb g_abab Daa Dbb Dab c solve n st e ud K, exact_solver solve -> diis_size c = Some n -> (1 <= n)%nat ->
  contains "UCC(4)" (cc_type c) = false -> contains "CCDQ" (cc_type c) = false ->
  fast_start na nb nva f_aa f_bb g_aaaa g_bbbb g_abab c = Some (st 0%nat, e) ->
  history unit solve (fast_resid na nb f_aa f_bb g_aaaa g_bbbb g_abab Daa Dbb Dab c) (fast_energy na nb f_aa f_bb g_aaaa g_bbbb g_abab) c K st ud ->
  forall k, (1 <= k)%nat -> (k <= K)%nat -> extrapolated unit c n (fast_init na nva c) st ud k.
Proof.
  intros na nb nva f_aa f_bb g_aaaa g_bbbb g_abab Daa Dbb Dab c solve n st e ud K HS HN Hn HU HQ H0 HH. destruct (start_facts _ _ _ _ _ _ _ _ _ _ HN H0) as [HD HO].
  apply (C71_diis_run unit solve _ _ c n _ st ud K HS HN Hn HH HD). rewrite HO. unfold fast_old, fast_init. apply three_vec; assumption.
Qed.
Print Assumptions C71_spin_diis.
(** C71 for a calculation with the full coupled-cluster equations (CCDQ). *)
Theorem C71_full_diis : forall na nb nva f_aa f_bb g_aaaa g_bbbb g_abab denom c solve n st e ud K, exact_solver solve -> diis_size c = Some n -> (1 <= n)%nat ->
  contains "UCC(4)" (cc_type c) = false -> contains "CCDQ" (cc_type c) = true ->
  start unit (full_energy na nb f_aa f_bb g_aaaa g_bbbb g_abab denom) (fun d => Some d) c (full_init na nva) (full_old na nva c) tt = Some (st 0%nat, e) ->
  history unit solve (full_resid na nb f_aa f_bb g_aaaa g_bbbb g_abab denom c) (full_energy na nb f_aa f_bb g_aaaa g_bbbb g_abab denom) c K st ud ->
  forall k, (1 <= k)%nat -> (k <= K)%nat -> extrapolated unit c n (full_init na nva) st ud k.
Proof.
  intros na nb nva f_aa f_bb g_aaaa g_bbbb g_abab denom c solve n st e ud K HS HN Hn HU HQ H0 HH. destruct (start_facts _ _ _ _ _ _ _ _ _ _ HN H0) as [HD HO].
  apply (C71_diis_run unit solve _ _ c n _ st ud K HS HN Hn HH HD). rewrite HO. unfold full_old, vec_keys. rewrite HU, HQ. reflexivity.
Qed.
Print Assumptions C71_full_diis.

(** ** Concrete case: one occupied and one virtual spin orbital, two passes of a CCD calculation with DIIS over two vectors *)
Definition j_cand (n : nat) (A : matrix) (j : nat) : Qc :=
  match n with
  | 2%nat => match j with O => 1 | _ => A 0%nat 0%nat end
  | 3%nat => let x := (A 1%nat 1%nat - A 0%nat 1%nat) / (A 0%nat 0%nat - A 0%nat 1%nat - A 0%nat 1%nat + A 1%nat 1%nat) in
             match j with O => x | 1%nat => 1 - x | _ => A 0%nat 0%nat * x + A 0%nat 1%nat * (1 - x) end
  | _ => 0
  end.
Definition j_solve : solver := fun n A b => checked (fun _ => j_cand n A) n A b.
Lemma j_solve_exact : exact_solver j_solve.
Proof. intros n A b c H. exact (checked_exact (fun _ => j_cand n A) n A b c H). Qed.
Definition j_calc : calc := mkCalc "ccdTypeSlow" "CCD" 75 (Q2Qc (1 # 1000)) (Some 2%nat) 0 0 0.
Definition j_f : tensor := mkT [2; 2]%nat (fun idx => match idx with [0; 0]%nat => - (1) | [1; 1]%nat => 1 | _ => 0 end).
Definition j_g : tensor := mkT [2; 2; 2; 2]%nat (fun idx => match idx with [1; 1; 0; 0]%nat => 1 | [0; 0; 1; 1]%nat => 1 | [0; 1; 0; 1]%nat => Q2Qc (1 # 3) | _ => 0 end).
Definition j_D : tensor := mkT [1; 1; 1; 1]%nat (fun _ => - Q2Qc (1 # 4)).
Definition j_none : tensor := tzeros [].
Definition j_resid := slow_resid 1 1 j_f j_g j_none j_D j_none j_calc.
Definition j_energy := slow_energy 1 1 j_f j_g j_D j_calc.
Definition j_start := start disk j_energy (mp_guess 1 j_g j_D) j_calc (slow_init 1 1 j_calc) (slow_old 1 1 j_calc) None.
Definition is_some {A} (o : option A) : bool := match o with Some _ => true | None => false end.
Section Trace.
  Variable World : Type.
  Variable resid : resid_fn -> dict -> dict -> World -> option (dict * World).
  Variable energy : energy_fn -> dict -> World -> option (Qc * World).
  Variable c : calc.
  Variable s0 : kstate World.
  Fixpoint t_st (i : nat) : kstate World := match i with
    | O => s0
    | S i => match iteration World j_solve resid energy c (t_st i) with Some (s, _) => s | None => t_st i end
    end.
  Definition t_ud (i : nat) : dict := match i with O => [] | S i => match update_of World resid c (t_st i) with Some d => d | None => [] end end.
  Definition t_ok (i : nat) : bool := (is_some (iteration World j_solve resid energy c (t_st i)) && is_some (update_of World resid c (t_st i)))%bool.
  Lemma t_history K : forallb t_ok (seq 0 K) = true -> history World j_solve resid energy c K t_st t_ud.
  Proof.
    intros HK i Hi. assert (H : t_ok i = true) by (apply (proj1 (forallb_forall _ _) HK); apply in_seq; lia).
    apply andb_true_iff in H. destruct H as [H1 H2]. cbn [t_st t_ud].
    destruct (iteration World j_solve resid energy c (t_st i)) as [[s e]|]; [|discriminate]. destruct (update_of World resid c (t_st i)); [|discriminate].
    split; [exists e; reflexivity|reflexivity].
  Qed.
End Trace.
Definition first_of {World} (w : World) (o : option (kstate World * Qc)) : kstate World := match o with Some (s, _) => s | None => mkSt World [] [] [] (diis_new 0 0) w end.
Lemma first_some World (w : World) o : is_some o = true -> exists e, o = Some (first_of w o, e).
Proof. destruct o as [[s e]|]; [intros _; exists e; reflexivity|discriminate]. Qed.
Definition j_st := t_st disk j_resid j_energy j_calc (first_of None j_start).
Definition j_ud := t_ud disk j_resid j_energy j_calc (first_of None j_start).
Lemma j_start_ok : is_some j_start = true.
Proof. vm_compute. reflexivity. Qed.
Lemma j_history : history disk j_solve j_resid j_energy j_calc 2 j_st j_ud.
Proof. apply t_history. vm_compute. reflexivity. Qed.
(** the second pass combines both vectors, and really changes what the residual routine made *)
Example C71_instance : extrapolated disk j_calc 2 (slow_init 1 1 j_calc) j_st j_ud 2 /\
  entries ["t2aa"] (amps disk (j_st 2)) <> entries ["t2aa"] (j_ud 2).
Proof.
  split.
  - destruct (first_some disk None j_start j_start_ok) as [e H0].
    exact (C71_slow_diis 1 1 j_f j_g j_none j_D j_none j_calc j_solve None 2 j_st e j_ud 2 j_solve_exact eq_refl (le_S 1 1 (le_n 1)) eq_refl H0 j_history 2 (le_S 1 1 (le_n 1)) (le_n 2)).
  - intros H. apply (f_equal (fun l => this (nth 0 l 0))) in H. vm_compute in H. discriminate.
Qed.
(** two passes of a spin-integrated CCD calculation *)
Definition k_calc : calc := mkCalc "ccdType" "CCD" 75 (Q2Qc (1 # 1000)) (Some 2%nat) 0 0 0.
Definition k_resid := fast_resid 1 1 j_f j_f j_g j_g j_g j_D j_D j_D k_calc.
Definition k_energy := fast_energy 1 1 j_f j_f j_g j_g j_g.
Definition k_start := fast_start 1 1 1 j_f j_f j_g j_g j_g k_calc.
Definition k_st := t_st unit k_resid k_energy k_calc (first_of tt k_start).
Definition k_ud := t_ud unit k_resid k_energy k_calc (first_of tt k_start).
Lemma k_start_ok : is_some k_start = true.
Proof. vm_compute. reflexivity. Qed.
Lemma k_history : history unit j_solve k_resid k_energy k_calc 2 k_st k_ud.
Proof. apply t_history. vm_compute. reflexivity. Qed.
Example C71_spin_instance : extrapolated unit k_calc 2 (fast_init 1 1 k_calc) k_st k_ud 2 /\
  entries ["t2ab"] (amps unit (k_st 2)) <> entries ["t2ab"] (k_ud 2).
Proof.
  split.
  - destruct (first_some unit tt k_start k_start_ok) as [e H0].
    exact (C71_spin_diis 1 1 1 j_f j_f j_g j_g j_g j_D j_D j_D k_calc j_solve 2 k_st e k_ud 2 j_solve_exact eq_refl (le_S 1 1 (le_n 1)) eq_refl eq_refl H0
      k_history 2 (le_S 1 1 (le_n 1)) (le_n 2)).
  - intros H. apply (f_equal (fun l => this (nth 0 l 0))) in H. vm_compute in H. discriminate.
Qed.
(** a pass of a CCDQ calculation *)
Definition l_calc : calc := mkCalc "fullCCType" "CCDQ" 75 (Q2Qc (1 # 1000)) (Some 2%nat) 0 0 0.
Definition l_den : dict :=
  let z k := tzeros (repeat 1%nat (k + k)) in
  [("D1aa", z 1%nat); ("D1bb", z 1%nat); ("D2aa", j_D); ("D2bb", j_D); ("D2ab", j_D); ("D3aaa", z 3%nat); ("D3bbb", z 3%nat); ("D3aab", z 3%nat); ("D3abb", z 3%nat);
   ("D4aaaa", z 4%nat); ("D4bbbb", z 4%nat); ("D4aaab", z 4%nat); ("D4aabb", z 4%nat); ("D4abbb", z 4%nat)].
Definition l_resid := full_resid 1 1 j_f j_f j_g j_g j_g l_den l_calc.
Definition l_energy := full_energy 1 1 j_f j_f j_g j_g j_g l_den.
Definition l_start := start unit l_energy (fun d => Some d) l_calc (full_init 1 1) (full_old 1 1 l_calc) tt.
Definition l_st := t_st unit l_resid l_energy l_calc (first_of tt l_start).
Definition l_ud := t_ud unit l_resid l_energy l_calc (first_of tt l_start).
Lemma l_start_ok : is_some l_start = true.
Proof. vm_compute. reflexivity. Qed.
Lemma l_history : history unit j_solve l_resid l_energy l_calc 1 l_st l_ud.
Proof. apply t_history. vm_compute. reflexivity. Qed.
Example C71_full_instance : extrapolated unit l_calc 2 (full_init 1 1) l_st l_ud 1.
Proof.
  destruct (first_some unit tt l_start l_start_ok) as [e H0].
  exact (C71_full_diis 1 1 1 j_f j_f j_g j_g j_g l_den l_calc j_solve 2 l_st e l_ud 1 j_solve_exact eq_refl (le_S 1 1 (le_n 1)) eq_refl eq_refl H0
    l_history 1 (le_n 1) (le_n 1)).
Qed.
