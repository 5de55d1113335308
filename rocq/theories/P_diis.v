(** C27, C28: DIIS extrapolation. *)
From Coq Require Import List Arith ZArith QArith Qcanon Bool Lia.
From Verif Require Import Sums Tensor Interp Numpy Spec Diis.
Import ListNotations.
Open Scope Qc_scope.

(** ** Specification *)
(** The linear solver only returns exact solutions. *)
Definition exact_solver (solve : solver) : Prop := forall n A b c, solve n A b = Some c ->
  forall i, (i < n)%nat -> (Sum j < n, A i j * c j) = b i.
(** Entry k of the weighted sum of the vectors vs. *)
Definition weighted (w : nat -> Qc) (vs : list vec) (k : nat) : Qc :=
  Sum i < (length vs), w i * nth k (nth i vs []) 0.
(** Squared Euclidean norm of that sum, L entries. *)
Definition norm2 (L : nat) (w : nat -> Qc) (vs : list vec) : Qc := Sum k < L, weighted w vs k * weighted w vs k.
(** The last m elements of a list. *)
Definition lastn {X} (m : nat) (l : list X) : list X := skipn (length l - m) l.

(** ** Proofs *)
Lemma suml_seq_S n F : (Sum i < (S n), F i) = (Sum i < n, F i) + F n.
Proof. rewrite seq_S, suml_app. cbn [suml Nat.add]. ring. Qed.
Lemma Qcsq_nonneg (x : Qc) : 0 <= x * x.
Proof.
  destruct (Qclt_le_dec x 0) as [H|H].
  - replace (x * x) with ((- x) * (- x)) by ring.
    assert (H' : 0 <= - x) by (apply Qclt_le_weak in H; apply Qcopp_le_compat in H; exact H).
    replace 0 with (0 * - x) by ring. apply Qcmult_le_compat_r; assumption.
  - replace 0 with (0 * x) by ring. apply Qcmult_le_compat_r; assumption.
Qed.
Lemma suml_nonneg A (l : list A) F : (forall x, In x l -> 0 <= F x) -> 0 <= suml l F.
Proof.
  induction l as [|x l IH]; cbn [suml]; intros H; [apply Qcle_refl|].
  replace 0 with (0 + 0) by ring. apply Qcplus_le_compat; [apply H; left; reflexivity|].
  apply IH. intros y Hy. apply H. right; exact Hy.
Qed.
Lemma edot_sum a b x : edot a b = Some x -> length a = length b /\
  forall L, L = length a -> x = Sum k < L, nth k a 0 * nth k b 0.
Proof.
  unfold edot. destruct (Nat.eqb_spec (length a) (length b)) as [E|]; [|discriminate]. intros H. injection H as <-.
  split; [exact E|]. intros L ->. clear -E. revert b E. induction a as [|y a IH]; intros [|z b] E; cbn in E; try lia; [reflexivity|].
  cbn [length seq suml nth]. unfold zipw in *. cbn [combine map fst snd suml]. f_equal. rewrite suml_seq_shift. apply IH. lia.
Qed.

Lemma combination_spec c vs v : combination c vs = Some v ->
  vs <> [] /\ (forall i, (i < length vs)%nat -> length (nth i vs []) = length v) /\
  forall k, nth k v 0 = weighted c vs k.
Proof.
  unfold combination. destruct vs as [|v0 vs0] eqn:EV; [discriminate|]. rewrite <- EV. intros H.
  split; [congruence|].
  assert (HG : forall n a, fold_left (fun acc ii => do a <- acc; vbin Qcplus a (map (Qcmult (c ii)) (nth ii vs [])))
        (seq 0 n) (Some (map (fun _ => 0) v0)) = Some a ->
      length a = length v0 /\ (forall i, (i < n)%nat -> length (nth i vs []) = length a) /\
      forall k, nth k a 0 = Sum i < n, c i * nth k (nth i vs []) 0).
  { induction n as [|n IH]; intros a HF.
    - cbn in HF. injection HF as <-. rewrite map_length. repeat split; [lia|]. intros k. cbn [seq suml].
      clear. revert k. induction v0 as [|x r IH]; intros [|k]; try reflexivity. cbn. apply IH.
    - rewrite seq_S, fold_left_app in HF. cbn [fold_left Nat.add] in HF.
      destruct (fold_left _ (seq 0 n) _) as [b|] eqn:E; cbn [obind] in HF; [|discriminate].
      destruct (IH b eq_refl) as [L [M D]]. unfold vbin in HF. rewrite map_length in HF.
      destruct (Nat.eqb_spec (length b) (length (nth n vs []))) as [EL|]; [|discriminate]. injection HF as <-.
      assert (LA : length (zipw Qcplus b (map (Qcmult (c n)) (nth n vs []))) = length b)
        by (apply zipw_length; rewrite map_length; exact EL).
      rewrite LA. split; [exact L|]. split.
      + intros i Hi. destruct (Nat.eq_dec i n) as [->|]; [symmetry; exact EL|apply M; lia].
      + intros k. rewrite zipw_nth; [|rewrite map_length; exact EL|ring]. rewrite D, suml_seq_S. f_equal.
        generalize (nth n vs []) as r. intros r. clear. revert k. induction r as [|x r IH]; intros [|k]; cbn [map nth]; try ring. apply IH. }
  destruct (HG _ _ H) as [_ [A B]]. split; [exact A|]. intros k. rewrite B. reflexivity.
Qed.

Section Opt.
  Variables (m L : nat) (es : list vec) (B : matrix) (w : nat -> Qc) (lam : Qc).
  Hypothesis Hm : length es = m.
  Hypothesis HB : forall i j, (i < m)%nat -> (j < m)%nat -> B i j = Sum k < L, nth k (nth i es []) 0 * nth k (nth j es []) 0.
  Hypothesis Hrow : forall i, (i < m)%nat -> (Sum j < m, B i j * w j) = lam.
  Hypothesis Hw : (Sum i < m, w i) = 1.
  Lemma row i : (i < m)%nat -> (Sum k < L, nth k (nth i es []) 0 * weighted w es k) = lam.
  Proof.
    intros Hi. rewrite <- (Hrow i Hi). unfold weighted. rewrite Hm.
    rewrite (suml_ext _ _ _ (fun k => Sum j < m, nth k (nth i es []) 0 * (w j * nth k (nth j es []) 0)))
      by (intros; rewrite suml_scale; reflexivity).
    rewrite suml_swap. apply suml_ext. intros j Hj. apply in_seq in Hj. rewrite HB by lia.
    rewrite <- suml_scale_r. apply suml_ext. intros; ring.
  Qed.
  Lemma optimal u : (Sum i < m, u i) = 1 -> norm2 L w es <= norm2 L u es.
  Proof.
    intros Hu. set (dl := fun i => u i - w i).
    assert (Hd : forall k, weighted u es k = weighted w es k + weighted dl es k).
    { intros k. unfold weighted. rewrite <- suml_plus. apply suml_ext. intros; unfold dl; ring. }
    assert (Hc : (Sum k < L, weighted w es k * weighted dl es k) = 0).
    { transitivity (Sum i < m, dl i * lam).
      - unfold weighted at 2. rewrite Hm.
        rewrite (suml_ext _ _ _ (fun k => Sum i < m, weighted w es k * (dl i * nth k (nth i es []) 0)))
          by (intros; rewrite suml_scale; reflexivity).
        rewrite suml_swap. apply suml_ext. intros i Hi. apply in_seq in Hi. rewrite <- (row i) by lia.
        rewrite <- suml_scale. apply suml_ext. intros; ring.
      - rewrite suml_scale_r. unfold dl.
        rewrite (suml_ext _ _ _ (fun i => u i + - w i)) by (intros; ring).
        rewrite suml_plus, suml_opp. transitivity ((1 + - (1)) * lam); [f_equal; f_equal; [exact Hu|f_equal; exact Hw]|ring]. }
    assert (E : norm2 L u es = norm2 L w es + norm2 L dl es).
    { unfold norm2. rewrite (suml_ext _ _ (fun k => weighted u es k * weighted u es k)
        (fun k => (weighted w es k * weighted w es k + weighted dl es k * weighted dl es k)
                  + (1 + 1) * (weighted w es k * weighted dl es k))) by (intros; rewrite !Hd; ring).
      rewrite suml_plus, suml_scale, Hc, suml_plus. ring. }
    rewrite E. replace (norm2 L w es) with (norm2 L w es + 0) at 1 by ring.
    apply Qcplus_le_compat; [apply Qcle_refl|]. apply suml_nonneg. intros; apply Qcsq_nonneg.
  Qed.
End Opt.

(** C27.  Past its start iteration, whatever is stored, a DIIS step that returns gives a weighted sum of the
    stored vectors with weights that sum to one and that minimise the norm of the equally weighted sum of the
    stored error vectors among all such weights; in particular, if all stored vectors are the same vector T the
    result is T. *)
Theorem C27_diis_extrapolation : forall solve d x e v d',
  exact_solver solve -> (start_iter d <= iter_idx d)%nat -> length (prev_vecs d) = length (error_vecs d) ->
  compute_new_vec solve d x e = Some (v, d') ->
  let vs := prev_vecs d' in let es := error_vecs d' in
  exists w, length vs = length es /\ vs <> [] /\
    (Sum i < (length vs), w i) = 1 /\
    (forall y, In y vs -> length y = length v) /\
    (forall k, nth k v 0 = weighted w vs k) /\
    (exists L, (forall y, In y es -> length y = L) /\
       forall u, (Sum i < (length vs), u i) = 1 -> norm2 L w es <= norm2 L u es) /\
    (forall T, (forall y, In y vs -> y = T) -> v = T).
Proof.
  intros solve d x e v d' HS Hst HL H. unfold compute_new_vec in H.
  destruct (Nat.ltb_spec (iter_idx d) (start_iter d)); [lia|].
  set (pv := (prev_vecs d ++ [x])%list) in *. set (ev := (error_vecs d ++ [e])%list) in *.
  assert (EL : length pv = length ev) by (unfold pv, ev; rewrite !app_length; cbn; lia).
  set (pe := if Nat.ltb (nvecs d) (length pv) then (tl pv, tl ev) else (pv, ev)) in *.
  assert (EL' : length (fst pe) = length (snd pe)).
  { unfold pe. destruct (Nat.ltb _ _); cbn [fst snd]; [|exact EL].
    destruct pv, ev; cbn in *; lia. }
  destruct pe as [vs es]. cbn [fst snd] in *.
  destruct (get_bmat (length vs) es) as [[B rhs]|] eqn:EB; cbn [obind fst snd] in H; [|discriminate].
  destruct (solve _ _ _) as [c|] eqn:EC; cbn [obind] in H; [|discriminate].
  destruct (combination c vs) as [v1|] eqn:EV; cbn [obind] in H; [|discriminate]. injection H as <- <-.
  cbn [prev_vecs error_vecs]. set (m := length vs) in *.
  destruct (get_bmat_spec _ _ _ _ EB) as [B1 [B2 [B3 [B4 B5]]]].
  destruct (combination_spec _ _ _ EV) as [V1 [V2 V3]].
  specialize (HS _ _ _ _ EC).
  assert (Hm : (0 < m)%nat) by (unfold m; destruct vs; [congruence|cbn; lia]).
  assert (W : (Sum i < m, c i) = 1).
  { specialize (HS m (Nat.lt_succ_diag_r m)). rewrite B5, suml_seq_S, B3 in HS.
    rewrite (suml_ext _ _ _ (fun i => - c i)) in HS by (intros i Hi; apply in_seq in Hi; rewrite (proj2 (B2 i ltac:(lia))); ring).
    rewrite suml_opp in HS. assert (X : - (Sum i < m, c i) + 0 * c m = - (1)) by exact HS. clear -X. revert X. generalize (Sum i < m, c i) as q. intros q X.
    replace q with (- (- q + 0 * c m)) by ring. rewrite X. ring. }
  assert (VL : forall y, In y vs -> length y = length v1).
  { intros y Hy. apply (In_nth _ _ []) in Hy. destruct Hy as [i [Hi <-]]. apply V2, Hi. }
  exists c. split; [exact EL'|]. split; [exact V1|]. split; [exact W|]. split; [exact VL|]. split; [exact V3|]. split.
  - exists (length (nth 0 es [])). split.
    + intros y Hy. apply (In_nth _ _ []) in Hy. destruct Hy as [i [Hi <-]].
      specialize (B1 i 0%nat ltac:(lia) Hm). apply edot_sum in B1. apply B1.
    + intros u Hu. apply (optimal m (length (nth 0 es [])) es B c (c m)); [lia| | |exact W|exact Hu].
      * intros i j Hi Hj. pose proof (edot_sum _ _ _ (B1 i j Hi Hj)) as [_ D]. apply D.
        pose proof (edot_sum _ _ _ (B1 i 0%nat Hi Hm)) as [D2 _]. symmetry. exact D2.
      * intros i Hi. specialize (HS i ltac:(lia)). rewrite B4, suml_seq_S, (proj1 (B2 i Hi)) in HS by exact Hi.
        replace (Sum j < m, B i j * c j) with (((Sum j < m, B i j * c j) + - (1) * c m) + c m) by ring. rewrite HS. ring.
  - intros T HT.
    assert (LT : length v1 = length T).
    { destruct vs as [|y vs']; [congruence|]. rewrite <- (VL y (or_introl eq_refl)), (HT y (or_introl eq_refl)). reflexivity. }
    apply (nth_ext _ _ 0 0 LT). intros k _. rewrite V3. unfold weighted. fold m.
    rewrite (suml_ext _ _ _ (fun i => c i * nth k T 0)).
    + rewrite suml_scale_r. transitivity (1 * nth k T 0); [f_equal; exact W|ring].
    + intros i Hi. apply in_seq in Hi. rewrite (HT (nth i vs [])); [reflexivity|]. apply nth_In. unfold m in Hi. lia.
Qed.
Print Assumptions C27_diis_extrapolation.

(** A solver that returns a guessed solution after checking it is exact; with it, two steps on orthogonal
    error vectors extrapolate with weights 1/2, 1/2. *)
Definition checked (guess : nat -> nat -> Qc) : solver := fun n A b =>
  if forallb (fun i => if Qc_eq_dec (Sum j < n, A i j * guess n j) (b i) then true else false) (seq 0 n)
  then Some (guess n) else None.
Lemma checked_exact guess : exact_solver (checked guess).
Proof.
  intros n A b c H i Hi. unfold checked in H. destruct (forallb _ _) eqn:E; [|discriminate]. injection H as <-.
  rewrite forallb_forall in E. specialize (E i ltac:(apply in_seq; lia)). destruct (Qc_eq_dec _ _); [assumption|discriminate].
Qed.
Definition half : Qc := Q2Qc (1 # 2).
Definition guess2 (n j : nat) : Qc := match n with 2%nat => 1 | _ => half end.
Example C27_instance : exists v1 d1 v2 d2,
  compute_new_vec (checked guess2) (diis_new 2 0) [1; 0] [1; 0] = Some (v1, d1) /\
  compute_new_vec (checked guess2) d1 [0; 1] [0; 1] = Some (v2, d2) /\
  v2 = [half; half] /\ prev_vecs d2 = [[1; 0]; [0; 1]] /\
  (start_iter d1 <= iter_idx d1)%nat /\ length (prev_vecs d1) = length (error_vecs d1).
Proof.
  destruct (compute_new_vec (checked guess2) (diis_new 2 0) [1; 0] [1; 0]) as [[v1 d1]|] eqn:E1; [|vm_compute in E1; discriminate].
  destruct (compute_new_vec (checked guess2) d1 [0; 1] [0; 1]) as [[v2 d2]|] eqn:E2.
  2:{ vm_compute in E1. injection E1 as <- <-. vm_compute in E2. discriminate. }
  exists v1, d1, v2, d2. vm_compute in E1. injection E1 as <- <-. vm_compute in E2. injection E2 as <- <-.
  repeat split; vm_compute; try reflexivity; try lia.
Qed.

(** ** History *)
(** A sequence of calls compute_new_vec(iterate, error); the returned vectors are collected. *)
Fixpoint diis_calls (solve : solver) (d : diis) (calls : list (vec * vec)) : option (list vec * diis) :=
  match calls with
  | [] => Some ([], d)
  | (x, e) :: r =>
      do vd <- compute_new_vec solve d x e;
      do rd <- diis_calls solve (snd vd) r;
      Some (fst vd :: fst rd, snd rd)
  end.
Lemma lastn_snoc {X} m (l : list X) x : (1 <= m)%nat ->
  (if Nat.ltb m (length (lastn m l ++ [x])) then tl (lastn m l ++ [x]) else lastn m l ++ [x])%list = lastn m (l ++ [x])%list.
Proof.
  intros Hm. unfold lastn. rewrite !app_length, skipn_length. cbn [length].
  destruct (Nat.ltb_spec m (length l - (length l - m) + 1)) as [H|H].
  - assert (m <= length l)%nat by lia.
    replace (length l + 1 - m)%nat with (S (length l - m)) by lia.
    rewrite skipn_app. replace (S (length l - m) - length l)%nat with 0%nat by lia. cbn [skipn].
    assert (E : forall (a : list X) k, (k < length a)%nat -> tl (skipn k a ++ [x])%list = (skipn (S k) a ++ [x])%list).
    { induction a as [|y a IH]; intros k Hk; cbn [length] in Hk; [lia|]. destruct k; [reflexivity|]. cbn [skipn]. apply IH. lia. }
    apply E. lia.
  - replace (length l - m)%nat with 0%nat by lia. replace (length l + 1 - m)%nat with 0%nat by lia. reflexivity.
Qed.

(** C28.  For any sequence of calls on a fresh object with nvecs >= 1: the first start_iter calls return their
    input; afterwards the object holds the vectors and error vectors of the last nvecs calls made since the start
    iteration, oldest first. *)
Theorem C28_diis_history : forall solve n start calls outs d,
  (1 <= n)%nat -> diis_calls solve (diis_new n start) calls = Some (outs, d) ->
  length outs = length calls /\
  (forall k, (k < start)%nat -> (k < length calls)%nat -> nth k outs [] = fst (nth k calls ([], []))) /\
  prev_vecs d = lastn n (skipn start (map fst calls)) /\
  error_vecs d = lastn n (skipn start (map snd calls)) /\
  (length (prev_vecs d) <= n)%nat.
Proof.
  intros solve n start calls outs d Hn.
  assert (G : forall calls pre d0 outs d,
    nvecs d0 = n -> start_iter d0 = start -> iter_idx d0 = length pre ->
    prev_vecs d0 = lastn n (skipn start (map fst pre)) -> error_vecs d0 = lastn n (skipn start (map snd pre)) ->
    diis_calls solve d0 calls = Some (outs, d) ->
    length outs = length calls /\
    (forall k, (length pre + k < start)%nat -> (k < length calls)%nat -> nth k outs [] = fst (nth k calls ([], []))) /\
    prev_vecs d = lastn n (skipn start (map fst (pre ++ calls))) /\
    error_vecs d = lastn n (skipn start (map snd (pre ++ calls)))).
  { clear calls outs d. induction calls as [|[x e] calls IH]; intros pre d0 outs d N1 N2 N3 N4 N5 H; cbn [diis_calls] in H.
    - injection H as <- <-. rewrite app_nil_r. repeat split; try assumption. intros k _ Hk; cbn in Hk; lia.
    - destruct (compute_new_vec solve d0 x e) as [[v d1]|] eqn:E1; cbn [obind fst snd] in H; [|discriminate].
      destruct (diis_calls solve d1 calls) as [[vs d2]|] eqn:E2; cbn [obind fst snd] in H; [|discriminate].
      injection H as <- <-.
      assert (S1 : nvecs d1 = n /\ start_iter d1 = start /\ iter_idx d1 = length (pre ++ [(x, e)]) /\
        prev_vecs d1 = lastn n (skipn start (map fst (pre ++ [(x, e)]))) /\
        error_vecs d1 = lastn n (skipn start (map snd (pre ++ [(x, e)]))) /\
        ((length pre < start)%nat -> v = x)).
      { unfold compute_new_vec in E1. rewrite N2, N3 in E1. rewrite app_length, !map_app. cbn [length map fst snd].
        destruct (Nat.ltb_spec (length pre) start) as [Hs|Hs].
        - injection E1 as <- <-. cbn [nvecs start_iter iter_idx prev_vecs error_vecs].
          rewrite (skipn_all2 (map fst pre ++ [x])), (skipn_all2 (map snd pre ++ [e]))
            by (rewrite app_length, map_length; cbn; lia).
          rewrite N4, N5, !skipn_all2 by (rewrite map_length; lia). repeat split; try assumption; lia.
        - rewrite N1, N4, N5 in E1.
          set (lp := skipn start (map fst pre)) in *. set (le := skipn start (map snd pre)) in *.
          assert (LL : length lp = length le) by (unfold lp, le; rewrite !skipn_length, !map_length; reflexivity).
          assert (LP : length (lastn n lp ++ [x])%list = length (lastn n le ++ [e])%list).
          { unfold lastn. rewrite !app_length, !skipn_length, LL. reflexivity. }
          set (pe := if Nat.ltb n (length (lastn n lp ++ [x])%list)
                     then (tl (lastn n lp ++ [x])%list, tl (lastn n le ++ [e])%list)
                     else ((lastn n lp ++ [x])%list, (lastn n le ++ [e])%list)) in *.
          assert (EP : pe = (lastn n (lp ++ [x])%list, lastn n (le ++ [e])%list)).
          { rewrite <- (lastn_snoc n lp x Hn), <- (lastn_snoc n le e Hn), <- LP. unfold pe.
            destruct (Nat.ltb _ _); reflexivity. }
          clearbody pe. subst pe.
          destruct (get_bmat _ _) as [br|]; cbn [obind] in E1; [|discriminate].
          destruct (solve _ _ _) as [c|]; cbn [obind] in E1; [|discriminate].
          destruct (combination _ _) as [v1|]; cbn [obind] in E1; [|discriminate]. injection E1 as <- <-.
          cbn [nvecs start_iter iter_idx prev_vecs error_vecs].
          assert (SK : forall X (l : list X) y, (start <= length l)%nat -> skipn start (l ++ [y])%list = (skipn start l ++ [y])%list).
          { intros X l y Hl. rewrite skipn_app. replace (start - length l)%nat with 0%nat by lia. reflexivity. }
          rewrite !SK by (rewrite map_length; lia). fold lp le. repeat split; try assumption; lia. }
      destruct S1 as [M1 [M2 [M3 [M4 [M5 M6]]]]].
      destruct (IH (pre ++ [(x, e)])%list d1 vs d2 M1 M2 M3 M4 M5 E2) as [R1 [R2 [R3 R4]]].
      rewrite <- app_assoc in R3, R4. cbn [app] in R3, R4. repeat split; try assumption.
      + cbn [length]. lia.
      + intros [|k] Hk HL; cbn [nth fst]; [apply M6; lia|]. apply R2; [rewrite app_length; cbn; lia|cbn in HL; lia]. }
  intros H. destruct (G calls [] (diis_new n start) outs d) as [R1 [R2 [R3 R4]]]; try reflexivity; try exact H.
  - cbn [map]. rewrite skipn_nil. reflexivity.
  - cbn [map]. rewrite skipn_nil. reflexivity.
  - cbn [app length Nat.add] in *. repeat split; try assumption.
    rewrite R3. unfold lastn. rewrite skipn_length. lia.
Qed.
Print Assumptions C28_diis_history.
Example C28_instance : exists outs d,
  diis_calls (checked guess2) (diis_new 1 1) [([1; 0], [1; 1]); ([0; 1], [1; 0]); ([1; 1], [0; 1])] = Some (outs, d) /\
  (1 <= 1)%nat /\ prev_vecs d = [[1; 1]].
Proof. eexists; eexists; split; [vm_compute; reflexivity|]. split; [lia|reflexivity]. Qed.

(** With no stored vectors allowed (nvecs = 0) every step past the start iteration raises. *)
Theorem C28_zero_size_raises : forall solve start it x e,
  exact_solver solve -> (start <= it)%nat -> compute_new_vec solve (mkDiis 0 [] [] start it) x e = None.
Proof.
  intros solve start it x e _ H. unfold compute_new_vec. cbn [iter_idx start_iter nvecs prev_vecs error_vecs app length].
  destruct (Nat.ltb_spec it start); [lia|]. cbn [Nat.ltb Nat.leb tl].
  destruct (get_bmat _ _) as [br|]; cbn [obind]; [|reflexivity]. destruct (solve _ _ _) as [c|]; reflexivity.
Qed.
Print Assumptions C28_zero_size_raises.
