(** Bounds on the value of a tensor polynomial, and comparison of programs up to such a bound.
    Proof machinery; it models no particular source line. *)
From Coq Require Import String Ascii List Arith NArith ZArith QArith Qcanon Bool Lia Permutation.
From Coq Require Qcabs.
From Verif Require Import Sums Tensor Interp Poly SymExec Canon Spec Setup Master Spin Check Tabs Formula.
Import ListNotations.
Open Scope Qc_scope.

Lemma qn_S n : qn (S n) = qn n + 1.
Proof.
  apply Qc_is_canon. unfold qn, Qcplus, Q2Qc; cbn [this]. rewrite !Qred_correct.
  rewrite Nat2Z.inj_succ, <- Z.add_1_r. rewrite inject_Z_plus. reflexivity.
Qed.
Lemma Qcle_0_1 : 0 <= 1. Proof. unfold Qcle, Qle. cbn. lia. Qed.
Lemma qn_pos n : 0 <= qn n.
Proof.
  induction n as [|n IH]; [apply Qcle_refl|]. rewrite qn_S.
  replace 0 with (0 + 0) by ring. apply Qcplus_le_compat; [exact IH|apply Qcle_0_1].
Qed.
Lemma qn_ge1 n : (1 <= n)%nat -> 1 <= qn n.
Proof.
  destruct n as [|n]; [lia|]. intros _. rewrite qn_S. replace 1 with (0 + 1) at 1 by ring.
  apply Qcplus_le_compat; [apply qn_pos|apply Qcle_refl].
Qed.
Lemma qn_le a b : (a <= b)%nat -> qn a <= qn b.
Proof.
  induction 1 as [|b H IH]; [apply Qcle_refl|]. rewrite qn_S. eapply Qcle_trans; [exact IH|].
  replace (qn b) with (qn b + 0) at 1 by ring. apply Qcplus_le_compat; [apply Qcle_refl|apply Qcle_0_1].
Qed.
Lemma Qcmult_le a b c d : 0 <= a -> 0 <= d -> a <= b -> c <= d -> a * c <= b * d.
Proof.
  intros Ha Hd Hab Hcd. eapply Qcle_trans.
  - rewrite Qcmult_comm. apply Qcmult_le_compat_r; [exact Hcd|exact Ha].
  - rewrite Qcmult_comm. apply Qcmult_le_compat_r; [exact Hab|exact Hd].
Qed.
Lemma Qcmult_nonneg a b : 0 <= a -> 0 <= b -> 0 <= a * b.
Proof. intros Ha Hb. replace 0 with (0 * b) by ring. apply Qcmult_le_compat_r; assumption. Qed.
Lemma Qcpow_nonneg a n : 0 <= a -> 0 <= a ^ n.
Proof.
  intros Ha. induction n as [|n IH]; cbn [Qcpower]; [apply Qcle_0_1|]. apply Qcmult_nonneg; assumption.
Qed.
Lemma Qcpow_mono x a b : 1 <= x -> (a <= b)%nat -> x ^ a <= x ^ b.
Proof.
  intros Hx. assert (H0 : 0 <= x) by (eapply Qcle_trans; [apply Qcle_0_1|exact Hx]).
  induction 1 as [|b H IH]; [apply Qcle_refl|]. eapply Qcle_trans; [exact IH|]. cbn [Qcpower].
  replace (x ^ b) with (1 * x ^ b) at 1 by ring. apply Qcmult_le_compat_r; [exact Hx|apply Qcpow_nonneg; exact H0].
Qed.

Section B.
  Variable range : space -> list nat.
  Variable A : N -> list nat -> Qc.
  Variable N : nat.
  Variable M : Qc.
  Hypothesis HN : (1 <= N)%nat.
  Hypothesis HM : 1 <= M.
  Hypothesis HR : forall s, (length (range s) <= N)%nat.
  Hypothesis HA : forall n l, Qcabs.Qcabs (A n l) <= M.

  Lemma M0 : 0 <= M. Proof. eapply Qcle_trans; [apply Qcle_0_1|exact HM]. Qed.
  Lemma suml_bound {X} (l : list X) f B : 0 <= B -> (forall x, Qcabs.Qcabs (f x) <= B) -> Qcabs.Qcabs (suml l f) <= qn (length l) * B.
  Proof.
    intros HB H. induction l as [|x l IH]; cbn [suml length].
    - rewrite Qcabs.Qcabs_pos by apply Qcle_refl. replace (qn 0 * B) with 0; [apply Qcle_refl|].
      replace (qn 0) with 0 by (apply Qc_is_canon; reflexivity). ring.
    - eapply Qcle_trans; [apply Qcabs.Qcabs_triangle|]. rewrite qn_S.
      replace ((qn (length l) + 1) * B) with (B + qn (length l) * B) by ring.
      apply Qcplus_le_compat; [apply H|exact IH].
  Qed.
  Lemma evalFs_bound fs e : Qcabs.Qcabs (evalFs A fs e) <= M ^ (length fs).
  Proof.
    induction fs as [|f fs IH]; cbn [evalFs length Qcpower].
    - rewrite Qcabs.Qcabs_pos by apply Qcle_0_1. apply Qcle_refl.
    - rewrite Qcabs.Qcabs_Qcmult. apply Qcmult_le; [apply Qcabs.Qcabs_nonneg|apply Qcpow_nonneg, M0|apply HA|exact IH].
  Qed.
  Lemma sumD_bound B F : 0 <= B -> (forall e, Qcabs.Qcabs (F e) <= B) -> forall ds e,
    Qcabs.Qcabs (sumD range ds F e) <= qn N ^ (length ds) * B.
  Proof.
    intros HB H. induction ds as [|d ds IH]; intros e; cbn [sumD length Qcpower].
    - replace (1 * B) with B by ring. apply H.
    - assert (P : 0 <= qn N ^ length ds * B) by (apply Qcmult_nonneg; [apply Qcpow_nonneg, qn_pos|exact HB]).
      eapply Qcle_trans; [apply suml_bound with (B := qn N ^ length ds * B); [exact P|intros x; apply IH]|].
      replace (qn N * qn N ^ length ds * B) with (qn N * (qn N ^ length ds * B)) by ring.
      apply Qcmult_le_compat_r; [apply qn_le, HR|exact P].
  Qed.
  Definition asum (p : poly) : Qc := suml p (fun t => Qcabs.Qcabs (Q2Qc (tc t))).
  Lemma evalP_bound e p a b :
    forallb (fun t => Nat.leb (length (td t)) a && Nat.leb (length (tf t)) b)%bool p = true ->
    Qcabs.Qcabs (evalP range A e p) <= asum p * qn N ^ a * M ^ b.
  Proof.
    intros H. unfold evalP, asum.
    assert (P1 : 0 <= qn N ^ a) by apply Qcpow_nonneg, qn_pos.
    assert (P2 : 0 <= M ^ b) by apply Qcpow_nonneg, M0.
    induction p as [|t p IH]; cbn [suml].
    - rewrite Qcabs.Qcabs_pos by apply Qcle_refl. replace (0 * qn N ^ a * M ^ b) with 0 by ring. apply Qcle_refl.
    - cbn [forallb] in H. apply andb_true_iff in H. destruct H as [H1 H2]. apply andb_true_iff in H1.
      destruct H1 as [L1 L2]. apply Nat.leb_le in L1, L2.
      eapply Qcle_trans; [apply Qcabs.Qcabs_triangle|].
      replace ((Qcabs.Qcabs (Q2Qc (tc t)) + suml p (fun t => Qcabs.Qcabs (Q2Qc (tc t)))) * qn N ^ a * M ^ b)
        with (Qcabs.Qcabs (Q2Qc (tc t)) * (qn N ^ a * M ^ b) + suml p (fun t => Qcabs.Qcabs (Q2Qc (tc t))) * qn N ^ a * M ^ b) by ring.
      apply Qcplus_le_compat; [|exact (IH H2)].
      unfold evalT. rewrite Qcabs.Qcabs_Qcmult.
      apply Qcmult_le; [apply Qcabs.Qcabs_nonneg|apply Qcmult_nonneg; assumption|apply Qcle_refl|].
      eapply Qcle_trans; [apply sumD_bound with (B := M ^ length (tf t)); [apply Qcpow_nonneg, M0|apply evalFs_bound]|].
      apply Qcmult_le; [apply Qcpow_nonneg, qn_pos|exact P2| |apply Qcpow_mono; assumption].
      apply Qcpow_mono; [apply qn_ge1, HN|exact L1].
  Qed.
End B.

(** atoms bounded by M *)
Section BA.
  Variable range : space -> list nat.
  Variable atoms : atomtab.
  Variable M : Qc.
  Hypothesis HM : 0 <= M.
  Lemma Aof_bound : Forall (fun a : N * (list space * tensor) =>
      shape (snd (snd a)) = map (dim range) (fst (snd a)) /\ bounded M (snd (snd a))) atoms ->
    forall n l, Qcabs.Qcabs (Aof range atoms n l) <= M.
  Proof.
    intros H n l. unfold Aof. destruct (nlook n atoms) as [[sps t]|] eqn:E.
    - assert (G : shape t = map (dim range) sps /\ bounded M t).
      { clear -H E. induction H as [|[k [s u]] r [H1 H2] _ IH]; cbn [nlook] in E; [discriminate|].
        destruct (N.eqb n k); [|apply IH, E]. injection E as -> ->. split; assumption. }
      destruct (inrb range sps l) eqn:Ei.
      + apply G. destruct G as [-> _]. apply rel_inr, inrb_spec, Ei.
      + rewrite Qcabs.Qcabs_pos; [exact HM|apply Qcle_refl].
    - rewrite Qcabs.Qcabs_pos; [exact HM|apply Qcle_refl].
  Qed.
End BA.

Definition smallc (c : Q) (p : poly) : bool :=
  Qle_bool (fold_right (fun t a => Qred (Qabs.Qabs (tc t) + a)) 0%Q p) c.
Lemma smallc_ok c p : smallc c p = true -> asum p <= Q2Qc c.
Proof.
  unfold smallc. rewrite Qle_bool_iff. intros H.
  assert (E : (this (asum p) == fold_right (fun t a => Qred (Qabs.Qabs (tc t) + a)) 0 p)%Q).
  { clear H. unfold asum. induction p as [|t p IH]; [reflexivity|]. cbn [suml fold_right]. 
    unfold Qcplus. cbn [this Q2Qc]. rewrite !Qred_correct, IH. unfold Qcabs.Qcabs. cbn [this Q2Qc]. rewrite Qabs.Qabs_wd; [reflexivity|].
    apply Qred_correct. }
  unfold Qcle. rewrite E. cbn [this Q2Qc]. rewrite Qred_correct. exact H.
Qed.

(** the two results agree up to c N^a M^b *)
Definition cchk (spl : space -> option (list space)) (kil : N -> list space -> bool)
    (h : hints) (sps : list space) (c : Q) (a b : nat) (x y : option sval) : bool :=
  (outsp sps x && outsp sps y && good sps && forallb (closed_term (xvs sps)) (getp x) &&
   forallb (closed_term (xvs sps)) (getp y) &&
   let d := norm sy spl kil h (psub (getp x) (getp y)) in
   (forallb (fun t => Nat.leb (length (td t)) a && Nat.leb (length (tf t)) b) d && smallc c d))%bool.
Definition so_cchk sps c a b x y : Prop := okh (fun h => cchk nosplit nokill h sps c a b x y).

Section Core.
  Variable range : space -> list nat.
  Variable A : N -> list nat -> Qc.
  Variable N : nat.
  Variable M : Qc.
  Hypothesis HN : (1 <= N)%nat.
  Hypothesis HM : 1 <= M.
  Hypothesis HR : forall s, (length (range s) <= N)%nat.
  Hypothesis HA : forall n l, Qcabs.Qcabs (A n l) <= M.
  Variables (spl : space -> option (list space)) (kil : BinNums.N -> list space -> bool).
  Hypothesis HNorm : forall h e p, (forall t, In t p -> wt range e t) ->
    evalP range A e (norm sy spl kil h p) = evalP range A e p.
  Lemma core h sps c a b p q e :
    forallb (closed_term (xvs sps)) p = true -> forallb (closed_term (xvs sps)) q = true ->
    forallb (fun t => Nat.leb (length (td t)) a && Nat.leb (length (tf t)) b)%bool (norm sy spl kil h (psub p q)) = true ->
    smallc c (norm sy spl kil h (psub p q)) = true ->
    (forall v, In v (xvs sps) -> In (e v) (range (spc v))) ->
    Qcabs.Qcabs (evalP range A e p - evalP range A e q) <= Q2Qc c * qn N ^ a * M ^ b.
  Proof.
    intros C1 C2 HL HC He. rewrite <- psub_sound, <- (HNorm h).
    - eapply Qcle_trans; [apply (evalP_bound range A N M HN HM HR HA e _ a b HL)|].
      apply Qcmult_le_compat_r; [|apply Qcpow_nonneg; eapply Qcle_trans; [apply Qcle_0_1|exact HM]].
      apply Qcmult_le_compat_r; [|apply Qcpow_nonneg, qn_pos]. apply smallc_ok, HC.
    - apply (closed_wt range (xvs sps)); [|exact He]. unfold psub. rewrite forallb_app, C1, andb_true_r.
      rewrite forallb_forall in C2 |- *. intros t Ht. unfold pscale in Ht. apply in_map_iff in Ht.
      destruct Ht as [u [<- Hu]]. specialize (C2 u Hu). exact C2.
  Qed.
End Core.

Section SOB.
  Variables no nv : nat.
  Variable atoms : atomtab.
  Hypothesis Hat : Forall (atom_ok (so_range no nv) sy) atoms.
  Variable N : nat.
  Variable M : Qc.
  Hypothesis HN : (no + nv <= N)%nat.
  Hypothesis HN1 : (1 <= N)%nat.
  Hypothesis HM : 1 <= M.
  Hypothesis HB : Forall (fun a : BinNums.N * (list space * tensor) => bounded M (snd (snd a))) atoms.
  Notation vs := (so_vsim no nv atoms).

  Lemma so_len s : (length (so_range no nv s) <= N)%nat.
  Proof. destruct s as [|p]; [|do 3 (try destruct p as [p|p|])]; cbn [so_range length]; rewrite ?seq_length; lia. Qed.
  Lemma so_bnd n l : Qcabs.Qcabs (Aof (so_range no nv) atoms n l) <= M.
  Proof.
    apply Aof_bound; [eapply Qcle_trans; [apply Qcle_0_1|exact HM]|].
    clear -Hat HB. revert HB. induction Hat as [|[k [s t]] r H1 _ IH]; intros HB; [constructor|].
    pose proof (Forall_inv HB) as H2. apply Forall_inv_tail in HB. constructor; [|apply IH; [exact (Forall_inv_tail Hat)|exact HB]].
    cbn [fst snd] in *. split; [apply H1|exact H2].
  Qed.
  Lemma so_norm h e p : (forall t, In t p -> wt (so_range no nv) e t) ->
    evalP (so_range no nv) (Aof (so_range no nv) atoms) e (norm sy nosplit nokill h p) =
    evalP (so_range no nv) (Aof (so_range no nv) atoms) e p.
  Proof.
    apply norm_sound.
    - apply ctx_blk; exact Hat.
    - apply ctx_herm; [apply sy_herm|exact Hat].
    - apply ctx_len; exact Hat.
    - discriminate.
    - discriminate.
  Qed.

  (** two programs whose results agree up to c N^a M^b *)
  Theorem so_close c a b d1 l1 f1 a1 v1 d2 l2 f2 a2 v2 sps : Forall2 vs a1 v1 -> Forall2 vs a2 v2 ->
    so_cchk sps c a b (srun so_slm d1 l1 f1 a1) (srun so_slm d2 l2 f2 a2) ->
    exists R1 R2, returns d1 l1 f1 v1 R1 /\ returns d2 l2 f2 v2 R2 /\
      shape R1 = map (dim (so_range no nv)) sps /\ close (Q2Qc c * qn N ^ a * M ^ b) R1 R2.
  Proof.
    intros H1 H2 [h Hc]. unfold cchk in Hc. rewrite !andb_true_iff in Hc.
    destruct Hc as [[[[[O1 O2] Hg] C1] C2] [HL HC]]. apply outsp_ok in O1, O2.
    destruct (so_run _ _ _ _ _ _ _ _ _ _ H1 O1) as [R1 [A1 T1]].
    destruct (so_run _ _ _ _ _ _ _ _ _ _ H2 O2) as [R2 [A2 T2]].
    exists R1, R2. split; [exact A1|]. split; [exact A2|]. split; [apply T1|].
    unfold good in Hg. apply andb_true_iff in Hg. destruct Hg as [HN' HX].
    split; [transitivity (map (dim (so_range no nv)) sps); [apply T1|symmetry; apply T2]|].
    intros idx Hi. pose proof T1 as [S1 _]. pose proof T2 as [S2 _].
    rewrite (tsim_data _ _ _ _ _ _ HN' T1 Hi). rewrite (tsim_data _ _ _ _ _ _ HN' T2) by (rewrite S2, <- S1; exact Hi).
    eapply (core _ _ N M HN1 HM so_len so_bnd _ _ so_norm h sps); try eassumption.
    intros v Hv. rewrite S1 in Hi. eapply inr_in; [exact Hi|apply agree_env; assumption|exact Hv|exact HX].
  Qed.
  Theorem so_vs_close c a b sps p q R1 R2 : vs (SP sps p) (VT R1) -> vs (SP sps q) (VT R2) ->
    so_cchk sps c a b (Some (SP sps p)) (Some (SP sps q)) -> close (Q2Qc c * qn N ^ a * M ^ b) R1 R2.
  Proof.
    intros V1 V2 [h Hc]. unfold cchk in Hc. rewrite !andb_true_iff in Hc.
    destruct Hc as [[[[[_ _] Hg] C1] C2] [HL HC]]. cbn [getp] in *.
    inversion V1 as [? ? ? T1| | | | |]; subst. inversion V2 as [? ? ? T2| | | | |]; subst.
    unfold good in Hg. apply andb_true_iff in Hg. destruct Hg as [HN' HX].
    split; [transitivity (map (dim (so_range no nv)) sps); [apply T1|symmetry; apply T2]|].
    intros idx Hi. pose proof T1 as [S1 _]. pose proof T2 as [S2 _].
    rewrite (tsim_data _ _ _ _ _ _ HN' T1 Hi). rewrite (tsim_data _ _ _ _ _ _ HN' T2) by (rewrite S2, <- S1; exact Hi).
    eapply (core _ _ N M HN1 HM so_len so_bnd _ _ so_norm h sps); try eassumption.
    intros v Hv. rewrite S1 in Hi. eapply inr_in; [exact Hi|apply agree_env; assumption|exact Hv|exact HX].
  Qed.
End SOB.

Section SPB.
  Variables no nv : nat.
  Variable S : spinmap.
  Hypothesis HS : spin_ok no nv S.
  Variable atoms : atomtab.
  Hypothesis Hat : Forall (atom_ok (sp_range no nv S) sy) atoms.
  Hypothesis Hcons : Forall (conserving no nv S) atoms.
  Variable N : nat.
  Variable M : Qc.
  Hypothesis HN : (2 * no + 2 * nv <= N)%nat.
  Hypothesis HN1 : (1 <= N)%nat.
  Hypothesis HM : 1 <= M.
  Hypothesis HB : Forall (fun a : BinNums.N * (list space * tensor) => bounded M (snd (snd a))) atoms.
  Notation vs := (sp_vsim no nv S atoms).

  Lemma sp_len s : (length (sp_range no nv S s) <= N)%nat.
  Proof.
    destruct HS as [H1 [H2 _]].
    destruct s as [|p]; [|do 3 (try destruct p as [p|p|])]; cbn [sp_range length];
      rewrite ?map_length, ?seq_length, ?H1, ?H2; lia.
  Qed.
  Lemma sp_bnd n l : Qcabs.Qcabs (Aof (sp_range no nv S) atoms n l) <= M.
  Proof.
    apply Aof_bound; [eapply Qcle_trans; [apply Qcle_0_1|exact HM]|].
    clear -Hat HB. revert HB. induction Hat as [|[k [s t]] r H1 _ IH]; intros HB; [constructor|].
    pose proof (Forall_inv HB) as H2. apply Forall_inv_tail in HB. constructor; [|apply IH; [exact (Forall_inv_tail Hat)|exact HB]].
    cbn [fst snd] in *. split; [apply H1|exact H2].
  Qed.
  Lemma sp_norm h e p : (forall t, In t p -> wt (sp_range no nv S) e t) ->
    evalP (sp_range no nv S) (Aof (sp_range no nv S) atoms) e (norm sy sp_split sp_bad h p) =
    evalP (sp_range no nv S) (Aof (sp_range no nv S) atoms) e p.
  Proof.
    apply norm_sound.
    - apply ctx_blk; exact Hat.
    - apply ctx_herm; [apply sy_herm|exact Hat].
    - apply ctx_len; exact Hat.
    - apply sp_split_ok; assumption.
    - apply sp_kill_ok; assumption.
  Qed.

  (** a program whose result agrees up to c N^a M^b with a spin block of an array with known polynomial *)
  Definition blkcchk (ss : list spin) (c : Q) (a b : nat) (x y : option sval) : Prop :=
    okh (fun h => outsp (repeat 1%N (length ss) ++ repeat 0%N (length ss)) x && cchk sp_split sp_bad h (bsp ss) c a b y (retype (bsp ss) x))%bool.
  Theorem sp_blk_close c a b ss X R d l f ar v :
    sp_tsim no nv S atoms (repeat 1%N (length ss) ++ repeat 0%N (length ss)) (getp X) R ->
    Forall2 vs ar v -> blkcchk ss c a b X (srun sp_slm d l f ar) ->
    exists B B', returns d l f v B /\ block_amp S no nv ss R B' /\ close (Q2Qc c * qn N ^ a * M ^ b) B B'.
  Proof.
    intros TR H2 [h Hc]. unfold cchk in Hc. rewrite !andb_true_iff in Hc.
    destruct Hc as [O1 [[[[[O2 O3] Hg] C1] C2] [HL HC]]]. apply outsp_ok in O1, O2, O3.
    destruct (sp_run _ _ _ HS _ _ _ _ _ _ _ _ H2 O2) as [B [A2 T2]].
    unfold good in Hg. apply andb_true_iff in Hg. destruct Hg as [HN' HX].
    pose proof T2 as [Hsb _]. pose proof TR as [HsR _].
    set (B' := mkT (shape B) (fun idx => data R (bidx S ss idx))).
    exists B, B'. split; [exact A2|]. split.
    - split; [unfold B'; cbn [shape]; rewrite Hsb; apply map_dim_bsp; exact HS|].
      intros l1 l2 L1 Hi. unfold B'. cbn [data]. rewrite bidx_app by exact L1. reflexivity.
    - split; [reflexivity|]. intros idx Hi. pose proof Hi as Hi'. rewrite Hsb in Hi'.
      destruct (bidx_ok no nv S HS ss _ Hi') as [I E].
      unfold B'. cbn [data]. rewrite (tsim_data _ _ _ _ _ _ HN' T2 Hi).
      rewrite (block_tsim (sp_range no nv S) (Aof (sp_range no nv S) atoms) (repeat 1%N (length ss) ++ repeat 0%N (length ss)) (getp X) R (bsp ss)
        (getp (retype (bsp ss) X)) idx (bidx S ss idx)).
      + eapply (core _ _ N M HN1 HM sp_len sp_bnd _ _ sp_norm h (bsp ss)); try eassumption.
        intros w Hw. eapply inr_in; [exact Hi'|apply agree_env; assumption|exact Hw|exact HX].
      + rewrite <- O3. f_equal. symmetry. exact O1.
      + exact HN'.
      + exact TR.
      + exact Hi'.
      + rewrite HsR. exact I.
      + exact E.
  Qed.
End SPB.

Ltac cchk_ :=
  lazymatch goal with
  | |- so_cchk _ _ _ _ ?x ?y => let h := eval vm_compute in (so_hints x y) in with_hints h
  | |- blkcchk ?ss _ _ _ ?x ?y => let h := eval vm_compute in (sp_hints y (retype (bsp ss) x)) in with_hints h
  end.
