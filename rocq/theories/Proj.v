(** Two arrays have the same antisymmetrisation as soon as they have the same contraction with every antisymmetric array.
    Proof machinery; it models no source line. *)
From Coq Require Import List Arith NArith ZArith QArith Qcanon Bool Lia Permutation.
From Verif Require Import Sums Tensor Interp Poly SymExec Canon Spec Setup Master Spin Check Tabs Antisym.
Import ListNotations.
Open Scope Qc_scope.

Fixpoint tup (r : list nat) (k : nat) : list (list nat) :=
  match k with O => [[]] | S k => flat_map (fun x => map (cons x) (tup r k)) r end.
Lemma tup_cons r k F : suml (tup r (S k)) F = suml r (fun x => suml (tup r k) (fun l => F (x :: l))).
Proof. cbn [tup]. rewrite suml_flat_map. apply suml_ext. intros x _. apply suml_map. Qed.
Lemma tup_len r k : forall l, In l (tup r k) -> length l = k.
Proof.
  induction k as [|k IH]; intros l H; [destruct H as [<-|[]]; reflexivity|]. cbn [tup] in H. apply in_flat_map in H. destruct H as [x [_ H]].
  apply in_map_iff in H. destruct H as [l' [<- H]]. cbn. f_equal. apply IH, H.
Qed.
Lemma tup_in r k : forall l, In l (tup r k) -> forall x, In x l -> In x r.
Proof.
  induction k as [|k IH]; intros l H y Hy; [destruct H as [<-|[]]; destruct Hy|]. cbn [tup] in H. apply in_flat_map in H. destruct H as [x [Hx H]].
  apply in_map_iff in H. destruct H as [l' [<- H]]. destruct Hy as [<-|Hy]; [exact Hx|]. eapply IH; eassumption.
Qed.
Lemma in_tup r k : forall l, length l = k -> (forall x, In x l -> In x r) -> In l (tup r k).
Proof.
  induction k as [|k IH]; intros [|x l] L H; try discriminate; [left; reflexivity|]. cbn [tup]. apply in_flat_map. exists x. split; [apply H; left; reflexivity|].
  apply in_map, IH; [cbn in L; lia|]. intros y Hy. apply H. right. exact Hy.
Qed.
Lemma tup_map (f : nat -> nat) r k F : suml (tup (map f r) k) F = suml (tup r k) (fun l => F (map f l)).
Proof.
  revert F. induction k as [|k IH]; intros F; [reflexivity|]. rewrite !tup_cons, suml_map. apply suml_ext. intros x _. rewrite IH. reflexivity.
Qed.
Lemma tup_inr n k l : In l (tup (seq 0 n) k) -> inr l (repeat n k).
Proof.
  revert l. induction k as [|k IH]; intros l H; [destruct H as [<-|[]]; constructor|]. cbn [tup] in H. apply in_flat_map in H. destruct H as [x [Hx H]].
  apply in_map_iff in H. destruct H as [l' [<- H]]. apply in_seq in Hx. cbn [repeat]. constructor; [lia|apply IH, H].
Qed.
Lemma inr_tup n k l : inr l (repeat n k) -> In l (tup (seq 0 n) k).
Proof.
  revert l. induction k as [|k IH]; intros l H; cbn [repeat] in H; inversion H; subst; [left; reflexivity|]. cbn [tup]. apply in_flat_map. exists x. split; [apply in_seq; lia|].
  apply in_map, IH. assumption.
Qed.

(** every permutation of the tuples occurs equally often *)
Lemma inserts_tup r k : forall H, suml r (fun x => suml (tup r k) (fun l => suml (inserts x l) (fun i => H (snd i)))) = Q2Qc (inject_Z (Z.of_nat (S k))) * suml (tup r (S k)) H.
Proof.
  induction k as [|k IH]; intros H.
  - rewrite tup_cons. cbn [tup suml inserts snd]. change (Q2Qc (inject_Z (Z.of_nat 1))) with 1. rewrite Qcmult_1_l. apply suml_ext. intros x _. ring.
  - transitivity (suml (tup r (S (S k))) H + suml r (fun y => suml r (fun x => suml (tup r k) (fun l => suml (inserts x l) (fun i => H (y :: snd i)))))).
    + rewrite (tup_cons r (S k)). rewrite suml_swap with (l2 := r). rewrite <- suml_plus. apply suml_ext. intros x _. rewrite !tup_cons, <- suml_plus. apply suml_ext. intros y _. rewrite <- suml_plus. apply suml_ext. intros l _.
      cbn [inserts suml]. cbn [snd]. f_equal. rewrite suml_map. reflexivity.
    + rewrite (suml_ext _ r _ (fun y => Q2Qc (inject_Z (Z.of_nat (S k))) * suml (tup r (S k)) (fun l => H (y :: l)))) by (intros y _; apply (IH (fun l => H (y :: l)))).
      rewrite suml_scale, <- tup_cons. rewrite (Nat2Z.inj_succ (S k)). unfold Z.succ. rewrite inject_Z_plus, Q2Qc_plus. change (Q2Qc (inject_Z 1)) with 1. ring.
Qed.
Lemma perms_tup r k : forall H, suml (tup r k) (fun l => suml (signed_perms l) (fun p => H (snd p))) = Q2Qc (inject_Z (Z.of_nat (fact k))) * suml (tup r k) H.
Proof.
  induction k as [|k IH]; intros H.
  - cbn [tup suml signed_perms snd fact]. change (Q2Qc (inject_Z (Z.of_nat 1))) with 1. ring.
  - rewrite tup_cons.
    rewrite (suml_ext _ r _ (fun x => Q2Qc (inject_Z (Z.of_nat (fact k))) * suml (tup r k) (fun l => suml (inserts x l) (fun i => H (snd i))))).
    + rewrite suml_scale, inserts_tup, Qcmult_assoc, <- Q2Qc_mult, <- inject_Z_mult, <- Nat2Z.inj_mul. f_equal. f_equal. f_equal. f_equal. cbn [fact]. lia.
    + intros x _. rewrite <- (IH (fun l => suml (inserts x l) (fun i => H (snd i)))). apply suml_ext. intros l _. cbn [signed_perms]. rewrite suml_flat_map. apply suml_ext. intros p _. rewrite suml_map. reflexivity.
Qed.

Lemma ssum_inserts {X} (x : X) l : forall b p F, In (b, p) (inserts x l) -> ssum (signed_perms p) F = sgn b * ssum (signed_perms (x :: l)) F.
Proof.
  induction l as [|y r IH]; intros b p F H; cbn [inserts] in H.
  - destruct H as [[= <- <-]|[]]. cbn [sgn]. ring.
  - destruct H as [[= <- <-]|H]; [cbn [sgn]; ring|]. apply in_map_iff in H. destruct H as [[c q] [[= <- <-] H]]. cbn [fst snd].
    rewrite ssum_signed_cons, (IH _ _ _ H), <- ssum_signed_cons. rewrite (signed_perms_swap [] y x r). cbn [app]. destruct c; cbn [negb sgn]; ring.
Qed.
Lemma ssum_perm {X} (l : list X) : forall b p F, In (b, p) (signed_perms l) -> ssum (signed_perms p) F = sgn b * ssum (signed_perms l) F.
Proof.
  induction l as [|x r IH]; intros b p F H; cbn [signed_perms] in H.
  - destruct H as [[= <- <-]|[]]. cbn [sgn]. ring.
  - apply in_flat_map in H. destruct H as [[c q] [H1 H2]]. apply in_map_iff in H2. destruct H2 as [[d s] [[= <- <-] H3]]. cbn [fst snd] in *.
    rewrite (ssum_inserts _ _ _ _ _ H3), !ssum_signed_cons, (IH _ _ _ H1). destruct c, d; cbn [Bool.eqb sgn]; ring.
Qed.

Lemma sq_nonneg (x : Qc) : 0 <= x * x.
Proof.
  unfold Qcle. assert (E : (this (x * x) == this x * this x)%Q) by (cbn [this Qcmult Q2Qc]; apply Qred_correct). rewrite E.
  change (this 0) with 0%Q. destruct (this x) as [n d]. unfold Qle, Qmult. cbn [Qnum Qden]. rewrite Z.mul_0_l, Z.mul_1_r. apply Z.square_nonneg.
Qed.
Lemma sum_sq {X} (l : list X) F : suml l (fun x => F x * F x) = 0 -> forall x, In x l -> F x = 0.
Proof.
  assert (NN : forall l, 0 <= suml l (fun x => F x * F x)).
  { induction l0 as [|x l0 IH]; cbn [suml]; [apply Qcle_refl|]. rewrite <- (Qcplus_0_l 0). apply Qcplus_le_compat; [apply sq_nonneg|exact IH]. }
  induction l as [|x l IH]; intros E y Hy; [destruct Hy|]. cbn [suml] in E.
  assert (E1 : F x * F x = 0).
  { apply Qcle_antisym; [|apply sq_nonneg]. rewrite <- E. rewrite <- (Qcplus_0_r (F x * F x)) at 1. apply Qcplus_le_compat; [apply Qcle_refl|apply NN]. }
  destruct Hy as [<-|Hy]; [destruct (Qcmult_integral _ _ E1); assumption|]. apply IH; [|exact Hy]. rewrite E1, Qcplus_0_l in E. exact E.
Qed.

(** *** Arrays *)
Section Arr.
  Variables (m no nv : nat).
  Notation sh := (repeat no m ++ repeat nv m)%list.
  Definition dot (X Y : tensor) : Qc := suml (tup (seq 0 no) m) (fun l1 => suml (tup (seq 0 nv) m) (fun l2 => data X (l1 ++ l2)%list * data Y (l1 ++ l2)%list)).
  Definition tdif (X Y : tensor) : tensor := mkT (shape X) (fun l => data X l - data Y l).
  Lemma tup_sh l1 l2 : In l1 (tup (seq 0 no) m) -> In l2 (tup (seq 0 nv) m) -> inr (l1 ++ l2) sh.
  Proof. intros H1 H2. apply Forall2_app; apply tup_inr; assumption. Qed.
  Lemma perm_tup r l b p : In l (tup r m) -> In (b, p) (signed_perms l) -> In p (tup r m).
  Proof.
    intros H HP. apply signed_perms_perm in HP. apply in_tup; [rewrite <- (Permutation_length HP); apply tup_len in H; exact H|].
    intros x Hx. eapply tup_in; [exact H|]. eapply Permutation_in; [symmetry; exact HP|exact Hx].
  Qed.
  Variables W D : tensor.
  Hypothesis SW : shape W = sh.
  Hypothesis AD : antisymmetrised m W D.
  Lemma ad_ssum l1 l2 : In l1 (tup (seq 0 no) m) -> In l2 (tup (seq 0 nv) m) ->
    data D (l1 ++ l2)%list = ssum (signed_perms l1) (fun p => ssum (signed_perms l2) (fun q => data W (p ++ q)%list)).
  Proof.
    intros H1 H2. destruct AD as [HR HD]. rewrite (HD l1 l2); [|eapply tup_len, H1|rewrite SW; apply tup_sh; assumption].
    unfold ssum. apply suml_ext. intros [b p] _. cbn [fst snd]. rewrite <- suml_scale. apply suml_ext. intros [c q] _. cbn [fst snd]. ring.
  Qed.
  Lemma ad_perm l1 l2 p q : In l1 (tup (seq 0 no) m) -> In l2 (tup (seq 0 nv) m) -> In p (signed_perms l1) -> In q (signed_perms l2) ->
    data D (snd p ++ snd q)%list = sgn (fst p) * sgn (fst q) * data D (l1 ++ l2)%list.
  Proof.
    destruct p as [b p], q as [c q]. cbn [fst snd]. intros H1 H2 HP HQ. rewrite !ad_ssum by (eauto using perm_tup).
    rewrite (ssum_perm _ _ _ _ HP). rewrite <- Qcmult_assoc. f_equal. unfold ssum at 1 3. rewrite <- suml_scale. apply suml_ext. intros [d r] _. cbn [fst snd].
    rewrite (ssum_perm _ _ _ _ HQ). ring.
  Qed.
  Lemma ad_dot : dot D D = Q2Qc (inject_Z (Z.of_nat (fact m))) * (Q2Qc (inject_Z (Z.of_nat (fact m))) * dot D W).
  Proof.
    unfold dot.
    transitivity (suml (tup (seq 0 no) m) (fun l1 => suml (signed_perms l1) (fun p => suml (tup (seq 0 nv) m) (fun l2 => suml (signed_perms l2) (fun q => data D (snd p ++ snd q)%list * data W (snd p ++ snd q)%list))))).
    - apply suml_ext. intros l1 H1. rewrite suml_swap. apply suml_ext. intros l2 H2. rewrite ad_ssum at 2 by assumption.
      unfold ssum. rewrite <- suml_scale. apply suml_ext. intros p HP. rewrite <- !suml_scale. apply suml_ext. intros q HQ.
      rewrite (ad_perm l1 l2 p q H1 H2 HP HQ). ring.
    - rewrite (perms_tup (seq 0 no) m (fun p => suml (tup (seq 0 nv) m) (fun l2 => suml (signed_perms l2) (fun q => data D (p ++ snd q)%list * data W (p ++ snd q)%list)))).
      f_equal. rewrite <- (suml_scale _ (tup (seq 0 no) m)). apply suml_ext. intros l1 _.
      exact (perms_tup (seq 0 nv) m (fun q => data D (l1 ++ q)%list * data W (l1 ++ q)%list)).
  Qed.
  Lemma ad_zero : dot D W = 0 -> forall idx, inr idx sh -> data D idx = 0.
  Proof.
    intros E idx HI. unfold inr in HI. apply Forall2_app_inv_r in HI. destruct HI as [l1 [l2 [H1 [H2 ->]]]]. apply inr_tup in H1, H2.
    pose proof ad_dot as E2. rewrite E in E2. unfold dot in E2.
    assert (E3 : suml (flat_map (fun l1 => map (fun l2 => (l1 ++ l2)%list) (tup (seq 0 nv) m)) (tup (seq 0 no) m)) (fun l => data D l * data D l) = 0).
    { rewrite suml_flat_map. etransitivity; [|etransitivity; [exact E2|ring]]. apply suml_ext. intros x _. apply suml_map. }
    apply (sum_sq _ _ E3). apply in_flat_map. exists l1. split; [exact H1|]. apply in_map_iff. exists l2. split; [reflexivity|exact H2].
  Qed.
End Arr.

(** two arrays with the same contractions have the same antisymmetrisation *)
Theorem same_antis m no nv U C R S : shape U = (repeat no m ++ repeat nv m)%list -> shape C = (repeat no m ++ repeat nv m)%list ->
  antisymmetrised m U R -> antisymmetrised m C S ->
  (forall L, shape L = (repeat no m ++ repeat nv m)%list -> antisymmetric m L -> dot m no nv L U = dot m no nv L C) -> teq R S.
Proof.
  intros SU SC [SR AR] [SS AS] HL.
  assert (AD : antisymmetrised m (tdif U C) (tdif R S)).
  { split; [exact SR|]. intros l1 l2 L1 HI. cbn [tdif data shape] in *. rewrite (AR l1 l2 L1 HI), (AS l1 l2 L1) by (rewrite SC, <- SU; exact HI).
    unfold Qcminus. rewrite <- suml_opp, <- suml_plus. apply suml_ext. intros p _. rewrite <- suml_opp, <- suml_plus. apply suml_ext. intros q _. ring. }
  assert (Z : forall idx, inr idx (repeat no m ++ repeat nv m) -> data (tdif R S) idx = 0).
  { apply (ad_zero m no nv (tdif U C)); [exact SU|exact AD|].
    specialize (HL (tdif R S)). assert (E : dot m no nv (tdif R S) U = dot m no nv (tdif R S) C).
    { apply HL; [cbn [tdif shape]; rewrite SR; exact SU|]. eapply antisymmetrised_antisymmetric; [|exact AD]. exact SU. }
    transitivity (dot m no nv (tdif R S) U - dot m no nv (tdif R S) C); [|rewrite E; ring].
    unfold dot, Qcminus. rewrite <- suml_opp, <- suml_plus. apply suml_ext. intros l1 _. rewrite <- suml_opp, <- suml_plus. apply suml_ext. intros l2 _. cbn [tdif data]. ring. }
  split; [rewrite SR, SS, SU, SC; reflexivity|]. intros idx HI. rewrite SR, SU in HI. specialize (Z idx HI). cbn [tdif data] in Z.
  transitivity (data R idx - data S idx + data S idx); [ring|]. rewrite Z. ring.
Qed.
