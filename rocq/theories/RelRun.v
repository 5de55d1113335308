(** Proof machinery for the iterative driver: two runs whose routines act alike on related amplitudes pass through related states, with or
    without DIIS, and end alike.  Models no particular source line. *)
From Coq Require Import String Ascii List Arith ZArith QArith Qcanon Bool Lia.
From Verif Require Import Sums Tensor Interp Numpy Spec Diis Kernel P_driver.
From Coq Require Import List.
Import ListNotations.
Open Scope string_scope.
Open Scope list_scope.
Open Scope Qc_scope.

Definition orel {A B} (R : A -> B -> Prop) (x : option A) (y : option B) : Prop :=
  match x, y with Some a, Some b => R a b | None, None => True | _, _ => False end.
Lemma orel_bind {A A' B B'} (R : A -> A' -> Prop) (Q : B -> B' -> Prop) x y f g :
  orel R x y -> (forall a b, R a b -> orel Q (f a) (g b)) -> orel Q (obind x f) (obind y g).
Proof. destruct x, y; cbn [orel obind]; auto; contradiction. Qed.
Lemma orel_refl {A} (x : option A) : orel eq x x. Proof. destruct x; cbn; auto. Qed.
Definition tlin (sh : list nat) (a b : Qc) (t u : tensor) : tensor := mkT sh (fun i => a * data t i + b * data u i).
Definition tdot (sh : list nat) (t u : tensor) : Qc := suml (all_idx sh) (fun i => data t i * data u i).

Lemma Forall2_length {A B} (R : A -> B -> Prop) l l' : Forall2 R l l' -> length l = length l'.
Proof. induction 1; cbn; congruence. Qed.

Section Rel.
  Variable sh : string -> list nat.
  Variable P : string -> tensor -> tensor -> Prop.
  Hypothesis Psh : forall k t t', P k t t' -> shape t = sh k /\ shape t' = sh k.
  Hypothesis Pteq : forall k t t' u u', P k t t' -> teq u t -> teq u' t' -> P k u u'.
  Hypothesis Plin : forall k a b t t' u u', P k t t' -> P k u u' -> P k (tlin (sh k) a b t u) (tlin (sh k) a b t' u').
  Hypothesis Pdot : forall k t t' u u', P k t t' -> P k u u' -> tdot (sh k) t u = tdot (sh k) t' u'.

  (** *** Vectors *)
  Inductive vrel : list string -> vec -> vec -> Prop :=
  | vr_nil : vrel [] [] []
  | vr_cons k keys t t' v v' : P k t t' -> vrel keys v v' -> vrel (k :: keys) (flatten t ++ v) (flatten t' ++ v').
  Lemma flen k t t' : P k t t' -> length (flatten t) = size (sh k) /\ length (flatten t') = size (sh k).
  Proof. intros H. destruct (Psh _ _ _ H) as [E1 E2]. rewrite !flatten_length, E1, E2. auto. Qed.
  Lemma vrel_len keys v v' : vrel keys v v' -> length v = fold_right plus 0%nat (map (fun k => size (sh k)) keys) /\ length v' = length v.
  Proof.
    induction 1 as [|k keys t t' v v' H _ [IH1 IH2]]; [split; reflexivity|]. destruct (flen _ _ _ H) as [E1 E2]. rewrite !app_length, E1, E2, IH2, IH1. split; reflexivity.
  Qed.
  Lemma zipw_app2' {X} (f : X -> X -> X) a b : forall c d, length a = length c -> zipw f (a ++ b) (c ++ d) = zipw f a c ++ zipw f b d.
  Proof. induction a as [|x a IH]; intros [|y c] d L; try discriminate; [reflexivity|]. unfold zipw in *. cbn [app combine map]. f_equal. apply IH. cbn in L. lia. Qed.
  Lemma flat_lin sh' a b t u : shape t = sh' -> shape u = sh' -> zipw (fun x y => a * x + b * y) (flatten t) (flatten u) = flatten (tlin sh' a b t u).
  Proof.
    intros E1 E2. unfold flatten, tlin. cbn [shape data]. rewrite E1, E2. induction (all_idx sh') as [|i l IH]; [reflexivity|]. unfold zipw in *. cbn [map combine]. f_equal. exact IH.
  Qed.
  Lemma vrel_lin keys a b : forall v v' u u', vrel keys v v' -> vrel keys u u' ->
    vrel keys (zipw (fun x y => a * x + b * y) v u) (zipw (fun x y => a * x + b * y) v' u').
  Proof.
    induction keys as [|k keys IH]; intros v v' u u' H K.
    - inversion H; inversion K; subst. constructor.
    - inversion H as [|? ? t t' w w' P1 V1]; inversion K as [|? ? s s' x x' P2 V2]; subst.
      destruct (flen _ _ _ P1) as [L1 L2], (flen _ _ _ P2) as [L3 L4]. rewrite !zipw_app2' by congruence.
      destruct (Psh _ _ _ P1) as [S1 S2], (Psh _ _ _ P2) as [S3 S4]. rewrite (flat_lin (sh k) a b t s S1 S3), (flat_lin (sh k) a b t' s' S2 S4).
      constructor; [apply Plin; assumption|apply IH; assumption].
  Qed.
  Lemma zipw_ext {X Y Z} (f g : X -> Y -> Z) a : forall b, (forall x y, f x y = g x y) -> zipw f a b = zipw g a b.
  Proof. intros b H. unfold zipw. apply map_ext. intros [x y]. apply H. Qed.
  Lemma vrel_sub keys v v' u u' : vrel keys v v' -> vrel keys u u' -> vrel keys (zipw Qcminus v u) (zipw Qcminus v' u').
  Proof.
    intros H K. rewrite (zipw_ext Qcminus (fun x y => 1 * x + - (1) * y) v u), (zipw_ext Qcminus (fun x y => 1 * x + - (1) * y) v' u') by (intros; ring). apply vrel_lin; assumption.
  Qed.
  Lemma zipw_map_r {X} (f : X -> X -> X) (g : X -> X) a : forall b, zipw f a (map g b) = zipw (fun x y => f x (g y)) a b.
  Proof. induction a as [|x a IH]; intros [|y b]; try reflexivity. unfold zipw in *. cbn [map combine]. f_equal. apply IH. Qed.
  Lemma vrel_axpy keys c v v' u u' : vrel keys v v' -> vrel keys u u' -> vrel keys (zipw Qcplus v (map (Qcmult c) u)) (zipw Qcplus v' (map (Qcmult c) u')).
  Proof.
    intros H K. rewrite !zipw_map_r. rewrite (zipw_ext (fun x y => x + c * y) (fun x y => 1 * x + c * y) v u), (zipw_ext (fun x y => x + c * y) (fun x y => 1 * x + c * y) v' u') by (intros; ring).
    apply vrel_lin; assumption.
  Qed.
  Lemma zipw_self {X} (f : X -> X -> X) a : zipw f a a = map (fun x => f x x) a.
  Proof. induction a as [|x a IH]; [reflexivity|]. unfold zipw in *. cbn [map combine]. f_equal. exact IH. Qed.
  Lemma vrel_zero keys v v' : vrel keys v v' -> vrel keys (map (fun _ => 0) v) (map (fun _ => 0) v').
  Proof.
    intros H. pose proof (vrel_lin keys 0 0 _ _ _ _ H H) as K. rewrite !zipw_self in K. rewrite (map_ext (fun x : Qc => 0 * x + 0 * x) (fun _ => 0)) in K by (intros; ring). exact K.
  Qed.
  Lemma suml_zipw_flat k t u : shape t = sh k -> shape u = sh k -> suml (zipw Qcmult (flatten t) (flatten u)) (fun x => x) = tdot (sh k) t u.
  Proof.
    intros E1 E2. unfold flatten, tdot. rewrite E1, E2. induction (all_idx (sh k)) as [|i l IH]; [reflexivity|]. unfold zipw in *. cbn [map combine suml fst snd]. rewrite IH. reflexivity.
  Qed.
  Lemma vrel_dot keys : forall v v' u u', vrel keys v v' -> vrel keys u u' -> suml (zipw Qcmult v u) (fun x => x) = suml (zipw Qcmult v' u') (fun x => x).
  Proof.
    induction keys as [|k keys IH]; intros v v' u u' H K.
    - inversion H; inversion K; subst. reflexivity.
    - inversion H as [|? ? t t' w w' P1 V1]; inversion K as [|? ? s s' x x' P2 V2]; subst.
      destruct (flen _ _ _ P1) as [L1 L2], (flen _ _ _ P2) as [L3 L4]. rewrite !zipw_app2', !suml_app by congruence. f_equal; [|apply IH; assumption].
      destruct (Psh _ _ _ P1) as [S1 S2], (Psh _ _ _ P2) as [S3 S4]. rewrite (suml_zipw_flat k t s), (suml_zipw_flat k t' s') by assumption. apply Pdot; assumption.
  Qed.
  Definition vrel0 keys (v v' : vec) : Prop := vrel keys v v' \/ (v = [] /\ v' = []).
  Lemma edot_rel keys v v' u u' : vrel0 keys v v' -> vrel0 keys u u' -> edot v u = edot v' u'.
  Proof.
    intros H K. unfold edot. destruct H as [H|[-> ->]], K as [K|[-> ->]].
    - destruct (vrel_len _ _ _ H) as [E1 E2], (vrel_len _ _ _ K) as [E3 E4]. rewrite E2, E4. destruct (Nat.eqb _ _); [|reflexivity]. f_equal. eapply vrel_dot; eassumption.
    - destruct (vrel_len _ _ _ H) as [E1 E2]. rewrite E2. cbn [length]. destruct (Nat.eqb_spec (length v) 0) as [Z|]; [|reflexivity].
      rewrite Z in E2. destruct v; [|discriminate]. destruct v'; [|discriminate]. reflexivity.
    - destruct (vrel_len _ _ _ K) as [E1 E2]. rewrite E2. destruct (Nat.eqb _ _); reflexivity.
    - reflexivity.
  Qed.
  Lemma nth_rel0 keys l l' i : Forall2 (vrel keys) l l' -> vrel0 keys (nth i l []) (nth i l' []).
  Proof. intros H. revert i. induction H as [|v v' l l' V _ IH]; intros [|i]; cbn [nth]; try (right; auto; fail); [left; exact V|apply IH]. Qed.
  Lemma get_bmat_rel keys dim es es' : Forall2 (vrel keys) es es' -> get_bmat dim es = get_bmat dim es'.
  Proof.
    intros H. unfold get_bmat. assert (E : forall l b, fold_left (bmat_step es) l b = fold_left (bmat_step es') l b).
    { induction l as [|[i j] l IH]; intros b; [reflexivity|]. cbn [fold_left]. rewrite IH. f_equal. unfold bmat_step. destruct b as [m|]; [|reflexivity]. cbn [obind].
      rewrite (edot_rel keys _ _ _ _ (nth_rel0 keys es es' i H) (nth_rel0 keys es es' j H)). reflexivity. }
    rewrite E. reflexivity.
  Qed.
  Lemma combination_rel keys c vs vs' : Forall2 (vrel keys) vs vs' -> orel (vrel keys) (combination c vs) (combination c vs').
  Proof.
    intros H. unfold combination. destruct H as [|v0 v0' l l' H0 HL]; [exact I|]. pose proof (Forall2_cons _ _ H0 HL) as H.
    assert (EL : length (v0' :: l') = length (v0 :: l)) by (symmetry; eapply Forall2_length; exact H). rewrite EL.
    set (vs := v0 :: l) in *. set (vs' := v0' :: l') in *.
    assert (G : forall m k acc acc', (k + m <= length vs)%nat -> orel (vrel keys) acc acc' ->
      orel (vrel keys) (fold_left (fun acc ii => do a <- acc; vbin Qcplus a (map (Qcmult (c ii)) (nth ii vs []))) (seq k m) acc)
                       (fold_left (fun acc ii => do a <- acc; vbin Qcplus a (map (Qcmult (c ii)) (nth ii vs' []))) (seq k m) acc')).
    { induction m as [|m IH]; intros k acc acc' Hk A; [exact A|]. cbn [seq fold_left]. apply IH; [lia|].
      apply (orel_bind _ _ _ _ _ _ A). intros a a' V. unfold vbin. rewrite !map_length.
      assert (VN : vrel keys (nth k vs []) (nth k vs' [])).
      { assert (Hk' : (k < length vs)%nat) by lia. revert Hk'. clear -H. clearbody vs vs'. revert k. induction H as [|x x' m m' V _ IH]; intros k Hk; [cbn in Hk; lia|]. destruct k as [|k]; [exact V|]. apply IH. cbn in Hk. lia. }
      destruct (vrel_len _ _ _ V) as [E1 E2], (vrel_len _ _ _ VN) as [E3 E4]. rewrite E2, E4. destruct (Nat.eqb _ _); [|exact I]. apply vrel_axpy; assumption. }
    apply G; [cbn; lia|]. apply vrel_zero. exact H0.
  Qed.

  (** *** DIIS *)
  Definition dsrel keys (d d' : diis) : Prop :=
    nvecs d = nvecs d' /\ start_iter d = start_iter d' /\ iter_idx d = iter_idx d' /\ Forall2 (vrel keys) (prev_vecs d) (prev_vecs d') /\ Forall2 (vrel keys) (error_vecs d) (error_vecs d').
  Lemma tl_rel {X} (R : X -> X -> Prop) l l' : Forall2 R l l' -> Forall2 R (tl l) (tl l').
  Proof. destruct 1; [constructor|assumption]. Qed.
  Lemma compute_rel keys solve d d' v v' e e' : dsrel keys d d' -> vrel keys v v' -> vrel keys e e' ->
    orel (fun x y => vrel keys (fst x) (fst y) /\ dsrel keys (snd x) (snd y)) (compute_new_vec solve d v e) (compute_new_vec solve d' v' e').
  Proof.
    intros [E1 [E2 [E3 [HP HE]]]] HV HR. unfold compute_new_vec. rewrite E2, E3. destruct (Nat.ltb _ _).
    - cbn [orel fst snd]. split; [exact HV|]. unfold dsrel. cbn. repeat split; first [congruence|assumption].
    - assert (P1 : Forall2 (vrel keys) (prev_vecs d ++ [v]) (prev_vecs d' ++ [v'])) by (apply Forall2_app; [exact HP|constructor; [exact HV|constructor]]).
      assert (Q1 : Forall2 (vrel keys) (error_vecs d ++ [e]) (error_vecs d' ++ [e'])) by (apply Forall2_app; [exact HE|constructor; [exact HR|constructor]]).
      assert (L1 : length (prev_vecs d ++ [v]) = length (prev_vecs d' ++ [v'])) by (eapply Forall2_length; exact P1).
      rewrite E1, L1. set (b := Nat.ltb _ _).
      assert (exists pv ev pv' ev', (if b then (tl (prev_vecs d ++ [v]), tl (error_vecs d ++ [e])) else (prev_vecs d ++ [v], error_vecs d ++ [e])) = (pv, ev) /\
        (if b then (tl (prev_vecs d' ++ [v']), tl (error_vecs d' ++ [e'])) else (prev_vecs d' ++ [v'], error_vecs d' ++ [e'])) = (pv', ev') /\ Forall2 (vrel keys) pv pv' /\ Forall2 (vrel keys) ev ev') as [pv [ev [pv' [ev' [X1 [X2 [P2 Q2]]]]]]].
      { destruct b; do 4 eexists; (split; [reflexivity|]); (split; [reflexivity|]); split; try assumption; apply tl_rel; assumption. }
      rewrite X1, X2. assert (L2 : length pv = length pv') by (eapply Forall2_length; exact P2). rewrite L2, (get_bmat_rel keys _ ev ev' Q2).
      apply (orel_bind eq); [apply orel_refl|]. intros br br' <-. apply (orel_bind eq); [apply orel_refl|]. intros co co' <-.
      apply (orel_bind _ _ _ _ _ _ (combination_rel keys co pv pv' P2)). intros w w' HW. cbn [orel fst snd]. split; [exact HW|]. unfold dsrel. cbn. repeat split; first [congruence|assumption].
  Qed.

  (** *** Dictionaries of amplitudes *)
  Definition drel (d d' : dict) : Prop := forall k, orel (P k) (slook k d) (slook k d').
  Lemma drel_sset d d' k t t' : drel d d' -> P k t t' -> drel (sset k t d) (sset k t' d').
  Proof.
    intros H HP j. destruct (string_dec k j) as [<-|N]; [rewrite !slook_sset_same; exact HP|]. rewrite !slook_sset_other by exact N. apply H.
  Qed.
  Lemma vectorise_rel keys d d' : drel d d' -> orel (vrel keys) (vectorise keys d) (vectorise keys d').
  Proof.
    intros H. unfold vectorise.
    assert (G : orel (fun ts ts' => vrel keys (hstack (map flatten ts)) (hstack (map flatten ts'))) (omap (fun k => slook k d) keys) (omap (fun k => slook k d') keys)).
    { induction keys as [|k keys IH]; [constructor|]. cbn [omap]. pose proof (H k) as Hk. destruct (slook k d) as [t|], (slook k d') as [t'|]; cbn [orel] in Hk; try contradiction; [|exact I].
      destruct (omap _ keys) as [ts|], (omap (fun k => slook k d') keys) as [ts'|]; cbn [orel] in *; try contradiction; [|exact I].
      unfold hstack in *. cbn [map concat]. constructor; assumption. }
    apply (orel_bind _ _ _ _ _ _ G). intros ts ts' V. exact V.
  Qed.
  Lemma reflat k t t' : P k t t' -> P k (mkT (shape t) (fun idx => nth (ravel (shape t) idx) (flatten t) 0)) (mkT (shape t') (fun idx => nth (ravel (shape t') idx) (flatten t') 0)).
  Proof. intros H. eapply Pteq; [exact H|apply reflat_teq|apply reflat_teq]. Qed.
  Lemma unvectorise_rel keys : forall v v' d d' pre pre', vrel keys v v' -> drel d d' -> length pre = length pre' ->
    orel drel (unvectorise keys (length pre) (pre ++ v) d) (unvectorise keys (length pre') (pre' ++ v') d').
  Proof.
    induction keys as [|k keys IH]; intros v v' d d' pre pre' V D L; [exact D|].
    inversion V as [|? ? t t' w w' P1 V1]; subst. destruct (Psh _ _ _ P1) as [S1 S2].
    pose proof (D k) as Dk. destruct keys as [|k2 keys].
    - inversion V1; subst. cbn [unvectorise]. destruct (slook k d) as [u|] eqn:Eu, (slook k d') as [u'|] eqn:Eu'; cbn [orel obind] in *; try contradiction; [|exact I].
      destruct (Psh _ _ _ Dk) as [S3 S4]. rewrite !vfrom_end, !app_nil_r, S3, S4.
      assert (R1 : reshape (sh k) (flatten t) = Some (mkT (shape t) (fun idx => nth (ravel (shape t) idx) (flatten t) 0))) by (rewrite <- S1; apply reshape_flatten').
      assert (R2 : reshape (sh k) (flatten t') = Some (mkT (shape t') (fun idx => nth (ravel (shape t') idx) (flatten t') 0))) by (rewrite <- S2; apply reshape_flatten').
      rewrite R1, R2. cbn [obind orel].
      apply drel_sset; [exact D|apply reflat; exact P1].
    - set (ks := k2 :: keys) in *.
      assert (EU : forall (d : dict) t w pre, shape t = sh k -> unvectorise (k :: ks) (length pre) (pre ++ flatten t ++ w) d =
        do u <- slook k d; do x <- reshape (shape u) (vslice (length pre) (length pre + size (shape u)) (pre ++ flatten t ++ w)); unvectorise ks (length pre + size (shape u)) (pre ++ flatten t ++ w) (sset k x d)) by reflexivity.
      rewrite !EU by assumption. clear EU.
      destruct (slook k d) as [u|] eqn:Eu, (slook k d') as [u'|] eqn:Eu'; cbn [orel obind] in *; try contradiction; [|exact I].
      destruct (Psh _ _ _ Dk) as [S3 S4]. rewrite S3, S4.
      assert (L1 : size (sh k) = length (flatten t)) by (rewrite flatten_length, S1; reflexivity). assert (L2 : size (sh k) = length (flatten t')) by (rewrite flatten_length, S2; reflexivity).
      assert (A1 : vslice (length pre) (length pre + size (sh k)) (pre ++ flatten t ++ w) = flatten t) by (rewrite L1; apply vslice_mid).
      assert (A2 : vslice (length pre') (length pre' + size (sh k)) (pre' ++ flatten t' ++ w') = flatten t') by (rewrite L2; apply vslice_mid).
      assert (R1 : reshape (sh k) (flatten t) = Some (mkT (shape t) (fun idx => nth (ravel (shape t) idx) (flatten t) 0))) by (rewrite <- S1; apply reshape_flatten').
      assert (R2 : reshape (sh k) (flatten t') = Some (mkT (shape t') (fun idx => nth (ravel (shape t') idx) (flatten t') 0))) by (rewrite <- S2; apply reshape_flatten').
      rewrite A1, A2, R1, R2. cbn [obind].
      assert (B1 : (length pre + size (sh k))%nat = length (pre ++ flatten t)) by (rewrite app_length, L1; reflexivity).
      assert (B2 : (length pre' + size (sh k))%nat = length (pre' ++ flatten t')) by (rewrite app_length, L2; reflexivity).
      rewrite B1, B2, !app_assoc. apply IH; [exact V1|apply drel_sset; [exact D|apply reflat; exact P1]|rewrite !app_length; congruence].
  Qed.

  (** *** The driver *)
  Variables W W' : Type.
  Variable WR : W -> W' -> Prop.
  Variable solve : solver.
  Variable resid : resid_fn -> dict -> dict -> W -> option (dict * W).
  Variable resid' : resid_fn -> dict -> dict -> W' -> option (dict * W').
  Variable energy : energy_fn -> dict -> W -> option (Qc * W).
  Variable energy' : energy_fn -> dict -> W' -> option (Qc * W').
  Variable pert : energy_fn -> dict -> dict -> W -> option (Qc * W).
  Variable pert' : energy_fn -> dict -> dict -> W' -> option (Qc * W').
  Variables guess guess' : dict -> option dict.
  Variable c : calc.
  Variable LR : dict -> dict -> Prop.                       (* the l2 dictionaries *)
  Hypothesis HL : forall d d', drel d d' -> orel LR (l2_of d) (l2_of d').
  Hypothesis HR : forall rf d d' l l' w w', resid_call c = Some rf -> drel d d' -> LR l l' -> WR w w' ->
    orel (fun x y => drel (fst x) (fst y) /\ WR (snd x) (snd y)) (resid rf d l w) (resid' rf d' l' w').
  Hypothesis HE : forall ef d d' w w', energy_call c = Some ef -> drel d d' -> WR w w' -> orel (fun x y => fst x = fst y /\ WR (snd x) (snd y)) (energy ef d w) (energy' ef d' w').
  Hypothesis HP : forall ef d d' l l' w w', (ef = E_t2energySlow \/ (cc_label c =? "ccdTypeSlow") = false) -> drel d d' -> LR l l' -> WR w w' -> orel (fun x y => fst x = fst y /\ WR (snd x) (snd y)) (pert ef d l w) (pert' ef d' l' w').
  Hypothesis HG : forall d d', drel d d' -> orel drel (guess d) (guess' d').
  Notation keys := (vec_keys (cc_type c)).
  Definition strel (s : kstate W) (s' : kstate W') : Prop :=
    drel (amps _ s) (amps _ s') /\ WR (world _ s) (world _ s') /\
    (diis_size c <> None -> vrel keys (old_vec _ s) (old_vec _ s') \/ length (old_vec _ s) = length (old_vec _ s') /\ length (old_vec _ s) <> fold_right plus 0%nat (map (fun k => size (sh k)) keys)) /\
    (diis_size c <> None -> dsrel keys (dstate _ s) (dstate _ s')).
  Lemma block_rel s s' : strel s s' -> orel (fun x y => strel x y /\ l2amps _ x = l2amps _ s /\ l2amps _ y = l2amps _ s') (diis_block _ solve c s) (diis_block _ solve c s').
  Proof.
    intros [A [B [C D]]]. unfold diis_block. destruct (diis_size c) as [n|] eqn:ED; [|cbn [orel]; split; [|split; reflexivity]; unfold strel; rewrite ED; split; [exact A|]; split; [exact B|]; split; intros N; exfalso; apply N; reflexivity].
    specialize (C ltac:(discriminate)). specialize (D ltac:(discriminate)).
    apply (orel_bind _ _ _ _ _ _ (vectorise_rel keys _ _ A)). intros v v' V.
    destruct (vrel_len _ _ _ V) as [E1 E2]. unfold vbin at 1 2.
    destruct C as [C|[C1 C2]].
    2:{ rewrite E2, <- C1, E1. destruct (Nat.eqb_spec (length (old_vec _ s)) (fold_right plus 0%nat (map (fun k => size (sh k)) keys))); [contradiction|exact I]. }
    destruct (vrel_len _ _ _ C) as [E3 E4]. rewrite E2, E4, E1, E3, Nat.eqb_refl. cbn [obind].
    apply (orel_bind _ _ _ _ _ _ (compute_rel keys solve _ _ _ _ _ _ D V (vrel_sub _ _ _ _ _ C V))). intros [x1 x2] [y1 y2] [X Y]. cbn [fst snd] in *.
    apply (orel_bind _ _ _ _ _ _ (unvectorise_rel keys x1 y1 _ _ [] [] X A eq_refl)). intros d d' DD. cbn [orel]. split; [|split; reflexivity]. unfold strel; cbn [amps world old_vec dstate]; split; [exact DD|]; split; [exact B|]; split; intros _; [left; exact X|exact Y].
  Qed.
  Lemma iteration_rel s s' : strel s s' -> orel (fun x y => strel (fst x) (fst y) /\ LR (l2amps _ (fst x)) (l2amps _ (fst y)) /\ snd x = snd y) (iteration _ solve resid energy c s) (iteration _ solve resid' energy' c s').
  Proof.
    intros ST. unfold iteration. pose proof ST as [A [B [C D]]].
    apply (orel_bind _ _ _ _ _ _ (HL _ _ A)). intros l l' HLL. destruct (resid_call c) as [rf|] eqn:Erf; [|exact I]. cbn [obind].
    apply (orel_bind _ _ _ _ _ _ (HR rf _ _ _ _ _ _ eq_refl A HLL B)). intros [d1 w1] [d2 w2] [X Y]. cbn [fst snd] in *.
    assert (S1 : strel (mkSt _ d1 l (old_vec _ s) (dstate _ s) w1) (mkSt _ d2 l' (old_vec _ s') (dstate _ s') w2)) by (unfold strel; cbn [amps world old_vec dstate]; auto).
    apply (orel_bind _ _ _ _ _ _ (block_rel _ _ S1)). intros a b [[A1 [B1 [C1 D1]]] [L1 L2]]. cbn [l2amps] in L1, L2.
    destruct (energy_call c) as [ef|] eqn:Eef; [|exact I]. cbn [obind].
    apply (orel_bind _ _ _ _ _ _ (HE ef _ _ _ _ eq_refl A1 B1)). intros [e1 u1] [e2 u2] [E U]. cbn [fst snd orel] in *.
    split; [unfold strel; cbn [amps world old_vec dstate]; auto|]. cbn [l2amps]. rewrite L1, L2. auto.
  Qed.
  Lemma loop_rel n : forall idx s s' old cur, strel s s' -> LR (l2amps _ s) (l2amps _ s') ->
    match loop _ solve resid energy c n idx s old cur, loop _ solve resid' energy' c n idx s' old cur with
    | LDone _ a x, LDone _ b y => strel a b /\ x = y /\ LR (l2amps _ a) (l2amps _ b) | LExit _, LExit _ => True | LRaise _, LRaise _ => True | _, _ => False end.
  Proof.
    induction n as [|n IH]; intros idx s s' old cur H HLL; cbn [loop]; [auto|].
    destruct (Nat.ltb 75 idx); [exact I|]. pose proof (iteration_rel s s' H) as HI.
    destruct (iteration _ _ _ _ _ s) as [[a x]|], (iteration _ _ _ _ _ s') as [[b y]|]; cbn [orel fst snd] in HI; try contradiction; [|exact I].
    destruct HI as [HI [HL2 <-]]. destruct (Qclt_le_dec _ _); [auto|]. destruct (Nat.ltb _ _); [exact I|]. apply IH; assumption.
  Qed.
  Lemma finalize_rel e d d' l l' w w' : drel d d' -> LR l l' -> WR w w' -> finalize _ pert c e d l w = finalize _ pert' c e d' l' w'.
  Proof.
    intros A B C. unfold finalize. set (pe := if cc_label c =? "ccdType" then _ else _). set (p0 := if negb _ then _ else _).
    assert (PE : forall ef, pe = Some ef -> ef = E_t2energySlow \/ (cc_label c =? "ccdTypeSlow") = false).
    { intros ef. unfold pe. destruct (String.eqb_spec (cc_label c) "ccdType") as [->|]; [right; reflexivity|].
      destruct (String.eqb_spec (cc_label c) "ccdTypeSlow") as [_|]; [intros H; injection H as <-; left; reflexivity|right; reflexivity]. }
    set (q := if is_qf c then _ else _).
    assert (Q : orel (fun x y => fst x = fst y /\ WR (snd x) (snd y)) q (if is_qf c then do ef <- pe; do qw <- pert' ef d' l' w'; Some (Some (e + nucE c + fst qw, fst qw), snd qw) else Some (p0, w'))).
    { unfold q. destruct (is_qf c); [|cbn; auto]. destruct pe as [ef|] eqn:EE; [|exact I]. cbn [obind].
      apply (orel_bind _ _ _ _ _ _ (HP ef _ _ _ _ _ _ (PE ef eq_refl) A B C)). intros [x1 x2] [y1 y2] [-> Y]. cbn [fst snd orel] in *. auto. }
    clearbody q. set (q' := if is_qf c then _ else _) in *. clearbody q'.
    destruct q as [[a1 a2]|], q' as [[b1 b2]|]; cbn [orel fst snd] in Q; try contradiction; [|reflexivity]. destruct Q as [-> Q]. cbn [obind fst snd].
    destruct (contains "UT2" (cc_type c)); [|reflexivity].
    pose proof (HP E_t2energySlow _ _ _ _ _ _ (or_introl eq_refl) A B Q) as H.
    destruct (pert E_t2energySlow d l a2) as [[x1 x2]|], (pert' E_t2energySlow d' l' b2) as [[y1 y2]|]; cbn [orel fst snd] in H; try contradiction; [|reflexivity].
    destruct H as [-> _]. reflexivity.
  Qed.
  (** the two runs end alike *)
  Definition outrel (x y : outcome) : Prop :=
    match x, y with
    | Returned d e co, Returned d' e' co' => drel d d' /\ e' = e /\ co' = co
    | SysExit, SysExit => True | Raised, Raised => True | _, _ => False
    end.
  Hypothesis PR : forall d d', drel d d' -> printable d = printable d'.
  Hypothesis L0 : LR [] [].
  Theorem kernel_rel d0 d0' ov ov' w w' : drel d0 d0' -> WR w w' ->
    (diis_size c <> None -> vrel keys ov ov' \/ length ov = length ov' /\ length ov <> fold_right plus 0%nat (map (fun k => size (sh k)) keys)) ->
    outrel (kernel _ solve resid energy pert guess c d0 ov w) (kernel _ solve resid' energy' pert' guess' c d0' ov' w').
  Proof.
    intros D0 HW OV. unfold kernel.
    assert (ST : orel (fun x y => strel (fst x) (fst y) /\ LR (l2amps _ (fst x)) (l2amps _ (fst y)) /\ snd x = snd y) (start _ energy guess c d0 ov w) (start _ energy' guess' c d0' ov' w')).
    { unfold start. apply (orel_bind drel); [destruct (cc_label c =? "ccdTypeSlow"); [apply HG; exact D0|exact D0]|]. intros d1 d1' D1.
      destruct (energy_call c) as [ef|] eqn:Eef; [|exact I]. cbn [obind].
      apply (orel_bind _ _ _ _ _ _ (HE ef _ _ _ _ eq_refl D1 HW)). intros [e1 u1] [e2 u2] [E U]. cbn [fst snd orel] in *. split; [|split; [exact L0|exact E]].
      unfold strel; cbn [amps world old_vec dstate]; split; [exact D1|]; split; [exact U|]; split; [exact OV|]; intros _. unfold dsrel. cbn. repeat split; constructor. }
    destruct (start _ energy guess c d0 ov w) as [[s0 e0]|], (start _ energy' guess' c d0' ov' w') as [[s0' e0']|]; cbn [orel fst snd] in ST; try contradiction; [|exact I].
    destruct ST as [ST [SL <-]]. pose proof (loop_rel (max_iter c) 0 s0 s0' e0 None ST SL) as HLP.
    destruct (loop _ solve resid energy c _ _ s0 _ _) as [s cur| |], (loop _ solve resid' energy' c _ _ s0' _ _) as [s' cur'| |]; try contradiction; try exact I.
    destruct HLP as [[A [B _]] [<- LL]]. destruct cur as [e|]; [|exact I]. rewrite <- (PR _ _ A). destruct (printable _); [|exact I].
    rewrite <- (finalize_rel e _ _ _ _ _ _ A LL B). destruct (finalize _ pert c e _ _ _) as [[tf co]|]; [|exact I]. cbn [outrel]. auto.
  Qed.
End Rel.
