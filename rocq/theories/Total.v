(** When a pass of the kernel cannot fail: the DIIS block and the loop around it (used for C70). *)
From Coq Require Import String Ascii List Arith NArith ZArith QArith Qcanon Bool Lia.
From Verif Require Import Sums Tensor Interp Numpy Diis Kernel P_driver P_kernel.
Import ListNotations.
Open Scope list_scope.
Open Scope Qc_scope.

Section Shapes.
  (** the shape of the array kept under each name *)
  Variable sh : string -> list nat.
  Definition shaped (d : dict) : Prop := forall k t, slook k d = Some t -> shape t = sh k.
  Definition has (ks : list string) (d : dict) : Prop := forall k, In k ks -> slook k d <> None.
  Definition len (ks : list string) : nat := fold_right plus 0%nat (map (fun k => size (sh k)) ks).

  Lemma vectorise_total ks d : shaped d -> has ks d -> exists v, vectorise ks d = Some v /\ length v = len ks.
  Proof.
    intros HS. unfold vectorise, len. induction ks as [|k ks IH]; intros HH; [exists []; split; reflexivity|].
    destruct IH as [v [E L]]; [intros x Hx; apply HH; right; exact Hx|]. destruct (slook k d) as [t|] eqn:Ek; [|destruct (HH k (or_introl eq_refl) Ek)].
    destruct (omap (fun k => slook k d) ks) as [ts|] eqn:Eo; cbn [obind] in E; [|discriminate]. injection E as <-.
    cbn [omap]. rewrite Ek, Eo. cbn [obind]. eexists. split; [reflexivity|]. unfold hstack in *. cbn [map concat fold_right]. rewrite app_length, L, flatten_length, (HS _ _ Ek). reflexivity.
  Qed.
  Lemma shaped_sset d k t : shaped d -> shape t = sh k -> shaped (sset k t d).
  Proof.
    intros HS Ht k' t' E. destruct (string_dec k k') as [<-|N].
    - rewrite slook_sset_same in E. injection E as <-. exact Ht.
    - rewrite slook_sset_other in E by exact N. exact (HS _ _ E).
  Qed.
  Lemma has_sset ks d k t : has ks d -> has ks (sset k t d).
  Proof.
    intros H k' I. destruct (string_dec k k') as [<-|N]; [rewrite slook_sset_same; discriminate|rewrite slook_sset_other by exact N; exact (H _ I)].
  Qed.
  Lemma unvectorise_total ks : forall off v d, shaped d -> has ks d -> length v = (off + len ks)%nat ->
    exists d', unvectorise ks off v d = Some d' /\ shaped d' /\ (forall X, has X d -> has X d').
  Proof.
    induction ks as [|k ks IH]; intros off v d HS HH HL; [exists d; cbn; auto|].
    destruct (slook k d) as [t|] eqn:Ek; [|destruct (HH k (or_introl eq_refl) Ek)]. pose proof (HS _ _ Ek) as St. unfold len in HL. cbn [map fold_right] in HL.
    destruct ks as [|k2 ks].
    - cbn [unvectorise]. rewrite Ek. cbn [obind]. unfold reshape, vfrom. rewrite skipn_length, HL, St. cbn [map fold_right].
      replace (Nat.eqb _ _) with true by (symmetry; apply Nat.eqb_eq; lia). cbn [obind]. eexists. split; [reflexivity|]. split; [apply shaped_sset; [exact HS|reflexivity]|]. intros X; apply has_sset.
    - change (unvectorise (k :: k2 :: ks) off v d) with
        (do t <- slook k d; do t' <- reshape (shape t) (vslice off (off + size (shape t)) v); unvectorise (k2 :: ks) (off + size (shape t)) v (sset k t' d)).
      rewrite Ek. cbn [obind]. unfold reshape, vslice. rewrite firstn_length, skipn_length, HL, St.
      replace (Nat.eqb _ _) with true by (symmetry; apply Nat.eqb_eq; lia). cbn [obind].
      match goal with |- context [sset k ?t' d] => destruct (IH (off + size (sh k))%nat v (sset k t' d)) as [d' [E [S' H']]] end.
      + apply shaped_sset; [exact HS|reflexivity].
      + apply has_sset. intros x Hx. apply HH. right. exact Hx.
      + rewrite HL. unfold len. lia.
      + exists d'. split; [exact E|]. split; [exact S'|]. intros X HX. apply H', has_sset, HX.
  Qed.

  (** *** DIIS *)
  Variable L : nat.
  Notation lenL := (Forall (fun v : vec => length v = L)).
  Definition dgood (ds : diis) : Prop := (0 < nvecs ds)%nat /\ lenL (prev_vecs ds) /\ lenL (error_vecs ds) /\ length (prev_vecs ds) = length (error_vecs ds).
  Lemma fold_bmat_total es l : (forall i j, In (i, j) l -> length (nth i es []) = length (nth j es [])) -> forall b, exists b', fold_left (bmat_step es) l (Some b) = Some b'.
  Proof.
    induction l as [|[i j] l IH]; intros H b; [exists b; reflexivity|]. cbn [fold_left bmat_step obind].
    assert (IH' : forall b, exists b', fold_left (bmat_step es) l (Some b) = Some b') by (apply IH; intros p q I; apply H; right; exact I).
    destruct (Nat.leb i j); [|apply IH']. unfold edot. rewrite (H i j (or_introl eq_refl)), Nat.eqb_refl. cbn [obind]. apply IH'.
  Qed.
  Lemma bmat_total es : lenL es -> exists br, get_bmat (length es) es = Some br.
  Proof.
    intros HE. unfold get_bmat. destruct (fold_bmat_total es (list_prod (seq 0 (length es)) (seq 0 (length es)))) with (b := fun _ _ : nat => 0) as [b ->]; [|cbn [obind]; eauto].
    intros i j I. apply in_prod_iff in I. rewrite !in_seq in I. rewrite Forall_forall in HE. rewrite !HE; [reflexivity|apply nth_In; lia|apply nth_In; lia].
  Qed.
  Lemma fold_comb_total cf vs is : (forall i, In i is -> (i < length vs)%nat) -> lenL vs -> forall a, length a = L ->
    exists v, fold_left (fun acc ii => do a <- acc; vbin Qcplus a (map (Qcmult (cf ii)) (nth ii vs []))) is (Some a) = Some v /\ length v = L.
  Proof.
    intros HI HV. induction is as [|i is IH]; intros a Ha; [exists a; split; [reflexivity|exact Ha]|]. cbn [fold_left obind].
    assert (E : length (nth i vs []) = L) by (rewrite Forall_forall in HV; apply HV, nth_In, HI; left; reflexivity).
    assert (EV : vbin Qcplus a (map (Qcmult (cf i)) (nth i vs [])) = Some (zipw Qcplus a (map (Qcmult (cf i)) (nth i vs [])))) by (unfold vbin; rewrite map_length, E, Ha, Nat.eqb_refl; reflexivity).
    rewrite EV. apply IH; [intros x Hx; apply HI; right; exact Hx|].
    unfold zipw. rewrite map_length, combine_length, map_length, E, Ha. apply Nat.min_id.
  Qed.
  Lemma comb_total cf vs : lenL vs -> (0 < length vs)%nat -> exists v, combination cf vs = Some v /\ length v = L.
  Proof.
    intros HV H. unfold combination. destruct vs as [|v0 vs]; [cbn in H; lia|]. apply fold_comb_total; [intros i I; apply in_seq in I; lia|exact HV|].
    rewrite map_length. inversion HV; assumption.
  Qed.
  Lemma compute_total solve ds v e : (forall n B r, solve n B r <> None) -> dgood ds -> length v = L -> length e = L ->
    exists v' ds', compute_new_vec solve ds v e = Some (v', ds') /\ length v' = L /\ dgood ds' /\ nvecs ds' = nvecs ds.
  Proof.
    intros HSo [Hn [Hp [He Hl]]] Hv Hee. unfold compute_new_vec. destruct (Nat.ltb (iter_idx ds) (start_iter ds)).
    - eexists _, _. split; [reflexivity|]. split; [exact Hv|]. split; [|reflexivity]. split; [exact Hn|]. auto.
    - assert (Lp : lenL (prev_vecs ds ++ [v])) by (apply Forall_app; split; [exact Hp|constructor; [exact Hv|constructor]]).
      assert (Le : lenL (error_vecs ds ++ [e])) by (apply Forall_app; split; [exact He|constructor; [exact Hee|constructor]]).
      assert (LL : length (prev_vecs ds ++ [v]) = length (error_vecs ds ++ [e])) by (rewrite !app_length, Hl; reflexivity).
      assert (N1 : (0 < length (prev_vecs ds ++ [v]))%nat) by (rewrite app_length; cbn; lia).
      assert (X : exists pv ev, (if Nat.ltb (nvecs ds) (length (prev_vecs ds ++ [v])) then (tl (prev_vecs ds ++ [v]), tl (error_vecs ds ++ [e])) else (prev_vecs ds ++ [v], error_vecs ds ++ [e])) = (pv, ev) /\
        lenL pv /\ lenL ev /\ length pv = length ev /\ (0 < length pv)%nat).
      { destruct (Nat.ltb_spec (nvecs ds) (length (prev_vecs ds ++ [v]))) as [B|B]; [|eexists _, _; split; [reflexivity|]; auto].
        eexists _, _. split; [reflexivity|]. destruct (prev_vecs ds ++ [v]) as [|p0 pr], (error_vecs ds ++ [e]) as [|e0 er]; cbn [length] in *; try lia.
        cbn [tl]. inversion Lp; inversion Le; subst. split; [assumption|]. split; [assumption|]. split; lia. }
      destruct X as [pv [ev [-> [X1 [X2 [X3 X4]]]]]]. rewrite X3. destruct (bmat_total ev X2) as [br ->]. cbn [obind].
      destruct (solve _ _ _) as [cf|] eqn:ES; [|destruct (HSo _ _ _ ES)]. cbn [obind]. destruct (comb_total cf pv X1 X4) as [v' [-> Lv']]. cbn [obind].
      eexists _, _. split; [reflexivity|]. split; [exact Lv'|]. split; [|reflexivity]. split; [exact Hn|]. cbn [prev_vecs error_vecs]. auto.
  Qed.
End Shapes.

(** *** The DIIS block *)
Section Block.
  Variable sh : string -> list nat.
  Variable World : Type.
  Variable solve : solver.
  Variable c : calc.
  Hypothesis SOK : forall n B r, solve n B r <> None.
  Definition diis_ready (s : kstate World) : Prop := match diis_size c with
    | None => True
    | Some _ => length (old_vec World s) = len sh (vec_keys (cc_type c)) /\ dgood (len sh (vec_keys (cc_type c))) (dstate World s)
    end.
  Lemma block_total s : diis_ready s -> shaped sh (amps World s) -> (diis_size c <> None -> has (vec_keys (cc_type c)) (amps World s)) ->
    exists s', diis_block World solve c s = Some s' /\ diis_ready s' /\ shaped sh (amps World s') /\ (forall X, has X (amps World s) -> has X (amps World s')) /\
      world World s' = world World s /\ l2amps World s' = l2amps World s.
  Proof using SOK.
    intros R S H. unfold diis_block, diis_ready in *. destruct (diis_size c) as [n|] eqn:EN.
    - destruct R as [R1 R2]. specialize (H ltac:(discriminate)).
      destruct (vectorise_total sh _ _ S H) as [v [-> Lv]]. cbn [obind]. unfold vbin. rewrite R1, Lv, Nat.eqb_refl. cbn [obind].
      destruct (compute_total _ solve (dstate World s) v (zipw Qcminus (old_vec World s) v) SOK R2 Lv) as [v' [ds' [-> [Lv' [D' _]]]]].
      { unfold zipw. rewrite map_length, combine_length, R1, Lv. apply Nat.min_id. }
      cbn [obind fst snd]. destruct (unvectorise_total sh (vec_keys (cc_type c)) 0 v' (amps World s) S H Lv') as [d' [-> [S' H']]]. cbn [obind].
      eexists. split; [reflexivity|]. cbn [old_vec dstate amps world l2amps]. auto.
    - exists s. auto 10.
  Qed.
End Block.

(** *** The loop *)
Section Loop.
  Variable World : Type.
  Variable solve : solver.
  Variable resid : resid_fn -> dict -> dict -> World -> option (dict * World).
  Variable energy : energy_fn -> dict -> World -> option (Qc * World).
  Variable pert : energy_fn -> dict -> dict -> World -> option (Qc * World).
  Variable first_guess : dict -> option dict.
  Variable c : calc.
  (* [I]: what a pass needs; [J]: what it leaves behind *)
  Variables I J : kstate World -> Prop.
  Hypothesis JI : forall s, J s -> I s.
  Hypothesis IS : forall s, I s -> exists s' e, iteration World solve resid energy c s = Some (s', e) /\ J s'.
  Lemma loop_total2 n : forall idx s old cur, (idx + n = max_iter c)%nat -> I s -> (n > 0)%nat \/ (cur <> None /\ J s) ->
    (exists s' e, loop World solve resid energy c n idx s old cur = LDone World s' (Some e) /\ J s') \/
    (loop World solve resid energy c n idx s old cur = LExit World /\ (76 < max_iter c)%nat).
  Proof using IS JI.
    induction n as [|n IH]; intros idx s old cur HI W HC; cbn [loop].
    - left. destruct HC as [HC|[HC HJ]]; [lia|]. destruct cur as [e|]; [exists s, e; auto|contradiction].
    - destruct (Nat.ltb_spec 75 idx); [right; split; [reflexivity|lia]|]. destruct (IS s W) as [s' [e [-> W']]]. destruct (Qclt_le_dec _ _); [left; exists s', e; auto|].
      destruct (Nat.ltb_spec (max_iter c) idx); [lia|]. apply IH; [lia|exact (JI _ W')|right; split; [discriminate|exact W']].
  Qed.
  Theorem kernel_total2 d0 ov w s0 e0 : start World energy first_guess c d0 ov w = Some (s0, e0) -> I s0 -> (0 < max_iter c)%nat ->
    (forall s e, J s -> printable (amps World s) = true /\ exists r, finalize World pert c e (amps World s) (l2amps World s) (world World s) = Some r) ->
    (exists d tf co, kernel World solve resid energy pert first_guess c d0 ov w = Returned d tf co) \/
    kernel World solve resid energy pert first_guess c d0 ov w = SysExit /\ (76 < max_iter c)%nat.
  Proof using IS JI.
    intros HS W HM HF. unfold kernel. rewrite HS.
    destruct (loop_total2 (max_iter c) 0 s0 e0 None eq_refl W (or_introl HM)) as [[s' [e [-> W']]]|[-> HB]]; [|right; split; [reflexivity|exact HB]].
    left. destruct (HF s' e W') as [-> [[tf co] ->]]. eauto.
  Qed.
End Loop.
Definition kernel_total World solve resid energy pert first_guess c I IS := kernel_total2 World solve resid energy pert first_guess c I I (fun _ H => H) IS.
