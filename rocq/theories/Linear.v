(** Proof machinery for the iterative driver: a property of amplitude arrays that is preserved by linear
    combinations and by the residual routine holds of all iterates, with or without DIIS. *)
From Coq Require Import String Ascii List Arith ZArith QArith Qcanon Bool Lia.
From Verif Require Import Sums Tensor Interp Numpy Spec Diis P_diis Kernel P_kernel P_driver.
Import ListNotations.
Open Scope string_scope.

Definition lincomb (sh : list nat) (n : nat) (c : nat -> Qc) (ts : nat -> tensor) : tensor :=
  mkT sh (fun idx => Sum i < n, c i * data (ts i) idx)%Qc.

(** position of an entry of a stacked vector *)
Definition tz : tensor := tzeros [].
Lemma stack_pos shs : forall k, exists j idx, (k < fold_right plus 0 (map size shs) -> j < length shs /\ inr idx (nth j shs []))%nat /\
  forall ts, map shape ts = shs -> (k < fold_right plus 0 (map size shs))%nat ->
    nth k (hstack (map flatten ts)) 0%Qc = data (nth j ts tz) idx.
Proof.
  induction shs as [|sh shs IH]; intros k.
  - exists 0%nat, []. cbn. split; [lia|]. intros; lia.
  - destruct (Nat.ltb_spec k (size sh)) as [H|H].
    + exists 0%nat, (nth k (all_idx sh) []). split.
      * intros _. split; [cbn; lia|]. cbn [nth]. apply in_all_idx, nth_In. rewrite all_idx_length. exact H.
      * intros [|t ts] HS _; [discriminate|]. cbn [map] in HS. injection HS as HS1 HS2. unfold hstack. cbn [map concat nth].
        rewrite app_nth1 by (rewrite flatten_length, HS1; exact H). unfold flatten. rewrite HS1.
        rewrite (nth_indep _ 0%Qc (data t [])) by (rewrite map_length, all_idx_length; exact H). apply map_nth.
    + destruct (IH (k - size sh)%nat) as [j [idx [H1 H2]]]. exists (S j), idx. cbn [map fold_right nth length]. split.
      * intros HK. destruct H1; [lia|]. split; [lia|assumption].
      * intros [|t ts] HS HK; [discriminate|]. cbn [map] in HS. injection HS as HS1 HS2. unfold hstack. cbn [map concat nth].
        rewrite app_nth2 by (rewrite flatten_length, HS1; lia). rewrite flatten_length, HS1. apply H2; [exact HS2|lia].
Qed.
Lemma stack_length ts : length (hstack (map flatten ts)) = fold_right plus 0%nat (map size (map shape ts)).
Proof. induction ts as [|t ts IH]; [reflexivity|]. unfold hstack in *. cbn [map concat fold_right]. rewrite app_length, flatten_length, IH. reflexivity. Qed.

Section Closed.
  Variable sh : string -> list nat.
  Variable P : string -> tensor -> Prop.
  Hypothesis Psh : forall k t, P k t -> shape t = sh k.
  Hypothesis Pteq : forall k t u, P k t -> teq u t -> P k u.
  Hypothesis Plin : forall k n c ts, (forall i, (i < n)%nat -> P k (ts i)) -> P k (lincomb (sh k) n c ts).

  Definition okvec (keys : list string) (v : vec) : Prop := exists ts, Forall2 P keys ts /\ v = hstack (map flatten ts).
  Definition gooddict (d : dict) : Prop := forall k t, slook k d = Some t -> P k t.

  Lemma shapes_of keys ts : Forall2 P keys ts -> map shape ts = map sh keys.
  Proof. induction 1 as [|k t keys ts H _ IH]; cbn [map]; [reflexivity|]. rewrite IH, (Psh k t H). reflexivity. Qed.
  Lemma vectorise_good keys d v : gooddict d -> vectorise keys d = Some v -> okvec keys v /\
    exists ts, omap (fun k => slook k d) keys = Some ts /\ map shape ts = map sh keys.
  Proof.
    intros HD. unfold vectorise. destruct (omap _ keys) as [ts|] eqn:E; cbn [obind]; [|discriminate]. intros H. injection H as <-.
    assert (F : Forall2 P keys ts).
    { revert ts E. induction keys as [|k keys IH]; intros ts E; cbn [omap] in E; [injection E as <-; constructor|].
      destruct (slook k d) as [t|] eqn:Ek; [|discriminate]. destruct (omap _ keys) as [ts'|]; [|discriminate]. injection E as <-.
      constructor; [apply HD, Ek|apply IH; reflexivity]. }
    split; [exists ts; split; [exact F|reflexivity]|]. exists ts. split; [reflexivity|apply shapes_of, F].
  Qed.
  Lemma combination_good keys c vs v : Forall (okvec keys) vs -> combination c vs = Some v -> okvec keys v.
  Proof.
    intros HF HC. destruct (combination_spec _ _ _ HC) as [HN [HL HW]].
    assert (HT : exists F : nat -> list tensor, forall i, (i < length vs)%nat -> Forall2 P keys (F i) /\ nth i vs [] = hstack (map flatten (F i))).
    { clear HC HN HL HW. induction HF as [|v0 vs [ts [H1 H2]] HF IH]; [exists (fun _ => []); cbn; intros; lia|].
      destruct IH as [F HI]. exists (fun i => match i with O => ts | S i' => F i' end). intros [|i] Hi; cbn [nth].
      - split; assumption.
      - apply HI. cbn in Hi. lia. }
    destruct HT as [F HT].
    set (row := fun j => lincomb (sh (nth j keys "")) (length vs) c (fun i => nth j (F i) tz)).
    set (R := map row (seq 0 (length keys))).
    assert (LF : forall i, (i < length vs)%nat -> length (F i) = length keys).
    { intros i Hi. destruct (HT i Hi) as [H _]. clear -H. induction H; cbn; congruence. }
    assert (HR : Forall2 P keys R).
    { assert (HN2 : forall j, (j < length keys)%nat -> P (nth j keys "") (row j)).
      { intros j Hj. apply Plin. intros i Hi. destruct (HT i Hi) as [H _].
        clear -H Hj. revert j Hj. induction H as [|k t ks ts H1 H2 IH]; intros j Hj; cbn in Hj; [lia|].
        destruct j as [|j]; [exact H1|]. apply IH. lia. }
      unfold R. clear -HN2. revert HN2. generalize row. induction keys as [|k ks IH]; intros rw HN2; [constructor|].
      cbn [length seq map]. constructor; [apply (HN2 0%nat); cbn; lia|]. rewrite <- seq_shift, map_map.
      apply IH. intros j Hj. apply (HN2 (S j)). cbn; lia. }
    exists R. split; [exact HR|].
    assert (SR : map shape R = map sh keys) by (apply shapes_of, HR).
    assert (L0 : (0 < length vs)%nat) by (destruct vs; [congruence|cbn; lia]).
    assert (LV : length v = length (hstack (map flatten R))).
    { rewrite <- (HL 0%nat L0). destruct (HT 0%nat L0) as [H1 ->]. rewrite !stack_length, SR, (shapes_of _ _ H1). reflexivity. }
    apply (nth_ext _ _ 0%Qc 0%Qc LV). intros k Hk. rewrite HW. unfold weighted.
    destruct (stack_pos (map sh keys) k) as [j [idx [Hj HP]]].
    assert (Hk' : (k < fold_right plus 0 (map size (map sh keys)))%nat) by (rewrite LV, stack_length, SR in Hk; exact Hk).
    rewrite (HP R SR Hk'). destruct (Hj Hk') as [Hj1 _]. rewrite map_length in Hj1.
    assert (EJ : nth j R tz = row j).
    { unfold R. rewrite (nth_indep _ tz (row 0%nat)) by (rewrite map_length, seq_length; exact Hj1).
      rewrite map_nth, seq_nth by exact Hj1. reflexivity. }
    rewrite EJ. unfold row, lincomb. cbn [data]. apply suml_ext. intros i Hi. apply in_seq in Hi. cbn [Nat.add] in Hi.
    destruct (HT i) as [H1 H2]; [lia|]. rewrite H2, (HP (F i) (shapes_of _ _ H1) Hk'). reflexivity.
  Qed.
  Lemma unvectorise_gen keys : NoDup keys -> forall d ts us pre,
    omap (fun k => slook k d) keys = Some us -> map shape us = map shape ts ->
    exists d', unvectorise keys (length pre) (pre ++ hstack (map flatten ts))%list d = Some d' /\
      Forall2 (fun k t => exists t', slook k d' = Some t' /\ teq t' t) keys ts /\
      (forall k, ~ In k keys -> slook k d' = slook k d).
  Proof.
    induction 1 as [|k keys HN HD IH]; intros d ts us pre HO HS.
    - cbn [omap] in HO. injection HO as <-. destruct ts; [|discriminate]. exists d. split; [reflexivity|]. split; [constructor|reflexivity].
    - cbn [omap] in HO. destruct (slook k d) as [u|] eqn:Ek; [|discriminate].
      destruct (omap (fun k => slook k d) keys) as [us'|] eqn:Eo; [|discriminate]. injection HO as <-.
      destruct ts as [|t ts]; [discriminate|]. cbn [map] in HS. injection HS as HS1 HS2.
      set (t' := mkT (shape t) (fun idx => nth (ravel (shape t) idx) (flatten t) 0%Qc)).
      destruct keys as [|k2 keys].
      + cbn [omap] in Eo. injection Eo as <-. destruct ts; [|discriminate]. cbn [unvectorise]. rewrite Ek. cbn [obind].
        unfold hstack; cbn [map concat]. rewrite app_nil_r, vfrom_end, HS1, reshape_flatten'. cbn [obind]. eexists; split; [reflexivity|]. split.
        * constructor; [|constructor]. exists t'. split; [apply slook_sset_same|]. apply reflat_teq.
        * intros k' HN'. apply slook_sset_other. intros E. apply HN'. left. exact E.
      + specialize (IH (sset k t' d) ts us' (pre ++ flatten t)%list).
        rewrite (proj2 (omap_sset (k2 :: keys) d k t' HN)) in IH. specialize (IH Eo HS2).
        destruct IH as [d' [H1 [H2 H3]]]. exists d'.
        assert (EU : unvectorise (k :: k2 :: keys) (length pre) (pre ++ hstack (map flatten (t :: ts)))%list d = Some d').
        { cbn [unvectorise]. rewrite Ek. cbn [obind]. unfold hstack. cbn [map concat]. rewrite HS1.
          rewrite <- (flatten_length t) at 1. rewrite vslice_mid, reshape_flatten'. cbn [obind]. fold t'.
          rewrite app_length, flatten_length, <- app_assoc in H1. exact H1. }
        split; [exact EU|]. split.
        * constructor; [|exact H2]. exists t'. split; [rewrite (H3 k HN); apply slook_sset_same|apply reflat_teq].
        * intros k' HN'. rewrite (H3 k') by (intros X; apply HN'; right; exact X).
          apply slook_sset_other. intros E. apply HN'. left. exact E.
  Qed.
  Lemma unvectorise_good keys d ts us d' : NoDup keys -> gooddict d ->
    omap (fun k => slook k d) keys = Some us -> map shape us = map sh keys -> Forall2 P keys ts ->
    unvectorise keys 0 (hstack (map flatten ts)) d = Some d' -> gooddict d'.
  Proof.
    intros ND HD HO HS HF HU.
    destruct (unvectorise_gen keys ND d ts us [] HO) as [d2 [U1 [U2 U3]]]; [rewrite HS, (shapes_of _ _ HF); reflexivity|].
    cbn [app length] in U1. assert (d2 = d') as -> by congruence. intros k t Hk.
    destruct (in_dec string_dec k keys) as [Hin|Hin]; [|apply HD; rewrite <- U3; assumption].
    clear -HF U2 Hin Hk Pteq. revert Hin. induction HF as [|k0 t0 ks ts H1 H2 IH]; inversion U2; subst; [intros []|].
    intros [->|Hin]; [|apply IH; assumption]. destruct H4 as [t' [E1 E2]].
    assert (t' = t) as -> by congruence. eapply Pteq; eassumption.
  Qed.

  (** ** The driver *)
  Variable World : Type.
  Variable solve : solver.
  Variable resid : resid_fn -> dict -> dict -> World -> option (dict * World).
  Variable energy : energy_fn -> dict -> World -> option (Qc * World).
  Variable c : calc.
  Variable Pre : dict -> Prop.                              (* what the residual routine needs of its input *)
  Hypothesis HPre : forall d, gooddict d -> Pre d.
  Hypothesis HR : forall rf d l2 w d' w', resid_call c = Some rf -> Pre d -> l2_of d = Some l2 -> resid rf d l2 w = Some (d', w') -> gooddict d'.
  Definition okstate (s : kstate World) : Prop :=
    Pre (amps _ s) /\ Forall (okvec (vec_keys (cc_type c))) (prev_vecs (dstate _ s)).
  Lemma okstate_iteration s s' e : okstate s -> iteration World solve resid energy c s = Some (s', e) -> okstate s' /\ gooddict (amps _ s').
  Proof.
    intros [G HP]. unfold iteration.
    destruct (l2_of (amps _ s)) as [l2|] eqn:El2; cbn [obind]; [|discriminate].
    destruct (resid_call c) as [rf|] eqn:Erf; cbn [obind]; [|discriminate].
    destruct (resid rf _ l2 _) as [[d w]|] eqn:Er; cbn [obind fst snd]; [|discriminate].
    pose proof (HR _ _ _ _ _ _ eq_refl G El2 Er) as G'.
    destruct (diis_block _ _ _ _) as [s1|] eqn:Ed; cbn [obind]; [|discriminate].
    assert (O1 : okstate s1 /\ gooddict (amps _ s1)).
    { unfold diis_block in Ed. destruct (diis_size c); [|injection Ed as <-; split; [split; [apply HPre|]|]; assumption].
      cbn [amps old_vec dstate l2amps world] in Ed.
      destruct (vectorise _ d) as [v|] eqn:Ev; cbn [obind] in Ed; [|discriminate].
      destruct (vbin _ _ _) as [er|]; cbn [obind] in Ed; [|discriminate].
      destruct (compute_new_vec _ _ _ _) as [[nv nd]|] eqn:Ec; cbn [obind fst snd] in Ed; [|discriminate].
      destruct (unvectorise _ _ _ _) as [d2|] eqn:Eu; cbn [obind] in Ed; [|discriminate]. injection Ed as <-.
      destruct (vectorise_good _ _ _ G' Ev) as [OV [us [U1 U2]]].
      assert (ON : okvec (vec_keys (cc_type c)) nv /\ Forall (okvec (vec_keys (cc_type c))) (prev_vecs nd)).
      { unfold compute_new_vec in Ec. destruct (Nat.ltb _ _); [injection Ec as <- <-; split; assumption|].
        assert (HA : Forall (okvec (vec_keys (cc_type c))) (prev_vecs (dstate _ s) ++ [v])%list)
          by (apply Forall_app; split; [exact HP|constructor; [exact OV|constructor]]).
        set (pv := (prev_vecs (dstate _ s) ++ [v])%list) in *. set (ev := (error_vecs (dstate _ s) ++ [er])%list) in *.
        assert (HB : exists pv' ev', (if Nat.ltb (nvecs (dstate _ s)) (length pv) then (tl pv, tl ev) else (pv, ev)) = (pv', ev') /\
                    Forall (okvec (vec_keys (cc_type c))) pv').
        { destruct (Nat.ltb _ _); [exists (tl pv), (tl ev)|exists pv, ev]; (split; [reflexivity|]); [|exact HA].
          destruct HA; [constructor|assumption]. }
        destruct HB as [pv' [ev' [EB HB]]]. rewrite EB in Ec.
        destruct (get_bmat _ _) as [br|]; cbn [obind] in Ec; [|discriminate].
        destruct (solve _ _ _) as [co|]; cbn [obind] in Ec; [|discriminate].
        destruct (combination co pv') as [v'|] eqn:EC; cbn [obind] in Ec; [|discriminate]. injection Ec as <- <-.
        cbn [prev_vecs]. split; [eapply combination_good; eassumption|exact HB]. }
      destruct ON as [[ts [T1 ->]] ON2]. cbn [amps].
      assert (GD : gooddict d2); [|split; [split; [apply HPre, GD|exact ON2]|exact GD]].
      eapply unvectorise_good; [apply vec_keys_nodup|exact G'|exact U1|exact U2|exact T1|exact Eu]. }
    destruct (energy_call c) as [ef|] eqn:Eef; cbn [obind]; [|discriminate].
    destruct (energy ef _ _) as [[e1 w1]|] eqn:Ee; cbn [obind fst snd]; [|discriminate]. intros H. injection H as <- <-.
    exact O1.
  Qed.
  Theorem okstate_after s0 e0 : okstate s0 -> forall k s e, after World solve resid energy c s0 e0 k = Some (s, e) ->
    okstate s /\ (k = 0%nat \/ gooddict (amps _ s)).
  Proof.
    intros H0. induction k as [|k IH]; cbn [after]; intros s e H; [injection H as <- <-; auto|].
    destruct (after _ _ _ _ _ _ _ k) as [[s1 e1]|]; cbn [obind fst] in H; [|discriminate].
    destruct (IH _ _ eq_refl) as [O _]. destruct (okstate_iteration _ _ _ O H) as [A B]. auto.
  Qed.
End Closed.
