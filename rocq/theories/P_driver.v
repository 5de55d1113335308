(** C29, C32, C34, C35: vectorisation, final energies, labels. *)
From Coq Require Import String Ascii List Arith ZArith QArith Qcanon Bool Lia.
From Verif Require Import Sums Tensor Interp Numpy Spec Diis Kernel.
Import ListNotations.
Open Scope string_scope.

(** ** C29 *)
Lemma slook_sset_same {X} k (v : X) d : slook k (sset k v d) = Some v.
Proof.
  induction d as [|[y w] d IH]; cbn [sset slook]; [rewrite String.eqb_refl; reflexivity|].
  destruct (String.eqb_spec k y) as [->|N]; cbn [slook]; [rewrite String.eqb_refl; reflexivity|].
  destruct (String.eqb_spec k y); [contradiction|exact IH].
Qed.
Lemma slook_sset_other {X} k k' (v : X) d : k <> k' -> slook k' (sset k v d) = slook k' d.
Proof.
  intros N. induction d as [|[y w] d IH]; cbn [sset slook].
  - destruct (String.eqb_spec k' k); [congruence|reflexivity].
  - destruct (String.eqb_spec k y) as [->|N1]; cbn [slook].
    + destruct (String.eqb_spec k' y); [congruence|reflexivity].
    + destruct (String.eqb_spec k' y); [reflexivity|exact IH].
Qed.
Lemma vslice_mid (a b c : list Qc) : vslice (length a) (length a + length b) (a ++ b ++ c)%list = b.
Proof.
  unfold vslice. replace (length a + length b - length a)%nat with (length b) by lia.
  rewrite skipn_app, skipn_all, Nat.sub_diag. cbn [skipn app]. rewrite firstn_app, firstn_all, Nat.sub_diag.
  cbn [firstn]. apply app_nil_r.
Qed.
Lemma vfrom_end (a b : list Qc) : vfrom (length a) (a ++ b)%list = b.
Proof. unfold vfrom. rewrite skipn_app, skipn_all, Nat.sub_diag. reflexivity. Qed.
Lemma reshape_flatten' t : reshape (shape t) (flatten t) = Some (mkT (shape t) (fun idx => nth (ravel (shape t) idx) (flatten t) 0%Qc)).
Proof. unfold reshape. rewrite flatten_length, Nat.eqb_refl. reflexivity. Qed.
Lemma reflat_teq t : teq (mkT (shape t) (fun idx => nth (ravel (shape t) idx) (flatten t) 0%Qc)) t.
Proof. split; [reflexivity|]. cbn [shape data]. intros idx H. apply flatten_nth, H. Qed.

Lemma omap_sset keys : forall d k (t : tensor), ~ In k keys ->
  omap (fun k => slook k (sset k t d)) [] = Some [] /\
  omap (fun k' => slook k' (sset k t d)) keys = omap (fun k' => slook k' d) keys.
Proof.
  intros d k t. induction keys as [|k0 keys IH]; intros HN; [split; reflexivity|].
  split; [reflexivity|]. cbn [omap]. rewrite slook_sset_other by (intros E; apply HN; left; symmetry; exact E).
  destruct IH as [_ ->]; [intros X; apply HN; right; exact X|reflexivity].
Qed.

Lemma unvectorise_ok keys : NoDup keys -> forall d ts pre,
  omap (fun k => slook k d) keys = Some ts ->
  exists d', unvectorise keys (length pre) (pre ++ hstack (map flatten ts))%list d = Some d' /\
    (forall k, In k keys -> exists t t', slook k d = Some t /\ slook k d' = Some t' /\ teq t' t) /\
    (forall k, ~ In k keys -> slook k d' = slook k d).
Proof.
  induction 1 as [|k keys HN HD IH]; intros d ts pre HO.
  - exists d. split; [reflexivity|]. split; [intros k []|reflexivity].
  - cbn [omap] in HO. destruct (slook k d) as [t|] eqn:Ek; [|discriminate].
    destruct (omap (fun k => slook k d) keys) as [ts'|] eqn:Eo; [|discriminate]. injection HO as <-.
    set (t' := mkT (shape t) (fun idx => nth (ravel (shape t) idx) (flatten t) 0%Qc)).
    destruct keys as [|k2 keys].
    + cbn [omap] in Eo. injection Eo as <-. cbn [unvectorise]. rewrite Ek. cbn [obind map hstack concat].
      unfold hstack; cbn [concat]. rewrite app_nil_r, vfrom_end, reshape_flatten'. cbn [obind]. eexists; split; [reflexivity|]. split.
      * intros k' [<-|[]]. exists t, t'. split; [exact Ek|]. split; [apply slook_sset_same|]. apply reflat_teq.
      * intros k' HN'. apply slook_sset_other. intros E. apply HN'. left. exact E.
    + specialize (IH (sset k t' d) ts' (pre ++ flatten t)%list).
      rewrite (proj2 (omap_sset (k2 :: keys) d k t' HN)) in IH. specialize (IH Eo).
      destruct IH as [d' [H1 [H2 H3]]]. exists d'.
      assert (EU : unvectorise (k :: k2 :: keys) (length pre) (pre ++ hstack (map flatten (t :: ts')))%list d = Some d').
      { cbn [unvectorise]. rewrite Ek. cbn [obind]. unfold hstack. cbn [map concat].
        rewrite <- (flatten_length t) at 1. rewrite vslice_mid, reshape_flatten'. cbn [obind]. fold t'.
        rewrite app_length, flatten_length, <- app_assoc in H1. exact H1. }
      split; [exact EU|]. split.
      * intros k' [<-|Hk'].
        -- exists t, t'. split; [exact Ek|]. split; [rewrite (H3 k HN); apply slook_sset_same|apply reflat_teq].
        -- destruct (H2 k' Hk') as [u [u' [A [B C]]]]. exists u, u'. split; [|split; assumption].
           rewrite slook_sset_other in A by (intros E; subst; contradiction). exact A.
      * intros k' HN'. rewrite (H3 k') by (intros X; apply HN'; right; exact X).
        apply slook_sset_other. intros E. apply HN'. left. exact E.
Qed.
Lemma vec_keys_nodup t : NoDup (vec_keys t).
Proof.
  unfold vec_keys. destruct (contains "UCC(4)" t); [|destruct (contains "CCDQ" t)]; cbn;
    repeat (constructor; [cbn; intuition discriminate|]); constructor.
Qed.

(** C29.  For every method label: when every array the label needs is present, writing the amplitudes into one
    vector and reading them back from it restores every array, entry by entry, and touches nothing else. *)
Theorem C29_roundtrip : forall cc_type d,
  (forall k, In k (vec_keys cc_type) -> exists t, slook k d = Some t) ->
  exists v d', vectorise (vec_keys cc_type) d = Some v /\ unvectorise (vec_keys cc_type) 0 v d = Some d' /\
    (forall k, In k (vec_keys cc_type) -> exists t t', slook k d = Some t /\ slook k d' = Some t' /\ teq t' t) /\
    (forall k, ~ In k (vec_keys cc_type) -> slook k d' = slook k d).
Proof.
  intros ct d HK.
  assert (HO : exists ts, omap (fun k => slook k d) (vec_keys ct) = Some ts).
  { revert HK. generalize (vec_keys ct) as ks. induction ks as [|k ks IH]; intros HK; [exists []; reflexivity|].
    destruct (HK k (or_introl eq_refl)) as [t Et]. destruct IH as [ts Ets]; [intros k' H'; apply HK; right; exact H'|].
    exists (t :: ts). cbn [omap]. rewrite Et, Ets. reflexivity. }
  destruct HO as [ts Ets]. exists (hstack (map flatten ts)).
  destruct (unvectorise_ok (vec_keys ct) (vec_keys_nodup ct) d ts [] Ets) as [d' [H1 H2]]. exists d'.
  split; [unfold vectorise; rewrite Ets; reflexivity|]. split; [exact H1|exact H2].
Qed.
Print Assumptions C29_roundtrip.

(** The initial amplitude dictionaries (kernel.py:124-137, 148-156); every array of a kind is zero.  The UCC(4)
    arrays are there only when DIIS is on, as in the code. *)
Definition init_amps (full diis : bool) (cc_type : string) (no nv : nat) : dict :=
  let t2 := tzeros [nv; nv; no; no] in let t1 := tzeros [nv; no] in
  let t3 := tzeros [nv; nv; nv; no; no; no] in let t4 := tzeros [nv; nv; nv; nv; no; no; no; no] in
  if full then
    [("t1aa", t1); ("t1bb", t1); ("t2aa", t2); ("t2bb", t2); ("t2ab", t2);
     ("t3aaa", t3); ("t3bbb", t3); ("t3aab", t3); ("t3abb", t3);
     ("t4aaaa", t4); ("t4bbbb", t4); ("t4aaab", t4); ("t4aabb", t4); ("t4abbb", t4)]
  else [("t2aa", t2); ("t2bb", t2); ("t2ab", t2)] ++ (if (diis && contains "UCC(4)" cc_type)%bool then [("t1aa", t1); ("t3aa", t3)] else []).
Definition init_old_vec (full : bool) (cc_type : string) (no nv : nat) : option vec :=
  vectorise (old_keys full cc_type) (init_amps full true cc_type no nv).

Section DB.
  Variables (W : Type) (solve : solver) (c : calc).
  Notation block := (diis_block W solve c).
  (** C29, positive part: with DIIS on, for a label of the T2-only and UCC(4) families, and for full-CC runs of a
      CCDQ label, the initial old vector has the length of the first vector of amplitudes of the same shapes. *)
  Theorem C29_old_vector_length : forall full ct no nv d v ov,
    full = contains "CCDQ" ct \/ contains "UCC(4)" ct = true /\ full = false ->
    (full = true -> contains "UCC(4)" ct = false) ->
    (forall k, option_map shape (slook k d) = option_map shape (slook k (init_amps full true ct no nv))) ->
    init_old_vec full ct no nv = Some ov -> vectorise (vec_keys ct) d = Some v -> length ov = length v.
  Proof.
    intros full ct no nv d v ov HF HU HS HO HV.
    assert (EK : old_keys full ct = vec_keys ct).
    { unfold old_keys, vec_keys. destruct HF as [->|[HF ->]].
      - destruct (contains "CCDQ" ct) eqn:E; [rewrite (HU eq_refl); reflexivity|]. destruct (contains "UCC(4)" ct); reflexivity.
      - rewrite HF. reflexivity. }
    unfold init_old_vec in HO. rewrite EK in HO. unfold vectorise in *.
    revert HO HV. generalize (init_amps full true ct no nv) as d0, HS. generalize (vec_keys ct) as ks. clear.
    intros ks d0 HS.
    destruct (omap (fun k => slook k d0) ks) as [ts0|] eqn:E0; cbn [obind]; [|discriminate].
    destruct (omap (fun k => slook k d) ks) as [ts|] eqn:E; cbn [obind]; [|discriminate].
    intros H1 H2. injection H1 as <-. injection H2 as <-. revert ts ts0 E E0.
    induction ks as [|k ks IH]; intros ts ts0 E E0; cbn [omap] in *.
    - injection E as <-. injection E0 as <-. reflexivity.
    - specialize (HS k) as Hk. destruct (slook k d) as [t|]; [|discriminate]. destruct (slook k d0) as [t0|]; [|discriminate].
      destruct (omap (fun k => slook k d) ks) as [r|] eqn:Er; [|discriminate].
      destruct (omap (fun k => slook k d0) ks) as [r0|] eqn:Er0; [|discriminate].
      injection E as <-. injection E0 as <-. cbn [option_map] in Hk. injection Hk as Hk.
      unfold hstack in *. cbn [map concat]. rewrite !app_length, !flatten_length, Hk. f_equal. apply IH; reflexivity.
  Qed.

  (** C29, negative part.  A T2-only run ("ccdType", where DIIS is always on, or "ccdTypeSlow" with DIIS) of any
      method whose label contains "CCDQ" - e.g. "CCDQf-1" and "CCDQf-2" - raises in its first DIIS block, because
      no quadruples arrays exist; ... *)
  Theorem C29_ccdqf_label_crashes_refuted : forall n aa bb ab l2 ov ds w,
    diis_size c = Some n -> contains "CCDQ" (cc_type c) = true -> contains "UCC(4)" (cc_type c) = false ->
    block (mkSt W [("t2aa", aa); ("t2bb", bb); ("t2ab", ab)] l2 ov ds w) = None.
  Proof.
    intros n aa bb ab l2 ov ds w HD HC HU. unfold diis_block. rewrite HD. unfold vec_keys. rewrite HU, HC.
    cbn [amps vectorise t2_keys t4_keys app omap slook String.eqb Ascii.eqb Bool.eqb obind]. reflexivity.
  Qed.
  (** ... and a full-CC run with DIIS of any label without "CCDQ" raises whenever there is at least one occupied
      and one virtual orbital, because the old vector contains quadruples and the new one does not. *)
  Theorem C29_full_label_crashes_refuted : forall n no nv d l2 ov ds w,
    diis_size c = Some n -> contains "CCDQ" (cc_type c) = false -> contains "UCC(4)" (cc_type c) = false ->
    (0 < no)%nat -> (0 < nv)%nat -> init_old_vec true (cc_type c) no nv = Some ov ->
    (forall k, In k t2_keys -> option_map shape (slook k d) = Some [nv; nv; no; no]) ->
    block (mkSt W d l2 ov ds w) = None.
  Proof.
    intros n no nv d l2 ov ds w HD HC HU Hno Hnv HO HS. unfold diis_block. rewrite HD. unfold vec_keys. rewrite HU, HC.
    unfold init_old_vec in HO. cbn [old_keys init_amps vectorise t2_keys t4_keys app omap slook String.eqb Ascii.eqb Bool.eqb obind] in HO.
    assert (HO' : length ov = (3 * size [nv; nv; no; no] + 5 * size [nv; nv; nv; nv; no; no; no; no])%nat).
    { apply some_inj in HO. rewrite <- HO. unfold hstack. cbn [map concat]. rewrite !app_length, !flatten_length. cbn [length shape tzeros]. lia. }
    unfold amps. cbn [vectorise t2_keys omap].
    pose proof (HS "t2aa" ltac:(cbn; auto)) as Ha. pose proof (HS "t2bb" ltac:(cbn; auto)) as Hb.
    pose proof (HS "t2ab" ltac:(cbn; auto)) as Hab.
    unfold vectorise, t2_keys. cbn [omap].
    destruct (slook "t2aa" d) as [ta|]; [|discriminate]. destruct (slook "t2bb" d) as [tb|]; [|discriminate].
    destruct (slook "t2ab" d) as [tab|]; [|discriminate]. cbn [option_map obind old_vec] in *.
    injection Ha as Ha. injection Hb as Hb. injection Hab as Hab.
    unfold vbin, hstack. cbn [map concat]. rewrite !app_length, !flatten_length, Ha, Hb, Hab, HO'. cbn [length].
    destruct (Nat.eqb_spec (3 * size [nv; nv; no; no] + 5 * size [nv; nv; nv; nv; no; no; no; no])
       (size [nv; nv; no; no] + (size [nv; nv; no; no] + (size [nv; nv; no; no] + 0)))) as [E|]; [|reflexivity].
    assert (P : (0 < size [nv; nv; nv; nv; no; no; no; no])%nat).
    { cbn [size fold_right]. repeat apply Nat.mul_pos_pos; lia. }
    lia.
  Qed.
End DB.
Print Assumptions C29_old_vector_length.
Print Assumptions C29_ccdqf_label_crashes_refuted.
Print Assumptions C29_full_label_crashes_refuted.
Example C29_instance : exists v ov,
  vectorise (vec_keys "CCDQ") (init_amps true true "CCDQ" 2 1) = Some v /\ init_old_vec true "CCDQ" 2 1 = Some ov /\
  length v = length ov /\ (0 < length v)%nat /\
  contains "CCDQ" "CCDQf-1" = true /\ contains "UCC(4)" "CCDQf-1" = false /\ contains "CCDQ" "CCSDT" = false.
Proof. eexists; eexists. split; [vm_compute; reflexivity|]. split; [vm_compute; reflexivity|]. vm_compute. repeat split; lia. Qed.

(** ** C32 *)
Section Fin.
  Variables (W : Type) (pert : energy_fn -> dict -> dict -> W -> option (Qc * W)) (c : calc).
  (** For every label other than the five (Qf) ones - including the UT2 labels - the reported correlation energy
      is the reported total energy minus the Hartree-Fock energy. *)
  Theorem C32_correlation_energy : forall e d l2 w tf co, is_qf c = false ->
    finalize W pert c e d l2 w = Some (tf, co) -> (co = tf - hf_energy c)%Qc.
  Proof.
    intros e d l2 w tf co HQ H. unfold finalize in H. rewrite HQ in H. cbn [obind] in H.
    assert (HN : cc_type c =? "CCD(Qf)" = false).
    { unfold is_qf in HQ. cbn [existsb qf_types] in HQ. apply orb_false_iff in HQ. apply HQ. }
    rewrite HN in H. cbn [negb fst snd obind] in H.
    destruct (contains "UT2" (cc_type c)); [destruct (pert E_t2energySlow d l2 w) as [[u w']|]; [|discriminate]|];
      cbn [obind fst snd] in H; apply some_inj in H; injection H as <- <-; ring.
  Qed.
  (** For the (Qf) labels the value returned as correlation energy is the (Qf) correction alone: it differs from
      total minus Hartree-Fock by the whole coupled-cluster correlation energy. *)
  Theorem C32_qf_labels_report_correction_only : forall e d l2 w tf co, is_qf c = true -> contains "UT2" (cc_type c) = false ->
    finalize W pert c e d l2 w = Some (tf, co) -> (tf - hf_energy c = co + (e + nucE c - hf_energy c))%Qc.
  Proof.
    intros e d l2 w tf co HQ HU H. unfold finalize in H. rewrite HQ, HU in H.
    destruct (if cc_label c =? "ccdType" then _ else _) as [ef|]; cbn [obind] in H; [|discriminate].
    destruct (pert ef d l2 w) as [[q w']|]; cbn [obind fst snd] in H; [|discriminate].
    apply some_inj in H. injection H as <- <-. ring.
  Qed.
End Fin.
Print Assumptions C32_correlation_energy.
Print Assumptions C32_qf_labels_report_correction_only.
(** "corr energy = total - HF for every method" is false. *)
Theorem C32_every_label_refuted : exists c tf co,
  finalize unit (fun _ _ _ w => Some (1%Qc, w)) c (- (1))%Qc [] [] tt = Some (tf, co) /\ co <> (tf - hf_energy c)%Qc.
Proof.
  exists (mkCalc "ccdType" "CCD(Qf)" 75 0%Qc None 0 0%Qc 0%Qc). eexists; eexists. split; [vm_compute; reflexivity|].
  vm_compute. discriminate.
Qed.
Print Assumptions C32_every_label_refuted.
Example C32_instance : exists tf co,
  let c := mkCalc "ccdTypeSlow" "UT2-CCD(5)" 75 0%Qc None 0 1%Qc (- (1))%Qc in
  is_qf c = false /\ finalize unit (fun _ _ _ w => Some (1%Qc, w)) c (- (1))%Qc [] [] tt = Some (tf, co) /\ co = (1 + 1)%Qc.
Proof. eexists; eexists. split; [reflexivity|]. split; vm_compute; reflexivity. Qed.

(** ** C34 *)
(** run_ccd.py:201-241: the branch of ccd_main that runs *)
Definition driver_branch {V} (opts : list (string * V)) : option string :=
  match slook "ccdType" opts with
  | Some _ => Some "ccdType"
  | None => match slook "fullCCType" opts with
            | Some _ => Some "fullCCType"
            | None => match slook "ccdTypeSlow" opts with Some _ => Some "ccdTypeSlow" | None => None end
            end
  end.
(** kernel.py:123,143: the amplitude dictionary that __init__ builds *)
Definition init_full {V} (opts : list (string * V)) : bool :=
  match slook "ccdType" opts, slook "ccdTypeSlow" opts with None, None => true | _, _ => false end.
Definition has {V} (k : string) (opts : list (string * V)) : Prop := slook k opts <> None.
(** Unless "fullCCType" and "ccdTypeSlow" are given together without "ccdType", driver and kernel choose the same
    calculation type, and the kernel's amplitude dictionary is the one of that type. *)
Theorem C34_same_label : forall V (opts : list (string * V)),
  ~ (~ has "ccdType" opts /\ has "fullCCType" opts /\ has "ccdTypeSlow" opts) ->
  driver_branch opts = option_map fst (get_calc opts calc_list) /\
  (forall k v, get_calc opts calc_list = Some (k, v) -> init_full opts = (k =? "fullCCType")).
Proof.
  intros V opts H. unfold driver_branch, has, calc_list, init_full in *. cbn [get_calc].
  destruct (slook "ccdType" opts); destruct (slook "ccdTypeSlow" opts); destruct (slook "fullCCType" opts);
    cbn [option_map fst]; (split; [try reflexivity|]); try (intros k v' E; injection E as <- <-; reflexivity); try discriminate.
  exfalso. apply H. repeat split; congruence.
Qed.
(** With both keys the driver prepares a full-CC run (spin-blocked integrals) and the kernel performs a
    spin-orbital one. *)
Theorem C34_mismatch_refuted : forall V (opts : list (string * V)),
  ~ has "ccdType" opts -> has "fullCCType" opts -> has "ccdTypeSlow" opts ->
  driver_branch opts = Some "fullCCType" /\ option_map fst (get_calc opts calc_list) = Some "ccdTypeSlow".
Proof.
  intros V opts H1 H2 H3. unfold driver_branch, has, calc_list in *. cbn [get_calc].
  destruct (slook "ccdType" opts); [exfalso; apply H1; discriminate|].
  destruct (slook "ccdTypeSlow" opts); [|congruence]. destruct (slook "fullCCType" opts); [|congruence]. split; reflexivity.
Qed.
Print Assumptions C34_same_label.
Print Assumptions C34_mismatch_refuted.
Example C34_instance : let opts := [("fullCCType", "CCSDT"); ("ccdTypeSlow", "CCD")] in
  ~ has "ccdType" opts /\ has "fullCCType" opts /\ has "ccdTypeSlow" opts.
Proof. repeat split; unfold has; cbn; congruence. Qed.

(** ** C35 *)
Definition no_digits (s : string) : Prop := digits s = [].
Lemma digits_app s t : digits (s ++ t) = (digits s ++ digits t)%list.
Proof.
  induction s as [|c s IH]; [reflexivity|]. cbn [String.append digits]. destruct (digit c); cbn [app]; rewrite IH; reflexivity.
Qed.
Lemma prange_in a b k : In k (prange a b) <-> (a <= k < b)%nat.
Proof. unfold prange. rewrite in_seq. lia. Qed.
(** Any label with exactly one digit n, whatever surrounds it, asks for the orders 5, ..., n in increasing order. *)
Theorem C35_single_digit : forall pre ch n post, no_digits pre -> no_digits post -> digit ch = Some n ->
  extract_integer (pre ++ String ch post) = Some (seq 5 (n - 4)) /\ forall k, In k (seq 5 (n - 4)) <-> (5 <= k <= n)%nat.
Proof.
  intros pre ch n post H1 H2 H3. split.
  - unfold extract_integer. rewrite digits_app. cbn [digits]. rewrite H1, H3, H2. cbn [app last]. unfold prange.
    replace (n + 1 - 5)%nat with (n - 4)%nat by lia. reflexivity.
  - intros k. rewrite in_seq. lia.
Qed.
(** All strings: no digit, no orders at all (None); otherwise the orders from 5 to the last digit character. *)
Theorem C35_all_strings : forall s,
  (extract_integer s = None <-> no_digits s) /\
  (forall l, extract_integer s = Some l -> forall k, In k l <-> (5 <= k <= last (digits s) 0)%nat) /\
  (last (digits s) 0 <= 9)%nat.
Proof.
  intros s. split; [|split].
  - unfold extract_integer, no_digits. destruct (digits s); split; congruence.
  - intros l H k. unfold extract_integer in H. destruct (digits s) as [|x r] eqn:E; [discriminate|].
    apply some_inj in H. subst l. rewrite prange_in. lia.
  - induction s as [|c s IH]; [cbn; lia|]. cbn [digits]. unfold digit.
    destruct (Nat.leb_spec 48 (nat_of_ascii c)); destruct (Nat.leb_spec (nat_of_ascii c) 57); cbn [andb]; try exact IH.
    destruct (digits s); [cbn; lia|exact IH].
Qed.
(** XCCD(10) asks for no correction at all, XCCD(15) for order 5 only. *)
Theorem C35_two_digits_refuted :
  extract_integer "XCCD(10)" = Some [] /\ extract_integer "XCCD(15)" = Some [5]%nat.
Proof. split; reflexivity. Qed.
Print Assumptions C35_single_digit.
Print Assumptions C35_all_strings.
Print Assumptions C35_two_digits_refuted.
Example C35_instance : no_digits "UT2-CCD(" -> False. Proof. intros H; vm_compute in H; discriminate. Qed.
Example C35_instance2 : no_digits "XCCD(" /\ no_digits ")" /\ digit "7"%char = Some 7%nat.
Proof. repeat split; reflexivity. Qed.
(** The label of a UT2 method contains the digit of "UT2" but the order comes last. *)
Example C35_ut2 : extract_integer "UT2-CCD(7)" = Some [5; 6; 7]%nat. Proof. reflexivity. Qed.
