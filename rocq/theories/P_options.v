(** C33: options of ccd_main.  C36: StoredInfo objects. *)
From Coq Require Import String Ascii List Arith ZArith QArith Qcanon Bool Lia.
From Verif Require Import Sums Tensor Interp Numpy Diis Kernel Options.
Import ListNotations.
Open Scope string_scope.

Lemma slook_sset {X} x y (v : X) m : slook x (sset y v m) = if String.eqb x y then Some v else slook x m.
Proof.
  induction m as [|[z w] m IH]; cbn [sset slook].
  - reflexivity.
  - destruct (String.eqb y z) eqn:E; cbn [slook].
    + apply String.eqb_eq in E. subst z. destruct (String.eqb x y); reflexivity.
    + destruct (String.eqb x z) eqn:E2; [|exact IH]. apply String.eqb_eq in E2. subst z. rewrite String.eqb_sym in E. rewrite E. reflexivity.
Qed.
Lemma slook_default x y v m : slook x (default y v m) = if String.eqb x y then Some (match slook y m with Some w => w | None => v end) else slook x m.
Proof.
  unfold default, haskey. destruct (String.eqb_spec x y) as [->|N].
  - destruct (slook y m) as [w|] eqn:E; [exact E|]. rewrite slook_sset, String.eqb_refl. reflexivity.
  - destruct (slook y m); [reflexivity|]. rewrite slook_sset. destruct (String.eqb_spec x y); [contradiction|reflexivity].
Qed.
Ltac look := repeat (rewrite ?slook_sset, ?slook_default; match goal with |- context [String.eqb ?a ?b] => let r := eval vm_compute in (String.eqb a b) in change (String.eqb a b) with r; cbn iota | _ => idtac end).

Ltac seqb := repeat match goal with |- context [String.eqb ?a ?b] =>
  let r := eval vm_compute in (String.eqb a b) in match r with true => idtac | false => idtac end; change (String.eqb a b) with r; cbn iota end.
Ltac seqb_in H := repeat match type of H with context [String.eqb ?a ?b] =>
  let r := eval vm_compute in (String.eqb a b) in match r with true => idtac | false => idtac end; change (String.eqb a b) with r in H; cbn iota in H end.

(** what the user's dictionary says about a key, with a fallback *)
Definition user (rt : opts) (k : string) (v : oval) : oval := match slook k rt with Some w => w | None => v end.
Definition eps10 : oval := ONum (Q2Qc (1 # 10 ^ 10)).

Lemma fill_key hf nuc rt k : slook k (fill hf nuc rt) =
  if String.eqb k "hf_energy" then Some (ONum hf) else if String.eqb k "nuclear_energy" then Some (ONum nuc)
  else if String.eqb k "stopping_eps" then Some (user rt k eps10) else if String.eqb k "max_iter" then Some (user rt k (ONat 75))
  else if String.eqb k "dump_tamps" then Some (user rt k (OBool false)) else if String.eqb k "pert_wvfxn_corr" then Some (user rt k (OStr "0"))
  else if String.eqb k "pert_E_corr" then Some (user rt k (OStr "0")) else slook k rt.
Proof.
  unfold fill, user, eps10.
  destruct (String.eqb_spec k "hf_energy") as [->|N1]; [look; reflexivity|].
  destruct (String.eqb_spec k "nuclear_energy") as [->|N2]; [look; reflexivity|].
  destruct (String.eqb_spec k "stopping_eps") as [->|N3]; [look; reflexivity|].
  destruct (String.eqb_spec k "max_iter") as [->|N4]; [look; reflexivity|].
  destruct (String.eqb_spec k "dump_tamps") as [->|N5]; [look; reflexivity|].
  destruct (String.eqb_spec k "pert_wvfxn_corr") as [->|N6]; [look; reflexivity|].
  destruct (String.eqb_spec k "pert_E_corr") as [->|N7]; [look; reflexivity|].
  rewrite !slook_default, !slook_sset.
  rewrite (proj2 (String.eqb_neq k "hf_energy") N1), (proj2 (String.eqb_neq k "nuclear_energy") N2), (proj2 (String.eqb_neq k "stopping_eps") N3),
    (proj2 (String.eqb_neq k "max_iter") N4), (proj2 (String.eqb_neq k "dump_tamps") N5), (proj2 (String.eqb_neq k "pert_wvfxn_corr") N6), (proj2 (String.eqb_neq k "pert_E_corr") N7). reflexivity.
Qed.
Lemma diis_key rt rt' k : diis_opts rt = Some rt' -> slook k rt' =
  if String.eqb k "diis_size" then Some (user rt k ONone) else
  if String.eqb k "diis_start_cycle" then Some (match slook "diis_size" rt with Some _ => user rt k ONone | None => ONone end) else slook k rt.
Proof.
  unfold diis_opts, user. destruct (slook "diis_size" rt) as [ds|] eqn:E1.
  - destruct (slook "diis_start_cycle" rt) as [dst|] eqn:E2; cbn [obind]; [|discriminate]. intros H. injection H as <-.
    rewrite !slook_sset. destruct (String.eqb_spec k "diis_size") as [->|].
    + change ("diis_size" =? "diis_start_cycle") with false. rewrite E1. reflexivity.
    + destruct (String.eqb_spec k "diis_start_cycle") as [->|]; [rewrite E2|]; reflexivity.
  - intros H. injection H as <-. rewrite !slook_sset. destruct (String.eqb_spec k "diis_size") as [->|].
    + change ("diis_size" =? "diis_start_cycle") with false. rewrite E1. reflexivity.
    + destruct (String.eqb_spec k "diis_start_cycle") as [->|]; reflexivity.
Qed.
Lemma has_fill hf nuc rt k : (k = "ccdType" \/ k = "fullCCType" \/ k = "ccdTypeSlow") -> haskey k (fill hf nuc rt) = haskey k rt.
Proof. intros H. unfold haskey. rewrite fill_key. destruct H as [->|[->| ->]]; reflexivity. Qed.

(** For the keys fullCCType and ccdTypeSlow the driver gets exactly what the user gave, and the documented default
    where the user gave nothing. *)
Theorem C33_user_settings_honoured : forall hf nuc rt rt' p,
  haskey "ccdType" rt = false -> (haskey "fullCCType" rt = true \/ haskey "ccdTypeSlow" rt = true) ->
  ccd_main_options hf nuc rt = Some (rt', p) ->
  exists s, read_settings rt' = Some s /\
    s_max s = user rt "max_iter" (ONat 75) /\ s_eps s = user rt "stopping_eps" eps10 /\
    s_size s = user rt "diis_size" ONone /\ (haskey "diis_size" rt = true -> Some (s_start s) = slook "diis_start_cycle" rt) /\
    s_dump s = user rt "dump_tamps" (OBool false) /\ s_hf s = ONum hf /\ s_nuc s = ONum nuc.
Proof.
  intros hf nuc rt rt' p HC HK H. unfold ccd_main_options in H.
  rewrite !has_fill in H by auto. rewrite HC in H.
  assert (X : exists r, diis_opts r = Some rt' /\ forall k, slook k r = slook k (fill hf nuc rt)).
  { destruct (haskey "fullCCType" rt).
    - match type of H with obind (diis_opts ?r) _ = _ => destruct (diis_opts r) as [d|] eqn:ED end; cbn [obind] in H; [|discriminate].
      injection H as <- _. eexists. split; [exact ED|]. intros k. rewrite !slook_default, !fill_key.
      destruct (String.eqb_spec k "max_iter") as [->|]; [reflexivity|]. destruct (String.eqb_spec k "stopping_eps") as [->|]; reflexivity.
    - destruct HK as [HK|HK]; [discriminate|]. rewrite HK in H. destruct (diis_opts (fill hf nuc rt)) as [d|] eqn:ED; cbn [obind] in H; [|discriminate].
      injection H as <- _. eauto. }
  destruct X as [r [HD HR]].
  assert (KEY : forall k, k <> "diis_size" -> k <> "diis_start_cycle" -> slook k rt' = slook k (fill hf nuc rt)).
  { intros k N1 N2. rewrite (diis_key _ _ _ HD). rewrite (proj2 (String.eqb_neq _ _) N1), (proj2 (String.eqb_neq _ _) N2). apply HR. }
  assert (K1 : slook "diis_size" rt' = Some (user rt "diis_size" ONone)) by (rewrite (diis_key _ _ _ HD); unfold user; rewrite HR, fill_key; seqb; reflexivity).
  assert (K2 : exists st, slook "diis_start_cycle" rt' = Some st /\ (haskey "diis_size" rt = true -> Some st = slook "diis_start_cycle" rt)).
  { rewrite (diis_key _ _ _ HD). seqb. eexists. split; [reflexivity|]. unfold haskey, user. rewrite !HR, !fill_key.
    seqb. destruct (slook "diis_size" rt) eqn:E; [|discriminate]. intros _.
    unfold diis_opts in HD. rewrite !HR, !fill_key in HD. seqb_in HD. rewrite E in HD.
    destruct (slook "diis_start_cycle" rt); [reflexivity|discriminate]. }
  destruct K2 as [st [K2 K2']].
  assert (GC : exists lt, get_calc rt' calc_list = Some lt).
  { unfold calc_list, get_calc. rewrite !KEY by discriminate. rewrite !fill_key. seqb. unfold haskey in HK.
    destruct (slook "ccdType" rt); [eauto|]. destruct (slook "ccdTypeSlow" rt); [eauto|]. destruct (slook "fullCCType" rt); [eauto|]. destruct HK; discriminate. }
  destruct GC as [lt GC].
  exists (mkSet (user rt "max_iter" (ONat 75)) (user rt "stopping_eps" eps10) (user rt "diis_size" ONone) st (user rt "dump_tamps" (OBool false))
    (user rt "pert_wvfxn_corr" (OStr "0")) (user rt "pert_E_corr" (OStr "0")) (fst lt) (snd lt) (ONum nuc) (ONum hf)).
  split; [|cbn; repeat split; exact K2'].
  unfold read_settings. rewrite GC, K1, K2, !KEY by discriminate. rewrite !fill_key. reflexivity.
Qed.
Print Assumptions C33_user_settings_honoured.
(** ... but with the key ccdType the user's threshold, iteration limit and DIIS settings are overwritten. *)
Theorem C33_ccdType_overwrites_refuted : forall hf nuc rt, haskey "ccdType" rt = true ->
  exists rt' s, ccd_main_options hf nuc rt = Some (rt', SpinIntegrated) /\ read_settings rt' = Some s /\
    s_max s = ONat 75 /\ s_eps s = eps10 /\ s_size s = ONat 10 /\ s_start s = ONat 1 /\ s_label s = "ccdType".
Proof.
  intros hf nuc rt HC. unfold ccd_main_options. rewrite has_fill by auto. rewrite HC. eexists. 
  unfold haskey in HC. destruct (slook "ccdType" rt) as [ty|] eqn:ET; [|discriminate].
  exists (mkSet (ONat 75) eps10 (ONat 10) (ONat 1) (user rt "dump_tamps" (OBool false)) (user rt "pert_wvfxn_corr" (OStr "0")) (user rt "pert_E_corr" (OStr "0"))
     "ccdType" ty (ONum nuc) (ONum hf)).
  split; [reflexivity|]. split; [|repeat split].
  unfold read_settings, calc_list, get_calc. rewrite !slook_sset. seqb. rewrite !fill_key. seqb.
  rewrite ET. reflexivity.
Qed.
Print Assumptions C33_ccdType_overwrites_refuted.
(** The caller's dictionary is changed by the call: exactly these keys may change, ... *)
Definition written_keys := ["hf_energy"; "nuclear_energy"; "stopping_eps"; "max_iter"; "dump_tamps"; "pert_wvfxn_corr"; "pert_E_corr"; "diis_size"; "diis_start_cycle"].
Theorem C33_other_keys_untouched : forall hf nuc rt rt' p, ccd_main_options hf nuc rt = Some (rt', p) ->
  forall k, ~ In k written_keys -> slook k rt' = slook k rt.
Proof.
  intros hf nuc rt rt' p H k HN.
  assert (N : forall x, In x written_keys -> String.eqb k x = false) by (intros x Hx; apply String.eqb_neq; intros ->; contradiction).
  assert (F : slook k (fill hf nuc rt) = slook k rt).
  { rewrite fill_key. rewrite !N by (cbn; auto 10). reflexivity. }
  unfold ccd_main_options in H. destruct (haskey "ccdType" _).
  - injection H as <- _. rewrite !slook_sset, !N by (cbn; auto 12). exact F.
  - assert (D : forall r, diis_opts r = Some rt' -> slook k rt' = slook k r) by (intros r HD; rewrite (diis_key _ _ _ HD), !N by (cbn; auto 12); reflexivity).
    destruct (haskey "fullCCType" _).
    + match type of H with obind (diis_opts ?r) _ = _ => destruct (diis_opts r) as [d|] eqn:ED end; cbn [obind] in H; [|discriminate].
      injection H as <- _. rewrite (D _ ED), !slook_default, !N by (cbn; auto 12). exact F.
    + destruct (haskey "ccdTypeSlow" _); [|discriminate]. destruct (diis_opts _) as [d|] eqn:ED; cbn [obind] in H; [|discriminate].
      injection H as <- _. rewrite (D _ ED). exact F.
Qed.
Print Assumptions C33_other_keys_untouched.
(** ... and it does change: the keys hf_energy and nuclear_energy are always there afterwards. *)
Theorem C33_caller_dict_changed_refuted : forall hf nuc rt rt' p, ccd_main_options hf nuc rt = Some (rt', p) ->
  slook "hf_energy" rt' = Some (ONum hf) /\ slook "nuclear_energy" rt' = Some (ONum nuc) /\ haskey "diis_size" rt' = true.
Proof.
  intros hf nuc rt rt' p H. unfold ccd_main_options in H. destruct (haskey "ccdType" _).
  - injection H as <- _. unfold haskey. rewrite !slook_sset. seqb. rewrite !fill_key. auto.
  - assert (D : forall r, diis_opts r = Some rt' -> slook "hf_energy" rt' = slook "hf_energy" r /\ slook "nuclear_energy" rt' = slook "nuclear_energy" r /\ haskey "diis_size" rt' = true)
      by (intros r HD; unfold haskey; rewrite !(diis_key _ _ _ HD); auto).
    destruct (haskey "fullCCType" _).
    + match type of H with obind (diis_opts ?r) _ = _ => destruct (diis_opts r) as [d|] eqn:ED end; cbn [obind] in H; [|discriminate].
      injection H as <- _. destruct (D _ ED) as [-> [-> ->]]. rewrite !slook_default. seqb. rewrite !fill_key. auto.
    + destruct (haskey "ccdTypeSlow" _); [|discriminate]. destruct (diis_opts _) as [d|] eqn:ED; cbn [obind] in H; [|discriminate].
      injection H as <- _. destruct (D _ ED) as [-> [-> ->]]. rewrite !fill_key. auto.
Qed.
Print Assumptions C33_caller_dict_changed_refuted.
(** A call without any route key never returns. *)
Theorem C33_no_route_raises : forall hf nuc rt,
  haskey "ccdType" rt = false -> haskey "fullCCType" rt = false -> haskey "ccdTypeSlow" rt = false -> ccd_main_options hf nuc rt = None.
Proof. intros hf nuc rt H1 H2 H3. unfold ccd_main_options. rewrite !has_fill by auto. rewrite H1, H2, H3. reflexivity. Qed.
Print Assumptions C33_no_route_raises.
(** With both fullCCType and ccdTypeSlow present, the integrals are prepared for the spin-integrated code but the driver
    runs the spin-orbital code (ccd_main and get_calc look at the keys in different orders). *)
Theorem C33_mixed_keys : forall hf nuc rt rt' p,
  haskey "ccdType" rt = false -> haskey "fullCCType" rt = true -> haskey "ccdTypeSlow" rt = true ->
  ccd_main_options hf nuc rt = Some (rt', p) ->
  p = SpinIntegrated /\ exists s, read_settings rt' = Some s /\ s_label s = "ccdTypeSlow".
Proof.
  intros hf nuc rt rt' p H1 H2 H3 H.
  destruct (C33_user_settings_honoured hf nuc rt rt' p H1 (or_introl H2) H) as [s [HS _]].
  pose proof (C33_other_keys_untouched hf nuc rt rt' p H) as KK.
  unfold ccd_main_options in H. rewrite !has_fill in H by auto. rewrite H1, H2 in H.
  match type of H with obind ?x _ = _ => destruct x as [d|] end; cbn [obind] in H; [|discriminate]. injection H as <- <-. split; [reflexivity|].
  exists s. split; [exact HS|]. unfold read_settings in HS.
  repeat match type of HS with obind (slook ?k d) _ = _ => destruct (slook k d); cbn [obind] in HS; [|discriminate] end.
  unfold calc_list, get_calc in HS. rewrite !KK in HS by (cbn; intuition discriminate). unfold haskey in H1, H3.
  destruct (slook "ccdType" rt); [discriminate|]. destruct (slook "ccdTypeSlow" rt) as [x|]; [|discriminate]. cbn [obind fst snd] in HS.
  repeat match type of HS with obind (slook ?k d) _ = _ => destruct (slook k d); cbn [obind] in HS; [|discriminate] end.
  injection HS as <-. reflexivity.
Qed.
Print Assumptions C33_mixed_keys.
(** The dictionary a call leaves behind gives the same settings when it is used again. *)
Theorem C33_reuse_same_settings : forall hf nuc rt rt' p, ccd_main_options hf nuc rt = Some (rt', p) ->
  exists rt'', ccd_main_options hf nuc rt' = Some (rt'', p) /\ read_settings rt'' = read_settings rt'.
Proof.
  intros hf nuc rt rt' p H.
  pose proof (C33_other_keys_untouched hf nuc rt rt' p H) as KK.
  assert (HK : forall k, (k = "ccdType" \/ k = "fullCCType" \/ k = "ccdTypeSlow") -> haskey k rt' = haskey k rt).
  { intros k Hk. unfold haskey. rewrite KK; [reflexivity|]. destruct Hk as [->|[->| ->]]; cbn; intuition discriminate. }
  assert (FE : (forall k, In k ["stopping_eps"; "max_iter"; "dump_tamps"; "pert_wvfxn_corr"; "pert_E_corr"] -> haskey k rt' = true) ->
    slook "hf_energy" rt' = Some (ONum hf) -> slook "nuclear_energy" rt' = Some (ONum nuc) -> forall k, slook k (fill hf nuc rt') = slook k rt').
  { intros A B C k. rewrite fill_key. unfold user.
    destruct (String.eqb_spec k "hf_energy") as [->|]; [symmetry; exact B|]. destruct (String.eqb_spec k "nuclear_energy") as [->|]; [symmetry; exact C|].
    assert (G : forall x v, In x ["stopping_eps"; "max_iter"; "dump_tamps"; "pert_wvfxn_corr"; "pert_E_corr"] -> Some (match slook x rt' with Some w => w | None => v end) = slook x rt').
    { intros x v Hx. specialize (A x Hx). unfold haskey in A. destruct (slook x rt'); [reflexivity|discriminate]. }
    destruct (String.eqb_spec k "stopping_eps") as [->|]; [apply G; cbn; auto|]. destruct (String.eqb_spec k "max_iter") as [->|]; [apply G; cbn; auto|].
    destruct (String.eqb_spec k "dump_tamps") as [->|]; [apply G; cbn; auto|]. destruct (String.eqb_spec k "pert_wvfxn_corr") as [->|]; [apply G; cbn; auto|].
    destruct (String.eqb_spec k "pert_E_corr") as [->|]; [apply G; cbn; auto 6|reflexivity]. }
  assert (RS : forall a b, (forall k, slook k a = slook k b) -> read_settings a = read_settings b).
  { intros a b E. unfold read_settings, calc_list, get_calc. rewrite !E. reflexivity. }
  destruct (C33_caller_dict_changed_refuted hf nuc rt rt' p H) as [K1 [K2 _]].
  assert (HD : forall k, In k ["stopping_eps"; "max_iter"; "dump_tamps"; "pert_wvfxn_corr"; "pert_E_corr"] -> haskey k rt' = true).
  { assert (D : forall r, diis_opts r = Some rt' -> (forall k, In k ["stopping_eps"; "max_iter"; "dump_tamps"; "pert_wvfxn_corr"; "pert_E_corr"] -> haskey k r = true) ->
      forall k, In k ["stopping_eps"; "max_iter"; "dump_tamps"; "pert_wvfxn_corr"; "pert_E_corr"] -> haskey k rt' = true).
    { intros r HD HR k Hk. specialize (HR k Hk). unfold haskey in *. rewrite (diis_key _ _ _ HD).
      cbn [In] in Hk. intuition (subst k; exact HR). }
    assert (F : forall k, In k ["stopping_eps"; "max_iter"; "dump_tamps"; "pert_wvfxn_corr"; "pert_E_corr"] -> haskey k (fill hf nuc rt) = true).
    { intros k Hk. unfold haskey. rewrite fill_key. cbn [In] in Hk. intuition (subst k; reflexivity). }
    unfold ccd_main_options in H. destruct (haskey "ccdType" _).
    - injection H as <- _. intros k Hk. specialize (F k Hk). unfold haskey in *. rewrite !slook_sset. cbn [In] in Hk. intuition (subst k; try reflexivity; exact F).
    - destruct (haskey "fullCCType" _).
      + match type of H with obind (diis_opts ?r) _ = _ => destruct (diis_opts r) as [d|] eqn:ED end; cbn [obind] in H; [|discriminate].
        injection H as <- _. apply (D _ ED). intros k Hk. specialize (F k Hk). unfold haskey in *. rewrite !slook_default. cbn [In] in Hk. intuition (subst k; try reflexivity; exact F).
      + destruct (haskey "ccdTypeSlow" _); [|discriminate]. destruct (diis_opts _) as [d|] eqn:ED; cbn [obind] in H; [|discriminate].
        injection H as <- _. apply (D _ ED F). }
  specialize (FE HD K1 K2).
  assert (DO : haskey "diis_size" rt' = true) by apply (C33_caller_dict_changed_refuted hf nuc rt rt' p H).
  assert (DS : haskey "diis_start_cycle" rt' = true).
  { unfold ccd_main_options in H. destruct (haskey "ccdType" _); [injection H as <- _; unfold haskey; rewrite slook_sset; reflexivity|].
    destruct (haskey "fullCCType" _).
    - match type of H with obind (diis_opts ?r) _ = _ => destruct (diis_opts r) as [d|] eqn:ED end; cbn [obind] in H; [|discriminate].
      injection H as <- _. unfold haskey. rewrite (diis_key _ _ _ ED). reflexivity.
    - destruct (haskey "ccdTypeSlow" _); [|discriminate]. destruct (diis_opts _) as [d|] eqn:ED; cbn [obind] in H; [|discriminate].
      injection H as <- _. unfold haskey. rewrite (diis_key _ _ _ ED). reflexivity. }
  assert (DR : forall r, (forall k, slook k r = slook k rt') -> exists r', diis_opts r = Some r' /\ forall k, slook k r' = slook k rt').
  { intros r E. unfold diis_opts. rewrite !E. unfold haskey in DO, DS. destruct (slook "diis_size" rt') as [x|] eqn:E1; [|discriminate].
    destruct (slook "diis_start_cycle" rt') as [y|] eqn:E2; [|discriminate]. cbn [obind]. eexists. split; [reflexivity|]. intros k. rewrite !slook_sset.
    destruct (String.eqb_spec k "diis_start_cycle") as [->|]; [congruence|]. destruct (String.eqb_spec k "diis_size") as [->|]; [congruence|apply E]. }
  unfold ccd_main_options. rewrite !has_fill by auto. rewrite !HK by auto. pose proof H as H'.
  unfold ccd_main_options in H. rewrite !has_fill in H by auto. destruct (haskey "ccdType" rt) eqn:HC.
  - injection H as <- <-. eexists. split; [reflexivity|]. apply RS. intros k. rewrite !(slook_sset k). 
    destruct (String.eqb k "diis_start_cycle") eqn:Ek3; [reflexivity|]. destruct (String.eqb k "diis_size") eqn:Ek4; [reflexivity|].
    destruct (String.eqb k "stopping_eps") eqn:Ek; [reflexivity|]. destruct (String.eqb k "max_iter") eqn:Ek2; [reflexivity|].
    rewrite FE, !slook_sset. rewrite Ek, Ek2, Ek3, Ek4. reflexivity.
  - destruct (haskey "fullCCType" rt).
    + match type of H with obind (diis_opts ?r) _ = _ => destruct (diis_opts r) as [d|] end; cbn [obind] in H; [|discriminate]. injection H as <- <-.
      match goal with |- context [diis_opts ?r] => destruct (DR r) as [r' [-> HR']] end.
      { intros k. rewrite !slook_default, !FE. destruct (String.eqb_spec k "max_iter") as [->|].
        - specialize (HD "max_iter" ltac:(cbn; auto)). unfold haskey in HD. destruct (slook "max_iter" d); [reflexivity|discriminate].
        - destruct (String.eqb_spec k "stopping_eps") as [->|]; [|reflexivity].
          specialize (HD "stopping_eps" ltac:(cbn; auto)). unfold haskey in HD. destruct (slook "stopping_eps" d); [reflexivity|discriminate]. }
      cbn [obind]. eexists. split; [reflexivity|]. apply RS, HR'.
    + destruct (haskey "ccdTypeSlow" rt); [|discriminate]. destruct (diis_opts (fill hf nuc rt)) as [d|]; cbn [obind] in H; [|discriminate]. injection H as <- <-.
      destruct (DR _ FE) as [r' [-> HR']]. cbn [obind]. eexists. split; [reflexivity|]. apply RS, HR'.
Qed.
Print Assumptions C33_reuse_same_settings.

(** A concrete user dictionary: the settings are honoured for the key ccdTypeSlow, overwritten for the key ccdType. *)
Definition user_slow : opts := [("ccdTypeSlow", OStr "CCD"); ("max_iter", ONat 200); ("diis_size", ONat 6); ("diis_start_cycle", ONat 3)].
Definition user_fast : opts := [("ccdType", OStr "CCD"); ("max_iter", ONat 200); ("diis_size", ONat 6); ("diis_start_cycle", ONat 3)].
Example C33_instance_slow : exists rt' s, ccd_main_options (Q2Qc (-75)) (Q2Qc 9) user_slow = Some (rt', SpinOrbital) /\ read_settings rt' = Some s /\
  s_max s = ONat 200 /\ s_eps s = eps10 /\ s_size s = ONat 6 /\ s_start s = ONat 3 /\ s_label s = "ccdTypeSlow".
Proof. do 2 eexists. split; [reflexivity|]. split; [reflexivity|]. repeat split. Qed.
Example C33_instance_fast : exists rt' s, ccd_main_options (Q2Qc (-75)) (Q2Qc 9) user_fast = Some (rt', SpinIntegrated) /\ read_settings rt' = Some s /\
  s_max s = ONat 75 /\ s_max s <> user user_fast "max_iter" (ONat 75) /\ s_size s = ONat 10.
Proof. do 2 eexists. split; [reflexivity|]. split; [reflexivity|]. repeat split. cbn. discriminate. Qed.
(** both route keys at once *)
Example C33_instance_mixed : exists rt' s, ccd_main_options (Q2Qc (-75)) (Q2Qc 9) (("fullCCType", OStr "CCSD") :: user_slow) = Some (rt', SpinIntegrated)
  /\ read_settings rt' = Some s /\ s_label s = "ccdTypeSlow" /\ s_type s = OStr "CCD".
Proof. do 2 eexists. split; [reflexivity|]. split; [reflexivity|]. split; reflexivity. Qed.

(** * C36 *)
Section Shared.
  Variable V : Type.
  Notation store := (store V).
  Notation op := (op V).
  Lemma len_upd {X} n (x : X) l : length (upd n x l) = length l.
  Proof. revert n. induction l as [|y l IH]; intros [|n]; cbn [upd length]; auto. Qed.
  Lemma nth_upd {X} n m (x : X) l : nth_error (upd n x l) m = if Nat.eqb n m then (match nth_error l m with Some _ => Some x | None => None end) else nth_error l m.
  Proof.
    revert n m. induction l as [|y l IH]; intros [|n] [|m]; cbn [upd nth_error Nat.eqb]; try reflexivity.
    - destruct (Nat.eqb n m); reflexivity.
    - rewrite IH. reflexivity.
  Qed.
  Lemma len_poke a k (v : V) m : length (poke V a k v m) = length m.
  Proof. unfold poke. destruct (nth_error m a); [apply len_upd|reflexivity]. Qed.
  Lemma mem_mono o (s : store) : (length (mem V s) <= length (mem V (exec V s o)))%nat.
  Proof.
    destruct o as [d|args|i f a|i f k v]; cbn [exec mem].
    - rewrite app_length. lia.
    - lia.
    - destruct (nth_error (objs V s) i); cbn [mem]; lia.
    - destruct (nth_error (objs V s) i); cbn [mem]; rewrite ?len_poke; lia.
  Qed.
  Lemma mem_hist h (s : store) : (length (mem V s) <= length (mem V (fold_left (exec V) h s)))%nat.
  Proof. revert s. induction h as [|o h IH]; intros s; cbn [fold_left]; [lia|]. pose proof (mem_mono o s). pose proof (IH (exec V s o)). lia. Qed.
  Lemma nth_snoc {X} (l : list X) x : nth_error (l ++ [x])%list (length l) = Some x.
  Proof. rewrite nth_error_app2 by lia. rewrite Nat.sub_diag. reflexivity. Qed.
  Lemma default_lt f : (default_addr f < 5)%nat. Proof. destruct f; cbn; lia. Qed.

  (** Whatever was done before: data written into the default dictionary of a freshly created object is read back from
      the next object created with defaults. *)
  Theorem C36_fresh_objects_share_data_refuted : forall (h : history V) f k v args args', args f = None -> args' f = None ->
    let i := length (objs V (after_history V h)) in
    get V (after_history V (h ++ [NewObj V args; Update V i f k v; NewObj V args'])%list) (Datatypes.S i) f k = Some v.
  Proof.
    intros h f k v args args' Ha Ha' i. unfold after_history, get. rewrite fold_left_app. fold (after_history V h).
    pose proof (mem_hist h (store0 V)) as HL. fold (after_history V h) in HL. change (length (mem V (store0 V))) with 5%nat in HL.
    pose proof (default_lt f) as HF. destruct (after_history V h) as [m os]. cbn [mem objs] in *. subst i.
    cbn [fold_left exec objs mem]. rewrite nth_snoc. cbn [objs mem].
    match goal with |- context [nth_error (?l ++ [?x])%list (Datatypes.S (length os))] =>
      assert (EN : nth_error (l ++ [x])%list (Datatypes.S (length os)) = Some x)
        by (replace (Datatypes.S (length os)) with (length l) by (rewrite app_length; cbn [length]; lia); apply (nth_snoc l x)); rewrite EN end.
    cbn [obind]. rewrite Ha, Ha'. unfold poke. destruct (nth_error m (default_addr f)) as [d|] eqn:E.
    - rewrite nth_upd, Nat.eqb_refl, E. cbn [obind]. rewrite slook_sset, String.eqb_refl. reflexivity.
    - apply nth_error_None in E. lia.
  Qed.
  (** What is true: an object only sees writes made through a dictionary it refers to. *)
  Theorem C36_separate_dictionaries_are_isolated : forall (s : store) i j oi oj,
    nth_error (objs V s) i = Some oi -> nth_error (objs V s) j = Some oj -> (forall f g, oi f <> oj g) ->
    forall ups : list (field * string * V),
    forall g k, get V (fold_left (exec V) (map (fun u => Update V i (fst (fst u)) (snd (fst u)) (snd u)) ups) s) j g k = get V s j g k.
  Proof.
    intros s i j oi oj Hi Hj HN ups g k. revert s Hi Hj. induction ups as [|[[f k'] v] ups IH]; intros s Hi Hj; cbn [map fold_left]; [reflexivity|].
    cbn [exec fst snd]. rewrite Hi. rewrite IH; [|exact Hi|exact Hj]. unfold get. cbn [objs mem]. rewrite Hj. cbn [obind].
    unfold poke. destruct (nth_error (mem V s) (oi f)) as [d|]; [|reflexivity]. rewrite nth_upd.
    destruct (Nat.eqb_spec (oi f) (oj g)) as [E|]; [elim (HN _ _ E)|reflexivity].
  Qed.
  (** replacing a field by a setter never changes another object *)
  Theorem C36_setters_are_local : forall (s : store) i j f a g k, i <> j -> get V (exec V s (SetField V i f a)) j g k = get V s j g k.
  Proof.
    intros s i j f a g k N. unfold get. cbn [exec]. destruct (nth_error (objs V s) i) as [o|]; [|reflexivity]. cbn [objs mem].
    rewrite nth_upd. destruct (Nat.eqb_spec i j); [contradiction|reflexivity].
  Qed.
End Shared.
Print Assumptions C36_fresh_objects_share_data_refuted.
Print Assumptions C36_separate_dictionaries_are_isolated.
Print Assumptions C36_setters_are_local.
(** two objects with their own denominator dictionaries and, below, the leak *)
Example C36_instance :
  let no := fun _ : field => @None nat in
  let h := [NewDict nat []; NewDict nat []; NewDict nat []; NewDict nat []; NewDict nat []; NewObj nat (fun f => Some (5 + default_addr f)%nat); NewObj nat no;
            Update nat 0 FDenom "D2" 7%nat] in
  let s := after_history nat h in
  get nat s 0 FDenom "D2" = Some 7%nat /\ get nat s 1 FDenom "D2" = None /\
  get nat (after_history nat (h ++ [Update nat 1 FDenom "D3" 8%nat; NewObj nat no])%list) 2 FDenom "D3" = Some 8%nat.
Proof. repeat split. Qed.
