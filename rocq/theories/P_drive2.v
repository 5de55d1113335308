(** The third driver (test.py): fixed points of the iteration, labels, frozen core, open shells. *)
From Coq Require Import String Ascii List Arith NArith ZArith QArith Qcanon Bool Lia Permutation.
From Coq Require Qcabs.
From Verif Require Import Sums Tensor Interp Numpy Poly SymExec Canon Spec SpecDriver Instances Setup Master Spin Check Tabs NF Formula.
From Verif Require Import Diis Kernel Denoms P_denoms SlowCC P_slow P_ccd P_ccsd P_wanti P_flip Fock P_fock Drive SpecDrive P_drive.
From Verif Require Code_tamps Code_cc_eqns Code_cc_energy Code_ccsdt_eqns Code_ccdq_eqns.
From Verif Require Import P_qf_routes P_qf_routes14 RunMono.
Import ListNotations.
Open Scope string_scope.
Open Scope Qc_scope.

(** ** Where the iteration stands still *)
Lemma residual_keys no nv f g label d rs : amplitudes no nv label d -> contains "D" label = true -> method_residuals no nv f g label d rs ->
  forall key R, slook key rs = Some R -> exists k T, (1 <= k <= 4)%nat /\ slook key d = Some T /\ is_amp_ov k no nv T.
Proof.
  intros [A1 [A2 [A3 A4]]] HD M.
  assert (G : forall key b k, (1 <= k <= 4)%nat -> holds_amp key b k no nv d -> b = true -> exists k T, (1 <= k <= 4)%nat /\ slook key d = Some T /\ is_amp_ov k no nv T)
    by (intros key b k Hk H E; destruct (have _ _ _ _ _ _ H E) as [t [? ?]]; eauto).
  assert (K2 : forall key, String.eqb key "t2aa" = true -> exists k T, (1 <= k <= 4)%nat /\ slook key d = Some T /\ is_amp_ov k no nv T)
    by (intros key E; apply String.eqb_eq in E; subst; apply (G _ _ 2%nat ltac:(lia) A2 HD)).
  unfold method_residuals in M. intros key R.
  destruct (contains "CCSDT" label) eqn:H1; [|destruct (contains "CCSD" label) eqn:H2; [|destruct (contains "CCDQ" label) eqn:H3]].
  - destruct M as [T1 [T2 [T3 [R1 [R2 [R3 [_ [_ [_ [_ [_ [_ ->]]]]]]]]]]]]. cbn [slook].
    destruct (String.eqb key "t1aa") eqn:E1; [intros _; apply String.eqb_eq in E1; subst; apply (G _ _ 1%nat ltac:(lia) A1 (sub label _ H1 "S" eq_refl))|].
    destruct (String.eqb key "t2aa") eqn:E2; [auto|].
    destruct (String.eqb key "t3aa") eqn:E3; [intros _; apply String.eqb_eq in E3; subst; apply (G _ _ 3%nat ltac:(lia) A3 (sub label _ H1 "T" eq_refl))|discriminate].
  - destruct M as [T1 [T2 [R1 [R2 [_ [_ [_ [_ ->]]]]]]]]. cbn [slook].
    destruct (String.eqb key "t1aa") eqn:E1; [intros _; apply String.eqb_eq in E1; subst; apply (G _ _ 1%nat ltac:(lia) A1 (sub label _ H2 "S" eq_refl))|].
    destruct (String.eqb key "t2aa") eqn:E2; [auto|discriminate].
  - destruct M as [T1 [T2 [R1 [R2 [_ [_ [_ [_ ->]]]]]]]]. cbn [slook].
    destruct (String.eqb key "t2aa") eqn:E2; [auto|].
    destruct (String.eqb key "t4aa") eqn:E4; [intros _; apply String.eqb_eq in E4; subst; apply (G _ _ 4%nat ltac:(lia) A4 (sub label _ H3 "Q" eq_refl))|discriminate].
  - destruct M as [T2 [R2 [_ [_ ->]]]]. cbn [slook]. destruct (String.eqb key "t2aa") eqn:E2; [auto|discriminate].
Qed.
Lemma qc_div_zero a b : b <> 0 -> a / b = 0 -> a = 0.
Proof. intros Hb H. rewrite <- (Qcmult_div_r a b Hb), H. ring. Qed.
Lemma qc_add_zero (t u : Qc) : t = t + u -> u = 0.
Proof. intros H. transitivity ((t + u) - t); [ring|]. rewrite <- H. ring. Qed.
Lemma gapped_ne k no nv eps occ virt : gapped k no nv eps -> length occ = k -> inr (occ ++ virt) (repeat no k ++ repeat nv k) -> gap no eps virt occ <> 0.
Proof.
  intros G L I. assert (LV : length virt = k) by (apply inr_len in I; rewrite !app_length, !repeat_length in I; lia).
  destruct (inr_parts occ virt (repeat no k) (repeat nv k) ltac:(rewrite repeat_length; exact L) I) as [I1 I2].
  apply G; auto; intros i Hi; eapply inr_repeat; eassumption.
Qed.
Lemma teq_refl t : teq t t. Proof. split; [reflexivity|auto]. Qed.

(** C55.  With no orbital-energy difference zero, one pass over the equations leaves the amplitudes as they are exactly when
    all residual arrays of the method vanish. *)
Theorem C55_fixed_points : forall no nv x label d, prepared no nv label x -> contains "D" label = true -> all_gaps no nv (energies_of x) ->
  amplitudes no nv label d ->
  exists d' rs, drive_eqns x label d = Some d' /\ method_residuals no nv (x_f x) (x_g x) label d rs /\ (same_amplitudes d d' <-> all_zero rs).
Proof.
  intros no nv x label d P HD G HA. destruct (pass no nv label x P d HD HA) as [d' [rs [E [_ [M U]]]]]. exists d', rs. split; [exact E|]. split; [exact M|].
  pose proof (residual_keys no nv _ _ label d rs HA HD M) as RK. split.
  - intros SA key R HR. destruct (RK key R HR) as [k [T [Hk [ET [ST _]]]]]. specialize (U key). rewrite HR in U.
    destruct U as [T0 [T' [E0 [E1 [S1 [S2 UU]]]]]]. rewrite ET in E0. injection E0 as <-. specialize (SA key). rewrite ET, E1 in SA.
    intros idx I. rewrite <- (firstn_skipn k idx) in I |- *. set (occ := firstn k idx) in *. set (virt := skipn k idx) in *.
    rewrite S1 in I. pose proof I as I'. rewrite ST in I'.
    assert (LO : length occ = k). { unfold occ. rewrite firstn_length. apply inr_len in I'. unfold occ, virt in I'. rewrite firstn_skipn, app_length, !repeat_length in I'. lia. }
    assert (LV : length virt = k) by (apply inr_len in I'; rewrite !app_length, !repeat_length in I'; lia).
    specialize (UU G occ virt ltac:(congruence) I). rewrite <- (proj2 SA _ I) in UU.
    apply (qc_div_zero _ (gap no (energies_of x) virt occ)); [apply (gapped_ne k no nv); auto|].
    apply qc_add_zero in UU. exact UU.
  - intros Z key. specialize (U key). destruct (slook key rs) as [R|] eqn:HR.
    + destruct (RK key R HR) as [k [T [Hk [ET [ST _]]]]]. destruct U as [T0 [T' [E0 [E1 [S1 [S2 UU]]]]]]. rewrite ET in E0. injection E0 as <-. rewrite ET, E1.
      split; [congruence|]. intros idx I. rewrite <- (firstn_skipn k idx) in I |- *. set (occ := firstn k idx) in *. set (virt := skipn k idx) in *.
      pose proof I as I'. rewrite ST in I'.
      assert (LO : length occ = k). { unfold occ. rewrite firstn_length. apply inr_len in I'. unfold occ, virt in I'. rewrite firstn_skipn, app_length, !repeat_length in I'. lia. }
      assert (LV : length virt = k) by (apply inr_len in I'; rewrite !app_length, !repeat_length in I'; lia).
      rewrite (UU G occ virt ltac:(congruence) I), (Z key R HR _ ltac:(rewrite S1; exact I)). unfold Qcdiv. ring.
    + rewrite U. destruct (slook key d); [apply teq_refl|exact Logic.I].
Qed.
Print Assumptions C55_fixed_points.

(** ... and for the CCSD labels, exactly when <ia| and <ijab| of H exp(T1+T2)|0>, connected, vanish: the amplitudes solve the CCSD equations. *)
Theorem C55_ccsd_fixed_points : forall no nv x label d T1 T2 t1 t2, prepared no nv label x -> contains "CCSD" label = true -> contains "CCSDT" label = false ->
  all_gaps no nv (energies_of x) -> amplitudes no nv label d ->
  slook "t1aa" d = Some T1 -> slook "t2aa" d = Some T2 -> swapped 1 t1 T1 -> swapped 2 t2 T2 ->
  exists d', drive_eqns x label d = Some d' /\
    forall K, (4 <= K)%nat -> let psi := cc_state K no nv (x_f x) (x_g x) (oplus (T1op no nv t1) (T2op no nv t2)) in
    (same_amplitudes d d' <->
      (forall a i, (a < nv)%nat -> (i < no)%nat -> bra1 no nv a i psi = 0) /\
      (forall a b i j, (a < nv)%nat -> (b < nv)%nat -> (i < no)%nat -> (j < no)%nat -> bra2 no nv a b i j psi = 0)).
Proof.
  intros no nv x label d T1 T2 t1 t2 P HS HT G HA E1 E2 S1 S2.
  pose proof (sub label _ HS "D" eq_refl) as HD.
  destruct (C55_fixed_points no nv x label d P HD G HA) as [d' [rs [E [M EQ]]]]. exists d'. split; [exact E|]. intros K HK psi. rewrite EQ.
  destruct HA as [A1 [A2 _]]. destruct (have no nv _ _ _ _ A1 (sub label _ HS "S" eq_refl)) as [T1' [E1' H1]]. destruct (have no nv _ _ _ _ A2 HD) as [T2' [E2' H2]].
  rewrite E1 in E1'. injection E1' as <-. rewrite E2 in E2'. injection E2' as <-.
  destruct (C42_ccsd_equations no nv (x_f x) (x_g x) t1 t2 T1 T2 (Pf no nv label x P) (Pg no nv label x P) (swapped_amp _ _ _ _ _ S1 H1) (swapped_amp _ _ _ _ _ S2 H2) S1 S2)
    as [R1 [R2 [E0 [RR1 [RR2 [_ [SR1 [SR2 [_ B]]]]]]]]]. destruct (B K HK) as [_ [B1 B2]]. clear B. fold psi in B1, B2.
  unfold method_residuals in M. rewrite HT, HS in M. destruct M as [U1 [U2 [Q1 [Q2 [F1 [F2 [G1 [G2 ->]]]]]]]].
  rewrite E1 in F1. injection F1 as <-. rewrite E2 in F2. injection F2 as <-.
  assert (Q1 = R1) as ->.
  { eapply returns_eq; [exact G1|]. unfold returns in *. revert RR1. apply run_up. }
  assert (Q2 = R2) as -> by (eapply returns_eq; [exact G2|exact RR2]).
  split.
  - intros Z. split.
    + intros a i Ha Hi. rewrite <- B1 by assumption. apply (Z "t1aa" R1 eq_refl). rewrite SR1. repeat constructor; assumption.
    + intros a b i j Ha Hb Hi Hj. rewrite <- B2 by assumption. apply (Z "t2aa" R2 eq_refl). rewrite SR2. repeat constructor; assumption.
  - intros [Z1 Z2] key R. cbn [slook]. destruct (String.eqb key "t1aa"); [|destruct (String.eqb key "t2aa"); [|discriminate]]; intros [= <-] idx I.
    + rewrite SR1 in I. repeat match goal with H : inr _ _ |- _ => inversion H; subst; clear H | H : Forall2 _ _ (_ :: _) |- _ => inversion H; subst; clear H | H : Forall2 _ _ [] |- _ => inversion H; subst; clear H end.
      rewrite B1 by assumption. apply Z1; assumption.
    + rewrite SR2 in I. repeat match goal with H : inr _ _ |- _ => inversion H; subst; clear H | H : Forall2 _ _ (_ :: _) |- _ => inversion H; subst; clear H | H : Forall2 _ _ [] |- _ => inversion H; subst; clear H end.
      rewrite B2 by assumption. apply Z2; assumption.
Qed.
Print Assumptions C55_ccsd_fixed_points.

(** ... and for CCD labels, exactly when <ijab| of H exp(T2)|0>, connected, vanishes. *)
Theorem C55_ccd_fixed_points : forall no nv x label d T2 t2, prepared no nv label x -> contains "D" label = true -> contains "CCSD" label = false -> contains "CCDQ" label = false ->
  all_gaps no nv (energies_of x) -> amplitudes no nv label d -> slook "t2aa" d = Some T2 -> swapped 2 t2 T2 ->
  exists d', drive_eqns x label d = Some d' /\
    forall K, (2 <= K)%nat -> let psi := cc_state K no nv (x_f x) (x_g x) (T2op no nv t2) in
    (same_amplitudes d d' <->
      forall a b i j, (a < nv)%nat -> (b < nv)%nat -> (i < no)%nat -> (j < no)%nat -> bra2 no nv a b i j psi = 0).
Proof.
  intros no nv x label d T2 t2 P HD HS HQ G HA E2 S2.
  assert (HT : contains "CCSDT" label = false).
  { destruct (contains "CCSDT" label) eqn:HT; [|reflexivity]. rewrite (sub label _ HT "CCSD" eq_refl) in HS. discriminate. }
  destruct (C55_fixed_points no nv x label d P HD G HA) as [d' [rs [E [M EQ]]]]. exists d'. split; [exact E|]. intros K HK psi. rewrite EQ.
  destruct HA as [_ [A2 _]]. destruct (have no nv _ _ _ _ A2 HD) as [T2' [E2' H2]]. rewrite E2 in E2'. injection E2' as <-.
  pose proof (swapped_amp _ _ _ _ _ S2 H2) as H2'.
  destruct (C42_ccd_equations no nv (x_f x) (x_g x) t2 (Pf no nv label x P) (Pg no nv label x P) H2') as [R [E0 [RR [_ [SR [_ B]]]]]].
  destruct (B K HK) as [_ B2]. clear B. fold psi in B2.
  destruct (C02_four_codings_of_ccd no nv (x_f x) (x_g x) t2 (tzeros [no; nv]) T2 (tzeros [no; no; no; nv; nv; nv]) (tzeros [no; no; no; no; nv; nv; nv; nv])
    (Pf no nv label x P) (Pg no nv label x P) H2' S2 eq_refl ltac:(intros idx _; reflexivity) eq_refl ltac:(intros idx _; reflexivity) eq_refl ltac:(intros idx _; reflexivity))
    as [R' [Rsd [_ [_ [RR' [RS [_ [_ [_ [SW _]]]]]]]]]].
  assert (R' = R) as -> by (eapply returns_eq; [exact RR'|exact RR]).
  unfold method_residuals in M. rewrite HT, HS, HQ in M. destruct M as [U2 [Q2 [F2 [G2 ->]]]]. rewrite E2 in F2. injection F2 as <-.
  assert (Q2 = Rsd) as -> by (eapply returns_eq; [exact G2|exact RS]).
  destruct SW as [SS SD]. rewrite SR in SS. cbn [skipn firstn app] in SS.
  split.
  - intros Z a b i j Ha Hb Hi Hj. rewrite <- B2 by assumption.
    pose proof (SD [a; b] [i; j] eq_refl ltac:(rewrite SR; repeat constructor; assumption)) as D. cbn [app] in D. rewrite <- D.
    apply (Z "t2aa" Rsd eq_refl). rewrite SS. repeat constructor; assumption.
  - intros Z key Q. cbn [slook]. destruct (String.eqb key "t2aa"); [|discriminate]; intros [= <-] idx I.
    rewrite SS in I. repeat match goal with H : inr _ _ |- _ => inversion H; subst; clear H | H : Forall2 _ _ (_ :: _) |- _ => inversion H; subst; clear H | H : Forall2 _ _ [] |- _ => inversion H; subst; clear H end.
    match goal with |- data Rsd [?i; ?j; ?a; ?b] = 0 => pose proof (SD [a; b] [i; j] eq_refl ltac:(rewrite SR; repeat constructor; assumption)) as D end.
    cbn [app] in D. rewrite D, B2 by assumption. apply Z; assumption.
Qed.
Print Assumptions C55_ccd_fixed_points.

(** ** Instances *)
Lemma denoms_total label eps no nv : length eps = (no + nv)%nat -> exists d, drive_denoms label eps no = Some d.
Proof.
  intros L. assert (K : forall k, (k <= 4)%nat -> exists D, den_slow k eps (O, Some no) (no, None) = Some D)
    by (intros k Hk; destruct (C25_occupied_first k no nv eps Hk L) as [D [D' [E _]]]; eauto).
  destruct (K 1%nat) as [D1 K1]; [lia|]. destruct (K 2%nat) as [D2 K2]; [lia|]. destruct (K 3%nat) as [D3 K3]; [lia|]. destruct (K 4%nat) as [D4 K4]; [lia|].
  unfold drive_denoms. rewrite K1, K2, K3, K4. cbn [obind]. destruct (contains "S" label), (contains "D" label), (contains "T" label); cbn [obind]; destruct (_ || _)%bool; eauto.
Qed.
Definition i_energies : list Qc := map i_eps (seq 0 4).
Definition i_setup (label : string) : setup :=
  mkSetup 2 2 2 (i_fock 4) (i_tei 4) i_energies (match drive_denoms label i_energies 2 with Some d => d | None => [] end) (Q2Qc (-5 # 1)) (Q2Qc (2 # 1)).
Example i_prepared label : prepared 2 2 label (i_setup label).
Proof.
  repeat (split; [reflexivity || apply i_fock_ok || apply i_tei_ok|]). cbn [x_e x_den i_setup].
  destruct (denoms_total label i_energies 2 2 eq_refl) as [d ->]. reflexivity.
Qed.
Lemma z_plus a b : Q2Qc (a # 1) + Q2Qc (b # 1) = Q2Qc ((a + b) # 1).
Proof. apply Qc_is_canon. unfold Qcplus. cbn [this Q2Qc]. rewrite !Qred_correct. unfold Qeq. cbn. lia. Qed.
Lemma z_le a b : Q2Qc (a # 1) <= Q2Qc (b # 1) <-> (a <= b)%Z.
Proof. unfold Qcle. cbn [this Q2Qc]. rewrite !Qred_correct. unfold Qle. cbn. lia. Qed.
Example i_gaps label : all_gaps 2 2 (energies_of (i_setup label)).
Proof.
  intros k Hk virt occ LV LO HV HO.
  assert (A : suml occ (energies_of (i_setup label)) <= Q2Qc (Z.of_nat (length occ) # 1)).
  { clear LO. induction occ as [|i occ IH]; [vm_compute; discriminate|]. cbn [suml length].
    specialize (IH (fun i Hi => HO i (or_intror Hi))). assert (B : energies_of (i_setup label) i <= 1).
    { specialize (HO i (or_introl eq_refl)). destruct i as [|[|]]; [| |lia]; vm_compute; discriminate. }
    apply Qcle_trans with (1 + Q2Qc (Z.of_nat (length occ) # 1)); [apply Qcplus_le_compat; assumption|].
    change 1 with (Q2Qc (1 # 1)). rewrite z_plus. apply z_le. lia. }
  assert (B : Q2Qc (4 * Z.of_nat (length virt) # 1) <= suml virt (fun a => energies_of (i_setup label) (2 + a)%nat)).
  { clear LV. induction virt as [|i virt IH]; [vm_compute; discriminate|]. cbn [suml length].
    specialize (IH (fun i Hi => HV i (or_intror Hi))). assert (B : Q2Qc (4 # 1) <= energies_of (i_setup label) (2 + i)%nat).
    { specialize (HV i (or_introl eq_refl)). destruct i as [|[|]]; [| |lia]; vm_compute; discriminate. }
    apply Qcle_trans with (Q2Qc (4 # 1) + Q2Qc (4 * Z.of_nat (length virt) # 1)); [|apply Qcplus_le_compat; assumption].
    rewrite z_plus. apply z_le. lia. }
  intros G. unfold gap in G. rewrite LO in A. rewrite LV in B.
  assert (C : suml occ (energies_of (i_setup label)) = suml virt (fun a => energies_of (i_setup label) (2 + a)%nat)).
  { match goal with |- ?a = ?b => transitivity ((a - b) + b); [ring|] end. rewrite G. ring. }
  rewrite <- C in B. pose proof (Qcle_trans _ _ _ B A) as X. pose proof (proj1 (z_le _ _) X). lia.
Qed.
Example C54_instance label := C54_drive_run 2 2 (i_setup label) label None (i_prepared label).
Example C55_instance label d := C55_fixed_points 2 2 (i_setup label) label d (i_prepared label).
(** the guess of the instance, its residuals and the second iterate are non-zero *)
Definition i_guess (label : string) : dict := match init_tamps (i_setup label) label None with Some d => d | None => [] end.
Example i_guess_ok label : contains "D" label = true -> amplitudes 2 2 label (i_guess label).
Proof.
  intros HD. unfold i_guess. destruct (guess 2 2 label (i_setup label) (i_prepared label) None HD I) as [d [-> [A _]]]. exact A.
Qed.
Example C55_instance_ccsd := C55_fixed_points 2 2 (i_setup "CCSD") "CCSD" (i_guess "CCSD") (i_prepared "CCSD") eq_refl (i_gaps "CCSD") (i_guess_ok "CCSD" eq_refl).
Example i_guess_moves : forall d', drive_eqns (i_setup "CCD") "CCD" (i_guess "CCD") = Some d' -> ~ same_amplitudes (i_guess "CCD") d'.
Proof.
  intros d' E SA. specialize (SA "t2aa").
  assert (X : match slook "t2aa" (i_guess "CCD"), drive_eqns (i_setup "CCD") "CCD" (i_guess "CCD") with
    Some u, Some d' => match slook "t2aa" d' with Some u' => Qeq_bool (data u [0;1;0;1]%nat) (data u' [0;1;0;1]%nat) | None => true end | _, _ => true end = false)
    by (vm_compute; reflexivity).
  assert (Y : match slook "t2aa" (i_guess "CCD") with Some u => shape u | None => [] end = [2;2;2;2]%nat) by (vm_compute; reflexivity).
  rewrite E in X. destruct (slook "t2aa" (i_guess "CCD")) as [u|]; [|discriminate]. destruct (slook "t2aa" d') as [u'|]; [|discriminate].
  destruct SA as [_ SA]. rewrite (SA [0;1;0;1]%nat) in X by (rewrite Y; repeat constructor). rewrite (Qeq_bool_refl (data u' [0;1;0;1]%nat)) in X. discriminate.
Qed.
