(** C55 for labels with triples or quadruples: where the iteration of test.py stands still, the Schroedinger equation projected on
    singles and doubles holds, and the projection on triples (quadruples) is as small as the printed decimals allow. *)
From Coq Require Import String Ascii List Arith NArith ZArith QArith Qcanon Bool Lia Permutation.
From Coq Require Qcabs.
From Verif Require Import Sums Tensor Interp Numpy Spec SpecDriver Instances Tabs Bound BoundedInst.
From Verif Require Import P_flip P_slow Fock CCState P_fock P_fock2 Drive SpecDrive P_drive P_drive2.
From Verif Require Code_ccsdt_eqns Code_ccdq_eqns.
Import ListNotations.
Open Scope string_scope.
Open Scope Qc_scope.

Theorem C55_ccsdt_fixed_points : forall no nv x label d T1 T2 T3 t1 t2 t3, prepared no nv label x -> contains "CCSDT" label = true ->
  all_gaps no nv (energies_of x) -> amplitudes no nv label d ->
  slook "t1aa" d = Some T1 -> slook "t2aa" d = Some T2 -> slook "t3aa" d = Some T3 -> swapped 1 t1 T1 -> swapped 2 t2 T2 -> swapped 3 t3 T3 ->
  exists d', drive_eqns x label d = Some d' /\
    (same_amplitudes d d' ->
     forall K, (8 <= K)%nat -> let psi := cc_state K no nv (x_f x) (x_g x) (oplus (oplus (T1op no nv t1) (T2op no nv t2)) (T3op no nv t3)) in
      (forall a i, (a < nv)%nat -> (i < no)%nat -> bra1 no nv a i psi = 0) /\
      (forall a b i j, (a < nv)%nat -> (b < nv)%nat -> (i < no)%nat -> (j < no)%nat -> bra2 no nv a b i j psi = 0) /\
      forall M, (1 <= no + nv)%nat -> 1 <= M -> bounded M (x_f x) -> bounded M (x_g x) -> bounded M t1 -> bounded M t2 -> bounded M t3 ->
      forall a b c i j k, (a < nv)%nat -> (b < nv)%nat -> (c < nv)%nat -> (i < no)%nat -> (j < no)%nat -> (k < no)%nat ->
        Qcabs.Qcabs (bra3 no nv a b c i j k psi) <= Q2Qc (1 # 4000000) * qn (no + nv) ^ 4 * M ^ 4).
Proof.
  intros no nv x label d T1 T2 T3 t1 t2 t3 P HT G HA E1 E2 E3 S1 S2 S3.
  destruct (C55_fixed_points no nv x label d P (sub label _ HT "D" eq_refl) G HA) as [d' [rs [E [M EQ]]]]. exists d'. split; [exact E|]. intros SA K HK psi.
  pose proof (proj1 EQ SA) as Z. clear EQ SA.
  destruct HA as [A1 [A2 [A3 _]]]. destruct (have no nv _ _ _ _ A1 (sub label _ HT "S" eq_refl)) as [T1' [E1' H1]]. destruct (have no nv _ _ _ _ A2 (sub label _ HT "D" eq_refl)) as [T2' [E2' H2]].
  destruct (have no nv _ _ _ _ A3 (sub label _ HT "T" eq_refl)) as [T3' [E3' H3]].
  rewrite E1 in E1'. injection E1' as <-. rewrite E2 in E2'. injection E2' as <-. rewrite E3 in E3'. injection E3' as <-.
  pose proof (swapped_amp _ _ _ _ _ S1 H1) as Q1. pose proof (swapped_amp _ _ _ _ _ S2 H2) as Q2. pose proof (swapped_amp _ _ _ _ _ S3 H3) as Q3.
  unfold method_residuals in M. rewrite HT in M. destruct M as [U1 [U2 [U3 [R1 [R2 [R3 [F1 [F2 [F3 [G1 [G2 [G3 ->]]]]]]]]]]]].
  rewrite E1 in F1. injection F1 as <-. rewrite E2 in F2. injection F2 as <-. rewrite E3 in F3. injection F3 as <-.
  destruct (C61_ccsdt_equations no nv (x_f x) (x_g x) t1 t2 t3 T1 T2 T3 (Pf no nv label x P) (Pg no nv label x P) Q1 Q2 Q3 S1 S2 S3)
    as [R1' [R2' [R3' [E' [RR1 [RR2 [_ [_ [SR1 [SR2 [_ [_ B]]]]]]]]]]]]. destruct (B K HK) as [_ [B1 [B2 _]]]. clear B R3' E'. fold psi in B1, B2.
  assert (R1' = R1) as -> by (eapply returns_eq; [exact RR1|exact G1]).
  assert (R2' = R2) as -> by (eapply returns_eq; [exact RR2|exact G2]).
  split; [|split].
  - intros a i Ha Hi. rewrite <- B1 by assumption. apply (Z "t1aa" R1 eq_refl). rewrite SR1. repeat constructor; assumption.
  - intros a b i j Ha Hb Hi Hj. rewrite <- B2 by assumption. apply (Z "t2aa" R2 eq_refl). rewrite SR2. repeat constructor; assumption.
  - intros M HN HM Bf Bg X1 X2 X3 a b c i j k Ha Hb Hc Hi Hj Hk.
    destruct (C61_ccsdt_triples_bound no nv (x_f x) (x_g x) t1 t2 t3 T1 T2 T3 M (Pf no nv label x P) (Pg no nv label x P) Q1 Q2 Q3 S1 S2 S3 HN HM Bf Bg X1 X2 X3) as [R3' [RR3 [SR3 B]]].
    assert (R3' = R3) as -> by (eapply returns_eq; [exact RR3|exact G3]).
    specialize (B K HK a b c i j k Ha Hb Hc Hi Hj Hk). fold psi in B. rewrite (Z "t3aa" R3 eq_refl) in B by (rewrite SR3; repeat constructor; assumption).
    replace (0 - bra3 no nv a b c i j k psi) with (- bra3 no nv a b c i j k psi) in B by ring. rewrite Qcabs.Qcabs_opp in B. exact B.
Qed.
Print Assumptions C55_ccsdt_fixed_points.

Theorem C55_ccdq_fixed_points : forall no nv x label d T2 T4 t2 t4, prepared no nv label x -> contains "CCSD" label = false -> contains "CCDQ" label = true ->
  all_gaps no nv (energies_of x) -> amplitudes no nv label d ->
  slook "t2aa" d = Some T2 -> slook "t4aa" d = Some T4 -> swapped 2 t2 T2 -> swapped 4 t4 T4 ->
  exists d', drive_eqns x label d = Some d' /\
    (same_amplitudes d d' ->
     forall K, (9 <= K)%nat -> let psi := cc_state K no nv (x_f x) (x_g x) (oplus (T2op no nv t2) (T4op no nv t4)) in
      (forall a b i j, (a < nv)%nat -> (b < nv)%nat -> (i < no)%nat -> (j < no)%nat -> bra2 no nv a b i j psi = 0) /\
      forall M, (1 <= no + nv)%nat -> 1 <= M -> bounded M (x_f x) -> bounded M (x_g x) -> bounded M t2 -> bounded M t4 ->
      forall a b c e i j k l, (a < nv)%nat -> (b < nv)%nat -> (c < nv)%nat -> (e < nv)%nat -> (i < no)%nat -> (j < no)%nat -> (k < no)%nat -> (l < no)%nat ->
        Qcabs.Qcabs (bra4 no nv a b c e i j k l psi) <= Q2Qc (1 # 400000) * qn (no + nv) ^ 4 * M ^ 3).
Proof.
  intros no nv x label d T2 T4 t2 t4 P HS HQ G HA E2 E4 S2 S4.
  assert (HT : contains "CCSDT" label = false).
  { destruct (contains "CCSDT" label) eqn:HT; [|reflexivity]. rewrite (sub label _ HT "CCSD" eq_refl) in HS. discriminate. }
  destruct (C55_fixed_points no nv x label d P (sub label _ HQ "D" eq_refl) G HA) as [d' [rs [E [M EQ]]]]. exists d'. split; [exact E|]. intros SA K HK psi.
  pose proof (proj1 EQ SA) as Z. clear EQ SA.
  destruct HA as [_ [A2 [_ A4]]]. destruct (have no nv _ _ _ _ A2 (sub label _ HQ "D" eq_refl)) as [T2' [E2' H2]].
  destruct (have no nv _ _ _ _ A4 (sub label _ HQ "Q" eq_refl)) as [T4' [E4' H4]].
  rewrite E2 in E2'. injection E2' as <-. rewrite E4 in E4'. injection E4' as <-.
  pose proof (swapped_amp _ _ _ _ _ S2 H2) as Q2. pose proof (swapped_amp _ _ _ _ _ S4 H4) as Q4.
  unfold method_residuals in M. rewrite HT, HS, HQ in M. destruct M as [U2 [U4 [R2 [R4 [F2 [F4 [G2 [G4 ->]]]]]]]].
  rewrite E2 in F2. injection F2 as <-. rewrite E4 in F4. injection F4 as <-.
  destruct (C61_ccdq_equations no nv (x_f x) (x_g x) t2 t4 T2 T4 (Pf no nv label x P) (Pg no nv label x P) Q2 Q4 S2 S4)
    as [R2' [R4' [E' [RR2 [_ [_ [SR2 [_ [_ B]]]]]]]]]. destruct (B K HK) as [_ [B2 _]]. clear B R4' E'. fold psi in B2.
  assert (R2' = R2) as -> by (eapply returns_eq; [exact RR2|exact G2]).
  split.
  - intros a b i j Ha Hb Hi Hj. rewrite <- B2 by assumption. apply (Z "t2aa" R2 eq_refl). rewrite SR2. repeat constructor; assumption.
  - intros M HN HM Bf Bg X2 X4 a b c e i j k l Ha Hb Hc He Hi Hj Hk Hl.
    destruct (C61_ccdq_quadruples_bound no nv (x_f x) (x_g x) t2 t4 T2 T4 M (Pf no nv label x P) (Pg no nv label x P) Q2 Q4 S2 S4 HN HM Bf Bg X2 X4) as [R4' [RR4 [SR4 B]]].
    assert (R4' = R4) as -> by (eapply returns_eq; [exact RR4|exact G4]).
    specialize (B K HK a b c e i j k l Ha Hb Hc He Hi Hj Hk Hl). fold psi in B. rewrite (Z "t4aa" R4 eq_refl) in B by (rewrite SR4; repeat constructor; assumption).
    replace (0 - bra4 no nv a b c e i j k l psi) with (- bra4 no nv a b c e i j k l psi) in B by ring. rewrite Qcabs.Qcabs_opp in B. exact B.
Qed.
Print Assumptions C55_ccdq_fixed_points.
(** the hypotheses are met by the first guess of the instance with two occupied and two virtual orbitals *)
Definition flip (k : nat) (T : tensor) : tensor := mkT (skipn k (shape T) ++ firstn k (shape T)) (fun l => data T (skipn k l ++ firstn k l)).
Lemma flip_ok k no nv T : shape T = (repeat no k ++ repeat nv k)%list -> swapped k (flip k T) T.
Proof.
  intros E. assert (F1 : skipn k (shape T) = repeat nv k) by (rewrite E, skipn_app, skipn_all2, repeat_length, Nat.sub_diag by (rewrite repeat_length; lia); reflexivity).
  assert (F2 : firstn k (shape T) = repeat no k) by (rewrite E, firstn_app, firstn_all2, repeat_length, Nat.sub_diag by (rewrite repeat_length; lia); apply app_nil_r).
  unfold flip. split; cbn [shape data].
  - rewrite F1, F2, E, skipn_app, skipn_all2, firstn_app, firstn_all2, !repeat_length, Nat.sub_diag by (rewrite repeat_length; lia). cbn [firstn skipn app]. rewrite app_nil_r. reflexivity.
  - intros l1 l2 L _. rewrite skipn_app, skipn_all2, firstn_app, firstn_all2, L, Nat.sub_diag by lia. cbn [firstn skipn app]. rewrite app_nil_r. reflexivity.
Qed.
Lemma amp_of key b k no nv d : holds_amp key b k no nv d -> b = true -> exists T, slook key d = Some T /\ swapped k (flip k T) T.
Proof. intros H B. destruct (have _ _ _ _ _ _ H B) as [T [E A]]. exists T. split; [exact E|]. apply (flip_ok k no nv), A. Qed.
Example C55_ccsdt_instance : exists T1 T2 T3 d', slook "t1aa" (i_guess "CCSDT") = Some T1 /\ slook "t2aa" (i_guess "CCSDT") = Some T2 /\ slook "t3aa" (i_guess "CCSDT") = Some T3 /\ drive_eqns (i_setup "CCSDT") "CCSDT" (i_guess "CCSDT") = Some d'.
Proof.
  pose proof (i_guess_ok "CCSDT" eq_refl) as A. pose proof A as [A1 [A2 [A3 _]]].
  destruct (amp_of _ _ _ _ _ _ A1 eq_refl) as [T1 [E1 S1]]. destruct (amp_of _ _ _ _ _ _ A2 eq_refl) as [T2 [E2 S2]]. destruct (amp_of _ _ _ _ _ _ A3 eq_refl) as [T3 [E3 S3]].
  destruct (C55_ccsdt_fixed_points 2 2 (i_setup "CCSDT") "CCSDT" (i_guess "CCSDT") T1 T2 T3 _ _ _ (i_prepared "CCSDT") eq_refl (i_gaps "CCSDT") A E1 E2 E3 S1 S2 S3) as [d' [E _]].
  exists T1, T2, T3, d'. auto.
Qed.
Example C55_ccdq_instance : exists T2 T4 d', slook "t2aa" (i_guess "CCDQ") = Some T2 /\ slook "t4aa" (i_guess "CCDQ") = Some T4 /\ drive_eqns (i_setup "CCDQ") "CCDQ" (i_guess "CCDQ") = Some d'.
Proof.
  pose proof (i_guess_ok "CCDQ" eq_refl) as A. pose proof A as [_ [A2 [_ A4]]].
  destruct (amp_of _ _ _ _ _ _ A2 eq_refl) as [T2 [E2 S2]]. destruct (amp_of _ _ _ _ _ _ A4 eq_refl) as [T4 [E4 S4]].
  destruct (C55_ccdq_fixed_points 2 2 (i_setup "CCDQ") "CCDQ" (i_guess "CCDQ") T2 T4 _ _ (i_prepared "CCDQ") eq_refl eq_refl (i_gaps "CCDQ") A E2 E4 S2 S4) as [d' [E _]].
  exists T2, T4, d'. auto.
Qed.
