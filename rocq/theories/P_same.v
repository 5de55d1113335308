(** The class DriveCC (test.py) and the class-based driver (kernel.py) run the same CCD. *)
From Coq Require Import String Ascii List Arith NArith ZArith QArith Qcanon Bool Lia.
From Coq Require Qcabs.
From Verif Require Import Sums Tensor Interp Numpy Spec SpecDriver Instances.
From Verif Require Import Setup Master Check Formula Tabs Spin.
From Verif Require Import Diis Kernel Denoms P_denoms Ints P_ints P_ints2 P_endtoend SlowCC P_slow P_ccsd P_slow3 P_ccd SpinLink SpinCC P_spinrun P_flip Drive SpecDrive P_drive P_drive2 P_drive3 P_drive4.
Import ListNotations.
Open Scope string_scope.
Open Scope Qc_scope.

Section Same.
  Variables (no nv : nat) (x : setup) (label : string) (D1 D2 D3 : tensor) (c : calc) (solve : solver).
  Hypothesis P : prepared no nv label x.
  Hypothesis HD : contains "D" label = true.
  Hypothesis NS : contains "S" label = false.
  Hypothesis NQ : contains "CCDQ" label = false.
  Hypothesis G : all_gaps no nv (energies_of x).
  Hypothesis HD2 : is_denominator 2 no nv (energies_of x) D2.
  Hypothesis Hlab : cc_label c = "ccdTypeSlow".
  Hypothesis Hty : cc_type c = "CCD".
  Hypothesis Hdi : diis_size c = None.
  Notation f := (x_f x). Notation g := (x_g x).
  Let HF : is_fock (no + nv) f := Pf no nv label x P.
  Let HG : is_tei (no + nv) g := Pg no nv label x P.
  Notation sresid := (slow_resid no nv f g D1 D2 D3 c).
  Notation senergy := (slow_energy no nv f g D2 c).

  (** the same amplitudes in the two dictionaries *)
  Definition same (d d' : dict) : Prop := exists t T b e, slook "t2aa" d = Some t /\ slook "t2bb" d = Some b /\ slook "t2ab" d = Some e /\
    shape b = [nv; nv; no; no] /\ shape e = [nv; nv; no; no] /\ slook "t2aa" d' = Some T /\ is_amp 2 no nv t /\ swapped 2 t T /\ slook "t1aa" d' = None.

  Lemma same_energy d d' w : same d d' -> t2energy_slow no nv f g D2 c d w = Some (cc_energy no nv f g d', w).
  Proof.
    intros [t [T [b [e [E1 [_ [_ [_ [_ [E2 [At [Sw N1]]]]]]]]]]]]. unfold t2energy_slow. rewrite E1. cbn [obind]. unfold xccd_flag. rewrite Hty. cbn [existsb].
    change (contains "XCCD(5)" "CCD" || (contains "XCCD(6)" "CCD" || (contains "XCCD(7)" "CCD" || (contains "XCCD(8)" "CCD" || (contains "XCCD(9)" "CCD" || false)))))%bool with false.
    rewrite (ccd_energy_is no nv f g t HF HG At). cbn [obind]. do 2 f_equal. unfold cc_energy. rewrite E2, N1. unfold E_ccd, reference_energy, doubles_energy.
    assert (K : (Sum i < no, Sum j < no, Sum a < nv, Sum b < nv, data g [i; j; no + a; no + b]%nat * data t [a; b; i; j]) =
                (Sum i < no, Sum j < no, Sum a < nv, Sum b < nv, data g [i; j; no + a; no + b]%nat * data T [i; j; a; b])).
    { apply suml_ext; intros i Hi. apply suml_ext; intros j Hj. apply suml_ext; intros a Ha. apply suml_ext; intros b' Hb. apply in_seq in Hi, Hj, Ha, Hb.
      destruct Sw as [_ Sw]. pose proof (Sw [a; b'] [i; j] eq_refl) as X. cbn [app] in X. rewrite X; [reflexivity|]. rewrite (proj1 At). repeat constructor; lia. }
    rewrite K. unfold E_ref. replace (Q2Qc (-1 # 2)) with (- Q2Qc (1 # 2)) by (apply Qc_is_canon; reflexivity). ring.
  Qed.
  Lemma same_pass d d' e' w rs : same d d' -> method_residuals no nv f g label d' rs -> updates no nv (energies_of x) rs d' e' ->
    exists e, t2resid_slow no nv f g D2 c d w = Some (e, w) /\ same e e'.
  Proof.
    intros [t [T [b [q [E1 [_ [_ [_ [_ [E2 [At [Sw N1]]]]]]]]]]]] M U.
    assert (N2 : contains "CCSD" label = false). { destruct (contains "CCSD" label) eqn:H; [|reflexivity]. rewrite (sub label _ H "S" eq_refl) in NS. discriminate. }
    assert (N3 : contains "CCSDT" label = false). { destruct (contains "CCSDT" label) eqn:H; [|reflexivity]. rewrite (sub label _ H "S" eq_refl) in NS. discriminate. }
    unfold method_residuals in M. rewrite N3, N2, NQ in M. destruct M as [T' [Rd [E2' [ER ->]]]]. rewrite E2 in E2'. injection E2' as <-.
    destruct (C02_four_codings_of_ccd no nv f g t (tzeros [no; nv]) T (tzeros [no; no; no; nv; nv; nv]) (tzeros [no; no; no; no; nv; nv; nv; nv])
      HF HG At Sw eq_refl ltac:(intros idx _; reflexivity) eq_refl ltac:(intros idx _; reflexivity) eq_refl ltac:(intros idx _; reflexivity))
      as [R [Rsd [_ [_ [RR [RS [_ [_ [SR [SW _]]]]]]]]]].
    assert (Rd = Rsd) as -> by (eapply returns_eq; [exact ER|exact RS]). clear ER RS.
    apply call0_returns in RR. destruct (P_slow.ccd_amp no nv f g t HF HG At) as [R' [RR' AR]].
    rewrite RR in RR'. injection RR' as <-.
    assert (St : shape t = [nv; nv; no; no]) by exact (proj1 At).
    destruct (update_shape D2 t R) as [N [EN [SN DN]]]; [rewrite St; exact (proj1 HD2)|congruence|].
    unfold t2resid_slow. rewrite E1. cbn [obind]. rewrite RR. cbn [obind]. rewrite Hty.
    change ("CCD" =? "LCCD") with false. change (contains "X" "CCD") with false. change ("CCD" =? "pCCD") with false. cbn [obind fst snd].
    pose proof EN as EN'. unfold update in EN'.
    destruct (tbin Qcmult (trecip D2) t) as [X|]; cbn [obind] in *; [|discriminate].
    destruct (tbin Qcplus R X) as [Y|] eqn:EY; cbn [obind] in *; [|discriminate]. rewrite EN'. cbn [obind].
    eexists. split; [reflexivity|].
    assert (SY : shape Y = [nv; nv; no; no]). { apply tbin_inv in EY. destruct EY as [_ ->]. exact SR. }
    pose proof (U "t2aa") as U2. cbn [slook] in U2. change ("t2aa" =? "t2aa") with true in U2. cbn iota in U2.
    destruct U2 as [T0 [T' [E0 [E3 [S1 [S2 UU]]]]]]. rewrite E2 in E0. injection E0 as <-.
    pose proof (U "t1aa") as U1. cbn [slook] in U1. change ("t1aa" =? "t2aa") with false in U1. cbn iota in U1. rewrite N1 in U1.
    exists N, T', (tscale 0 Y), (tscale 0 Y). cbn [slook]. change ("t2bb" =? "t2aa") with false. change ("t2ab" =? "t2aa") with false. change ("t2ab" =? "t2bb") with false.
    change ("t2aa" =? "t2aa") with true. change ("t2bb" =? "t2bb") with true. change ("t2ab" =? "t2ab") with true. cbn iota.
    do 3 (split; [reflexivity|]). do 2 (split; [exact SY|]). split; [exact E3|].
    assert (XX : is_amp 2 no nv N /\ swapped 2 N T'); [|destruct XX as [XX1 XX2]; split; [exact XX1|split; [exact XX2|exact U1]]].
    assert (SwN : swapped 2 N T').
    { split; [rewrite S2, SN; apply Sw|]. rewrite SN. intros l1 l2 L1 I.
      assert (L2 : length l2 = 2%nat). { apply inr_len in I. rewrite St, app_length, L1 in I. cbn in I. lia. }
      assert (I' : inr (l2 ++ l1) (shape T)).
      { rewrite (proj1 Sw). rewrite St in I |- *. cbn [skipn firstn app]. destruct l1 as [|a [|b' [|]]]; try discriminate. destruct l2 as [|i [|j [|]]]; try discriminate. cbn [app] in I |- *.
        destruct (inr_4 _ _ _ _ _ I) as [? [? [? [? [[= <- <- <- <-] [[? ?] [? ?]]]]]]]. repeat constructor; assumption. }
      rewrite (UU G l2 l1 ltac:(congruence) I'), DN, (proj2 Sw l1 l2 L1 I), (proj2 SW l1 l2 L1 ltac:(rewrite SR, <- St; exact I)).
      assert (EG : data D2 (l1 ++ l2)%list = / gap no (energies_of x) l1 l2) by (apply HD2; [exact L1|rewrite (proj1 HD2), St in *; exact I]). rewrite EG.
      assert (NZ : gap no (energies_of x) l1 l2 <> 0).
      { rewrite St in I. destruct l1 as [|a [|b' [|]]]; try discriminate. destruct l2 as [|i [|j [|]]]; try discriminate. cbn [app] in I.
        destruct (inr_4 _ _ _ _ _ I) as [? [? [? [? [[= <- <- <- <-] [[? ?] [? ?]]]]]]].
        apply (G 2%nat); [lia|reflexivity|reflexivity| |]; intros k [<-|[<-|[]]]; assumption. }
      field. split; [exact NZ|]. discriminate. }
    split; [|exact SwN].
    destruct (amp_times_sym no nv 2 R D2 AR (den_sym no nv 2 (energies_of x) D2 HD2)) as [N1' [EN1 AN1]].
    destruct (amp_plus no nv 2 t N1' At AN1) as [N2' [EN2 AN2]]. apply (amp_teq no nv 2 N2' N AN2). split; [rewrite SN, (proj1 AN2); exact (proj1 At)|].
    rewrite SN. intros idx I. apply tbin_inv in EN1. destruct EN1 as [_ ->]. apply tbin_inv in EN2. destruct EN2 as [_ ->]. cbn [data]. rewrite DN.
    rewrite St in I. destruct (inr_4 _ _ _ _ _ I) as [a [b' [i [j [-> [[? ?] [? ?]]]]]]].
    assert (EG : data D2 [a; b'; i; j] = / gap no (energies_of x) [a; b'] [i; j]) by (apply (proj2 HD2 [a; b'] [i; j] eq_refl); rewrite (proj1 HD2); exact I). rewrite EG.
    assert (NZ : gap no (energies_of x) [a; b'] [i; j] <> 0) by (apply (G 2%nat); [lia|reflexivity|reflexivity| |]; intros k [<-|[<-|[]]]; assumption).
    field. split; [exact NZ|]. discriminate.
  Qed.
  Lemma same_l2 d d' : same d d' -> exists l2, l2_of d = Some l2.
  Proof.
    intros [t [T [b [e [E1 [E2 [E3 [Sb [Se [_ [At _]]]]]]]]]]]. unfold l2_of. rewrite E1, E2, E3. cbn [obind].
    assert (K : forall u, shape u = [nv; nv; no; no] -> exists u', ttransp [2; 3; 0; 1]%nat u = Some u') by (intros u Su; unfold ttransp; rewrite Su; cbn; eauto).
    destruct (K t (proj1 At)) as [t' ->]. destruct (K b Sb) as [b1 ->]. destruct (K e Se) as [e1 ->]. cbn [obind]. eauto.
  Qed.

  Variable A : nat -> dict.
  Hypothesis A0 : first_guess no nv (energies_of x) g (A 0%nat).
  Hypothesis AA : forall n, amplitudes no nv label (A n).
  Hypothesis AS : forall n, exists rs, method_residuals no nv f g label (A n) rs /\ updates no nv (energies_of x) rs (A n) (A (Datatypes.S n)).
  Let E n := cc_energy no nv f g (A n).

  Lemma rcall : resid_call c = Some R_t2residSlow.
  Proof. unfold resid_call. rewrite Hlab, Hty. reflexivity. Qed.
  Lemma ecall : energy_call c = Some E_t2energySlow.
  Proof. unfold energy_call. rewrite Hlab, Hty. reflexivity. Qed.
  Lemma same_iteration s n : same (amps disk s) (A n) -> exists s', iteration disk solve sresid senergy c s = Some (s', E (Datatypes.S n)) /\ same (amps disk s') (A (Datatypes.S n)).
  Proof.
    intros H. destruct (AS n) as [rs [M U]]. destruct (same_pass _ _ _ (world disk s) rs H M U) as [e [E1 H1]]. destruct (same_l2 _ _ H) as [l2 EL].
    unfold iteration. rewrite EL. cbn [obind]. rewrite rcall. cbn [obind slow_resid]. rewrite E1. cbn [obind fst snd]. unfold diis_block. rewrite Hdi. cbn [obind amps world l2amps old_vec dstate].
    rewrite ecall. cbn [obind slow_energy]. rewrite (same_energy _ _ _ H1). cbn [obind fst snd]. eexists. split; [reflexivity|exact H1].
  Qed.
  Lemma same_start w : exists s0, start disk senergy (mp_guess no g D2) c (slow_init no nv c) (slow_old no nv c) w = Some (s0, E 0%nat) /\ same (amps disk s0) (A 0%nat).
  Proof.
    destruct (guess_is no nv g (energies_of x) D2 HG HD2) as [gs [t [Eg [Et [At Dt]]]]].
    destruct A0 as [_ [T2 [ET DT]]]. destruct (AA 0%nat) as [A1 [A2 _]]. destruct (have no nv _ _ _ _ A2 HD) as [T2' [ET' AT]]. rewrite ET in ET'. injection ET' as <-.
    unfold holds_amp in A1. rewrite NS in A1.
    set (d0 := sset "t2aa" t (slow_init no nv c)).
    assert (H : same d0 (A 0%nat)).
    { exists t, T2, (tzeros [nv; nv; no; no]), (tzeros [nv; nv; no; no]). unfold d0, slow_init. rewrite Hdi. do 5 (split; [reflexivity|]). split; [exact ET|]. split; [exact At|]. split; [|exact A1].
      split; [rewrite (proj1 At); exact (proj1 AT)|]. rewrite (proj1 At). intros l1 l2 L1 I. cbn [repeat app] in I.
      destruct (inr_4 _ _ _ _ _ I) as [a [b [i [j [EE [[? ?] [? ?]]]]]]]. destruct l1 as [|a' [|b' [|]]]; try discriminate L1. cbn [app] in EE. injection EE as -> -> ->.
      cbn [app] in I |- *. rewrite Dt by exact I. rewrite DT by assumption. f_equal. destruct HG as [Sg [_ Hh]]. apply (Hh [i; j] [no + a; no + b]%nat eq_refl eq_refl). rewrite Sg. cbn [app]. repeat constructor; lia. }
    unfold start. rewrite Hlab. change ("ccdTypeSlow" =? "ccdTypeSlow") with true. cbn iota. unfold mp_guess. rewrite Eg. cbn [obind]. rewrite Et. cbn [obind]. fold d0.
    rewrite ecall. cbn [obind slow_energy]. rewrite (same_energy _ _ _ H). cbn [obind fst snd]. eexists. split; [reflexivity|exact H].
  Qed.
  Lemma same_loop_hit n : forall m idx s cur, same (amps disk s) (A idx) -> (n < m)%nat -> (idx + m <= 76)%nat -> (idx + m <= max_iter c)%nat ->
    settled (stopping_eps c) E (idx + n) -> (forall k, (k < n)%nat -> ~ settled (stopping_eps c) E (idx + k)) ->
    exists s', loop disk solve sresid senergy c m idx s (E idx) cur = LDone disk s' (Some (E (Datatypes.S (idx + n)))) /\ same (amps disk s') (A (Datatypes.S (idx + n))).
  Proof.
    induction n as [|n IH]; intros m idx s cur H Hm M76 Mmax HS HN; destruct m as [|m]; try lia; cbn [loop];
      rewrite (proj2 (Nat.ltb_ge 75 idx)) by lia; destruct (same_iteration s idx H) as [s' [-> H']].
    - rewrite Nat.add_0_r in *. destruct (Qclt_le_dec _ _) as [L|L]; [eauto|]. destruct (Qclt_not_le _ _ HS L).
    - destruct (Qclt_le_dec _ _) as [L|L].
      + specialize (HN 0%nat ltac:(lia)). rewrite Nat.add_0_r in HN. destruct (HN L).
      + rewrite (proj2 (Nat.ltb_ge (max_iter c) idx)) by lia. replace (idx + Datatypes.S n)%nat with (Datatypes.S idx + n)%nat in * by lia.
        apply IH; [exact H'|lia|lia|lia|exact HS|]. intros k Hk. replace (Datatypes.S idx + k)%nat with (idx + Datatypes.S k)%nat by lia. apply HN. lia.
  Qed.
  Lemma same_loop_miss m : forall idx s cur, same (amps disk s) (A idx) -> (idx + m <= 76)%nat -> (idx + m <= max_iter c)%nat ->
    (forall k, (k < m)%nat -> ~ settled (stopping_eps c) E (idx + k)) ->
    exists s', loop disk solve sresid senergy c m idx s (E idx) cur = LDone disk s' (if Nat.eqb m 0 then cur else Some (E (idx + m)%nat)) /\ same (amps disk s') (A (idx + m)%nat).
  Proof.
    induction m as [|m IH]; intros idx s cur H M76 Mmax HN; cbn [loop].
    - rewrite Nat.add_0_r. cbn [Nat.eqb]. eauto.
    - rewrite (proj2 (Nat.ltb_ge 75 idx)) by lia. destruct (same_iteration s idx H) as [s' [-> H']]. destruct (Qclt_le_dec _ _) as [L|L].
      + specialize (HN 0%nat ltac:(lia)). rewrite Nat.add_0_r in HN. destruct (HN L).
      + rewrite (proj2 (Nat.ltb_ge (max_iter c) idx)) by lia. destruct (IH (Datatypes.S idx) s' (Some (E (Datatypes.S idx))) H') as [s2 [E2 H2]]; [lia|lia| |].
        { intros k Hk. replace (Datatypes.S idx + k)%nat with (idx + Datatypes.S k)%nat by lia. apply HN. lia. }
        exists s2. rewrite E2. replace (idx + Datatypes.S m)%nat with (Datatypes.S idx + m)%nat by lia. cbn [Nat.eqb]. split; [|exact H2].
        destruct m; [|reflexivity]. cbn [Nat.eqb]. rewrite Nat.add_0_r. reflexivity.
  Qed.
  Lemma same_end s n w : (0 < no)%nat -> (0 < nv)%nat -> same (amps disk s) (A n) -> printable (amps disk s) = true /\
    forall e l2, finalize disk (slow_pert no nv g D2 c) c e (amps disk s) l2 w = Some (e + nucE c, nucE c + e - hf_energy c).
  Proof.
    intros PO PV [t [T [b [q [E1 [_ [_ [_ [_ [E2 [At _]]]]]]]]]]]. split.
    - unfold printable. rewrite E1. pose proof (proj1 At) as St. cbn [repeat app] in St. rewrite St. rewrite !(proj2 (Nat.ltb_lt 0 _)) by lia. reflexivity.
    - intros e l2. unfold finalize, is_qf. rewrite Hty. reflexivity.
  Qed.
End Same.

(** C59.  A DriveCC run for CCD and a spin-orbital CCD run of the class-based driver without DIIS, with the same integrals, orbital
    energies, threshold and limit (at most 76 passes): if DriveCC returns, the class-based driver returns the same correlation energy, the
    same total energy but for the nuclear repulsion, and the same amplitudes, virtual indices first.  If DriveCC raises because it has not
    converged, the class-based driver returns the unconverged energy. *)
Theorem C59_same_ccd : forall no nv x j D1 D2 D3 c solve w, let label := j_label j in
  prepared no nv label x -> contains "D" label = true -> contains "S" label = false -> contains "CCDQ" label = false -> contains "(" label = false ->
  all_gaps no nv (energies_of x) -> j_t2file j = None -> (0 < no)%nat -> (0 < nv)%nat -> (0 < j_max_iter j)%nat -> (j_max_iter j <= 76)%nat ->
  is_denominator 2 no nv (energies_of x) D2 -> cc_label c = "ccdTypeSlow" -> cc_type c = "CCD" -> diis_size c = None ->
  stopping_eps c = j_eps j -> max_iter c = j_max_iter j -> nucE c = x_nuc x -> hf_energy c = x_hf x ->
  exists d tf co t, slow_kernel no nv (x_f x) (x_g x) D1 D2 D3 c solve w = Returned d tf co /\ slook "t2aa" d = Some t /\ is_amp 2 no nv t /\
    forall r, drive_from x j = Some r -> tf = r_total r + x_nuc x /\ co = r_corr r /\ exists T, slook "t2aa" (r_tamps r) = Some T /\ swapped 2 t T.
Proof.
  intros no nv x j D1 D2 D3 c solve w label P HD NS NQ NP G HF PO PV M0 M76 HD2 Hlab Hty Hdi He Hm Hn Hh.
  destruct (C54_drive_run no nv x label None P HD I) as [A [A0 [_ [AA [AS K]]]]]. specialize (A0 eq_refl).
  set (E := fun n => cc_energy no nv (x_f x) (x_g x) (A n)) in *. destruct (K j eq_refl HF) as [K1 K2]. clear K.
  destruct (same_start no nv x label D2 c P HD NS HD2 Hlab Hty Hdi A A0 AA w) as [s0 [ES H0]].
  unfold slow_kernel, kernel. rewrite ES, Hm.
  destruct (first_settled (j_eps j) E (j_max_iter j)) as [[n [Hn' [S1 S2]]]|N].
  - rewrite <- He in S1, S2.
    destruct (same_loop_hit no nv x label D1 D2 D3 c solve P NS NQ G HD2 Hlab Hty Hdi A AS n (j_max_iter j) 0%nat s0 None H0 Hn' ltac:(lia) ltac:(lia) S1 S2) as [s' [EL H']].
    rewrite EL. cbn [Nat.add] in *. destruct (same_end no nv x D2 c Hty A s' _ (world disk s') PO PV H') as [EP EF]. rewrite EP, EF.
    pose proof H' as [t [T [_ [_ [E1 [_ [_ [_ [_ [E2 [At [Sw _]]]]]]]]]]]]. eexists _, _, _, t. split; [reflexivity|]. split; [exact E1|]. split; [exact At|].
    rewrite He in S1, S2. destruct (K1 n Hn' S1 S2) as [K3 _]. rewrite (K3 NP). intros r [= <-]. cbn [r_total r_corr r_tamps]. rewrite Hn, Hh. split; [reflexivity|]. split; [reflexivity|]. eauto.
  - rewrite <- He in N. 
    destruct (same_loop_miss no nv x label D1 D2 D3 c solve P NS NQ G HD2 Hlab Hty Hdi A AS (j_max_iter j) 0%nat s0 None H0 ltac:(lia) ltac:(lia) N) as [s' [EL H']].
    rewrite EL. destruct (Nat.eqb_spec (j_max_iter j) 0); [lia|]. cbn [Nat.add] in *. destruct (same_end no nv x D2 c Hty A s' _ (world disk s') PO PV H') as [EP EF]. rewrite EP, EF.
    pose proof H' as [t [T [_ [_ [E1 [_ [_ [_ [_ [E2 [At _]]]]]]]]]]]. eexists _, _, _, t. split; [reflexivity|]. split; [exact E1|]. split; [exact At|].
    rewrite He in N. rewrite (K2 N). discriminate.
Qed.
Print Assumptions C59_same_ccd.

(** ... hence, from one closed-shell SCF result to the reported energies. *)
Theorem C59_same_ccd_from_scf : forall n s order j F G e rt den D1 D2 D3 c solve w r, scf_result n s order -> s_na s = s_nb s -> (0 < s_na s)%nat -> (s_na s < n)%nat ->
  j_drop j = 0%nat -> j_label j = "CCD" -> j_t2file j = None -> (j_max_iter j <= 76)%nat ->
  let no := (2 * s_na s)%nat in let nv := (2 * (n - s_na s))%nat in
  convert_slow order (s_eri s) (s_Ca s) (s_Cb s) (s_ea s) (s_eb s) = Some (F, G, e) -> slook "ccdTypeSlow" rt <> None ->
  get_denoms rt [("occ_aa", (0%nat, Some no)); ("virt_aa", (no, None))] [("eps_aa", e)] = Some den -> slook "D2aa" den = Some D2 ->
  all_gaps no nv (fun k => nth k e 0) -> cc_label c = "ccdTypeSlow" -> cc_type c = "CCD" -> diis_size c = None ->
  stopping_eps c = j_eps j -> max_iter c = j_max_iter j -> nucE c = s_enuc s -> hf_energy c = s_etot s ->
  drive_cc order s j = Some r ->
  exists d t T, slow_kernel no nv F G D1 D2 D3 c solve w = Returned d (r_total r + s_enuc s) (r_corr r) /\ slook "t2aa" d = Some t /\ slook "t2aa" (r_tamps r) = Some T /\ swapped 2 t T.
Proof.
  intros n s order j F G e rt den D1 D2 D3 c solve w r HS HAB PO PV JD JL JF JM no nv EC HR ED E2 HG C1 C2 C3 C4 C5 C6 C7 EDr.
  destruct (C56_closed_shell_setup n s order j HS HAB ltac:(lia) ltac:(auto)) as [x [EX [P [_ [_ [EH [EN _]]]]]]].
  replace (2 * (s_na s - j_drop j))%nat with no in P by (unfold no; lia). fold nv in P.
  assert (X : x_f x = F /\ x_g x = G /\ x_e x = e).
  { unfold setup_cc in EX. destruct (occ_info s (j_drop j)) as [o|]; [|discriminate]. cbn [obind] in EX. rewrite JD in EX.
    assert (Y : drive_integrals order s 0 = convert_slow order (s_eri s) (s_Ca s) (s_Cb s) (s_ea s) (s_eb s)) by reflexivity.
    rewrite Y, EC in EX. cbn [obind fst snd] in EX. destruct (drive_denoms _ _ _) as [dd|]; [|discriminate]. injection EX as <-. auto. }
  destruct X as [XF [XG XE]]. unfold drive_cc in EDr. rewrite EX in EDr. cbn [obind] in EDr.
  pose proof P as [_ [_ [_ [_ [_ [LE _]]]]]]. rewrite XE in LE.
  destruct (C25_spin_orbital_denominators rt no nv e den HR LE ED) as [[Y1 [Y2 [Y3 [Z1 [Z2 [Z3 [W1 [W2 W3]]]]]]]] _].
  rewrite E2 in Z2. injection Z2 as <-.
  assert (EE : energies_of x = fun k => nth k e 0) by (unfold energies_of; rewrite XE; reflexivity).
  assert (M0 : (0 < j_max_iter j)%nat).
  { destruct (j_max_iter j) eqn:M; [|lia]. unfold drive_from, drive_kernel in EDr. destruct (drive_init x (j_label j) j) as [i|]; [|discriminate]. cbn [obind] in EDr.
    destruct (drive_energy x (fst i)); [|discriminate]. cbn [obind] in EDr. rewrite M in EDr. discriminate. }
  destruct (C59_same_ccd no nv x j D1 D2 D3 c solve w) as [d [tf [co [t [K1 [K2 [_ K3]]]]]]]; try assumption; try (rewrite JL; reflexivity); try lia; try (unfold no, nv; lia); try congruence; try (rewrite EE; assumption).
  destruct (K3 r EDr) as [-> [-> [T [K4 K5]]]]. rewrite XF, XG, EN in K1. exists d, t, T. auto.
Qed.
Print Assumptions C59_same_ccd_from_scf.

Definition i_den_x : tensor := mkT [2; 2; 2; 2]%nat (fun idx => / gap 2 (energies_of (i_setup "CCD")) (firstn 2 idx) (skipn 2 idx)).
Example i_den_x_ok : is_denominator 2 2 2 (energies_of (i_setup "CCD")) i_den_x.
Proof.
  split; [reflexivity|]. intros virt occ L _. unfold i_den_x. cbn [data]. rewrite <- L, firstn_app, firstn_all, Nat.sub_diag, skipn_app, skipn_all, Nat.sub_diag.
  cbn [firstn skipn app]. rewrite app_nil_r. reflexivity.
Qed.
(** Both drivers can be run on the instance of P_drive2, and DriveCC converges for some threshold (C57_instance). *)
Example C59_instance thr solve w := C59_same_ccd 2 2 (i_setup "CCD") (mkJob "CCD" 30 thr 0 None None) (tzeros []) (i_den_x) (tzeros [])
  (mkCalc "ccdTypeSlow" "CCD" 30 thr None 0 (Q2Qc (2 # 1)) (Q2Qc (-5 # 1))) solve w (i_prepared "CCD") eq_refl eq_refl eq_refl eq_refl (i_gaps "CCD") eq_refl ltac:(lia) ltac:(lia) ltac:(cbn; lia) ltac:(cbn; lia) i_den_x_ok eq_refl eq_refl eq_refl eq_refl eq_refl eq_refl eq_refl.
