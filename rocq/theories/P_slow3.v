(** C20, C22, C26, C39, C41: LCCD is affine, pCCD collapses, fixed points, first-order limits, xccd_6. *)
From Coq Require Import String Ascii List Arith NArith ZArith QArith Qcanon Bool Lia Permutation.
From Verif Require Import Sums Tensor Interp Numpy Poly SymExec Canon Spec SpecDriver Instances Setup Master Spin Check Tabs NF Formula P_ccd P_ccsd.
From Verif Require Import Diis P_diis Kernel P_kernel P_driver SlowCC Cut P_xcc Linear P_slow.
From Verif Require Code_t2residEqnsSlow Code_t2energySlow Code_antisym_t4resids.
Import ListNotations.
Open Scope string_scope.

(** ** C39: zero amplitudes and the first guess *)
Lemma ccd_energy_is no nv f g t2 : is_fock (no + nv) f -> is_tei (no + nv) g -> is_amp 2 no nv t2 ->
  ccd_energy no f g t2 = Some (E_ccd no nv f g t2).
Proof.
  intros Hf Hg H2.
  assert (exists T1 T2, swapped 1 (tzeros [nv; no]) T1 /\ swapped 2 t2 T2) as [T1 [T2 [S1 S2]]]
    by (eexists _, _; split; [apply swap_t_ok|apply swap_t_ok]).
  destruct (C16_spinorbital_energies no nv f g (tzeros [nv; no]) t2 T1 T2 Hf Hg (amp_zeros no nv 1) H2 S1 S2)
    as [E1 [E2 [E3 [E4 [_ [_ [_ [H4 [_ [_ [_ [_ [_ [_ [_ HE]]]]]]]]]]]]]]].
  unfold ccd_energy. rewrite (call0_returns _ _ _ H4). cbn [obind]. rewrite HE. reflexivity.
Qed.
Lemma E_ccd_zero no nv f g t2 : (forall a b i j, (a < nv)%nat -> (b < nv)%nat -> (i < no)%nat -> (j < no)%nat -> data t2 [a; b; i; j] = 0%Qc) ->
  E_ccd no nv f g t2 = E_ref no f g.
Proof.
  intros Z. unfold E_ccd.
  assert (S0 : (Sum i < no, Sum j < no, Sum a < nv, Sum b < nv, data g [i; j; no + a; no + b]%nat * data t2 [a; b; i; j])%Qc = 0%Qc).
  { assert (SZ : forall n (h : nat -> Qc), (forall k, (k < n)%nat -> h k = 0%Qc) -> suml (seq 0 n) h = 0%Qc).
    { intros n h H. transitivity (suml (seq 0 n) (fun _ => 0 * 0)%Qc).
      - apply suml_ext. intros k Hk. apply in_seq in Hk. rewrite H by lia. ring.
      - rewrite suml_scale. ring. }
    apply SZ. intros i Hi. apply SZ. intros j Hj. apply SZ. intros a Ha. apply SZ. intros b Hb. rewrite Z by assumption. ring. }
  rewrite S0. ring.
Qed.

(** With T2 = 0 the CCD residual is the integral block <ab||ij> and the energy is the reference energy. *)
Theorem C39_zero_amplitudes : forall no nv f g Z,
  is_fock (no + nv) f -> is_tei (no + nv) g -> shape Z = [nv; nv; no; no] -> zero_tensor Z ->
  exists R E,
    returns 0 [] Code_t2residEqnsSlow.ccd_t2residual [VT Z; VT f; VT g; o_ no; v_ no] R /\
    returns 0 [] Code_t2energySlow.ccdEnergy [VT Z; VT f; VT g; o_ no; v_ no] E /\
    shape R = [nv; nv; no; no] /\
    (forall a b i j, inr [a; b; i; j] [nv; nv; no; no] -> data R [a; b; i; j] = data g [no + a; no + b; i; j]%nat) /\
    data E [] = E_ref no f g.
Proof.
  intros no nv f g Z Hf Hg SZ HZ.
  set (tab := [(0%N, ([6;6]%N, f)); (1%N, ([6;6;6;6]%N, g))] : atomtab).
  assert (OK : Forall (atom_ok (so_range no nv) sy) tab) by (unfold tab; oks).
  assert (VS : Forall2 (so_vsim no nv tab) [zr [1;1;0;0]%N; SFull 0 [0;0]%N; SFull 1 [0;0;0;0]%N; SSl 0; SSl 1] [VT Z; VT f; VT g; o_ no; v_ no])
    by (unfold tab; vsims; apply (v_zero_vo _ _ _ 2); assumption).
  assert (VR : so_vsim no nv tab (SP [1;1;0;0]%N [mkterm "abij" "" 1 [(1%N, "abij")]])
     (VT (arr4 nv nv no no (fun a b i j => data g [no + a; no + b; i; j]%nat)))).
  { unfold tab. vm_compute mkterm. so_form. }
  assert (VE : so_vsim no nv tab (SP [] p_Eref) (VT (arr0 (E_ref no f g)))) by (unfold tab, E_ref, p_Eref; so_form).
  destruct (so_reads no nv tab 0 [] Code_t2residEqnsSlow.ccd_t2residual _ _ _ _ _ OK VS VR) as [R [HR TR]]; [chk_|].
  destruct (so_reads no nv tab 0 [] Code_t2energySlow.ccdEnergy _ _ _ _ _ OK VS VE) as [E [HE TE]]; [chk_|].
  exists R, E. split; [exact HR|]. split; [exact HE|]. destruct TR as [SR DR]. cbn [shape arr4] in SR. split; [exact SR|]. split.
  - intros a b i j I. rewrite DR by (rewrite SR; exact I). reflexivity.
  - apply so_scalar in TE. apply TE.
Qed.
Print Assumptions C39_zero_amplitudes.
Example C39_zero_instance := C39_zero_amplitudes 2 3 (i_fock 5) (i_tei 5) (z_t [3; 3; 2; 2]%nat) (i_fock_ok 5) (i_tei_ok 5) eq_refl (z_t_ok _).

(** Every spin-orbital calculation (labels other than UCC(4) and XCCD) starts from the first-order amplitudes
    <ab||ij> / (eps_i + eps_j - eps_a - eps_b), and the energy it starts from is the reference energy plus the
    MP2 energy. *)
Definition E_mp2 (no nv : nat) (g : tensor) (eps : nat -> Qc) : Qc :=
  (Q2Qc (1 # 4) * (Sum i < no, Sum j < no, Sum a < nv, Sum b < nv,
     data g [i; j; no + a; no + b]%nat * (data g [no + a; no + b; i; j]%nat / gap no eps [a; b] [i; j])))%Qc.
Lemma guess_is no nv g eps D2 : is_tei (no + nv) g -> is_denominator 2 no nv eps D2 ->
  exists gs t, tslice [(no, None); (no, None); (0%nat, Some no); (0%nat, Some no)] g = Some gs /\ tbin Qcmult gs D2 = Some t /\ is_amp 2 no nv t /\
    forall a b i j, inr [a; b; i; j] [nv; nv; no; no] -> data t [a; b; i; j] = (data g [no + a; no + b; i; j]%nat / gap no eps [a; b] [i; j])%Qc.
Proof.
  intros Hg HD. destruct (guess_amp no nv g D2 eps Hg HD) as [gs [t [E1 [E2 A]]]]. exists gs, t. split; [exact E1|]. split; [exact E2|]. split; [exact A|].
  intros a b i j I. apply tbin_inv in E2. destruct E2 as [ES ->]. cbn [data].
  assert (data gs [a; b; i; j] = data g [no + a; no + b; i; j]%nat) as ->.
  { destruct Hg as [Sg _]. unfold tslice in E1. rewrite Sg in E1. cbn [length Nat.eqb] in E1. apply some_inj in E1. subst gs. cbn [data].
    unfold zipw. cbn. unfold slice_start. rewrite Nat.min_l by lia. reflexivity. }
  unfold Qcdiv. f_equal. apply (proj2 HD [a; b] [i; j] eq_refl). rewrite (proj1 HD). exact I.
Qed.
Theorem C39_first_guess : forall no nv f g D2 eps c w s0 e0,
  is_fock (no + nv) f -> is_tei (no + nv) g -> is_denominator 2 no nv eps D2 ->
  cc_label c = "ccdTypeSlow" -> contains "UCC(4)" (cc_type c) = false -> contains "XCCD" (cc_type c) = false ->
  start disk (slow_energy no nv f g D2 c) (mp_guess no g D2) c (slow_init no nv c) (slow_old no nv c) w = Some (s0, e0) ->
  e0 = (E_ref no f g + E_mp2 no nv g eps)%Qc /\
  exists t2, slook "t2aa" (amps disk s0) = Some t2 /\ shape t2 = [nv; nv; no; no] /\
    forall a b i j, inr [a; b; i; j] [nv; nv; no; no] -> data t2 [a; b; i; j] = (data g [no + a; no + b; i; j]%nat / gap no eps [a; b] [i; j])%Qc.
Proof.
  intros no nv f g D2 eps c w s0 e0 Hf Hg HD HL HU HX HS.
  destruct (guess_is no nv g eps D2 Hg HD) as [gs [t [E1 [E2 [At Dt]]]]].
  unfold start in HS. rewrite HL in HS. cbn [String.eqb Ascii.eqb Bool.eqb] in HS. unfold mp_guess in HS. rewrite E1 in HS. cbn [obind] in HS. rewrite E2 in HS.
  cbn [obind] in HS. rewrite (energy_call_slow c HL HU) in HS. cbn [obind] in HS.
  destruct (contains "CCSD(Qf)" (cc_type c)); [discriminate HS|]. cbn [slow_energy] in HS. unfold t2energy_slow in HS.
  rewrite slook_sset_same in HS. cbn [obind] in HS.
  assert (XF : xccd_flag c = false).
  { unfold xccd_flag. apply not_true_is_false. intros X. apply existsb_exists in X. destruct X as [m [Hm HC]].
    rewrite (contains_trans "XCCD" m (cc_type c)) in HX; [discriminate| |exact HC]. cbn [In] in Hm. intuition subst; reflexivity. }
  rewrite XF, (ccd_energy_is no nv f g t Hf Hg At) in HS. cbn [obind fst snd] in HS. injection HS as <- <-. split.
  - unfold E_ccd, E_mp2. f_equal. f_equal. apply suml_ext. intros i Hi. apply suml_ext. intros j Hj. apply suml_ext. intros a Ha. apply suml_ext. intros b Hb.
    apply in_seq in Hi, Hj, Ha, Hb. rewrite Dt; [reflexivity|]. repeat constructor; lia.
  - exists t. split; [reflexivity|]. split; [apply At|exact Dt].
Qed.
Print Assumptions C39_first_guess.

(** ** C22: pCCD *)
Definition P_zero (no nv : nat) (k : string) (t : tensor) : Prop := shape t = [nv; nv; no; no] /\ zero_tensor t.
Lemma amp_diag_zero no nv r a i : is_amp 2 no nv r -> (a < nv)%nat -> (i < no)%nat -> data r [a; a; i; i] = 0%Qc.
Proof.
  intros [S A] Ha Hi. destruct (A 0%nat ltac:(lia)) as [A0 _]. specialize (A0 [] a a [i; i] eq_refl). cbn [app] in A0.
  assert (I : inr [a; a; i; i] (shape r)) by (rewrite S; repeat constructor; assumption).
  specialize (A0 I I). 
  assert (E : (data r [a; a; i; i] + data r [a; a; i; i] = 0)%Qc) by (rewrite A0 at 1; ring).
  assert (E2 : (Q2Qc (1 # 2) * (data r [a; a; i; i] + data r [a; a; i; i]) = data r [a; a; i; i])%Qc).
  { transitivity ((Q2Qc (1 # 2) + Q2Qc (1 # 2)) * data r [a; a; i; i])%Qc; [ring|].
    replace (Q2Qc (1 # 2) + Q2Qc (1 # 2))%Qc with 1%Qc by (apply Qc_is_canon; reflexivity). ring. }
  rewrite <- E2, E. ring.
Qed.
Lemma pair_part_zero no nv r k : is_amp 2 no nv r -> P_zero no nv k (pair_part no nv r).
Proof.
  intros HA. unfold P_zero, pair_part.
  assert (G : forall l t, (forall p, In p l -> (fst p < nv)%nat /\ (snd p < no)%nat) -> (shape t = [nv; nv; no; no] /\ zero_tensor t) ->
     shape (fold_left (fun t ai => tput [fst ai; fst ai; snd ai; snd ai] (data r [fst ai; fst ai; snd ai; snd ai]) t) l t) = [nv; nv; no; no] /\
     zero_tensor (fold_left (fun t ai => tput [fst ai; fst ai; snd ai; snd ai] (data r [fst ai; fst ai; snd ai; snd ai]) t) l t)).
  { induction l as [|p l IH]; intros t Hl Ht; cbn [fold_left]; [exact Ht|]. apply IH; [intros q Hq; apply Hl; right; exact Hq|].
    destruct Ht as [T1 T2]. split; [exact T1|]. intros idx I. unfold tput. cbn [data shape] in *. destruct (list_eq_dec _ _ _); [|apply T2, I].
    destruct (Hl p (or_introl eq_refl)). apply (amp_diag_zero no nv); assumption. }
  apply G.
  - intros [a i] Hp. apply in_prod_iff in Hp. rewrite !in_seq in Hp. cbn. lia.
  - split; [reflexivity|intros idx I; reflexivity].
Qed.
Section PCCD.
  Variables no nv : nat.
  Variables f g D1 D2 D3 : tensor.
  Variable eps : nat -> Qc.
  Variable c : calc.
  Variable solve : solver.
  Hypothesis Hf : is_fock (no + nv) f.
  Hypothesis Hg : is_tei (no + nv) g.
  Hypothesis HD : is_denominator 2 no nv eps D2.
  Hypothesis Hlab : cc_label c = "ccdTypeSlow".
  Hypothesis Hty : cc_type c = "pCCD".
  Let Hucc : contains "UCC(4)" (cc_type c) = false.
  Proof. rewrite Hty. reflexivity. Qed.
  Notation sresid := (slow_resid no nv f g D1 D2 D3 c).
  Notation senergy := (slow_energy no nv f g D2 c).
  Notation sstart := (start disk senergy (mp_guess no g D2) c (slow_init no nv c) (slow_old no nv c)).
  Lemma pccd_resid rf d l2 w d' w' : resid_call c = Some rf -> gooddict (P_amp no nv) d -> sresid rf d l2 w = Some (d', w') -> gooddict (P_zero no nv) d'.
  Proof.
    rewrite (resid_call_slow c Hlab Hucc), Hty. cbn. intros Erf Hd HR. apply some_inj in Erf. subst rf.
    cbn [slow_resid] in HR. unfold t2resid_slow in HR. destruct (slook "t2aa" d) as [t2|] eqn:E2; cbn [obind] in HR; [|discriminate].
    assert (Ht : is_amp 2 no nv t2) by (apply (Hd _ _ E2)).
    destruct (ccd_amp no nv f g t2 Hf Hg Ht) as [r0 [R0 A0]]. rewrite R0, Hty in HR. cbn [obind fst snd] in HR.
    change ("pCCD" =? "LCCD") with false in HR. change (contains "X" "pCCD") with false in HR. change ("pCCD" =? "pCCD") with true in HR.
    cbn [obind fst snd] in HR.
    pose proof (den_sym no nv 2 eps D2 HD) as DS.
    destruct (sym_times_amp no nv 2 t2 D2 Ht DS) as [x [Ex Ax]]. rewrite Ex in HR. cbn [obind] in HR.
    destruct (amp_plus no nv 2 r0 x A0 Ax) as [r3 [E3 A3]]. rewrite E3 in HR. cbn [obind] in HR.
    destruct (amp_times_sym no nv 2 r3 D2 A3 DS) as [nw [En An]]. rewrite En in HR. cbn [obind] in HR.
    injection HR as <- <-. intros k t. cbn [slook]. pose proof (pair_part_zero no nv nw k An) as [Z1 Z2].
    repeat destruct (String.eqb _ _); intros H; try discriminate; apply some_inj in H; subst; (split; [exact Z1|]); try exact Z2;
      intros idx I; cbn [data tscale]; ring.
  Qed.
  Lemma pccd_after w s0 e0 k s e : sstart w = Some (s0, e0) -> after disk solve sresid senergy c s0 e0 (S k) = Some (s, e) ->
    gooddict (P_zero no nv) (amps _ s).
  Proof.
    intros HS HA. destruct (start_ok no nv f g D2 eps c Hg HD Hlab Hucc _ _ _ HS) as [G0 P0].
    destruct (okstate_after (fun _ => [nv; nv; no; no]) (P_zero no nv)) with (World := disk) (solve := solve) (resid := sresid) (energy := senergy)
      (c := c) (Pre := gooddict (P_amp no nv)) (s0 := s0) (e0 := e0) (k := S k) (s := s) (e := e) as [_ [O|O]]; try assumption; try discriminate.
    - intros k0 t [S _]. exact S.
    - intros k0 t u [S1 Z1] [S2 T2]. split; [congruence|]. intros idx I. rewrite T2 by exact I. apply Z1. rewrite <- S2. exact I.
    - intros k0 n0 c0 ts H. split; [reflexivity|]. intros idx I. unfold lincomb. cbn [data]. 
      transitivity (suml (seq 0 n0) (fun _ => 0 * 0)%Qc); [|rewrite suml_scale; ring].
      apply suml_ext. intros j Hj. apply in_seq in Hj. destruct (H j ltac:(lia)) as [Sj Zj]. rewrite Zj; [ring|]. rewrite Sj. exact I.
    - intros d H k0 t Hk. destruct (H k0 t Hk) as [S1 Z1]. split; [exact S1|]. intros i Hi.
      split; intros pre x y post HLn I1 I2; rewrite !Z1 by assumption; ring.
    - intros rf d l2 w0 d' w' H1 H2 _ H3. eapply pccd_resid; eassumption.
    - split; [exact G0|]. rewrite P0. constructor.
  Qed.
  Lemma pccd_energy d w e w' t2 : P_zero no nv "t2aa" t2 -> slook "t2aa" d = Some t2 -> t2energy_slow no nv f g D2 c d w = Some (e, w') -> e = E_ref no f g.
  Proof.
    intros [S1 Z1] E2 HE. unfold t2energy_slow in HE. rewrite E2 in HE. cbn [obind] in HE.
    assert (XF : xccd_flag c = false) by (unfold xccd_flag; rewrite Hty; reflexivity). rewrite XF in HE.
    rewrite (ccd_energy_is no nv f g t2 Hf Hg) in HE.
    - cbn [obind] in HE. injection HE as <- <-. apply E_ccd_zero. intros a b i j Ha Hb Hi Hj. apply Z1. rewrite S1. repeat constructor; assumption.
    - split; [exact S1|]. intros i Hi. split; intros pre x y post HLn I1 I2; rewrite !Z1 by assumption; ring.
  Qed.
  Lemma pccd_iterate w s0 e0 k s e : sstart w = Some (s0, e0) -> after disk solve sresid senergy c s0 e0 (S k) = Some (s, e) ->
    e = E_ref no f g /\ exists t2, slook "t2aa" (amps _ s) = Some t2 /\ shape t2 = [nv; nv; no; no] /\ zero_tensor t2.
  Proof.
    intros HS HA. pose proof (pccd_after _ _ _ _ _ _ HS HA) as G.
    destruct (iterate_has no nv f g D1 D2 D3 eps c Hg HD Hlab Hucc solve _ _ _ _ _ _ HS HA) as [t2 Et].
    split; [|exists t2; split; [exact Et|apply (G _ _ Et)]].
    cbn [after] in HA. destruct (after _ _ _ _ _ _ _ k) as [[s1 e1]|]; cbn [obind fst] in HA; [|discriminate]. unfold iteration in HA.
    destruct (l2_of _); cbn [obind] in HA; [|discriminate]. destruct (resid_call c); cbn [obind] in HA; [|discriminate].
    destruct (sresid _ _ _ _) as [dw|]; cbn [obind] in HA; [|discriminate].
    destruct (diis_block _ _ _ _) as [s2|]; cbn [obind] in HA; [|discriminate].
    rewrite (energy_call_slow c Hlab Hucc), Hty in HA. change (contains "CCSD(Qf)" "pCCD") with false in HA. cbn [obind slow_energy] in HA.
    destruct (t2energy_slow _ _ _ _ _ _ _ _) as [[e2 w2]|] eqn:Ee; cbn [obind] in HA; [|discriminate]. injection HA as <- <-. cbn [amps fst] in *.
    eapply pccd_energy; [apply (G _ _ Et)|exact Et|exact Ee].
  Qed.
End PCCD.

(** A spin-orbital pCCD calculation: after the first pass all amplitudes are zero and the energy is the reference
    energy, whatever the system; hence a run that returns reports the reference energy. *)
Theorem C22_pccd_collapses : forall no nv f g D1 D2 D3 eps c solve w,
  is_fock (no + nv) f -> is_tei (no + nv) g -> is_denominator 2 no nv eps D2 ->
  cc_label c = "ccdTypeSlow" -> cc_type c = "pCCD" ->
  (forall s0 e0 k s e,
     start disk (slow_energy no nv f g D2 c) (mp_guess no g D2) c (slow_init no nv c) (slow_old no nv c) w = Some (s0, e0) ->
     after disk solve (slow_resid no nv f g D1 D2 D3 c) (slow_energy no nv f g D2 c) c s0 e0 (S k) = Some (s, e) ->
     e = E_ref no f g /\ exists t2, slook "t2aa" (amps disk s) = Some t2 /\ shape t2 = [nv; nv; no; no] /\ zero_tensor t2) /\
  (forall d tf co, slow_kernel no nv f g D1 D2 D3 c solve w = Returned d tf co ->
     tf = (E_ref no f g + nucE c)%Qc /\ co = (nucE c + E_ref no f g - hf_energy c)%Qc /\
     exists t2, slook "t2aa" d = Some t2 /\ shape t2 = [nv; nv; no; no] /\ zero_tensor t2).
Proof.
  intros no nv f g D1 D2 D3 eps c solve w Hf Hg HD HL HT. split.
  - intros s0 e0 k s e HS HA. eapply (pccd_iterate no nv f g D1 D2 D3 eps c solve Hf Hg HD HL HT); eassumption.
  - intros d tf co HK. destruct (C30_kernel_return _ _ _ _ _ _ _ _ _ _ _ _ _ HK) as [s0 [e0 [k [s [e [HS [_ [_ [HA [Ed [HF _]]]]]]]]]]].
    destruct (pccd_iterate no nv f g D1 D2 D3 eps c solve Hf Hg HD HL HT _ _ _ _ _ _ HS HA) as [-> Z].
    rewrite Ed in Z. split; [|split; [|exact Z]]; unfold finalize in HF; unfold is_qf in HF; rewrite HT in HF; cbn in HF; injection HF as <- <-; reflexivity.
Qed.
Print Assumptions C22_pccd_collapses.
(** The statement is not empty: such runs do return (2 occupied, 2 virtual orbitals, non-zero integrals). *)
Example C22_instance : exists d tf co,
  slow_kernel 2 2 (i_fock 4) (i_tei 4) (i_den 1 2 2) (i_den 2 2 2) (i_den 3 2 2) (i_calc "pCCD" None) (fun _ _ _ => None) None = Returned d tf co.
Proof.
  destruct (slow_kernel 2 2 (i_fock 4) (i_tei 4) (i_den 1 2 2) (i_den 2 2 2) (i_den 3 2 2) (i_calc "pCCD" None) (fun _ _ _ => None) None) as [d tf co| |] eqn:E;
    [eauto| |]; exfalso; vm_compute in E; discriminate.
Qed.

(** ** C26: the update leaves the amplitudes unchanged exactly when they solve the equations *)
Lemma xcc_resids_sum no nv g t2 orders : forall r w r' w', xcc_resids no nv g orders t2 r w = Some (r', w') ->
  exists Bs, Forall2 (fun n B => exists w1 w2, xcc_base no nv g n t2 w1 = Some (B, w2)) orders Bs /\
    shape r' = shape r /\ forall idx, data r' idx = (data r idx + suml Bs (fun B => data B idx))%Qc.
Proof.
  induction orders as [|n orders IH]; intros r w r' w'; cbn [xcc_resids].
  - intros H. injection H as <- <-. exists []. split; [constructor|]. split; [reflexivity|]. intros idx. cbn [suml]. ring.
  - destruct (xcc_base no nv g n t2 w) as [[B w2]|] eqn:EB; cbn [obind fst snd]; [|discriminate].
    destruct (tbin Qcplus r B) as [r1|] eqn:E1; cbn [obind]; [|discriminate]. intros H. apply tbin_inv in E1. destruct E1 as [S1 ->].
    destruct (IH _ _ _ _ H) as [Bs [F [Sr D]]]. exists (B :: Bs). split; [constructor; [eauto|exact F]|]. split; [exact Sr|].
    intros idx. rewrite D. cbn [suml data]. ring.
Qed.
(** The residual of the method with label [ty] at the amplitudes t2: the CCD residual, minus its quadratic terms for
    LCCD, plus the XCCD base corrections of the listed orders for labels with an X. *)
Definition method_residual (no nv : nat) (f g : tensor) (ty : string) (t2 R : tensor) : Prop :=
  exists R0, returns 0 [] Code_t2residEqnsSlow.ccd_t2residual [VT t2; VT f; VT g; o_ no; v_ no] R0 /\ shape R = shape R0 /\
    exists Off Bs,
      (if ty =? "LCCD" then returns 0 [] Code_t2residEqnsSlow.doubles_resLCCDoffset [VT t2; VT f; VT g; o_ no; v_ no] Off
       else forall idx, data Off idx = 0%Qc) /\
      (if contains "X" ty then exists orders, extract_integer ty = Some orders /\
         Forall2 (fun n B => exists w1 w2, xcc_base no nv g n t2 w1 = Some (B, w2)) orders Bs
       else Bs = []) /\
      forall idx, data R idx = (data R0 idx - data Off idx + suml Bs (fun B => data B idx))%Qc.

(** One pass of the residual routine changes t2 into t2 + D * R entry by entry, R being the residual. *)
Lemma update_is no nv f g D2 eps c d w t2 d' w' : is_fock (no + nv) f -> is_tei (no + nv) g -> is_denominator 2 no nv eps D2 -> gapped 2 no nv eps ->
  slook "t2aa" d = Some t2 -> is_amp 2 no nv t2 -> cc_type c <> "pCCD" ->
  t2resid_slow no nv f g D2 c d w = Some (d', w') ->
  exists R t2', method_residual no nv f g (cc_type c) t2 R /\ slook "t2aa" d' = Some t2' /\
    shape t2' = [nv; nv; no; no] /\ shape R = [nv; nv; no; no] /\
    (forall idx, inr idx [nv; nv; no; no] -> data D2 idx <> 0 /\ data t2' idx = data t2 idx + data D2 idx * data R idx)%Qc.
Proof.
  intros Hf Hg HD HG E2 Ht NP HR. unfold t2resid_slow in HR. rewrite E2 in HR. cbn [obind] in HR.
  destruct (ccd_runs no nv f g t2 Hf Hg Ht) as [R0 [H0 A0]]. rewrite (call0_returns _ _ _ H0) in HR. cbn [obind] in HR.
  assert (exists Off R1, (if cc_type c =? "LCCD" then do off <- call0 Code_t2residEqnsSlow.doubles_resLCCDoffset [VT t2; VT f; VT g; o_ no; v_ no]; tbin Qcminus R0 off else Some R0) = Some R1 /\
     shape R1 = shape R0 /\ (forall idx, data R1 idx = (data R0 idx - data Off idx)%Qc) /\
     (if cc_type c =? "LCCD" then returns 0 [] Code_t2residEqnsSlow.doubles_resLCCDoffset [VT t2; VT f; VT g; o_ no; v_ no] Off
       else forall idx, data Off idx = 0%Qc)) as [Off [R1 [E1 [S1 [D1 HO]]]]].
  { destruct (cc_type c =? "LCCD").
    - destruct (lccd_amp no nv f g (tzeros [nv; no]) t2 (tzeros [nv; nv; nv; no; no; no]) Hf Hg (amp_zeros no nv 1) Ht (amp_zeros no nv 3)) as [off [Eo Ao]].
      exists off. rewrite Eo. cbn [obind]. rewrite tbin_ok by (rewrite (proj1 A0), (proj1 Ao); reflexivity). eexists; split; [reflexivity|].
      split; [reflexivity|]. split; [reflexivity|]. unfold call0 in Eo. unfold returns. destruct (run _ _ _ _) as [v|]; cbn in Eo; [|discriminate].
      destruct v; cbn in Eo; try discriminate. congruence.
    - exists (tzeros []), R0. split; [reflexivity|]. split; [reflexivity|]. split; [intros; cbn; ring|reflexivity]. }
  rewrite E1 in HR. cbn [obind] in HR.
  match type of HR with (do rw <- ?x; _) = _ => destruct x as [[R w1]|] eqn:EX end; cbn [obind fst snd] in HR; [|discriminate].
  assert (exists Bs, (if contains "X" (cc_type c) then exists orders, extract_integer (cc_type c) = Some orders /\
         Forall2 (fun n B => exists w1 w2, xcc_base no nv g n t2 w1 = Some (B, w2)) orders Bs
       else Bs = []) /\ shape R = shape R1 /\ forall idx, data R idx = (data R1 idx + suml Bs (fun B => data B idx))%Qc) as [Bs [HB [SR DR]]].
  { destruct (contains "X" (cc_type c)).
    - destruct (extract_integer _) as [orders|]; cbn [obind] in EX; [|discriminate].
      destruct (xcc_resids_sum _ _ _ _ _ _ _ _ _ EX) as [Bs [F [S D]]]. exists Bs. split; [eauto|]. auto.
    - injection EX as <- <-. exists []. split; [reflexivity|]. split; [reflexivity|]. intros idx. cbn [suml]. ring. }
  assert (SR' : shape R = [nv; nv; no; no]) by (rewrite SR, S1; apply A0).
  assert (ST : shape t2 = [nv; nv; no; no]) by apply Ht. assert (SD : shape D2 = [nv; nv; no; no]) by apply HD.
  rewrite tbin_ok in HR by (cbn [trecip shape]; congruence). cbn [obind] in HR.
  rewrite tbin_ok in HR by (cbn [trecip shape]; congruence). cbn [obind] in HR.
  rewrite tbin_ok in HR by (cbn [trecip shape]; congruence). cbn [obind] in HR.
  destruct (String.eqb_spec (cc_type c) "pCCD") as [|_]; [contradiction|]. injection HR as <- <-.
  eexists R, _. split; [|split; [cbn [slook String.eqb Ascii.eqb Bool.eqb]; reflexivity|]].
  { exists R0. split; [exact H0|]. split; [congruence|]. exists Off, Bs. split; [exact HO|]. split; [exact HB|].
    intros idx. rewrite DR, D1. reflexivity. }
  split; [exact SR'|]. split; [exact SR'|]. intros idx I.
  assert (ND : data D2 idx <> 0%Qc).
  { pose proof (Forall2_len _ _ _ I) as LL. destruct idx as [|a [|b [|i [|j [|]]]]]; try discriminate LL.
    change [a; b; i; j] with ([a; b] ++ [i; j])%list. rewrite (proj2 HD [a; b] [i; j] eq_refl) by (rewrite SD; exact I).
    assert (NG : gap no eps [a; b] [i; j] <> 0%Qc).
    { apply HG; try reflexivity; repeat match goal with H : inr _ _ |- _ => inversion H; subst; clear H | H : Forall2 _ (_ :: _) _ |- _ => inversion H; subst; clear H end;
        intros x [<-|[<-|[]]]; assumption. }
    intros Z. apply NG. transitivity (gap no eps [a; b] [i; j] * (gap no eps [a; b] [i; j] * / gap no eps [a; b] [i; j]))%Qc.
    - rewrite Qcmult_inv_r by exact NG. ring.
    - rewrite Z. ring. }
  split; [exact ND|]. cbn [data trecip].
  transitivity ((data D2 idx * / data D2 idx) * data t2 idx + data D2 idx * data R idx)%Qc; [ring|].
  rewrite Qcmult_inv_r by exact ND. ring.
Qed.

(** C26.  T2 is unchanged by the update exactly when the residual of the method vanishes (CCD, LCCD, XCCD(n) and
    all other labels of this routine but pCCD); all sizes, inputs and working-directory contents. *)
Theorem C26_fixed_point : forall no nv f g D2 eps c d w t2 d' w',
  is_fock (no + nv) f -> is_tei (no + nv) g -> is_denominator 2 no nv eps D2 -> gapped 2 no nv eps ->
  slook "t2aa" d = Some t2 -> is_amp 2 no nv t2 -> cc_type c <> "pCCD" ->
  t2resid_slow no nv f g D2 c d w = Some (d', w') ->
  exists R t2', method_residual no nv f g (cc_type c) t2 R /\ slook "t2aa" d' = Some t2' /\
    (teq t2' t2 <-> zero_tensor R).
Proof.
  intros no nv f g D2 eps c d w t2 d' w' Hf Hg HD HG E2 Ht NP HR.
  destruct (update_is no nv f g D2 eps c d w t2 d' w' Hf Hg HD HG E2 Ht NP HR) as [R [t2' [HM [E' [S' [SR HU]]]]]].
  exists R, t2'. split; [exact HM|]. split; [exact E'|]. assert (ST : shape t2 = [nv; nv; no; no]) by apply Ht. split.
  - intros [_ TE] idx I. rewrite SR in I. destruct (HU idx I) as [ND UE]. rewrite TE in UE by (rewrite S'; exact I).
    assert (Z : (data D2 idx * data R idx = 0)%Qc).
    { transitivity (data t2 idx + data D2 idx * data R idx - data t2 idx)%Qc; [ring|]. rewrite <- UE. ring. }
    destruct (Qcmult_integral _ _ Z) as [X|X]; [contradiction|exact X].
  - intros Z. split; [congruence|]. intros idx I. rewrite S' in I. rewrite (proj2 (HU idx I)), Z by (rewrite SR; exact I). ring.
Qed.
Print Assumptions C26_fixed_point.
Lemma i_eps_gapped : gapped 2 2 2 i_eps.
Proof.
  intros virt occ LV LO HV HO. destruct virt as [|a [|b [|]]]; try discriminate. destruct occ as [|i [|j [|]]]; try discriminate.
  assert (Ha : (a < 2)%nat) by (apply HV; cbn; auto). assert (Hb : (b < 2)%nat) by (apply HV; cbn; auto).
  assert (Hi : (i < 2)%nat) by (apply HO; cbn; auto). assert (Hj : (j < 2)%nat) by (apply HO; cbn; auto).
  destruct a as [|[|]], b as [|[|]], i as [|[|]], j as [|[|]]; try lia; vm_compute; discriminate.
Qed.
Example C26_instance : exists d' w',
  t2resid_slow 2 2 (i_fock 4) (i_tei 4) (i_den 2 2 2) (i_calc "XCCD(6)" None) [("t2aa", i_amp 2 2 2)] None = Some (d', w').
Proof.
  destruct (resid_ok 2 2 (i_fock 4) (i_tei 4) (i_den 2 2 2) i_eps (i_calc "XCCD(6)" None) (i_fock_ok 4) (i_tei_ok 4) (i_den_ok 2 2 2)
    [("t2aa", i_amp 2 2 2)] None (i_amp 2 2 2)) as [d' [w' [u [E _]]]]; [|reflexivity|intros _; exists [5; 6]%nat; reflexivity|eauto].
  intros k t. cbn [slook]. destruct (String.eqb _ _); intros H; [|discriminate]. apply some_inj in H. subst. apply (i_amp_ok 2 2 2).
Qed.

(** ** C20: the LCCD residual is affine in T2 *)
Lemma so_vs_mul no nv tab (OK : Forall (atom_ok (so_range no nv) sy) tab) x sps p q R : nlook 8%N tab = Some ([], arr0 x) ->
  pmul [T 1 [] [(8%N, [])]] p = Some q -> so_vsim no nv tab (SP sps p) (VT R) -> so_vsim no nv tab (SP sps q) (VT (tscale x R)).
Proof.
  intros HN HM V. inversion V as [? ? ? T1| | | | |]; subst. destruct T1 as [S1 D1]. constructor. split; [exact S1|].
  intros idx e Hi Ha. cbn [data tscale shape] in *. rewrite (pmul_sound _ _ _ _ _ _ HM), (D1 idx e Hi Ha).
  f_equal. unfold evalP, evalT, evalFs, evalF, sumD. cbn. unfold Aof. rewrite HN. cbn.
  replace (Q2Qc 1) with 1%Qc by (apply Qc_is_canon; reflexivity). ring.
Qed.
Section Affine.
  Variables no nv : nat.
  Variables f g T S M : tensor.
  Variable x : Qc.
  Hypothesis Hf : is_fock (no + nv) f.
  Hypothesis Hg : is_tei (no + nv) g.
  Hypothesis HT : is_amp 2 no nv T.
  Hypothesis HS : is_amp 2 no nv S.
  Hypothesis SM : shape M = [nv; nv; no; no].
  Hypothesis HM : forall a b i j, inr [a; b; i; j] [nv; nv; no; no] -> data M [a; b; i; j] = (x * data T [a; b; i; j] + (1 - x) * data S [a; b; i; j])%Qc.
  Definition lin_tab : atomtab := [(0%N, ([6;6]%N, f)); (1%N, ([6;6;6;6]%N, g)); (3%N, ([1;1;0;0]%N, T)); (6%N, ([1;1;0;0]%N, S)); (8%N, ([], arr0 x))].
  Lemma lin_ok : Forall (atom_ok (so_range no nv) sy) lin_tab.
  Proof. unfold lin_tab. oks. apply atom_ok_gen; reflexivity. Qed.
  Definition p_mix : poly := Eval vm_compute in
    [mkterm "abij" "" 1 [(8%N, ""); (3%N, "abij")]; mkterm "abij" "" 1 [(6%N, "abij")]; mkterm "abij" "" (-1) [(8%N, ""); (6%N, "abij")]].
  Lemma v_mix : so_vsim no nv lin_tab (SP [1;1;0;0]%N p_mix) (VT M).
  Proof.
    unfold lin_tab, p_mix. apply so_formula; [vm_compute; reflexivity|rewrite SM; reflexivity|].
    intros idx Hi. pose proof (inr_len _ _ Hi) as L. rewrite SM in L, Hi. cbn [length] in L. dlist idx L.
    rewrite HM by exact Hi. posread. cbn [data arr0]. replace (Q2Qc (-1)) with (- (1))%Qc by (apply Qc_is_canon; reflexivity). ring.
  Qed.
  Definition lin_args (t : sval) : list sval := [t; SFull 0 [0;0]%N; SFull 1 [0;0;0;0]%N; SSl 0; SSl 1].
  Definition lin_vals (t : tensor) : list value := [VT t; VT f; VT g; o_ no; v_ no].
  Lemma lin_vs s t : so_vsim no nv lin_tab s (VT t) -> Forall2 (so_vsim no nv lin_tab) (lin_args s) (lin_vals t).
  Proof. intros V. unfold lin_args, lin_vals. constructor; [exact V|]. unfold lin_tab. vsims. Qed.
  Lemma v_T : so_vsim no nv lin_tab (at_ 3 [1;1;0;0]%N) (VT T).
  Proof. unfold lin_tab. eapply (v_amp _ _ _ _ 2); [reflexivity|assumption]. Qed.
  Lemma v_S : so_vsim no nv lin_tab (at_ 6 [1;1;0;0]%N) (VT S).
  Proof. unfold lin_tab. eapply (v_amp _ _ _ _ 2); [reflexivity|assumption]. Qed.
End Affine.

(** C20.  For all T, S and every number x, the LCCD residual at x T + (1 - x) S is x R(T) + (1 - x) R(S). *)
Theorem C20_lccd_affine : forall no nv f g T S M x,
  is_fock (no + nv) f -> is_tei (no + nv) g -> is_amp 2 no nv T -> is_amp 2 no nv S ->
  shape M = [nv; nv; no; no] ->
  (forall a b i j, inr [a; b; i; j] [nv; nv; no; no] -> data M [a; b; i; j] = (x * data T [a; b; i; j] + (1 - x) * data S [a; b; i; j])%Qc) ->
  exists RT RS RM,
    method_residual no nv f g "LCCD" T RT /\ method_residual no nv f g "LCCD" S RS /\ method_residual no nv f g "LCCD" M RM /\
    shape RM = [nv; nv; no; no] /\
    forall idx, inr idx (shape RM) -> data RM idx = (x * data RT idx + (1 - x) * data RS idx)%Qc.
Proof.
  intros no nv f g T S M x Hf Hg HT HS SM HM.
  pose proof (lin_ok no nv f g T S x Hf Hg HT HS) as OK.
  pose proof (lin_vs no nv f g T S x Hf Hg _ _ (v_T no nv f g T S x HT)) as VT_.
  pose proof (lin_vs no nv f g T S x Hf Hg _ _ (v_S no nv f g T S x HS)) as VS_.
  pose proof (lin_vs no nv f g T S x Hf Hg _ _ (v_mix no nv f g T S M x SM HM)) as VM_.
  so_nf OK 0%nat (@nil (string * fn)) Code_t2residEqnsSlow.ccd_t2residual [1;1;0;0]%N VT_ RT HT0 WT.
  so_nf OK 0%nat (@nil (string * fn)) Code_t2residEqnsSlow.ccd_t2residual [1;1;0;0]%N VS_ RS HS0 WS.
  so_nf OK 0%nat (@nil (string * fn)) Code_t2residEqnsSlow.ccd_t2residual [1;1;0;0]%N VM_ RM HM0 WM.
  so_nf OK 0%nat (@nil (string * fn)) Code_t2residEqnsSlow.doubles_resLCCDoffset [1;1;0;0]%N VT_ OT HT1 XT.
  so_nf OK 0%nat (@nil (string * fn)) Code_t2residEqnsSlow.doubles_resLCCDoffset [1;1;0;0]%N VS_ OS HS1 XS.
  so_nf OK 0%nat (@nil (string * fn)) Code_t2residEqnsSlow.doubles_resLCCDoffset [1;1;0;0]%N VM_ OM HM1 XM.
  pose proof (so_vs_lin no nv _ _ (-1 # 1) _ _ _ _ XT WT) as LT.
  pose proof (so_vs_lin no nv _ _ (-1 # 1) _ _ _ _ XS WS) as LS.
  pose proof (so_vs_lin no nv _ _ (-1 # 1) _ _ _ _ XM WM) as LM.
  match type of LT with so_vsim _ _ _ (SP _ ?p) (VT ?r) => set (pT := p) in LT; set (rT := r) in LT end.
  match type of LS with so_vsim _ _ _ (SP _ ?p) (VT ?r) => set (pS := p) in LS; set (rS := r) in LS end.
  match type of LM with so_vsim _ _ _ (SP _ ?p) (VT ?r) => set (pM := p) in LM; set (rM := r) in LM end.
  assert (exists q, pmul [Poly.T 1 [] [(8%N, [])]] pT = Some q) as [qT ET] by (vm_compute; eexists; reflexivity).
  assert (exists q, pmul [Poly.T 1 [] [(8%N, [])]] pS = Some q) as [qS ES] by (vm_compute; eexists; reflexivity).
  pose proof (so_vs_mul no nv _ OK x _ _ _ _ eq_refl ET LT) as MT.
  pose proof (so_vs_mul no nv _ OK x _ _ _ _ eq_refl ES LS) as MS.
  vm_compute in ET. apply some_inj in ET. vm_compute in ES. apply some_inj in ES. subst qT qS.
  pose proof (so_vs_lin no nv _ _ 1 _ _ _ _ MT LS) as K1.
  pose proof (so_vs_lin no nv _ _ (-1 # 1) _ _ _ _ MS K1) as K2.
  assert (TE : teq rM (mkT (shape (tscale x rS)) (fun i => Q2Qc (-1 # 1) * data (tscale x rS) i + data (mkT (shape (tscale x rT)) (fun i => Q2Qc 1 * data (tscale x rT) i + data rS i)) i)%Qc)).
  { eapply (so_vs_eq no nv _ OK); [exact LM|exact K2|]. unfold pM, pS. chk_. }
  assert (N1 : Q2Qc (-1 # 1) = (- (1))%Qc) by (apply Qc_is_canon; reflexivity).
  assert (MR : forall t r o (r0 := mkT (shape o) (fun i => Q2Qc (-1 # 1) * data o i + data r i)%Qc), shape o = shape r ->
     returns 0 [] Code_t2residEqnsSlow.ccd_t2residual [VT t; VT f; VT g; o_ no; v_ no] r ->
     returns 0 [] Code_t2residEqnsSlow.doubles_resLCCDoffset [VT t; VT f; VT g; o_ no; v_ no] o -> method_residual no nv f g "LCCD" t r0).
  { intros t r o r0 S0 H0 H1. exists r. split; [exact H0|]. split; [exact S0|]. exists o, []. split; [exact H1|]. split; [reflexivity|].
    intros idx. unfold r0. cbn [data suml]. rewrite N1. ring. }
  assert (SH : forall p R, so_vsim no nv (lin_tab f g T S x) (SP [1;1;0;0]%N p) (VT R) -> shape R = [nv; nv; no; no]).
  { intros p R V. rewrite (so_vs_shape _ _ _ _ _ _ V). exact (sh_vo no nv 2). }
  exists rT, rS, rM. split; [apply MR; [rewrite (SH _ _ XT), (SH _ _ WT); reflexivity|exact HT0|exact HT1]|].
  split; [apply MR; [rewrite (SH _ _ XS), (SH _ _ WS); reflexivity|exact HS0|exact HS1]|].
  split; [apply MR; [rewrite (SH _ _ XM), (SH _ _ WM); reflexivity|exact HM0|exact HM1]|].
  split; [apply (SH _ _ LM)|]. intros idx I. destruct TE as [_ TE]. rewrite TE by exact I. cbn [data tscale].
  rewrite N1. replace (Q2Qc 1) with 1%Qc by (apply Qc_is_canon; reflexivity). ring.
Qed.
Print Assumptions C20_lccd_affine.
Example C20_instance := C20_lccd_affine 2 2 (i_fock 4) (i_tei 4) (i_amp 2 2 2) (i_amp 2 2 2)
  (mkT [2; 2; 2; 2]%nat (fun i => (Q2Qc (1 # 3) * data (i_amp 2 2 2) i + (1 - Q2Qc (1 # 3)) * data (i_amp 2 2 2) i)%Qc)) (Q2Qc (1 # 3))
  (i_fock_ok 4) (i_tei_ok 4) (i_amp_ok 2 2 2) (i_amp_ok 2 2 2) eq_refl (fun a b i j _ => eq_refl).

(** ** C41: xccd_6 returns zeros *)
(** Whatever the integrals and amplitudes, the returned array is zero: the T2^3 terms are computed into
    [Roooovvvv_t23] and then the untouched zero array is antisymmetrised. *)
Theorem C41_xccd6_returns_zeros : forall no nv g t2, is_tei (no + nv) g -> is_amp 2 no nv t2 ->
  exists R, returns 1 [("antisym_t4_residual", Code_antisym_t4resids.antisym_t4_residual)] Code_antisym_t4resids.xccd_6
      [VNone; VT g; VT t2; o_ no; v_ no; VInt no; VInt nv; VNone] R /\
    shape R = [no; no; no; no; nv; nv; nv; nv] /\ zero_tensor R.
Proof.
  intros no nv g t2 Hg Ht. set (tab := [(1%N, ([6;6;6;6]%N, g)); (3%N, ([1;1;0;0]%N, t2))] : atomtab).
  assert (OK : Forall (atom_ok (so_range no nv) sy) tab) by (unfold tab; oks).
  assert (VS : Forall2 (so_vsim no nv tab) [SNone; SFull 1 [0;0;0;0]%N; at_ 3 [1;1;0;0]%N; SSl 0; SSl 1; SDim 0; SDim 1; SNone]
    [VNone; VT g; VT t2; o_ no; v_ no; VInt no; VInt nv; VNone]) by (unfold tab; vsims).
  assert (VZ : so_vsim no nv tab (zr ([0;0;0;0;1;1;1;1]%N)) (VT (z_t [no; no; no; no; nv; nv; nv; nv])))
    by (apply (v_zero_ov _ _ _ 4); [reflexivity|apply z_t_ok]).
  destruct (so_reads no nv tab 1 [("antisym_t4_residual", Code_antisym_t4resids.antisym_t4_residual)] Code_antisym_t4resids.xccd_6 _ _ _ _ _ OK VS VZ) as [R [HR [SR DR]]]; [chk_|].
  exists R. split; [exact HR|]. split; [exact SR|]. intros idx I. rewrite DR by exact I. reflexivity.
Qed.
Print Assumptions C41_xccd6_returns_zeros.
Example C41_instance := C41_xccd6_returns_zeros 4 4 (i_tei 8) (i_amp 2 4 4) (i_tei_ok 8) (i_amp_ok 2 4 4).
