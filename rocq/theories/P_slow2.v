(** C01 (UCC(4)), C22, C26, C44, C45: more about spin-orbital calculations. *)
From Coq Require Import String Ascii List Arith NArith ZArith QArith Qcanon Bool Lia Permutation.
From Verif Require Import Sums Tensor Interp Numpy Poly SymExec Canon Spec SpecDriver Instances Setup Master Spin Check Tabs NF P_ccd.
From Verif Require Import Diis P_diis Kernel P_kernel P_driver SlowCC Cut P_xcc Linear P_slow.
From Verif Require Code_t2residEqnsSlow Code_t2energySlow Code_drive_ucc4.
Import ListNotations.
Open Scope string_scope.

(** ** UCC(4) does not keep the amplitudes antisymmetric *)
(** The statement of C01 for the label UCC(4), restricted to the very first pass. *)
Definition ucc4_antisymmetric : Prop := forall no nv f g D1 D2 D3 eps c solve w s0 e0 s e,
  is_fock (no + nv) f -> is_tei (no + nv) g ->
  is_denominator 1 no nv eps D1 -> is_denominator 2 no nv eps D2 -> is_denominator 3 no nv eps D3 ->
  cc_label c = "ccdTypeSlow" -> cc_type c = "UCC(4)" ->
  start disk (slow_energy no nv f g D2 c) (mp_guess no g D2) c (slow_init no nv c) (slow_old no nv c) w = Some (s0, e0) ->
  after disk solve (slow_resid no nv f g D1 D2 D3 c) (slow_energy no nv f g D2 c) c s0 e0 1 = Some (s, e) ->
  exists t2, slook "t2aa" (amps disk s) = Some t2 /\ is_amp 2 no nv t2.
(** Integrals (p,q | r,s) = w(p,q) w(r,s) + w'(p,q) w'(r,s) with antisymmetric w, w'. *)
Definition w1 (p q : nat) : Qc := (qn (S p) * (qn (S q) * qn (S q)) - qn (S q) * (qn (S p) * qn (S p)))%Qc.
Definition w2 (p q : nat) : Qc := (qn (S p) - qn (S q))%Qc.
Definition g_ucc (n : nat) : tensor :=
  mkT [n; n; n; n] (fun idx => match idx with [p; q; r; s] => w1 p q * w1 r s + w2 p q * w2 r s | _ => 0 end)%Qc.
Lemma g_ucc_ok n : is_tei n (g_ucc n).
Proof.
  split; [reflexivity|]. split.
  - intros i Hi. assert (i = 0%nat) as -> by lia. split; intros pre x y post HL I1 I2; pose proof (Forall2_len _ _ _ I1) as LL;
      rewrite app_length in LL; cbn [length shape g_ucc] in LL; rewrite HL in LL; cbn [Nat.add] in LL.
    + destruct pre; [|discriminate]. destruct post as [|r [|s [|]]]; cbn in LL; try lia. cbn [app data g_ucc]. unfold w1, w2. ring.
    + destruct pre as [|p [|q [|]]]; try discriminate. destruct post; cbn in LL; try lia. cbn [app data g_ucc]. unfold w1, w2. ring.
  - intros l1 l2 L1 L2 I. destruct l1 as [|p [|q [|]]]; try discriminate. destruct l2 as [|r [|s [|]]]; try discriminate.
    cbn [app data g_ucc]. ring.
Qed.
Definition ucc_s0 := start disk (slow_energy 4 4 (i_fock 8) (g_ucc 8) (i_den 2 4 4) (i_calc "UCC(4)" None)) (mp_guess 4 (g_ucc 8) (i_den 2 4 4))
   (i_calc "UCC(4)" None) (slow_init 4 4 (i_calc "UCC(4)" None)) (slow_old 4 4 (i_calc "UCC(4)" None)) None.
Definition ucc_pass (s : kstate disk * Qc) :=
  after disk (fun _ _ _ => None) (slow_resid 4 4 (i_fock 8) (g_ucc 8) (i_den 1 4 4) (i_den 2 4 4) (i_den 3 4 4) (i_calc "UCC(4)" None))
   (slow_energy 4 4 (i_fock 8) (g_ucc 8) (i_den 2 4 4) (i_calc "UCC(4)" None)) (i_calc "UCC(4)" None) (fst s) (snd s) 1.
(** is the entry [0,0,0,1], zero for antisymmetric amplitudes, zero? *)
Definition entry_zero (s0 : option (kstate disk * Qc)) (pass : kstate disk * Qc -> option (kstate disk * Qc)) : bool :=
  match s0 with
  | Some a => match pass a with
              | Some (s, _) => match slook "t2aa" (amps disk s) with Some t => Qc_eq_bool (data t [0; 0; 0; 1]%nat) 0 | None => true end
              | None => true
              end
  | None => true
  end.
Lemma entry_nonzero s0 pass : entry_zero s0 pass = false ->
  exists a0 a1 t, s0 = Some a0 /\ pass a0 = Some a1 /\ slook "t2aa" (amps disk (fst a1)) = Some t /\ Qc_eq_bool (data t [0; 0; 0; 1]%nat) 0 = false.
Proof.
  unfold entry_zero. destruct s0 as [a|]; [|discriminate]. destruct (pass a) as [[s e]|] eqn:E; [|discriminate].
  destruct (slook _ _) as [t|] eqn:Et; [|discriminate]. intros H. exists a, (s, e), t. repeat split; assumption.
Qed.
Lemma ucc_entry_false : entry_zero ucc_s0 ucc_pass = false.
Proof. exact_no_check (@eq_refl bool false). Qed.

Theorem C01_ucc4_refuted : ~ ucc4_antisymmetric.
Proof.
  intros H. destruct (entry_nonzero _ _ ucc_entry_false) as [[s0 e0] [[s1 e1] [t [E0 [E1 [Et' HE]]]]]].
  unfold ucc_s0 in E0. unfold ucc_pass in E1. cbn [fst snd] in E1, Et'.
  destruct (H 4%nat 4%nat (i_fock 8) (g_ucc 8) (i_den 1 4 4) (i_den 2 4 4) (i_den 3 4 4) i_eps (i_calc "UCC(4)" None) (fun _ _ _ => None) None s0 e0 s1 e1
    (i_fock_ok 8) (g_ucc_ok 8) (i_den_ok 1 4 4) (i_den_ok 2 4 4) (i_den_ok 3 4 4) eq_refl eq_refl E0 E1) as [t2 [Et [St At]]].
  assert (t = t2) as -> by congruence. clear Et'.
  destruct (At 0%nat ltac:(lia)) as [A0 _]. specialize (A0 [] 0%nat 0%nat [0; 1]%nat eq_refl). cbn [app] in A0.
  assert (I : inr [0; 0; 0; 1]%nat (shape t2)) by (rewrite St; repeat constructor; lia).
  specialize (A0 I I).
  assert (Z : data t2 [0; 0; 0; 1]%nat = 0%Qc).
  { set (x := data t2 [0; 0; 0; 1]%nat) in *. assert (E : (x + x = 0)%Qc) by (rewrite A0 at 1; ring).
    transitivity (Q2Qc (1 # 2) * (x + x))%Qc; [|rewrite E; ring].
    transitivity ((Q2Qc (1 # 2) + Q2Qc (1 # 2)) * x)%Qc; [|ring].
    replace (Q2Qc (1 # 2) + Q2Qc (1 # 2))%Qc with 1%Qc by (apply Qc_is_canon; reflexivity). ring. }
  rewrite Z in HE. discriminate.
Qed.
Print Assumptions C01_ucc4_refuted.

(** ** C44: spin-orbital runs of the factorised-quadruples labels never deliver a result *)
Theorem C44_slow_qf_never_returns_refuted : forall no nv f g D1 D2 D3 c solve w d tf co,
  cc_label c = "ccdTypeSlow" -> In (cc_type c) ["CCD(Qf)"; "CCD(Qf*)"; "CCSDT(Qf)"; "CCSDT(Qf*)"; "CCSD(Qf)"] ->
  slow_kernel no nv f g D1 D2 D3 c solve w <> Returned d tf co.
Proof.
  intros no nv f g D1 D2 D3 c solve w d tf co HL HI HK.
  destruct (C30_kernel_return _ _ _ _ _ _ _ _ _ _ _ _ _ HK) as [s0 [e0 [k [s [e [_ [_ [_ [_ [_ [HF _]]]]]]]]]]].
  unfold finalize in HF. rewrite HL in HF. cbn [String.eqb Ascii.eqb Bool.eqb slow_pert obind] in HF.
  assert (Q : is_qf c = true /\ extract_integer (cc_type c) = None).
  { unfold is_qf. cbn [In] in HI. intuition (match goal with H : _ = cc_type c |- _ => rewrite <- H end; reflexivity). }
  destruct Q as [Q1 Q2]. rewrite Q1 in HF. unfold t2pert_slow in HF. rewrite Q2 in HF.
  destruct (slook "t2aa" d); discriminate HF.
Qed.
Print Assumptions C44_slow_qf_never_returns_refuted.

(** ** C45: what a previous run left in the working directory does not matter *)
Section World2.
  Variable World : Type.
  Variable solve : solver.
  Variable resid : resid_fn -> dict -> dict -> World -> option (dict * World).
  Variable energy : energy_fn -> dict -> World -> option (Qc * World).
  Variable pert : energy_fn -> dict -> dict -> World -> option (Qc * World).
  Variable guess : dict -> option dict.
  Variable c : calc.
  Notation ofst := (option_map fst).
  Hypothesis HR : forall rf d l2 w w', ofst (resid rf d l2 w) = ofst (resid rf d l2 w').
  Hypothesis HE : forall ef d w w', ofst (energy ef d w) = ofst (energy ef d w').
  Hypothesis HP : forall ef d l2 w w', ofst (pert ef d l2 w) = ofst (pert ef d l2 w').
  Definition eqw (s s' : kstate World) : Prop :=
    amps _ s = amps _ s' /\ l2amps _ s = l2amps _ s' /\ old_vec _ s = old_vec _ s' /\ dstate _ s = dstate _ s'.
  Definition oeqw (o o' : option (kstate World * Qc)) : Prop :=
    match o, o' with Some (s, e), Some (s', e') => eqw s s' /\ e = e' | None, None => True | _, _ => False end.
  Lemma iteration_eqw s s' : eqw s s' -> oeqw (iteration World solve resid energy c s) (iteration World solve resid energy c s').
  Proof.
    intros [E1 [E2 [E3 E4]]]. unfold iteration. rewrite E1. destruct (l2_of _) as [l2|]; cbn [obind oeqw]; [|exact I].
    destruct (resid_call c) as [rf|]; cbn [obind oeqw]; [|exact I].
    pose proof (HR rf (amps _ s') l2 (world _ s) (world _ s')) as H.
    destruct (resid rf _ _ (world _ s)) as [[d w]|], (resid rf _ _ (world _ s')) as [[d' w']|]; cbn in H; try discriminate; cbn [obind fst snd oeqw]; [|exact I].
    injection H as <-. rewrite E3, E4. unfold diis_block. cbn [amps old_vec dstate l2amps world].
    destruct (diis_size c); cbn [obind].
    - destruct (vectorise _ d) as [v|]; cbn [obind oeqw]; [|exact I]. destruct (vbin _ _ _) as [er|]; cbn [obind oeqw]; [|exact I].
      destruct (compute_new_vec _ _ _ _) as [[nw nd]|]; cbn [obind oeqw fst snd]; [|exact I].
      destruct (unvectorise _ _ _ _) as [d2|]; cbn [obind oeqw amps l2amps old_vec dstate world]; [|exact I].
      destruct (energy_call c) as [ef|]; cbn [obind oeqw]; [|exact I]. pose proof (HE ef d2 w w') as H.
      destruct (energy ef d2 w) as [[e u]|], (energy ef d2 w') as [[e' u']|]; cbn in H; try discriminate; cbn [obind oeqw fst snd]; [|exact I].
      injection H as <-. repeat split.
    - destruct (energy_call c) as [ef|]; cbn [obind oeqw amps l2amps old_vec dstate world]; [|exact I]. pose proof (HE ef d w w') as H.
      destruct (energy ef d w) as [[e u]|], (energy ef d w') as [[e' u']|]; cbn in H; try discriminate; cbn [obind oeqw fst snd]; [|exact I].
      injection H as <-. repeat split.
  Qed.
  Lemma loop_eqw n : forall idx s s' old cur, eqw s s' ->
    match loop World solve resid energy c n idx s old cur, loop World solve resid energy c n idx s' old cur with
    | LDone _ a x, LDone _ b y => eqw a b /\ x = y | LExit _, LExit _ => True | LRaise _, LRaise _ => True | _, _ => False end.
  Proof.
    induction n as [|n IH]; intros idx s s' old cur H; cbn [loop]; [split; [exact H|reflexivity]|].
    destruct (Nat.ltb 75 idx); [exact I|]. pose proof (iteration_eqw s s' H) as HI.
    destruct (iteration _ _ _ _ _ s) as [[a x]|], (iteration _ _ _ _ _ s') as [[b y]|]; cbn [oeqw] in HI; try contradiction; [|exact I].
    destruct HI as [HI <-]. destruct (Qclt_le_dec _ _); [split; [exact HI|reflexivity]|]. destruct (Nat.ltb _ _); [exact I|]. apply IH, HI.
  Qed.
  Lemma finalize_eqw e d l2 w w' : finalize World pert c e d l2 w = finalize World pert c e d l2 w'.
  Proof.
    unfold finalize. set (pe := if cc_label c =? "ccdType" then _ else _). set (p0 := if negb _ then _ else _).
    destruct (is_qf c).
    - destruct pe as [ef|]; cbn [obind]; [|reflexivity]. pose proof (HP ef d l2 w w') as H.
      destruct (pert ef d l2 w) as [[q u]|], (pert ef d l2 w') as [[q' u']|]; cbn in H; try discriminate; cbn [obind fst snd]; [|reflexivity].
      injection H as <-. destruct (contains "UT2" (cc_type c)); [|reflexivity]. pose proof (HP E_t2energySlow d l2 u u') as H.
      destruct (pert _ d l2 u) as [[q2 u2]|], (pert _ d l2 u') as [[q2' u2']|]; cbn in H; try discriminate; cbn [obind fst snd]; [|reflexivity].
      injection H as <-. reflexivity.
    - cbn [obind fst snd]. destruct (contains "UT2" (cc_type c)); [|reflexivity]. pose proof (HP E_t2energySlow d l2 w w') as H.
      destruct (pert _ d l2 w) as [[q2 u2]|], (pert _ d l2 w') as [[q2' u2']|]; cbn in H; try discriminate; cbn [obind fst snd]; [|reflexivity].
      injection H as <-. reflexivity.
  Qed.
  Lemma kernel_eqw d0 ov w w' : kernel World solve resid energy pert guess c d0 ov w = kernel World solve resid energy pert guess c d0 ov w'.
  Proof.
    unfold kernel, start. destruct (if cc_label c =? "ccdTypeSlow" then guess d0 else Some d0) as [d1|]; cbn [obind]; [|reflexivity].
    destruct (energy_call c) as [ef|]; cbn [obind]; [|reflexivity]. pose proof (HE ef d1 w w') as H.
    destruct (energy ef d1 w) as [[e u]|], (energy ef d1 w') as [[e' u']|]; cbn in H; try discriminate; cbn [obind fst snd]; [|reflexivity].
    injection H as <-. set (dn := diis_new _ _).
    pose proof (loop_eqw (max_iter c) 0 (mkSt World d1 [] ov dn u) (mkSt World d1 [] ov dn u') e None ltac:(repeat split)) as HL.
    destruct (loop _ _ _ _ _ _ _ _ _ _) as [s [x|]| |], (loop _ _ _ _ _ _ _ (mkSt World d1 [] ov dn u') _ _) as [s' [y|]| |]; try contradiction; try reflexivity;
      destruct HL as [[E1 [E2 _]] HL]; try discriminate; try reflexivity.
    injection HL as <-. rewrite E1, E2. destruct (printable _); [|reflexivity].
    rewrite (finalize_eqw _ _ _ (world _ s) (world _ s')). reflexivity.
  Qed.
End World2.

Section NoHistory.
  Variables no nv : nat.
  Variables f g D1 D2 D3 : tensor.
  Variable c : calc.
  Notation ofst := (option_map fst).
  Lemma xcc5_disk t2 w w' : xcc_base no nv g 5 t2 w = xcc_base no nv g 5 t2 w'. Proof. reflexivity. Qed.
  Lemma resids_disk t2 r n w w' : ofst (xcc_resids no nv g (seq 5 n) t2 r w) = ofst (xcc_resids no nv g (seq 5 n) t2 r w').
  Proof. destruct n; cbn [seq xcc_resids]; [reflexivity|]. rewrite (xcc5_disk t2 w w'). reflexivity. Qed.
  Lemma energies_disk b t2 n w w' : ofst (xcc_energies no nv g D2 b t2 (seq 5 n) w) = ofst (xcc_energies no nv g D2 b t2 (seq 5 n) w').
  Proof. destruct n; cbn [seq xcc_energies]; [reflexivity|]. unfold xcc_energy1. rewrite (xcc5_disk t2 w w'). reflexivity. Qed.
  Lemma energy_disk d w w' : ofst (t2energy_slow no nv f g D2 c d w) = ofst (t2energy_slow no nv f g D2 c d w').
  Proof.
    unfold t2energy_slow. destruct (slook "t2aa" d) as [t2|]; cbn [obind]; [|reflexivity]. destruct (ccd_energy _ _ _ _) as [e|].
    - destruct (xccd_flag c); cbn [obind]; [|reflexivity]. destruct (extract_integer _) as [l|] eqn:El; cbn [obind]; [|reflexivity].
      destruct (extract_orders _ _ El) as [m [_ ->]]. pose proof (energies_disk false t2 (m + 1 - 5) w w') as H.
      destruct (xcc_energies _ _ _ _ _ _ _ w) as [[x u]|], (xcc_energies _ _ _ _ _ _ _ w') as [[x' u']|]; cbn in H; try discriminate; [|reflexivity].
      injection H as <-. reflexivity.
    - destruct (xccd_flag c); reflexivity.
  Qed.
  Lemma pert_disk d w w' : ofst (t2pert_slow no nv g D2 c d w) = ofst (t2pert_slow no nv g D2 c d w').
  Proof.
    unfold t2pert_slow. destruct (slook "t2aa" d) as [t2|]; cbn [obind]; [|reflexivity].
    destruct (extract_integer _) as [l|] eqn:El; cbn [obind]; [|reflexivity].
    destruct (extract_orders _ _ El) as [m [_ ->]]. pose proof (energies_disk true t2 (m + 1 - 5) w w') as H.
    destruct (xcc_energies _ _ _ _ _ _ _ w) as [[x u]|], (xcc_energies _ _ _ _ _ _ _ w') as [[x' u']|]; cbn in H; try discriminate; [|reflexivity].
    injection H as <-. reflexivity.
  Qed.
  Lemma resid_disk d w w' : ofst (t2resid_slow no nv f g D2 c d w) = ofst (t2resid_slow no nv f g D2 c d w').
  Proof.
    unfold t2resid_slow. destruct (slook "t2aa" d) as [t2|]; cbn [obind]; [|reflexivity]. destruct (call0 _ _) as [r0|]; cbn [obind]; [|reflexivity].
    destruct (if cc_type c =? "LCCD" then _ else _) as [r1|]; cbn [obind]; [|reflexivity].
    assert (H : ofst (if contains "X" (cc_type c) then do orders <- extract_integer (cc_type c); xcc_resids no nv g orders t2 r1 w else Some (r1, w)) =
                ofst (if contains "X" (cc_type c) then do orders <- extract_integer (cc_type c); xcc_resids no nv g orders t2 r1 w' else Some (r1, w'))).
    { destruct (contains "X" _); [|reflexivity]. destruct (extract_integer _) as [l|] eqn:El; cbn [obind]; [|reflexivity].
      destruct (extract_orders _ _ El) as [m [_ ->]]. apply resids_disk. }
    match type of H with ofst ?a = ofst ?b => destruct a as [[x u]|], b as [[x' u']|] end; cbn in H; try discriminate; [|reflexivity].
    injection H as <-. cbn [obind fst snd]. destruct (tbin Qcmult (trecip D2) t2); cbn [obind]; [|reflexivity].
    destruct (tbin Qcplus x _); cbn [obind]; [|reflexivity]. destruct (tbin Qcmult _ D2); reflexivity.
  Qed.
  Lemma uresid_disk d w w' : ofst (ucc4_resid no nv f g D1 D2 D3 d w) = ofst (ucc4_resid no nv f g D1 D2 D3 d w').
  Proof.
    unfold ucc4_resid. cbv zeta.
    repeat match goal with |- context [do _ <- ?x; _] => destruct x; cbn [obind]; [|reflexivity] end. reflexivity.
  Qed.
  Lemma uenergy_disk d w w' : ofst (ucc4_energy no nv f g D2 c d w) = ofst (ucc4_energy no nv f g D2 c d w').
  Proof.
    unfold ucc4_energy. pose proof (energy_disk d w w') as H.
    destruct (t2energy_slow _ _ _ _ _ _ _ w) as [[x u]|], (t2energy_slow _ _ _ _ _ _ _ w') as [[x' u']|]; cbn in H; try discriminate; [|reflexivity].
    injection H as <-. cbn [obind fst snd].
    repeat match goal with |- context [do _ <- ?x; _] => destruct x; cbn [obind]; [|reflexivity] end. reflexivity.
  Qed.
End NoHistory.

(** Orders 7 and 9 read the file roooovvvv_t4_third.pickle.  Whatever that file holds (or if it is missing) when a
    spin-orbital calculation is started, the outcome is the same: the file is always rewritten from the current
    amplitudes before it is read. *)
Theorem C45_result_independent_of_old_file : forall no nv f g D1 D2 D3 c solve w w',
  slow_kernel no nv f g D1 D2 D3 c solve w = slow_kernel no nv f g D1 D2 D3 c solve w'.
Proof.
  intros. unfold slow_kernel. apply kernel_eqw.
  - intros [] d l2 a b; cbn [slow_resid]; first [apply resid_disk|apply uresid_disk|reflexivity].
  - intros [] d a b; cbn [slow_energy]; first [apply energy_disk|apply uenergy_disk|reflexivity].
  - intros [] d l2 a b; cbn [slow_pert]; first [apply pert_disk|reflexivity].
Qed.
Print Assumptions C45_result_independent_of_old_file.
