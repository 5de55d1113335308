(** C51, end to end: from one SCF result, through the two integral conversions, the two denominator builders and the two
    iteration loops, the spin-orbital and the spin-integrated CCD calculations report the same energies. *)
From Coq Require Import String Ascii List Arith NArith ZArith QArith Qcanon Bool Lia Permutation.
From Coq Require Qcabs.
From Verif Require Import Sums Tensor Interp Numpy Spec SpecDriver Instances Formula Diis Kernel SlowCC P_slow P_slow3 SpinCC Denoms P_denoms P_spinrun P_spinrun2 Ints P_ints P_ints2.
Import ListNotations.
Open Scope string_scope.

Theorem C51_same_energy : forall n no nv I fa fb Ca Cb eps_a eps_b order rt rt' den den' c c' solve solve' w
    F G e f_aa f_bb g_aaaa g_bbbb g_abab D1 D2 D3 Daa Dbb Dab,
  (* the SCF result *)
  (0 < n)%nat -> (0 < no)%nat -> (0 < nv)%nat -> eri_symmetric n I ->
  canonical n (no + nv) fa Ca eps_a -> canonical n (no + nv) fb Cb eps_b ->
  is_argsort (eps_a ++ eps_b)%list (order (eps_a ++ eps_b)%list) ->
  homo_lumo (fun _ => no) (fun _ => nv) (spin_eps eps_a eps_b) ->
  (* what the two routes store *)
  convert_slow order I Ca Cb eps_a eps_b = Some (F, G, e) ->
  slook "ccdTypeSlow" rt' <> None ->
  get_denoms rt' [("occ_aa", (0%nat, Some (2 * no)%nat)); ("virt_aa", ((2 * no)%nat, None))] [("eps_aa", e)] = Some den' ->
  slook "D1aa" den' = Some D1 -> slook "D2aa" den' = Some D2 -> slook "D3aa" den' = Some D3 ->
  convert_fast I fa fb Ca Cb = Some (f_aa, f_bb, g_aaaa, g_bbbb, g_abab) ->
  slook "ccdTypeSlow" rt = None -> slook "ccdType" rt <> None ->
  get_denoms rt (spin_slices no no) [("eps_aa", eps_a); ("eps_bb", eps_b)] = Some den ->
  slook "D2aa" den = Some Daa -> slook "D2bb" den = Some Dbb -> slook "D2ab" den = Some Dab ->
  (* the same settings, one pass more for the spin-integrated loop, which starts from zero amplitudes *)
  cc_label c = "ccdType" -> cc_type c = "CCD" -> diis_size c = None ->
  cc_label c' = "ccdTypeSlow" -> cc_type c' = "CCD" -> diis_size c' = None ->
  stopping_eps c = stopping_eps c' -> nucE c = nucE c' -> hf_energy c = hf_energy c' ->
  max_iter c = (max_iter c' + 1)%nat -> (0 < max_iter c')%nat -> (max_iter c' <= 75)%nat ->
  (* and the MP2 energy is not below the convergence threshold *)
  (stopping_eps c <= Qcabs.Qcabs (E_mp2 (2 * no) (2 * nv) G (fun k => nth k e 0%Qc)))%Qc ->
  exists d d' tf co,
    slow_kernel (2 * no) (2 * nv) F G D1 D2 D3 c' solve w = Returned d tf co /\
    fast_kernel no no nv f_aa f_bb g_aaaa g_bbbb g_abab Daa Dbb Dab c solve' = Returned d' tf co.
Proof.
  intros n no nv I fa fb Ca Cb eps_a eps_b order rt rt' den den' c c' solve solve' w F G e f_aa f_bb g_aaaa g_bbbb g_abab D1 D2 D3 Daa Dbb Dab
    N0 PO PV HI Ka Kb Ho Hg ES R' ED' H1 H2 H3 EF R1 R2 ED H4 H5 H6 C1 C2 C3 C4 C5 C6 C7 C8 C9 C10 C11 C12 MP.
  destruct (C51_same_hamiltonian n no nv I fa fb Ca Cb eps_a eps_b order N0 HI Ka Kb Ho Hg)
    as [F' [G' [e' [A1 [A2 [A3 [A4 [A5 [S [X1 [X2 [X3 [X4 [X5 X6]]]]]]]]]]]]]].
  rewrite ES in X1. injection X1 as <- <- <-. rewrite EF in X2. injection X2 as <- <- <- <- <-.
  destruct (C25_spin_orbital_denominators rt' (2 * no) (2 * nv) e den' R' X5 ED') as [[Y1 [Y2 [Y3 [Z1 [Z2 [Z3 [W1 [W2 W3]]]]]]]] _].
  rewrite H2 in Z2. injection Z2 as <-.
  destruct (C25_spin_integrated_denominators no no nv nv eps_a eps_b (proj1 (proj2 (proj2 Ka))) (proj1 (proj2 (proj2 Kb))) rt den R1 (or_introl R2) ED)
    as [Q1 [Q2 [Q3 [L1 [L2 [L3 [V1 [V2 V3]]]]]]]].
  rewrite H4 in L1. rewrite H5 in L2. rewrite H6 in L3. injection L1 as <-. injection L2 as <-. injection L3 as <-.
  assert (TS : forall ss D, is_spin_denominator ss (fst (two_spins no no nv nv)) (snd (two_spins no no nv nv)) (spin_eps eps_a eps_b) D ->
     is_spin_denominator ss (fun _ => no) (fun _ => nv) (spin_eps eps_a eps_b) D).
  { intros ss D [K1 K2]. assert (M1 : forall s : spin, match s with Up => no | Dn => no end = no) by (intros []; reflexivity).
    assert (M2 : forall s : spin, match s with Up => nv | Dn => nv end = nv) by (intros []; reflexivity).
    split.
    - rewrite K1. f_equal; apply map_ext; intros []; reflexivity.
    - intros v o L J. rewrite (K2 v o L J). f_equal. unfold spin_gap. f_equal. apply suml_ext. intros [s x] _. cbn [fst snd two_spins]. rewrite M1. reflexivity. }
  destruct (C46_same_result no nv S F G f_aa f_bb g_aaaa g_bbbb g_abab D1 D2 D3 Daa Dbb Dab (fun k => nth k e 0%Qc) (spin_eps eps_a eps_b) c c' solve solve' w
    X3 X4 W2 (TS _ _ V1) (TS _ _ V2) (TS _ _ V3) X6 C1 C2 C3 C4 C5 C6 C7 C8 C9 C10 C11 C12 PO PV MP) as [d [d' [tf [co [T2 [taa [tbb [tab [B1 [B2 _]]]]]]]]]].
  exists d, d', tf, co. auto.
Qed.
Print Assumptions C51_same_energy.

(** An SCF result the theorems apply to: two orbitals, two electrons. *)
Definition h_I : tensor := arr4 2 2 2 2 (fun p q r s => Q2Qc (Z.of_nat ((p + q + 1) * (r + s + 1)) # 1)).
Definition h_f : tensor := arr2 2 2 (fun p q => if Nat.eqb p q then (if Nat.eqb p 0 then Q2Qc (-3 # 1) else Q2Qc (1 # 1)) else 0%Qc).
Definition h_eps : list Qc := [Q2Qc (-3 # 1); Q2Qc (1 # 1)].
Definition h_order (_ : list Qc) : list nat := [2; 0; 3; 1]%nat.
Example h_I_ok : eri_symmetric 2 h_I.
Proof.
  split; [reflexivity|]. intros p q r s _ _ _ _. cbn [data h_I arr4]. 
  repeat split; do 3 f_equal; lia.
Qed.
Example h_canonical : canonical 2 2 h_f (teye 2) h_eps.
Proof.
  split; [reflexivity|]. split; [reflexivity|]. split; [reflexivity|]. intros p q Hp Hq.
  destruct p as [|[|]]; [| |lia]; (destruct q as [|[|]]; [| |lia]); apply Qc_is_canon; vm_compute; reflexivity.
Qed.
Example h_argsort : is_argsort (h_eps ++ h_eps)%list (h_order (h_eps ++ h_eps)%list).
Proof.
  split.
  - cbn. apply NoDup_Permutation_bis; [|cbn; lia|intros x; cbn; lia]. repeat constructor; cbn; lia.
  - intros i j Hi Hj. cbn [length app h_eps] in Hj. destruct j as [|[|[|[|]]]]; try lia; (destruct i as [|[|[|]]]; try lia); vm_compute; discriminate.
Qed.
Example h_gap : homo_lumo (fun _ => 1%nat) (fun _ => 1%nat) (spin_eps h_eps h_eps).
Proof. intros s s' i a Hi Ha. assert (i = 0)%nat as -> by lia. assert (a = 0)%nat as -> by lia. destruct s, s'; vm_compute; reflexivity. Qed.
Example C51_instance := C51_same_hamiltonian 2 1 1 h_I h_f h_f (teye 2) (teye 2) h_eps h_eps h_order ltac:(lia) h_I_ok h_canonical h_canonical h_argsort h_gap.
Example C37_instance := C37_spin_orbital_integrals 2 2 h_I (teye 2) (teye 2) h_eps h_eps h_order ltac:(lia) h_I_ok eq_refl eq_refl eq_refl eq_refl
  (proj1 h_argsort).
Definition h_slow := convert_slow h_order h_I (teye 2) (teye 2) h_eps h_eps.
Definition h_den' := match h_slow with Some (_, _, e) => get_denoms [("ccdTypeSlow", "CCD")] [("occ_aa", (0%nat, Some (2 * 1)%nat)); ("virt_aa", ((2 * 1)%nat, None))] [("eps_aa", e)] | None => None end.
Definition h_fast := convert_fast h_I h_f h_f (teye 2) (teye 2).
Definition h_den := get_denoms [("ccdType", "CCD")] (spin_slices 1 1) [("eps_aa", h_eps); ("eps_bb", h_eps)].
Example C51_energy_instance : exists F G e f_aa f_bb g_aaaa g_bbbb g_abab D1 D2 D3 Daa Dbb Dab d d' tf co,
  h_slow = Some (F, G, e) /\ h_fast = Some (f_aa, f_bb, g_aaaa, g_bbbb, g_abab) /\
  slow_kernel 2 2 F G D1 D2 D3 (mkCalc "ccdTypeSlow" "CCD" 74 (Q2Qc (1 # 1000)) None 0 0 0) (fun _ _ _ => None) None = Returned d tf co /\
  fast_kernel 1 1 1 f_aa f_bb g_aaaa g_bbbb g_abab Daa Dbb Dab (f_calc "CCD" 75 None) (fun _ _ _ => None) = Returned d' tf co.
Proof.
  destruct C51_instance as [F [G [e [f_aa [f_bb [ga [gb [gab [S [ES [EF _]]]]]]]]]]].
  assert (X : exists den, h_den = Some den /\ (exists x, slook "D2aa" den = Some x) /\ (exists x, slook "D2bb" den = Some x) /\ (exists x, slook "D2ab" den = Some x)).
  { eexists. split; [reflexivity|]. repeat split; eexists; reflexivity. }
  assert (Y : exists den', h_den' = Some den' /\ (exists x, slook "D1aa" den' = Some x) /\ (exists x, slook "D2aa" den' = Some x) /\ (exists x, slook "D3aa" den' = Some x)).
  { unfold h_den', h_slow. rewrite ES. eexists. split; [reflexivity|]. repeat split; eexists; reflexivity. }
  destruct X as [den [ED [[Daa H4] [[Dbb H5] [Dab H6]]]]]. destruct Y as [den' [ED' [[D1 H1] [[D2 H2] [D3 H3]]]]].
  unfold h_den', h_slow in ED'. rewrite ES in ED'.
  assert (MP : (Q2Qc (1 # 1000) <= Qcabs.Qcabs (E_mp2 (2 * 1) (2 * 1) G (fun k => nth k e 0%Qc)))%Qc).
  { assert (K : match h_slow with Some (_, G, e) => Qle_bool (this (Q2Qc (1 # 1000))) (this (Qcabs.Qcabs (E_mp2 (2 * 1) (2 * 1) G (fun k => nth k e 0%Qc)))) | None => false end = true) by (vm_compute; reflexivity).
    unfold h_slow in K. rewrite ES in K. apply Qle_bool_iff. exact K. }
  destruct (C51_same_energy 2 1 1 h_I h_f h_f (teye 2) (teye 2) h_eps h_eps h_order [("ccdType", "CCD")] [("ccdTypeSlow", "CCD")] den den' (f_calc "CCD" 75 None)
    (mkCalc "ccdTypeSlow" "CCD" 74 (Q2Qc (1 # 1000)) None 0 0 0) (fun _ _ _ => None) (fun _ _ _ => None) None F G e f_aa f_bb ga gb gab D1 D2 D3 Daa Dbb Dab
    ltac:(lia) ltac:(lia) ltac:(lia) h_I_ok h_canonical h_canonical h_argsort h_gap ES ltac:(discriminate) ED' H1 H2 H3 EF eq_refl ltac:(discriminate) ED H4 H5 H6
    eq_refl eq_refl eq_refl eq_refl eq_refl eq_refl eq_refl eq_refl eq_refl eq_refl ltac:(cbn; lia) ltac:(cbn; lia) MP) as [d [d' [tf [co [A B]]]]].
  exists F, G, e, f_aa, f_bb, ga, gb, gab, D1, D2, D3, Daa, Dbb, Dab, d, d', tf, co. auto.
Qed.
