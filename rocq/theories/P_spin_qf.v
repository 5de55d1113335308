(** C11, C12: the spin-blocked factorised-quadruples corrections. *)
From Coq Require Import String Ascii List Arith NArith ZArith QArith Qcanon Bool Lia Permutation.
From Verif Require Import Sums Tensor Interp Poly SymExec Canon Spec Instances Setup Master Spin Check Tabs NF Antisym Formula P_antisym P_qf.
From Verif Require Code_modify_T2resid_T4Qf1Slow Code_modify_T2resid_T4Qf2Slow Code_modify_T2energy_pertQfSlow.
From Verif Require Code_modify_T2resid_T4Qf1 Code_modify_T2resid_T4Qf2 Code_modify_T2energy_pertQf.
Import ListNotations.
Open Scope string_scope.

(** The dictionaries of spin blocks handed to the spin-blocked functions (t2residEqns.py, t2energy.py). *)
Definition spin_dict (x_aaaa x_bbbb x_abab : tensor) : value :=
  VDict [("aaaa", VT x_aaaa); ("bbbb", VT x_bbbb); ("abab", VT x_abab)].

Section Setup.
  Variables no nv : nat.
  Variable S : spinmap.
  Variables F G f_aa f_bb g_aaaa g_bbbb g_abab T2 t_aaaa t_bbbb t_abab L2 l_aaaa l_bbbb l_abab : tensor.
  Hypothesis HS : spin_ok no nv S.
  Hypothesis HH : spin_hamiltonian S no nv F G f_aa f_bb g_aaaa g_bbbb g_abab.
  Hypothesis HT : spin_amp S 2 no nv T2.
  Hypothesis HTb : blocks2 S no nv T2 t_aaaa t_bbbb t_abab.
  Hypothesis HL : spin_amp_ov S 2 no nv L2.
  Hypothesis HLb : blocks2_ov S no nv L2 l_aaaa l_bbbb l_abab.
  Definition sqf_tab : atomtab := [(1%N, ([6;6;6;6]%N, G)); (3%N, ([1;1;0;0]%N, T2)); (6%N, ([0;0;1;1]%N, L2))].
  Definition sqf_so : list sval := [xG; at_ 6 [0;0;1;1]%N; at_ 3 [1;1;0;0]%N; xo; xv].
  Definition sqf_sp : list sval :=
    [SDict [("aaaa", xg_aaaa); ("bbbb", xg_bbbb); ("abab", xg_abab)];
     SDict [("aaaa", xbo 6 [Up;Up]); ("bbbb", xbo 6 [Dn;Dn]); ("abab", xbo 6 [Up;Dn])];
     SDict [("aaaa", xb 3 [Up;Up]); ("bbbb", xb 3 [Dn;Dn]); ("abab", xb 3 [Up;Dn])]; xoa; xva].
  Lemma sqf_ok : Forall (atom_ok (sp_range no nv S) sy) sqf_tab.
  Proof. destruct HH as [_ [_ [HG [HGc _]]]]. unfold sqf_tab; spoks. Qed.
  Lemma sqf_cons : Forall (conserving no nv S) sqf_tab.
  Proof. destruct HH as [_ [_ [HG [HGc _]]]]. unfold sqf_tab; spcons. Qed.
  Lemma sqf_vso : Forall2 (sp_vsim no nv S sqf_tab) sqf_so [VT G; VT L2; VT T2; o_ (2 * no); v_ (2 * no)].
  Proof. destruct HH as [_ [_ [HG [HGc _]]]]. unfold sqf_so. bsims HS. Qed.
  Lemma sqf_vsp : Forall2 (sp_vsim no nv S sqf_tab) sqf_sp
    [spin_dict g_aaaa g_bbbb g_abab; spin_dict l_aaaa l_bbbb l_abab; spin_dict t_aaaa t_bbbb t_abab; o_ no; v_ no].
  Proof.
    destruct HH as [_ [_ [HG [HGc [_ [_ [B1 [B2 B3]]]]]]]], HTb as [C1 [C2 C3]], HLb as [D1 [D2 D3]].
    unfold sqf_sp, spin_dict. bsims HS.
  Qed.
End Setup.

(** C11.  The CCDQf-1 and CCDQf-2 corrections of the spin-summed code are the spin blocks of the
    spin-orbital corrections. *)
Theorem C11_spin_ccdqf_residuals :
  forall no nv S F G f_aa f_bb g_aaaa g_bbbb g_abab T2 t_aaaa t_bbbb t_abab L2 l_aaaa l_bbbb l_abab,
  spin_ok no nv S -> spin_hamiltonian S no nv F G f_aa f_bb g_aaaa g_bbbb g_abab ->
  spin_amp S 2 no nv T2 -> blocks2 S no nv T2 t_aaaa t_bbbb t_abab ->
  spin_amp_ov S 2 no nv L2 -> blocks2_ov S no nv L2 l_aaaa l_bbbb l_abab ->
  let so := [VT G; VT L2; VT T2; o_ (2 * no); v_ (2 * no)] in
  let sp := [spin_dict g_aaaa g_bbbb g_abab; spin_dict l_aaaa l_bbbb l_abab; spin_dict t_aaaa t_bbbb t_abab;
             o_ no; v_ no] in
  exists Q1 Q1_aaaa Q1_bbbb Q1_abab Q2 Q2_aaaa Q2_bbbb Q2_abab,
    returns 0 [] Code_modify_T2resid_T4Qf1Slow.residQf1_aaaa so Q1 /\
    returns 0 [] Code_modify_T2resid_T4Qf1.residQf1_aaaa sp Q1_aaaa /\
    returns 0 [] Code_modify_T2resid_T4Qf1.residQf1_bbbb sp Q1_bbbb /\
    returns 0 [] Code_modify_T2resid_T4Qf1.residQf1_abab sp Q1_abab /\
    blocks2 S no nv Q1 Q1_aaaa Q1_bbbb Q1_abab /\
    returns 0 [] Code_modify_T2resid_T4Qf2Slow.residQf2_aaaa so Q2 /\
    returns 0 [] Code_modify_T2resid_T4Qf2.residQf2_aaaa sp Q2_aaaa /\
    returns 0 [] Code_modify_T2resid_T4Qf2.residQf2_bbbb sp Q2_bbbb /\
    returns 0 [] Code_modify_T2resid_T4Qf2.residQf2_abab sp Q2_abab /\
    blocks2 S no nv Q2 Q2_aaaa Q2_bbbb Q2_abab.
Proof.
  intros no nv S F G f_aa f_bb g_aaaa g_bbbb g_abab T2 t_aaaa t_bbbb t_abab L2 l_aaaa l_bbbb l_abab HS HH HT HTb HL HLb so sp.
  pose proof (sqf_ok no nv S _ _ _ _ _ _ _ _ _ HH HT HL) as OK.
  pose proof (sqf_cons no nv S _ _ _ _ _ _ _ _ _ HH HT HL) as CO.
  pose proof (sqf_vso no nv S _ _ _ _ _ _ _ _ _ HS HH HT HL) as VS. fold so in VS.
  pose proof (sqf_vsp no nv S _ _ _ _ _ _ _ _ _ _ _ _ _ _ _ HS HH HTb HLb) as VB. fold sp in VB.
  set (tab := sqf_tab G T2 L2) in *.
  sp_nf HS OK 0%nat (@nil (string * fn)) Code_modify_T2resid_T4Qf1Slow.residQf1_aaaa [1;1;0;0]%N VS Q1 HQ1 TQ1.
  sp_nf HS OK 0%nat (@nil (string * fn)) Code_modify_T2resid_T4Qf2Slow.residQf2_aaaa [1;1;0;0]%N VS Q2 HQ2 TQ2.
  destruct (sp_vs_blk no nv S HS tab OK CO [Up;Up] _ _ 0 [] Code_modify_T2resid_T4Qf1.residQf1_aaaa _ _ TQ1 VB)
    as [r1 [H1 K1]]; [chk_|].
  destruct (sp_vs_blk no nv S HS tab OK CO [Dn;Dn] _ _ 0 [] Code_modify_T2resid_T4Qf1.residQf1_bbbb _ _ TQ1 VB)
    as [r2 [H2 K2]]; [chk_|].
  destruct (sp_vs_blk no nv S HS tab OK CO [Up;Dn] _ _ 0 [] Code_modify_T2resid_T4Qf1.residQf1_abab _ _ TQ1 VB)
    as [r3 [H3 K3]]; [chk_|].
  destruct (sp_vs_blk no nv S HS tab OK CO [Up;Up] _ _ 0 [] Code_modify_T2resid_T4Qf2.residQf2_aaaa _ _ TQ2 VB)
    as [r4 [H4 K4]]; [chk_|].
  destruct (sp_vs_blk no nv S HS tab OK CO [Dn;Dn] _ _ 0 [] Code_modify_T2resid_T4Qf2.residQf2_bbbb _ _ TQ2 VB)
    as [r5 [H5 K5]]; [chk_|].
  destruct (sp_vs_blk no nv S HS tab OK CO [Up;Dn] _ _ 0 [] Code_modify_T2resid_T4Qf2.residQf2_abab _ _ TQ2 VB)
    as [r6 [H6 K6]]; [chk_|].
  exists Q1, r1, r2, r3, Q2, r4, r5, r6. unfold blocks2.
  repeat (split; [assumption|]). split; [split; [|split]; assumption|].
  repeat (split; [assumption|]). assumption.
Qed.
Print Assumptions C11_spin_ccdqf_residuals.
Example C11_spin_instance := C11_spin_ccdqf_residuals 2 2 S22 _ _ _ _ _ _ _ _ _ _ _ _ _ _ _
  S22_ok (s_ham_ok S22 2 2) (s_amp_ok S22 2 2 2) (blocks2_ok S22 2 2 _) (s_amp_ov_ok S22 2 2 2) (blocks2_ov_ok S22 2 2 _).

(** C12, spin half.  The spin-summed (Qf) energy equals the spin-orbital (Qf) energy, hence one quarter of
    L2 contracted with the spin-orbital CCDQf-1 residual. *)
Theorem C12_spin_qf_energy :
  forall no nv S F G f_aa f_bb g_aaaa g_bbbb g_abab T2 t_aaaa t_bbbb t_abab L2 l_aaaa l_bbbb l_abab,
  spin_ok no nv S -> spin_hamiltonian S no nv F G f_aa f_bb g_aaaa g_bbbb g_abab ->
  spin_amp S 2 no nv T2 -> blocks2 S no nv T2 t_aaaa t_bbbb t_abab ->
  spin_amp_ov S 2 no nv L2 -> blocks2_ov S no nv L2 l_aaaa l_bbbb l_abab ->
  let so := [VT G; VT L2; VT T2; o_ (2 * no); v_ (2 * no)] in
  let sp := [spin_dict g_aaaa g_bbbb g_abab; spin_dict l_aaaa l_bbbb l_abab; spin_dict t_aaaa t_bbbb t_abab;
             o_ no; v_ no] in
  exists R E E',
    returns 0 [] Code_modify_T2resid_T4Qf1Slow.residQf1_aaaa so R /\
    returns 0 [] Code_modify_T2energy_pertQfSlow.energy_pertQf so E /\
    returns 0 [] Code_modify_T2energy_pertQf.energy_pertQf sp E' /\
    shape E = [] /\ shape E' = [] /\ data E' [] = data E [] /\
    data E [] = L2_T2 (2 * no) (2 * nv) L2 R.
Proof.
  intros no nv S F G f_aa f_bb g_aaaa g_bbbb g_abab T2 t_aaaa t_bbbb t_abab L2 l_aaaa l_bbbb l_abab HS HH HT HTb HL HLb so sp.
  pose proof (sqf_ok no nv S _ _ _ _ _ _ _ _ _ HH HT HL) as OK.
  pose proof (sqf_cons no nv S _ _ _ _ _ _ _ _ _ HH HT HL) as CO.
  pose proof (sqf_vso no nv S _ _ _ _ _ _ _ _ _ HS HH HT HL) as VS. fold so in VS.
  pose proof (sqf_vsp no nv S _ _ _ _ _ _ _ _ _ _ _ _ _ _ _ HS HH HTb HLb) as VB. fold sp in VB.
  set (tab := sqf_tab G T2 L2) in *.
  destruct (C12_qf_energy_is_L2_residual (2 * no) (2 * nv) G T2 L2 (proj1 (proj2 (proj2 HH))) (proj1 HT) (proj1 HL))
    as [R [E0 [HR [HE0 [S0 D0]]]]].
  destruct (sp_compare no nv S HS tab OK CO 0 [] Code_modify_T2energy_pertQfSlow.energy_pertQf _ _
    0 [] Code_modify_T2energy_pertQf.energy_pertQf _ _ [] VS VB) as [E [E' [H1 [H2 [H3 [H4 H5]]]]]]; [chk_|].
  assert (E0 = E) as -> by (unfold returns, so in *; congruence).
  exists R, E, E'. split; [exact HR|]. split; [exact H1|]. split; [exact H2|]. split; [exact S0|].
  split; [rewrite <- H4; exact S0|]. split; [|exact D0].
  symmetry. apply H5. rewrite S0. constructor.
Qed.
Print Assumptions C12_spin_qf_energy.
Example C12_spin_instance := C12_spin_qf_energy 2 2 S22 _ _ _ _ _ _ _ _ _ _ _ _ _ _ _
  S22_ok (s_ham_ok S22 2 2) (s_amp_ok S22 2 2 2) (blocks2_ok S22 2 2 _) (s_amp_ov_ok S22 2 2 2) (blocks2_ov_ok S22 2 2 _).
