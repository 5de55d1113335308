(** C16, spin half: the spin-summed CCSD energy and the spin-summed (Qf) contraction of fullCCenergy.py. *)
From Coq Require Import String Ascii List Arith NArith ZArith QArith Qcanon Bool Lia Permutation.
From Verif Require Import Sums Tensor Interp Poly SymExec Canon Spec Instances Setup Master Spin Check Tabs NF Formula P_ccsd.
From Verif Require Code_fullCCenergy.
Import ListNotations.
Open Scope string_scope.
Open Scope Qc_scope.

(** ** Specification *)
(** One sixteenth of two adjoint doubles (occupied indices first) contracted with quadruples. *)
Definition KL_T4 (no nv : nat) (k2 l2 t4 : tensor) : Qc :=
  Q2Qc (1 # 16) * (Sum i < no, Sum j < no, Sum k < no, Sum l < no, Sum a < nv, Sum b < nv, Sum c < nv, Sum d < nv,
    data k2 [i;j;a;b] * data l2 [k;l;c;d] * data t4 [a;b;c;d;i;j;k;l]).

Theorem C16_spin_ccsd_energy :
  forall no nv S F G f_aa f_bb g_aaaa g_bbbb g_abab T1 t_aa t_bb T2 t_aaaa t_bbbb t_abab,
  spin_ok no nv S -> spin_hamiltonian S no nv F G f_aa f_bb g_aaaa g_bbbb g_abab ->
  spin_amp S 1 no nv T1 -> blocks1 S no nv T1 t_aa t_bb ->
  spin_amp S 2 no nv T2 -> blocks2 S no nv T2 t_aaaa t_bbbb t_abab ->
  exists E, returns 0 [] Code_fullCCenergy.ccsd_energy_with_spin
      [VT t_aa; VT t_bb; VT t_aaaa; VT t_bbbb; VT t_abab; VT f_aa; VT f_bb; VT g_aaaa; VT g_bbbb; VT g_abab;
       o_ no; o_ no; v_ no; v_ no] E /\
    shape E = [] /\ data E [] = E_ccsd (2 * no) (2 * nv) F G T1 T2.
Proof.
  intros no nv S F G f_aa f_bb g_aaaa g_bbbb g_abab T1 t_aa t_bb T2 t_aaaa t_bbbb t_abab HS
    [HF [HFc [HG [HGc [B1 [B2 [B3 [B4 B5]]]]]]]] HT1 [D1 D2] HT2 [C1 [C2 C3]].
  assert (OK : Forall (atom_ok (sp_range no nv S) sy) (e_atoms F G T1 T2)) by (unfold e_atoms; spoks).
  assert (CO : Forall (conserving no nv S) (e_atoms F G T1 T2)) by (unfold e_atoms; spcons).
  assert (VE : sp_vsim no nv S (e_atoms F G T1 T2) (SP [] p_Eccsd) (VT (arr0 (E_ccsd (2 * no) (2 * nv) F G T1 T2)))).
  { unfold p_Eccsd, E_ccsd, E_ref, e_atoms. sp_form HS. }
  destruct (sp_reads no nv S HS (e_atoms F G T1 T2) 0 [] Code_fullCCenergy.ccsd_energy_with_spin
    [xb 2 [Up]; xb 2 [Dn]; xb 3 [Up;Up]; xb 3 [Dn;Dn]; xb 3 [Up;Dn]; xf_aa; xf_bb; xg_aaaa; xg_bbbb; xg_abab;
     xoa; xoa; xva; xva]
    [VT t_aa; VT t_bb; VT t_aaaa; VT t_bbbb; VT t_abab; VT f_aa; VT f_bb; VT g_aaaa; VT g_bbbb; VT g_abab;
     o_ no; o_ no; v_ no; v_ no] [] p_Eccsd _ OK CO ltac:(bsims HS) VE) as [E [H1 H2]]; [chk_|].
  exists E. split; [exact H1|]. apply so_scalar. exact H2.
Qed.
Print Assumptions C16_spin_ccsd_energy.
Example C16_spin_instance := C16_spin_ccsd_energy 2 2 S22 _ _ _ _ _ _ _ _ _ _ _ _ _ _
  S22_ok (s_ham_ok S22 2 2) (s_amp_ok S22 2 2 1) (blocks1_ok S22 2 2 _) (s_amp_ok S22 2 2 2) (blocks2_ok S22 2 2 _).

Definition p_KLT4 : poly := Eval vm_compute in
  [mkterm "" "ijklabcd" (1 # 16) [(3%N, "ijab"); (6%N, "klcd"); (5%N, "abcdijkl")]].

(** The first three arguments are named g in the code, but receive the blocks of an adjoint doubles array
    K2 (fullCC_energyMain passes the transposed first-order amplitudes). *)
Theorem C16_spin_qf_contraction :
  forall no nv S K2 k_aaaa k_bbbb k_abab L2 l_aaaa l_bbbb l_abab T4 t_aaaa t_aaab t_aabb t_abbb t_bbbb,
  spin_ok no nv S ->
  spin_amp_ov S 2 no nv K2 -> blocks2_ov S no nv K2 k_aaaa k_bbbb k_abab ->
  spin_amp_ov S 2 no nv L2 -> blocks2_ov S no nv L2 l_aaaa l_bbbb l_abab ->
  spin_amp S 4 no nv T4 -> blocks4 S no nv T4 t_aaaa t_aaab t_aabb t_abbb t_bbbb ->
  exists E, returns 0 [] Code_fullCCenergy.energy_pertQf
      [VT k_aaaa; VT k_abab; VT k_bbbb; VT t_aaaa; VT t_aaab; VT t_aabb; VT t_abbb; VT t_bbbb;
       VT l_aaaa; VT l_bbbb; VT l_abab; o_ no; v_ no] E /\
    shape E = [] /\ data E [] = KL_T4 (2 * no) (2 * nv) K2 L2 T4.
Proof.
  intros no nv S K2 k_aaaa k_bbbb k_abab L2 l_aaaa l_bbbb l_abab T4 t_aaaa t_aaab t_aabb t_abbb t_bbbb HS
    HK [B1 [B2 B3]] HL [C1 [C2 C3]] HT [D1 [D2 [D3 [D4 D5]]]].
  set (tab := [(3%N, ([0;0;1;1]%N, K2)); (6%N, ([0;0;1;1]%N, L2)); (5%N, ([1;1;1;1;0;0;0;0]%N, T4))] : atomtab).
  assert (OK : Forall (atom_ok (sp_range no nv S) sy) tab) by (unfold tab; spoks).
  assert (CO : Forall (conserving no nv S) tab) by (unfold tab; spcons).
  assert (VE : sp_vsim no nv S tab (SP [] p_KLT4) (VT (arr0 (KL_T4 (2 * no) (2 * nv) K2 L2 T4)))).
  { unfold p_KLT4, KL_T4, tab. sp_form HS. }
  destruct (sp_reads no nv S HS tab 0 [] Code_fullCCenergy.energy_pertQf
    [xbo 3 [Up;Up]; xbo 3 [Up;Dn]; xbo 3 [Dn;Dn]; xb 5 [Up;Up;Up;Up]; xb 5 [Up;Up;Up;Dn]; xb 5 [Up;Up;Dn;Dn];
     xb 5 [Up;Dn;Dn;Dn]; xb 5 [Dn;Dn;Dn;Dn]; xbo 6 [Up;Up]; xbo 6 [Dn;Dn]; xbo 6 [Up;Dn]; xoa; xva]
    [VT k_aaaa; VT k_abab; VT k_bbbb; VT t_aaaa; VT t_aaab; VT t_aabb; VT t_abbb; VT t_bbbb;
     VT l_aaaa; VT l_bbbb; VT l_abab; o_ no; v_ no] [] p_KLT4 _ OK CO ltac:(bsims HS) VE) as [E [H1 H2]]; [chk_|].
  exists E. split; [exact H1|]. apply so_scalar. exact H2.
Qed.
Print Assumptions C16_spin_qf_contraction.
Example C16_qf_instance := C16_spin_qf_contraction 2 2 S22 _ _ _ _ _ _ _ _ _ _ _ _ _ _
  S22_ok (s_amp_ov_ok S22 2 2 2) (blocks2_ov_ok S22 2 2 _) (s_amp_ov_ok S22 2 2 2) (blocks2_ov_ok S22 2 2 _)
  (s_amp_ok S22 2 2 4) (blocks4_ok S22 2 2 _).
