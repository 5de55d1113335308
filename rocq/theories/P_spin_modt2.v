(** C18: the quadruples-corrected doubles equations of testing_modifyT2eqns_with_T4.py. *)
From Coq Require Import String Ascii List Arith NArith ZArith QArith Qcanon Bool Lia Permutation.
From Verif Require Import Sums Tensor Interp Poly SymExec Canon Spec Instances Setup Master Spin Check Tabs NF Antisym Formula P_antisym Asym P_qf P_spin_t4.
From Verif Require Code_testing_modifyT2eqns_with_T4 Code_tamps.
Import ListNotations.
Open Scope string_scope.
Open Scope Qc_scope.

(** C18.  The three spin blocks are those of one quarter of L2 contracted with the antisymmetrised
    W T2 T2 + W T3 numerator, i.e. with the explicit quadruples of C15. *)
Theorem C18_spin_modified_doubles :
  forall no nv S F G f_aa f_bb g_aaaa g_bbbb g_abab T2 t_aaaa t_bbbb t_abab T3 t_aaa t_aab t_abb t_bbb
    L2 l_aaaa l_bbbb l_abab,
  spin_ok no nv S -> spin_hamiltonian S no nv F G f_aa f_bb g_aaaa g_bbbb g_abab ->
  spin_amp S 2 no nv T2 -> blocks2 S no nv T2 t_aaaa t_bbbb t_abab ->
  spin_amp S 3 no nv T3 -> blocks3 S no nv T3 t_aaa t_aab t_abb t_bbb ->
  spin_amp_ov S 2 no nv L2 -> blocks2_ov S no nv L2 l_aaaa l_bbbb l_abab ->
  let args := [VT t_aaaa; VT t_bbbb; VT t_abab; VT t_aaa; VT t_bbb; VT t_aab; VT t_abb;
     VT g_aaaa; VT g_bbbb; VT g_abab; VT l_aaaa; VT l_bbbb; VT l_abab; o_ no; o_ no; v_ no; v_ no] in
  exists T4 r_aaaa r_bbbb r_abab,
    antisymmetrised 4 (tsum (W_T2T2 (2 * no) (2 * nv) G T2) (W_T3 (2 * no) (2 * nv) G T3)) T4 /\ antisymmetric 4 T4 /\
    returns 0 [] Code_testing_modifyT2eqns_with_T4.ccsdt_t2_aaaa_residual_Qf args r_aaaa /\
    returns 0 [] Code_testing_modifyT2eqns_with_T4.ccsdt_t2_bbbb_residual_Qf args r_bbbb /\
    returns 0 [] Code_testing_modifyT2eqns_with_T4.ccsdt_t2_abab_residual_Qf args r_abab /\
    blocks2 S no nv (L2_T4 (2 * no) (2 * nv) L2 T4) r_aaaa r_bbbb r_abab.
Proof.
  intros no nv S F G f_aa f_bb g_aaaa g_bbbb g_abab T2 t_aaaa t_bbbb t_abab T3 t_aaa t_aab t_abb t_bbb
    L2 l_aaaa l_bbbb l_abab HS
    [HF [HFc [HG [HGc [B1 [B2 [B3 [B4 B5]]]]]]]] HT [C1 [C2 C3]] HT3 [D1 [D2 [D3 D4]]] HL [E1 [E2 E3]] args.
  set (tab := [(1%N, ([6;6;6;6]%N, G)); (3%N, ([1;1;0;0]%N, T2)); (4%N, ([1;1;1;0;0;0]%N, T3));
     (6%N, ([0;0;1;1]%N, L2))] : atomtab).
  assert (OK : Forall (atom_ok (sp_range no nv S) sy) tab) by (unfold tab; spoks).
  assert (CO : Forall (conserving no nv S) tab) by (unfold tab; spcons).
  assert (VB : Forall2 (sp_vsim no nv S tab)
     [xb 3 [Up;Up]; xb 3 [Dn;Dn]; xb 3 [Up;Dn];
      xb 4 [Up;Up;Up]; xb 4 [Dn;Dn;Dn]; xb 4 [Up;Up;Dn]; xb 4 [Up;Dn;Dn];
      xg_aaaa; xg_bbbb; xg_abab; xbo 6 [Up;Up]; xbo 6 [Dn;Dn]; xbo 6 [Up;Dn]; xoa; xoa; xva; xva] args)
    by (unfold args; bsims HS).
  assert (V22 : sp_vsim no nv S tab (SP (vo_ 4) p_WT2T2) (VT (W_T2T2 (2 * no) (2 * nv) G T2))).
  { unfold vo_, p_WT2T2, W_T2T2, tab. cbn [repeat app]. sp_form HS. }
  assert (V3 : sp_vsim no nv S tab (SP (vo_ 4) p_WT3) (VT (W_T3 (2 * no) (2 * nv) G T3))).
  { unfold vo_, p_WT3, W_T3, tab. cbn [repeat app]. sp_form HS. }
  pose proof (sp_vs_sum _ _ _ _ _ _ _ _ _ V22 V3) as VU.
  sp_asym HS OK Code_tamps.antisym_T4 asym4 4%nat VU T4 AT ANT VT4.
  pose proof (Forall2_cons (R := sp_vsim no nv S tab) (at_ 6 [0;0;1;1]%N) (VT L2)
    ltac:(eapply (spv_amp_ov _ _ _ HS _ _ 2); [reflexivity|exact HL])
    (Forall2_cons _ _ VT4 (Forall2_nil (sp_vsim no nv S tab)))) as VC.
  sp_nf HS OK 0%nat (@nil (string * fn)) fc_L2_T4 [1;1;0;0]%N VC R HR VR.
  destruct (contract_L2_T4 (2 * no) (2 * nv) L2 T4) as [R' [HR' EE]].
  { exact (proj1 (proj1 HL)). }
  { destruct AT as [-> _]. reflexivity. }
  assert (R' = R) as -> by (unfold returns in *; congruence).
  apply (sp_vs_teq _ _ _ _ _ _ _ _ EE) in VR.
  blk no nv S HS tab OK CO [Up;Up] Code_testing_modifyT2eqns_with_T4.ccsdt_t2_aaaa_residual_Qf VR VB r1 H1 K1.
  blk no nv S HS tab OK CO [Dn;Dn] Code_testing_modifyT2eqns_with_T4.ccsdt_t2_bbbb_residual_Qf VR VB r2 H2 K2.
  blk no nv S HS tab OK CO [Up;Dn] Code_testing_modifyT2eqns_with_T4.ccsdt_t2_abab_residual_Qf VR VB r3 H3 K3.
  exists T4, r1, r2, r3. do 5 (split; [assumption|]).
  split; [|split]; assumption.
Qed.
Print Assumptions C18_spin_modified_doubles.
Example C18_instance := C18_spin_modified_doubles 2 2 S22 _ _ _ _ _ _ _ _ _ _ _ _ _ _ _ _ _ _ _ _
  S22_ok (s_ham_ok S22 2 2) (s_amp_ok S22 2 2 2) (blocks2_ok S22 2 2 _) (s_amp_ok S22 2 2 3) (blocks3_ok S22 2 2 _)
  (s_amp_ov_ok S22 2 2 2) (blocks2_ov_ok S22 2 2 _).
