(** C06: the spin-blocked CCSDT singles and doubles residuals. *)
From Coq Require Import String Ascii List Arith NArith ZArith QArith Qcanon Bool Lia Permutation.
From Verif Require Import Sums Tensor Interp Poly SymExec Canon Spec Instances Setup Master Spin Check Tabs NF.
From Verif Require Code_ccsdt_eqns Code_fullCCresidEqns.
Import ListNotations.
Open Scope string_scope.

Definition xSDT : list sval :=
  [xb 2 [Up]; xb 2 [Dn]; xb 3 [Up;Up]; xb 3 [Dn;Dn]; xb 3 [Up;Dn];
   xb 4 [Up;Up;Up]; xb 4 [Up;Up;Dn]; xb 4 [Up;Dn;Dn]; xb 4 [Dn;Dn;Dn];
   xf_aa; xf_bb; xg_aaaa; xg_bbbb; xg_abab; xoa; xoa; xva; xva].
Definition xSDTw : list sval :=
  [xF; xG; swp 2 1 [0;1]%N; swp 3 2 [0;0;1;1]%N; swp 4 3 [0;0;0;1;1;1]%N; xo; xv].

(** C06.  The T1 (aa, bb) and T2 (aaaa, bbbb, abab) residuals of the spin-summed CCSDT code
    (fullCCresidEqns.py) are exactly the spin blocks of the residuals of the spin-orbital CCSDT code
    (ccsdt_eqns.py, occupied indices first). *)
Theorem C06_spin_ccsdt_singles_doubles :
  forall no nv S F G f_aa f_bb g_aaaa g_bbbb g_abab T1 T1w t_aa t_bb T2 T2w t_aaaa t_bbbb t_abab
         T3 T3w t_aaa t_aab t_abb t_bbb,
  spin_ok no nv S -> spin_hamiltonian S no nv F G f_aa f_bb g_aaaa g_bbbb g_abab ->
  spin_amp S 1 no nv T1 -> blocks1 S no nv T1 t_aa t_bb -> swapped 1 T1 T1w ->
  spin_amp S 2 no nv T2 -> blocks2 S no nv T2 t_aaaa t_bbbb t_abab -> swapped 2 T2 T2w ->
  spin_amp S 3 no nv T3 -> blocks3 S no nv T3 t_aaa t_aab t_abb t_bbb -> swapped 3 T3 T3w ->
  let wargs := [VT F; VT G; VT T1w; VT T2w; VT T3w; o_ (2 * no); v_ (2 * no)] in
  let args := [VT t_aa; VT t_bb; VT t_aaaa; VT t_bbbb; VT t_abab; VT t_aaa; VT t_aab; VT t_abb; VT t_bbb;
               VT f_aa; VT f_bb; VT g_aaaa; VT g_bbbb; VT g_abab; o_ no; o_ no; v_ no; v_ no] in
  exists R1w R1 r_aa r_bb R2w R2 r_aaaa r_bbbb r_abab,
    returns 1 lib_tamps Code_ccsdt_eqns.ccsdt_t1eqns wargs R1w /\ swapped 1 R1 R1w /\
    returns 0 [] Code_fullCCresidEqns.ccsdt_t1_aa_residual args r_aa /\
    returns 0 [] Code_fullCCresidEqns.ccsdt_t1_bb_residual args r_bb /\
    blocks1 S no nv R1 r_aa r_bb /\
    returns 1 lib_tamps Code_ccsdt_eqns.ccsdt_t2eqns wargs R2w /\ swapped 2 R2 R2w /\
    returns 0 [] Code_fullCCresidEqns.ccsdt_t2_aaaa_residual args r_aaaa /\
    returns 0 [] Code_fullCCresidEqns.ccsdt_t2_bbbb_residual args r_bbbb /\
    returns 0 [] Code_fullCCresidEqns.ccsdt_t2_abab_residual args r_abab /\
    blocks2 S no nv R2 r_aaaa r_bbbb r_abab.
Proof.
  intros no nv S F G f_aa f_bb g_aaaa g_bbbb g_abab T1 T1w t_aa t_bb T2 T2w t_aaaa t_bbbb t_abab
    T3 T3w t_aaa t_aab t_abb t_bbb HS [HF [HFc [HG [HGc [B1 [B2 [B3 [B4 B5]]]]]]]]
    HT1 [D1 D2] W1 HT2 [C1 [C2 C3]] W2 HT3 [E1 [E2 [E3 E4]]] W3 wargs args.
  set (tab := [(0%N, ([6;6]%N, F)); (1%N, ([6;6;6;6]%N, G)); (2%N, ([1;0]%N, T1)); (3%N, ([1;1;0;0]%N, T2));
     (4%N, ([1;1;1;0;0;0]%N, T3))] : atomtab).
  assert (OK : Forall (atom_ok (sp_range no nv S) sy) tab) by (unfold tab; spoks).
  assert (CO : Forall (conserving no nv S) tab) by (unfold tab; spcons).
  assert (VW : Forall2 (sp_vsim no nv S tab) xSDTw wargs) by (unfold wargs, xSDTw; bsims HS).
  assert (VB : Forall2 (sp_vsim no nv S tab) xSDT args) by (unfold args, xSDT; bsims HS).
  sp_nf HS OK 1%nat lib_tamps Code_ccsdt_eqns.ccsdt_t1eqns [0;1]%N VW R1w HR1 VR1.
  flip_ (sp_vs_flip no nv S tab) 1%nat VR1 R1 SW1 TR1.
  sp_nf HS OK 1%nat lib_tamps Code_ccsdt_eqns.ccsdt_t2eqns [0;0;1;1]%N VW R2w HR2 VR2.
  flip_ (sp_vs_flip no nv S tab) 2%nat VR2 R2 SW2 TR2.
  destruct (sp_vs_blk no nv S HS tab OK CO [Up] _ _ 0 [] Code_fullCCresidEqns.ccsdt_t1_aa_residual _ _ TR1 VB)
    as [r1 [H1 K1]]; [chk_|].
  destruct (sp_vs_blk no nv S HS tab OK CO [Dn] _ _ 0 [] Code_fullCCresidEqns.ccsdt_t1_bb_residual _ _ TR1 VB)
    as [r2 [H2 K2]]; [chk_|].
  destruct (sp_vs_blk no nv S HS tab OK CO [Up;Up] _ _ 0 [] Code_fullCCresidEqns.ccsdt_t2_aaaa_residual _ _ TR2 VB)
    as [r3 [H3 K3]]; [chk_|].
  destruct (sp_vs_blk no nv S HS tab OK CO [Dn;Dn] _ _ 0 [] Code_fullCCresidEqns.ccsdt_t2_bbbb_residual _ _ TR2 VB)
    as [r4 [H4 K4]]; [chk_|].
  destruct (sp_vs_blk no nv S HS tab OK CO [Up;Dn] _ _ 0 [] Code_fullCCresidEqns.ccsdt_t2_abab_residual _ _ TR2 VB)
    as [r5 [H5 K5]]; [chk_|].
  exists R1w, R1, r1, r2, R2w, R2, r3, r4, r5. unfold blocks1, blocks2.
  repeat (split; [assumption|]). split; [split; assumption|].
  repeat (split; [assumption|]). assumption.
Qed.
Print Assumptions C06_spin_ccsdt_singles_doubles.
Example C06_instance := C06_spin_ccsdt_singles_doubles 2 2 S22 _ _ _ _ _ _ _ _ _ _ _ _ _ _ _ _ _ _ _ _ _ _
  S22_ok (s_ham_ok S22 2 2) (s_amp_ok S22 2 2 1) (blocks1_ok S22 2 2 _) (swap_t_ok 1 _)
  (s_amp_ok S22 2 2 2) (blocks2_ok S22 2 2 _) (swap_t_ok 2 _) (s_amp_ok S22 2 2 3) (blocks3_ok S22 2 2 _) (swap_t_ok 3 _).
