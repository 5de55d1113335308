(** C15: the spin-blocked quadruples intermediates of fullCCenergy.py. *)
From Coq Require Import String Ascii List Arith NArith ZArith QArith Qcanon Bool Lia Permutation.
From Verif Require Import Sums Tensor Interp Poly SymExec Canon Spec Instances Setup Master Spin Check Tabs NF Antisym Formula P_antisym Asym P_qf.
From Verif Require Code_fullCCenergy Code_tamps.
Import ListNotations.
Open Scope string_scope.
Open Scope Qc_scope.

(** ** Specification *)
(** The quadruples numerator linear in T3, before antisymmetrisation. *)
Definition W_T3 (no nv : nat) (g t3 : tensor) : tensor := arr8 nv no (fun a b c d i j k l =>
  Q2Qc (-1 # 24) * (Sum m < no, data t3 [a;b;c;i;j;m] * data g [k;l;m;no+d]%nat) +
  Q2Qc (-1 # 24) * (Sum e < nv, data t3 [a;b;e;i;j;k] * data g [l;no+e;no+c;no+d]%nat)).
(** Entrywise sum of two arrays of the same shape. *)
Definition tsum (x y : tensor) : tensor := mkT (shape x) (fun idx => data x idx + data y idx).

(** ** Proof machinery *)
Definition p_WT3 : poly := Eval vm_compute in
  [mkterm "abcdijkl" "m" (-1 # 24) [(4%N, "abcijm"); (1%N, "klmd")];
   mkterm "abcdijkl" "e" (-1 # 24) [(4%N, "abeijk"); (1%N, "lecd")]].
Lemma sp_vs_sum no nv S atoms sps p q R1 R2 :
  sp_vsim no nv S atoms (SP sps p) (VT R1) -> sp_vsim no nv S atoms (SP sps q) (VT R2) ->
  sp_vsim no nv S atoms (SP sps (p ++ q)%list) (VT (tsum R1 R2)).
Proof.
  intros V1 V2. inversion V1 as [? ? ? T1| | | | |]; subst. inversion V2 as [? ? ? T2| | | | |]; subst.
  destruct T1 as [S1 D1], T2 as [S2 D2]. constructor. split; [exact S1|]. intros idx e Hi Ha. cbn [data shape tsum] in *.
  rewrite evalP_app. rewrite (D1 idx e Hi Ha), (D2 idx e); [reflexivity| |exact Ha].
  rewrite S2, <- S1. exact Hi.
Qed.

(** C15.  The five quadruples blocks used by CCSDT(Qf) and CCSD(Qf) are the spin blocks of the
    antisymmetrised W T2 T2 + W T3 numerator; the five increments of the Qf-star variants are those of the
    antisymmetrised W T2 T2 T2 numerator.  The singles, quadruples and Fock arguments are not used:
    any values may be passed (the driver passes None for T1 and T4). *)
Theorem C15_spin_quadruples_blocks :
  forall no nv S F G f_aa f_bb g_aaaa g_bbbb g_abab T2 t_aaaa t_bbbb t_abab T3 t_aaa t_aab t_abb t_bbb,
  spin_ok no nv S -> spin_hamiltonian S no nv F G f_aa f_bb g_aaaa g_bbbb g_abab ->
  spin_amp S 2 no nv T2 -> blocks2 S no nv T2 t_aaaa t_bbbb t_abab ->
  spin_amp S 3 no nv T3 -> blocks3 S no nv T3 t_aaa t_aab t_abb t_bbb ->
  let args := [VNone; VNone; VT t_aaaa; VT t_bbbb; VT t_abab; VT t_aaa; VT t_aab; VT t_abb; VT t_bbb;
     VNone; VNone; VNone; VNone; VNone; VT f_aa; VT f_bb; VT g_aaaa; VT g_bbbb; VT g_abab; o_ no; o_ no; v_ no; v_ no] in
  exists T4 r_aaaa r_aaab r_aabb r_abbb r_bbbb T4' q_aaaa q_aaab q_aabb q_abbb q_bbbb,
    antisymmetrised 4 (tsum (W_T2T2 (2 * no) (2 * nv) G T2) (W_T3 (2 * no) (2 * nv) G T3)) T4 /\ antisymmetric 4 T4 /\
    returns 0 [] Code_fullCCenergy.ccsdtq_t4_aaaaaaaa_residual args r_aaaa /\
    returns 0 [] Code_fullCCenergy.ccsdtq_t4_aaabaaab_residual args r_aaab /\
    returns 0 [] Code_fullCCenergy.ccsdtq_t4_aabbaabb_residual args r_aabb /\
    returns 0 [] Code_fullCCenergy.ccsdtq_t4_abbbabbb_residual args r_abbb /\
    returns 0 [] Code_fullCCenergy.ccsdtq_t4_bbbbbbbb_residual args r_bbbb /\
    blocks4 S no nv T4 r_aaaa r_aaab r_aabb r_abbb r_bbbb /\
    antisymmetrised 4 (W_T2T2T2 (2 * no) (2 * nv) G T2) T4' /\ antisymmetric 4 T4' /\
    returns 0 [] Code_fullCCenergy.ccsdtqT2cubed_t4_aaaaaaaa_residual args q_aaaa /\
    returns 0 [] Code_fullCCenergy.ccsdtqT2cubed_t4_aaabaaab_residual args q_aaab /\
    returns 0 [] Code_fullCCenergy.ccsdtqT2cubed_t4_aabbaabb_residual args q_aabb /\
    returns 0 [] Code_fullCCenergy.ccsdtqT2cubed_t4_abbbabbb_residual args q_abbb /\
    returns 0 [] Code_fullCCenergy.ccsdtqT2cubed_t4_bbbbbbbb_residual args q_bbbb /\
    blocks4 S no nv T4' q_aaaa q_aaab q_aabb q_abbb q_bbbb.
Proof.
  intros no nv S F G f_aa f_bb g_aaaa g_bbbb g_abab T2 t_aaaa t_bbbb t_abab T3 t_aaa t_aab t_abb t_bbb HS
    [HF [HFc [HG [HGc [B1 [B2 [B3 [B4 B5]]]]]]]] HT [C1 [C2 C3]] HT3 [D1 [D2 [D3 D4]]] args.
  set (tab := [(0%N, ([6;6]%N, F)); (1%N, ([6;6;6;6]%N, G)); (3%N, ([1;1;0;0]%N, T2)); (4%N, ([1;1;1;0;0;0]%N, T3))] : atomtab).
  assert (OK : Forall (atom_ok (sp_range no nv S) sy) tab) by (unfold tab; spoks).
  assert (CO : Forall (conserving no nv S) tab) by (unfold tab; spcons).
  assert (VB : Forall2 (sp_vsim no nv S tab)
     [SNone; SNone; xb 3 [Up;Up]; xb 3 [Dn;Dn]; xb 3 [Up;Dn];
      xb 4 [Up;Up;Up]; xb 4 [Up;Up;Dn]; xb 4 [Up;Dn;Dn]; xb 4 [Dn;Dn;Dn]; SNone; SNone; SNone; SNone; SNone;
      xf_aa; xf_bb; xg_aaaa; xg_bbbb; xg_abab; xoa; xoa; xva; xva] args)
    by (unfold args; bsims HS).
  assert (V22 : sp_vsim no nv S tab (SP (vo_ 4) p_WT2T2) (VT (W_T2T2 (2 * no) (2 * nv) G T2))).
  { unfold vo_, p_WT2T2, W_T2T2, tab. cbn [repeat app]. sp_form HS. }
  assert (V3 : sp_vsim no nv S tab (SP (vo_ 4) p_WT3) (VT (W_T3 (2 * no) (2 * nv) G T3))).
  { unfold vo_, p_WT3, W_T3, tab. cbn [repeat app]. sp_form HS. }
  assert (V222 : sp_vsim no nv S tab (SP (vo_ 4) p_WT2T2T2) (VT (W_T2T2T2 (2 * no) (2 * nv) G T2))).
  { unfold vo_, p_WT2T2T2, W_T2T2T2, tab. cbn [repeat app]. sp_form HS. }
  pose proof (sp_vs_sum _ _ _ _ _ _ _ _ _ V22 V3) as VU.
  sp_asym HS OK Code_tamps.antisym_T4 asym4 4%nat VU T4 AT ANT VT4.
  sp_asym HS OK Code_tamps.antisym_T4 asym4 4%nat V222 T4' AT' ANT' VT4'.
  Ltac blk no nv S HS tab OK CO ss f V VB r H K :=
    destruct (sp_vs_blk no nv S HS tab OK CO ss _ _ 0 [] f _ _ V VB) as [r [H K]]; [chk_|].
  blk no nv S HS tab OK CO [Up;Up;Up;Up] Code_fullCCenergy.ccsdtq_t4_aaaaaaaa_residual VT4 VB r1 H1 K1.
  blk no nv S HS tab OK CO [Up;Up;Up;Dn] Code_fullCCenergy.ccsdtq_t4_aaabaaab_residual VT4 VB r2 H2 K2.
  blk no nv S HS tab OK CO [Up;Up;Dn;Dn] Code_fullCCenergy.ccsdtq_t4_aabbaabb_residual VT4 VB r3 H3 K3.
  blk no nv S HS tab OK CO [Up;Dn;Dn;Dn] Code_fullCCenergy.ccsdtq_t4_abbbabbb_residual VT4 VB r4 H4 K4.
  blk no nv S HS tab OK CO [Dn;Dn;Dn;Dn] Code_fullCCenergy.ccsdtq_t4_bbbbbbbb_residual VT4 VB r5 H5 K5.
  blk no nv S HS tab OK CO [Up;Up;Up;Up] Code_fullCCenergy.ccsdtqT2cubed_t4_aaaaaaaa_residual VT4' VB q1 J1 L1.
  blk no nv S HS tab OK CO [Up;Up;Up;Dn] Code_fullCCenergy.ccsdtqT2cubed_t4_aaabaaab_residual VT4' VB q2 J2 L2.
  blk no nv S HS tab OK CO [Up;Up;Dn;Dn] Code_fullCCenergy.ccsdtqT2cubed_t4_aabbaabb_residual VT4' VB q3 J3 L3.
  blk no nv S HS tab OK CO [Up;Dn;Dn;Dn] Code_fullCCenergy.ccsdtqT2cubed_t4_abbbabbb_residual VT4' VB q4 J4 L4.
  blk no nv S HS tab OK CO [Dn;Dn;Dn;Dn] Code_fullCCenergy.ccsdtqT2cubed_t4_bbbbbbbb_residual VT4' VB q5 J5 L5.
  exists T4, r1, r2, r3, r4, r5, T4', q1, q2, q3, q4, q5. unfold blocks4.
  do 7 (split; [assumption|]). split; [repeat (split; [assumption|]); assumption|].
  do 7 (split; [assumption|]). repeat (split; [assumption|]); assumption.
Qed.
Print Assumptions C15_spin_quadruples_blocks.
Example C15_instance := C15_spin_quadruples_blocks 2 2 S22 _ _ _ _ _ _ _ _ _ _ _ _ _ _ _ _
  S22_ok (s_ham_ok S22 2 2) (s_amp_ok S22 2 2 2) (blocks2_ok S22 2 2 _) (s_amp_ok S22 2 2 3) (blocks3_ok S22 2 2 _).
