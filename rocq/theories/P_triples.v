(** C17: the approximate triples and the [T] energy. *)
From Coq Require Import String Ascii List Arith NArith ZArith QArith Qcanon Bool Lia Permutation.
From Verif Require Import Sums Tensor Interp Poly SymExec Canon Spec Instances Setup Master Spin Check Tabs NF Antisym Formula P_antisym Asym.
From Verif Require Code_pdagq_T3corr Code_cc_energy Code_build_approxT3full Code_square_brakT_corr Code_tamps.
Import ListNotations.
Open Scope string_scope.
Open Scope Qc_scope.

(** ** Specification *)
(** The second-order triples numerator before antisymmetrisation, indices a b c i j k. *)
Definition W_T2 (no nv : nat) (g t2 : tensor) : tensor := arr6 nv no (fun a b c i j k =>
  Q2Qc (-1 # 4) * (Sum l < no, data t2 [a;b;i;l] * data g [j;k;l;no+c]%nat) +
  Q2Qc (-1 # 4) * (Sum d < nv, data t2 [a;d;i;j] * data g [k;no+d;no+b;no+c]%nat)).
(** The [T] energy: lambda doubles contracted with <lk||cj> T3 and <kb||cd> T3. *)
Definition E_T (no nv : nat) (g l2 t3 : tensor) : Qc :=
  Q2Qc (1 # 4) * (Sum i < no, Sum j < no, Sum k < no, Sum l < no, Sum a < nv, Sum b < nv, Sum c < nv,
     data g [l;k;no+c;j]%nat * data l2 [i;j;b;a] * data t3 [c;b;a;i;l;k]) +
  Q2Qc (1 # 4) * (Sum i < no, Sum j < no, Sum k < no, Sum a < nv, Sum b < nv, Sum c < nv, Sum d < nv,
     data g [k;no+b;no+c;no+d]%nat * data l2 [i;j;b;a] * data t3 [c;d;a;i;j;k]).

(** ** Proof machinery *)
Definition p_WT2 : poly := Eval vm_compute in
  [mkterm "abcijk" "l" (-1 # 4) [(3%N, "abil"); (1%N, "jklc")];
   mkterm "abcijk" "d" (-1 # 4) [(3%N, "adij"); (1%N, "kdbc")]].
Definition p_ET : poly := Eval vm_compute in
  [mkterm "" "ijklabc" (1 # 4) [(1%N, "lkcj"); (6%N, "ijba"); (4%N, "cbailk")];
   mkterm "" "ijkabcd" (1 # 4) [(1%N, "kbcd"); (6%N, "ijba"); (4%N, "cdaijk")]].

(** C17, spin-orbital half.  [build_T3] of pdagq_T3corr.py returns the antisymmetrised W T2 numerator;
    [build_approxT3] of cc_energy.py returns the numerator itself, occupied indices first, and
    [tamps.antisym_T3] of it is the same triples array. *)
Theorem C17_approximate_triples : forall no nv g t2 T2,
  is_tei (no + nv) g -> is_amp 2 no nv t2 -> swapped 2 t2 T2 ->
  exists T3 R U U' R',
    antisymmetrised 3 (W_T2 no nv g t2) T3 /\ antisymmetric 3 T3 /\
    returns 0 [] Code_pdagq_T3corr.build_T3 [VT g; o_ no; v_ no; VT t2] R /\ teq R T3 /\
    returns 0 [] Code_cc_energy.build_approxT3 [VT g; VT T2; o_ no; v_ no] U /\
    swapped 3 U' U /\ teq U' (W_T2 no nv g t2) /\
    returns 0 [] Code_tamps.antisym_T3 [VT U; VInt no; VInt nv] R' /\ swapped 3 R R'.
Proof.
  intros no nv g t2 T2 Hg Ht SW.
  set (tab := [(1%N, ([6;6;6;6]%N, g)); (3%N, ([1;1;0;0]%N, t2))] : atomtab).
  assert (OK : Forall (atom_ok (so_range no nv) sy) tab) by (unfold tab; oks).
  assert (VW : so_vsim no nv tab (SP (vo_ 3) p_WT2) (VT (W_T2 no nv g t2))).
  { unfold vo_, p_WT2, W_T2, tab. cbn [repeat app]. so_form. }
  so_asym OK Code_tamps.antisym_T3 asym3 3%nat VW T3 AT ANT V3.
  assert (V1 : Forall2 (so_vsim no nv tab) [xG; xo; xv; at_ 3 [1;1;0;0]%N] [VT g; o_ no; v_ no; VT t2]) by vsims.
  assert (V2 : Forall2 (so_vsim no nv tab) [xG; swp 3 2 [0;0;1;1]%N; xo; xv] [VT g; VT T2; o_ no; v_ no]) by vsims.
  so_nf OK 0%nat (@nil (string * fn)) Code_pdagq_T3corr.build_T3 (vo_ 3) V1 R HR VR.
  so_nf OK 0%nat (@nil (string * fn)) Code_cc_energy.build_approxT3 [0;0;0;1;1;1]%N V2 U HU VU.
  flip_ (so_vs_flip no nv tab) 3%nat VU U' SU VU'.
  pose proof (so_asym_vs_ov no nv tab _ _ _ VU) as V4.
  so_nf OK 0%nat (@nil (string * fn)) Code_tamps.antisym_T3 [0;0;0;1;1;1]%N V4 R' HR' VR'.
  flip_ (so_vs_flip no nv tab) 3%nat VR' R'' SR'' VR''.
  assert (E1 : teq R T3).
  { eapply (so_vs_eq no nv tab OK (vo_ 3)); [exact VR|exact V3|chk_]. }
  assert (E2 : teq U' (W_T2 no nv g t2)).
  { eapply (so_vs_eq no nv tab OK (vo_ 3)); [exact VU'|exact VW|chk_]. }
  assert (E3 : teq R'' R).
  { eapply (so_vs_eq no nv tab OK (vo_ 3)); [exact VR''|exact VR|chk_]. }
  exists T3, R, U, U', R'. repeat (split; [assumption|]).
  destruct E3 as [E3 E3'], SR'' as [Q1 Q2]. split; [rewrite Q1, E3; reflexivity|].
  intros l1 l2 HL Hi. rewrite Q2; [|exact HL|rewrite E3; exact Hi]. apply E3'. rewrite E3. exact Hi.
Qed.
Print Assumptions C17_approximate_triples.
Example C17_instance := C17_approximate_triples 2 2 (i_tei 4) (i_amp 2 2 2) _ (i_tei_ok 4) (i_amp_ok 2 2 2) (swap_t_ok 2 _).

(** C17, spin half.  The four spin blocks of build_approxT3full.py are the spin blocks of the
    antisymmetrised spin-orbital numerator. *)
Theorem C17_spin_triples :
  forall no nv S F G f_aa f_bb g_aaaa g_bbbb g_abab T2 t_aaaa t_bbbb t_abab,
  spin_ok no nv S -> spin_hamiltonian S no nv F G f_aa f_bb g_aaaa g_bbbb g_abab ->
  spin_amp S 2 no nv T2 -> blocks2 S no nv T2 t_aaaa t_bbbb t_abab ->
  let args := [VT t_aaaa; VT t_bbbb; VT t_abab; VT g_aaaa; VT g_bbbb; VT g_abab; o_ no; o_ no; v_ no; v_ no] in
  exists T3 r_aaa r_aab r_abb r_bbb,
    antisymmetrised 3 (W_T2 (2 * no) (2 * nv) G T2) T3 /\ antisymmetric 3 T3 /\
    returns 0 [] Code_build_approxT3full.ccsdtq_t3_aaaaaa_residual args r_aaa /\
    returns 0 [] Code_build_approxT3full.ccsdtq_t3_aabaab_residual args r_aab /\
    returns 0 [] Code_build_approxT3full.ccsdtq_t3_abbabb_residual args r_abb /\
    returns 0 [] Code_build_approxT3full.ccsdtq_t3_bbbbbb_residual args r_bbb /\
    blocks3 S no nv T3 r_aaa r_aab r_abb r_bbb.
Proof.
  intros no nv S F G f_aa f_bb g_aaaa g_bbbb g_abab T2 t_aaaa t_bbbb t_abab HS
    [HF [HFc [HG [HGc [B1 [B2 [B3 [B4 B5]]]]]]]] HT [C1 [C2 C3]] args.
  set (tab := [(1%N, ([6;6;6;6]%N, G)); (3%N, ([1;1;0;0]%N, T2))] : atomtab).
  assert (OK : Forall (atom_ok (sp_range no nv S) sy) tab) by (unfold tab; spoks).
  assert (CO : Forall (conserving no nv S) tab) by (unfold tab; spcons).
  assert (VB : Forall2 (sp_vsim no nv S tab)
     [xb 3 [Up;Up]; xb 3 [Dn;Dn]; xb 3 [Up;Dn]; xg_aaaa; xg_bbbb; xg_abab; xoa; xoa; xva; xva] args)
    by (unfold args; bsims HS).
  assert (VW : sp_vsim no nv S tab (SP (vo_ 3) p_WT2) (VT (W_T2 (2 * no) (2 * nv) G T2))).
  { unfold vo_, p_WT2, W_T2, tab. cbn [repeat app]. sp_form HS. }
  sp_asym HS OK Code_tamps.antisym_T3 asym3 3%nat VW T3 AT ANT V3.
  destruct (sp_vs_blk no nv S HS tab OK CO [Up;Up;Up] _ _ 0 [] Code_build_approxT3full.ccsdtq_t3_aaaaaa_residual _ _ V3 VB)
    as [r1 [H1 K1]]; [chk_|].
  destruct (sp_vs_blk no nv S HS tab OK CO [Up;Up;Dn] _ _ 0 [] Code_build_approxT3full.ccsdtq_t3_aabaab_residual _ _ V3 VB)
    as [r2 [H2 K2]]; [chk_|].
  destruct (sp_vs_blk no nv S HS tab OK CO [Up;Dn;Dn] _ _ 0 [] Code_build_approxT3full.ccsdtq_t3_abbabb_residual _ _ V3 VB)
    as [r3 [H3 K3]]; [chk_|].
  destruct (sp_vs_blk no nv S HS tab OK CO [Dn;Dn;Dn] _ _ 0 [] Code_build_approxT3full.ccsdtq_t3_bbbbbb_residual _ _ V3 VB)
    as [r4 [H4 K4]]; [chk_|].
  exists T3, r1, r2, r3, r4. unfold blocks3. repeat (split; [assumption|]). assumption.
Qed.
Print Assumptions C17_spin_triples.
Example C17_spin_instance := C17_spin_triples 2 2 S22 _ _ _ _ _ _ _ _ _ _ _
  S22_ok (s_ham_ok S22 2 2) (s_amp_ok S22 2 2 2) (blocks2_ok S22 2 2 _).

(** C17, the [T] energy: the value computed by [square_brakT] from spin blocks is the spin-orbital
    expression, which is also what [pdagq_T3energy] returns (whatever L1 it is given: its first term is
    overwritten by the second assignment). *)
Theorem C17_square_bracket_T :
  forall no nv S F G f_aa f_bb g_aaaa g_bbbb g_abab L2 l_aaaa l_bbbb l_abab T3 t_aaa t_aab t_abb t_bbb L1,
  spin_ok no nv S -> spin_hamiltonian S no nv F G f_aa f_bb g_aaaa g_bbbb g_abab ->
  spin_amp_ov S 2 no nv L2 -> blocks2_ov S no nv L2 l_aaaa l_bbbb l_abab ->
  spin_amp S 3 no nv T3 -> blocks3 S no nv T3 t_aaa t_aab t_abb t_bbb ->
  spin_amp_ov S 1 no nv L1 ->
  exists E E',
    returns 0 [] Code_square_brakT_corr.square_brakT
      [VT g_aaaa; VT g_abab; VT g_bbbb; o_ no; v_ no; VT l_aaaa; VT l_abab; VT l_bbbb;
       VT t_aaa; VT t_aab; VT t_abb; VT t_bbb] E /\
    returns 0 [] Code_pdagq_T3corr.pdagq_T3energy [VT G; o_ (2 * no); v_ (2 * no); VT L1; VT L2; VT T3] E' /\
    shape E = [] /\ data E [] = E_T (2 * no) (2 * nv) G L2 T3 /\
    shape E' = [] /\ data E' [] = E_T (2 * no) (2 * nv) G L2 T3.
Proof.
  intros no nv S F G f_aa f_bb g_aaaa g_bbbb g_abab L2 l_aaaa l_bbbb l_abab T3 t_aaa t_aab t_abb t_bbb L1 HS
    [HF [HFc [HG [HGc [B1 [B2 [B3 [B4 B5]]]]]]]] HL [C1 [C2 C3]] HT [D1 [D2 [D3 D4]]] HL1.
  set (tab := [(1%N, ([6;6;6;6]%N, G)); (6%N, ([0;0;1;1]%N, L2)); (4%N, ([1;1;1;0;0;0]%N, T3)); (7%N, ([0;1]%N, L1))] : atomtab).
  assert (OK : Forall (atom_ok (sp_range no nv S) sy) tab) by (unfold tab; spoks).
  assert (CO : Forall (conserving no nv S) tab) by (unfold tab; spcons).
  assert (VE : sp_vsim no nv S tab (SP [] p_ET) (VT (arr0 (E_T (2 * no) (2 * nv) G L2 T3)))).
  { unfold p_ET, E_T, tab. sp_form HS. }
  destruct (sp_reads no nv S HS tab 0 [] Code_square_brakT_corr.square_brakT
    [xg_aaaa; xg_abab; xg_bbbb; xoa; xva; xbo 6 [Up;Up]; xbo 6 [Up;Dn]; xbo 6 [Dn;Dn];
     xb 4 [Up;Up;Up]; xb 4 [Up;Up;Dn]; xb 4 [Up;Dn;Dn]; xb 4 [Dn;Dn;Dn]]
    [VT g_aaaa; VT g_abab; VT g_bbbb; o_ no; v_ no; VT l_aaaa; VT l_abab; VT l_bbbb;
     VT t_aaa; VT t_aab; VT t_abb; VT t_bbb] [] p_ET _ OK CO ltac:(bsims HS) VE) as [E [H1 [H2 H3]]]; [chk_|].
  destruct (sp_reads no nv S HS tab 0 [] Code_pdagq_T3corr.pdagq_T3energy
    [xG; xo; xv; at_ 7 [0;1]%N; at_ 6 [0;0;1;1]%N; at_ 4 [1;1;1;0;0;0]%N]
    [VT G; o_ (2 * no); v_ (2 * no); VT L1; VT L2; VT T3] [] p_ET _ OK CO ltac:(bsims HS) VE) as [E' [H1' [H2' H3']]]; [chk_|].
  cbn [shape arr0] in H2, H2'.
  exists E, E'. split; [exact H1|]. split; [exact H1'|].
  split; [exact H2|]. split; [apply H3; rewrite H2; constructor|].
  split; [exact H2'|]. apply H3'; rewrite H2'; constructor.
Qed.
Print Assumptions C17_square_bracket_T.
Example C17_T_instance := C17_square_bracket_T 2 2 S22 _ _ _ _ _ _ _ _ _ _ _ _ _ _ _ _ _
  S22_ok (s_ham_ok S22 2 2) (s_amp_ov_ok S22 2 2 2) (blocks2_ov_ok S22 2 2 _) (s_amp_ok S22 2 2 3) (blocks3_ok S22 2 2 _)
  (s_amp_ov_ok S22 2 2 1).
