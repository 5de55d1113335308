(** C08: the spin-blocked CCDQ residuals. *)
From Coq Require Import String Ascii List Arith NArith ZArith QArith Qcanon Bool Lia Permutation.
From Verif Require Import Sums Tensor Interp Poly SymExec Canon Spec Instances Setup Master Spin Check Tabs NF Unround Formula Bound BoundedInst P_spin_ccsdt P_spin_ccsdt3.
From Verif Require Code_ccdq_eqns Code_ccdq_resids.
Import ListNotations.
Open Scope string_scope.

(** Proof machinery: the symbolic inputs of the two sets of programs. *)
Definition xDQ : list sval :=
  [xb 3 [Up;Up]; xb 3 [Dn;Dn]; xb 3 [Up;Dn];
   xb 5 [Up;Up;Up;Up]; xb 5 [Up;Up;Up;Dn]; xb 5 [Up;Up;Dn;Dn]; xb 5 [Up;Dn;Dn;Dn]; xb 5 [Dn;Dn;Dn;Dn];
   xf_aa; xf_bb; xg_aaaa; xg_bbbb; xg_abab; xoa; xoa; xva; xva].
Definition xDQw : list sval := [xF; xG; swp 3 2 [0;0;1;1]%N; swp 5 4 [0;0;0;0;1;1;1;1]%N; xo; xv].

Section Setup.
  Variables no nv : nat.
  Variable S : spinmap.
  Variables F G f_aa f_bb g_aaaa g_bbbb g_abab T2 T2w t_aaaa t_bbbb t_abab T4 T4w q_aaaa q_aaab q_aabb q_abbb q_bbbb : tensor.
  Hypothesis HS : spin_ok no nv S.
  Hypothesis HH : spin_hamiltonian S no nv F G f_aa f_bb g_aaaa g_bbbb g_abab.
  Hypothesis HT2 : spin_amp S 2 no nv T2. Hypothesis HB2 : blocks2 S no nv T2 t_aaaa t_bbbb t_abab. Hypothesis W2 : swapped 2 T2 T2w.
  Hypothesis HT4 : spin_amp S 4 no nv T4. Hypothesis HB4 : blocks4 S no nv T4 q_aaaa q_aaab q_aabb q_abbb q_bbbb. Hypothesis W4 : swapped 4 T4 T4w.
  Definition dq_tab : atomtab :=
    [(0%N, ([6;6]%N, F)); (1%N, ([6;6;6;6]%N, G)); (3%N, ([1;1;0;0]%N, T2)); (5%N, ([1;1;1;1;0;0;0;0]%N, T4))].
  Lemma dq_ok : Forall (atom_ok (sp_range no nv S) sy) dq_tab.
  Proof. destruct HH as [HF [HFc [HG [HGc _]]]]. unfold dq_tab; spoks. Qed.
  Lemma dq_cons : Forall (conserving no nv S) dq_tab.
  Proof. destruct HH as [HF [HFc [HG [HGc _]]]]. unfold dq_tab; spcons. Qed.
  Lemma dq_vw : Forall2 (sp_vsim no nv S dq_tab) xDQw [VT F; VT G; VT T2w; VT T4w; o_ (2 * no); v_ (2 * no)].
  Proof. destruct HH as [HF [HFc [HG [HGc _]]]]. unfold xDQw; bsims HS. Qed.
  Lemma dq_vb : Forall2 (sp_vsim no nv S dq_tab) xDQ
    [VT t_aaaa; VT t_bbbb; VT t_abab; VT q_aaaa; VT q_aaab; VT q_aabb; VT q_abbb; VT q_bbbb;
     VT f_aa; VT f_bb; VT g_aaaa; VT g_bbbb; VT g_abab; o_ no; o_ no; v_ no; v_ no].
  Proof.
    destruct HH as [HF [HFc [HG [HGc [B1 [B2 [B3 [B4 B5]]]]]]]], HB2 as [C1 [C2 C3]], HB4 as [E1 [E2 [E3 [E4 E5]]]].
    unfold xDQ; bsims HS.
  Qed.
End Setup.

(** C08, doubles.  The three spin blocks of the CCDQ T2 residual are exactly the blocks of the spin-orbital one. *)
Theorem C08_spin_ccdq_doubles :
  forall no nv S F G f_aa f_bb g_aaaa g_bbbb g_abab T2 T2w t_aaaa t_bbbb t_abab T4 T4w q_aaaa q_aaab q_aabb q_abbb q_bbbb,
  spin_ok no nv S -> spin_hamiltonian S no nv F G f_aa f_bb g_aaaa g_bbbb g_abab ->
  spin_amp S 2 no nv T2 -> blocks2 S no nv T2 t_aaaa t_bbbb t_abab -> swapped 2 T2 T2w ->
  spin_amp S 4 no nv T4 -> blocks4 S no nv T4 q_aaaa q_aaab q_aabb q_abbb q_bbbb -> swapped 4 T4 T4w ->
  let wargs := [VT F; VT G; VT T2w; VT T4w; o_ (2 * no); v_ (2 * no)] in
  let args := [VT t_aaaa; VT t_bbbb; VT t_abab; VT q_aaaa; VT q_aaab; VT q_aabb; VT q_abbb; VT q_bbbb;
               VT f_aa; VT f_bb; VT g_aaaa; VT g_bbbb; VT g_abab; o_ no; o_ no; v_ no; v_ no] in
  exists Rw R r_aaaa r_bbbb r_abab,
    returns 1 lib_tamps Code_ccdq_eqns.ccdq_t2eqns wargs Rw /\ swapped 2 R Rw /\
    returns 0 [] Code_ccdq_resids.ccdq_t2_aaaa_residual args r_aaaa /\
    returns 0 [] Code_ccdq_resids.ccdq_t2_bbbb_residual args r_bbbb /\
    returns 0 [] Code_ccdq_resids.ccdq_t2_abab_residual args r_abab /\
    blocks2 S no nv R r_aaaa r_bbbb r_abab.
Proof.
  intros no nv S F G f_aa f_bb g_aaaa g_bbbb g_abab T2 T2w t_aaaa t_bbbb t_abab T4 T4w q_aaaa q_aaab q_aabb q_abbb q_bbbb HS HH HT2 HB2 W2 HT4 HB4 W4 wargs args.
  assert (OK := dq_ok no nv S _ _ _ _ _ _ _ _ _ HH HT2 HT4).
  assert (CO := dq_cons no nv S _ _ _ _ _ _ _ _ _ HH HT2 HT4).
  assert (VW := dq_vw no nv S _ _ _ _ _ _ _ _ _ _ _ HS HH HT2 W2 HT4 W4). fold wargs in VW.
  assert (VB := dq_vb no nv S _ _ _ _ _ _ _ _ _ _ _ _ _ _ _ _ _ HS HH HB2 HB4). fold args in VB.
  set (tab := dq_tab F G T2 T4) in *.
  sp_nf HS OK 1%nat lib_tamps Code_ccdq_eqns.ccdq_t2eqns [0;0;1;1]%N VW Rw HRw VRw.
  flip_ (sp_vs_flip no nv S tab) 2%nat VRw R SW TR.
  destruct (sp_vs_blk no nv S HS tab OK CO [Up;Up] _ _ 0 [] Code_ccdq_resids.ccdq_t2_aaaa_residual _ _ TR VB)
    as [r1 [H1 K1]]; [chk_|].
  destruct (sp_vs_blk no nv S HS tab OK CO [Dn;Dn] _ _ 0 [] Code_ccdq_resids.ccdq_t2_bbbb_residual _ _ TR VB)
    as [r2 [H2 K2]]; [chk_|].
  destruct (sp_vs_blk no nv S HS tab OK CO [Up;Dn] _ _ 0 [] Code_ccdq_resids.ccdq_t2_abab_residual _ _ TR VB)
    as [r3 [H3 K3]]; [chk_|].
  exists Rw, R, r1, r2, r3. unfold blocks2. repeat (split; [assumption|]). assumption.
Qed.
Print Assumptions C08_spin_ccdq_doubles.
Example C08_doubles_instance := C08_spin_ccdq_doubles 2 2 S22 _ _ _ _ _ _ _ _ _ _ _ _ _ _ _ _ _ _ _
  S22_ok (s_ham_ok S22 2 2) (s_amp_ok S22 2 2 2) (blocks2_ok S22 2 2 _) (swap_t_ok 2 _)
  (s_amp_ok S22 2 2 4) (blocks4_ok S22 2 2 _) (swap_t_ok 4 _).

(** C08, quadruples, first half.  With the literals read as the fractions they abbreviate ([unround_fn]),
    the five spin blocks of the CCDQ T4 residual are exactly the blocks of the spin-orbital one. *)
Theorem C08_spin_ccdq_quadruples_unrounded :
  forall no nv S F G f_aa f_bb g_aaaa g_bbbb g_abab T2 T2w t_aaaa t_bbbb t_abab T4 T4w q_aaaa q_aaab q_aabb q_abbb q_bbbb,
  spin_ok no nv S -> spin_hamiltonian S no nv F G f_aa f_bb g_aaaa g_bbbb g_abab ->
  spin_amp S 2 no nv T2 -> blocks2 S no nv T2 t_aaaa t_bbbb t_abab -> swapped 2 T2 T2w ->
  spin_amp S 4 no nv T4 -> blocks4 S no nv T4 q_aaaa q_aaab q_aabb q_abbb q_bbbb -> swapped 4 T4 T4w ->
  let wargs := [VT F; VT G; VT T2w; VT T4w; o_ (2 * no); v_ (2 * no)] in
  let args := [VT t_aaaa; VT t_bbbb; VT t_abab; VT q_aaaa; VT q_aaab; VT q_aabb; VT q_abbb; VT q_bbbb;
               VT f_aa; VT f_bb; VT g_aaaa; VT g_bbbb; VT g_abab; o_ no; o_ no; v_ no; v_ no] in
  exists Rw R r_aaaa r_aaab r_aabb r_abbb r_bbbb,
    returns 1 lib_tamps (unround_fn Code_ccdq_eqns.ccdq_t4eqns) wargs Rw /\ swapped 4 R Rw /\
    returns 0 [] (unround_fn Code_ccdq_resids.ccdq_t4_aaaaaaaa_residual) args r_aaaa /\
    returns 0 [] (unround_fn Code_ccdq_resids.ccdq_t4_aaabaaab_residual) args r_aaab /\
    returns 0 [] (unround_fn Code_ccdq_resids.ccdq_t4_aabbaabb_residual) args r_aabb /\
    returns 0 [] (unround_fn Code_ccdq_resids.ccdq_t4_abbbabbb_residual) args r_abbb /\
    returns 0 [] (unround_fn Code_ccdq_resids.ccdq_t4_bbbbbbbb_residual) args r_bbbb /\
    blocks4 S no nv R r_aaaa r_aaab r_aabb r_abbb r_bbbb.
Proof.
  intros no nv S F G f_aa f_bb g_aaaa g_bbbb g_abab T2 T2w t_aaaa t_bbbb t_abab T4 T4w q_aaaa q_aaab q_aabb q_abbb q_bbbb HS HH HT2 HB2 W2 HT4 HB4 W4 wargs args.
  assert (OK := dq_ok no nv S _ _ _ _ _ _ _ _ _ HH HT2 HT4).
  assert (CO := dq_cons no nv S _ _ _ _ _ _ _ _ _ HH HT2 HT4).
  assert (VW := dq_vw no nv S _ _ _ _ _ _ _ _ _ _ _ HS HH HT2 W2 HT4 W4). fold wargs in VW.
  assert (VB := dq_vb no nv S _ _ _ _ _ _ _ _ _ _ _ _ _ _ _ _ _ HS HH HB2 HB4). fold args in VB.
  set (tab := dq_tab F G T2 T4) in *.
  sp_nf HS OK 1%nat lib_tamps (unround_fn Code_ccdq_eqns.ccdq_t4eqns) [0;0;0;0;1;1;1;1]%N VW Rw HRw VRw.
  flip_ (sp_vs_flip no nv S tab) 4%nat VRw R SW TR.
  destruct (sp_vs_blk no nv S HS tab OK CO [Up;Up;Up;Up] _ _ 0 [] (unround_fn Code_ccdq_resids.ccdq_t4_aaaaaaaa_residual) _ _ TR VB)
    as [r1 [H1 K1]]; [chk_|].
  destruct (sp_vs_blk no nv S HS tab OK CO [Up;Up;Up;Dn] _ _ 0 [] (unround_fn Code_ccdq_resids.ccdq_t4_aaabaaab_residual) _ _ TR VB)
    as [r2 [H2 K2]]; [chk_|].
  destruct (sp_vs_blk no nv S HS tab OK CO [Up;Up;Dn;Dn] _ _ 0 [] (unround_fn Code_ccdq_resids.ccdq_t4_aabbaabb_residual) _ _ TR VB)
    as [r3 [H3 K3]]; [chk_|].
  destruct (sp_vs_blk no nv S HS tab OK CO [Up;Dn;Dn;Dn] _ _ 0 [] (unround_fn Code_ccdq_resids.ccdq_t4_abbbabbb_residual) _ _ TR VB)
    as [r4 [H4 K4]]; [chk_|].
  destruct (sp_vs_blk no nv S HS tab OK CO [Dn;Dn;Dn;Dn] _ _ 0 [] (unround_fn Code_ccdq_resids.ccdq_t4_bbbbbbbb_residual) _ _ TR VB)
    as [r5 [H5 K5]]; [chk_|].
  exists Rw, R, r1, r2, r3, r4, r5. unfold blocks4. repeat (split; [assumption|]). assumption.
Qed.
Print Assumptions C08_spin_ccdq_quadruples_unrounded.
Example C08_unrounded_instance := C08_spin_ccdq_quadruples_unrounded 2 2 S22 _ _ _ _ _ _ _ _ _ _ _ _ _ _ _ _ _ _ _
  S22_ok (s_ham_ok S22 2 2) (s_amp_ok S22 2 2 2) (blocks2_ok S22 2 2 _) (swap_t_ok 2 _)
  (s_amp_ok S22 2 2 4) (blocks4_ok S22 2 2 _) (swap_t_ok 4 _).

(** C08, quadruples, second half.  As printed, the blocks agree up to 5e-6 (2 no + 2 nv)^4 M^3 when no entry
    of the inputs exceeds M >= 1 in absolute value. *)
Theorem C08_spin_ccdq_quadruples_bound :
  forall no nv S F G f_aa f_bb g_aaaa g_bbbb g_abab T2 T2w t_aaaa t_bbbb t_abab T4 T4w q_aaaa q_aaab q_aabb q_abbb q_bbbb M,
  spin_ok no nv S -> spin_hamiltonian S no nv F G f_aa f_bb g_aaaa g_bbbb g_abab ->
  spin_amp S 2 no nv T2 -> blocks2 S no nv T2 t_aaaa t_bbbb t_abab -> swapped 2 T2 T2w ->
  spin_amp S 4 no nv T4 -> blocks4 S no nv T4 q_aaaa q_aaab q_aabb q_abbb q_bbbb -> swapped 4 T4 T4w ->
  (1 <= 2 * no + 2 * nv)%nat -> (1 <= M)%Qc -> bounded M F -> bounded M G -> bounded M T2 -> bounded M T4 ->
  let wargs := [VT F; VT G; VT T2w; VT T4w; o_ (2 * no); v_ (2 * no)] in
  let args := [VT t_aaaa; VT t_bbbb; VT t_abab; VT q_aaaa; VT q_aaab; VT q_aabb; VT q_abbb; VT q_bbbb;
               VT f_aa; VT f_bb; VT g_aaaa; VT g_bbbb; VT g_abab; o_ no; o_ no; v_ no; v_ no] in
  let eps := (Q2Qc (1 # 200000) * qn (2 * no + 2 * nv) ^ 4 * M ^ 3)%Qc in
  exists Rw R r_aaaa r_aaab r_aabb r_abbb r_bbbb b_aaaa b_aaab b_aabb b_abbb b_bbbb,
    returns 1 lib_tamps Code_ccdq_eqns.ccdq_t4eqns wargs Rw /\ swapped 4 R Rw /\
    blocks4 S no nv R b_aaaa b_aaab b_aabb b_abbb b_bbbb /\
    returns 0 [] Code_ccdq_resids.ccdq_t4_aaaaaaaa_residual args r_aaaa /\ close eps r_aaaa b_aaaa /\
    returns 0 [] Code_ccdq_resids.ccdq_t4_aaabaaab_residual args r_aaab /\ close eps r_aaab b_aaab /\
    returns 0 [] Code_ccdq_resids.ccdq_t4_aabbaabb_residual args r_aabb /\ close eps r_aabb b_aabb /\
    returns 0 [] Code_ccdq_resids.ccdq_t4_abbbabbb_residual args r_abbb /\ close eps r_abbb b_abbb /\
    returns 0 [] Code_ccdq_resids.ccdq_t4_bbbbbbbb_residual args r_bbbb /\ close eps r_bbbb b_bbbb.
Proof.
  intros no nv S F G f_aa f_bb g_aaaa g_bbbb g_abab T2 T2w t_aaaa t_bbbb t_abab T4 T4w q_aaaa q_aaab q_aabb q_abbb q_bbbb M HS HH HT2 HB2 W2 HT4 HB4 W4 HN1 HM M1 M2 M3 M4 wargs args eps.
  assert (OK := dq_ok no nv S _ _ _ _ _ _ _ _ _ HH HT2 HT4).
  assert (CO := dq_cons no nv S _ _ _ _ _ _ _ _ _ HH HT2 HT4).
  assert (VW := dq_vw no nv S _ _ _ _ _ _ _ _ _ _ _ HS HH HT2 W2 HT4 W4). fold wargs in VW.
  assert (VB := dq_vb no nv S _ _ _ _ _ _ _ _ _ _ _ _ _ _ _ _ _ HS HH HB2 HB4). fold args in VB.
  assert (HB : Forall (fun a : BinNums.N * (list space * tensor) => bounded M (snd (snd a))) (dq_tab F G T2 T4)).
  { unfold dq_tab. repeat (constructor; [assumption|]). constructor. }
  set (tab := dq_tab F G T2 T4) in *.
  sp_nf HS OK 1%nat lib_tamps Code_ccdq_eqns.ccdq_t4eqns [0;0;0;0;1;1;1;1]%N VW Rw HRw VRw.
  flip_ (sp_vs_flip no nv S tab) 4%nat VRw R SW TR.
  destruct (sp_vs_blk_close no nv S HS tab OK CO _ M (Nat.le_refl _) HN1 HM HB (1 # 200000) 4 3 [Up;Up;Up;Up] _ _ 0 []
    Code_ccdq_resids.ccdq_t4_aaaaaaaa_residual _ _ TR VB) as [r1 [b1 [H1 [K1 L1]]]]; [cchk_|].
  destruct (sp_vs_blk_close no nv S HS tab OK CO _ M (Nat.le_refl _) HN1 HM HB (1 # 200000) 4 3 [Up;Up;Up;Dn] _ _ 0 []
    Code_ccdq_resids.ccdq_t4_aaabaaab_residual _ _ TR VB) as [r2 [b2 [H2 [K2 L2]]]]; [cchk_|].
  destruct (sp_vs_blk_close no nv S HS tab OK CO _ M (Nat.le_refl _) HN1 HM HB (1 # 200000) 4 3 [Up;Up;Dn;Dn] _ _ 0 []
    Code_ccdq_resids.ccdq_t4_aabbaabb_residual _ _ TR VB) as [r3 [b3 [H3 [K3 L3]]]]; [cchk_|].
  destruct (sp_vs_blk_close no nv S HS tab OK CO _ M (Nat.le_refl _) HN1 HM HB (1 # 200000) 4 3 [Up;Dn;Dn;Dn] _ _ 0 []
    Code_ccdq_resids.ccdq_t4_abbbabbb_residual _ _ TR VB) as [r4 [b4 [H4 [K4 L4]]]]; [cchk_|].
  destruct (sp_vs_blk_close no nv S HS tab OK CO _ M (Nat.le_refl _) HN1 HM HB (1 # 200000) 4 3 [Dn;Dn;Dn;Dn] _ _ 0 []
    Code_ccdq_resids.ccdq_t4_bbbbbbbb_residual _ _ TR VB) as [r5 [b5 [H5 [K5 L5]]]]; [cchk_|].
  exists Rw, R, r1, r2, r3, r4, r5, b1, b2, b3, b4, b5. unfold blocks4.
  do 2 (split; [assumption|]). split; [repeat (split; [assumption|]); assumption|].
  repeat (split; [assumption|]). assumption.
Qed.
Print Assumptions C08_spin_ccdq_quadruples_bound.
(** The hypotheses are met by non-zero arrays, with some bound M. *)
Example C08_bound_instance : exists M, exists Rw,
  returns 1 lib_tamps Code_ccdq_eqns.ccdq_t4eqns
   [VT (s_fock S22 2 2); VT (s_tei S22 2 2); VT (swap_t 2 (s_amp S22 2 2 2));
    VT (swap_t 4 (s_amp S22 2 2 4)); o_ 4; v_ 4] Rw /\ (1 <= M)%Qc.
Proof.
  destruct (bounded_all [s_fock S22 2 2; s_tei S22 2 2; s_amp S22 2 2 2; s_amp S22 2 2 4]) as [M [H1 H2]].
  repeat match goal with H : Forall _ (_ :: _) |- _ => inversion H; subst; clear H end.
  destruct (C08_spin_ccdq_quadruples_bound 2 2 S22 _ _ _ _ _ _ _ _ _ _ _ _ _ _ _ _ _ _ _ M
    S22_ok (s_ham_ok S22 2 2) (s_amp_ok S22 2 2 2) (blocks2_ok S22 2 2 _) (swap_t_ok 2 _)
    (s_amp_ok S22 2 2 4) (blocks4_ok S22 2 2 _) (swap_t_ok 4 _)
    ltac:(cbn; lia) H1 ltac:(assumption) ltac:(assumption) ltac:(assumption) ltac:(assumption))
    as [R [_ [_ [_ [_ [_ [_ [_ [_ [_ [_ [_ [H _]]]]]]]]]]]]].
  exists M, R. split; [exact H|exact H1].
Qed.
