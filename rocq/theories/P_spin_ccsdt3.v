(** C07: the spin-blocked CCSDT triples residual. *)
From Coq Require Import String Ascii List Arith NArith ZArith QArith Qcanon Bool Lia Permutation.
From Verif Require Import Sums Tensor Interp Poly SymExec Canon Spec Instances Setup Master Spin Check Tabs NF Unround Formula Bound BoundedInst P_spin_ccsdt.
From Verif Require Code_ccsdt_eqns Code_fullCCresidEqns.
Import ListNotations.
Open Scope string_scope.

(** Proof machinery: [sp_blk_close] from a normal form. *)
Theorem sp_vs_blk_close no nv S (HS : spin_ok no nv S) atoms (OK : Forall (atom_ok (sp_range no nv S) sy) atoms)
  (CO : Forall (conserving no nv S) atoms) N M (HN : (2 * no + 2 * nv <= N)%nat) (HN1 : (1 <= N)%nat) (HM : (1 <= M)%Qc)
  (HB : Forall (fun a : BinNums.N * (list space * tensor) => bounded M (snd (snd a))) atoms) c a b ss p R d l f ar v :
  sp_vsim no nv S atoms (SP (repeat 1%N (length ss) ++ repeat 0%N (length ss)) p) (VT R) ->
  Forall2 (sp_vsim no nv S atoms) ar v ->
  blkcchk ss c a b (Some (SP (repeat 1%N (length ss) ++ repeat 0%N (length ss)) p)) (srun sp_slm d l f ar) ->
  exists B B', returns d l f v B /\ block_amp S no nv ss R B' /\ close (Q2Qc c * qn N ^ a * M ^ b)%Qc B B'.
Proof.
  intros V VB HC. inversion V; subst.
  eapply (sp_blk_close no nv S HS atoms OK CO N M HN HN1 HM HB c a b ss (Some (SP _ p)) R); eassumption.
Qed.

Section Setup.
  Variables no nv : nat.
  Variable S : spinmap.
  Variables F G f_aa f_bb g_aaaa g_bbbb g_abab T1 T1w t_aa t_bb T2 T2w t_aaaa t_bbbb t_abab
         T3 T3w t_aaa t_aab t_abb t_bbb : tensor.
  Hypothesis HS : spin_ok no nv S.
  Hypothesis HH : spin_hamiltonian S no nv F G f_aa f_bb g_aaaa g_bbbb g_abab.
  Hypothesis HT1 : spin_amp S 1 no nv T1. Hypothesis HB1 : blocks1 S no nv T1 t_aa t_bb. Hypothesis W1 : swapped 1 T1 T1w.
  Hypothesis HT2 : spin_amp S 2 no nv T2. Hypothesis HB2 : blocks2 S no nv T2 t_aaaa t_bbbb t_abab. Hypothesis W2 : swapped 2 T2 T2w.
  Hypothesis HT3 : spin_amp S 3 no nv T3. Hypothesis HB3 : blocks3 S no nv T3 t_aaa t_aab t_abb t_bbb. Hypothesis W3 : swapped 3 T3 T3w.
  Definition sdt_tab : atomtab :=
    [(0%N, ([6;6]%N, F)); (1%N, ([6;6;6;6]%N, G)); (2%N, ([1;0]%N, T1)); (3%N, ([1;1;0;0]%N, T2)); (4%N, ([1;1;1;0;0;0]%N, T3))].
  Lemma sdt_ok : Forall (atom_ok (sp_range no nv S) sy) sdt_tab.
  Proof. destruct HH as [HF [HFc [HG [HGc _]]]]. unfold sdt_tab; spoks. Qed.
  Lemma sdt_cons : Forall (conserving no nv S) sdt_tab.
  Proof. destruct HH as [HF [HFc [HG [HGc _]]]]. unfold sdt_tab; spcons. Qed.
  Lemma sdt_vw : Forall2 (sp_vsim no nv S sdt_tab) xSDTw [VT F; VT G; VT T1w; VT T2w; VT T3w; o_ (2 * no); v_ (2 * no)].
  Proof. destruct HH as [HF [HFc [HG [HGc _]]]]. unfold xSDTw; bsims HS. Qed.
  Lemma sdt_vb : Forall2 (sp_vsim no nv S sdt_tab) xSDT
    [VT t_aa; VT t_bb; VT t_aaaa; VT t_bbbb; VT t_abab; VT t_aaa; VT t_aab; VT t_abb; VT t_bbb;
     VT f_aa; VT f_bb; VT g_aaaa; VT g_bbbb; VT g_abab; o_ no; o_ no; v_ no; v_ no].
  Proof.
    destruct HH as [HF [HFc [HG [HGc [B1 [B2 [B3 [B4 B5]]]]]]]], HB1 as [D1 D2], HB2 as [C1 [C2 C3]], HB3 as [E1 [E2 [E3 E4]]].
    unfold xSDT; bsims HS.
  Qed.
End Setup.

(** C07, first half.  With every coefficient literal read as the fraction it abbreviates ([unround_fn]),
    the four spin blocks of the spin-summed T3 residual are exactly the blocks of the spin-orbital one. *)
Theorem C07_spin_ccsdt_triples_unrounded :
  forall no nv S F G f_aa f_bb g_aaaa g_bbbb g_abab T1 T1w t_aa t_bb T2 T2w t_aaaa t_bbbb t_abab
         T3 T3w t_aaa t_aab t_abb t_bbb,
  spin_ok no nv S -> spin_hamiltonian S no nv F G f_aa f_bb g_aaaa g_bbbb g_abab ->
  spin_amp S 1 no nv T1 -> blocks1 S no nv T1 t_aa t_bb -> swapped 1 T1 T1w ->
  spin_amp S 2 no nv T2 -> blocks2 S no nv T2 t_aaaa t_bbbb t_abab -> swapped 2 T2 T2w ->
  spin_amp S 3 no nv T3 -> blocks3 S no nv T3 t_aaa t_aab t_abb t_bbb -> swapped 3 T3 T3w ->
  let wargs := [VT F; VT G; VT T1w; VT T2w; VT T3w; o_ (2 * no); v_ (2 * no)] in
  let args := [VT t_aa; VT t_bb; VT t_aaaa; VT t_bbbb; VT t_abab; VT t_aaa; VT t_aab; VT t_abb; VT t_bbb;
               VT f_aa; VT f_bb; VT g_aaaa; VT g_bbbb; VT g_abab; o_ no; o_ no; v_ no; v_ no] in
  exists R3w R3 r_aaa r_aab r_abb r_bbb,
    returns 1 lib_tamps (unround_fn Code_ccsdt_eqns.ccsdt_t3eqns) wargs R3w /\ swapped 3 R3 R3w /\
    returns 0 [] (unround_fn Code_fullCCresidEqns.ccsdt_t3_aaaaaa_residual) args r_aaa /\
    returns 0 [] (unround_fn Code_fullCCresidEqns.ccsdt_t3_aabaab_residual) args r_aab /\
    returns 0 [] (unround_fn Code_fullCCresidEqns.ccsdt_t3_abbabb_residual) args r_abb /\
    returns 0 [] (unround_fn Code_fullCCresidEqns.ccsdt_t3_bbbbbb_residual) args r_bbb /\
    blocks3 S no nv R3 r_aaa r_aab r_abb r_bbb.
Proof.
  intros no nv S F G f_aa f_bb g_aaaa g_bbbb g_abab T1 T1w t_aa t_bb T2 T2w t_aaaa t_bbbb t_abab
    T3 T3w t_aaa t_aab t_abb t_bbb HS HH HT1 HB1 W1 HT2 HB2 W2 HT3 HB3 W3 wargs args.
  assert (OK := sdt_ok no nv S _ _ _ _ _ _ _ _ _ _ HH HT1 HT2 HT3).
  assert (CO := sdt_cons no nv S _ _ _ _ _ _ _ _ _ _ HH HT1 HT2 HT3).
  assert (VW := sdt_vw no nv S _ _ _ _ _ _ _ _ _ _ _ _ _ HS HH HT1 W1 HT2 W2 HT3 W3). fold wargs in VW.
  assert (VB := sdt_vb no nv S _ _ _ _ _ _ _ _ _ _ _ _ _ _ _ _ _ _ _ HS HH HB1 HB2 HB3). fold args in VB.
  set (tab := sdt_tab F G T1 T2 T3) in *.
  sp_nf HS OK 1%nat lib_tamps (unround_fn Code_ccsdt_eqns.ccsdt_t3eqns) [0;0;0;1;1;1]%N VW R3w HR3 VR3.
  flip_ (sp_vs_flip no nv S tab) 3%nat VR3 R3 SW3 TR3.
  destruct (sp_vs_blk no nv S HS tab OK CO [Up;Up;Up] _ _ 0 [] (unround_fn Code_fullCCresidEqns.ccsdt_t3_aaaaaa_residual) _ _ TR3 VB)
    as [r1 [H1 K1]]; [chk_|].
  destruct (sp_vs_blk no nv S HS tab OK CO [Up;Up;Dn] _ _ 0 [] (unround_fn Code_fullCCresidEqns.ccsdt_t3_aabaab_residual) _ _ TR3 VB)
    as [r2 [H2 K2]]; [chk_|].
  destruct (sp_vs_blk no nv S HS tab OK CO [Up;Dn;Dn] _ _ 0 [] (unround_fn Code_fullCCresidEqns.ccsdt_t3_abbabb_residual) _ _ TR3 VB)
    as [r3 [H3 K3]]; [chk_|].
  destruct (sp_vs_blk no nv S HS tab OK CO [Dn;Dn;Dn] _ _ 0 [] (unround_fn Code_fullCCresidEqns.ccsdt_t3_bbbbbb_residual) _ _ TR3 VB)
    as [r4 [H4 K4]]; [chk_|].
  exists R3w, R3, r1, r2, r3, r4. unfold blocks3. repeat (split; [assumption|]). assumption.
Qed.
Print Assumptions C07_spin_ccsdt_triples_unrounded.
Example C07_unrounded_instance := C07_spin_ccsdt_triples_unrounded 2 2 S22 _ _ _ _ _ _ _ _ _ _ _ _ _ _ _ _ _ _ _ _ _ _
  S22_ok (s_ham_ok S22 2 2) (s_amp_ok S22 2 2 1) (blocks1_ok S22 2 2 _) (swap_t_ok 1 _)
  (s_amp_ok S22 2 2 2) (blocks2_ok S22 2 2 _) (swap_t_ok 2 _) (s_amp_ok S22 2 2 3) (blocks3_ok S22 2 2 _) (swap_t_ok 3 _).

(** C07, second half.  As printed, the blocks agree up to 5e-7 (2 no + 2 nv)^4 M^4 when no entry of the
    inputs exceeds M >= 1 in absolute value. *)
Theorem C07_spin_ccsdt_triples_bound :
  forall no nv S F G f_aa f_bb g_aaaa g_bbbb g_abab T1 T1w t_aa t_bb T2 T2w t_aaaa t_bbbb t_abab
         T3 T3w t_aaa t_aab t_abb t_bbb M,
  spin_ok no nv S -> spin_hamiltonian S no nv F G f_aa f_bb g_aaaa g_bbbb g_abab ->
  spin_amp S 1 no nv T1 -> blocks1 S no nv T1 t_aa t_bb -> swapped 1 T1 T1w ->
  spin_amp S 2 no nv T2 -> blocks2 S no nv T2 t_aaaa t_bbbb t_abab -> swapped 2 T2 T2w ->
  spin_amp S 3 no nv T3 -> blocks3 S no nv T3 t_aaa t_aab t_abb t_bbb -> swapped 3 T3 T3w ->
  (1 <= 2 * no + 2 * nv)%nat -> (1 <= M)%Qc ->
  bounded M F -> bounded M G -> bounded M T1 -> bounded M T2 -> bounded M T3 ->
  let wargs := [VT F; VT G; VT T1w; VT T2w; VT T3w; o_ (2 * no); v_ (2 * no)] in
  let args := [VT t_aa; VT t_bb; VT t_aaaa; VT t_bbbb; VT t_abab; VT t_aaa; VT t_aab; VT t_abb; VT t_bbb;
               VT f_aa; VT f_bb; VT g_aaaa; VT g_bbbb; VT g_abab; o_ no; o_ no; v_ no; v_ no] in
  let eps := (Q2Qc (1 # 2000000) * qn (2 * no + 2 * nv) ^ 4 * M ^ 4)%Qc in
  exists R3w R3 b_aaa b_aab b_abb b_bbb r_aaa r_aab r_abb r_bbb,
    returns 1 lib_tamps Code_ccsdt_eqns.ccsdt_t3eqns wargs R3w /\ swapped 3 R3 R3w /\
    blocks3 S no nv R3 b_aaa b_aab b_abb b_bbb /\
    returns 0 [] Code_fullCCresidEqns.ccsdt_t3_aaaaaa_residual args r_aaa /\ close eps r_aaa b_aaa /\
    returns 0 [] Code_fullCCresidEqns.ccsdt_t3_aabaab_residual args r_aab /\ close eps r_aab b_aab /\
    returns 0 [] Code_fullCCresidEqns.ccsdt_t3_abbabb_residual args r_abb /\ close eps r_abb b_abb /\
    returns 0 [] Code_fullCCresidEqns.ccsdt_t3_bbbbbb_residual args r_bbb /\ close eps r_bbb b_bbb.
Proof.
  intros no nv S F G f_aa f_bb g_aaaa g_bbbb g_abab T1 T1w t_aa t_bb T2 T2w t_aaaa t_bbbb t_abab
    T3 T3w t_aaa t_aab t_abb t_bbb M HS HH HT1 HB1 W1 HT2 HB2 W2 HT3 HB3 W3 HN1 HM M1 M2 M3 M4 M5 wargs args eps.
  assert (OK := sdt_ok no nv S _ _ _ _ _ _ _ _ _ _ HH HT1 HT2 HT3).
  assert (CO := sdt_cons no nv S _ _ _ _ _ _ _ _ _ _ HH HT1 HT2 HT3).
  assert (VW := sdt_vw no nv S _ _ _ _ _ _ _ _ _ _ _ _ _ HS HH HT1 W1 HT2 W2 HT3 W3). fold wargs in VW.
  assert (VB := sdt_vb no nv S _ _ _ _ _ _ _ _ _ _ _ _ _ _ _ _ _ _ _ HS HH HB1 HB2 HB3). fold args in VB.
  assert (HB : Forall (fun a : BinNums.N * (list space * tensor) => bounded M (snd (snd a))) (sdt_tab F G T1 T2 T3)).
  { unfold sdt_tab. repeat (constructor; [assumption|]). constructor. }
  set (tab := sdt_tab F G T1 T2 T3) in *.
  sp_nf HS OK 1%nat lib_tamps Code_ccsdt_eqns.ccsdt_t3eqns [0;0;0;1;1;1]%N VW R3w HR3 VR3.
  flip_ (sp_vs_flip no nv S tab) 3%nat VR3 R3 SW3 TR3.
  destruct (sp_vs_blk_close no nv S HS tab OK CO _ M (Nat.le_refl _) HN1 HM HB (1 # 2000000) 4 4 [Up;Up;Up] _ _ 0 []
    Code_fullCCresidEqns.ccsdt_t3_aaaaaa_residual _ _ TR3 VB) as [r1 [b1 [H1 [K1 L1]]]]; [cchk_|].
  destruct (sp_vs_blk_close no nv S HS tab OK CO _ M (Nat.le_refl _) HN1 HM HB (1 # 2000000) 4 4 [Up;Up;Dn] _ _ 0 []
    Code_fullCCresidEqns.ccsdt_t3_aabaab_residual _ _ TR3 VB) as [r2 [b2 [H2 [K2 L2]]]]; [cchk_|].
  destruct (sp_vs_blk_close no nv S HS tab OK CO _ M (Nat.le_refl _) HN1 HM HB (1 # 2000000) 4 4 [Up;Dn;Dn] _ _ 0 []
    Code_fullCCresidEqns.ccsdt_t3_abbabb_residual _ _ TR3 VB) as [r3 [b3 [H3 [K3 L3]]]]; [cchk_|].
  destruct (sp_vs_blk_close no nv S HS tab OK CO _ M (Nat.le_refl _) HN1 HM HB (1 # 2000000) 4 4 [Dn;Dn;Dn] _ _ 0 []
    Code_fullCCresidEqns.ccsdt_t3_bbbbbb_residual _ _ TR3 VB) as [r4 [b4 [H4 [K4 L4]]]]; [cchk_|].
  exists R3w, R3, b1, b2, b3, b4, r1, r2, r3, r4. unfold blocks3.
  do 2 (split; [assumption|]). split; [repeat (split; [assumption|]); assumption|].
  repeat (split; [assumption|]). assumption.
Qed.
Print Assumptions C07_spin_ccsdt_triples_bound.
(** The hypotheses are met by non-zero arrays, with some bound M. *)
Example C07_bound_instance : exists M, exists R3w,
  returns 1 lib_tamps Code_ccsdt_eqns.ccsdt_t3eqns
   [VT (s_fock S22 2 2); VT (s_tei S22 2 2); VT (swap_t 1 (s_amp S22 2 2 1)); VT (swap_t 2 (s_amp S22 2 2 2));
    VT (swap_t 3 (s_amp S22 2 2 3)); o_ 4; v_ 4] R3w /\ (1 <= M)%Qc.
Proof.
  destruct (bounded_all [s_fock S22 2 2; s_tei S22 2 2; s_amp S22 2 2 1; s_amp S22 2 2 2; s_amp S22 2 2 3]) as [M [H1 H2]].
  repeat match goal with H : Forall _ (_ :: _) |- _ => inversion H; subst; clear H end.
  destruct (C07_spin_ccsdt_triples_bound 2 2 S22 _ _ _ _ _ _ _ _ _ _ _ _ _ _ _ _ _ _ _ _ _ _ M
    S22_ok (s_ham_ok S22 2 2) (s_amp_ok S22 2 2 1) (blocks1_ok S22 2 2 _) (swap_t_ok 1 _)
    (s_amp_ok S22 2 2 2) (blocks2_ok S22 2 2 _) (swap_t_ok 2 _) (s_amp_ok S22 2 2 3) (blocks3_ok S22 2 2 _) (swap_t_ok 3 _)
    ltac:(cbn; lia) H1 ltac:(assumption) ltac:(assumption) ltac:(assumption) ltac:(assumption) ltac:(assumption))
    as [R [_ [_ [_ [_ [_ [_ [_ [_ [_ [H _]]]]]]]]]]].
  exists M, R. split; [exact H|exact H1].
Qed.
