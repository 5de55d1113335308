(** C62: the spin-integrated CCD, CCSDT and CCDQ routines compute matrix elements of exp(-T) H exp(T) |Phi>, block by block. *)
From Coq Require Import String List Arith NArith ZArith QArith Qcanon Bool Lia.
From Verif Require Import Sums Tensor Interp Spec Instances Master Tabs Unround Fock CCState P_fock P_fock2 P_flip P_spin_ccd P_spin_ccsdt P_spin_ccsdt3 P_spin_ccdq P_spin_energy P_ccd P_ccsd.
From Verif Require Code_t2residEqns Code_t2energy Code_fullCCresidEqns Code_ccdq_resids Code_ccsdt_eqns Code_ccdq_eqns.
Import ListNotations.
Open Scope Qc_scope.

(** Arrays of matrix elements between a state and the excited determinants, virtual indices first. *)
Definition elem1 (no nv : nat) (psi : ket) : tensor :=
  mkT [nv; no] (fun l => match l with [a; i] => bra1 no nv a i psi | _ => 0 end).
Definition elem3 (no nv : nat) (psi : ket) : tensor :=
  mkT [nv; nv; nv; no; no; no] (fun l => match l with [a; b; c; i; j; k] => bra3 no nv a b c i j k psi | _ => 0 end).
Definition elem4 (no nv : nat) (psi : ket) : tensor :=
  mkT [nv; nv; nv; nv; no; no; no; no] (fun l => match l with [a; b; c; d; i; j; k; l'] => bra4 no nv a b c d i j k l' psi | _ => 0 end).

Ltac idx_ H := cbn [shape app] in H; repeat match goal with K : inr _ (_ :: _) |- _ => inversion K; subst; clear K | K : Forall2 _ _ (_ :: _) |- _ => inversion K; subst; clear K | K : Forall2 _ _ [] |- _ => inversion K; subst; clear K | K : inr _ [] |- _ => inversion K; subst; clear K end.
Lemma teq_ent1 no nv psi Rw R : shape Rw = [no; nv] -> swapped 1 R Rw -> (forall a i, (a < nv)%nat -> (i < no)%nat -> data Rw [i; a] = bra1 no nv a i psi) -> teq R (elem1 no nv psi).
Proof.
  intros S Sw D. pose proof (swapped_shape 1 no nv R Rw Sw S) as SR. split; [exact SR|]. intros idx HI. rewrite SR in HI. cbn [repeat] in HI. idx_ HI.
  match goal with |- data R [?a; ?i] = _ => pose proof (proj2 Sw [a] [i] eq_refl ltac:(rewrite SR; repeat constructor; assumption)) as E end.
  cbn [app] in E. rewrite <- E, D by assumption. reflexivity.
Qed.
Lemma teq_ent2 no nv psi Rw R : shape Rw = [no; no; nv; nv] -> swapped 2 R Rw ->
  (forall a b i j, (a < nv)%nat -> (b < nv)%nat -> (i < no)%nat -> (j < no)%nat -> data Rw [i; j; a; b] = bra2 no nv a b i j psi) -> teq R (elem2 no nv psi).
Proof.
  intros S Sw D. pose proof (swapped_shape 2 no nv R Rw Sw S) as SR. split; [exact SR|]. intros idx HI. rewrite SR in HI. cbn [repeat] in HI. idx_ HI.
  match goal with |- data R [?a; ?b; ?i; ?j] = _ => pose proof (proj2 Sw [a; b] [i; j] eq_refl ltac:(rewrite SR; repeat constructor; assumption)) as E end.
  cbn [app] in E. rewrite <- E, D by assumption. reflexivity.
Qed.
Lemma teq_ent3 no nv psi Rw R : shape Rw = [no; no; no; nv; nv; nv] -> swapped 3 R Rw ->
  (forall a b c i j k, (a < nv)%nat -> (b < nv)%nat -> (c < nv)%nat -> (i < no)%nat -> (j < no)%nat -> (k < no)%nat -> data Rw [i; j; k; a; b; c] = bra3 no nv a b c i j k psi) -> teq R (elem3 no nv psi).
Proof.
  intros S Sw D. pose proof (swapped_shape 3 no nv R Rw Sw S) as SR. split; [exact SR|]. intros idx HI. rewrite SR in HI. cbn [repeat] in HI. idx_ HI.
  match goal with |- data R [?a; ?b; ?c; ?i; ?j; ?k] = _ => pose proof (proj2 Sw [a; b; c] [i; j; k] eq_refl ltac:(rewrite SR; repeat constructor; assumption)) as E end.
  cbn [app] in E. rewrite <- E, D by assumption. reflexivity.
Qed.
Lemma teq_ent4 no nv psi Rw R : shape Rw = [no; no; no; no; nv; nv; nv; nv] -> swapped 4 R Rw ->
  (forall a b c d i j k l, (a < nv)%nat -> (b < nv)%nat -> (c < nv)%nat -> (d < nv)%nat -> (i < no)%nat -> (j < no)%nat -> (k < no)%nat -> (l < no)%nat ->
    data Rw [i; j; k; l; a; b; c; d] = bra4 no nv a b c d i j k l psi) -> teq R (elem4 no nv psi).
Proof.
  intros S Sw D. pose proof (swapped_shape 4 no nv R Rw Sw S) as SR. split; [exact SR|]. intros idx HI. rewrite SR in HI. cbn [repeat] in HI. idx_ HI.
  match goal with |- data R [?a; ?b; ?c; ?d; ?i; ?j; ?k; ?l] = _ => pose proof (proj2 Sw [a; b; c; d] [i; j; k; l] eq_refl ltac:(rewrite SR; repeat constructor; assumption)) as E end.
  cbn [app] in E. rewrite <- E, D by assumption. reflexivity.
Qed.
Section Blk.
  Variables (no nv : nat) (S : spinmap).
  Hypothesis HS : spin_ok no nv S.
  Lemma blk1 R E a b : teq R E -> shape R = [2 * nv; 2 * no]%nat -> blocks1 S no nv R a b -> blocks1 S no nv E a b.
  Proof. intros HE Sh [A B]. split; (eapply block_teq; [exact HS| |exact HE|eassumption]; exact Sh). Qed.
  Lemma blk2 R E a b c : teq R E -> shape R = [2 * nv; 2 * nv; 2 * no; 2 * no]%nat -> blocks2 S no nv R a b c -> blocks2 S no nv E a b c.
  Proof. intros HE Sh [A [B C]]. repeat split; (eapply block_teq; [exact HS| |exact HE|eassumption]; exact Sh). Qed.
  Lemma blk3 R E a b c d : teq R E -> shape R = [2 * nv; 2 * nv; 2 * nv; 2 * no; 2 * no; 2 * no]%nat -> blocks3 S no nv R a b c d -> blocks3 S no nv E a b c d.
  Proof. intros HE Sh [A [B [C D]]]. repeat split; (eapply block_teq; [exact HS| |exact HE|eassumption]; exact Sh). Qed.
  Lemma blk4 R E a b c d e : teq R E -> shape R = [2 * nv; 2 * nv; 2 * nv; 2 * nv; 2 * no; 2 * no; 2 * no; 2 * no]%nat -> blocks4 S no nv R a b c d e -> blocks4 S no nv E a b c d e.
  Proof. intros HE Sh [A [B [C [D F]]]]. repeat split; (eapply block_teq; [exact HS| |exact HE|eassumption]; exact Sh). Qed.
End Blk.

(** C62, CCD. *)
Theorem C62_spin_ccd_equations : forall no nv S F G f_aa f_bb g_aaaa g_bbbb g_abab T2 t_aaaa t_bbbb t_abab,
  spin_ok no nv S -> spin_hamiltonian S no nv F G f_aa f_bb g_aaaa g_bbbb g_abab ->
  spin_amp S 2 no nv T2 -> blocks2 S no nv T2 t_aaaa t_bbbb t_abab ->
  let args := [VT t_aaaa; VT t_bbbb; VT t_abab; VT f_aa; VT f_bb; VT g_aaaa; VT g_bbbb; VT g_abab; o_ no; o_ no; v_ no; v_ no] in
  exists R_aaaa R_bbbb R_abab E,
    returns 0 [] Code_t2residEqns.ccd_t2_aaaa_residual (args ++ [VNone]) R_aaaa /\
    returns 0 [] Code_t2residEqns.ccd_t2_bbbb_residual (args ++ [VNone]) R_bbbb /\
    returns 0 [] Code_t2residEqns.ccd_t2_abab_residual (args ++ [VNone]) R_abab /\
    returns 0 [] Code_t2energy.ccd_energy_with_spin args E /\
    forall K, (2 <= K)%nat -> let psi := cc_state K (2 * no) (2 * nv) F G (T2op (2 * no) (2 * nv) T2) in
      data E [] = bra0 (2 * no) (2 * nv) psi /\ blocks2 S no nv (elem2 (2 * no) (2 * nv) psi) R_aaaa R_bbbb R_abab.
Proof.
  intros no nv S F G f_aa f_bb g_aaaa g_bbbb g_abab T2 t_aaaa t_bbbb t_abab HS HH HT HB args.
  destruct (C04_spin_ccd_residual no nv S F G _ _ _ _ _ T2 _ _ _ HS HH HT HB) as [R [ra [rb [rc [H0 [H1 [H2 [H3 B]]]]]]]].
  destruct (C05_spin_ccd_energy no nv S F G _ _ _ _ _ T2 _ _ _ HS HH HT HB) as [E0 [E [H4 [H5 [_ [_ H6]]]]]].
  exists ra, rb, rc, E. repeat (split; [assumption|]). intros K HK psi.
  destruct HH as [HF [_ [HG _]]]. destruct (C42_ccd_equations (2 * no) (2 * nv) F G T2 HF HG (proj1 HT)) as [R' [E0' [K0 [K1 [SR [_ D]]]]]].
  rewrite (ret_unique _ _ _ _ _ _ K0 H0) in *. rewrite (ret_unique _ _ _ _ _ _ K1 H4) in *. destruct (D K HK) as [D0 D2]. fold psi in D0, D2.
  split; [rewrite H6; exact D0|]. eapply blk2; [exact HS| |exact SR|exact B]. split; [exact SR|].
  intros idx HI. rewrite SR in HI. idx_ HI. rewrite D2 by assumption. reflexivity.
Qed.
Print Assumptions C62_spin_ccd_equations.
Example C62_spin_ccd_instance := C62_spin_ccd_equations 2 2 S22 _ _ _ _ _ _ _ _ _ _ _
  S22_ok (s_ham_ok S22 2 2) (s_amp_ok S22 2 2 2) (blocks2_ok S22 2 2 _).

(** C62, CCSDT: singles and doubles as coded, triples with the printed decimals read as fractions (C07 and C61 bound the difference). *)
Theorem C62_spin_ccsdt_equations :
  forall no nv S F G f_aa f_bb g_aaaa g_bbbb g_abab T1 t_aa t_bb T2 t_aaaa t_bbbb t_abab T3 t_aaa t_aab t_abb t_bbb,
  spin_ok no nv S -> spin_hamiltonian S no nv F G f_aa f_bb g_aaaa g_bbbb g_abab ->
  spin_amp S 1 no nv T1 -> blocks1 S no nv T1 t_aa t_bb ->
  spin_amp S 2 no nv T2 -> blocks2 S no nv T2 t_aaaa t_bbbb t_abab ->
  spin_amp S 3 no nv T3 -> blocks3 S no nv T3 t_aaa t_aab t_abb t_bbb ->
  let args := [VT t_aa; VT t_bb; VT t_aaaa; VT t_bbbb; VT t_abab; VT t_aaa; VT t_aab; VT t_abb; VT t_bbb;
               VT f_aa; VT f_bb; VT g_aaaa; VT g_bbbb; VT g_abab; o_ no; o_ no; v_ no; v_ no] in
  exists r_aa r_bb r_aaaa r_bbbb r_abab r_aaa r_aab r_abb r_bbb,
    returns 0 [] Code_fullCCresidEqns.ccsdt_t1_aa_residual args r_aa /\
    returns 0 [] Code_fullCCresidEqns.ccsdt_t1_bb_residual args r_bb /\
    returns 0 [] Code_fullCCresidEqns.ccsdt_t2_aaaa_residual args r_aaaa /\
    returns 0 [] Code_fullCCresidEqns.ccsdt_t2_bbbb_residual args r_bbbb /\
    returns 0 [] Code_fullCCresidEqns.ccsdt_t2_abab_residual args r_abab /\
    returns 0 [] (unround_fn Code_fullCCresidEqns.ccsdt_t3_aaaaaa_residual) args r_aaa /\
    returns 0 [] (unround_fn Code_fullCCresidEqns.ccsdt_t3_aabaab_residual) args r_aab /\
    returns 0 [] (unround_fn Code_fullCCresidEqns.ccsdt_t3_abbabb_residual) args r_abb /\
    returns 0 [] (unround_fn Code_fullCCresidEqns.ccsdt_t3_bbbbbb_residual) args r_bbb /\
    forall K, (8 <= K)%nat ->
      let psi := cc_state K (2 * no) (2 * nv) F G (oplus (oplus (T1op (2 * no) (2 * nv) T1) (T2op (2 * no) (2 * nv) T2)) (T3op (2 * no) (2 * nv) T3)) in
      blocks1 S no nv (elem1 (2 * no) (2 * nv) psi) r_aa r_bb /\
      blocks2 S no nv (elem2 (2 * no) (2 * nv) psi) r_aaaa r_bbbb r_abab /\
      blocks3 S no nv (elem3 (2 * no) (2 * nv) psi) r_aaa r_aab r_abb r_bbb.
Proof.
  intros no nv S F G f_aa f_bb g_aaaa g_bbbb g_abab T1 t_aa t_bb T2 t_aaaa t_bbbb t_abab T3 t_aaa t_aab t_abb t_bbb HS HH H1 B1 H2 B2 H3 B3 args.
  pose proof (swap_t_ok 1 T1) as W1. pose proof (swap_t_ok 2 T2) as W2. pose proof (swap_t_ok 3 T3) as W3.
  destruct (C06_spin_ccsdt_singles_doubles no nv S F G _ _ _ _ _ T1 _ _ _ T2 _ _ _ _ T3 _ _ _ _ _ HS HH H1 B1 W1 H2 B2 W2 H3 B3 W3)
    as [R1w [R1 [ra [rb [R2w [R2 [rc [rd [re [G1 [V1 [K1 [K2 [Z1 [G2 [V2 [K3 [K4 [K5 Z2]]]]]]]]]]]]]]]]]]].
  destruct (C07_spin_ccsdt_triples_unrounded no nv S F G _ _ _ _ _ T1 _ _ _ T2 _ _ _ _ T3 _ _ _ _ _ HS HH H1 B1 W1 H2 B2 W2 H3 B3 W3)
    as [R3w [R3 [rf [rg [rh [ri [G3 [V3 [K6 [K7 [K8 [K9 Z3]]]]]]]]]]]].
  exists ra, rb, rc, rd, re, rf, rg, rh, ri. repeat (split; [assumption|]). intros K HK psi.
  pose proof HH as [HF [_ [HG _]]].
  destruct (C61_ccsdt_equations (2 * no) (2 * nv) F G T1 T2 T3 _ _ _ HF HG (proj1 H1) (proj1 H2) (proj1 H3) W1 W2 W3) as [Q1 [Q2 [Q3 [E [X1 [X2 [X3 [_ [SQ1 [SQ2 [SQ3 [_ D]]]]]]]]]]]].
  rewrite (ret_unique _ _ _ _ _ _ X1 G1) in *. rewrite (ret_unique _ _ _ _ _ _ X2 G2) in *. rewrite (ret_unique _ _ _ _ _ _ X3 G3) in *.
  destruct (D K HK) as [_ [D1 [D2 D3]]]. fold psi in D1, D2, D3.
  split; [|split].
  - eapply blk1; [exact HS|eapply teq_ent1; eassumption|exact (swapped_shape 1 (2 * no) (2 * nv) _ _ V1 SQ1)|exact Z1].
  - eapply blk2; [exact HS|eapply teq_ent2; eassumption|exact (swapped_shape 2 (2 * no) (2 * nv) _ _ V2 SQ2)|exact Z2].
  - eapply blk3; [exact HS|eapply teq_ent3; eassumption|exact (swapped_shape 3 (2 * no) (2 * nv) _ _ V3 SQ3)|exact Z3].
Qed.
Print Assumptions C62_spin_ccsdt_equations.
Example C62_spin_ccsdt_instance := C62_spin_ccsdt_equations 2 2 S22 _ _ _ _ _ _ _ _ _ _ _ _ _ _ _ _ _ _ _
  S22_ok (s_ham_ok S22 2 2) (s_amp_ok S22 2 2 1) (blocks1_ok S22 2 2 _) (s_amp_ok S22 2 2 2) (blocks2_ok S22 2 2 _) (s_amp_ok S22 2 2 3) (blocks3_ok S22 2 2 _).

(** C62, CCDQ. *)
Theorem C62_spin_ccdq_equations :
  forall no nv S F G f_aa f_bb g_aaaa g_bbbb g_abab T2 t_aaaa t_bbbb t_abab T4 q_aaaa q_aaab q_aabb q_abbb q_bbbb,
  spin_ok no nv S -> spin_hamiltonian S no nv F G f_aa f_bb g_aaaa g_bbbb g_abab ->
  spin_amp S 2 no nv T2 -> blocks2 S no nv T2 t_aaaa t_bbbb t_abab ->
  spin_amp S 4 no nv T4 -> blocks4 S no nv T4 q_aaaa q_aaab q_aabb q_abbb q_bbbb ->
  let args := [VT t_aaaa; VT t_bbbb; VT t_abab; VT q_aaaa; VT q_aaab; VT q_aabb; VT q_abbb; VT q_bbbb;
               VT f_aa; VT f_bb; VT g_aaaa; VT g_bbbb; VT g_abab; o_ no; o_ no; v_ no; v_ no] in
  exists r_aaaa r_bbbb r_abab s_aaaa s_aaab s_aabb s_abbb s_bbbb,
    returns 0 [] Code_ccdq_resids.ccdq_t2_aaaa_residual args r_aaaa /\
    returns 0 [] Code_ccdq_resids.ccdq_t2_bbbb_residual args r_bbbb /\
    returns 0 [] Code_ccdq_resids.ccdq_t2_abab_residual args r_abab /\
    returns 0 [] (unround_fn Code_ccdq_resids.ccdq_t4_aaaaaaaa_residual) args s_aaaa /\
    returns 0 [] (unround_fn Code_ccdq_resids.ccdq_t4_aaabaaab_residual) args s_aaab /\
    returns 0 [] (unround_fn Code_ccdq_resids.ccdq_t4_aabbaabb_residual) args s_aabb /\
    returns 0 [] (unround_fn Code_ccdq_resids.ccdq_t4_abbbabbb_residual) args s_abbb /\
    returns 0 [] (unround_fn Code_ccdq_resids.ccdq_t4_bbbbbbbb_residual) args s_bbbb /\
    forall K, (9 <= K)%nat ->
      let psi := cc_state K (2 * no) (2 * nv) F G (oplus (T2op (2 * no) (2 * nv) T2) (T4op (2 * no) (2 * nv) T4)) in
      blocks2 S no nv (elem2 (2 * no) (2 * nv) psi) r_aaaa r_bbbb r_abab /\
      blocks4 S no nv (elem4 (2 * no) (2 * nv) psi) s_aaaa s_aaab s_aabb s_abbb s_bbbb.
Proof.
  intros no nv S F G f_aa f_bb g_aaaa g_bbbb g_abab T2 t_aaaa t_bbbb t_abab T4 q_aaaa q_aaab q_aabb q_abbb q_bbbb HS HH H2 B2 H4 B4 args.
  pose proof (swap_t_ok 2 T2) as W2. pose proof (swap_t_ok 4 T4) as W4.
  destruct (C08_spin_ccdq_doubles no nv S F G _ _ _ _ _ T2 _ _ _ _ T4 _ _ _ _ _ _ HS HH H2 B2 W2 H4 B4 W4) as [R2w [R2 [ra [rb [rc [G2 [V2 [K1 [K2 [K3 Z2]]]]]]]]]].
  destruct (C08_spin_ccdq_quadruples_unrounded no nv S F G _ _ _ _ _ T2 _ _ _ _ T4 _ _ _ _ _ _ HS HH H2 B2 W2 H4 B4 W4)
    as [R4w [R4 [rd [re [rf [rg [rh [G4 [V4 [K4 [K5 [K6 [K7 [K8 Z4]]]]]]]]]]]]]].
  exists ra, rb, rc, rd, re, rf, rg, rh. repeat (split; [assumption|]). intros K HK psi.
  pose proof HH as [HF [_ [HG _]]].
  destruct (C61_ccdq_equations (2 * no) (2 * nv) F G T2 T4 _ _ HF HG (proj1 H2) (proj1 H4) W2 W4) as [Q2 [Q4 [E [X2 [X4 [_ [SQ2 [SQ4 [_ D]]]]]]]]].
  rewrite (ret_unique _ _ _ _ _ _ X2 G2) in *. rewrite (ret_unique _ _ _ _ _ _ X4 G4) in *.
  destruct (D K HK) as [_ [D2 D4]]. fold psi in D2, D4.
  split.
  - eapply blk2; [exact HS|eapply teq_ent2; eassumption|exact (swapped_shape 2 (2 * no) (2 * nv) _ _ V2 SQ2)|exact Z2].
  - eapply blk4; [exact HS|eapply teq_ent4; eassumption|exact (swapped_shape 4 (2 * no) (2 * nv) _ _ V4 SQ4)|exact Z4].
Qed.
Print Assumptions C62_spin_ccdq_equations.
Example C62_spin_ccdq_instance := C62_spin_ccdq_equations 2 2 S22 _ _ _ _ _ _ _ _ _ _ _ _ _ _ _ _ _
  S22_ok (s_ham_ok S22 2 2) (s_amp_ok S22 2 2 2) (blocks2_ok S22 2 2 _) (s_amp_ok S22 2 2 4) (blocks4_ok S22 2 2 _).
