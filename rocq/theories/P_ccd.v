(** C01, C02, C03, C39: the coded doubles equations. *)
From Coq Require Import String Ascii List Arith NArith ZArith QArith Qcanon Bool Lia Permutation.
From Verif Require Import Sums Tensor Interp Poly SymExec Canon Spec Instances Setup Master Spin Check Tabs.
From Verif Require Code_t2residEqnsSlow Code_cc_eqns Code_ccsdt_eqns Code_ccdq_eqns Code_tamps Code_t2energySlow.
Import ListNotations.
Open Scope string_scope.

Section CCD.
  Variables no nv : nat.
  Variables f g t2 T2 : tensor.
  Hypothesis Hf : is_fock (no + nv) f.
  Hypothesis Hg : is_tei (no + nv) g.
  Hypothesis Ht : is_amp 2 no nv t2.
  Definition ccd_atoms : atomtab := [(0%N, ([6;6]%N, f)); (1%N, ([6;6;6;6]%N, g)); (3%N, ([1;1;0;0]%N, t2))].
  Lemma ccd_ok : Forall (atom_ok (so_range no nv) sy) ccd_atoms.
  Proof. unfold ccd_atoms. oks. Qed.
  Definition ccd_args := [at_ 3 [1;1;0;0]%N; SFull 0 [0;0]%N; SFull 1 [0;0;0;0]%N; SSl 0; SSl 1].
  Lemma ccd_vs : Forall2 (so_vsim no nv ccd_atoms) ccd_args [VT t2; VT f; VT g; o_ no; v_ no].
  Proof. unfold ccd_args. vsims. Qed.

  Lemma ccd_runs : exists R,
    returns 0 [] Code_t2residEqnsSlow.ccd_t2residual [VT t2; VT f; VT g; o_ no; v_ no] R /\
    is_amp 2 no nv R.
  Proof.
    destruct (so_compare no nv ccd_atoms ccd_ok 0 [] Code_t2residEqnsSlow.ccd_t2residual ccd_args _
       0 [] Code_t2residEqnsSlow.ccd_t2residual ccd_args _ [1;1;0;0]%N ccd_vs ccd_vs) as [R [_ [H1 [_ [H2 _]]]]].
    - chk_.
    - exists R. split; [exact H1|]. split.
      + rewrite H2. exact (sh_vo no nv 2).
      + assert (HA : forall i, In i [0;2]%nat -> antisymmetric_in R i).
        { eapply (so_antis no nv ccd_atoms ccd_ok); [exact ccd_vs| |exact H1|].
          - instantiate (1 := [1;1;0;0]%N). cbn; lia.
          - chk_. }
        intros i Hi. assert (i = 0%nat) as -> by lia. split; apply HA; cbn; auto.
  Qed.
End CCD.

(** C02.  For every closed array input the four codings of the CCD residual agree (the wicked files
    store occupied indices first, so agreement is up to exchanging the two index halves):
    [ccd_t2residual] (pdaggerq), [ccsd_t2resid] with T1 = 0, [ccsdt_t2eqns] with T1 = T3 = 0 and
    [ccdq_t2eqns] with T4 = 0. *)
Theorem C02_four_codings_of_ccd : forall no nv f g t2 T1 T2 T3 T4,
  is_fock (no + nv) f -> is_tei (no + nv) g -> is_amp 2 no nv t2 -> swapped 2 t2 T2 ->
  shape T1 = [no; nv] -> zero_tensor T1 ->
  shape T3 = [no; no; no; nv; nv; nv] -> zero_tensor T3 ->
  shape T4 = [no; no; no; no; nv; nv; nv; nv] -> zero_tensor T4 ->
  exists R Rsd Rsdt Rdq,
    returns 0 [] Code_t2residEqnsSlow.ccd_t2residual [VT t2; VT f; VT g; o_ no; v_ no] R /\
    returns 1 lib_tamps Code_cc_eqns.ccsd_t2resid
      [VT f; VT g; VT T1; VT T2; o_ no; v_ no; VInt no; VInt nv] Rsd /\
    returns 1 lib_tamps Code_ccsdt_eqns.ccsdt_t2eqns [VT f; VT g; VT T1; VT T2; VT T3; o_ no; v_ no] Rsdt /\
    returns 1 lib_tamps Code_ccdq_eqns.ccdq_t2eqns [VT f; VT g; VT T2; VT T4; o_ no; v_ no] Rdq /\
    shape R = [nv; nv; no; no] /\ swapped 2 R Rsd /\ swapped 2 R Rsdt /\ swapped 2 R Rdq.
Proof.
  intros no nv f g t2 T1 T2 T3 T4 Hf Hg Ht Hsw S1 Z1 S3 Z3 S4 Z4.
  pose proof (ccd_ok no nv f g t2 Hf Hg Ht) as OK.
  pose proof (ccd_vs no nv f g t2 Hf Hg Ht) as VS.
  destruct (ccd_runs no nv f g t2 Hf Hg Ht) as [R [HR [HRs _]]].
  destruct (so_compare_flip no nv (ccd_atoms f g t2) OK 2 0 [] Code_t2residEqnsSlow.ccd_t2residual ccd_args _
    1 lib_tamps Code_cc_eqns.ccsd_t2resid
    [SFull 0 [0;0]%N; SFull 1 [0;0;0;0]%N; zr [0;1]%N; swp 3 2 [0;0;1;1]%N; SSl 0; SSl 1; SDim 0; SDim 1]
    [VT f; VT g; VT T1; VT T2; o_ no; v_ no; VInt no; VInt nv] [1;1;0;0]%N [0;0;1;1]%N R
    ltac:(lia) eq_refl HR VS ltac:(vsims)) as [Rsd [A1 [_ B1]]]; [chk_|].
  destruct (so_compare_flip no nv (ccd_atoms f g t2) OK 2 0 [] Code_t2residEqnsSlow.ccd_t2residual ccd_args _
    1 lib_tamps Code_ccsdt_eqns.ccsdt_t2eqns
    [SFull 0 [0;0]%N; SFull 1 [0;0;0;0]%N; zr [0;1]%N; swp 3 2 [0;0;1;1]%N; zr [0;0;0;1;1;1]%N; SSl 0; SSl 1]
    [VT f; VT g; VT T1; VT T2; VT T3; o_ no; v_ no] [1;1;0;0]%N [0;0;1;1]%N R
    ltac:(lia) eq_refl HR VS ltac:(vsims)) as [Rsdt [A2 [_ B2]]]; [chk_|].
  destruct (so_compare_flip no nv (ccd_atoms f g t2) OK 2 0 [] Code_t2residEqnsSlow.ccd_t2residual ccd_args _
    1 lib_tamps Code_ccdq_eqns.ccdq_t2eqns
    [SFull 0 [0;0]%N; SFull 1 [0;0;0;0]%N; swp 3 2 [0;0;1;1]%N; zr [0;0;0;0;1;1;1;1]%N; SSl 0; SSl 1]
    [VT f; VT g; VT T2; VT T4; o_ no; v_ no] [1;1;0;0]%N [0;0;1;1]%N R
    ltac:(lia) eq_refl HR VS ltac:(vsims)) as [Rdq [A3 [_ B3]]]; [chk_|].
  exists R, Rsd, Rsdt, Rdq. repeat (split; [assumption|]). assumption.
Qed.
Print Assumptions C02_four_codings_of_ccd.
(** The hypotheses are met by non-zero arrays. *)
Example C02_instance := C02_four_codings_of_ccd 2 2 (i_fock 4) (i_tei 4) (i_amp 2 2 2) (z_t [2; 2]%nat) _ (z_t [2; 2; 2; 2; 2; 2]%nat) (z_t [2; 2; 2; 2; 2; 2; 2; 2]%nat)
  (i_fock_ok 4) (i_tei_ok 4) (i_amp_ok 2 2 2) (swap_t_ok 2 _)
  eq_refl (z_t_ok _) eq_refl (z_t_ok _) eq_refl (z_t_ok _).
