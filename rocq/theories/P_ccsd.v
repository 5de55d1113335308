(** C03 and the spin-orbital half of C16: the coded CCSD equations and energies. *)
From Coq Require Import String Ascii List Arith NArith ZArith QArith Qcanon Bool Lia Permutation.
From Verif Require Import Sums Tensor Interp Poly SymExec Canon Spec Instances Setup Master Spin Check Tabs NF Formula.
From Verif Require Code_cc_eqns Code_ccsdt_eqns Code_tamps Code_cc_energy Code_pdagq_T3corr Code_t2energySlow.
Import ListNotations.
Open Scope string_scope.
Open Scope Qc_scope.

(** ** Specification *)
(** The reference energy: sum of occupied Fock elements minus half the exchange-coulomb trace. *)
Definition E_ref (no : nat) (f g : tensor) : Qc :=
  (Sum i < no, data f [i; i]) + Q2Qc (-1 # 2) * (Sum i < no, Sum j < no, data g [i; j; i; j]).
(** The CCSD energy expression, amplitudes stored virtual indices first. *)
Definition E_ccsd (no nv : nat) (f g t1 t2 : tensor) : Qc :=
  E_ref no f g +
  (Sum i < no, Sum a < nv, data f [i; no + a]%nat * data t1 [a; i]) +
  Q2Qc (1 # 4) * (Sum i < no, Sum j < no, Sum a < nv, Sum b < nv,
     data g [i; j; no + a; no + b]%nat * data t2 [a; b; i; j]) +
  Q2Qc (1 # 2) * (Sum i < no, Sum j < no, Sum a < nv, Sum b < nv,
     data g [i; j; no + a; no + b]%nat * data t1 [a; i] * data t1 [b; j]).
(** The CCD energy expression. *)
Definition E_ccd (no nv : nat) (f g t2 : tensor) : Qc :=
  E_ref no f g +
  Q2Qc (1 # 4) * (Sum i < no, Sum j < no, Sum a < nv, Sum b < nv,
     data g [i; j; no + a; no + b]%nat * data t2 [a; b; i; j]).

(** ** Proof machinery *)
Section CCSD.
  Variables no nv : nat.
  Variables f g t1 t2 : tensor.
  Hypothesis Hf : is_fock (no + nv) f.
  Hypothesis Hg : is_tei (no + nv) g.
  Hypothesis Ht1 : is_amp_ov 1 no nv t1.
  Hypothesis Ht2 : is_amp_ov 2 no nv t2.
  Definition sd_atoms : atomtab :=
    [(0%N, ([6;6]%N, f)); (1%N, ([6;6;6;6]%N, g)); (2%N, ([0;1]%N, t1)); (3%N, ([0;0;1;1]%N, t2))].
  Lemma sd_ok : Forall (atom_ok (so_range no nv) sy) sd_atoms.
  Proof. unfold sd_atoms. oks. Qed.
  Definition x_sd1 := [xF; xG; at_ 2 [0;1]%N; at_ 3 [0;0;1;1]%N; xo; xv].
  Definition x_sd2 := (x_sd1 ++ [SDim 0; SDim 1])%list.
  Definition x_sdt := [xF; xG; at_ 2 [0;1]%N; at_ 3 [0;0;1;1]%N; zr [0;0;0;1;1;1]%N; xo; xv].
  Lemma v_sd1 : Forall2 (so_vsim no nv sd_atoms) x_sd1 [VT f; VT g; VT t1; VT t2; o_ no; v_ no].
  Proof. unfold x_sd1. vsims. Qed.
  Lemma v_sd2 : Forall2 (so_vsim no nv sd_atoms) x_sd2 [VT f; VT g; VT t1; VT t2; o_ no; v_ no; VInt no; VInt nv].
  Proof. unfold x_sd2, x_sd1. cbn [app]. vsims. Qed.
  Lemma v_sdt t3 : shape t3 = [no; no; no; nv; nv; nv] -> zero_tensor t3 ->
    Forall2 (so_vsim no nv sd_atoms) x_sdt [VT f; VT g; VT t1; VT t2; VT t3; o_ no; v_ no].
  Proof. intros H1 H2. unfold x_sdt. vsims. Qed.
End CCSD.

(** C03.  With T3 = 0 the CCSDT T1 and T2 equations return exactly the CCSD ones, which are amplitudes of
    the same kind as their arguments. *)
Theorem C03_ccsdt_without_triples_is_ccsd : forall no nv f g t1 t2 t3,
  is_fock (no + nv) f -> is_tei (no + nv) g -> is_amp_ov 1 no nv t1 -> is_amp_ov 2 no nv t2 ->
  shape t3 = [no; no; no; nv; nv; nv] -> zero_tensor t3 ->
  exists R1 R2 R1' R2',
    returns 1 lib_tamps Code_cc_eqns.ccsd_t1resid [VT f; VT g; VT t1; VT t2; o_ no; v_ no] R1 /\
    returns 1 lib_tamps Code_cc_eqns.ccsd_t2resid
      [VT f; VT g; VT t1; VT t2; o_ no; v_ no; VInt no; VInt nv] R2 /\
    returns 1 lib_tamps Code_ccsdt_eqns.ccsdt_t1eqns [VT f; VT g; VT t1; VT t2; VT t3; o_ no; v_ no] R1' /\
    returns 1 lib_tamps Code_ccsdt_eqns.ccsdt_t2eqns [VT f; VT g; VT t1; VT t2; VT t3; o_ no; v_ no] R2' /\
    is_amp_ov 1 no nv R1 /\ is_amp_ov 2 no nv R2 /\ teq R1' R1 /\ teq R2' R2.
Proof.
  intros no nv f g t1 t2 t3 Hf Hg H1 H2 S3 Z3.
  pose proof (sd_ok no nv f g t1 t2 Hf Hg H1 H2) as OK.
  pose proof (v_sd1 no nv f g t1 t2 Hf Hg H1 H2) as V1.
  pose proof (v_sd2 no nv f g t1 t2 Hf Hg H1 H2) as V2.
  pose proof (v_sdt no nv f g t1 t2 Hf Hg H1 H2 t3 S3 Z3) as V3.
  destruct (so_compare no nv _ OK 1 lib_tamps Code_ccsdt_eqns.ccsdt_t1eqns _ _
    1 lib_tamps Code_cc_eqns.ccsd_t1resid _ _ [0;1]%N V3 V1) as [R1' [R1 [A1 [A2 [A3 A4]]]]]; [chk_|].
  destruct (so_compare no nv _ OK 1 lib_tamps Code_ccsdt_eqns.ccsdt_t2eqns _ _
    1 lib_tamps Code_cc_eqns.ccsd_t2resid _ _ [0;0;1;1]%N V3 V2) as [R2' [R2 [B1 [B2 [B3 B4]]]]]; [chk_|].
  exists R1, R2, R1', R2'. do 4 (split; [assumption|]).
  split; [|split; [|split; assumption]].
  - split; [destruct A4 as [<- _]; rewrite A3; exact (sh_ov no nv 1)|]. intros i Hi. lia.
  - split; [destruct B4 as [<- _]; rewrite B3; exact (sh_ov no nv 2)|].
    assert (HA : forall i, In i [0;2]%nat -> antisymmetric_in R2 i).
    { eapply (so_antis no nv _ OK); [exact V2| |exact B2|].
      - instantiate (1 := [0;0;1;1]%N). cbn; lia.
      - chk_. }
    intros i Hi. assert (i = 0%nat) as -> by lia. split; apply HA; cbn; auto.
Qed.
Print Assumptions C03_ccsdt_without_triples_is_ccsd.
Example C03_instance := C03_ccsdt_without_triples_is_ccsd 2 2 (i_fock 4) (i_tei 4) (i_amp_ov 1 2 2) (i_amp_ov 2 2 2)
  (z_t [2; 2; 2; 2; 2; 2]%nat) (i_fock_ok 4) (i_tei_ok 4) (i_amp_ov_ok 1 2 2) (i_amp_ov_ok 2 2 2) eq_refl (z_t_ok _).

(** ** Energies *)
Section Energy.
  Variables no nv : nat.
  Variables f g t1 t2 : tensor.
  Hypothesis Hf : is_fock (no + nv) f.
  Hypothesis Hg : is_tei (no + nv) g.
  Hypothesis Ht1 : is_amp 1 no nv t1.
  Hypothesis Ht2 : is_amp 2 no nv t2.
  Definition e_atoms : atomtab :=
    [(0%N, ([6;6]%N, f)); (1%N, ([6;6;6;6]%N, g)); (2%N, ([1;0]%N, t1)); (3%N, ([1;1;0;0]%N, t2))].
  Lemma e_ok : Forall (atom_ok (so_range no nv) sy) e_atoms.
  Proof. unfold e_atoms. oks. Qed.
  Definition p_Eref : poly := Eval vm_compute in
    [mkterm "" "i" 1 [(0%N, "ii")]; mkterm "" "ij" (-1 # 2) [(1%N, "ijij")]].
  Definition p_Eccd : poly := Eval vm_compute in
    (p_Eref ++ [mkterm "" "ijab" (1 # 4) [(1%N, "ijab"); (3%N, "abij")]])%list.
  Definition p_Eccsd : poly := Eval vm_compute in
    (p_Eref ++ [mkterm "" "ia" 1 [(0%N, "ia"); (2%N, "ai")];
      mkterm "" "ijab" (1 # 4) [(1%N, "ijab"); (3%N, "abij")];
      mkterm "" "ijab" (1 # 2) [(1%N, "ijab"); (2%N, "ai"); (2%N, "bj")]])%list.
  Lemma v_Eccsd : so_vsim no nv e_atoms (SP [] p_Eccsd) (VT (arr0 (E_ccsd no nv f g t1 t2))).
  Proof. unfold E_ccsd, E_ref, e_atoms, p_Eccsd. so_form. Qed.
  Lemma v_Eccd : so_vsim no nv e_atoms (SP [] p_Eccd) (VT (arr0 (E_ccd no nv f g t2))).
  Proof. unfold E_ccd, E_ref, e_atoms, p_Eccd. so_form. Qed.
End Energy.

Lemma so_scalar (E : tensor) x : teq E (arr0 x) -> shape E = [] /\ data E [] = x.
Proof. intros [H1 H2]. split; [exact H1|]. apply H2. rewrite H1. constructor. Qed.

(** C16, spin-orbital half.  The three spin-orbital energy functions return the CCSD (or CCD) energy
    expression: [ccsd_energy] of pdagq_T3corr.py (the value it prints), [spinorbitalCCSDE] of cc_energy.py
    with and without T1, and [ccdEnergy] of t2energySlow.py. *)
Theorem C16_spinorbital_energies : forall no nv f g t1 t2 T1 T2,
  is_fock (no + nv) f -> is_tei (no + nv) g -> is_amp 1 no nv t1 -> is_amp 2 no nv t2 ->
  swapped 1 t1 T1 -> swapped 2 t2 T2 ->
  exists E1 E2 E3 E4,
    returns 0 [] Code_pdagq_T3corr.ccsd_energy_L68 [VT g; VT f; o_ no; v_ no; VT t1; VT t2] E1 /\
    returns 0 [] Code_cc_energy.spinorbitalCCSDE_T1 [VT T2; VT g; VT f; o_ no; v_ no; VT T1] E2 /\
    returns 0 [] Code_cc_energy.spinorbitalCCSDE_noT1 [VT T2; VT g; VT f; o_ no; v_ no; VNone] E3 /\
    returns 0 [] Code_t2energySlow.ccdEnergy [VT t2; VT f; VT g; o_ no; v_ no] E4 /\
    shape E1 = [] /\ shape E2 = [] /\ shape E3 = [] /\ shape E4 = [] /\
    data E1 [] = E_ccsd no nv f g t1 t2 /\ data E2 [] = E_ccsd no nv f g t1 t2 /\
    data E3 [] = E_ccd no nv f g t2 /\ data E4 [] = E_ccd no nv f g t2.
Proof.
  intros no nv f g t1 t2 T1 T2 Hf Hg H1 H2 SW1 SW2.
  pose proof (e_ok no nv f g t1 t2 Hf Hg H1 H2) as OK.
  pose proof (v_Eccsd no nv f g t1 t2 ) as VE.
  pose proof (v_Eccd no nv f g t1 t2 ) as VD.
  destruct (so_reads no nv (e_atoms f g t1 t2) 0 [] Code_pdagq_T3corr.ccsd_energy_L68
    [xG; xF; xo; xv; at_ 2 [1;0]%N; at_ 3 [1;1;0;0]%N] [VT g; VT f; o_ no; v_ no; VT t1; VT t2] [] _ _ OK ltac:(vsims) VE)
    as [E1 [A1 B1]]; [chk_|].
  destruct (so_reads no nv (e_atoms f g t1 t2) 0 [] Code_cc_energy.spinorbitalCCSDE_T1
    [swp 3 2 [0;0;1;1]%N; xG; xF; xo; xv; swp 2 1 [0;1]%N] [VT T2; VT g; VT f; o_ no; v_ no; VT T1] [] _ _ OK ltac:(vsims) VE)
    as [E2 [A2 B2]]; [chk_|].
  destruct (so_reads no nv (e_atoms f g t1 t2) 0 [] Code_cc_energy.spinorbitalCCSDE_noT1
    [swp 3 2 [0;0;1;1]%N; xG; xF; xo; xv; SNone] [VT T2; VT g; VT f; o_ no; v_ no; VNone] [] _ _ OK ltac:(vsims) VD)
    as [E3 [A3 B3]]; [chk_|].
  destruct (so_reads no nv (e_atoms f g t1 t2) 0 [] Code_t2energySlow.ccdEnergy
    [at_ 3 [1;1;0;0]%N; xF; xG; xo; xv] [VT t2; VT f; VT g; o_ no; v_ no] [] _ _ OK ltac:(vsims) VD)
    as [E4 [A4 B4]]; [chk_|].
  apply so_scalar in B1, B2, B3, B4.
  destruct B1, B2, B3, B4. exists E1, E2, E3, E4. repeat (split; [assumption|]). assumption.
Qed.
Print Assumptions C16_spinorbital_energies.
Example C16_so_instance := C16_spinorbital_energies 2 2 (i_fock 4) (i_tei 4) (i_amp 1 2 2) (i_amp 2 2 2) _ _
  (i_fock_ok 4) (i_tei_ok 4) (i_amp_ok 1 2 2) (i_amp_ok 2 2 2) (swap_t_ok 1 _) (swap_t_ok 2 _).
