(** C19: size consistency.  For a system of two fragments that do not interact, every residual is assembled from the fragment residuals
    (its entries with indices in both fragments vanish) and every energy is the sum of the fragment energies. *)
From Coq Require Import String Ascii List Arith NArith ZArith QArith Qcanon Bool Lia Permutation.
From Verif Require Import Sums Tensor Interp Poly SymExec Canon Numpy Spec SpecFrag Instances Setup Master Spin Check Tabs Frag P_wanti FragTabs.
From Verif Require Code_tamps Code_cc_eqns Code_ccsdt_eqns Code_ccdq_eqns Code_cc_energy Code_t2residEqnsSlow Code_t2energySlow
  Code_modify_T2resid_T4Qf1Slow Code_modify_T2resid_T4Qf2Slow Code_modify_T2energy_pertQfSlow.
Import ListNotations.
Open Scope string_scope.

(** [f] run on the whole system and on each fragment: the result is assembled from the fragment results. *)
Definition assembles (M : fragmap) (no nv d : nat) (lib : list (string * fn)) (f : fn) (ks : list kind) (v vA vB : list value) : Prop :=
  exists R RA RB, returns d lib f v R /\ returns d lib f vA RA /\ returns d lib f vB RB /\ shape R = map (ksize no nv) ks /\
    assembled M no ks R RA RB.
(** [f] run on the whole system and on each fragment: the number is the sum of the fragment numbers. *)
Definition adds (d : nat) (lib : list (string * fn)) (f : fn) (v vA vB : list value) : Prop :=
  exists E EA EB, returns d lib f v E /\ returns d lib f vA EA /\ returns d lib f vB EB /\
    shape E = [] /\ shape EA = [] /\ shape EB = [] /\ data E [] = (data EA [] + data EB [])%Qc.

(** ** CCD and LCCD *)
Section CCD.
  Variables no nv : nat.
  Variable M : fragmap.
  Hypothesis HM : frag_ok no nv M.
  Variables f fA fB g gA gB t2 t2A t2B : tensor.
  Hypothesis Hf : is_fock (no + nv) f.
  Hypothesis Af : assembled M no [Al; Al] f fA fB.
  Hypothesis Hg : is_tei (no + nv) g.
  Hypothesis Ag : assembled M no [Al; Al; Al; Al] g gA gB.
  Hypothesis Ht2 : is_amp 2 no nv t2.
  Hypothesis At2 : assembled M no (vo_kinds 2) t2 t2A t2B.
  Let tab : atomtab := [(0%N, ([6;6]%N, f)); (1%N, ([6;6;6;6]%N, g)); (3%N, ([1;1;0;0]%N, t2))].
  Let OK : Forall (atom_ok (fr_range no nv M) sy) tab. Proof. unfold tab. foks. Qed.
  Let SEP : Forall (separated no nv M) tab. Proof. unfold tab. fses. Qed.
  Definition fdd : list sval := [at_ 3 [1;1;0;0]%N; SFull 0 [0;0]%N; SFull 1 [0;0;0;0]%N; SSl 0; SSl 1].
  Let fdd_vs : Forall2 (fr_vsim no nv M tab) fdd [VT t2; VT f; VT g; o_ no; v_ no]. Proof. unfold fdd. fvs HM. Qed.
  Definition fddA : list sval := [at_ 3 [4;4;2;2]%N; SFull 0 [1;1]%N; SFull 1 [1;1;1;1]%N; SSl 2; SSl 3].
  Let fddA_vs : Forall2 (fr_vsim no nv M tab) fddA [VT t2A; VT fA; VT gA; o_ (fno M FA); v_ (fno M FA)]. Proof. unfold fddA. fvs HM. Qed.
  Definition fddB : list sval := [at_ 3 [5;5;3;3]%N; SFull 0 [2;2]%N; SFull 1 [2;2;2;2]%N; SSl 4; SSl 5].
  Let fddB_vs : Forall2 (fr_vsim no nv M tab) fddB [VT t2B; VT fB; VT gB; o_ (fno M FB); v_ (fno M FB)]. Proof. unfold fddB. fvs HM. Qed.
  Lemma f_ccd : assembles M no nv 0 [] Code_t2residEqnsSlow.ccd_t2residual (vo_kinds 2)
    [VT t2; VT f; VT g; o_ no; v_ no]
    [VT t2A; VT fA; VT gA; o_ (fno M FA); v_ (fno M FA)]
    [VT t2B; VT fB; VT gB; o_ (fno M FB); v_ (fno M FB)].
  Proof.
    assert (C : sepchk (vo_kinds 2) (srun fr_slm 0 [] Code_t2residEqnsSlow.ccd_t2residual fdd) = true) by frchk.
    assert (PA : prt FA (vo_kinds 2) (srun fr_slm 0 [] Code_t2residEqnsSlow.ccd_t2residual fdd) (srun fr_slm 0 [] Code_t2residEqnsSlow.ccd_t2residual fddA)) by frchk.
    assert (PB : prt FB (vo_kinds 2) (srun fr_slm 0 [] Code_t2residEqnsSlow.ccd_t2residual fdd) (srun fr_slm 0 [] Code_t2residEqnsSlow.ccd_t2residual fddB)) by frchk.
    exact (fr_residual no nv M HM tab OK SEP _ _ _ _ _ _ _ _ _ _ fdd_vs fddA_vs fddB_vs C PA PB).
  Qed.
  Lemma f_lccd : assembles M no nv 0 [] Code_t2residEqnsSlow.doubles_resLCCDoffset (vo_kinds 2)
    [VT t2; VT f; VT g; o_ no; v_ no]
    [VT t2A; VT fA; VT gA; o_ (fno M FA); v_ (fno M FA)]
    [VT t2B; VT fB; VT gB; o_ (fno M FB); v_ (fno M FB)].
  Proof.
    assert (C : sepchk (vo_kinds 2) (srun fr_slm 0 [] Code_t2residEqnsSlow.doubles_resLCCDoffset fdd) = true) by frchk.
    assert (PA : prt FA (vo_kinds 2) (srun fr_slm 0 [] Code_t2residEqnsSlow.doubles_resLCCDoffset fdd) (srun fr_slm 0 [] Code_t2residEqnsSlow.doubles_resLCCDoffset fddA)) by frchk.
    assert (PB : prt FB (vo_kinds 2) (srun fr_slm 0 [] Code_t2residEqnsSlow.doubles_resLCCDoffset fdd) (srun fr_slm 0 [] Code_t2residEqnsSlow.doubles_resLCCDoffset fddB)) by frchk.
    exact (fr_residual no nv M HM tab OK SEP _ _ _ _ _ _ _ _ _ _ fdd_vs fddA_vs fddB_vs C PA PB).
  Qed.
  Lemma f_ccdE : adds 0 [] Code_t2energySlow.ccdEnergy
    [VT t2; VT f; VT g; o_ no; v_ no]
    [VT t2A; VT fA; VT gA; o_ (fno M FA); v_ (fno M FA)]
    [VT t2B; VT fB; VT gB; o_ (fno M FB); v_ (fno M FB)].
  Proof.
    assert (C : sumchk (srun fr_slm 0 [] Code_t2energySlow.ccdEnergy fdd) (srun fr_slm 0 [] Code_t2energySlow.ccdEnergy fddA) (srun fr_slm 0 [] Code_t2energySlow.ccdEnergy fddB)) by frchk.
    exact (fr_energy no nv M HM tab OK SEP _ _ _ _ _ _ _ _ _ fdd_vs fddA_vs fddB_vs C).
  Qed.
End CCD.

(** ** The factorised-quadruples corrections *)
Section QF.
  Variables no nv : nat.
  Variable M : fragmap.
  Hypothesis HM : frag_ok no nv M.
  Variables g gA gB t2 t2A t2B l2 l2A l2B : tensor.
  Hypothesis Hg : is_tei (no + nv) g.
  Hypothesis Ag : assembled M no [Al; Al; Al; Al] g gA gB.
  Hypothesis Ht2 : is_amp 2 no nv t2.
  Hypothesis At2 : assembled M no (vo_kinds 2) t2 t2A t2B.
  Hypothesis Hl2 : is_amp_ov 2 no nv l2.
  Hypothesis Al2 : assembled M no (ov_kinds 2) l2 l2A l2B.
  Let tab : atomtab := [(1%N, ([6;6;6;6]%N, g)); (3%N, ([1;1;0;0]%N, t2)); (6%N, ([0;0;1;1]%N, l2))].
  Let OK : Forall (atom_ok (fr_range no nv M) sy) tab. Proof. unfold tab. foks. Qed.
  Let SEP : Forall (separated no nv M) tab. Proof. unfold tab. fses. Qed.
  Definition fqf : list sval := [SFull 1 [0;0;0;0]%N; at_ 6 [0;0;1;1]%N; at_ 3 [1;1;0;0]%N; SSl 0; SSl 1].
  Let fqf_vs : Forall2 (fr_vsim no nv M tab) fqf [VT g; VT l2; VT t2; o_ no; v_ no]. Proof. unfold fqf. fvs HM. Qed.
  Definition fqfA : list sval := [SFull 1 [1;1;1;1]%N; at_ 6 [2;2;4;4]%N; at_ 3 [4;4;2;2]%N; SSl 2; SSl 3].
  Let fqfA_vs : Forall2 (fr_vsim no nv M tab) fqfA [VT gA; VT l2A; VT t2A; o_ (fno M FA); v_ (fno M FA)]. Proof. unfold fqfA. fvs HM. Qed.
  Definition fqfB : list sval := [SFull 1 [2;2;2;2]%N; at_ 6 [3;3;5;5]%N; at_ 3 [5;5;3;3]%N; SSl 4; SSl 5].
  Let fqfB_vs : Forall2 (fr_vsim no nv M tab) fqfB [VT gB; VT l2B; VT t2B; o_ (fno M FB); v_ (fno M FB)]. Proof. unfold fqfB. fvs HM. Qed.
  Lemma f_qf1 : assembles M no nv 0 [] Code_modify_T2resid_T4Qf1Slow.residQf1_aaaa (vo_kinds 2)
    [VT g; VT l2; VT t2; o_ no; v_ no]
    [VT gA; VT l2A; VT t2A; o_ (fno M FA); v_ (fno M FA)]
    [VT gB; VT l2B; VT t2B; o_ (fno M FB); v_ (fno M FB)].
  Proof.
    assert (C : sepchk (vo_kinds 2) (srun fr_slm 0 [] Code_modify_T2resid_T4Qf1Slow.residQf1_aaaa fqf) = true) by frchk.
    assert (PA : prt FA (vo_kinds 2) (srun fr_slm 0 [] Code_modify_T2resid_T4Qf1Slow.residQf1_aaaa fqf) (srun fr_slm 0 [] Code_modify_T2resid_T4Qf1Slow.residQf1_aaaa fqfA)) by frchk.
    assert (PB : prt FB (vo_kinds 2) (srun fr_slm 0 [] Code_modify_T2resid_T4Qf1Slow.residQf1_aaaa fqf) (srun fr_slm 0 [] Code_modify_T2resid_T4Qf1Slow.residQf1_aaaa fqfB)) by frchk.
    exact (fr_residual no nv M HM tab OK SEP _ _ _ _ _ _ _ _ _ _ fqf_vs fqfA_vs fqfB_vs C PA PB).
  Qed.
  Lemma f_qf2 : assembles M no nv 0 [] Code_modify_T2resid_T4Qf2Slow.residQf2_aaaa (vo_kinds 2)
    [VT g; VT l2; VT t2; o_ no; v_ no]
    [VT gA; VT l2A; VT t2A; o_ (fno M FA); v_ (fno M FA)]
    [VT gB; VT l2B; VT t2B; o_ (fno M FB); v_ (fno M FB)].
  Proof.
    assert (C : sepchk (vo_kinds 2) (srun fr_slm 0 [] Code_modify_T2resid_T4Qf2Slow.residQf2_aaaa fqf) = true) by frchk.
    assert (PA : prt FA (vo_kinds 2) (srun fr_slm 0 [] Code_modify_T2resid_T4Qf2Slow.residQf2_aaaa fqf) (srun fr_slm 0 [] Code_modify_T2resid_T4Qf2Slow.residQf2_aaaa fqfA)) by frchk.
    assert (PB : prt FB (vo_kinds 2) (srun fr_slm 0 [] Code_modify_T2resid_T4Qf2Slow.residQf2_aaaa fqf) (srun fr_slm 0 [] Code_modify_T2resid_T4Qf2Slow.residQf2_aaaa fqfB)) by frchk.
    exact (fr_residual no nv M HM tab OK SEP _ _ _ _ _ _ _ _ _ _ fqf_vs fqfA_vs fqfB_vs C PA PB).
  Qed.
  Lemma f_qfE : adds 0 [] Code_modify_T2energy_pertQfSlow.energy_pertQf
    [VT g; VT l2; VT t2; o_ no; v_ no]
    [VT gA; VT l2A; VT t2A; o_ (fno M FA); v_ (fno M FA)]
    [VT gB; VT l2B; VT t2B; o_ (fno M FB); v_ (fno M FB)].
  Proof.
    assert (C : sumchk (srun fr_slm 0 [] Code_modify_T2energy_pertQfSlow.energy_pertQf fqf) (srun fr_slm 0 [] Code_modify_T2energy_pertQfSlow.energy_pertQf fqfA) (srun fr_slm 0 [] Code_modify_T2energy_pertQfSlow.energy_pertQf fqfB)) by frchk.
    exact (fr_energy no nv M HM tab OK SEP _ _ _ _ _ _ _ _ _ fqf_vs fqfA_vs fqfB_vs C).
  Qed.
End QF.

(** ** CCSD *)
Section CCSD.
  Variables no nv : nat.
  Variable M : fragmap.
  Hypothesis HM : frag_ok no nv M.
  Variables f fA fB g gA gB t1 t1A t1B t2 t2A t2B : tensor.
  Hypothesis Hf : is_fock (no + nv) f.
  Hypothesis Af : assembled M no [Al; Al] f fA fB.
  Hypothesis Hg : is_tei (no + nv) g.
  Hypothesis Ag : assembled M no [Al; Al; Al; Al] g gA gB.
  Hypothesis Ht1 : is_amp_ov 1 no nv t1.
  Hypothesis At1 : assembled M no (ov_kinds 1) t1 t1A t1B.
  Hypothesis Ht2 : is_amp_ov 2 no nv t2.
  Hypothesis At2 : assembled M no (ov_kinds 2) t2 t2A t2B.
  Let tab : atomtab := [(0%N, ([6;6]%N, f)); (1%N, ([6;6;6;6]%N, g)); (2%N, ([0;1]%N, t1)); (3%N, ([0;0;1;1]%N, t2))].
  Let OK : Forall (atom_ok (fr_range no nv M) sy) tab. Proof. unfold tab. foks. Qed.
  Let SEP : Forall (separated no nv M) tab. Proof. unfold tab. fses. Qed.
  Definition fs1 : list sval := [SFull 0 [0;0]%N; SFull 1 [0;0;0;0]%N; at_ 2 [0;1]%N; at_ 3 [0;0;1;1]%N; SSl 0; SSl 1].
  Let fs1_vs : Forall2 (fr_vsim no nv M tab) fs1 [VT f; VT g; VT t1; VT t2; o_ no; v_ no]. Proof. unfold fs1. fvs HM. Qed.
  Definition fs1A : list sval := [SFull 0 [1;1]%N; SFull 1 [1;1;1;1]%N; at_ 2 [2;4]%N; at_ 3 [2;2;4;4]%N; SSl 2; SSl 3].
  Let fs1A_vs : Forall2 (fr_vsim no nv M tab) fs1A [VT fA; VT gA; VT t1A; VT t2A; o_ (fno M FA); v_ (fno M FA)]. Proof. unfold fs1A. fvs HM. Qed.
  Definition fs1B : list sval := [SFull 0 [2;2]%N; SFull 1 [2;2;2;2]%N; at_ 2 [3;5]%N; at_ 3 [3;3;5;5]%N; SSl 4; SSl 5].
  Let fs1B_vs : Forall2 (fr_vsim no nv M tab) fs1B [VT fB; VT gB; VT t1B; VT t2B; o_ (fno M FB); v_ (fno M FB)]. Proof. unfold fs1B. fvs HM. Qed.
  Definition fs2 : list sval := [SFull 0 [0;0]%N; SFull 1 [0;0;0;0]%N; at_ 2 [0;1]%N; at_ 3 [0;0;1;1]%N; SSl 0; SSl 1; SDim 0%N; SDim 1%N].
  Let fs2_vs : Forall2 (fr_vsim no nv M tab) fs2 [VT f; VT g; VT t1; VT t2; o_ no; v_ no; VInt no; VInt nv]. Proof. unfold fs2. fvs HM. Qed.
  Definition fs2A : list sval := [SFull 0 [1;1]%N; SFull 1 [1;1;1;1]%N; at_ 2 [2;4]%N; at_ 3 [2;2;4;4]%N; SSl 2; SSl 3; SDim 2%N; SDim 4%N].
  Let fs2A_vs : Forall2 (fr_vsim no nv M tab) fs2A [VT fA; VT gA; VT t1A; VT t2A; o_ (fno M FA); v_ (fno M FA); VInt (fno M FA); VInt (fnv M FA)]. Proof. unfold fs2A. fvs HM. Qed.
  Definition fs2B : list sval := [SFull 0 [2;2]%N; SFull 1 [2;2;2;2]%N; at_ 2 [3;5]%N; at_ 3 [3;3;5;5]%N; SSl 4; SSl 5; SDim 3%N; SDim 5%N].
  Let fs2B_vs : Forall2 (fr_vsim no nv M tab) fs2B [VT fB; VT gB; VT t1B; VT t2B; o_ (fno M FB); v_ (fno M FB); VInt (fno M FB); VInt (fnv M FB)]. Proof. unfold fs2B. fvs HM. Qed.
  Definition fse : list sval := [at_ 3 [0;0;1;1]%N; SFull 1 [0;0;0;0]%N; SFull 0 [0;0]%N; SSl 0; SSl 1; at_ 2 [0;1]%N].
  Let fse_vs : Forall2 (fr_vsim no nv M tab) fse [VT t2; VT g; VT f; o_ no; v_ no; VT t1]. Proof. unfold fse. fvs HM. Qed.
  Definition fseA : list sval := [at_ 3 [2;2;4;4]%N; SFull 1 [1;1;1;1]%N; SFull 0 [1;1]%N; SSl 2; SSl 3; at_ 2 [2;4]%N].
  Let fseA_vs : Forall2 (fr_vsim no nv M tab) fseA [VT t2A; VT gA; VT fA; o_ (fno M FA); v_ (fno M FA); VT t1A]. Proof. unfold fseA. fvs HM. Qed.
  Definition fseB : list sval := [at_ 3 [3;3;5;5]%N; SFull 1 [2;2;2;2]%N; SFull 0 [2;2]%N; SSl 4; SSl 5; at_ 2 [3;5]%N].
  Let fseB_vs : Forall2 (fr_vsim no nv M tab) fseB [VT t2B; VT gB; VT fB; o_ (fno M FB); v_ (fno M FB); VT t1B]. Proof. unfold fseB. fvs HM. Qed.
  Lemma f_ccsd1 : assembles M no nv 1 lib_tamps Code_cc_eqns.ccsd_t1resid (ov_kinds 1)
    [VT f; VT g; VT t1; VT t2; o_ no; v_ no]
    [VT fA; VT gA; VT t1A; VT t2A; o_ (fno M FA); v_ (fno M FA)]
    [VT fB; VT gB; VT t1B; VT t2B; o_ (fno M FB); v_ (fno M FB)].
  Proof.
    assert (C : sepchk (ov_kinds 1) (srun fr_slm 1 lib_tamps Code_cc_eqns.ccsd_t1resid fs1) = true) by frchk.
    assert (PA : prt FA (ov_kinds 1) (srun fr_slm 1 lib_tamps Code_cc_eqns.ccsd_t1resid fs1) (srun fr_slm 1 lib_tamps Code_cc_eqns.ccsd_t1resid fs1A)) by frchk.
    assert (PB : prt FB (ov_kinds 1) (srun fr_slm 1 lib_tamps Code_cc_eqns.ccsd_t1resid fs1) (srun fr_slm 1 lib_tamps Code_cc_eqns.ccsd_t1resid fs1B)) by frchk.
    exact (fr_residual no nv M HM tab OK SEP _ _ _ _ _ _ _ _ _ _ fs1_vs fs1A_vs fs1B_vs C PA PB).
  Qed.
  Lemma f_ccsd2 : assembles M no nv 1 lib_tamps Code_cc_eqns.ccsd_t2resid (ov_kinds 2)
    [VT f; VT g; VT t1; VT t2; o_ no; v_ no; VInt no; VInt nv]
    [VT fA; VT gA; VT t1A; VT t2A; o_ (fno M FA); v_ (fno M FA); VInt (fno M FA); VInt (fnv M FA)]
    [VT fB; VT gB; VT t1B; VT t2B; o_ (fno M FB); v_ (fno M FB); VInt (fno M FB); VInt (fnv M FB)].
  Proof.
    assert (C : sepchk (ov_kinds 2) (srun fr_slm 1 lib_tamps Code_cc_eqns.ccsd_t2resid fs2) = true) by frchk.
    assert (PA : prt FA (ov_kinds 2) (srun fr_slm 1 lib_tamps Code_cc_eqns.ccsd_t2resid fs2) (srun fr_slm 1 lib_tamps Code_cc_eqns.ccsd_t2resid fs2A)) by frchk.
    assert (PB : prt FB (ov_kinds 2) (srun fr_slm 1 lib_tamps Code_cc_eqns.ccsd_t2resid fs2) (srun fr_slm 1 lib_tamps Code_cc_eqns.ccsd_t2resid fs2B)) by frchk.
    exact (fr_residual no nv M HM tab OK SEP _ _ _ _ _ _ _ _ _ _ fs2_vs fs2A_vs fs2B_vs C PA PB).
  Qed.
  Lemma f_ccsdE : adds 1 lib_tamps Code_cc_energy.spinorbitalCCSDE_T1
    [VT t2; VT g; VT f; o_ no; v_ no; VT t1]
    [VT t2A; VT gA; VT fA; o_ (fno M FA); v_ (fno M FA); VT t1A]
    [VT t2B; VT gB; VT fB; o_ (fno M FB); v_ (fno M FB); VT t1B].
  Proof.
    assert (C : sumchk (srun fr_slm 1 lib_tamps Code_cc_energy.spinorbitalCCSDE_T1 fse) (srun fr_slm 1 lib_tamps Code_cc_energy.spinorbitalCCSDE_T1 fseA) (srun fr_slm 1 lib_tamps Code_cc_energy.spinorbitalCCSDE_T1 fseB)) by frchk.
    exact (fr_energy no nv M HM tab OK SEP _ _ _ _ _ _ _ _ _ fse_vs fseA_vs fseB_vs C).
  Qed.
End CCSD.

(** ** CCSDT *)
Section CCSDT.
  Variables no nv : nat.
  Variable M : fragmap.
  Hypothesis HM : frag_ok no nv M.
  Variables f fA fB g gA gB t1 t1A t1B t2 t2A t2B t3 t3A t3B : tensor.
  Hypothesis Hf : is_fock (no + nv) f.
  Hypothesis Af : assembled M no [Al; Al] f fA fB.
  Hypothesis Hg : is_tei (no + nv) g.
  Hypothesis Ag : assembled M no [Al; Al; Al; Al] g gA gB.
  Hypothesis Ht1 : is_amp_ov 1 no nv t1.
  Hypothesis At1 : assembled M no (ov_kinds 1) t1 t1A t1B.
  Hypothesis Ht2 : is_amp_ov 2 no nv t2.
  Hypothesis At2 : assembled M no (ov_kinds 2) t2 t2A t2B.
  Hypothesis Ht3 : is_amp_ov 3 no nv t3.
  Hypothesis At3 : assembled M no (ov_kinds 3) t3 t3A t3B.
  Let tab : atomtab := [(0%N, ([6;6]%N, f)); (1%N, ([6;6;6;6]%N, g)); (2%N, ([0;1]%N, t1)); (3%N, ([0;0;1;1]%N, t2)); (4%N, ([0;0;0;1;1;1]%N, t3))].
  Let OK : Forall (atom_ok (fr_range no nv M) sy) tab. Proof. unfold tab. foks. Qed.
  Let SEP : Forall (separated no nv M) tab. Proof. unfold tab. fses. Qed.
  Definition fsdt : list sval := [SFull 0 [0;0]%N; SFull 1 [0;0;0;0]%N; at_ 2 [0;1]%N; at_ 3 [0;0;1;1]%N; at_ 4 [0;0;0;1;1;1]%N; SSl 0; SSl 1].
  Let fsdt_vs : Forall2 (fr_vsim no nv M tab) fsdt [VT f; VT g; VT t1; VT t2; VT t3; o_ no; v_ no]. Proof. unfold fsdt. fvs HM. Qed.
  Definition fsdtA : list sval := [SFull 0 [1;1]%N; SFull 1 [1;1;1;1]%N; at_ 2 [2;4]%N; at_ 3 [2;2;4;4]%N; at_ 4 [2;2;2;4;4;4]%N; SSl 2; SSl 3].
  Let fsdtA_vs : Forall2 (fr_vsim no nv M tab) fsdtA [VT fA; VT gA; VT t1A; VT t2A; VT t3A; o_ (fno M FA); v_ (fno M FA)]. Proof. unfold fsdtA. fvs HM. Qed.
  Definition fsdtB : list sval := [SFull 0 [2;2]%N; SFull 1 [2;2;2;2]%N; at_ 2 [3;5]%N; at_ 3 [3;3;5;5]%N; at_ 4 [3;3;3;5;5;5]%N; SSl 4; SSl 5].
  Let fsdtB_vs : Forall2 (fr_vsim no nv M tab) fsdtB [VT fB; VT gB; VT t1B; VT t2B; VT t3B; o_ (fno M FB); v_ (fno M FB)]. Proof. unfold fsdtB. fvs HM. Qed.
  Lemma f_ccsdt1 : assembles M no nv 1 lib_tamps Code_ccsdt_eqns.ccsdt_t1eqns (ov_kinds 1)
    [VT f; VT g; VT t1; VT t2; VT t3; o_ no; v_ no]
    [VT fA; VT gA; VT t1A; VT t2A; VT t3A; o_ (fno M FA); v_ (fno M FA)]
    [VT fB; VT gB; VT t1B; VT t2B; VT t3B; o_ (fno M FB); v_ (fno M FB)].
  Proof.
    assert (C : sepchk (ov_kinds 1) (srun fr_slm 1 lib_tamps Code_ccsdt_eqns.ccsdt_t1eqns fsdt) = true) by frchk.
    assert (PA : prt FA (ov_kinds 1) (srun fr_slm 1 lib_tamps Code_ccsdt_eqns.ccsdt_t1eqns fsdt) (srun fr_slm 1 lib_tamps Code_ccsdt_eqns.ccsdt_t1eqns fsdtA)) by frchk.
    assert (PB : prt FB (ov_kinds 1) (srun fr_slm 1 lib_tamps Code_ccsdt_eqns.ccsdt_t1eqns fsdt) (srun fr_slm 1 lib_tamps Code_ccsdt_eqns.ccsdt_t1eqns fsdtB)) by frchk.
    exact (fr_residual no nv M HM tab OK SEP _ _ _ _ _ _ _ _ _ _ fsdt_vs fsdtA_vs fsdtB_vs C PA PB).
  Qed.
  Lemma f_ccsdt2 : assembles M no nv 1 lib_tamps Code_ccsdt_eqns.ccsdt_t2eqns (ov_kinds 2)
    [VT f; VT g; VT t1; VT t2; VT t3; o_ no; v_ no]
    [VT fA; VT gA; VT t1A; VT t2A; VT t3A; o_ (fno M FA); v_ (fno M FA)]
    [VT fB; VT gB; VT t1B; VT t2B; VT t3B; o_ (fno M FB); v_ (fno M FB)].
  Proof.
    assert (C : sepchk (ov_kinds 2) (srun fr_slm 1 lib_tamps (before Code_ccsdt_eqns.ccsdt_t2eqns) fsdt) = true) by frchk.
    assert (PA : prt FA (ov_kinds 2) (srun fr_slm 1 lib_tamps (before Code_ccsdt_eqns.ccsdt_t2eqns) fsdt) (srun fr_slm 1 lib_tamps (before Code_ccsdt_eqns.ccsdt_t2eqns) fsdtA)) by frchk.
    assert (PB : prt FB (ov_kinds 2) (srun fr_slm 1 lib_tamps (before Code_ccsdt_eqns.ccsdt_t2eqns) fsdt) (srun fr_slm 1 lib_tamps (before Code_ccsdt_eqns.ccsdt_t2eqns) fsdtB)) by frchk.
    exact (fr_end no nv M HM tab OK SEP Code_ccsdt_eqns.ccsdt_t2eqns "tamps.antisym_T2" Code_tamps.antisym_T2 2 _ _ _ _ _ _ fsdt_vs fsdtA_vs fsdtB_vs eq_refl eq_refl shut2 C PA PB).
  Qed.
  Lemma f_ccsdt3 : assembles M no nv 1 lib_tamps Code_ccsdt_eqns.ccsdt_t3eqns (ov_kinds 3)
    [VT f; VT g; VT t1; VT t2; VT t3; o_ no; v_ no]
    [VT fA; VT gA; VT t1A; VT t2A; VT t3A; o_ (fno M FA); v_ (fno M FA)]
    [VT fB; VT gB; VT t1B; VT t2B; VT t3B; o_ (fno M FB); v_ (fno M FB)].
  Proof.
    assert (C : sepchk (ov_kinds 3) (srun fr_slm 1 lib_tamps (before Code_ccsdt_eqns.ccsdt_t3eqns) fsdt) = true) by frchk.
    assert (PA : prt FA (ov_kinds 3) (srun fr_slm 1 lib_tamps (before Code_ccsdt_eqns.ccsdt_t3eqns) fsdt) (srun fr_slm 1 lib_tamps (before Code_ccsdt_eqns.ccsdt_t3eqns) fsdtA)) by frchk.
    assert (PB : prt FB (ov_kinds 3) (srun fr_slm 1 lib_tamps (before Code_ccsdt_eqns.ccsdt_t3eqns) fsdt) (srun fr_slm 1 lib_tamps (before Code_ccsdt_eqns.ccsdt_t3eqns) fsdtB)) by frchk.
    exact (fr_end no nv M HM tab OK SEP Code_ccsdt_eqns.ccsdt_t3eqns "tamps.antisym_T3" Code_tamps.antisym_T3 3 _ _ _ _ _ _ fsdt_vs fsdtA_vs fsdtB_vs eq_refl eq_refl shut3 C PA PB).
  Qed.
End CCSDT.

(** ** CCDQ *)
Section CCDQ.
  Variables no nv : nat.
  Variable M : fragmap.
  Hypothesis HM : frag_ok no nv M.
  Variables f fA fB g gA gB t2 t2A t2B t4 t4A t4B : tensor.
  Hypothesis Hf : is_fock (no + nv) f.
  Hypothesis Af : assembled M no [Al; Al] f fA fB.
  Hypothesis Hg : is_tei (no + nv) g.
  Hypothesis Ag : assembled M no [Al; Al; Al; Al] g gA gB.
  Hypothesis Ht2 : is_amp_ov 2 no nv t2.
  Hypothesis At2 : assembled M no (ov_kinds 2) t2 t2A t2B.
  Hypothesis Ht4 : is_amp_ov 4 no nv t4.
  Hypothesis At4 : assembled M no (ov_kinds 4) t4 t4A t4B.
  Let tab : atomtab := [(0%N, ([6;6]%N, f)); (1%N, ([6;6;6;6]%N, g)); (3%N, ([0;0;1;1]%N, t2)); (5%N, ([0;0;0;0;1;1;1;1]%N, t4))].
  Let OK : Forall (atom_ok (fr_range no nv M) sy) tab. Proof. unfold tab. foks. Qed.
  Let SEP : Forall (separated no nv M) tab. Proof. unfold tab. fses. Qed.
  Definition fdq : list sval := [SFull 0 [0;0]%N; SFull 1 [0;0;0;0]%N; at_ 3 [0;0;1;1]%N; at_ 5 [0;0;0;0;1;1;1;1]%N; SSl 0; SSl 1].
  Let fdq_vs : Forall2 (fr_vsim no nv M tab) fdq [VT f; VT g; VT t2; VT t4; o_ no; v_ no]. Proof. unfold fdq. fvs HM. Qed.
  Definition fdqA : list sval := [SFull 0 [1;1]%N; SFull 1 [1;1;1;1]%N; at_ 3 [2;2;4;4]%N; at_ 5 [2;2;2;2;4;4;4;4]%N; SSl 2; SSl 3].
  Let fdqA_vs : Forall2 (fr_vsim no nv M tab) fdqA [VT fA; VT gA; VT t2A; VT t4A; o_ (fno M FA); v_ (fno M FA)]. Proof. unfold fdqA. fvs HM. Qed.
  Definition fdqB : list sval := [SFull 0 [2;2]%N; SFull 1 [2;2;2;2]%N; at_ 3 [3;3;5;5]%N; at_ 5 [3;3;3;3;5;5;5;5]%N; SSl 4; SSl 5].
  Let fdqB_vs : Forall2 (fr_vsim no nv M tab) fdqB [VT fB; VT gB; VT t2B; VT t4B; o_ (fno M FB); v_ (fno M FB)]. Proof. unfold fdqB. fvs HM. Qed.
  Definition fdqe : list sval := [at_ 3 [0;0;1;1]%N; SFull 1 [0;0;0;0]%N; SFull 0 [0;0]%N; SSl 0; SSl 1; SNone].
  Let fdqe_vs : Forall2 (fr_vsim no nv M tab) fdqe [VT t2; VT g; VT f; o_ no; v_ no; VNone]. Proof. unfold fdqe. fvs HM. Qed.
  Definition fdqeA : list sval := [at_ 3 [2;2;4;4]%N; SFull 1 [1;1;1;1]%N; SFull 0 [1;1]%N; SSl 2; SSl 3; SNone].
  Let fdqeA_vs : Forall2 (fr_vsim no nv M tab) fdqeA [VT t2A; VT gA; VT fA; o_ (fno M FA); v_ (fno M FA); VNone]. Proof. unfold fdqeA. fvs HM. Qed.
  Definition fdqeB : list sval := [at_ 3 [3;3;5;5]%N; SFull 1 [2;2;2;2]%N; SFull 0 [2;2]%N; SSl 4; SSl 5; SNone].
  Let fdqeB_vs : Forall2 (fr_vsim no nv M tab) fdqeB [VT t2B; VT gB; VT fB; o_ (fno M FB); v_ (fno M FB); VNone]. Proof. unfold fdqeB. fvs HM. Qed.
  Lemma f_ccdq2 : assembles M no nv 1 lib_tamps Code_ccdq_eqns.ccdq_t2eqns (ov_kinds 2)
    [VT f; VT g; VT t2; VT t4; o_ no; v_ no]
    [VT fA; VT gA; VT t2A; VT t4A; o_ (fno M FA); v_ (fno M FA)]
    [VT fB; VT gB; VT t2B; VT t4B; o_ (fno M FB); v_ (fno M FB)].
  Proof.
    assert (C : sepchk (ov_kinds 2) (srun fr_slm 1 lib_tamps (before Code_ccdq_eqns.ccdq_t2eqns) fdq) = true) by frchk.
    assert (PA : prt FA (ov_kinds 2) (srun fr_slm 1 lib_tamps (before Code_ccdq_eqns.ccdq_t2eqns) fdq) (srun fr_slm 1 lib_tamps (before Code_ccdq_eqns.ccdq_t2eqns) fdqA)) by frchk.
    assert (PB : prt FB (ov_kinds 2) (srun fr_slm 1 lib_tamps (before Code_ccdq_eqns.ccdq_t2eqns) fdq) (srun fr_slm 1 lib_tamps (before Code_ccdq_eqns.ccdq_t2eqns) fdqB)) by frchk.
    exact (fr_end no nv M HM tab OK SEP Code_ccdq_eqns.ccdq_t2eqns "tamps.antisym_T2" Code_tamps.antisym_T2 2 _ _ _ _ _ _ fdq_vs fdqA_vs fdqB_vs eq_refl eq_refl shut2 C PA PB).
  Qed.
  Lemma f_ccdq4 : assembles M no nv 1 lib_tamps Code_ccdq_eqns.ccdq_t4eqns (ov_kinds 4)
    [VT f; VT g; VT t2; VT t4; o_ no; v_ no]
    [VT fA; VT gA; VT t2A; VT t4A; o_ (fno M FA); v_ (fno M FA)]
    [VT fB; VT gB; VT t2B; VT t4B; o_ (fno M FB); v_ (fno M FB)].
  Proof.
    assert (C : sepchk (ov_kinds 4) (srun fr_slm 1 lib_tamps (before Code_ccdq_eqns.ccdq_t4eqns) fdq) = true) by frchk.
    assert (PA : prt FA (ov_kinds 4) (srun fr_slm 1 lib_tamps (before Code_ccdq_eqns.ccdq_t4eqns) fdq) (srun fr_slm 1 lib_tamps (before Code_ccdq_eqns.ccdq_t4eqns) fdqA)) by frchk.
    assert (PB : prt FB (ov_kinds 4) (srun fr_slm 1 lib_tamps (before Code_ccdq_eqns.ccdq_t4eqns) fdq) (srun fr_slm 1 lib_tamps (before Code_ccdq_eqns.ccdq_t4eqns) fdqB)) by frchk.
    exact (fr_end no nv M HM tab OK SEP Code_ccdq_eqns.ccdq_t4eqns "tamps.antisym_T4" Code_tamps.antisym_T4 4 _ _ _ _ _ _ fdq_vs fdqA_vs fdqB_vs eq_refl eq_refl shut4 C PA PB).
  Qed.
  Lemma f_ccdqE : adds 1 lib_tamps Code_cc_energy.spinorbitalCCSDE_noT1
    [VT t2; VT g; VT f; o_ no; v_ no; VNone]
    [VT t2A; VT gA; VT fA; o_ (fno M FA); v_ (fno M FA); VNone]
    [VT t2B; VT gB; VT fB; o_ (fno M FB); v_ (fno M FB); VNone].
  Proof.
    assert (C : sumchk (srun fr_slm 1 lib_tamps Code_cc_energy.spinorbitalCCSDE_noT1 fdqe) (srun fr_slm 1 lib_tamps Code_cc_energy.spinorbitalCCSDE_noT1 fdqeA) (srun fr_slm 1 lib_tamps Code_cc_energy.spinorbitalCCSDE_noT1 fdqeB)) by frchk.
    exact (fr_energy no nv M HM tab OK SEP _ _ _ _ _ _ _ _ _ fdqe_vs fdqeA_vs fdqeB_vs C).
  Qed.
End CCDQ.

(** ** The theorems *)
(** C19: the CCD residual, the quadratic part that LCCD leaves out, and the CCD energy. *)
Theorem C19_ccd_size_consistent : forall no nv M f fA fB g gA gB t2 t2A t2B, frag_ok no nv M ->
  is_fock (no + nv) f -> is_tei (no + nv) g -> is_amp 2 no nv t2 ->
  assembled M no [Al; Al] f fA fB -> assembled M no [Al; Al; Al; Al] g gA gB -> assembled M no (vo_kinds 2) t2 t2A t2B ->
  let whole := [VT t2; VT f; VT g; o_ no; v_ no] in
  let A := [VT t2A; VT fA; VT gA; o_ (fno M FA); v_ (fno M FA)] in
  let B := [VT t2B; VT fB; VT gB; o_ (fno M FB); v_ (fno M FB)] in
  assembles M no nv 0 [] Code_t2residEqnsSlow.ccd_t2residual (vo_kinds 2) whole A B /\
  assembles M no nv 0 [] Code_t2residEqnsSlow.doubles_resLCCDoffset (vo_kinds 2) whole A B /\
  adds 0 [] Code_t2energySlow.ccdEnergy whole A B.
Proof.
  intros no nv M f fA fB g gA gB t2 t2A t2B HM Hf Hg H2 Af Ag A2 whole A B. split; [|split].
  - apply f_ccd; assumption. - apply f_lccd; assumption. - eapply f_ccdE; eassumption.
Qed.
Print Assumptions C19_ccd_size_consistent.
Local Notation dc ks t := (decouple two_frags 4 ks t).
Example C19_ccd_instance := C19_ccd_size_consistent 4 4 two_frags _ _ _ _ _ _ _ _ _ two_frags_ok
  (decouple_fock two_frags 4 8 _ (i_fock_ok 8)) (decouple_tei two_frags 4 8 _ (i_tei_ok 8)) (decouple_amp two_frags 4 2 4 _ (i_amp_ok 2 4 4))
  (decouple_assembled two_frags 4 4 _ _ two_frags_ok) (decouple_assembled two_frags 4 4 _ _ two_frags_ok) (decouple_assembled two_frags 4 4 _ _ two_frags_ok).
(** The arrays of the instance are not zero. *)
Example C19_instance_nonzero : data (dc (vo_kinds 2) (i_amp 2 4 4)) [0; 2; 0; 2]%nat <> 0%Qc /\ data (dc [Al; Al; Al; Al] (i_tei 8)) [1; 3; 5; 7]%nat <> 0%Qc /\
  data (dc [Al; Al; Al; Al] (i_tei 8)) [1; 3; 4; 7]%nat = 0%Qc.
Proof. split; [|split]; [intros H; apply (f_equal this) in H; vm_compute in H; discriminate|intros H; apply (f_equal this) in H; vm_compute in H; discriminate|apply Qc_is_canon; vm_compute; reflexivity]. Qed.

(** Whatever the two fragments are and however their orbitals are interleaved, the solutions of the fragment equations together solve the
    equations of the whole system, and its energy is the sum of the fragment energies. *)
Theorem C19_ccd_fragment_solutions : forall no nv M fA gA t2A fB gB t2B RA RB EA EB, frag_ok no nv M ->
  is_fock (fno M FA + fnv M FA) fA -> is_tei (fno M FA + fnv M FA) gA -> is_amp 2 (fno M FA) (fnv M FA) t2A ->
  is_fock (fno M FB + fnv M FB) fB -> is_tei (fno M FB + fnv M FB) gB -> is_amp 2 (fno M FB) (fnv M FB) t2B ->
  returns 0 [] Code_t2residEqnsSlow.ccd_t2residual [VT t2A; VT fA; VT gA; o_ (fno M FA); v_ (fno M FA)] RA -> zero_tensor RA ->
  returns 0 [] Code_t2residEqnsSlow.ccd_t2residual [VT t2B; VT fB; VT gB; o_ (fno M FB); v_ (fno M FB)] RB -> zero_tensor RB ->
  returns 0 [] Code_t2energySlow.ccdEnergy [VT t2A; VT fA; VT gA; o_ (fno M FA); v_ (fno M FA)] EA ->
  returns 0 [] Code_t2energySlow.ccdEnergy [VT t2B; VT fB; VT gB; o_ (fno M FB); v_ (fno M FB)] EB ->
  exists f g t2 R E,
    is_fock (no + nv) f /\ is_tei (no + nv) g /\ is_amp 2 no nv t2 /\
    assembled M no [Al; Al] f fA fB /\ assembled M no [Al; Al; Al; Al] g gA gB /\ assembled M no (vo_kinds 2) t2 t2A t2B /\
    returns 0 [] Code_t2residEqnsSlow.ccd_t2residual [VT t2; VT f; VT g; o_ no; v_ no] R /\ shape R = [nv; nv; no; no] /\ zero_tensor R /\
    returns 0 [] Code_t2energySlow.ccdEnergy [VT t2; VT f; VT g; o_ no; v_ no] E /\ data E [] = (data EA [] + data EB [])%Qc.
Proof.
  intros no nv M fA gA t2A fB gB t2B RA RB EA EB HM HfA HgA HtA HfB HgB HtB QA ZA QB ZB GA GB.
  set (f := join no nv M [Al; Al] fA fB). set (g := join no nv M [Al; Al; Al; Al] gA gB). set (t2 := join no nv M (vo_kinds 2) t2A t2B).
  assert (Hf : is_fock (no + nv) f) by (apply join_fock; assumption).
  assert (Hg : is_tei (no + nv) g) by (apply join_tei; assumption).
  assert (Ht : is_amp 2 no nv t2) by (apply join_amp; assumption).
  assert (Af : assembled M no [Al; Al] f fA fB) by (apply (join_assembled no nv M HM); [discriminate|apply HfA|apply HfB]).
  assert (Ag : assembled M no [Al; Al; Al; Al] g gA gB) by (apply (join_assembled no nv M HM); [discriminate|apply HgA|apply HgB]).
  assert (At : assembled M no (vo_kinds 2) t2 t2A t2B) by (apply (join_assembled no nv M HM); [discriminate|rewrite vo_shape; apply HtA|rewrite vo_shape; apply HtB]).
  destruct (C19_ccd_size_consistent no nv M f fA fB g gA gB t2 t2A t2B HM Hf Hg Ht Af Ag At) as [[R [RA' [RB' [E1 [E2 [E3 [SR AR]]]]]]] [_ [E [EA' [EB' [E4 [E5 [E6 [_ [_ [_ S]]]]]]]]]]].
  assert (RA' = RA) by (unfold returns in *; congruence). assert (RB' = RB) by (unfold returns in *; congruence).
  assert (EA' = EA) by (unfold returns in *; congruence). assert (EB' = EB) by (unfold returns in *; congruence). subst.
  exists f, g, t2, R, E. repeat (split; [assumption|]).
  split; [eapply (assembled_zero no nv M (vo_kinds 2)); [exact HM|reflexivity|exact SR|exact AR|exact ZA|exact ZB]|]. split; assumption.
Qed.
Print Assumptions C19_ccd_fragment_solutions.

(** An instance: two fragments with a constant Fock matrix, no interaction between their electrons and any doubles amplitudes. *)
Definition c_fock : tensor := mkT [4; 4]%nat (fun idx => match idx with [p; q] => if Nat.eqb p q then Q2Qc (3 # 2) else 0%Qc | _ => 0%Qc end).
Definition c_tei : tensor := mkT [4; 4; 4; 4]%nat (fun _ => 0%Qc).
Lemma c_fock_ok : is_fock 4 c_fock.
Proof.
  split; [reflexivity|]. intros [|p [|? ?]] [|q [|? ?]]; try discriminate. intros _ _ _. cbn [app c_fock data]. rewrite (Nat.eqb_sym q p). reflexivity.
Qed.
Lemma c_tei_ok : is_tei 4 c_tei.
Proof. split; [reflexivity|]. split; [intros i _; split; intros pre x y post _ _ _; cbn [c_tei data]; ring|intros l1 l2 _ _ _; reflexivity]. Qed.
Example C19_ccd_fragment_solutions_instance : exists R E f g t2,
  assembled two_frags 4 (vo_kinds 2) t2 (i_amp 2 2 2) (i_amp 2 2 2) /\
  returns 0 [] Code_t2residEqnsSlow.ccd_t2residual [VT t2; VT f; VT g; o_ 4; v_ 4] R /\ zero_tensor R /\
  returns 0 [] Code_t2energySlow.ccdEnergy [VT t2; VT f; VT g; o_ 4; v_ 4] E /\ data E [] = Q2Qc 6.
Proof.
  assert (HR : exists R, returns 0 [] Code_t2residEqnsSlow.ccd_t2residual [VT (i_amp 2 2 2); VT c_fock; VT c_tei; o_ 2; v_ 2] R /\ zero_tensor R).
  { assert (C : match run 0 [] Code_t2residEqnsSlow.ccd_t2residual [VT (i_amp 2 2 2); VT c_fock; VT c_tei; o_ 2; v_ 2] with
                | Some (VT R) => forallb (fun idx => Qeq_bool (this (data R idx)) (0 # 1)) (all_idx (shape R)) | _ => false end = true) by (vm_cast_no_check (eq_refl true)).
    unfold returns. destruct (run 0 [] _ _) as [[R| | | |]|]; try discriminate. exists R. split; [reflexivity|]. intros idx Hi. rewrite forallb_forall in C.
    apply Qc_is_canon. apply Qeq_bool_iff. apply C. apply in_all_idx. exact Hi. }
  assert (HE : exists E, returns 0 [] Code_t2energySlow.ccdEnergy [VT (i_amp 2 2 2); VT c_fock; VT c_tei; o_ 2; v_ 2] E /\ data E [] = Q2Qc 3).
  { assert (C : match run 0 [] Code_t2energySlow.ccdEnergy [VT (i_amp 2 2 2); VT c_fock; VT c_tei; o_ 2; v_ 2] with
                | Some (VT R) => Qeq_bool (this (data R [])) (3 # 1) | _ => false end = true) by (vm_cast_no_check (eq_refl true)).
    unfold returns. destruct (run 0 [] _ _) as [[R| | | |]|]; try discriminate. exists R. split; [reflexivity|].
    apply Qc_is_canon. apply Qeq_bool_iff. exact C. }
  destruct HR as [R [R1 R2]], HE as [E [E1 E2]].
  destruct (C19_ccd_fragment_solutions 4 4 two_frags c_fock c_tei (i_amp 2 2 2) c_fock c_tei (i_amp 2 2 2) R R E E two_frags_ok
    c_fock_ok c_tei_ok (i_amp_ok 2 2 2) c_fock_ok c_tei_ok (i_amp_ok 2 2 2) R1 R2 R1 R2 E1 E1) as [f [g [t2 [R' [E' [_ [_ [_ [_ [_ [A [Q1 [_ [Q2 [Q3 Q4]]]]]]]]]]]]]]].
  exists R', E', f, g, t2. split; [exact A|]. split; [exact Q1|]. split; [exact Q2|]. split; [exact Q3|]. rewrite Q4, E2. apply Qc_is_canon; vm_compute; reflexivity.
Qed.

(** C19 for the factorised-quadruples corrections of the residual (CCDQf-1, CCDQf-2) and of the energy (CCD(Qf)). *)
Theorem C19_qf_size_consistent : forall no nv M g gA gB t2 t2A t2B l2 l2A l2B, frag_ok no nv M ->
  is_tei (no + nv) g -> is_amp 2 no nv t2 -> is_amp_ov 2 no nv l2 ->
  assembled M no [Al; Al; Al; Al] g gA gB -> assembled M no (vo_kinds 2) t2 t2A t2B -> assembled M no (ov_kinds 2) l2 l2A l2B ->
  let whole := [VT g; VT l2; VT t2; o_ no; v_ no] in
  let A := [VT gA; VT l2A; VT t2A; o_ (fno M FA); v_ (fno M FA)] in
  let B := [VT gB; VT l2B; VT t2B; o_ (fno M FB); v_ (fno M FB)] in
  assembles M no nv 0 [] Code_modify_T2resid_T4Qf1Slow.residQf1_aaaa (vo_kinds 2) whole A B /\
  assembles M no nv 0 [] Code_modify_T2resid_T4Qf2Slow.residQf2_aaaa (vo_kinds 2) whole A B /\
  adds 0 [] Code_modify_T2energy_pertQfSlow.energy_pertQf whole A B.
Proof.
  intros no nv M g gA gB t2 t2A t2B l2 l2A l2B HM Hg H2 Hl Ag A2 Al whole A B. split; [|split].
  - apply f_qf1; assumption. - apply f_qf2; assumption. - eapply f_qfE; eassumption.
Qed.
Print Assumptions C19_qf_size_consistent.
Example C19_qf_instance := C19_qf_size_consistent 4 4 two_frags _ _ _ _ _ _ _ _ _ two_frags_ok
  (decouple_tei two_frags 4 8 _ (i_tei_ok 8)) (decouple_amp two_frags 4 2 4 _ (i_amp_ok 2 4 4)) (decouple_amp_ov two_frags 4 2 4 _ (i_amp_ov_ok 2 4 4))
  (decouple_assembled two_frags 4 4 _ _ two_frags_ok) (decouple_assembled two_frags 4 4 _ _ two_frags_ok) (decouple_assembled two_frags 4 4 _ _ two_frags_ok).

(** C19 for CCSD and CCSDT. *)
Theorem C19_ccsdt_size_consistent : forall no nv M f fA fB g gA gB t1 t1A t1B t2 t2A t2B t3 t3A t3B, frag_ok no nv M ->
  is_fock (no + nv) f -> is_tei (no + nv) g -> is_amp_ov 1 no nv t1 -> is_amp_ov 2 no nv t2 -> is_amp_ov 3 no nv t3 ->
  assembled M no [Al; Al] f fA fB -> assembled M no [Al; Al; Al; Al] g gA gB ->
  assembled M no (ov_kinds 1) t1 t1A t1B -> assembled M no (ov_kinds 2) t2 t2A t2B -> assembled M no (ov_kinds 3) t3 t3A t3B ->
  let nA := fno M FA in let nB := fno M FB in
  assembles M no nv 1 lib_tamps Code_cc_eqns.ccsd_t1resid (ov_kinds 1)
    [VT f; VT g; VT t1; VT t2; o_ no; v_ no] [VT fA; VT gA; VT t1A; VT t2A; o_ nA; v_ nA] [VT fB; VT gB; VT t1B; VT t2B; o_ nB; v_ nB] /\
  assembles M no nv 1 lib_tamps Code_cc_eqns.ccsd_t2resid (ov_kinds 2)
    [VT f; VT g; VT t1; VT t2; o_ no; v_ no; VInt no; VInt nv] [VT fA; VT gA; VT t1A; VT t2A; o_ nA; v_ nA; VInt nA; VInt (fnv M FA)]
    [VT fB; VT gB; VT t1B; VT t2B; o_ nB; v_ nB; VInt nB; VInt (fnv M FB)] /\
  (let whole := [VT f; VT g; VT t1; VT t2; VT t3; o_ no; v_ no] in
   let A := [VT fA; VT gA; VT t1A; VT t2A; VT t3A; o_ nA; v_ nA] in let B := [VT fB; VT gB; VT t1B; VT t2B; VT t3B; o_ nB; v_ nB] in
   assembles M no nv 1 lib_tamps Code_ccsdt_eqns.ccsdt_t1eqns (ov_kinds 1) whole A B /\
   assembles M no nv 1 lib_tamps Code_ccsdt_eqns.ccsdt_t2eqns (ov_kinds 2) whole A B /\
   assembles M no nv 1 lib_tamps Code_ccsdt_eqns.ccsdt_t3eqns (ov_kinds 3) whole A B) /\
  adds 1 lib_tamps Code_cc_energy.spinorbitalCCSDE_T1
    [VT t2; VT g; VT f; o_ no; v_ no; VT t1] [VT t2A; VT gA; VT fA; o_ nA; v_ nA; VT t1A] [VT t2B; VT gB; VT fB; o_ nB; v_ nB; VT t1B].
Proof.
  intros no nv M f fA fB g gA gB t1 t1A t1B t2 t2A t2B t3 t3A t3B HM Hf Hg H1 H2 H3 Af Ag A1 A2 A3 nA nB.
  split; [apply f_ccsd1; assumption|]. split; [apply f_ccsd2; assumption|]. split; [|eapply f_ccsdE; eassumption].
  intros whole A B. split; [apply f_ccsdt1; assumption|]. split; [apply f_ccsdt2; assumption|apply f_ccsdt3; assumption].
Qed.
Print Assumptions C19_ccsdt_size_consistent.
Example C19_ccsdt_instance := C19_ccsdt_size_consistent 4 4 two_frags _ _ _ _ _ _ _ _ _ _ _ _ _ _ _ two_frags_ok
  (decouple_fock two_frags 4 8 _ (i_fock_ok 8)) (decouple_tei two_frags 4 8 _ (i_tei_ok 8))
  (decouple_amp_ov two_frags 4 1 4 _ (i_amp_ov_ok 1 4 4)) (decouple_amp_ov two_frags 4 2 4 _ (i_amp_ov_ok 2 4 4)) (decouple_amp_ov two_frags 4 3 4 _ (i_amp_ov_ok 3 4 4))
  (decouple_assembled two_frags 4 4 _ _ two_frags_ok) (decouple_assembled two_frags 4 4 _ _ two_frags_ok) (decouple_assembled two_frags 4 4 _ _ two_frags_ok)
  (decouple_assembled two_frags 4 4 _ _ two_frags_ok) (decouple_assembled two_frags 4 4 _ _ two_frags_ok).

(** C19 for CCDQ. *)
Theorem C19_ccdq_size_consistent : forall no nv M f fA fB g gA gB t2 t2A t2B t4 t4A t4B, frag_ok no nv M ->
  is_fock (no + nv) f -> is_tei (no + nv) g -> is_amp_ov 2 no nv t2 -> is_amp_ov 4 no nv t4 ->
  assembled M no [Al; Al] f fA fB -> assembled M no [Al; Al; Al; Al] g gA gB ->
  assembled M no (ov_kinds 2) t2 t2A t2B -> assembled M no (ov_kinds 4) t4 t4A t4B ->
  let nA := fno M FA in let nB := fno M FB in
  let whole := [VT f; VT g; VT t2; VT t4; o_ no; v_ no] in
  let A := [VT fA; VT gA; VT t2A; VT t4A; o_ nA; v_ nA] in let B := [VT fB; VT gB; VT t2B; VT t4B; o_ nB; v_ nB] in
  assembles M no nv 1 lib_tamps Code_ccdq_eqns.ccdq_t2eqns (ov_kinds 2) whole A B /\
  assembles M no nv 1 lib_tamps Code_ccdq_eqns.ccdq_t4eqns (ov_kinds 4) whole A B /\
  adds 1 lib_tamps Code_cc_energy.spinorbitalCCSDE_noT1
    [VT t2; VT g; VT f; o_ no; v_ no; VNone] [VT t2A; VT gA; VT fA; o_ nA; v_ nA; VNone] [VT t2B; VT gB; VT fB; o_ nB; v_ nB; VNone].
Proof.
  intros no nv M f fA fB g gA gB t2 t2A t2B t4 t4A t4B HM Hf Hg H2 H4 Af Ag A2 A4 nA nB whole A B.
  split; [apply f_ccdq2; assumption|]. split; [apply f_ccdq4; assumption|eapply f_ccdqE; eassumption].
Qed.
Print Assumptions C19_ccdq_size_consistent.
Example C19_ccdq_instance := C19_ccdq_size_consistent 4 4 two_frags _ _ _ _ _ _ _ _ _ _ _ _ two_frags_ok
  (decouple_fock two_frags 4 8 _ (i_fock_ok 8)) (decouple_tei two_frags 4 8 _ (i_tei_ok 8))
  (decouple_amp_ov two_frags 4 2 4 _ (i_amp_ov_ok 2 4 4)) (decouple_amp_ov two_frags 4 4 4 _ (i_amp_ov_ok 4 4 4))
  (decouple_assembled two_frags 4 4 _ _ two_frags_ok) (decouple_assembled two_frags 4 4 _ _ two_frags_ok)
  (decouple_assembled two_frags 4 4 _ _ two_frags_ok) (decouple_assembled two_frags 4 4 _ _ two_frags_ok).
