(** C67: the spin-orbital methods do not depend on which orthonormal orbitals span the occupied space and which span the virtual space.
    If the integrals and amplitudes are transformed to new orbitals, every residual is transformed in the same way and every energy is
    unchanged.  No symmetry of the arrays is assumed. *)
From Coq Require Import String Ascii List Arith NArith ZArith QArith Qcanon Bool Lia Permutation.
From Verif Require Import Sums Tensor Interp Poly SymExec Canon Numpy Spec SpecFrag SpecRot Instances Setup Master Spin Check Tabs Frag P_wanti Rot RotTabs.
From Verif Require Code_tamps Code_cc_eqns Code_ccsdt_eqns Code_ccdq_eqns Code_cc_energy Code_t2residEqnsSlow Code_t2energySlow
  Code_modify_T2resid_T4Qf1Slow Code_modify_T2resid_T4Qf2Slow Code_modify_T2energy_pertQfSlow.
From Coq Require Import List.
Import ListNotations.
Open Scope string_scope.
Open Scope list_scope.
Open Scope Qc_scope.

(** [f] called with the arguments [v] (old orbitals) and [v'] (new orbitals): the results are the same array in the two sets of orbitals. *)
Definition rotates (no nv : nat) (Uo Uv : nat -> nat -> Qc) (d : nat) (lib : list (string * fn)) (f : fn) (ks : list kind) (v v' : list value) : Prop :=
  exists R R', returns d lib f v R /\ returns d lib f v' R' /\ rotated no nv Uo Uv ks R R'.
(** [f] returns the same number for the arguments [v] and [v']. *)
Definition same_number (d : nat) (lib : list (string * fn)) (f : fn) (v v' : list value) : Prop :=
  exists E E', returns d lib f v E /\ returns d lib f v' E' /\ shape E = [] /\ shape E' = [] /\ data E' [] = data E [].
Lemma rotates_number no nv Uo Uv d lib f v v' : rotates no nv Uo Uv d lib f [] v v' -> same_number d lib f v v'.
Proof. intros [E [E' [H1 [H2 [S1 [S2 H]]]]]]. exists E, E'. repeat split; try assumption. rewrite H; [reflexivity|]. rewrite S2. constructor. Qed.

Section Methods.
  Variables no nv : nat.
  Variables Uo Uv : nat -> nat -> Qc.
  Hypothesis Ho : orthogonal no Uo.
  Hypothesis Hv : orthogonal nv Uv.
  Local Notation rotd := (rotated no nv Uo Uv).
  Local Notation rots := (rotates no nv Uo Uv).
  Variables f f' g g' : tensor.
  Hypothesis Hf : rotd [Al; Al] f f'.
  Hypothesis Hg : rotd [Al; Al; Al; Al] g g'.
  Local Notation RES T := (rot_residual no nv Uo Uv Ho Hv _ _ T).

  (** *** CCD, LCCD *)
  Section CCD.
    Variables t2 t2' : tensor.
    Hypothesis H2 : rotd (vo_kinds 2) t2 t2'.
    Let tab (f g t2 : tensor) : atomtab := [(0%N, ([6;6]%N, f)); (1%N, ([6;6;6;6]%N, g)); (3%N, ([1;1;0;0]%N, t2))].
    Let OK : Forall2 (rtab no nv Uo Uv) (tab f g t2) (tab f' g' t2'). Proof. unfold tab. rtabs. Qed.
    Definition rdd : list sval := [at_ 3 [1;1;0;0]%N; SFull 0 [0;0]%N; SFull 1 [0;0;0;0]%N; SSl 0; SSl 1].
    Let V : Forall2 (so_vsim no nv (tab f g t2)) rdd [VT t2; VT f; VT g; o_ no; v_ no]. Proof. unfold rdd. rvs. Qed.
    Let V' : Forall2 (so_vsim no nv (tab f' g' t2')) rdd [VT t2'; VT f'; VT g'; o_ no; v_ no]. Proof. unfold rdd. rvs. Qed.
    Lemma r_ccd : rots 0 [] Code_t2residEqnsSlow.ccd_t2residual (vo_kinds 2) [VT t2; VT f; VT g; o_ no; v_ no] [VT t2'; VT f'; VT g'; o_ no; v_ no].
    Proof. assert (C : rotchk (vo_kinds 2) (srun so_slm 0 [] Code_t2residEqnsSlow.ccd_t2residual rdd) = true) by rtchk. exact (RES OK _ _ _ _ _ _ _ V V' C). Qed.
    Lemma r_lccd : rots 0 [] Code_t2residEqnsSlow.doubles_resLCCDoffset (vo_kinds 2) [VT t2; VT f; VT g; o_ no; v_ no] [VT t2'; VT f'; VT g'; o_ no; v_ no].
    Proof. assert (C : rotchk (vo_kinds 2) (srun so_slm 0 [] Code_t2residEqnsSlow.doubles_resLCCDoffset rdd) = true) by rtchk. exact (RES OK _ _ _ _ _ _ _ V V' C). Qed.
    Lemma r_ccdE : same_number 0 [] Code_t2energySlow.ccdEnergy [VT t2; VT f; VT g; o_ no; v_ no] [VT t2'; VT f'; VT g'; o_ no; v_ no].
    Proof. assert (C : rotchk [] (srun so_slm 0 [] Code_t2energySlow.ccdEnergy rdd) = true) by rtchk. exact (rotates_number _ _ _ _ _ _ _ _ _ (RES OK _ _ _ _ _ _ _ V V' C)). Qed.
    (** *** the factorised-quadruples corrections *)
    Variables l2 l2' : tensor.
    Hypothesis Hl : rotd (ov_kinds 2) l2 l2'.
    Let tabq (g t2 l2 : tensor) : atomtab := [(1%N, ([6;6;6;6]%N, g)); (3%N, ([1;1;0;0]%N, t2)); (6%N, ([0;0;1;1]%N, l2))].
    Let OKq : Forall2 (rtab no nv Uo Uv) (tabq g t2 l2) (tabq g' t2' l2'). Proof. unfold tabq. rtabs. Qed.
    Definition rqf : list sval := [SFull 1 [0;0;0;0]%N; at_ 6 [0;0;1;1]%N; at_ 3 [1;1;0;0]%N; SSl 0; SSl 1].
    Let Vq : Forall2 (so_vsim no nv (tabq g t2 l2)) rqf [VT g; VT l2; VT t2; o_ no; v_ no]. Proof. unfold rqf. rvs. Qed.
    Let Vq' : Forall2 (so_vsim no nv (tabq g' t2' l2')) rqf [VT g'; VT l2'; VT t2'; o_ no; v_ no]. Proof. unfold rqf. rvs. Qed.
    Lemma r_qf1 : rots 0 [] Code_modify_T2resid_T4Qf1Slow.residQf1_aaaa (vo_kinds 2) [VT g; VT l2; VT t2; o_ no; v_ no] [VT g'; VT l2'; VT t2'; o_ no; v_ no].
    Proof. assert (C : rotchk (vo_kinds 2) (srun so_slm 0 [] Code_modify_T2resid_T4Qf1Slow.residQf1_aaaa rqf) = true) by rtchk. exact (RES OKq _ _ _ _ _ _ _ Vq Vq' C). Qed.
    Lemma r_qf2 : rots 0 [] Code_modify_T2resid_T4Qf2Slow.residQf2_aaaa (vo_kinds 2) [VT g; VT l2; VT t2; o_ no; v_ no] [VT g'; VT l2'; VT t2'; o_ no; v_ no].
    Proof. assert (C : rotchk (vo_kinds 2) (srun so_slm 0 [] Code_modify_T2resid_T4Qf2Slow.residQf2_aaaa rqf) = true) by rtchk. exact (RES OKq _ _ _ _ _ _ _ Vq Vq' C). Qed.
    Lemma r_qfE : same_number 0 [] Code_modify_T2energy_pertQfSlow.energy_pertQf [VT g; VT l2; VT t2; o_ no; v_ no] [VT g'; VT l2'; VT t2'; o_ no; v_ no].
    Proof. assert (C : rotchk [] (srun so_slm 0 [] Code_modify_T2energy_pertQfSlow.energy_pertQf rqf) = true) by rtchk. exact (rotates_number _ _ _ _ _ _ _ _ _ (RES OKq _ _ _ _ _ _ _ Vq Vq' C)). Qed.
  End CCD.

  (** *** CCSD, CCSDT, CCDQ *)
  Section CC.
    Variables t1 t1' t2 t2' t3 t3' t4 t4' : tensor.
    Hypothesis H1 : rotd (ov_kinds 1) t1 t1'.
    Hypothesis H2 : rotd (ov_kinds 2) t2 t2'.
    Let tab (f g t1 t2 : tensor) : atomtab := [(0%N, ([6;6]%N, f)); (1%N, ([6;6;6;6]%N, g)); (2%N, ([0;1]%N, t1)); (3%N, ([0;0;1;1]%N, t2))].
    Let OK : Forall2 (rtab no nv Uo Uv) (tab f g t1 t2) (tab f' g' t1' t2'). Proof. unfold tab. rtabs. Qed.
    Definition rs1 : list sval := [SFull 0 [0;0]%N; SFull 1 [0;0;0;0]%N; at_ 2 [0;1]%N; at_ 3 [0;0;1;1]%N; SSl 0; SSl 1].
    Definition rs2 : list sval := [SFull 0 [0;0]%N; SFull 1 [0;0;0;0]%N; at_ 2 [0;1]%N; at_ 3 [0;0;1;1]%N; SSl 0; SSl 1; SDim 0%N; SDim 1%N].
    Definition rse : list sval := [at_ 3 [0;0;1;1]%N; SFull 1 [0;0;0;0]%N; SFull 0 [0;0]%N; SSl 0; SSl 1; at_ 2 [0;1]%N].
    Definition rsn : list sval := [at_ 3 [0;0;1;1]%N; SFull 1 [0;0;0;0]%N; SFull 0 [0;0]%N; SSl 0; SSl 1; SNone].
    Let A1 (f g t1 t2 : tensor) := [VT f; VT g; VT t1; VT t2; o_ no; v_ no].
    Let A2 (f g t1 t2 : tensor) := [VT f; VT g; VT t1; VT t2; o_ no; v_ no; VInt no; VInt nv].
    Let AE (f g t1 t2 : tensor) := [VT t2; VT g; VT f; o_ no; v_ no; VT t1].
    Lemma r_ccsd1 : rots 1 lib_tamps Code_cc_eqns.ccsd_t1resid (ov_kinds 1) (A1 f g t1 t2) (A1 f' g' t1' t2').
    Proof.
      assert (V : Forall2 (so_vsim no nv (tab f g t1 t2)) rs1 (A1 f g t1 t2)) by (unfold rs1, A1; rvs).
      assert (V' : Forall2 (so_vsim no nv (tab f' g' t1' t2')) rs1 (A1 f' g' t1' t2')) by (unfold rs1, A1; rvs).
      assert (C : rotchk (ov_kinds 1) (srun so_slm 1 lib_tamps Code_cc_eqns.ccsd_t1resid rs1) = true) by rtchk. exact (RES OK _ _ _ _ _ _ _ V V' C).
    Qed.
    Lemma r_ccsd2 : rots 1 lib_tamps Code_cc_eqns.ccsd_t2resid (ov_kinds 2) (A2 f g t1 t2) (A2 f' g' t1' t2').
    Proof.
      assert (V : Forall2 (so_vsim no nv (tab f g t1 t2)) rs2 (A2 f g t1 t2)) by (unfold rs2, A2; rvs).
      assert (V' : Forall2 (so_vsim no nv (tab f' g' t1' t2')) rs2 (A2 f' g' t1' t2')) by (unfold rs2, A2; rvs).
      assert (C : rotchk (ov_kinds 2) (srun so_slm 1 lib_tamps Code_cc_eqns.ccsd_t2resid rs2) = true) by rtchk. exact (RES OK _ _ _ _ _ _ _ V V' C).
    Qed.
    Lemma r_ccsdE : same_number 1 lib_tamps Code_cc_energy.spinorbitalCCSDE_T1 (AE f g t1 t2) (AE f' g' t1' t2').
    Proof.
      assert (V : Forall2 (so_vsim no nv (tab f g t1 t2)) rse (AE f g t1 t2)) by (unfold rse, AE; rvs).
      assert (V' : Forall2 (so_vsim no nv (tab f' g' t1' t2')) rse (AE f' g' t1' t2')) by (unfold rse, AE; rvs).
      assert (C : rotchk [] (srun so_slm 1 lib_tamps Code_cc_energy.spinorbitalCCSDE_T1 rse) = true) by rtchk. exact (rotates_number _ _ _ _ _ _ _ _ _ (RES OK _ _ _ _ _ _ _ V V' C)).
    Qed.
    Section T3.
      Hypothesis H3 : rotd (ov_kinds 3) t3 t3'.
      Let tab3 (f g t1 t2 t3 : tensor) : atomtab := [(0%N, ([6;6]%N, f)); (1%N, ([6;6;6;6]%N, g)); (2%N, ([0;1]%N, t1)); (3%N, ([0;0;1;1]%N, t2)); (4%N, ([0;0;0;1;1;1]%N, t3))].
      Let OK3 : Forall2 (rtab no nv Uo Uv) (tab3 f g t1 t2 t3) (tab3 f' g' t1' t2' t3'). Proof. unfold tab3. rtabs. Qed.
      Definition rsdt : list sval := [SFull 0 [0;0]%N; SFull 1 [0;0;0;0]%N; at_ 2 [0;1]%N; at_ 3 [0;0;1;1]%N; at_ 4 [0;0;0;1;1;1]%N; SSl 0; SSl 1].
      Let A3 (f g t1 t2 t3 : tensor) := [VT f; VT g; VT t1; VT t2; VT t3; o_ no; v_ no].
      Let V3 : Forall2 (so_vsim no nv (tab3 f g t1 t2 t3)) rsdt (A3 f g t1 t2 t3). Proof. unfold rsdt, A3. rvs. Qed.
      Let V3' : Forall2 (so_vsim no nv (tab3 f' g' t1' t2' t3')) rsdt (A3 f' g' t1' t2' t3'). Proof. unfold rsdt, A3. rvs. Qed.
      Lemma r_ccsdt1 : rots 1 lib_tamps Code_ccsdt_eqns.ccsdt_t1eqns (ov_kinds 1) (A3 f g t1 t2 t3) (A3 f' g' t1' t2' t3').
      Proof. assert (C : rotchk (ov_kinds 1) (srun so_slm 1 lib_tamps Code_ccsdt_eqns.ccsdt_t1eqns rsdt) = true) by rtchk. exact (RES OK3 _ _ _ _ _ _ _ V3 V3' C). Qed.
      Lemma r_ccsdt2 : rots 1 lib_tamps Code_ccsdt_eqns.ccsdt_t2eqns (ov_kinds 2) (A3 f g t1 t2 t3) (A3 f' g' t1' t2' t3').
      Proof.
        assert (C : rotchk (ov_kinds 2) (srun so_slm 1 lib_tamps (before Code_ccsdt_eqns.ccsdt_t2eqns) rsdt) = true) by rtchk.
        assert (C2 : rotchk (ov_kinds 2) (srun so_slm 0 lib_tamps Code_tamps.antisym_T2 [at_ 8 (map ksp (ov_kinds 2)); SNone; SNone]) = true) by rtchk.
        exact (rot_end no nv Uo Uv Ho Hv _ _ OK3 Code_ccsdt_eqns.ccsdt_t2eqns "tamps.antisym_T2" Code_tamps.antisym_T2 2 _ _ _ V3 V3' eq_refl eq_refl C C2).
      Qed.
      Lemma r_ccsdt3 : rots 1 lib_tamps Code_ccsdt_eqns.ccsdt_t3eqns (ov_kinds 3) (A3 f g t1 t2 t3) (A3 f' g' t1' t2' t3').
      Proof.
        assert (C : rotchk (ov_kinds 3) (srun so_slm 1 lib_tamps (before Code_ccsdt_eqns.ccsdt_t3eqns) rsdt) = true) by rtchk.
        assert (C2 : rotchk (ov_kinds 3) (srun so_slm 0 lib_tamps Code_tamps.antisym_T3 [at_ 8 (map ksp (ov_kinds 3)); SNone; SNone]) = true) by rtchk.
        exact (rot_end no nv Uo Uv Ho Hv _ _ OK3 Code_ccsdt_eqns.ccsdt_t3eqns "tamps.antisym_T3" Code_tamps.antisym_T3 3 _ _ _ V3 V3' eq_refl eq_refl C C2).
      Qed.
    End T3.
    Section T4.
      Hypothesis H4 : rotd (ov_kinds 4) t4 t4'.
      Let tab4 (f g t2 t4 : tensor) : atomtab := [(0%N, ([6;6]%N, f)); (1%N, ([6;6;6;6]%N, g)); (3%N, ([0;0;1;1]%N, t2)); (5%N, ([0;0;0;0;1;1;1;1]%N, t4))].
      Let OK4 : Forall2 (rtab no nv Uo Uv) (tab4 f g t2 t4) (tab4 f' g' t2' t4'). Proof. unfold tab4. rtabs. Qed.
      Definition rdq : list sval := [SFull 0 [0;0]%N; SFull 1 [0;0;0;0]%N; at_ 3 [0;0;1;1]%N; at_ 5 [0;0;0;0;1;1;1;1]%N; SSl 0; SSl 1].
      Let A4 (f g t2 t4 : tensor) := [VT f; VT g; VT t2; VT t4; o_ no; v_ no].
      Let AN (f g t2 : tensor) := [VT t2; VT g; VT f; o_ no; v_ no; VNone].
      Let V4 : Forall2 (so_vsim no nv (tab4 f g t2 t4)) rdq (A4 f g t2 t4). Proof. unfold rdq, A4. rvs. Qed.
      Let V4' : Forall2 (so_vsim no nv (tab4 f' g' t2' t4')) rdq (A4 f' g' t2' t4'). Proof. unfold rdq, A4. rvs. Qed.
      Lemma r_ccdq2 : rots 1 lib_tamps Code_ccdq_eqns.ccdq_t2eqns (ov_kinds 2) (A4 f g t2 t4) (A4 f' g' t2' t4').
      Proof.
        assert (C : rotchk (ov_kinds 2) (srun so_slm 1 lib_tamps (before Code_ccdq_eqns.ccdq_t2eqns) rdq) = true) by rtchk.
        assert (C2 : rotchk (ov_kinds 2) (srun so_slm 0 lib_tamps Code_tamps.antisym_T2 [at_ 8 (map ksp (ov_kinds 2)); SNone; SNone]) = true) by rtchk.
        exact (rot_end no nv Uo Uv Ho Hv _ _ OK4 Code_ccdq_eqns.ccdq_t2eqns "tamps.antisym_T2" Code_tamps.antisym_T2 2 _ _ _ V4 V4' eq_refl eq_refl C C2).
      Qed.
      Lemma r_ccdq4 : rots 1 lib_tamps Code_ccdq_eqns.ccdq_t4eqns (ov_kinds 4) (A4 f g t2 t4) (A4 f' g' t2' t4').
      Proof.
        assert (C : rotchk (ov_kinds 4) (srun so_slm 1 lib_tamps (before Code_ccdq_eqns.ccdq_t4eqns) rdq) = true) by rtchk.
        assert (C2 : rotchk (ov_kinds 4) (srun so_slm 0 lib_tamps Code_tamps.antisym_T4 [at_ 8 (map ksp (ov_kinds 4)); SNone; SNone]) = true) by rtchk.
        exact (rot_end no nv Uo Uv Ho Hv _ _ OK4 Code_ccdq_eqns.ccdq_t4eqns "tamps.antisym_T4" Code_tamps.antisym_T4 4 _ _ _ V4 V4' eq_refl eq_refl C C2).
      Qed.
      Lemma r_ccdqE : same_number 1 lib_tamps Code_cc_energy.spinorbitalCCSDE_noT1 (AN f g t2) (AN f' g' t2').
      Proof.
        assert (V : Forall2 (so_vsim no nv (tab4 f g t2 t4)) rsn (AN f g t2)) by (unfold rsn, AN; rvs).
        assert (V' : Forall2 (so_vsim no nv (tab4 f' g' t2' t4')) rsn (AN f' g' t2')) by (unfold rsn, AN; rvs).
        assert (C : rotchk [] (srun so_slm 1 lib_tamps Code_cc_energy.spinorbitalCCSDE_noT1 rsn) = true) by rtchk. exact (rotates_number _ _ _ _ _ _ _ _ _ (RES OK4 _ _ _ _ _ _ _ V V' C)).
      Qed.
    End T4.
  End CC.
End Methods.

(** C67 for CCD and LCCD: in the new orbitals the residuals are the transformed residuals and the energy is the same number. *)
Theorem C67_ccd_rotation : forall no nv Uo Uv f f' g g' t2 t2', orthogonal no Uo -> orthogonal nv Uv ->
  rotated no nv Uo Uv [Al; Al] f f' -> rotated no nv Uo Uv [Al; Al; Al; Al] g g' -> rotated no nv Uo Uv (vo_kinds 2) t2 t2' ->
  let old := [VT t2; VT f; VT g; o_ no; v_ no] in let new := [VT t2'; VT f'; VT g'; o_ no; v_ no] in
  rotates no nv Uo Uv 0 [] Code_t2residEqnsSlow.ccd_t2residual (vo_kinds 2) old new /\
  rotates no nv Uo Uv 0 [] Code_t2residEqnsSlow.doubles_resLCCDoffset (vo_kinds 2) old new /\
  same_number 0 [] Code_t2energySlow.ccdEnergy old new.
Proof. intros no nv Uo Uv f f' g g' t2 t2' Ho Hv Hf Hg H2 old new. split; [|split]; [eapply r_ccd|eapply r_lccd|eapply r_ccdE]; eassumption. Qed.
Print Assumptions C67_ccd_rotation.

(** C67 for the factorised-quadruples corrections. *)
Theorem C67_qf_rotation : forall no nv Uo Uv g g' t2 t2' l2 l2', orthogonal no Uo -> orthogonal nv Uv ->
  rotated no nv Uo Uv [Al; Al; Al; Al] g g' -> rotated no nv Uo Uv (vo_kinds 2) t2 t2' -> rotated no nv Uo Uv (ov_kinds 2) l2 l2' ->
  let old := [VT g; VT l2; VT t2; o_ no; v_ no] in let new := [VT g'; VT l2'; VT t2'; o_ no; v_ no] in
  rotates no nv Uo Uv 0 [] Code_modify_T2resid_T4Qf1Slow.residQf1_aaaa (vo_kinds 2) old new /\
  rotates no nv Uo Uv 0 [] Code_modify_T2resid_T4Qf2Slow.residQf2_aaaa (vo_kinds 2) old new /\
  same_number 0 [] Code_modify_T2energy_pertQfSlow.energy_pertQf old new.
Proof. intros no nv Uo Uv g g' t2 t2' l2 l2' Ho Hv Hg H2 Hl old new. split; [|split]; [eapply r_qf1|eapply r_qf2|eapply r_qfE]; eassumption. Qed.
Print Assumptions C67_qf_rotation.

(** C67 for CCSD and CCSDT. *)
Theorem C67_ccsdt_rotation : forall no nv Uo Uv f f' g g' t1 t1' t2 t2' t3 t3', orthogonal no Uo -> orthogonal nv Uv ->
  rotated no nv Uo Uv [Al; Al] f f' -> rotated no nv Uo Uv [Al; Al; Al; Al] g g' ->
  rotated no nv Uo Uv (ov_kinds 1) t1 t1' -> rotated no nv Uo Uv (ov_kinds 2) t2 t2' -> rotated no nv Uo Uv (ov_kinds 3) t3 t3' ->
  rotates no nv Uo Uv 1 lib_tamps Code_cc_eqns.ccsd_t1resid (ov_kinds 1) [VT f; VT g; VT t1; VT t2; o_ no; v_ no] [VT f'; VT g'; VT t1'; VT t2'; o_ no; v_ no] /\
  rotates no nv Uo Uv 1 lib_tamps Code_cc_eqns.ccsd_t2resid (ov_kinds 2)
    [VT f; VT g; VT t1; VT t2; o_ no; v_ no; VInt no; VInt nv] [VT f'; VT g'; VT t1'; VT t2'; o_ no; v_ no; VInt no; VInt nv] /\
  (let old := [VT f; VT g; VT t1; VT t2; VT t3; o_ no; v_ no] in let new := [VT f'; VT g'; VT t1'; VT t2'; VT t3'; o_ no; v_ no] in
   rotates no nv Uo Uv 1 lib_tamps Code_ccsdt_eqns.ccsdt_t1eqns (ov_kinds 1) old new /\
   rotates no nv Uo Uv 1 lib_tamps Code_ccsdt_eqns.ccsdt_t2eqns (ov_kinds 2) old new /\
   rotates no nv Uo Uv 1 lib_tamps Code_ccsdt_eqns.ccsdt_t3eqns (ov_kinds 3) old new) /\
  same_number 1 lib_tamps Code_cc_energy.spinorbitalCCSDE_T1 [VT t2; VT g; VT f; o_ no; v_ no; VT t1] [VT t2'; VT g'; VT f'; o_ no; v_ no; VT t1'].
Proof.
  intros no nv Uo Uv f f' g g' t1 t1' t2 t2' t3 t3' Ho Hv Hf Hg H1 H2 H3.
  split; [apply r_ccsd1; assumption|]. split; [apply r_ccsd2; assumption|]. split; [|eapply r_ccsdE; eassumption].
  intros old new. split; [apply r_ccsdt1; assumption|]. split; [apply r_ccsdt2; assumption|apply r_ccsdt3; assumption].
Qed.
Print Assumptions C67_ccsdt_rotation.

(** C67 for CCDQ. *)
Theorem C67_ccdq_rotation : forall no nv Uo Uv f f' g g' t2 t2' t4 t4', orthogonal no Uo -> orthogonal nv Uv ->
  rotated no nv Uo Uv [Al; Al] f f' -> rotated no nv Uo Uv [Al; Al; Al; Al] g g' -> rotated no nv Uo Uv (ov_kinds 2) t2 t2' -> rotated no nv Uo Uv (ov_kinds 4) t4 t4' ->
  let old := [VT f; VT g; VT t2; VT t4; o_ no; v_ no] in let new := [VT f'; VT g'; VT t2'; VT t4'; o_ no; v_ no] in
  rotates no nv Uo Uv 1 lib_tamps Code_ccdq_eqns.ccdq_t2eqns (ov_kinds 2) old new /\
  rotates no nv Uo Uv 1 lib_tamps Code_ccdq_eqns.ccdq_t4eqns (ov_kinds 4) old new /\
  same_number 1 lib_tamps Code_cc_energy.spinorbitalCCSDE_noT1 [VT t2; VT g; VT f; o_ no; v_ no; VNone] [VT t2'; VT g'; VT f'; o_ no; v_ no; VNone].
Proof.
  intros no nv Uo Uv f f' g g' t2 t2' t4 t4' Ho Hv Hf Hg H2 H4 old new.
  split; [apply r_ccdq2; assumption|]. split; [apply r_ccdq4; assumption|eapply r_ccdqE; eassumption].
Qed.
Print Assumptions C67_ccdq_rotation.

(** The transformed integrals and amplitudes have the symmetries that the methods assume of their inputs. *)
Theorem C67_rotation_keeps_symmetry : forall no nv Uo Uv,
  (forall f f', rotated no nv Uo Uv [Al; Al] f f' -> is_fock (no + nv) f -> is_fock (no + nv) f') /\
  (forall g g', rotated no nv Uo Uv [Al; Al; Al; Al] g g' -> is_tei (no + nv) g -> is_tei (no + nv) g') /\
  (forall k t t', rotated no nv Uo Uv (vo_kinds k) t t' -> is_amp k no nv t -> is_amp k no nv t') /\
  (forall k t t', rotated no nv Uo Uv (ov_kinds k) t t' -> is_amp_ov k no nv t -> is_amp_ov k no nv t').
Proof. intros no nv Uo Uv. repeat split; try (eapply rot_fock; eassumption); try (eapply rot_tei; eassumption); try (eapply rot_amp; eassumption); try (eapply rot_amp_ov; eassumption). Qed.
Print Assumptions C67_rotation_keeps_symmetry.

(** Solutions of the equations in the old orbitals become solutions in the new orbitals, with the same energy.
    [solves] says that the routine returns an array of zeros. *)
Definition solves (d : nat) (lib : list (string * fn)) (f : fn) (v : list value) : Prop := exists R, returns d lib f v R /\ zero_tensor R.
Lemma rotates_solves no nv Uo Uv d lib f ks v v' : rotates no nv Uo Uv d lib f ks v v' -> solves d lib f v -> solves d lib f v'.
Proof.
  intros [R [R' [H1 [H2 H]]]] [Q [HQ Z]]. assert (Q = R) by (unfold returns in *; congruence). subst Q. exists R'. split; [exact H2|]. eapply rotated_zero; eassumption.
Qed.
Theorem C67_solutions_rotate : forall no nv Uo Uv f f' g g', orthogonal no Uo -> orthogonal nv Uv ->
  rotated no nv Uo Uv [Al; Al] f f' -> rotated no nv Uo Uv [Al; Al; Al; Al] g g' ->
  (* CCD *)
  (forall t2 t2', rotated no nv Uo Uv (vo_kinds 2) t2 t2' ->
     solves 0 [] Code_t2residEqnsSlow.ccd_t2residual [VT t2; VT f; VT g; o_ no; v_ no] ->
     solves 0 [] Code_t2residEqnsSlow.ccd_t2residual [VT t2'; VT f'; VT g'; o_ no; v_ no] /\
     same_number 0 [] Code_t2energySlow.ccdEnergy [VT t2; VT f; VT g; o_ no; v_ no] [VT t2'; VT f'; VT g'; o_ no; v_ no]) /\
  (* CCSD *)
  (forall t1 t1' t2 t2', rotated no nv Uo Uv (ov_kinds 1) t1 t1' -> rotated no nv Uo Uv (ov_kinds 2) t2 t2' ->
     solves 1 lib_tamps Code_cc_eqns.ccsd_t1resid [VT f; VT g; VT t1; VT t2; o_ no; v_ no] ->
     solves 1 lib_tamps Code_cc_eqns.ccsd_t2resid [VT f; VT g; VT t1; VT t2; o_ no; v_ no; VInt no; VInt nv] ->
     solves 1 lib_tamps Code_cc_eqns.ccsd_t1resid [VT f'; VT g'; VT t1'; VT t2'; o_ no; v_ no] /\
     solves 1 lib_tamps Code_cc_eqns.ccsd_t2resid [VT f'; VT g'; VT t1'; VT t2'; o_ no; v_ no; VInt no; VInt nv] /\
     same_number 1 lib_tamps Code_cc_energy.spinorbitalCCSDE_T1 [VT t2; VT g; VT f; o_ no; v_ no; VT t1] [VT t2'; VT g'; VT f'; o_ no; v_ no; VT t1']) /\
  (* CCSDT *)
  (forall t1 t1' t2 t2' t3 t3', rotated no nv Uo Uv (ov_kinds 1) t1 t1' -> rotated no nv Uo Uv (ov_kinds 2) t2 t2' -> rotated no nv Uo Uv (ov_kinds 3) t3 t3' ->
     let old := [VT f; VT g; VT t1; VT t2; VT t3; o_ no; v_ no] in let new := [VT f'; VT g'; VT t1'; VT t2'; VT t3'; o_ no; v_ no] in
     solves 1 lib_tamps Code_ccsdt_eqns.ccsdt_t1eqns old -> solves 1 lib_tamps Code_ccsdt_eqns.ccsdt_t2eqns old -> solves 1 lib_tamps Code_ccsdt_eqns.ccsdt_t3eqns old ->
     solves 1 lib_tamps Code_ccsdt_eqns.ccsdt_t1eqns new /\ solves 1 lib_tamps Code_ccsdt_eqns.ccsdt_t2eqns new /\ solves 1 lib_tamps Code_ccsdt_eqns.ccsdt_t3eqns new /\
     same_number 1 lib_tamps Code_cc_energy.spinorbitalCCSDE_T1 [VT t2; VT g; VT f; o_ no; v_ no; VT t1] [VT t2'; VT g'; VT f'; o_ no; v_ no; VT t1']) /\
  (* CCDQ *)
  (forall t2 t2' t4 t4', rotated no nv Uo Uv (ov_kinds 2) t2 t2' -> rotated no nv Uo Uv (ov_kinds 4) t4 t4' ->
     let old := [VT f; VT g; VT t2; VT t4; o_ no; v_ no] in let new := [VT f'; VT g'; VT t2'; VT t4'; o_ no; v_ no] in
     solves 1 lib_tamps Code_ccdq_eqns.ccdq_t2eqns old -> solves 1 lib_tamps Code_ccdq_eqns.ccdq_t4eqns old ->
     solves 1 lib_tamps Code_ccdq_eqns.ccdq_t2eqns new /\ solves 1 lib_tamps Code_ccdq_eqns.ccdq_t4eqns new /\
     same_number 1 lib_tamps Code_cc_energy.spinorbitalCCSDE_noT1 [VT t2; VT g; VT f; o_ no; v_ no; VNone] [VT t2'; VT g'; VT f'; o_ no; v_ no; VNone]).
Proof.
  intros no nv Uo Uv f f' g g' Ho Hv Hf Hg.
  assert (LIFT : forall d lib fu ks v v', rotates no nv Uo Uv d lib fu ks v v' -> solves d lib fu v -> solves d lib fu v') by (intros; eapply rotates_solves; eassumption).
  split; [|split; [|split]].
  - intros t2 t2' H2 Z. split; [|eapply r_ccdE; eassumption]. refine (LIFT _ _ _ _ _ _ _ Z). apply (r_ccd no nv Uo Uv Ho Hv f f' g g' Hf Hg); assumption.
  - intros t1 t1' t2 t2' H1 H2 Z1 Z2. split; [|split; [|eapply r_ccsdE; eassumption]].
    + refine (LIFT _ _ _ _ _ _ _ Z1). apply (r_ccsd1 no nv Uo Uv Ho Hv f f' g g' Hf Hg); assumption.
    + refine (LIFT _ _ _ _ _ _ _ Z2). apply (r_ccsd2 no nv Uo Uv Ho Hv f f' g g' Hf Hg); assumption.
  - intros t1 t1' t2 t2' t3 t3' H1 H2 H3 old new Z1 Z2 Z3. split; [|split; [|split; [|eapply r_ccsdE; eassumption]]].
    + refine (LIFT _ _ _ _ _ _ _ Z1). apply (r_ccsdt1 no nv Uo Uv Ho Hv f f' g g' Hf Hg); assumption.
    + refine (LIFT _ _ _ _ _ _ _ Z2). apply (r_ccsdt2 no nv Uo Uv Ho Hv f f' g g' Hf Hg); assumption.
    + refine (LIFT _ _ _ _ _ _ _ Z3). apply (r_ccsdt3 no nv Uo Uv Ho Hv f f' g g' Hf Hg); assumption.
  - intros t2 t2' t4 t4' H2 H4 old new Z2 Z4. split; [|split; [|eapply r_ccdqE; eassumption]].
    + refine (LIFT _ _ _ _ _ _ _ Z2). apply (r_ccdq2 no nv Uo Uv Ho Hv f f' g g' Hf Hg); assumption.
    + refine (LIFT _ _ _ _ _ _ _ Z4). apply (r_ccdq4 no nv Uo Uv Ho Hv f f' g g' Hf Hg); assumption.
Qed.
Print Assumptions C67_solutions_rotate.

(** Relabelling the occupied and the virtual orbitals, with signs, is one of the rotations above. *)
Lemma suml_single n (F : nat -> Qc) a : (a < n)%nat -> (forall k, (k < n)%nat -> k <> a -> F k = 0) -> (Sum k < n, F k) = F a.
Proof.
  intros Ha Z. transitivity (Sum k < n, (if Nat.eqb a k then 1 else 0) * F k).
  - apply suml_ext. intros k Hk. apply in_seq in Hk. destruct (Nat.eqb_spec a k) as [->|N]; [ring|]. rewrite Z; [ring|lia|congruence].
  - apply suml_delta; [apply seq_NoDup|apply in_seq; lia].
Qed.
Lemma relabelling_orthogonal n p s : is_relabelling n p s -> orthogonal n (relabelling_matrix p s).
Proof.
  intros [HP [[q HQ] HI]] a b Ha Hb. unfold relabelling_matrix. destruct (HQ a Ha) as [Hqa Epa]. destruct (HP (q a) Hqa) as [_ Hs].
  rewrite (suml_single n (fun k => (if Nat.eqb a (p k) then s k else 0) * (if Nat.eqb b (p k) then s k else 0)) (q a) Hqa).
  - rewrite Epa, Nat.eqb_refl. destruct (Nat.eqb_spec b a) as [->|N]; [rewrite Nat.eqb_refl; exact Hs|]. replace (Nat.eqb a b) with false; [ring|]. symmetry. apply Nat.eqb_neq. congruence.
  - intros k Hk N. destruct (Nat.eqb_spec a (p k)) as [E|]; [|ring]. exfalso. apply N, HI; [exact Hk|exact Hqa|congruence].
Qed.
Lemma relabelling_rmat no nv po so pv sv k i : is_relabelling no po so -> is_relabelling nv pv sv -> (i < ksize no nv k)%nat ->
  (klabel no po pv k i < ksize no nv k)%nat /\
  (forall j, (j < ksize no nv k)%nat -> rmat no (relabelling_matrix po so) (relabelling_matrix pv sv) k i j = if Nat.eqb j (klabel no po pv k i) then ksign no so sv k i else 0).
Proof.
  intros [Ho _] [Hv _] Hi. destruct k; cbn [klabel ksign ksize rmat] in *.
  - split; [apply Ho; exact Hi|]. reflexivity.
  - split; [apply Hv; exact Hi|]. reflexivity.
  - destruct (Nat.ltb_spec i no) as [L|L].
    + destruct (Ho i L) as [B _]. split; [lia|]. intros j Hj. destruct (Nat.ltb_spec j no) as [M|M]; [reflexivity|]. destruct (Nat.eqb_spec j (po i)); [lia|reflexivity].
    + destruct (Hv (i - no)%nat ltac:(lia)) as [B _]. split; [lia|]. intros j Hj. unfold relabelling_matrix. destruct (Nat.ltb_spec j no) as [M|M].
      * destruct (Nat.eqb_spec j (no + pv (i - no))%nat); [lia|reflexivity].
      * destruct (Nat.eqb_spec (j - no)%nat (pv (i - no)%nat)), (Nat.eqb_spec j (no + pv (i - no))%nat); try lia; reflexivity.
Qed.
Lemma relabelling_rot_at no nv po so pv sv ks : is_relabelling no po so -> is_relabelling nv pv sv -> forall F idx, inr idx (map (ksize no nv) ks) ->
  rot_at no nv (relabelling_matrix po so) (relabelling_matrix pv sv) ks F idx = signs no so sv ks idx * F (labels no po pv ks idx).
Proof.
  intros Ho Hv. induction ks as [|k ks IH]; intros F idx I; inversion I as [|i d idx' ds Hi I']; subst; [cbn; ring|].
  destruct (relabelling_rmat no nv po so pv sv k i Ho Hv Hi) as [B E]. cbn [rot_at].
  rewrite (suml_single (ksize no nv k) _ (klabel no po pv k i) B).
  - rewrite (E _ B), Nat.eqb_refl, (IH (fun r => F (klabel no po pv k i :: r)) idx' I'). unfold signs, labels. cbn. ring.
  - intros j Hj N. rewrite (E j Hj). destruct (Nat.eqb_spec j (klabel no po pv k i)); [congruence|ring].
Qed.
Theorem C67_relabelling_is_rotation : forall no nv po so pv sv, is_relabelling no po so -> is_relabelling nv pv sv ->
  orthogonal no (relabelling_matrix po so) /\ orthogonal nv (relabelling_matrix pv sv) /\
  forall ks t t', relabelled no nv po pv so sv ks t t' -> rotated no nv (relabelling_matrix po so) (relabelling_matrix pv sv) ks t t'.
Proof.
  intros no nv po so pv sv Ho Hv. split; [apply relabelling_orthogonal; exact Ho|]. split; [apply relabelling_orthogonal; exact Hv|].
  intros ks t t' [S1 [S2 R]]. split; [exact S1|]. split; [exact S2|]. intros idx I. rewrite R by exact I. symmetry. apply relabelling_rot_at; try assumption. rewrite <- S2. exact I.
Qed.
Print Assumptions C67_relabelling_is_rotation.

(** *** A concrete case: two occupied and two virtual orbitals, both pairs turned by the angle with cosine 3/5 and sine 4/5. *)
Definition turn (i j : nat) : Qc := match i, j with O, O | Datatypes.S O, Datatypes.S O => Q2Qc (3 # 5) | O, Datatypes.S O => Q2Qc (- 4 # 5) | Datatypes.S O, O => Q2Qc (4 # 5) | _, _ => 0 end.
Lemma turn_ok : orthogonal 2 turn.
Proof. intros [|[|p]] [|[|q]] Hp Hq; try lia; apply Qc_is_canon; vm_compute; reflexivity. Qed.
Local Notation tn ks t := (rot_tensor 2 2 turn turn ks t).
Example C67_ccd_instance := C67_ccd_rotation 2 2 turn turn _ _ _ _ _ _ turn_ok turn_ok
  (rot_tensor_ok 2 2 turn turn [Al; Al] (i_fock 4) eq_refl) (rot_tensor_ok 2 2 turn turn [Al; Al; Al; Al] (i_tei 4) eq_refl) (rot_tensor_ok 2 2 turn turn (vo_kinds 2) (i_amp 2 2 2) eq_refl).
Example C67_qf_instance := C67_qf_rotation 2 2 turn turn _ _ _ _ _ _ turn_ok turn_ok
  (rot_tensor_ok 2 2 turn turn [Al; Al; Al; Al] (i_tei 4) eq_refl) (rot_tensor_ok 2 2 turn turn (vo_kinds 2) (i_amp 2 2 2) eq_refl) (rot_tensor_ok 2 2 turn turn (ov_kinds 2) (i_amp_ov 2 2 2) eq_refl).
Example C67_ccsdt_instance := C67_ccsdt_rotation 2 2 turn turn _ _ _ _ _ _ _ _ _ _ turn_ok turn_ok
  (rot_tensor_ok 2 2 turn turn [Al; Al] (i_fock 4) eq_refl) (rot_tensor_ok 2 2 turn turn [Al; Al; Al; Al] (i_tei 4) eq_refl)
  (rot_tensor_ok 2 2 turn turn (ov_kinds 1) (i_amp_ov 1 2 2) eq_refl) (rot_tensor_ok 2 2 turn turn (ov_kinds 2) (i_amp_ov 2 2 2) eq_refl) (rot_tensor_ok 2 2 turn turn (ov_kinds 3) (i_amp_ov 3 2 2) eq_refl).
Example C67_ccdq_instance := C67_ccdq_rotation 2 2 turn turn _ _ _ _ _ _ _ _ turn_ok turn_ok
  (rot_tensor_ok 2 2 turn turn [Al; Al] (i_fock 4) eq_refl) (rot_tensor_ok 2 2 turn turn [Al; Al; Al; Al] (i_tei 4) eq_refl)
  (rot_tensor_ok 2 2 turn turn (ov_kinds 2) (i_amp_ov 2 2 2) eq_refl) (rot_tensor_ok 2 2 turn turn (ov_kinds 4) (i_amp_ov 4 2 2) eq_refl).
Example C67_symmetry_instance : is_tei 4 (tn [Al; Al; Al; Al] (i_tei 4)).
Proof. apply (proj1 (proj2 (C67_rotation_keeps_symmetry 2 2 turn turn)) (i_tei 4)); [apply rot_tensor_ok; reflexivity|apply i_tei_ok]. Qed.
(** The rotation changes the integrals and the single excitations. *)
Example C67_instance_moves : data (tn [Al; Al; Al; Al] (i_tei 4)) [0; 2; 1; 3]%nat <> data (i_tei 4) [0; 2; 1; 3]%nat /\ data (tn (ov_kinds 1) (i_amp_ov 1 2 2)) [0; 1]%nat <> data (i_amp_ov 1 2 2) [0; 1]%nat.
Proof. split; intros H; apply (f_equal this) in H; vm_compute in H; discriminate. Qed.
(** Exchanging the two occupied orbitals and reversing the sign of the second virtual orbital. *)
Lemma exchange_ok : is_relabelling 2 (fun i => (1 - i)%nat) (fun _ => 1).
Proof.
  split; [intros i H; split; [lia|ring]|]. split; [exists (fun i => (1 - i)%nat); intros j H; split; lia|]. intros i i' H H' E. lia.
Qed.
Lemma reverse_ok : is_relabelling 2 (fun i => i) (fun i => if Nat.eqb i 1 then - (1) else 1).
Proof.
  split; [intros i H; split; [exact H|destruct (Nat.eqb i 1); ring]|]. split; [exists (fun i => i); intros j H; split; [exact H|reflexivity]|]. intros i i' H H' E. exact E.
Qed.
Example C67_relabelling_instance := C67_relabelling_is_rotation 2 2 _ _ _ _ exchange_ok reverse_ok.
(** A solution of the CCD equations with interacting electrons; the virtual orbitals are reflected, so the amplitudes change. *)
Definition mirror (i j : nat) : Qc := match i, j with O, O => Q2Qc (3 # 5) | Datatypes.S O, Datatypes.S O => Q2Qc (- 3 # 5) | O, Datatypes.S O | Datatypes.S O, O => Q2Qc (4 # 5) | _, _ => 0 end.
Lemma mirror_ok : orthogonal 2 mirror.
Proof. intros [|[|p]] [|[|q]] Hp Hq; try lia; apply Qc_is_canon; vm_compute; reflexivity. Qed.
Definition s_fock : tensor := mkT [4; 4]%nat (fun idx => match idx with [p; q] => if Nat.eqb p q then if Nat.ltb p 2 then 0 else Q2Qc (3 # 4) else 0 | _ => 0 end).
Definition s_tei : tensor := mkT [4; 4; 4; 4]%nat (fun idx => match idx with [p; q; r; s] => if xorb (Nat.ltb p 2) (Nat.ltb r 2) && Bool.eqb (Nat.ltb p 2) (Nat.ltb q 2) && Bool.eqb (Nat.ltb r 2) (Nat.ltb s 2) then data (i_tei 4) idx else 0 | _ => 0 end).
Definition s_amp : tensor := mkT [2; 2; 2; 2]%nat (fun idx => Q2Qc (- 1 # 2) * data (i_amp 2 2 2) idx).
Example C67_solutions_instance :
  solves 0 [] Code_t2residEqnsSlow.ccd_t2residual
    [VT (rot_tensor 2 2 turn mirror (vo_kinds 2) s_amp); VT (rot_tensor 2 2 turn mirror [Al; Al] s_fock); VT (rot_tensor 2 2 turn mirror [Al; Al; Al; Al] s_tei); o_ 2; v_ 2] /\
  data (rot_tensor 2 2 turn mirror (vo_kinds 2) s_amp) [0; 1; 0; 1]%nat = Q2Qc (1 # 2) /\ data s_amp [0; 1; 0; 1]%nat = Q2Qc (- 1 # 2).
Proof.
  assert (HR : solves 0 [] Code_t2residEqnsSlow.ccd_t2residual [VT s_amp; VT s_fock; VT s_tei; o_ 2; v_ 2]).
  { assert (C : match run 0 [] Code_t2residEqnsSlow.ccd_t2residual [VT s_amp; VT s_fock; VT s_tei; o_ 2; v_ 2] with
                | Some (VT R) => forallb (fun idx => Qeq_bool (this (data R idx)) (0 # 1)) (all_idx (shape R)) | _ => false end = true) by (vm_cast_no_check (eq_refl true)).
    unfold solves, returns. destruct (run 0 [] _ _) as [[R| | | |]|]; try discriminate. exists R. split; [reflexivity|]. intros idx Hi. rewrite forallb_forall in C.
    apply Qc_is_canon. apply Qeq_bool_iff. apply C. apply in_all_idx. exact Hi. }
  split; [|split; apply Qc_is_canon; vm_compute; reflexivity].
  destruct (C67_solutions_rotate 2 2 turn mirror _ _ _ _ turn_ok mirror_ok (rot_tensor_ok 2 2 turn mirror [Al; Al] s_fock eq_refl)
    (rot_tensor_ok 2 2 turn mirror [Al; Al; Al; Al] s_tei eq_refl)) as [C _].
  exact (proj1 (C s_amp _ (rot_tensor_ok 2 2 turn mirror (vo_kinds 2) s_amp eq_refl) HR)).
Qed.
