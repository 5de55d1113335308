(** C04, C05: the spin-blocked CCD residual and energy. *)
From Coq Require Import String Ascii List Arith NArith ZArith QArith Qcanon Bool Lia Permutation.
From Verif Require Import Sums Tensor Interp Poly SymExec Canon Spec Instances Setup Master Spin Check Tabs NF.
From Verif Require Code_t2residEqnsSlow Code_t2residEqns Code_t2energySlow Code_t2energy.
Import ListNotations.
Open Scope string_scope.

(** C04.  The aaaa/bbbb/abab residuals of the spin-summed CCD code are the spin blocks of the residual of
    the spin-orbital code, for any spin labelling and any orbital counts (equal numbers of alpha and beta
    electrons; the alpha and beta orbitals need not be equal, so UHF with na = nb is covered).
    The last argument (the run-type dictionary) is not read by the functions; None is passed. *)
Theorem C04_spin_ccd_residual : forall no nv S F G f_aa f_bb g_aaaa g_bbbb g_abab T2 t_aaaa t_bbbb t_abab,
  spin_ok no nv S -> spin_hamiltonian S no nv F G f_aa f_bb g_aaaa g_bbbb g_abab ->
  spin_amp S 2 no nv T2 -> blocks2 S no nv T2 t_aaaa t_bbbb t_abab ->
  let args := [VT t_aaaa; VT t_bbbb; VT t_abab; VT f_aa; VT f_bb; VT g_aaaa; VT g_bbbb; VT g_abab;
               o_ no; o_ no; v_ no; v_ no; VNone] in
  exists R R_aaaa R_bbbb R_abab,
    returns 0 [] Code_t2residEqnsSlow.ccd_t2residual [VT T2; VT F; VT G; o_ (2 * no); v_ (2 * no)] R /\
    returns 0 [] Code_t2residEqns.ccd_t2_aaaa_residual args R_aaaa /\
    returns 0 [] Code_t2residEqns.ccd_t2_bbbb_residual args R_bbbb /\
    returns 0 [] Code_t2residEqns.ccd_t2_abab_residual args R_abab /\
    blocks2 S no nv R R_aaaa R_bbbb R_abab.
Proof.
  intros no nv S F G f_aa f_bb g_aaaa g_bbbb g_abab T2 t_aaaa t_bbbb t_abab HS
    [HF [HFc [HG [HGc [B1 [B2 [B3 [B4 B5]]]]]]]] HT [C1 [C2 C3]] args.
  set (tab := [(0%N, ([6;6]%N, F)); (1%N, ([6;6;6;6]%N, G)); (3%N, ([1;1;0;0]%N, T2))] : atomtab).
  assert (OK : Forall (atom_ok (sp_range no nv S) sy) tab) by (unfold tab; spoks).
  assert (CO : Forall (conserving no nv S) tab) by (unfold tab; spcons).
  assert (VS : Forall2 (sp_vsim no nv S tab) [at_ 3 [1;1;0;0]%N; xF; xG; xo; xv]
     [VT T2; VT F; VT G; o_ (2 * no); v_ (2 * no)]) by (bsims HS).
  assert (VB : Forall2 (sp_vsim no nv S tab)
     [xb 3 [Up;Up]; xb 3 [Dn;Dn]; xb 3 [Up;Dn]; xf_aa; xf_bb; xg_aaaa; xg_bbbb; xg_abab; xoa; xoa; xva; xva; SNone] args)
    by (unfold args; bsims HS).
  sp_nf HS OK 0%nat (@nil (string * fn)) Code_t2residEqnsSlow.ccd_t2residual [1;1;0;0]%N VS R HR VR.
  destruct (sp_vs_blk no nv S HS tab OK CO [Up;Up] _ R 0 [] Code_t2residEqns.ccd_t2_aaaa_residual _ _ VR VB) as [Ra [Ha Ka]]; [chk_|].
  destruct (sp_vs_blk no nv S HS tab OK CO [Dn;Dn] _ R 0 [] Code_t2residEqns.ccd_t2_bbbb_residual _ _ VR VB) as [Rb [Hb Kb]]; [chk_|].
  destruct (sp_vs_blk no nv S HS tab OK CO [Up;Dn] _ R 0 [] Code_t2residEqns.ccd_t2_abab_residual _ _ VR VB) as [Rc [Hc Kc]]; [chk_|].
  exists R, Ra, Rb, Rc. unfold blocks2. auto 10.
Qed.
Print Assumptions C04_spin_ccd_residual.
Example C04_instance := C04_spin_ccd_residual 2 2 S22 _ _ _ _ _ _ _ _ _ _ _
  S22_ok (s_ham_ok S22 2 2) (s_amp_ok S22 2 2 2) (blocks2_ok S22 2 2 _).

(** C05.  The spin-summed CCD energy equals the spin-orbital CCD energy. *)
Theorem C05_spin_ccd_energy : forall no nv S F G f_aa f_bb g_aaaa g_bbbb g_abab T2 t_aaaa t_bbbb t_abab,
  spin_ok no nv S -> spin_hamiltonian S no nv F G f_aa f_bb g_aaaa g_bbbb g_abab ->
  spin_amp S 2 no nv T2 -> blocks2 S no nv T2 t_aaaa t_bbbb t_abab ->
  exists E E',
    returns 0 [] Code_t2energySlow.ccdEnergy [VT T2; VT F; VT G; o_ (2 * no); v_ (2 * no)] E /\
    returns 0 [] Code_t2energy.ccd_energy_with_spin
      [VT t_aaaa; VT t_bbbb; VT t_abab; VT f_aa; VT f_bb; VT g_aaaa; VT g_bbbb; VT g_abab;
       o_ no; o_ no; v_ no; v_ no] E' /\
    shape E = [] /\ shape E' = [] /\ data E' [] = data E [].
Proof.
  intros no nv S F G f_aa f_bb g_aaaa g_bbbb g_abab T2 t_aaaa t_bbbb t_abab HS
    [HF [HFc [HG [HGc [B1 [B2 [B3 [B4 B5]]]]]]]] HT [C1 [C2 C3]].
  set (tab := [(0%N, ([6;6]%N, F)); (1%N, ([6;6;6;6]%N, G)); (3%N, ([1;1;0;0]%N, T2))] : atomtab).
  assert (OK : Forall (atom_ok (sp_range no nv S) sy) tab) by (unfold tab; spoks).
  assert (CO : Forall (conserving no nv S) tab) by (unfold tab; spcons).
  destruct (sp_compare no nv S HS tab OK CO 0 [] Code_t2energySlow.ccdEnergy
    [at_ 3 [1;1;0;0]%N; xF; xG; xo; xv] [VT T2; VT F; VT G; o_ (2 * no); v_ (2 * no)]
    0 [] Code_t2energy.ccd_energy_with_spin
    [xb 3 [Up;Up]; xb 3 [Dn;Dn]; xb 3 [Up;Dn]; xf_aa; xf_bb; xg_aaaa; xg_bbbb; xg_abab; xoa; xoa; xva; xva]
    [VT t_aaaa; VT t_bbbb; VT t_abab; VT f_aa; VT f_bb; VT g_aaaa; VT g_bbbb; VT g_abab;
       o_ no; o_ no; v_ no; v_ no] []) as [E [E' [H1 [H2 [H3 [H4 H5]]]]]]; [bsims HS|bsims HS|chk_|].
  exists E, E'. cbn in H3. rewrite H3 in *. repeat split; try assumption; try congruence.
  symmetry. apply H5. constructor.
Qed.
Print Assumptions C05_spin_ccd_energy.
Example C05_instance := C05_spin_ccd_energy 2 2 S22 _ _ _ _ _ _ _ _ _ _ _
  S22_ok (s_ham_ok S22 2 2) (s_amp_ok S22 2 2 2) (blocks2_ok S22 2 2 _).
