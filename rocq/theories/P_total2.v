(** C70 for the spin-integrated code: which calculations end with a result. *)
From Coq Require Import String Ascii List Arith NArith ZArith QArith Qcanon Bool Lia Permutation.
From Verif Require Import Sums Tensor Interp Numpy Poly SymExec Canon Spec SpecDriver Instances Setup Master Spin Check Tabs NF Formula.
From Verif Require Import P_spin_ccd P_spin_qf P_ccsd Diis P_diis Kernel P_kernel P_driver SlowCC Linear P_slow P_slow3 SpinLink SpinCC Denoms P_denoms P_spinrun P_spinrun2.
From Verif Require Total P_total.
From Verif Require Code_modify_T2energy_pertQf.
Import ListNotations.
Open Scope string_scope.
Import Total.

Section Fast.
  Variables no nv : nat.
  Variable S : spinmap.
  Variables F G f_aa f_bb g_aaaa g_bbbb g_abab Daa Dbb Dab : tensor.
  Variable e : spin -> nat -> Qc.
  Variable c : calc.
  Variable solve : solver.
  Hypothesis HS : spin_ok no nv S.
  Hypothesis HH : spin_hamiltonian S no nv F G f_aa f_bb g_aaaa g_bbbb g_abab.
  Hypothesis HDa : is_spin_denominator [Up; Up] (fun _ => no) (fun _ => nv) e Daa.
  Hypothesis HDb : is_spin_denominator [Dn; Dn] (fun _ => no) (fun _ => nv) e Dbb.
  Hypothesis HDc : is_spin_denominator [Up; Dn] (fun _ => no) (fun _ => nv) e Dab.
  Hypothesis Hlab : cc_label c = "ccdType".
  Hypothesis HU : diis_size c <> None -> contains "UCC(4)" (cc_type c) = false.
  Hypothesis HDQ : diis_size c <> None -> contains "CCDQ" (cc_type c) = false.
  Hypothesis HUT : contains "UT2" (cc_type c) = false.
  Hypothesis SOK : P_total.solver_succeeds solve.
  Hypothesis DU : P_total.diis_usable c.
  Hypothesis Ho : (0 < no)%nat.
  Hypothesis Hv : (0 < nv)%nat.
  Notation fresid := (fast_resid no no f_aa f_bb g_aaaa g_bbbb g_abab Daa Dbb Dab c).
  Notation fenergy := (fast_energy no no f_aa f_bb g_aaaa g_bbbb g_abab).
  Notation sh4 := [nv; nv; no; no].
  Notation sh := (fun _ : string => [nv; nv; no; no]).
  Definition FI (s : kstate unit) : Prop := okstate (Pk no nv) unit c (good3 no nv) s /\ diis_ready sh unit c s.
  (** after a pass the l2 arrays are the transposes of an earlier set of amplitudes *)
  Definition FJ (s : kstate unit) : Prop := FI s /\ exists d, good3 no nv d /\ l2_of d = Some (l2amps unit s).
  Lemma fvk : diis_size c <> None -> vec_keys (cc_type c) = t2_keys.
  Proof using HU HDQ. intros H. unfold vec_keys. rewrite (HU H), (HDQ H). reflexivity. Qed.
  Lemma fi_step s : FI s -> exists s' E, iteration unit solve fresid fenergy c s = Some (s', E) /\ FJ s'.
  Proof using All.
    intros [[G3 HP] R]. pose proof G3 as [taa [tbb [tab [ET [A [B C]]]]]]. destruct (l2_ok no nv taa tbb tab _ ET (proj1 A) (proj1 B) C) as [l2 EL].
    destruct (pass_good no nv S F G f_aa f_bb g_aaaa g_bbbb g_abab Daa Dbb Dab e c HS HH HDa HDb HDc taa tbb tab _ l2 ET A B C EL) as [naa [nbb [nab [EN [NA [NB NC]]]]]].
    set (d' := [("t2aa", naa); ("t2bb", nbb); ("t2ab", nab)]) in *.
    pose proof (dict3_good no nv naa nbb nab NA NB NC) as Gd'. fold d' in Gd'.
    assert (H' : has t2_keys d') by (intros x [<-|[<-|[<-|[]]]]; discriminate).
    destruct (block_total sh unit solve c SOK (mkSt unit d' l2 (old_vec unit s) (dstate unit s) (world unit s))) as [s1 [E1 [R1 [S1 [K1 [W1 L1]]]]]].
    - exact R.
    - intros k t Ek. exact (Pk_sh no nv k t (Gd' k t Ek)).
    - intros HN. rewrite (fvk HN). exact H'.
    - assert (IT : forall en x, en E_t2energy (amps unit s1) (world unit s1) = Some x -> iteration unit solve fresid en c s = Some (mkSt unit (amps unit s1) (l2amps unit s1) (old_vec unit s1) (dstate unit s1) (snd x), fst x)).
      { intros en x Ex. unfold iteration. rewrite EL. cbn [obind]. rewrite (rcall c Hlab). cbn [obind fast_resid]. rewrite EN. cbn [obind fst snd]. fold d'. rewrite E1. cbn [obind]. rewrite (ecall c Hlab). cbn [obind]. rewrite Ex. reflexivity. }
      assert (RK : forall rf d l2 w d1 w1, resid_call c = Some rf -> weak3 no nv d -> l2_of d = Some l2 -> fresid rf d l2 w = Some (d1, w1) -> gooddict (Pk no nv) d1).
      { intros rf d m2 w d1 w1 H1 H2 H3 H4. rewrite (rcall c Hlab) in H1. injection H1 as <-. cbn [fast_resid] in H4.
        destruct (l2_of_inv d m2 H3) as [xaa [xbb [xab XT]]]. destruct (H2 _ _ _ XT) as [XA [XB XC]].
        destruct (pass_good no nv S F G f_aa f_bb g_aaaa g_bbbb g_abab Daa Dbb Dab e c HS HH HDa HDb HDc xaa xbb xab d m2 XT XA XB XC H3) as [yaa [ybb [yab [EY [YA [YB YC]]]]]]. rewrite EY in H4. cbn [obind] in H4.
        injection H4 as <- <-. apply dict3_good; assumption. }
      assert (OW : okstate (Pk no nv) unit c (weak3 no nv) s).
      { split; [|exact HP]. intros a b x [X1 [X2 X3]]. destruct ET as [Y1 [Y2 Y3]]. rewrite X1 in Y1. rewrite X2 in Y2. rewrite X3 in Y3. apply some_inj in Y1, Y2, Y3. subst. auto. }
      destruct (okstate_iteration sh (Pk no nv) (Pk_sh no nv) (Pk_teq no nv) (fun k => Pk_lin no nv k) unit solve fresid (fun _ _ w => Some (0%Qc, w)) c (weak3 no nv) (good_weak3 no nv) RK s _ _ OW (IT (fun _ _ w => Some (0%Qc, w)) _ eq_refl)) as [[_ P1] G1].
      cbn [amps dstate] in P1, G1. specialize (K1 t2_keys H').
      assert (G3' : good3 no nv (amps unit s1)).
      { apply good_good3; [exact G1|]. unfold t2dict. destruct (slook "t2aa" (amps unit s1)) as [xa|] eqn:E2; [|destruct (K1 "t2aa" ltac:(cbn; auto) E2)]. destruct (slook "t2bb" (amps unit s1)) as [xb|] eqn:E3; [|destruct (K1 "t2bb" ltac:(cbn; auto) E3)].
        destruct (slook "t2ab" (amps unit s1)) as [xc|] eqn:E4; [|destruct (K1 "t2ab" ltac:(cbn; auto) E4)]. eauto 10. }
      destruct (good3_energy no nv S F G f_aa f_bb g_aaaa g_bbbb g_abab HS HH _ G3') as [x [x0 [x1 [_ [_ [_ [_ [_ [_ EE]]]]]]]]].
      assert (EX : fenergy E_t2energy (amps unit s1) (world unit s1) = Some (E_ccd (2 * no) (2 * nv) F G (assemble no nv S x x0 x1), world unit s1)) by (cbn [fast_energy]; rewrite EE; reflexivity).
      eexists _, _. split; [exact (IT fenergy _ EX)|].
      split; [split; [split; [exact G3'|exact P1]|exact R1]|]. exists (amps unit s). split; [exact G3|]. cbn [l2amps]. rewrite L1. exact EL.
  Qed.
  Lemma fi_start : exists s0 e0, fast_start no no nv f_aa f_bb g_aaaa g_bbbb g_abab c = Some (s0, e0) /\ FI s0.
  Proof using All.
    destruct (good3_energy no nv S F G f_aa f_bb g_aaaa g_bbbb g_abab HS HH _ (init_good3 no nv c)) as [taa [tbb [tab [_ [_ [_ [_ [_ [_ EE]]]]]]]]].
    unfold fast_start, start. rewrite Hlab, (ecall c Hlab). change ("ccdType" =? "ccdTypeSlow") with false. cbn [obind fast_energy]. rewrite EE. cbn [obind fst snd].
    eexists _, _. split; [reflexivity|]. split; [split; [apply init_good3|constructor]|].
    apply P_total.ready_new with (w := tt) (d0 := fast_init no nv c) (l := []); auto. intros HN. rewrite (fvk HN).
    unfold fast_old, old_keys. rewrite (HU HN).
    destruct (vectorise_total sh t2_keys (fast_init no nv c)) as [v [EV LV]].
    - intros k x E. unfold fast_init in E. rewrite (HU HN) in E. destruct (diis_size c); cbn in E; repeat (match type of E with (if ?b then _ else _) = _ => destruct b end; [injection E as <-; reflexivity|]); discriminate.
    - intros x [<-|[<-|[<-|[]]]]; discriminate.
    - rewrite EV. exact LV.
  Qed.
  (** the (Qf) correction runs on any two good sets of amplitudes *)
  Lemma pert_runs d0 d l2 : good3 no nv d0 -> good3 no nv d -> l2_of d0 = Some l2 -> exists q, t2pert_fast no g_aaaa g_bbbb g_abab d l2 = Some q.
  Proof using HS HH.
    intros [xaa [xbb [xab [[X1 [X2 X3]] [XA [XB XC]]]]]] [taa [tbb [tab [[E1 [E2 E3]] [A [B C]]]]]] EL.
    destruct (assemble_ok no nv S HS taa tbb tab A B C) as [AT BT]. destruct (assemble_ok no nv S HS xaa xbb xab XA XB XC) as [AX BX].
    pose proof (proj1 (proj1 AX)) as ST. cbn [repeat app] in ST.
    destruct (transp_amp (2 * no) (2 * nv) _ (proj1 AX)) as [L2 [_ [SW AL]]]. pose proof (spin_amp_swapped no nv S _ L2 AX AL SW) as HL. destruct BX as [Ba [Bb Bc]].
    destruct (swapped_def xaa _ _ _ _ (proj1 Ba)) as [laa [Ta Wa]]. destruct (swapped_def xbb _ _ _ _ (proj1 Bb)) as [lbb [Tb Wb]]. destruct (swapped_def xab _ _ _ _ (proj1 Bc)) as [lab [Tc Wc]].
    assert (HLb : blocks2_ov S no nv L2 laa lbb lab).
    { split; [|split]; (eapply (block_swapped no nv S HS); [exact ST| |exact SW|]); eassumption. }
    unfold l2_of in EL. rewrite X1, X2, X3 in EL. cbn [obind] in EL. rewrite Ta, Tb, Tc in EL. cbn [obind] in EL. injection EL as <-.
    destruct (C12_spin_qf_energy no nv S F G f_aa f_bb g_aaaa g_bbbb g_abab _ taa tbb tab L2 laa lbb lab HS HH AT BT HL HLb) as [R [E [E' [_ [_ [H _]]]]]].
    unfold t2pert_fast. rewrite E1, E2, E3. cbn [obind slook String.eqb Ascii.eqb Bool.eqb]. 
    change (spin_dict g_aaaa g_bbbb g_abab) with (three g_aaaa g_bbbb g_abab) in H. change (spin_dict laa lbb lab) with (three laa lbb lab) in H. change (spin_dict taa tbb tab) with (three taa tbb tab) in H.
    rewrite (call0_returns _ _ _ H). cbn [obind]. eauto.
  Qed.
  Lemma fast_total : (0 < max_iter c)%nat -> P_total.ends_well c (fast_kernel no no nv f_aa f_bb g_aaaa g_bbbb g_abab Daa Dbb Dab c solve).
  Proof using All.
    intros HM. destruct fi_start as [s0 [e0 [ES I0]]]. unfold P_total.ends_well, fast_kernel.
    apply (kernel_total2 unit solve fresid fenergy (fast_pert no g_aaaa g_bbbb g_abab) (fun d => Some d) c FI FJ (fun s H => proj1 H) fi_step) with (s0 := s0) (e0 := e0); auto.
    intros s E [[[G3 _] _] [d [Gd EL]]]. destruct (pert_runs d (amps unit s) _ Gd G3 EL) as [q Eq].
    destruct G3 as [taa [tbb [tab [[E1 _] [A _]]]]].
    split; [unfold printable; rewrite E1, (proj1 A); cbn [repeat app]; rewrite (proj2 (Nat.ltb_lt 0 nv) Hv), (proj2 (Nat.ltb_lt 0 no) Ho); reflexivity|].
    unfold finalize. rewrite HUT. destruct (is_qf c) eqn:EQ.
    - rewrite Hlab. cbn [String.eqb Ascii.eqb Bool.eqb obind fast_pert]. rewrite Eq. cbn [obind fst snd]. eauto.
    - assert (N1 : (cc_type c =? "CCD(Qf)")%string = false).
      { destruct (String.eqb_spec (cc_type c) "CCD(Qf)") as [X|]; [|reflexivity]. exfalso. revert EQ. unfold is_qf. rewrite X. cbn. discriminate. }
      rewrite N1. cbn [negb obind fst snd]. eauto.
  Qed.
End Fast.

(** C70.  A spin-integrated closed-shell calculation, including the (Qf) labels, whose label contains neither "UT2" nor, if DIIS is on,
    "CCDQ" or "UCC(4)", never raises an exception unless the linear solver of DIIS does: it returns a result, or, if more than 76 passes
    were allowed, exits. *)
Theorem C70_spin_run_ends : forall no nv S F G f_aa f_bb g_aaaa g_bbbb g_abab Daa Dbb Dab e c solve,
  spin_ok no nv S -> spin_hamiltonian S no nv F G f_aa f_bb g_aaaa g_bbbb g_abab ->
  is_spin_denominator [Up; Up] (fun _ => no) (fun _ => nv) e Daa ->
  is_spin_denominator [Dn; Dn] (fun _ => no) (fun _ => nv) e Dbb ->
  is_spin_denominator [Up; Dn] (fun _ => no) (fun _ => nv) e Dab ->
  cc_label c = "ccdType" -> contains "UT2" (cc_type c) = false ->
  (diis_size c <> None -> contains "UCC(4)" (cc_type c) = false /\ contains "CCDQ" (cc_type c) = false) ->
  P_total.solver_succeeds solve -> P_total.diis_usable c -> (0 < max_iter c)%nat -> (0 < no)%nat -> (0 < nv)%nat ->
  P_total.ends_well c (fast_kernel no no nv f_aa f_bb g_aaaa g_bbbb g_abab Daa Dbb Dab c solve).
Proof.
  intros no nv S F G f_aa f_bb g_aaaa g_bbbb g_abab Daa Dbb Dab e c solve HS HH HDa HDb HDc HL HUT HDQ SOK DU HM Ho Hv.
  exact (fast_total no nv S F G f_aa f_bb g_aaaa g_bbbb g_abab Daa Dbb Dab e c solve HS HH HDa HDb HDc HL (fun H => proj1 (HDQ H)) (fun H => proj2 (HDQ H)) HUT SOK DU Ho Hv HM).
Qed.
Print Assumptions C70_spin_run_ends.
(** CCD(Qf) with DIIS over four vectors *)
Example C70_spin_instance := C70_spin_run_ends 2 2 S22 _ _ _ _ _ _ _ _ _ _ i_se (f_calc "CCD(Qf)" 75 (Some 4%nat)) P_total.i_solve
  S22_ok (s_ham_ok S22 2 2) (i_sden_ok _ 2 2 _) (i_sden_ok _ 2 2 _) (i_sden_ok _ 2 2 _) eq_refl eq_refl (fun _ => conj eq_refl eq_refl)
  P_total.i_solve_ok ltac:(cbn; lia) ltac:(cbn; lia) ltac:(lia) ltac:(lia).
