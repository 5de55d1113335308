(** C40: the spin-integrated full-CC residual driver (fullCCresidEqns.residMain) and runs that use it. *)
From Coq Require Import String Ascii List Arith NArith ZArith QArith Qcanon Bool Lia.
From Coq Require Qcabs.
From Verif Require Import Sums Tensor Interp Numpy Poly SymExec Canon Spec SpecDriver Instances Setup Master Check Tabs Diis Kernel P_kernel P_driver SlowCC P_slow SpinCC P_spinrun P_spinrun2 FullCC.
From Verif Require Code_fullCCresidEqns Code_ccdq_resids Code_testing_modifyT2eqns_with_T4 Code_fullCCenergy.
Import ListNotations.
Open Scope string_scope.

Local Opaque call0 ttransp run.
(** ** Every label except "CCDQ" *)
(** C40 (found false).  For every cc_type other than "CCDQ" (so for CCD, CCSD, CCSDT, CCSD(Qf), CCSDTQf-1, CCDQf, ...) the driver raises,
    whatever the amplitudes, integrals and denominators are: it updates resid_t4aaaa ... before anything was assigned to them. *)
Theorem C40_other_labels_raise_refuted : forall na nb f_aa f_bb g_aaaa g_bbbb g_abab denom c d,
  cc_type c <> "CCDQ" -> full_residMain na nb f_aa f_bb g_aaaa g_bbbb g_abab denom c d = None.
Proof.
  intros na nb f_aa f_bb g_aaaa g_bbbb g_abab denom c d H. apply String.eqb_neq in H.
  assert (K2 : forall X Y (x : option Y) (k : Y -> option X), (forall a, k a = None) -> obind x k = None).
  { intros X Y [a|] k Hk; cbn [obind]; auto. }
  unfold full_residMain. rewrite H. cbv zeta iota.
  repeat match goal with |- obind None _ = _ => reflexivity | |- obind _ _ = _ => apply K2; intros ? end.
Qed.
Print Assumptions C40_other_labels_raise_refuted.
(** So a full-CC calculation with such a label never returns a result: no choice of integrals, denominators, iteration limit, threshold
    or DIIS options helps. *)
Theorem C40_other_labels_run_raises_refuted : forall na nb nva f_aa f_bb g_aaaa g_bbbb g_abab denom c solve pert,
  cc_label c = "fullCCType" -> cc_type c <> "CCDQ" ->
  full_kernel na nb nva f_aa f_bb g_aaaa g_bbbb g_abab denom c solve pert = Raised.
Proof.
  intros na nb nva f_aa f_bb g_aaaa g_bbbb g_abab denom c solve pert HL HT. unfold full_kernel, kernel.
  destruct (start _ _ _ _ _ _ _) as [[s0 e0]|]; [|reflexivity].
  destruct (max_iter c) as [|n]; [reflexivity|]. cbn [loop Nat.ltb Nat.leb].
  assert (E : iteration unit solve (full_resid na nb f_aa f_bb g_aaaa g_bbbb g_abab denom c)
    (full_energy na nb f_aa f_bb g_aaaa g_bbbb g_abab denom) c s0 = None).
  { unfold iteration. destruct (l2_of _); cbn [obind]; [|reflexivity]. unfold resid_call. rewrite HL.
    change ("fullCCType" =? "ccdType") with false. change ("fullCCType" =? "ccdTypeSlow") with false. change ("fullCCType" =? "fullCCType") with true.
    cbn [obind full_resid]. rewrite C40_other_labels_raise_refuted by exact HT. reflexivity. }
  rewrite E. reflexivity.
Qed.
Print Assumptions C40_other_labels_run_raises_refuted.

(** ** The label "CCDQ" *)
(** the arrays the driver reads, with the number of particles each describes *)
Definition amp_ranks : list (string * nat) :=
  [("t1aa", 1); ("t1bb", 1); ("t2aa", 2); ("t2bb", 2); ("t2ab", 2); ("t3aaa", 3); ("t3bbb", 3); ("t3aab", 3); ("t3abb", 3);
   ("t4aaaa", 4); ("t4aaab", 4); ("t4aabb", 4); ("t4abbb", 4); ("t4bbbb", 4)]%nat.
Definition den_ranks : list (string * nat) :=
  [("D1aa", 1); ("D1bb", 1); ("D2aa", 2); ("D2bb", 2); ("D2ab", 2); ("D3aaa", 3); ("D3bbb", 3); ("D3aab", 3); ("D3abb", 3);
   ("D4aaaa", 4); ("D4aaab", 4); ("D4aabb", 4); ("D4abbb", 4); ("D4bbbb", 4)]%nat.
Definition arrays (no nv : nat) (ks : list (string * nat)) (d : dict) : Prop :=
  Forall (fun kr => exists t, slook (fst kr) d = Some t /\ shape t = (repeat nv (snd kr) ++ repeat no (snd kr))%list) ks.
(** amplitude, denominator and residual function of the CCDQ method *)
Definition ccdq_unknowns : list (string * string * fn) :=
  [("t2aa", "D2aa", Code_ccdq_resids.ccdq_t2_aaaa_residual); ("t2bb", "D2bb", Code_ccdq_resids.ccdq_t2_bbbb_residual);
   ("t2ab", "D2ab", Code_ccdq_resids.ccdq_t2_abab_residual);
   ("t4aaaa", "D4aaaa", Code_ccdq_resids.ccdq_t4_aaaaaaaa_residual); ("t4aaab", "D4aaab", Code_ccdq_resids.ccdq_t4_aaabaaab_residual);
   ("t4aabb", "D4aabb", Code_ccdq_resids.ccdq_t4_aabbaabb_residual); ("t4abbb", "D4abbb", Code_ccdq_resids.ccdq_t4_abbbabbb_residual);
   ("t4bbbb", "D4bbbb", Code_ccdq_resids.ccdq_t4_bbbbbbbb_residual)].
Definition get (k : string) (d : dict) : tensor := match slook k d with Some t => t | None => tzeros [] end.
(** the arguments of those functions *)
Definition ccdq_args (no : nat) (f_aa f_bb g_aaaa g_bbbb g_abab : tensor) (d : dict) : list value :=
  [VT (get "t2aa" d); VT (get "t2bb" d); VT (get "t2ab" d); VT (get "t4aaaa" d); VT (get "t4aaab" d); VT (get "t4aabb" d);
   VT (get "t4abbb" d); VT (get "t4bbbb" d); VT f_aa; VT f_bb; VT g_aaaa; VT g_bbbb; VT g_abab; o_ no; o_ no; v_ no; v_ no].

Section CCDQ.
  Variables no nv : nat.
  Variables f_aa f_bb g_aaaa g_bbbb g_abab : tensor.
  Variable denom : dict.
  Variable c : calc.
  Hypothesis Hf1 : shape f_aa = repeat (no + nv)%nat 2.
  Hypothesis Hf2 : shape f_bb = repeat (no + nv)%nat 2.
  Hypothesis Hg1 : shape g_aaaa = repeat (no + nv)%nat 4.
  Hypothesis Hg2 : shape g_bbbb = repeat (no + nv)%nat 4.
  Hypothesis Hg3 : shape g_abab = repeat (no + nv)%nat 4.
  Hypothesis HD : arrays no nv den_ranks denom.
  Hypothesis Hty : cc_type c = "CCDQ".

  Section Step.
  Variable d : dict.
  Hypothesis Hd : arrays no nv amp_ranks d.
  Definition fu_tab : atomtab :=
    [(8, ([6;6], f_aa)); (9, ([6;6], f_bb)); (10, ([6;6;6;6], g_aaaa)); (11, ([6;6;6;6], g_bbbb)); (12, ([6;6;6;6], g_abab));
     (13, ([1;0], get "t1aa" d)); (14, ([1;0], get "t1bb" d));
     (15, ([1;1;0;0], get "t2aa" d)); (16, ([1;1;0;0], get "t2bb" d)); (17, ([1;1;0;0], get "t2ab" d));
     (18, ([1;1;1;0;0;0], get "t3aaa" d)); (19, ([1;1;1;0;0;0], get "t3aab" d)); (20, ([1;1;1;0;0;0], get "t3abb" d)); (21, ([1;1;1;0;0;0], get "t3bbb" d));
     (22, ([1;1;1;1;0;0;0;0], get "t4aaaa" d)); (23, ([1;1;1;1;0;0;0;0], get "t4aaab" d)); (24, ([1;1;1;1;0;0;0;0], get "t4aabb" d));
     (25, ([1;1;1;1;0;0;0;0], get "t4abbb" d)); (26, ([1;1;1;1;0;0;0;0], get "t4bbbb" d))]%N.
  Lemma got k r : In (k, r) amp_ranks -> slook k d = Some (get k d) /\ shape (get k d) = (repeat nv r ++ repeat no r)%list.
  Proof.
    intros I. unfold arrays in Hd. rewrite Forall_forall in Hd. destruct (Hd _ I) as [t [E S]]. cbn [fst snd] in *. unfold get. rewrite E. auto.
  Qed.
  Lemma gotD k r : In (k, r) den_ranks -> slook k denom = Some (get k denom) /\ shape (get k denom) = (repeat nv r ++ repeat no r)%list.
  Proof.
    intros I. unfold arrays in HD. rewrite Forall_forall in HD. destruct (HD _ I) as [t [E S]]. cbn [fst snd] in *. unfold get. rewrite E. auto.
  Qed.
  Ltac inl := cbn; repeat first [left; reflexivity | right].
  Lemma fu_full n k t : nlook n fu_tab = Some (repeat 6%N k, t) -> shape t = repeat (no + nv)%nat k -> so_vsim no nv fu_tab (SFull n (repeat 0%N k)) (VT t).
  Proof. intros H1 H2. apply so_full; assumption. Qed.
  Lemma fu_amp n k r : nlook n fu_tab = Some ((repeat 1%N r ++ repeat 0%N r)%list, get k d) -> In (k, r) amp_ranks ->
    so_vsim no nv fu_tab (at_ n (repeat 1%N r ++ repeat 0%N r)) (VT (get k d)).
  Proof. intros H1 H2. apply so_atom; [exact H1|]. rewrite (proj2 (got k r H2)). symmetry. apply sh_vo. Qed.
  Lemma fu_ints : Forall2 (so_vsim no nv fu_tab)
    [SFull 8 [0;0]%N; SFull 9 [0;0]%N; SFull 10 [0;0;0;0]%N; SFull 11 [0;0;0;0]%N; SFull 12 [0;0;0;0]%N; SSl 0; SSl 0; SSl 1; SSl 1]
    (ints no no f_aa f_bb g_aaaa g_bbbb g_abab).
  Proof.
    repeat apply Forall2_cons; try apply Forall2_nil; try apply v_o; try apply v_v.
    - apply (fu_full 8 2 f_aa eq_refl Hf1). - apply (fu_full 9 2 f_bb eq_refl Hf2). - apply (fu_full 10 4 g_aaaa eq_refl Hg1).
    - apply (fu_full 11 4 g_bbbb eq_refl Hg2). - apply (fu_full 12 4 g_abab eq_refl Hg3).
  Qed.
  Definition sints := [SFull 8 [0;0]%N; SFull 9 [0;0]%N; SFull 10 [0;0;0;0]%N; SFull 11 [0;0;0;0]%N; SFull 12 [0;0;0;0]%N; SSl 0; SSl 0; SSl 1; SSl 1].
  Definition sa := ([at_ 13 [1;0]; at_ 14 [1;0]; at_ 15 [1;1;0;0]; at_ 16 [1;1;0;0]; at_ 17 [1;1;0;0];
    at_ 18 [1;1;1;0;0;0]; at_ 19 [1;1;1;0;0;0]; at_ 20 [1;1;1;0;0;0]; at_ 21 [1;1;1;0;0;0]]%N ++ sints)%list.
  Definition sq := ([at_ 15 [1;1;0;0]; at_ 16 [1;1;0;0]; at_ 17 [1;1;0;0]; at_ 22 [1;1;1;1;0;0;0;0]; at_ 23 [1;1;1;1;0;0;0;0];
    at_ 24 [1;1;1;1;0;0;0;0]; at_ 25 [1;1;1;1;0;0;0;0]; at_ 26 [1;1;1;1;0;0;0;0]]%N ++ sints)%list.
  Definition se := ([at_ 13 [1;0]; at_ 14 [1;0]; at_ 15 [1;1;0;0]; at_ 16 [1;1;0;0]; at_ 17 [1;1;0;0]]%N ++ sints)%list.
  Notation aints := (ints no no f_aa f_bb g_aaaa g_bbbb g_abab).
  Lemma va : Forall2 (so_vsim no nv fu_tab) sa
    ([VT (get "t1aa" d); VT (get "t1bb" d); VT (get "t2aa" d); VT (get "t2bb" d); VT (get "t2ab" d); VT (get "t3aaa" d); VT (get "t3aab" d);
      VT (get "t3abb" d); VT (get "t3bbb" d)] ++ aints).
  Proof.
    apply Forall2_app; [|apply fu_ints]. repeat apply Forall2_cons; try apply Forall2_nil.
    - apply (fu_amp 13 _ 1); [reflexivity|inl]. - apply (fu_amp 14 _ 1); [reflexivity|inl]. - apply (fu_amp 15 _ 2); [reflexivity|inl].
    - apply (fu_amp 16 _ 2); [reflexivity|inl]. - apply (fu_amp 17 _ 2); [reflexivity|inl]. - apply (fu_amp 18 _ 3); [reflexivity|inl].
    - apply (fu_amp 19 _ 3); [reflexivity|inl]. - apply (fu_amp 20 _ 3); [reflexivity|inl]. - apply (fu_amp 21 _ 3); [reflexivity|inl].
  Qed.
  Lemma vq : Forall2 (so_vsim no nv fu_tab) sq
    ([VT (get "t2aa" d); VT (get "t2bb" d); VT (get "t2ab" d); VT (get "t4aaaa" d); VT (get "t4aaab" d); VT (get "t4aabb" d);
      VT (get "t4abbb" d); VT (get "t4bbbb" d)] ++ aints).
  Proof.
    apply Forall2_app; [|apply fu_ints]. repeat apply Forall2_cons; try apply Forall2_nil.
    - apply (fu_amp 15 _ 2); [reflexivity|inl]. - apply (fu_amp 16 _ 2); [reflexivity|inl]. - apply (fu_amp 17 _ 2); [reflexivity|inl].
    - apply (fu_amp 22 _ 4); [reflexivity|inl]. - apply (fu_amp 23 _ 4); [reflexivity|inl]. - apply (fu_amp 24 _ 4); [reflexivity|inl].
    - apply (fu_amp 25 _ 4); [reflexivity|inl]. - apply (fu_amp 26 _ 4); [reflexivity|inl].
  Qed.
  Lemma ve : Forall2 (so_vsim no nv fu_tab) se ([VT (get "t1aa" d); VT (get "t1bb" d); VT (get "t2aa" d); VT (get "t2bb" d); VT (get "t2ab" d)] ++ aints).
  Proof.
    apply Forall2_app; [|apply fu_ints]. repeat apply Forall2_cons; try apply Forall2_nil.
    - apply (fu_amp 13 _ 1); [reflexivity|inl]. - apply (fu_amp 14 _ 1); [reflexivity|inl]. - apply (fu_amp 15 _ 2); [reflexivity|inl].
    - apply (fu_amp 16 _ 2); [reflexivity|inl]. - apply (fu_amp 17 _ 2); [reflexivity|inl].
  Qed.
  Lemma def_of k f svs vs : Forall2 (so_vsim no nv fu_tab) svs vs -> outsp (repeat 1%N k ++ repeat 0%N k) (srun so_slm 0 [] f svs) = true ->
    exists R, call0 f vs = Some R /\ returns 0 [] f vs R /\ shape R = (repeat nv k ++ repeat no k)%list.
  Proof.
    intros V O. apply outsp_ok in O. destruct (so_run _ _ _ _ _ _ _ _ _ _ V O) as [R [HR [SR _]]]. exists R. split; [apply call0_returns; exact HR|].
    split; [exact HR|]. rewrite <- (sh_vo no nv k). exact SR.
  Qed.
  Ltac ck := vm_cast_no_check (@eq_refl bool true).
  Definition d_args1 := ([VT (get "t1aa" d); VT (get "t1bb" d); VT (get "t2aa" d); VT (get "t2bb" d); VT (get "t2ab" d); VT (get "t3aaa" d);
    VT (get "t3aab" d); VT (get "t3abb" d); VT (get "t3bbb" d)] ++ aints)%list.
  Definition d_argsE := ([VT (get "t1aa" d); VT (get "t1bb" d); VT (get "t2aa" d); VT (get "t2bb" d); VT (get "t2ab" d)] ++ aints)%list.
  Notation d_argsQ := (ccdq_args no f_aa f_bb g_aaaa g_bbbb g_abab d).
  Lemma def_1 f : outsp [1;0]%N (srun so_slm 0 [] f sa) = true -> exists R, call0 f d_args1 = Some R /\ shape R = [nv; no].
  Proof. intros O. destruct (def_of 1 f _ _ va O) as [R [A [_ B]]]. eauto. Qed.
  Lemma def_q k f : outsp (repeat 1%N k ++ repeat 0%N k) (srun so_slm 0 [] f sq) = true ->
    exists R, call0 f d_argsQ = Some R /\ returns 0 [] f d_argsQ R /\ shape R = (repeat nv k ++ repeat no k)%list.
  Proof. intros O. exact (def_of k f _ _ vq O). Qed.
  Lemma def_e : exists R, call0 Code_fullCCenergy.ccsd_energy_with_spin d_argsE = Some R.
  Proof. destruct (def_of 0 Code_fullCCenergy.ccsd_energy_with_spin _ _ ve) as [R [A _]]; [ck|]. eauto. Qed.

  Lemma shifted_ok D t r sh : shape D = sh -> shape t = sh -> shape r = sh ->
    exists x, shifted D t r = Some x /\ shape x = sh /\ forall i, data x i = (data r i + / data D i * data t i)%Qc.
  Proof.
    intros E1 E2 E3. unfold shifted. rewrite tbin_ok by (cbn [trecip shape]; congruence). cbn [obind trecip shape data].
    rewrite tbin_ok by (cbn [shape]; congruence). eexists. split; [reflexivity|]. split; [exact E3|reflexivity].
  Qed.
  Lemma times_ok D r sh : shape D = sh -> shape r = sh -> exists x, tbin Qcmult r D = Some x /\ shape x = sh /\ forall i, data x i = (data r i * data D i)%Qc.
  Proof. intros E1 E2. rewrite tbin_ok by congruence. eexists. split; [reflexivity|]. split; [exact E2|reflexivity]. Qed.
  Lemma transp_ok t : shape t = [nv; nv; no; no] -> exists l, ttransp [2; 3; 0; 1]%nat t = Some l.
  Proof. intros E. destruct (swapped_def t _ _ _ _ E) as [l [H _]]. eauto. Qed.
  Definition step_result (d' : dict) : Prop :=
    arrays no nv amp_ranks d' /\
    (forall k, In k ["t1aa"; "t1bb"; "t3aaa"; "t3bbb"; "t3aab"; "t3abb"] -> forall i, data (get k d') i = 0%Qc) /\
    (forall k D f, In (k, D, f) ccdq_unknowns -> exists R, returns 0 [] f d_argsQ R /\ shape R = shape (get k d) /\
       forall i, data (get k d') i = ((data R i + / data (get D denom) i * data (get k d) i) * data (get D denom) i)%Qc).
  Lemma bnd {X Y} (P : Y -> Prop) (x : option X) a (k : X -> option Y) : x = Some a -> (exists y, k a = Some y /\ P y) -> exists y, obind x k = Some y /\ P y.
  Proof. intros ->. exact (fun H => H). Qed.
  Lemma bnd3 {X Y} (x : option X) a (k : X -> option Y) y : x = Some a -> k a = Some y -> obind x k = Some y.
  Proof. intros ->. exact (fun H => H). Qed.
  Lemma step_ok : exists d', full_residMain no no f_aa f_bb g_aaaa g_bbbb g_abab denom c d = Some d' /\ step_result d'.
  Proof.
    unfold full_residMain, is_in. rewrite Hty. change ("CCDQ" =? "CCDQ") with true.
    change (existsb (String.eqb "CCDQ") ["CCSD(Qf)"; "CCDQ"]) with true. change (existsb (String.eqb "CCDQ") zero_labels) with true.
    change (existsb (String.eqb "CCDQ") qf_labels) with false. cbv iota zeta.
    destruct (got "t1aa" 1 ltac:(inl)) as [Et1aa St1aa]. refine (bnd _ _ _ _ Et1aa _). cbv beta.
    destruct (got "t1bb" 1 ltac:(inl)) as [Et1bb St1bb]. refine (bnd _ _ _ _ Et1bb _). cbv beta.
    destruct (got "t2aa" 2 ltac:(inl)) as [Et2aa St2aa]. refine (bnd _ _ _ _ Et2aa _). cbv beta.
    destruct (got "t2bb" 2 ltac:(inl)) as [Et2bb St2bb]. refine (bnd _ _ _ _ Et2bb _). cbv beta.
    destruct (got "t2ab" 2 ltac:(inl)) as [Et2ab St2ab]. refine (bnd _ _ _ _ Et2ab _). cbv beta.
    destruct (got "t3aaa" 3 ltac:(inl)) as [Et3aaa St3aaa]. refine (bnd _ _ _ _ Et3aaa _). cbv beta.
    destruct (got "t3bbb" 3 ltac:(inl)) as [Et3bbb St3bbb]. refine (bnd _ _ _ _ Et3bbb _). cbv beta.
    destruct (got "t3aab" 3 ltac:(inl)) as [Et3aab St3aab]. refine (bnd _ _ _ _ Et3aab _). cbv beta.
    destruct (got "t3abb" 3 ltac:(inl)) as [Et3abb St3abb]. refine (bnd _ _ _ _ Et3abb _). cbv beta.
    destruct (got "t4aaaa" 4 ltac:(inl)) as [Et4aaaa St4aaaa]. refine (bnd _ _ _ _ Et4aaaa _). cbv beta.
    destruct (got "t4aaab" 4 ltac:(inl)) as [Et4aaab St4aaab]. refine (bnd _ _ _ _ Et4aaab _). cbv beta.
    destruct (got "t4aabb" 4 ltac:(inl)) as [Et4aabb St4aabb]. refine (bnd _ _ _ _ Et4aabb _). cbv beta.
    destruct (got "t4abbb" 4 ltac:(inl)) as [Et4abbb St4abbb]. refine (bnd _ _ _ _ Et4abbb _). cbv beta.
    destruct (got "t4bbbb" 4 ltac:(inl)) as [Et4bbbb St4bbbb]. refine (bnd _ _ _ _ Et4bbbb _). cbv beta.
    destruct (gotD "D1aa" 1 ltac:(inl)) as [ED1aa SD1aa]. refine (bnd _ _ _ _ ED1aa _). cbv beta.
    destruct (gotD "D1bb" 1 ltac:(inl)) as [ED1bb SD1bb]. refine (bnd _ _ _ _ ED1bb _). cbv beta.
    destruct (gotD "D2aa" 2 ltac:(inl)) as [ED2aa SD2aa]. refine (bnd _ _ _ _ ED2aa _). cbv beta.
    destruct (gotD "D2bb" 2 ltac:(inl)) as [ED2bb SD2bb]. refine (bnd _ _ _ _ ED2bb _). cbv beta.
    destruct (gotD "D2ab" 2 ltac:(inl)) as [ED2ab SD2ab]. refine (bnd _ _ _ _ ED2ab _). cbv beta.
    destruct (gotD "D3aaa" 3 ltac:(inl)) as [ED3aaa SD3aaa]. refine (bnd _ _ _ _ ED3aaa _). cbv beta.
    destruct (gotD "D3bbb" 3 ltac:(inl)) as [ED3bbb SD3bbb]. refine (bnd _ _ _ _ ED3bbb _). cbv beta.
    destruct (gotD "D3aab" 3 ltac:(inl)) as [ED3aab SD3aab]. refine (bnd _ _ _ _ ED3aab _). cbv beta.
    destruct (gotD "D3abb" 3 ltac:(inl)) as [ED3abb SD3abb]. refine (bnd _ _ _ _ ED3abb _). cbv beta.
    destruct (gotD "D4aaaa" 4 ltac:(inl)) as [ED4aaaa SD4aaaa]. refine (bnd _ _ _ _ ED4aaaa _). cbv beta.
    destruct (gotD "D4aaab" 4 ltac:(inl)) as [ED4aaab SD4aaab]. refine (bnd _ _ _ _ ED4aaab _). cbv beta.
    destruct (gotD "D4aabb" 4 ltac:(inl)) as [ED4aabb SD4aabb]. refine (bnd _ _ _ _ ED4aabb _). cbv beta.
    destruct (gotD "D4abbb" 4 ltac:(inl)) as [ED4abbb SD4abbb]. refine (bnd _ _ _ _ ED4abbb _). cbv beta.
    destruct (gotD "D4bbbb" 4 ltac:(inl)) as [ED4bbbb SD4bbbb]. refine (bnd _ _ _ _ ED4bbbb _). cbv beta.
    destruct (def_1 Code_fullCCresidEqns.ccsdt_t1_aa_residual ltac:(ck)) as [Rt1aa [Ct1aa Qt1aa]]. refine (bnd _ _ _ _ Ct1aa _). cbv beta.
    destruct (def_1 Code_fullCCresidEqns.ccsdt_t1_bb_residual ltac:(ck)) as [Rt1bb [Ct1bb Qt1bb]]. refine (bnd _ _ _ _ Ct1bb _). cbv beta.
    destruct (def_q 2 Code_ccdq_resids.ccdq_t2_aaaa_residual ltac:(ck)) as [Rt2aa [Ct2aa [Ht2aa Qt2aa]]].
    destruct (def_q 2 Code_ccdq_resids.ccdq_t2_bbbb_residual ltac:(ck)) as [Rt2bb [Ct2bb [Ht2bb Qt2bb]]].
    destruct (def_q 2 Code_ccdq_resids.ccdq_t2_abab_residual ltac:(ck)) as [Rt2ab [Ct2ab [Ht2ab Qt2ab]]].
    destruct (def_q 4 Code_ccdq_resids.ccdq_t4_aaaaaaaa_residual ltac:(ck)) as [Rt4aaaa [Ct4aaaa [Ht4aaaa Qt4aaaa]]].
    destruct (def_q 4 Code_ccdq_resids.ccdq_t4_aaabaaab_residual ltac:(ck)) as [Rt4aaab [Ct4aaab [Ht4aaab Qt4aaab]]].
    destruct (def_q 4 Code_ccdq_resids.ccdq_t4_aabbaabb_residual ltac:(ck)) as [Rt4aabb [Ct4aabb [Ht4aabb Qt4aabb]]].
    destruct (def_q 4 Code_ccdq_resids.ccdq_t4_abbbabbb_residual ltac:(ck)) as [Rt4abbb [Ct4abbb [Ht4abbb Qt4abbb]]].
    destruct (def_q 4 Code_ccdq_resids.ccdq_t4_bbbbbbbb_residual ltac:(ck)) as [Rt4bbbb [Ct4bbbb [Ht4bbbb Qt4bbbb]]].
    refine (bnd _ _ (Rt2aa, Rt2bb, Rt2ab) _ _ _).
    { eapply bnd3; [exact Ct2aa|]. eapply bnd3; [exact Ct2bb|]. eapply bnd3; [exact Ct2ab|]. reflexivity. }
    cbn [fst snd]. do 4 (refine (bnd _ _ _ _ eq_refl _); cbv beta).
    destruct (shifted_ok (get "D1aa" denom) (get "t1aa" d) Rt1aa _ SD1aa St1aa Qt1aa) as [Xt1aa [Wt1aa [Yt1aa Zt1aa]]]. refine (bnd _ _ _ _ Wt1aa _). cbv beta.
    destruct (shifted_ok (get "D1bb" denom) (get "t1bb" d) Rt1bb _ SD1bb St1bb Qt1bb) as [Xt1bb [Wt1bb [Yt1bb Zt1bb]]]. refine (bnd _ _ _ _ Wt1bb _). cbv beta.
    destruct (shifted_ok (get "D2aa" denom) (get "t2aa" d) Rt2aa _ SD2aa St2aa Qt2aa) as [Xt2aa [Wt2aa [Yt2aa Zt2aa]]]. refine (bnd _ _ _ _ Wt2aa _). cbv beta.
    destruct (shifted_ok (get "D2bb" denom) (get "t2bb" d) Rt2bb _ SD2bb St2bb Qt2bb) as [Xt2bb [Wt2bb [Yt2bb Zt2bb]]]. refine (bnd _ _ _ _ Wt2bb _). cbv beta.
    destruct (shifted_ok (get "D2ab" denom) (get "t2ab" d) Rt2ab _ SD2ab St2ab Qt2ab) as [Xt2ab [Wt2ab [Yt2ab Zt2ab]]]. refine (bnd _ _ _ _ Wt2ab _). cbv beta.
    destruct (shifted_ok (get "D3aaa" denom) (get "t3aaa" d) (tscale 0 (get "t3aaa" d)) _ SD3aaa St3aaa St3aaa) as [Xt3aaa [Wt3aaa [Yt3aaa Zt3aaa]]]. refine (bnd _ _ _ _ Wt3aaa _). cbv beta.
    destruct (shifted_ok (get "D3bbb" denom) (get "t3bbb" d) (tscale 0 (get "t3aaa" d)) _ SD3bbb St3bbb St3aaa) as [Xt3bbb [Wt3bbb [Yt3bbb Zt3bbb]]]. refine (bnd _ _ _ _ Wt3bbb _). cbv beta.
    destruct (shifted_ok (get "D3aab" denom) (get "t3aab" d) (tscale 0 (get "t3aaa" d)) _ SD3aab St3aab St3aaa) as [Xt3aab [Wt3aab [Yt3aab Zt3aab]]]. refine (bnd _ _ _ _ Wt3aab _). cbv beta.
    destruct (shifted_ok (get "D3abb" denom) (get "t3abb" d) (tscale 0 (get "t3aaa" d)) _ SD3abb St3abb St3aaa) as [Xt3abb [Wt3abb [Yt3abb Zt3abb]]]. refine (bnd _ _ _ _ Wt3abb _). cbv beta.
    refine (bnd _ _ _ _ Ct4aaaa _). cbv beta.
    destruct (shifted_ok (get "D4aaaa" denom) (get "t4aaaa" d) Rt4aaaa _ SD4aaaa St4aaaa Qt4aaaa) as [Xt4aaaa [Wt4aaaa [Yt4aaaa Zt4aaaa]]]. refine (bnd _ _ _ _ Wt4aaaa _). cbv beta.
    refine (bnd _ _ _ _ Ct4aaab _). cbv beta.
    destruct (shifted_ok (get "D4aaab" denom) (get "t4aaab" d) Rt4aaab _ SD4aaab St4aaab Qt4aaab) as [Xt4aaab [Wt4aaab [Yt4aaab Zt4aaab]]]. refine (bnd _ _ _ _ Wt4aaab _). cbv beta.
    refine (bnd _ _ _ _ Ct4aabb _). cbv beta.
    destruct (shifted_ok (get "D4aabb" denom) (get "t4aabb" d) Rt4aabb _ SD4aabb St4aabb Qt4aabb) as [Xt4aabb [Wt4aabb [Yt4aabb Zt4aabb]]]. refine (bnd _ _ _ _ Wt4aabb _). cbv beta.
    refine (bnd _ _ _ _ Ct4abbb _). cbv beta.
    destruct (shifted_ok (get "D4abbb" denom) (get "t4abbb" d) Rt4abbb _ SD4abbb St4abbb Qt4abbb) as [Xt4abbb [Wt4abbb [Yt4abbb Zt4abbb]]]. refine (bnd _ _ _ _ Wt4abbb _). cbv beta.
    refine (bnd _ _ _ _ Ct4bbbb _). cbv beta.
    destruct (shifted_ok (get "D4bbbb" denom) (get "t4bbbb" d) Rt4bbbb _ SD4bbbb St4bbbb Qt4bbbb) as [Xt4bbbb [Wt4bbbb [Yt4bbbb Zt4bbbb]]]. refine (bnd _ _ _ _ Wt4bbbb _). cbv beta.
    destruct (transp_ok (get "t2aa" d) St2aa) as [lt2aa Lt2aa]. refine (bnd _ _ _ _ Lt2aa _). cbv beta.
    destruct (transp_ok (get "t2bb" d) St2bb) as [lt2bb Lt2bb]. refine (bnd _ _ _ _ Lt2bb _). cbv beta.
    destruct (transp_ok (get "t2ab" d) St2ab) as [lt2ab Lt2ab]. refine (bnd _ _ _ _ Lt2ab _). cbv beta.
    do 3 (refine (bnd _ _ _ _ eq_refl _); cbv beta).
    destruct (times_ok (get "D1aa" denom) (tscale 0 Xt1aa) _ SD1aa Yt1aa) as [Nt1aa [Mt1aa [Ut1aa Vt1aa]]]. refine (bnd _ _ _ _ Mt1aa _). cbv beta.
    destruct (times_ok (get "D1bb" denom) (tscale 0 Xt1aa) _ SD1bb Yt1aa) as [Nt1bb [Mt1bb [Ut1bb Vt1bb]]]. refine (bnd _ _ _ _ Mt1bb _). cbv beta.
    destruct (times_ok (get "D2aa" denom) Xt2aa _ SD2aa Yt2aa) as [Nt2aa [Mt2aa [Ut2aa Vt2aa]]]. refine (bnd _ _ _ _ Mt2aa _). cbv beta.
    destruct (times_ok (get "D2bb" denom) Xt2bb _ SD2bb Yt2bb) as [Nt2bb [Mt2bb [Ut2bb Vt2bb]]]. refine (bnd _ _ _ _ Mt2bb _). cbv beta.
    destruct (times_ok (get "D2ab" denom) Xt2ab _ SD2ab Yt2ab) as [Nt2ab [Mt2ab [Ut2ab Vt2ab]]]. refine (bnd _ _ _ _ Mt2ab _). cbv beta.
    destruct (times_ok (get "D3aaa" denom) (tscale 0 Xt3aaa) _ SD3aaa Yt3aaa) as [Nt3aaa [Mt3aaa [Ut3aaa Vt3aaa]]]. refine (bnd _ _ _ _ Mt3aaa _). cbv beta.
    destruct (times_ok (get "D3bbb" denom) (tscale 0 Xt3aaa) _ SD3bbb Yt3aaa) as [Nt3bbb [Mt3bbb [Ut3bbb Vt3bbb]]]. refine (bnd _ _ _ _ Mt3bbb _). cbv beta.
    destruct (times_ok (get "D3aab" denom) (tscale 0 Xt3aaa) _ SD3aab Yt3aaa) as [Nt3aab [Mt3aab [Ut3aab Vt3aab]]]. refine (bnd _ _ _ _ Mt3aab _). cbv beta.
    destruct (times_ok (get "D3abb" denom) (tscale 0 Xt3aaa) _ SD3abb Yt3aaa) as [Nt3abb [Mt3abb [Ut3abb Vt3abb]]]. refine (bnd _ _ _ _ Mt3abb _). cbv beta.
    destruct (times_ok (get "D4aaaa" denom) Xt4aaaa _ SD4aaaa Yt4aaaa) as [Nt4aaaa [Mt4aaaa [Ut4aaaa Vt4aaaa]]]. refine (bnd _ _ _ _ Mt4aaaa _). cbv beta.
    destruct (times_ok (get "D4aaab" denom) Xt4aaab _ SD4aaab Yt4aaab) as [Nt4aaab [Mt4aaab [Ut4aaab Vt4aaab]]]. refine (bnd _ _ _ _ Mt4aaab _). cbv beta.
    destruct (times_ok (get "D4aabb" denom) Xt4aabb _ SD4aabb Yt4aabb) as [Nt4aabb [Mt4aabb [Ut4aabb Vt4aabb]]]. refine (bnd _ _ _ _ Mt4aabb _). cbv beta.
    destruct (times_ok (get "D4abbb" denom) Xt4abbb _ SD4abbb Yt4abbb) as [Nt4abbb [Mt4abbb [Ut4abbb Vt4abbb]]]. refine (bnd _ _ _ _ Mt4abbb _). cbv beta.
    destruct (times_ok (get "D4bbbb" denom) Xt4bbbb _ SD4bbbb Yt4bbbb) as [Nt4bbbb [Mt4bbbb [Ut4bbbb Vt4bbbb]]]. refine (bnd _ _ _ _ Mt4bbbb _). cbv beta.
    eexists. split; [reflexivity|]. split; [|split].
    - repeat apply Forall_cons; try apply Forall_nil; cbn [fst snd]; (eexists; split; [reflexivity|assumption]).
    - intros k I. cbn [In] in I.
      repeat destruct I as [I|I]; try contradiction; subst k; intros i; unfold get; cbn [slook String.eqb Ascii.eqb Bool.eqb];
        rewrite ?Vt1aa, ?Vt1bb, ?Vt3aaa, ?Vt3bbb, ?Vt3aab, ?Vt3abb; cbn [tscale data]; ring.
    - intros k D f I. cbn [In ccdq_unknowns] in I.
      repeat destruct I as [I|I]; try contradiction; injection I as <- <- <-.
      + exists Rt2aa. split; [exact Ht2aa|]. split; [exact (eq_trans Qt2aa (eq_sym St2aa))|]. intros i. change (data Nt2aa i = ((data Rt2aa i + / data (get "D2aa" denom) i * data (get "t2aa" d) i) * data (get "D2aa" denom) i)%Qc). rewrite Vt2aa, Zt2aa. reflexivity.
      + exists Rt2bb. split; [exact Ht2bb|]. split; [exact (eq_trans Qt2bb (eq_sym St2bb))|]. intros i. change (data Nt2bb i = ((data Rt2bb i + / data (get "D2bb" denom) i * data (get "t2bb" d) i) * data (get "D2bb" denom) i)%Qc). rewrite Vt2bb, Zt2bb. reflexivity.
      + exists Rt2ab. split; [exact Ht2ab|]. split; [exact (eq_trans Qt2ab (eq_sym St2ab))|]. intros i. change (data Nt2ab i = ((data Rt2ab i + / data (get "D2ab" denom) i * data (get "t2ab" d) i) * data (get "D2ab" denom) i)%Qc). rewrite Vt2ab, Zt2ab. reflexivity.
      + exists Rt4aaaa. split; [exact Ht4aaaa|]. split; [exact (eq_trans Qt4aaaa (eq_sym St4aaaa))|]. intros i. change (data Nt4aaaa i = ((data Rt4aaaa i + / data (get "D4aaaa" denom) i * data (get "t4aaaa" d) i) * data (get "D4aaaa" denom) i)%Qc). rewrite Vt4aaaa, Zt4aaaa. reflexivity.
      + exists Rt4aaab. split; [exact Ht4aaab|]. split; [exact (eq_trans Qt4aaab (eq_sym St4aaab))|]. intros i. change (data Nt4aaab i = ((data Rt4aaab i + / data (get "D4aaab" denom) i * data (get "t4aaab" d) i) * data (get "D4aaab" denom) i)%Qc). rewrite Vt4aaab, Zt4aaab. reflexivity.
      + exists Rt4aabb. split; [exact Ht4aabb|]. split; [exact (eq_trans Qt4aabb (eq_sym St4aabb))|]. intros i. change (data Nt4aabb i = ((data Rt4aabb i + / data (get "D4aabb" denom) i * data (get "t4aabb" d) i) * data (get "D4aabb" denom) i)%Qc). rewrite Vt4aabb, Zt4aabb. reflexivity.
      + exists Rt4abbb. split; [exact Ht4abbb|]. split; [exact (eq_trans Qt4abbb (eq_sym St4abbb))|]. intros i. change (data Nt4abbb i = ((data Rt4abbb i + / data (get "D4abbb" denom) i * data (get "t4abbb" d) i) * data (get "D4abbb" denom) i)%Qc). rewrite Vt4abbb, Zt4abbb. reflexivity.
      + exists Rt4bbbb. split; [exact Ht4bbbb|]. split; [exact (eq_trans Qt4bbbb (eq_sym St4bbbb))|]. intros i. change (data Nt4bbbb i = ((data Rt4bbbb i + / data (get "D4bbbb" denom) i * data (get "t4bbbb" d) i) * data (get "D4bbbb" denom) i)%Qc). rewrite Vt4bbbb, Zt4bbbb. reflexivity.
  Qed.
  Lemma energy_ok : exists E, full_energyMain no no f_aa f_bb g_aaaa g_bbbb g_abab denom d = Some E.
  Proof.
    assert (K : exists E, full_energyMain no no f_aa f_bb g_aaaa g_bbbb g_abab denom d = Some E /\ True); [|destruct K as [E [K _]]; eauto].
    unfold full_energyMain.
    destruct (got "t1aa" 1 ltac:(inl)) as [Et1aa _]. refine (bnd _ _ _ _ Et1aa _). cbv beta.
    destruct (got "t1bb" 1 ltac:(inl)) as [Et1bb _]. refine (bnd _ _ _ _ Et1bb _). cbv beta.
    destruct (got "t2aa" 2 ltac:(inl)) as [Et2aa _]. refine (bnd _ _ _ _ Et2aa _). cbv beta.
    destruct (got "t2bb" 2 ltac:(inl)) as [Et2bb _]. refine (bnd _ _ _ _ Et2bb _). cbv beta.
    destruct (got "t2ab" 2 ltac:(inl)) as [Et2ab _]. refine (bnd _ _ _ _ Et2ab _). cbv beta.
    destruct (got "t3aaa" 3 ltac:(inl)) as [Et3aaa _]. refine (bnd _ _ _ _ Et3aaa _). cbv beta.
    destruct (got "t3bbb" 3 ltac:(inl)) as [Et3bbb _]. refine (bnd _ _ _ _ Et3bbb _). cbv beta.
    destruct (got "t3aab" 3 ltac:(inl)) as [Et3aab _]. refine (bnd _ _ _ _ Et3aab _). cbv beta.
    destruct (got "t3abb" 3 ltac:(inl)) as [Et3abb _]. refine (bnd _ _ _ _ Et3abb _). cbv beta.
    destruct (gotD "D3aaa" 3 ltac:(inl)) as [ED3aaa _]. refine (bnd _ _ _ _ ED3aaa _). cbv beta.
    destruct (gotD "D3bbb" 3 ltac:(inl)) as [ED3bbb _]. refine (bnd _ _ _ _ ED3bbb _). cbv beta.
    destruct (gotD "D3aab" 3 ltac:(inl)) as [ED3aab _]. refine (bnd _ _ _ _ ED3aab _). cbv beta.
    destruct (gotD "D3abb" 3 ltac:(inl)) as [ED3abb _]. refine (bnd _ _ _ _ ED3abb _). cbv beta.
    destruct def_e as [R HR]. refine (bnd _ _ _ _ HR _). eauto.
  Qed.
  Lemma l2_def : exists l2, l2_of d = Some l2.
  Proof.
    destruct (got "t2aa" 2 ltac:(inl)) as [E1 S1]. destruct (got "t2bb" 2 ltac:(inl)) as [E2 S2]. destruct (got "t2ab" 2 ltac:(inl)) as [E3 S3].
    apply (l2_ok no nv _ _ _ d (conj E1 (conj E2 E3)) S1 S2 S3).
  Qed.
  End Step.
End CCDQ.

(** C40, label "CCDQ".  For all sizes and all arrays of the right shapes the driver returns: the new T1 and T3 arrays are zero, and each new
    T2 and T4 array is (R + T/D)*D, entry by entry, where R is what the CCDQ residual function for that spin block returns. *)
Theorem C40_ccdq_residuals : forall no nv f_aa f_bb g_aaaa g_bbbb g_abab denom c d,
  shape f_aa = [no + nv; no + nv]%nat -> shape f_bb = [no + nv; no + nv]%nat ->
  shape g_aaaa = repeat (no + nv)%nat 4 -> shape g_bbbb = repeat (no + nv)%nat 4 -> shape g_abab = repeat (no + nv)%nat 4 ->
  arrays no nv den_ranks denom -> arrays no nv amp_ranks d -> cc_type c = "CCDQ" ->
  exists d', full_residMain no no f_aa f_bb g_aaaa g_bbbb g_abab denom c d = Some d' /\ arrays no nv amp_ranks d' /\
    (forall k, In k ["t1aa"; "t1bb"; "t3aaa"; "t3bbb"; "t3aab"; "t3abb"] -> forall i, data (get k d') i = 0%Qc) /\
    (forall k D f, In (k, D, f) ccdq_unknowns ->
       exists R, returns 0 [] f (ccdq_args no f_aa f_bb g_aaaa g_bbbb g_abab d) R /\ shape R = shape (get k d) /\
       forall i, data (get k d') i = ((data R i + / data (get D denom) i * data (get k d) i) * data (get D denom) i)%Qc).
Proof. intros. apply step_ok; assumption. Qed.
Print Assumptions C40_ccdq_residuals.

(** With non-zero denominators, the T2 and T4 arrays are unchanged by the driver exactly when all eight CCDQ residuals vanish. *)
Theorem C40_ccdq_fixed_point : forall no nv f_aa f_bb g_aaaa g_bbbb g_abab denom c d d',
  shape f_aa = [no + nv; no + nv]%nat -> shape f_bb = [no + nv; no + nv]%nat ->
  shape g_aaaa = repeat (no + nv)%nat 4 -> shape g_bbbb = repeat (no + nv)%nat 4 -> shape g_abab = repeat (no + nv)%nat 4 ->
  arrays no nv den_ranks denom -> arrays no nv amp_ranks d -> cc_type c = "CCDQ" ->
  (forall k D f, In (k, D, f) ccdq_unknowns -> forall i, inr i (shape (get D denom)) -> data (get D denom) i <> 0%Qc) ->
  full_residMain no no f_aa f_bb g_aaaa g_bbbb g_abab denom c d = Some d' ->
  ((forall k D f, In (k, D, f) ccdq_unknowns -> teq (get k d') (get k d)) <->
   (forall k D f R, In (k, D, f) ccdq_unknowns -> returns 0 [] f (ccdq_args no f_aa f_bb g_aaaa g_bbbb g_abab d) R -> zero_tensor R)).
Proof.
  intros no nv f_aa f_bb g_aaaa g_bbbb g_abab denom c d d' S1 S2 S3 S4 S5 HD Hd HT NZ HR.
  destruct (C40_ccdq_residuals no nv f_aa f_bb g_aaaa g_bbbb g_abab denom c d S1 S2 S3 S4 S5 HD Hd HT) as [d1 [E [A [_ U]]]].
  rewrite HR in E. injection E as <-.
  assert (SH : forall k D f, In (k, D, f) ccdq_unknowns -> shape (get k d') = shape (get k d) /\ shape (get D denom) = shape (get k d)).
  { intros k D f I. cbn [In ccdq_unknowns] in I.
    repeat destruct I as [I|I]; try contradiction; injection I as <- <- <-;
      match goal with |- shape (get ?k _) = _ /\ shape (get ?D _) = _ =>
        first [ rewrite (proj2 (got no nv d Hd k 2 ltac:(cbn; tauto))), (proj2 (got no nv d' A k 2 ltac:(cbn; tauto))), (proj2 (gotD no nv denom HD D 2 ltac:(cbn; tauto)))
              | rewrite (proj2 (got no nv d Hd k 4 ltac:(cbn; tauto))), (proj2 (got no nv d' A k 4 ltac:(cbn; tauto))), (proj2 (gotD no nv denom HD D 4 ltac:(cbn; tauto))) ] end; split; reflexivity. }
  assert (EQ : forall k D f R i, In (k, D, f) ccdq_unknowns -> inr i (shape (get k d)) ->
    returns 0 [] f (ccdq_args no f_aa f_bb g_aaaa g_bbbb g_abab d) R ->
    shape R = shape (get k d) /\ data (get k d') i = (data (get k d) i + data (get D denom) i * data R i)%Qc).
  { intros k D f R i I Hi HRt. destruct (U k D f I) as [R' [H1 [H2 H3]]]. unfold returns in *. rewrite HRt in H1. injection H1 as <-.
    split; [exact H2|]. rewrite H3.
    transitivity (data (get D denom) i * data R i + (data (get D denom) i * / data (get D denom) i) * data (get k d) i)%Qc; [ring|].
    rewrite Qcmult_inv_r by (apply (NZ k D f I); rewrite (proj2 (SH k D f I)); exact Hi). ring. }
  split.
  - intros HF k D f R I HRt i Hi. destruct (HF k D f I) as [T1 T2]. destruct (SH k D f I) as [Q1 Q2].
    assert (SR : shape R = shape (get k d)) by (destruct (U k D f I) as [R' [H1 [H2 _]]]; unfold returns in *; rewrite HRt in H1; injection H1 as <-; exact H2).
    rewrite SR in Hi. destruct (EQ k D f R i I Hi HRt) as [_ X]. rewrite T2 in X by (rewrite Q1; exact Hi).
    assert (Z : (data (get D denom) i * data R i = 0)%Qc).
    { transitivity (data (get k d) i + data (get D denom) i * data R i - data (get k d) i)%Qc; [ring|]. rewrite <- X. ring. }
    destruct (Qcmult_integral _ _ Z) as [Y|Y]; [|exact Y]. destruct (NZ k D f I i); [rewrite Q2; exact Hi|exact Y].
  - intros HZ k D f I. destruct (SH k D f I) as [Q1 Q2]. split; [exact Q1|]. intros i Hi. rewrite Q1 in Hi.
    destruct (U k D f I) as [R [H1 [H2 _]]]. destruct (EQ k D f R i I Hi H1) as [_ ->].
    rewrite (HZ k D f R I H1 i) by (rewrite H2; exact Hi). ring.
Qed.
Print Assumptions C40_ccdq_fixed_point.

(** A CCDQ calculation without DIIS never raises, whatever the integrals and denominators are: it returns amplitudes or ends through
    the exit at 75 passes; what it returns has zero T1 and T3. *)
Lemma init_arrays no nv : arrays no nv amp_ranks (full_init no nv).
Proof. repeat apply Forall_cons; try apply Forall_nil; (eexists; split; reflexivity). Qed.
Definition no_singles_triples (d : dict) : Prop :=
  forall k, In k ["t1aa"; "t1bb"; "t3aaa"; "t3bbb"; "t3aab"; "t3abb"] -> forall i, data (get k d) i = 0%Qc.
Lemma init_zero no nv : no_singles_triples (full_init no nv).
Proof. intros k I. cbn [In] in I. repeat destruct I as [I|I]; try contradiction; subst k; intros i; reflexivity. Qed.
Theorem C40_ccdq_run_total : forall no nv f_aa f_bb g_aaaa g_bbbb g_abab denom c solve pert,
  (0 < no)%nat -> (0 < nv)%nat ->
  shape f_aa = [no + nv; no + nv]%nat -> shape f_bb = [no + nv; no + nv]%nat ->
  shape g_aaaa = repeat (no + nv)%nat 4 -> shape g_bbbb = repeat (no + nv)%nat 4 -> shape g_abab = repeat (no + nv)%nat 4 ->
  arrays no nv den_ranks denom -> cc_label c = "fullCCType" -> cc_type c = "CCDQ" -> diis_size c = None -> (0 < max_iter c)%nat ->
  full_kernel no no nv f_aa f_bb g_aaaa g_bbbb g_abab denom c solve pert = SysExit \/
  exists d E, full_kernel no no nv f_aa f_bb g_aaaa g_bbbb g_abab denom c solve pert = Returned d (E + nucE c) (nucE c + E - hf_energy c) /\
    arrays no nv amp_ranks d /\ no_singles_triples d /\ full_energyMain no no f_aa f_bb g_aaaa g_bbbb g_abab denom d = Some E.
Proof.
  intros no nv f_aa f_bb g_aaaa g_bbbb g_abab denom c solve pert Hno Hnv S1 S2 S3 S4 S5 HD HL HT HI HM.
  assert (RC : resid_call c = Some R_fullCC) by (unfold resid_call; rewrite HL; reflexivity).
  assert (EC : energy_call c = Some E_fullCC) by (unfold energy_call; rewrite HL; reflexivity).
  set (P := fun d => arrays no nv amp_ranks d /\ no_singles_triples d).
  assert (IT : forall s, P (amps unit s) -> exists s' E,
    iteration unit solve (full_resid no no f_aa f_bb g_aaaa g_bbbb g_abab denom c) (full_energy no no f_aa f_bb g_aaaa g_bbbb g_abab denom) c s = Some (s', E) /\
    P (amps unit s') /\ full_energyMain no no f_aa f_bb g_aaaa g_bbbb g_abab denom (amps unit s') = Some E).
  { intros s [A _]. unfold iteration. destruct (l2_def no nv _ A) as [l2 ->]. cbn [obind]. rewrite RC. cbn [obind full_resid].
    destruct (C40_ccdq_residuals no nv f_aa f_bb g_aaaa g_bbbb g_abab denom c (amps unit s) S1 S2 S3 S4 S5 HD A HT) as [d' [-> [A' [Z' _]]]].
    cbn [obind fst snd]. unfold diis_block. rewrite HI. cbn [obind amps world old_vec dstate l2amps]. rewrite EC. cbn [obind full_energy].
    destruct (energy_ok no nv f_aa f_bb g_aaaa g_bbbb g_abab denom S1 S2 S3 S4 S5 HD d' A') as [E EE]. rewrite EE. cbn [obind fst snd].
    eexists _, E. split; [reflexivity|]. cbn [amps]. split; [split; assumption|exact EE]. }
  assert (LP : forall n idx s old cur, P (amps unit s) -> (idx + n <= max_iter c)%nat ->
    (n = O -> exists E, cur = Some E /\ full_energyMain no no f_aa f_bb g_aaaa g_bbbb g_abab denom (amps unit s) = Some E) ->
    loop unit solve (full_resid no no f_aa f_bb g_aaaa g_bbbb g_abab denom c) (full_energy no no f_aa f_bb g_aaaa g_bbbb g_abab denom) c n idx s old cur = LExit unit \/
    exists s' E, loop unit solve (full_resid no no f_aa f_bb g_aaaa g_bbbb g_abab denom c) (full_energy no no f_aa f_bb g_aaaa g_bbbb g_abab denom) c n idx s old cur
      = LDone unit s' (Some E) /\ P (amps unit s') /\ full_energyMain no no f_aa f_bb g_aaaa g_bbbb g_abab denom (amps unit s') = Some E).
  { induction n as [|n IH]; intros idx s old cur HP Hi H0.
    - destruct (H0 eq_refl) as [E [-> EE]]. right. exists s, E. split; [reflexivity|]. split; assumption.
    - cbn [loop]. destruct (Nat.ltb 75 idx); [left; reflexivity|]. destruct (IT s HP) as [s' [E [-> [HP' EE]]]].
      destruct (Qclt_le_dec _ _); [right; exists s', E; split; [reflexivity|]; split; assumption|].
      replace (Nat.ltb (max_iter c) idx) with false by (symmetry; apply Nat.ltb_ge; lia).
      apply IH; [exact HP'|lia|]. intros _. exists E. split; [reflexivity|exact EE]. }
  unfold full_kernel, kernel, start. rewrite HL, EC. change ("fullCCType" =? "ccdTypeSlow") with false. cbn [obind full_energy].
  destruct (energy_ok no nv f_aa f_bb g_aaaa g_bbbb g_abab denom S1 S2 S3 S4 S5 HD (full_init no nv) (init_arrays no nv)) as [E0 EE0].
  rewrite EE0. cbn [obind fst snd].
  match goal with |- context [loop _ _ _ _ _ _ _ ?s _ _] => set (s0 := s) end.
  destruct (LP (max_iter c) 0%nat s0 E0 None) as [->|[s' [E [-> [HP EE]]]]]; [split; [apply init_arrays|apply init_zero]|lia|lia|left; reflexivity|].
  right. exists (amps unit s'), E. destruct HP as [A Z].
  assert (PR : printable (amps unit s') = true).
  { destruct (got no nv _ A "t2aa" 2 ltac:(cbn; tauto)) as [X1 X2]. unfold printable. rewrite X1, X2. cbn [repeat app].
    repeat (apply andb_true_intro; split); apply Nat.ltb_lt; assumption. }
  rewrite PR. unfold finalize, is_qf. rewrite HT. cbn [obind fst snd].
  change (negb ("CCDQ" =? "CCD(Qf)")) with true. change (existsb (String.eqb "CCDQ") qf_types) with false. change (contains "UT2" "CCDQ") with false.
  cbn [obind fst snd]. split; [reflexivity|]. split; [exact A|]. split; [exact Z|exact EE].
Qed.
Print Assumptions C40_ccdq_run_total.

(** Concrete case: two occupied and two virtual orbitals per spin. *)
Definition ones (ks : list (string * nat)) : dict := map (fun kr => (fst kr, mkT (repeat 2%nat (snd kr) ++ repeat 2%nat (snd kr)) (fun i => Q2Qc (Z.of_nat (1 + nth 0 i 0%nat) # 3)))) ks.
Definition c40 : calc := mkCalc "fullCCType" "CCDQ" 30 (Q2Qc (1 # 1000)) None 2 (Q2Qc 1) (Q2Qc (-3 # 1)).
Definition c40s : calc := mkCalc "fullCCType" "CCSD" 30 (Q2Qc (1 # 1000)) None 2 (Q2Qc 1) (Q2Qc (-3 # 1)).
Definition h2 := mkT (repeat 4%nat 2) (fun i => Q2Qc (Z.of_nat (nth 0 i 0%nat) # 2)).
Definition h4 := mkT (repeat 4%nat 4) (fun i => Q2Qc (Z.of_nat (nth 1 i 0%nat) # 5)).
Lemma ones_amp : arrays 2 2 amp_ranks (ones amp_ranks).
Proof. repeat apply Forall_cons; try apply Forall_nil; (eexists; split; reflexivity). Qed.
Lemma ones_den : arrays 2 2 den_ranks (ones den_ranks).
Proof. repeat apply Forall_cons; try apply Forall_nil; (eexists; split; reflexivity). Qed.
Example C40_ccdq_residuals_instance := C40_ccdq_residuals 2 2 h2 h2 h4 h4 h4 (ones den_ranks) c40 (ones amp_ranks)
  eq_refl eq_refl eq_refl eq_refl eq_refl ones_den ones_amp eq_refl.
Lemma ones_nz : forall k D f, In (k, D, f) ccdq_unknowns -> forall i, inr i (shape (get D (ones den_ranks))) -> data (get D (ones den_ranks)) i <> 0%Qc.
Proof.
  intros k D f I i _ E. cbn [In ccdq_unknowns] in I.
  assert (X : Q2Qc (Z.of_nat (1 + nth 0 i 0%nat) # 3) = 0%Qc).
  { repeat destruct I as [I|I]; try contradiction; injection I as <- <- <-; exact E. }
  assert (Y : (Qeq (Z.of_nat (1 + nth 0 i 0%nat) # 3) 0)%Q) by (rewrite <- (Qred_correct (Z.of_nat (1 + nth 0 i 0%nat) # 3)); change (Qeq (this (Q2Qc (Z.of_nat (1 + nth 0 i 0%nat) # 3))) 0); rewrite X; reflexivity).
  unfold Qeq in Y. cbn [Qnum Qden] in Y. lia.
Qed.
Example C40_ccdq_fixed_point_instance := fun d' => C40_ccdq_fixed_point 2 2 h2 h2 h4 h4 h4 (ones den_ranks) c40 (ones amp_ranks) d'
  eq_refl eq_refl eq_refl eq_refl eq_refl ones_den ones_amp eq_refl ones_nz.
Example C40_ccdq_run_total_instance := fun solve pert => C40_ccdq_run_total 2 2 h2 h2 h4 h4 h4 (ones den_ranks) c40 solve pert
  ltac:(lia) ltac:(lia) eq_refl eq_refl eq_refl eq_refl eq_refl ones_den eq_refl eq_refl eq_refl ltac:(cbn; lia).
Example C40_other_labels_instance := fun solve pert => C40_other_labels_run_raises_refuted 2 2 2 h2 h2 h4 h4 h4 (ones den_ranks) c40s solve pert eq_refl ltac:(discriminate).
