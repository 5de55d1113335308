(** The third driver (test.py): from the SCF result to the set-up calculation, closed and open shells, frozen core, what is reported. *)
From Coq Require Import String Ascii List Arith NArith ZArith QArith Qcanon Bool Lia Permutation.
From Coq Require Qcabs.
From Verif Require Import Sums Tensor Interp Numpy Spec SpecDriver Instances.
From Verif Require Import Diis Kernel Denoms P_denoms Ints P_ints SlowCC P_slow Drive SpecDrive P_drive P_drive2 P_openshell.
From Verif Require Code_tamps Code_cc_eqns Code_cc_energy Code_ccsdt_eqns Code_ccdq_eqns.
Import ListNotations.
Open Scope string_scope.
Open Scope Qc_scope.

(** A mean-field result in a basis of n orbitals, sorted by [order] *)
Definition scf_result (n : nat) (s : scf) (order : list Qc -> list nat) : Prop :=
  s_norb s = n /\ (0 < n)%nat /\ eri_symmetric n (s_eri s) /\ shape (s_Ca s) = [n; n] /\ shape (s_Cb s) = [n; n] /\
  length (s_ea s) = n /\ length (s_eb s) = n /\ (s_na s <= n)%nat /\ (s_nb s <= n)%nat /\
  Permutation (order (s_ea s ++ s_eb s)%list) (seq 0 (2 * n)).
Lemma skipn_in {X} k (l : list X) a : In a (skipn k l) -> In a l.
Proof. intros H. rewrite <- (firstn_skipn k l). apply in_or_app. right. exact H. Qed.
Lemma fork n s order j : scf_result n s order -> (s_na s + s_nb s <= 2 * n)%nat -> (2 * j_drop j <= s_na s + s_nb s)%nat ->
  let p := skipn (2 * j_drop j) (order (s_ea s ++ s_eb s)%list) in let N := (2 * n - 2 * j_drop j)%nat in
  exists G e, drive_integrals order s (j_drop j) = Some (tdiag e, G, e) /\ e = map (fun k => nth k (s_ea s ++ s_eb s)%list 0) p /\ length e = N /\
    is_fock N (tdiag e) /\ is_tei N G /\
    forall P Q R S, (P < N)%nat -> (Q < N)%nat -> (R < N)%nat -> (S < N)%nat -> data G [P; Q; R; S] = so_integral n n (s_eri s) (s_Ca s) (s_Cb s) p P Q R S.
Proof.
  intros [En [N0 [HI [HCa [HCb [Ha [Hb [Hna [Hnb Hp]]]]]]]]] HE HD p N.
  assert (LP : length p = N). { unfold p, N. rewrite skipn_length, (Permutation_length Hp), seq_length. reflexivity. }
  destruct (conversion n n (s_eri s) (s_Ca s) (s_Cb s) (s_ea s) (s_eb s) (fun eps => skipn (2 * j_drop j) (order eps)) N0 HI HCa HCb Ha Hb N LP) as [F [G [e [E [Ee [EF [IF [IG V]]]]]]]].
  { intros k Hk. apply skipn_in in Hk. apply (Permutation_in _ Hp) in Hk. apply in_seq in Hk. lia. }
  exists G, e. subst F. split; [exact E|]. split; [exact Ee|]. split; [rewrite Ee, map_length; exact LP|]. auto.
Qed.

(** C56.  For every closed-shell SCF result (restricted, or unrestricted with as many alpha as beta electrons, with [drop] orbitals of each
    spin frozen in the unrestricted case) the set-up succeeds for every label: counts, slices and denominators fit, the Fock
    matrix is the diagonal of the kept sorted energies, and the two-electron array holds the antisymmetrised integrals
    over the kept spin orbitals. *)
Theorem C56_closed_shell_setup : forall n s order j, scf_result n s order -> s_na s = s_nb s -> (j_drop j <= s_na s)%nat -> (s_rhf s = true -> j_drop j = 0%nat) ->
  let no := (2 * (s_na s - j_drop j))%nat in let nv := (2 * (n - s_na s))%nat in
  let p := skipn (2 * j_drop j) (order (s_ea s ++ s_eb s)%list) in
  exists x, setup_cc order s j = Some x /\ prepared no nv (j_label j) x /\
    x_f x = tdiag (x_e x) /\ x_e x = map (fun k => nth k (s_ea s ++ s_eb s)%list 0) p /\ x_hf x = s_etot s /\ x_nuc x = s_enuc s /\
    forall P Q R S, (P < no + nv)%nat -> (Q < no + nv)%nat -> (R < no + nv)%nat -> (S < no + nv)%nat ->
      data (x_g x) [P; Q; R; S] = so_integral n n (s_eri s) (s_Ca s) (s_Cb s) p P Q R S.
Proof.
  intros n s order j HS HAB HD HR no nv p. pose proof HS as [En [_ [_ [_ [_ [_ [_ [Hna [Hnb _]]]]]]]]].
  destruct (fork n s order j HS ltac:(lia) ltac:(lia)) as [G [e [EI [Ee [Le [IF [IG V]]]]]]].
  replace (2 * n - 2 * j_drop j)%nat with (no + nv)%nat in * by (unfold no, nv; lia).
  destruct (denoms_total (j_label j) e no nv Le) as [d Ed].
  assert (EO : occ_info s (j_drop j) = Some (no, nv, no)).
  { unfold occ_info. rewrite <- HAB, En. destruct (s_rhf s) eqn:Hr.
    - rewrite (HR eq_refl). cbn [Nat.ltb Nat.leb]. assert (X : ((s_na s + s_na s) / 2 = s_na s)%nat) by (replace (s_na s + s_na s)%nat with (s_na s * 2)%nat by lia; apply Nat.div_mul; lia).
      rewrite X. unfold no, nv. rewrite (HR eq_refl). f_equal. f_equal; [f_equal; f_equal; lia|lia].
    - rewrite (proj2 (Nat.ltb_ge _ _)) by lia. unfold no, nv. f_equal. f_equal; [f_equal|]; lia. }
  exists (mkSetup no nv no (tdiag e) G e d (s_etot s) (s_enuc s)). unfold setup_cc. rewrite EO. cbn [obind]. rewrite EI. cbn [obind fst snd]. rewrite Ed. cbn [obind].
  split; [reflexivity|]. split; [repeat (split; [assumption || reflexivity|]); exact Ed|]. cbn [x_f x_e x_g x_hf x_nuc]. repeat (split; [reflexivity || assumption|]). exact V.
Qed.
Print Assumptions C56_closed_shell_setup.

(** A restricted result with a frozen core raises. *)
Theorem C56_rhf_frozen_core_refuted : forall order s j, s_rhf s = true -> (0 < j_drop j)%nat -> drive_cc order s j = None.
Proof. intros order s j H D. unfold drive_cc, setup_cc, occ_info. rewrite H, (proj2 (Nat.ltb_lt _ _) D). reflexivity. Qed.
(** A label without a D raises. *)
Theorem C56_label_without_doubles_refuted : forall x j, (exists e no, drive_denoms (j_label j) e no = Some (x_den x)) -> contains "D" (j_label j) = false -> drive_from x j = None.
Proof.
  intros x j [e [no E]] HD. unfold drive_from, drive_init, init_tamps.
  assert (X : slook "D2aa" (x_den x) = None).
  { unfold drive_denoms in E.
    match type of E with (do d <- ?X; _) = _ => destruct X as [d1|] eqn:E1; cbn [obind] in E; [|discriminate] end.
    match type of E with (do d <- ?X; _) = _ => destruct X as [d2|] eqn:E2; cbn [obind] in E; [|discriminate] end.
    match type of E with (do d <- ?X; _) = _ => destruct X as [d3|] eqn:E3; cbn [obind] in E; [|discriminate] end.
    apply add_look in E1, E2, E3, E. destruct E1 as [A1 _], E2 as [_ [_ C2]], E3 as [A3 _], E as [A4 _].
    rewrite A4, A3, (C2 HD), A1 by reflexivity. reflexivity. }
  rewrite X. reflexivity.
Qed.

(** ** Open shells *)
Definition target (s : stmt) : string := match s with SAssign x _ => x | SAug _ x _ => x end.
Definition rhs (s : stmt) : expr := match s with SAssign _ e => e | SAug _ _ e => e end.
Lemma agree_trans xs a b c : agree xs a b -> agree xs b c -> agree xs a c.
Proof. intros H1 H2 y Hy. rewrite (H1 y Hy). apply H2, Hy. Qed.
Lemma steps_raise call xs body : (forall s, In s body -> existsb (String.eqb (target s)) xs = true) ->
  forall s, In s body -> mentions xs (rhs s) = false -> forall env, eval call env (rhs s) = None -> steps call env body = None.
Proof.
  induction body as [|s0 body IH]; intros HT s HI HM env HE; [destruct HI|]. cbn [steps].
  destruct (step call env s0) as [env'|] eqn:E; [|reflexivity]. cbn [obind]. destruct HI as [->|HI].
  - exfalso. destruct s as [x e|b x e]; cbn [step rhs] in *; rewrite HE in E; [discriminate|]. unfold tbinv in E. destruct (slook x env); discriminate.
  - apply (IH (fun t Ht => HT t (or_intror Ht)) s HI HM). rewrite <- HE. apply (eval_agree call xs); [|exact HM].
    intros y Hy. assert (N : y <> target s0). { intros ->. rewrite (HT s0 (or_introl eq_refl)) in Hy. discriminate. }
    apply String.eqb_neq in N. destruct s0 as [x e|b x e]; cbn [step target] in *.
    + destruct (eval call env e); [|discriminate]. injection E as <-. apply look_other, N.
    + destruct (tbinv _ _ _); [|discriminate]. injection E as <-. apply look_other, N.
Qed.
Lemma run_raises d lib f args env k s : bind_params (fparams f) args = Some env -> nth_error (fbody f) k = Some s ->
  mentions (map target (fbody f)) (rhs s) = false -> (forall call, eval call env (rhs s) = None) -> run d lib f args = None.
Proof.
  intros EB EN HM HE. assert (X : forall call, run_with call f args = None).
  { intros call. unfold run_with. rewrite EB. cbn [obind]. rewrite (steps_raise call (map target (fbody f)) (fbody f)) with (s := s); [reflexivity| |apply (nth_error_In _ _ EN)|exact HM|apply HE].
    intros t Ht. apply existsb_exists. exists (target t). split; [apply in_map, Ht|apply String.eqb_refl]. }
  destruct d; apply X.
Qed.
Lemma vo_slice no nv F : shape F = [no + nv; no + nv]%nat -> exists t, tslice [(no, None); (O, Some no)] F = Some t /\ shape t = [nv; no].
Proof.
  intros H. unfold tslice. rewrite H. eexists. split; [reflexivity|]. cbn [shape zipw combine map fst snd].
  unfold zipw. cbn [combine map fst snd]. unfold slice_len, slice_stop, slice_start. rewrite Nat.min_0_l, !Nat.min_l by lia. f_equal; [lia|f_equal; lia].
Qed.
Lemma vvoo_slice no nv W : shape W = [no + nv; no + nv; no + nv; no + nv]%nat -> exists t, tslice [(no, None); (no, None); (O, Some no); (O, Some no)] W = Some t /\ shape t = [nv; nv; no; no].
Proof.
  intros H. unfold tslice. rewrite H. eexists. split; [reflexivity|]. cbn [shape].
  unfold zipw. cbn [combine map fst snd]. unfold slice_len, slice_stop, slice_start. rewrite Nat.min_0_l, !Nat.min_l by lia.
  repeat (f_equal; [lia|]). f_equal; lia.
Qed.
Section Open.
  Variables no nv nv' : nat.
  Variable x : setup.
  Hypothesis Eno : x_no x = no.
  Hypothesis Env : x_nv x = nv'.
  Hypothesis Ee : x_end x = no.
  Hypothesis HF : shape (x_f x) = [no + nv; no + nv]%nat.
  Hypothesis HW : shape (x_g x) = [no + nv; no + nv; no + nv; no + nv]%nat.
  Hypothesis NE : nv <> nv'.
  Hypothesis N0 : (0 < no)%nat.
  Lemma open_T1 T2 : call0 Code_cc_energy.spinorbitalCCSDE_T1 [VT T2; VT (x_g x); VT (x_f x); o_ no; v_ no; VT (tzeros [no; nv'])] = None.
  Proof.
    unfold call0. erewrite run_raises with (k := 3%nat); [reflexivity|reflexivity|reflexivity|reflexivity|]. intros call. cbn [rhs eval slook String.eqb Ascii.eqb Bool.eqb obind asT omap sidx_val o_ v_ asSl].
    destruct (vo_slice no nv (x_f x) HF) as [t [E S]].
    match goal with |- context [tslice ?a ?b] => replace (tslice a b) with (Some t) by (symmetry; exact E) end. cbn [obind asT omap].
    unfold einsum. cbn [map shape tzeros]. rewrite S. cbn. rewrite Nat.eqb_refl, (proj2 (Nat.eqb_neq _ _) NE). reflexivity.
  Qed.
  Lemma open_ccd lib T2 : run 1 lib Code_cc_eqns.ccsd_t2resid [VT (x_f x); VT (x_g x); VT (tzeros [no; nv']); VT T2; o_ no; v_ no; VInt no; VInt nv'] = None.
  Proof.
    eapply run_raises with (k := 2%nat); [reflexivity|reflexivity|reflexivity|]. intros call. cbn [rhs eval slook String.eqb Ascii.eqb Bool.eqb obind asT omap sidx_val o_ v_ asSl].
    destruct (vo_slice no nv (x_f x) HF) as [t [E S]].
    match goal with |- context [tslice ?a ?b] => replace (tslice a b) with (Some t) by (symmetry; exact E) end. cbn [obind asT omap].
    unfold einsum. cbn [map shape tzeros]. rewrite S. cbn. rewrite (proj2 (Nat.eqb_neq _ _) NE). reflexivity.
  Qed.
  Lemma open_ccdq lib T2 : run 1 lib Code_ccdq_eqns.ccdq_t2eqns [VT (x_f x); VT (x_g x); VT T2; VT (tzeros [no; no; no; no; nv'; nv'; nv'; nv']); o_ no; v_ no] = None.
  Proof.
    eapply run_raises with (k := 9%nat); [reflexivity|reflexivity|reflexivity|]. intros call. cbn [rhs eval slook String.eqb Ascii.eqb Bool.eqb obind asT omap sidx_val o_ v_ asSl].
    destruct (vvoo_slice no nv (x_g x) HW) as [t [E S]].
    match goal with |- context [tslice ?a ?b] => replace (tslice a b) with (Some t) by (symmetry; exact E) end. cbn [obind asT omap].
    unfold einsum. cbn [map shape tzeros]. rewrite S. cbn. rewrite (proj2 (Nat.eqb_neq nv' nv)) by auto. reflexivity.
  Qed.
  Lemma open_raises j : drive_from x j = None.
  Proof.
    unfold drive_from, drive_init. set (label := j_label j). destruct (init_tamps x label (j_t2file j)) as [d|] eqn:EI; [|reflexivity]. cbn [obind].
    match goal with |- (do i <- ?X; _) = _ => assert (XX : X = None \/ exists s, X = Some (d, s)) end.
    { destruct (j_diis j) as [[m st]|]; [|right; eexists; reflexivity]. destruct (old_vec label d); cbn [obind]; [right; eexists; reflexivity|left; reflexivity]. }
    destruct XX as [->|[s0 ->]]; [reflexivity|]. cbn [obind fst]. unfold drive_kernel.
    unfold init_tamps in EI. destruct (slook "D2aa" (x_den x)) as [D2|]; [|discriminate]. cbn [obind] in EI. destruct (woovv x) as [w|]; [|discriminate]. cbn [obind] in EI.
    destruct (tbin Qcmult w D2) as [g2|]; [|discriminate]. cbn [obind] in EI. rewrite Eno, Env in EI.
    set (t2 := match j_t2file j with Some t => t | None => g2 end) in EI. clearbody t2. injection EI as <-.
    assert (HA : forall (b : bool) key (t : tensor) (d : dict), slook key (if b then sset key t d else d) = if b then Some t else slook key d)
      by (intros []; intros; [apply look_same|reflexivity]).
    assert (HB : forall (b : bool) key key' (t : tensor) (d : dict), String.eqb key key' = false -> slook key (if b then sset key' t d else d) = slook key d)
      by (intros []; intros; [apply look_other; assumption|reflexivity]).
    set (d := if contains "Q" label then _ else _).
    assert (L1 : slook "t1aa" d = if contains "S" label then Some (tzeros [no; nv']) else None) by (unfold d; rewrite !HB by reflexivity; destruct (contains "S" label); reflexivity).
    assert (L2 : slook "t2aa" d = if contains "D" label then Some t2 else None) by (unfold d; rewrite !HB, HA by reflexivity; destruct (contains "S" label); reflexivity).
    assert (L4 : slook "t4aa" d = if contains "Q" label then Some (tzeros [no; no; no; no; nv'; nv'; nv'; nv']) else None) by (unfold d; rewrite HA, !HB by reflexivity; destruct (contains "S" label); reflexivity).
    clearbody d. destruct (contains "S" label) eqn:HS.
    { unfold drive_energy. rewrite L1, L2. destruct (contains "D" label); [|reflexivity]. cbn [obind]. rewrite Ee, open_T1. reflexivity. }
    destruct (drive_energy x d) as [e0|] eqn:E0; [|reflexivity]. cbn [obind].
    assert (HD : contains "D" label = true). { destruct (contains "D" label); [reflexivity|]. unfold drive_energy in E0. rewrite L2 in E0. discriminate. }
    rewrite HD in L2.
    assert (R : drive_eqns x label d = None).
    { assert (N1 : contains "CCSD" label = false). { destruct (contains "CCSD" label) eqn:H; [|reflexivity]. rewrite (sub label _ H "S" eq_refl) in HS. discriminate. }
      assert (N2 : contains "CCSDT" label = false). { destruct (contains "CCSDT" label) eqn:H; [|reflexivity]. rewrite (sub label _ H "S" eq_refl) in HS. discriminate. }
      unfold drive_eqns. rewrite N1, N2, HD, L2, Eno, Env, Ee. cbn [obind]. destruct (contains "CCDQ" label) eqn:HQ.
      - rewrite L4, (sub label _ HQ "Q" eq_refl). cbn [obind]. unfold callt. rewrite open_ccdq. reflexivity.
      - unfold callt. rewrite open_ccd. reflexivity. }
    destruct (j_max_iter j) as [|m]; cbn [drive_loop]; [reflexivity|]. rewrite R. reflexivity.
  Qed.
End Open.
(** Different numbers of alpha and beta electrons: every run raises. *)
Theorem C56_open_shell_refuted : forall n s order j, scf_result n s order -> s_rhf s = false -> s_na s <> s_nb s -> drive_cc order s j = None.
Proof.
  intros n s order j HS HR NE. pose proof HS as [En [_ [_ [_ [_ [_ [_ [Hna [Hnb _]]]]]]]]].
  destruct (Nat.ltb_spec (s_na s + s_nb s) (2 * j_drop j)) as [L|L].
  { unfold drive_cc, setup_cc, occ_info. rewrite HR, (proj2 (Nat.ltb_lt _ _) L). reflexivity. }
  destruct (fork n s order j HS ltac:(lia) L) as [G [e [EI [Ee [Le [IF [IG V]]]]]]].
  set (no := (s_na s + s_nb s - 2 * j_drop j)%nat). set (nv := (2 * n - (s_na s + s_nb s))%nat).
  replace (2 * n - 2 * j_drop j)%nat with (no + nv)%nat in * by (unfold no, nv; lia).
  unfold drive_cc, setup_cc. assert (EO : occ_info s (j_drop j) = Some (no, 2 * (n - s_na s), no)%nat).
  { unfold occ_info. rewrite HR, En, (proj2 (Nat.ltb_ge _ _) L). reflexivity. }
  rewrite EO. cbn [obind]. rewrite EI. cbn [obind fst snd]. destruct (drive_denoms _ _ _) as [d|]; [|reflexivity]. cbn [obind].
  apply (open_raises no nv (2 * (n - s_na s))%nat); try reflexivity.
  - cbn [x_f]. apply IF.
  - cbn [x_g]. apply IG.
  - unfold nv. lia.
Qed.
Print Assumptions C56_open_shell_refuted.

(** ** What a finished run reports *)
Lemma first_settled thr E m : (exists n, (n < m)%nat /\ settled thr E n /\ forall k, (k < n)%nat -> ~ settled thr E k) \/ forall n, (n < m)%nat -> ~ settled thr E n.
Proof.
  induction m as [|m [[n [Hn H]]|IH]]; [right; lia|left; exists n; split; [lia|exact H]|].
  unfold settled at 3. destruct (Qclt_le_dec (Qcabs.Qcabs (E m - E (Datatypes.S m))) thr) as [L|L].
  - left. exists m. split; [lia|]. split; [exact L|exact IH].
  - right. intros n Hn. destruct (Nat.eq_dec n m) as [->|]; [intros K; destruct (Qclt_not_le _ _ K L)|apply IH; lia].
Qed.
Lemma finished no nv x j r : prepared no nv (j_label j) x -> contains "D" (j_label j) = true -> match j_t2file j with Some t => is_amp_ov 2 no nv t | None => True end ->
  drive_from x j = Some r ->
  exists (A : nat -> dict) n, (j_t2file j = None -> first_guess no nv (energies_of x) (x_g x) (A 0%nat)) /\ (forall n, amplitudes no nv (j_label j) (A n)) /\
    (forall n, exists rs, method_residuals no nv (x_f x) (x_g x) (j_label j) (A n) rs /\ updates no nv (energies_of x) rs (A n) (A (Datatypes.S n))) /\
    let E n := cc_energy no nv (x_f x) (x_g x) (A n) in
    (n < j_max_iter j)%nat /\ settled (j_eps j) E n /\ (forall m, (m < n)%nat -> ~ settled (j_eps j) E m) /\
    r_first r = E 0%nat /\ r_total r = E (Datatypes.S n) /\ r_corr r = x_nuc x + E (Datatypes.S n) - x_hf x /\ r_tamps r = A (Datatypes.S n).
Proof.
  intros P HD HF HR. destruct (C54_drive_run no nv x (j_label j) (j_t2file j) P HD HF) as [A [G [_ [HA [HU H]]]]]. exists A. specialize (H j eq_refl eq_refl).
  set (E := fun n => cc_energy no nv (x_f x) (x_g x) (A n)) in *. destruct H as [H1 H2].
  destruct (first_settled (j_eps j) E (j_max_iter j)) as [[n [Hn [S1 S2]]]|N]; [|rewrite (H2 N) in HR; discriminate].
  exists n. split; [exact G|]. split; [exact HA|]. split; [exact HU|]. cbv zeta. fold (E 0%nat) (E (Datatypes.S n)). split; [exact Hn|]. split; [exact S1|]. split; [exact S2|].
  destruct (H1 n Hn S1 S2) as [K1 [K2 K3]].
  destruct (contains "(" (j_label j)) eqn:HP.
  - destruct (contains "(qf)" (j_label j)) eqn:HQ; [|rewrite (K3 eq_refl eq_refl) in HR; discriminate].
    destruct (K2 eq_refl) as [DD [a [b [c [e110 [e116 [e [_ [_ K]]]]]]]]]. rewrite K in HR. injection HR as <-. auto.
  - rewrite (K1 eq_refl) in HR. injection HR as <-. auto.
Qed.

(** With some threshold every run converges. *)
Corollary some_threshold : forall no nv x label t2file max_iter drop d, prepared no nv label x -> contains "D" label = true ->
  match t2file with Some t => is_amp_ov 2 no nv t | None => True end -> (contains "(" label = true -> contains "(qf)" label = true) -> (0 < max_iter)%nat ->
  exists thr r, drive_from x (mkJob label max_iter thr drop d t2file) = Some r.
Proof.
  intros no nv x label t2file m drop d P HD HF HP Hm. destruct (C54_drive_run no nv x label t2file P HD HF) as [A [_ [_ [_ [_ H]]]]].
  set (E := fun n => cc_energy no nv (x_f x) (x_g x) (A n)) in *. exists (Qcabs.Qcabs (E 0%nat - E 1%nat) + 1).
  destruct (H (mkJob label m (Qcabs.Qcabs (E 0%nat - E 1%nat) + 1) drop d t2file) eq_refl eq_refl) as [H1 _]. clear H.
  destruct (H1 0%nat Hm) as [K1 [K2 _]]; [|lia|].
  - unfold settled. cbn [j_eps]. apply Qclt_minus_iff. ring_simplify. reflexivity.
  - destruct (contains "(" label) eqn:Q; [|eauto]. destruct (K2 (HP eq_refl)) as [DD [a [b [c [e1 [e2 [e [_ [_ K]]]]]]]]]. eauto.
Qed.

(** The correlation energy of amplitudes *)
Definition correlation (no nv : nat) (f g : tensor) (d : dict) : Qc :=
  match slook "t2aa" d with Some T2 => doubles_energy no nv g T2 | None => 0 end + match slook "t1aa" d with Some T1 => singles_energy no nv f g T1 | None => 0 end.
(** C57.  What a run reports as totalE is reference energy plus correlation energy of the final amplitudes, without the nuclear repulsion; totalCorrE is
    the correlation energy if the SCF energy is nuclear repulsion plus the reference energy of the integrals the equations are solved with. *)
Theorem C57_reported_energies : forall no nv x j r, prepared no nv (j_label j) x -> contains "D" (j_label j) = true ->
  match j_t2file j with Some t => is_amp_ov 2 no nv t | None => True end -> drive_from x j = Some r ->
  let ref := reference_energy no (x_f x) (x_g x) in let corr := correlation no nv (x_f x) (x_g x) (r_tamps r) in
  r_total r = ref + corr /\ r_corr r = corr + (x_nuc x + ref - x_hf x) /\ (x_hf x = x_nuc x + ref -> r_corr r = corr /\ r_total r = x_hf x + corr - x_nuc x).
Proof.
  intros no nv x j r P HD HF HR. destruct (finished no nv x j r P HD HF HR) as [A [n [_ [_ [_ [_ [_ [_ [_ [H1 [H2 H3]]]]]]]]]]]. intros ref corr.
  assert (T : r_total r = ref + corr). { rewrite H1. unfold corr. rewrite H3. unfold cc_energy, correlation, ref. ring. }
  assert (C : r_corr r = corr + (x_nuc x + ref - x_hf x)) by (rewrite H2, <- H1, T; ring).
  split; [exact T|]. split; [exact C|]. intros X. split; [rewrite C, X; ring|rewrite T, X; ring].
Qed.
Print Assumptions C57_reported_energies.

(** C58.  A label with a Q whose equations are those of CCSD or CCSDT (CCSDQ, CCSDTQ, ...) ends with T4 = 0. *)
Theorem C58_quadruples_never_move_refuted : forall no nv x j r, prepared no nv (j_label j) x -> contains "CCSD" (j_label j) = true -> contains "Q" (j_label j) = true ->
  j_t2file j = None -> drive_from x j = Some r -> exists T4, slook "t4aa" (r_tamps r) = Some T4 /\ is_amp_ov 4 no nv T4 /\ zero_tensor T4.
Proof.
  intros no nv x j r P HS HQ HF HR. pose proof (sub (j_label j) _ HS "D" eq_refl) as HD.
  destruct (finished no nv x j r P HD ltac:(rewrite HF; exact I) HR) as [A [n [G [HA [HU [_ [_ [_ [_ [_ [_ H3]]]]]]]]]]]. rewrite H3. clear H3.
  destruct (HA (Datatypes.S n)) as [_ [_ [_ A4]]]. destruct (have no nv _ _ _ _ A4 HQ) as [T4 [E4 H4]]. exists T4. split; [exact E4|]. split; [exact H4|].
  assert (K : forall m, slook "t4aa" (A m) = slook "t4aa" (A 0%nat)).
  { induction m as [|m IH]; [reflexivity|]. rewrite <- IH. destruct (HU m) as [rs [M U]]. specialize (U "t4aa").
    assert (Z : slook "t4aa" rs = None).
    { unfold method_residuals in M. rewrite HS in M. destruct (contains "CCSDT" (j_label j)).
      - destruct M as [T1 [T2 [T3 [R1 [R2 [R3 [_ [_ [_ [_ [_ [_ ->]]]]]]]]]]]]. reflexivity.
      - destruct M as [T1 [T2 [R1 [R2 [_ [_ [_ [_ ->]]]]]]]]. reflexivity. }
    rewrite Z in U. exact U. }
  rewrite K in E4. destruct (G HF) as [G1 _]. apply (G1 "t4aa" T4 E4). discriminate.
Qed.
Print Assumptions C58_quadruples_never_move_refuted.
