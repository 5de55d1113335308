(** C01, C21: the doubles, triples and quadruples residual routines of the generated spin-orbital files return antisymmetric arrays. *)
From Coq Require Import String Ascii List Arith NArith ZArith QArith Qcanon Bool Lia Permutation.
From Verif Require Import Sums Tensor Interp Poly SymExec Canon Spec Instances Setup Master Spin Check Tabs Antisym Unround P_antisym.
From Verif Require Code_tamps Code_cc_eqns Code_ccsdt_eqns Code_ccdq_eqns.
Import ListNotations.
Open Scope string_scope.

(** ** A routine that ends with  r = antisym(r, nocc, nvir); return r *)
Definition before (f : fn) : fn := mkFn (fparams f) (removelast (fbody f)) (fret f).
Lemma steps_app call a : forall env b, steps call env (a ++ b) = do env' <- steps call env a; steps call env' b.
Proof. induction a as [|s a IH]; intros env b; [reflexivity|]. cbn [app steps]. destruct (step call env s) as [e|]; cbn [obind]; [apply IH|reflexivity]. Qed.
Lemma slook_sset {X} x (v : X) m : slook x (sset x v m) = Some v.
Proof. induction m as [|[y w] m IH]; cbn [sset slook]; [rewrite String.eqb_refl; reflexivity|]. destruct (String.eqb x y) eqn:E; cbn [slook]; rewrite ?E, ?String.eqb_refl; [reflexivity|exact IH]. Qed.
Definition ends_with (nm : string) (f : fn) : bool :=
  match rev (fbody f), fret f with
  | SAssign x (ECall nm' [EVar y; EVar a; EVar b]) :: SAssign c ENone :: SAssign d ENone :: _, EVar r =>
      (String.eqb x r && String.eqb y r && String.eqb nm nm' && String.eqb a c && String.eqb b d && negb (String.eqb a b))%bool
  | _, _ => false
  end.
Lemma slook_sset_ne {X} x y (v : X) m : String.eqb x y = false -> slook x (sset y v m) = slook x m.
Proof.
  intros E. induction m as [|[z w] m IH]; cbn [sset slook]; [rewrite E; reflexivity|].
  destruct (String.eqb y z) eqn:F; cbn [slook].
  - apply String.eqb_eq in F. subst z. rewrite E. reflexivity.
  - destruct (String.eqb x z); [reflexivity|exact IH].
Qed.
Lemma ends nm lib g f args X : ends_with nm f = true -> slook nm lib = Some g -> returns 1 lib (before f) args X ->
  run 1 lib f args = run 0 lib g [VT X; VNone; VNone].
Proof.
  intros HE HG. unfold returns, ends_with in *.
  destruct (rev (fbody f)) as [|[x [| | | | | | | | | | | | |nm' es]|] l] eqn:ER; try discriminate.
  destruct es as [|[y| | | | | | | | | | | | |] [|[a| | | | | | | | | | | | |] [|[b| | | | | | | | | | | | |] [|? ?]]]]; try discriminate.
  destruct l as [|[c [| | | | | | | | | | | | |]|] [|[d [| | | | | | | | | | | | |]|] l]]; try discriminate.
  destruct (fret f) as [r| | | | | | | | | | | | |] eqn:EF; try discriminate.
  rewrite !andb_true_iff in HE. destruct HE as [[[[[H1 H2] H3] H4] H5] H6].
  apply String.eqb_eq in H1, H2, H3, H4, H5. subst. apply negb_true_iff in H6.
  assert (EB : fbody f = (rev l ++ [SAssign d ENone; SAssign c ENone] ++ [SAssign r (ECall nm' [EVar r; EVar c; EVar d])])%list).
  { rewrite <- (rev_involutive (fbody f)), ER. cbn [rev]. rewrite <- !app_assoc. reflexivity. }
  unfold before. rewrite EB, app_assoc, removelast_last. rewrite EF.
  cbn [run]. unfold run_with. cbn [fparams fbody fret]. rewrite EF, EB, app_assoc.
  destruct (bind_params (fparams f) args) as [env|]; cbn [obind]; [|discriminate].
  rewrite steps_app. intros H. rewrite !steps_app in *. cbn [steps] in *.
  destruct (steps _ env (rev l)) as [e1|]; cbn [obind] in *; [|discriminate].
  cbn [step eval obind app] in H |- *. rewrite H, slook_sset, slook_sset_ne, slook_sset by (rewrite String.eqb_sym; exact H6).
  cbn [obind]. rewrite HG. cbn [obind].
  match goal with |- _ = ?y => destruct y as [v|] end; cbn [obind]; [apply slook_sset|reflexivity].
Qed.
Definition shut (k : nat) (g : fn) : Prop := forall no nv X, shape X = (repeat no k ++ repeat nv k)%list ->
  exists R, run 0 lib_tamps g [VT X; VNone; VNone] = Some (VT R) /\ antisymmetrised k X R /\ antisymmetric k R.
Lemma shut_of_check f k : antchk 8 k 0 1 (srun so_slm 0 lib_tamps f [at_ 8 (repeat 0%N k ++ repeat 1%N k); SNone; SNone]) -> shut k f.
Proof.
  intros C no nv X Hs. set (sps := (repeat 0%N k ++ repeat 1%N k)%list) in *.
  assert (Hs' : shape X = map (dim (so_range no nv)) sps) by (unfold sps; rewrite sh_ov; exact Hs).
  set (atoms := [(8%N, (sps, X))] : atomtab).
  assert (OK : Forall (atom_ok (so_range no nv) sy) atoms).
  { constructor; [|constructor]. apply atom_ok_gen; [reflexivity|exact Hs']. }
  assert (VS : Forall2 (so_vsim no nv atoms) [at_ 8 sps; SNone; SNone] [VT X; VNone; VNone]).
  { constructor; [apply so_atom; [reflexivity|exact Hs']|]. repeat constructor. }
  destruct (so_antisymmetrised no nv atoms 8%N k 0 1 X 0 lib_tamps f _ _ OK eq_refl Hs' VS C) as [R [HR HA]].
  exists R. split; [exact HR|]. split; [exact HA|]. eapply antisymmetrised_antisymmetric; [exact Hs|exact HA].
Qed.
Lemma shut2 : shut 2 Code_tamps.antisym_T2. Proof. apply shut_of_check. unfold antchk; cbv zeta; chk_. Qed.
Lemma shut3 : shut 3 Code_tamps.antisym_T3. Proof. apply shut_of_check. unfold antchk; cbv zeta; chk_. Qed.
Lemma shut4 : shut 4 Code_tamps.antisym_T4. Proof. apply shut_of_check. unfold antchk; cbv zeta; chk_. Qed.

(** ** The residual routines *)
Section Anti.
  Variables no nv : nat.
  Variables F W T1 T2 T3 T4 : tensor.
  Hypothesis HF : shape F = repeat (no + nv)%nat 2.
  Hypothesis HW : shape W = repeat (no + nv)%nat 4.
  Hypothesis H1 : shape T1 = (repeat no 1 ++ repeat nv 1)%list.
  Hypothesis H2 : shape T2 = (repeat no 2 ++ repeat nv 2)%list.
  Hypothesis H3 : shape T3 = (repeat no 3 ++ repeat nv 3)%list.
  Hypothesis H4 : shape T4 = (repeat no 4 ++ repeat nv 4)%list.
  Definition wa_tab : atomtab :=
    [(8%N, ([6;6]%N, F)); (9%N, ([6;6;6;6]%N, W)); (10%N, ([0;1]%N, T1)); (11%N, ([0;0;1;1]%N, T2)); (12%N, ([0;0;0;1;1;1]%N, T3));
     (13%N, ([0;0;0;0;1;1;1;1]%N, T4))].
  Lemma wa_F : so_vsim no nv wa_tab (SFull 8 [0;0]%N) (VT F). Proof. apply (so_full no nv wa_tab 8%N 2 F); [reflexivity|exact HF]. Qed.
  Lemma wa_W : so_vsim no nv wa_tab (SFull 9 [0;0;0;0]%N) (VT W). Proof. apply (so_full no nv wa_tab 9%N 4 W); [reflexivity|exact HW]. Qed.
  Lemma wa_1 : so_vsim no nv wa_tab (at_ 10 [0;1]%N) (VT T1). Proof. apply so_atom; [reflexivity|]. rewrite H1. symmetry. apply (sh_ov no nv 1). Qed.
  Lemma wa_2 : so_vsim no nv wa_tab (at_ 11 [0;0;1;1]%N) (VT T2). Proof. apply so_atom; [reflexivity|]. rewrite H2. symmetry. apply (sh_ov no nv 2). Qed.
  Lemma wa_3 : so_vsim no nv wa_tab (at_ 12 [0;0;0;1;1;1]%N) (VT T3). Proof. apply so_atom; [reflexivity|]. rewrite H3. symmetry. apply (sh_ov no nv 3). Qed.
  Lemma wa_4 : so_vsim no nv wa_tab (at_ 13 [0;0;0;0;1;1;1;1]%N) (VT T4). Proof. apply so_atom; [reflexivity|]. rewrite H4. symmetry. apply (sh_ov no nv 4). Qed.
  Lemma wa_end f nm g k svs vs : Forall2 (so_vsim no nv wa_tab) svs vs -> ends_with nm f = true -> slook nm lib_tamps = Some g -> shut k g ->
    outsp (repeat 0%N k ++ repeat 1%N k) (srun so_slm 1 lib_tamps (before f) svs) = true ->
    exists R, returns 1 lib_tamps f vs R /\ is_amp_ov k no nv R.
  Proof.
    intros V E L Hs O. apply outsp_ok in O. destruct (so_run _ _ _ _ _ _ _ _ _ _ V O) as [X [HX [SX _]]].
    rewrite (sh_ov no nv k) in SX. destruct (Hs no nv X SX) as [R [HR [[A1 A2] B]]].
    exists R. split; [unfold returns; rewrite (ends nm lib_tamps g f vs X E L HX); exact HR|]. split; [congruence|exact B].
  Qed.
End Anti.

Section Resid.
  Variables no nv : nat.
  Variables F W T1 T2 T3 T4 : tensor.
  Hypothesis HF : shape F = [no + nv; no + nv]%nat.
  Hypothesis HW : shape W = [no + nv; no + nv; no + nv; no + nv]%nat.
  Hypothesis H1 : shape T1 = [no; nv].
  Hypothesis H2 : shape T2 = [no; no; nv; nv].
  Hypothesis H3 : shape T3 = [no; no; no; nv; nv; nv].
  Hypothesis H4 : shape T4 = [no; no; no; no; nv; nv; nv; nv].
  Let sdt : list sval := [SFull 8 [0;0]%N; SFull 9 [0;0;0;0]%N; at_ 10 [0;1]%N; at_ 11 [0;0;1;1]%N; at_ 12 [0;0;0;1;1;1]%N; SSl 0; SSl 1].
  Let dq : list sval := [SFull 8 [0;0]%N; SFull 9 [0;0;0;0]%N; at_ 11 [0;0;1;1]%N; at_ 13 [0;0;0;0;1;1;1;1]%N; SSl 0; SSl 1].
  Let tab := wa_tab F W T1 T2 T3 T4.
  Lemma sdt_vs : Forall2 (so_vsim no nv tab) sdt [VT F; VT W; VT T1; VT T2; VT T3; o_ no; v_ no].
  Proof. repeat (constructor; [first [apply wa_F|apply wa_W|apply wa_1|apply wa_2|apply wa_3|apply so_sl0|apply so_sl1]; assumption|]). constructor. Qed.
  Lemma dq_vs : Forall2 (so_vsim no nv tab) dq [VT F; VT W; VT T2; VT T4; o_ no; v_ no].
  Proof. repeat (constructor; [first [apply wa_F|apply wa_W|apply wa_2|apply wa_4|apply so_sl0|apply so_sl1]; assumption|]). constructor. Qed.
  Ltac fin nm g H V := eapply (wa_end no nv F W T1 T2 T3 T4 _ nm g _ _ _ V); [reflexivity|reflexivity|exact H|vm_cast_no_check (eq_refl true)].
  Lemma sdt_t2 : exists R, returns 1 lib_tamps Code_ccsdt_eqns.ccsdt_t2eqns [VT F; VT W; VT T1; VT T2; VT T3; o_ no; v_ no] R /\ is_amp_ov 2 no nv R.
  Proof. fin "tamps.antisym_T2" Code_tamps.antisym_T2 shut2 sdt_vs. Qed.
  Lemma sdt_t1 : exists R, returns 1 lib_tamps Code_ccsdt_eqns.ccsdt_t1eqns [VT F; VT W; VT T1; VT T2; VT T3; o_ no; v_ no] R /\ shape R = [no; nv].
  Proof.
    assert (O : outsp [0;1]%N (srun so_slm 1 lib_tamps Code_ccsdt_eqns.ccsdt_t1eqns sdt) = true) by (vm_cast_no_check (eq_refl true)).
    apply outsp_ok in O. destruct (so_run _ _ _ _ _ _ _ _ _ _ sdt_vs O) as [X [HX [SX _]]]. exists X. split; [exact HX|]. rewrite SX. apply (sh_ov no nv 1).
  Qed.
  Lemma sdt_t3 : exists R, returns 1 lib_tamps Code_ccsdt_eqns.ccsdt_t3eqns [VT F; VT W; VT T1; VT T2; VT T3; o_ no; v_ no] R /\ is_amp_ov 3 no nv R.
  Proof. fin "tamps.antisym_T3" Code_tamps.antisym_T3 shut3 sdt_vs. Qed.
  Lemma sdt_t3u : exists R, returns 1 lib_tamps (unround_fn Code_ccsdt_eqns.ccsdt_t3eqns) [VT F; VT W; VT T1; VT T2; VT T3; o_ no; v_ no] R /\ is_amp_ov 3 no nv R.
  Proof. fin "tamps.antisym_T3" Code_tamps.antisym_T3 shut3 sdt_vs. Qed.
  Lemma dq_t2 : exists R, returns 1 lib_tamps Code_ccdq_eqns.ccdq_t2eqns [VT F; VT W; VT T2; VT T4; o_ no; v_ no] R /\ is_amp_ov 2 no nv R.
  Proof. fin "tamps.antisym_T2" Code_tamps.antisym_T2 shut2 dq_vs. Qed.
  Lemma dq_t4 : exists R, returns 1 lib_tamps Code_ccdq_eqns.ccdq_t4eqns [VT F; VT W; VT T2; VT T4; o_ no; v_ no] R /\ is_amp_ov 4 no nv R.
  Proof. fin "tamps.antisym_T4" Code_tamps.antisym_T4 shut4 dq_vs. Qed.
  Lemma dq_t4u : exists R, returns 1 lib_tamps (unround_fn Code_ccdq_eqns.ccdq_t4eqns) [VT F; VT W; VT T2; VT T4; o_ no; v_ no] R /\ is_amp_ov 4 no nv R.
  Proof. fin "tamps.antisym_T4" Code_tamps.antisym_T4 shut4 dq_vs. Qed.
End Resid.

(** C01: whatever (even unsymmetric) arrays of the right shapes they are given, the CCSDT and CCDQ routines return antisymmetric doubles,
    triples and quadruples residuals. *)
Theorem C01_generated_residuals_antisymmetric : forall no nv F W T1 T2 T3 T4,
  shape F = [no + nv; no + nv]%nat -> shape W = [no + nv; no + nv; no + nv; no + nv]%nat ->
  shape T1 = [no; nv] -> shape T2 = [no; no; nv; nv] -> shape T3 = [no; no; no; nv; nv; nv] -> shape T4 = [no; no; no; no; nv; nv; nv; nv] ->
  exists A B C D,
    returns 1 lib_tamps Code_ccsdt_eqns.ccsdt_t2eqns [VT F; VT W; VT T1; VT T2; VT T3; o_ no; v_ no] A /\ is_amp_ov 2 no nv A /\
    returns 1 lib_tamps Code_ccsdt_eqns.ccsdt_t3eqns [VT F; VT W; VT T1; VT T2; VT T3; o_ no; v_ no] B /\ is_amp_ov 3 no nv B /\
    returns 1 lib_tamps Code_ccdq_eqns.ccdq_t2eqns [VT F; VT W; VT T2; VT T4; o_ no; v_ no] C /\ is_amp_ov 2 no nv C /\
    returns 1 lib_tamps Code_ccdq_eqns.ccdq_t4eqns [VT F; VT W; VT T2; VT T4; o_ no; v_ no] D /\ is_amp_ov 4 no nv D.
Proof.
  intros no nv F W T1 T2 T3 T4 HF HW H1 H2 H3 H4.
  destruct (sdt_t2 no nv F W T1 T2 T3 T4 HF HW H1 H2 H3) as [A HA], (sdt_t3 no nv F W T1 T2 T3 T4 HF HW H1 H2 H3) as [B HB],
    (dq_t2 no nv F W T1 T2 T3 T4 HF HW H2 H4) as [C HC], (dq_t4 no nv F W T1 T2 T3 T4 HF HW H2 H4) as [D HD].
  exists A, B, C, D. tauto.
Qed.
Print Assumptions C01_generated_residuals_antisymmetric.
(** A non-trivial instance: shapes of a system with four occupied and four virtual orbitals and arrays that are not antisymmetric. *)
Example C01_generated_residuals_antisymmetric_instance :
  let c sh := mkT sh (fun idx => Q2Qc (inject_Z (Z.of_nat (hd O idx)))) in
  ~ antisymmetric 2 (c [4;4;4;4]%nat) /\
  exists R, returns 1 lib_tamps Code_ccdq_eqns.ccdq_t4eqns [VT (c [8;8]%nat); VT (c [8;8;8;8]%nat); VT (c [4;4;4;4]%nat); VT (c [4;4;4;4;4;4;4;4]%nat); o_ 4; v_ 4] R /\
    is_amp_ov 4 4 4 R.
Proof.
  intros c. split.
  - intros H. destruct (H O ltac:(lia)) as [A _]. specialize (A [] 1%nat 1%nat [0;0]%nat eq_refl).
    assert (I : inr ([] ++ [1;1;0;0]%nat) (shape (c [4;4;4;4]%nat))) by (repeat constructor; cbn; lia).
    specialize (A I I). apply (f_equal (fun q => Qle_bool (this q) 0)) in A. vm_compute in A. discriminate.
  - apply (dq_t4 4 4 (c [8;8]%nat) (c [8;8;8;8]%nat) (c [4;4]%nat) (c [4;4;4;4]%nat) (c [4;4;4;4;4;4]%nat) (c [4;4;4;4;4;4;4;4]%nat)); reflexivity.
Qed.
