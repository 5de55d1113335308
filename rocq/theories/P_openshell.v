(** C23: open shells on the spin-integrated route (found false).
    The property: with different numbers of alpha and beta electrons the spin-integrated residuals and energy run over
    beta ranges for beta indices.  What the code does, proved here for all sizes and inputs:
    - none of the three CCD residual routines nor the energy routine reads its beta ranges [ob], [vb];
    - given beta amplitudes of their proper shape, the beta residual routine raises;
    - a run of the driver with different alpha and beta counts never returns. *)
From Coq Require Import String Ascii List Arith ZArith QArith Qcanon Bool Lia.
From Verif Require Import Sums Tensor Interp Numpy Spec Diis Kernel SlowCC SpinCC Denoms SpecDriver.
From Verif Require Code_t2residEqns Code_t2energy.
From Verif Require Import P_slow P_denoms.
Import ListNotations.
Open Scope string_scope.

(** ** A function does not depend on a variable it does not mention *)
Fixpoint mentions (xs : list string) (e : expr) : bool :=
  let fix ms (es : list expr) : bool := match es with [] => false | e :: r => (mentions xs e || ms r)%bool end in
  let one x := existsb (String.eqb x) xs in
  match e with
  | EVar x => one x
  | EItem e _ | ETransp e _ | EScale _ e | EShape e _ => mentions xs e
  | ESlice e ss => (mentions xs e || existsb (fun s => match s with SAll => false | SV x => one x end) ss)%bool
  | EEins _ es | EZeros es | ECall _ es => ms es
  | EAdd a b | ESub a b | EMul a b => (mentions xs a || mentions xs b)%bool
  | ENum _ | ENone => false
  end.
Definition s_mentions (xs : list string) (s : stmt) : bool :=
  match s with SAssign _ e => mentions xs e | SAug _ x e => (existsb (String.eqb x) xs || mentions xs e)%bool end.
Definition agree (xs : list string) (a b : venv) : Prop := forall x, existsb (String.eqb x) xs = false -> slook x a = slook x b.

Section Ind.
  Variable P : expr -> Prop.
  Hypothesis HVar : forall x, P (EVar x).
  Hypothesis HItem : forall e k, P e -> P (EItem e k).
  Hypothesis HSlice : forall e s, P e -> P (ESlice e s).
  Hypothesis HTr : forall e s, P e -> P (ETransp e s).
  Hypothesis HEi : forall s es, Forall P es -> P (EEins s es).
  Hypothesis HSc : forall c e, P e -> P (EScale c e).
  Hypothesis HA : forall a b, P a -> P b -> P (EAdd a b).
  Hypothesis HSu : forall a b, P a -> P b -> P (ESub a b).
  Hypothesis HM : forall a b, P a -> P b -> P (EMul a b).
  Hypothesis HN : forall c, P (ENum c).
  Hypothesis HNo : P ENone.
  Hypothesis HSh : forall e k, P e -> P (EShape e k).
  Hypothesis HZ : forall es, Forall P es -> P (EZeros es).
  Hypothesis HC : forall f es, Forall P es -> P (ECall f es).
  Fixpoint expr_rect2 (e : expr) : P e :=
    let fix go (es : list expr) : Forall P es :=
      match es with [] => Forall_nil P | e :: r => Forall_cons e (expr_rect2 e) (go r) end in
    match e with
    | EVar x => HVar x | EItem e k => HItem e k (expr_rect2 e) | ESlice e s => HSlice e s (expr_rect2 e)
    | ETransp e s => HTr e s (expr_rect2 e) | EEins s es => HEi s es (go es) | EScale c e => HSc c e (expr_rect2 e)
    | EAdd a b => HA a b (expr_rect2 a) (expr_rect2 b) | ESub a b => HSu a b (expr_rect2 a) (expr_rect2 b)
    | EMul a b => HM a b (expr_rect2 a) (expr_rect2 b) | ENum c => HN c | ENone => HNo
    | EShape e k => HSh e k (expr_rect2 e) | EZeros es => HZ es (go es) | ECall f es => HC f es (go es)
    end.
End Ind.

Lemma ms_eval call xs a b es : agree xs a b ->
  Forall (fun e => mentions xs e = false -> eval call a e = eval call b e) es ->
  (fix ms (es : list expr) : bool := match es with [] => false | e :: r => (mentions xs e || ms r)%bool end) es = false ->
  (fix evals (es : list expr) := match es with [] => Some [] | e :: r => do v <- eval call a e; do vs <- evals r; Some (v :: vs) end) es =
  (fix evals (es : list expr) := match es with [] => Some [] | e :: r => do v <- eval call b e; do vs <- evals r; Some (v :: vs) end) es.
Proof.
  intros HG H. induction H as [|e r He Hr IH]; intros M; [reflexivity|].
  apply orb_false_iff in M. destruct M as [M1 M2]. rewrite (He M1), (IH M2). reflexivity.
Qed.
Lemma eval_agree call xs a b e : agree xs a b -> mentions xs e = false -> eval call a e = eval call b e.
Proof.
  intros HG. revert e. refine (expr_rect2 (fun e => mentions xs e = false -> eval call a e = eval call b e) _ _ _ _ _ _ _ _ _ _ _ _ _ _); cbn [mentions eval].
  - intros x M. apply HG, M.
  - intros e k IH M. rewrite (IH M). reflexivity.
  - intros e s IH M. apply orb_false_iff in M. destruct M as [M1 M2]. rewrite (IH M1).
    assert (X : omap (sidx_val a) s = omap (sidx_val b) s).
    { clear -M2 HG. induction s as [|y s IH]; [reflexivity|]. cbn [existsb] in M2. apply orb_false_iff in M2. destruct M2 as [A B].
      cbn [omap]. rewrite (IH B). destruct y as [x|]; [|reflexivity]. cbn [sidx_val]. rewrite (HG x A). reflexivity. }
    rewrite X. reflexivity.
  - intros e s IH M. rewrite (IH M). reflexivity.
  - intros s es H M. rewrite (ms_eval call xs a b es HG H M). reflexivity.
  - intros c e IH M. rewrite (IH M). reflexivity.
  - intros x y I1 I2 M. apply orb_false_iff in M. destruct M. rewrite I1, I2 by assumption. reflexivity.
  - intros x y I1 I2 M. apply orb_false_iff in M. destruct M. rewrite I1, I2 by assumption. reflexivity.
  - intros x y I1 I2 M. apply orb_false_iff in M. destruct M. rewrite I1, I2 by assumption. reflexivity.
  - reflexivity.
  - reflexivity.
  - intros e k IH M. rewrite (IH M). reflexivity.
  - intros es H M. rewrite (ms_eval call xs a b es HG H M). reflexivity.
  - intros f es H M. rewrite (ms_eval call xs a b es HG H M). reflexivity.
Qed.
Lemma slook_sset {X} x y (v : X) m : slook x (sset y v m) = if String.eqb x y then Some v else slook x m.
Proof.
  induction m as [|[z w] m IH]; cbn [sset slook].
  - reflexivity.
  - destruct (String.eqb y z) eqn:E; cbn [slook].
    + apply String.eqb_eq in E. subst z. destruct (String.eqb x y); reflexivity.
    + destruct (String.eqb x z) eqn:E2; [|exact IH]. apply String.eqb_eq in E2. subst z. rewrite String.eqb_sym in E. rewrite E. reflexivity.
Qed.
Lemma agree_sset xs a b x v : agree xs a b -> agree xs (sset x v a) (sset x v b).
Proof. intros H y Hy. rewrite !slook_sset. destruct (String.eqb y x); [reflexivity|apply H, Hy]. Qed.
Lemma steps_agree call xs ss : forall a b, agree xs a b -> existsb (s_mentions xs) ss = false ->
  match steps call a ss, steps call b ss with Some a', Some b' => agree xs a' b' | None, None => True | _, _ => False end.
Proof.
  induction ss as [|s ss IH]; intros a b HG M; [exact HG|]. cbn [existsb] in M. apply orb_false_iff in M. destruct M as [M1 M2].
  cbn [steps].
  assert (X : match step call a s, step call b s with Some a', Some b' => agree xs a' b' | None, None => True | _, _ => False end).
  { destruct s as [x e|ad x e]; cbn [step s_mentions] in *.
    - rewrite (eval_agree call xs a b e HG M1). destruct (eval call b e); cbn [obind]; [apply agree_sset, HG|exact I].
    - apply orb_false_iff in M1. destruct M1 as [A B]. rewrite (eval_agree call xs a b e HG B), (HG x A).
      match goal with |- context [obind ?t _] => destruct t end; cbn [obind]; [apply agree_sset, HG|exact I]. }
  destruct (step call a s), (step call b s); try contradiction; cbn [obind]; [apply IH; assumption|exact I].
Qed.
Definition silent (xs : list string) (f : fn) : bool := negb (existsb (s_mentions xs) (fbody f) || mentions xs (fret f)).
Lemma silent_run xs f l d args args' : silent xs f = true ->
  (match bind_params (fparams f) args, bind_params (fparams f) args' with Some a, Some b => agree xs a b | None, None => True | _, _ => False end) ->
  run d l f args = run d l f args'.
Proof.
  intros H HB. apply negb_true_iff, orb_false_iff in H. destruct H as [H1 H2].
  assert (K : forall call, run_with call f args = run_with call f args').
  { intros call. unfold run_with. destruct (bind_params (fparams f) args) as [a|], (bind_params (fparams f) args') as [b|]; try contradiction; cbn [obind]; [|reflexivity].
    pose proof (steps_agree call xs (fbody f) a b HB H1) as X.
    destruct (steps call a (fbody f)), (steps call b (fbody f)); try contradiction; cbn [obind]; [|reflexivity].
    apply (eval_agree call xs); assumption. }
  destruct d; cbn [run]; apply K.
Qed.

(** ** No CCD routine of the spin-integrated route reads the beta ranges *)
Definition ccd_residuals := [Code_t2residEqns.ccd_t2_aaaa_residual; Code_t2residEqns.ccd_t2_bbbb_residual; Code_t2residEqns.ccd_t2_abab_residual].
Theorem C23_beta_ranges_ignored_refuted : forall t_aaaa t_bbbb t_abab f_aa f_bb g_aaaa g_bbbb g_abab oa va rt ob vb ob' vb',
  (forall f, In f ccd_residuals ->
     run 0 [] f [t_aaaa; t_bbbb; t_abab; f_aa; f_bb; g_aaaa; g_bbbb; g_abab; oa; ob; va; vb; rt] =
     run 0 [] f [t_aaaa; t_bbbb; t_abab; f_aa; f_bb; g_aaaa; g_bbbb; g_abab; oa; ob'; va; vb'; rt]) /\
  run 0 [] Code_t2energy.ccd_energy_with_spin [t_aaaa; t_bbbb; t_abab; f_aa; f_bb; g_aaaa; g_bbbb; g_abab; oa; ob; va; vb] =
  run 0 [] Code_t2energy.ccd_energy_with_spin [t_aaaa; t_bbbb; t_abab; f_aa; f_bb; g_aaaa; g_bbbb; g_abab; oa; ob'; va; vb'].
Proof.
  intros. split; [intros f Hf; cbn [ccd_residuals In] in Hf|];
    [repeat destruct Hf as [<-|Hf]; try contradiction|]; apply (silent_run ["ob"; "vb"]); try (vm_compute; reflexivity);
    match goal with |- match bind_params (fparams ?f) _ with _ => _ end => let p := eval vm_compute in (fparams f) in change (fparams f) with p end;
    cbn [bind_params obind]; intros x Hx; cbn [existsb] in Hx; apply orb_false_iff in Hx; destruct Hx as [H1 Hx]; apply orb_false_iff in Hx; destruct Hx as [H2 _];
    cbn [slook]; rewrite H1, H2; reflexivity.
Qed.
Print Assumptions C23_beta_ranges_ignored_refuted.

(** ** Properly shaped beta amplitudes make the beta residual raise *)
(** [na <> 1] and [nb <> 1] because numpy stretches axes of length one, which the model of einsum leaves out *)
Theorem C23_beta_shapes_raise_refuted : forall na nb nva nvb t_aaaa t_bbbb t_abab f_aa f_bb g_aaaa g_bbbb g_abab rt,
  na <> nb -> na <> 1%nat -> nb <> 1%nat -> (na + nva = nb + nvb)%nat ->
  shape t_bbbb = [nvb; nvb; nb; nb] -> shape f_bb = [(nb + nvb)%nat; (nb + nvb)%nat] ->
  run 0 [] Code_t2residEqns.ccd_t2_bbbb_residual
    [VT t_aaaa; VT t_bbbb; VT t_abab; VT f_aa; VT f_bb; VT g_aaaa; VT g_bbbb; VT g_abab; o_ na; o_ nb; v_ na; v_ nb; rt] = None.
Proof.
  intros na nb nva nvb t_aaaa t_bbbb t_abab f_aa f_bb g_aaaa g_bbbb g_abab rt Hne _ _ Hn ST SF.
  assert (HB : forall call env o1 o2, slook "oa" env = Some (o_ na) -> slook "va" env = Some (v_ na) -> slook "f_bb" env = Some (VT f_bb) ->
    slook "t2_bbbb" env = Some (VT t_bbbb) -> steps call env (SAssign "o" (EVar "oa") :: SAssign "v" (EVar "va") ::
      SAssign "contracted_intermediate" (EScale (-1) (EEins "in,efmi->efmn" [ESlice (EVar "f_bb") [SV "o"; SV "o"]; EVar "t2_bbbb"])) :: o1 ++ o2)%list = None).
  { intros call env o1 o2 E1 E2 E3 E4. cbn [steps step eval]. rewrite E1. cbn [obind]. rewrite slook_sset.
    change ("va" =? "o") with false. cbn iota. rewrite E2. cbn [obind]. cbn [eval].
    rewrite !slook_sset. change ("f_bb" =? "v") with false. change ("f_bb" =? "o") with false. change ("t2_bbbb" =? "v") with false. change ("t2_bbbb" =? "o") with false.
    cbn iota. rewrite E3, E4. cbn [obind asT omap sidx_val]. rewrite !slook_sset. change ("o" =? "v") with false. change ("o" =? "o") with true. cbn iota.
    unfold o_. cbn [obind asSl]. unfold tslice. rewrite SF. cbn [length Nat.eqb].
    match goal with |- context [parse_spec ?s] => let p := eval vm_compute in (parse_spec s) in change (parse_spec s) with p end. cbn [obind asT omap].
    unfold einsum. cbn [shape map]. unfold zipw at 1. cbn [combine map fst snd]. rewrite ST.
    assert (L : slice_len 0 (Some na) (nb + nvb) = na) by (unfold slice_len, slice_stop, slice_start; lia).
    rewrite L. cbn [bindall bind1 alook Ascii.eqb Bool.eqb].
    rewrite (proj2 (Nat.eqb_neq na nb)) by exact Hne. reflexivity. }
  cbn [run]. unfold run_with.
  match goal with |- context [bind_params (fparams ?f) _] => let p := eval vm_compute in (fparams f) in change (fparams f) with p end.
  cbn [bind_params obind].
  match goal with |- obind (steps ?c ?e (fbody ?f)) _ = _ => assert (X : steps c e (fbody f) = None) end; [|rewrite X; reflexivity].
  unfold Code_t2residEqns.ccd_t2_bbbb_residual, fbody.
  match goal with |- steps ?c ?e (?a :: ?b :: ?d :: ?r) = None => apply (HB c e r []) end; reflexivity.
Qed.
Print Assumptions C23_beta_shapes_raise_refuted.

(** ** The driver never returns for an open shell *)
(** numpy can combine axes of lengths x and y *)
Definition stretchable (x y : nat) : Prop := x = y \/ x = 1%nat \/ y = 1%nat.
Lemma tbin_shape_ne f a b : shape a <> shape b -> tbin f a b = None.
Proof.
  intros H. destruct (tbin f a b) as [r|] eqn:E; [|reflexivity]. apply tbin_inv in E. destruct E as [E _]. destruct (H E).
Qed.
Theorem C23_open_shell_run_raises_refuted : forall na nb nva nvb f_aa f_bb g_aaaa g_bbbb g_abab Daa Dbb Dab e c solve,
  ~ (stretchable na nb /\ stretchable nva nvb) ->
  is_spin_denominator [Dn; Dn] (fst (two_spins na nb nva nvb)) (snd (two_spins na nb nva nvb)) e Dbb ->
  cc_label c = "ccdType" ->
  fast_kernel na nb nva f_aa f_bb g_aaaa g_bbbb g_abab Daa Dbb Dab c solve = Raised.
Proof.
  intros na nb nva nvb f_aa f_bb g_aaaa g_bbbb g_abab Daa Dbb Dab e c solve HN [SD _] HL.
  assert (NE : [nvb; nvb; nb; nb] <> [nva; nva; na; na]).
  { intros E. injection E as E1 _ E2 _. apply HN. split; left; congruence. }
  cbn [two_spins fst snd map app] in SD.
  unfold fast_kernel, kernel. destruct (start unit _ _ c _ _ tt) as [[s0 e0]|] eqn:ES; [|reflexivity].
  assert (AM : slook "t2bb" (amps unit s0) = Some (tzeros [nva; nva; na; na])).
  { unfold start in ES. rewrite HL in ES. change ("ccdType" =? "ccdTypeSlow") with false in ES. cbn iota in ES. cbn [obind] in ES.
    destruct (energy_call c); cbn [obind] in ES; [|discriminate].
    match type of ES with obind ?x _ = _ => destruct x as [[w u]|] end; cbn [obind] in ES; [|discriminate].
    injection ES as <- _. cbn [amps]. reflexivity. }
  destruct (max_iter c) as [|n]; cbn [loop Nat.ltb Nat.leb]; [reflexivity|].
  enough (X : iteration unit solve (fast_resid na nb f_aa f_bb g_aaaa g_bbbb g_abab Daa Dbb Dab c) (fast_energy na nb f_aa f_bb g_aaaa g_bbbb g_abab) c s0 = None)
    by (rewrite X; reflexivity).
  unfold iteration. destruct (l2_of (amps unit s0)) as [l2|]; [|reflexivity]. cbn [obind].
  unfold resid_call. rewrite HL. cbn [String.eqb Ascii.eqb Bool.eqb obind fast_resid].
  enough (X : t2resid_fast na nb f_aa f_bb g_aaaa g_bbbb g_abab Daa Dbb Dab c (amps unit s0) l2 = None) by (rewrite X; reflexivity).
  unfold t2resid_fast. rewrite AM.
  assert (U : forall r, update Dbb (tzeros [nva; nva; na; na]) r = None).
  { intros r. unfold update. rewrite tbin_shape_ne; [reflexivity|]. cbn [trecip shape tzeros]. rewrite SD. exact NE. }
  repeat match goal with |- obind ?x _ = None => (lazymatch x with update Dbb _ _ => rewrite U; reflexivity | _ => destruct x; cbn [obind]; [|reflexivity] end) end.
Qed.
Print Assumptions C23_open_shell_run_raises_refuted.

(** *** Instances: a triplet-like count (3 alpha, 2 beta electrons in 5 orbitals) *)
Definition i_open_eps (s : spin) (p : nat) : Qc := Q2Qc (Z.of_nat (3 * p + match s with Up => 0 | Dn => 1 end) # 1).
Definition i_open_den : tensor := blockD (fst (two_spins 3 2 2 3)) (fun s => map (i_open_eps s) (seq 0 5)) [Dn; Dn].
Lemma i_open_den_ok : is_spin_denominator [Dn; Dn] (fst (two_spins 3 2 2 3)) (snd (two_spins 3 2 2 3))
  (fun s p => nth p (map (i_open_eps s) (seq 0 5)) 0%Qc) i_open_den.
Proof. apply block_ok. intros []; reflexivity. Qed.
Example C23_instance_run := fun f_aa f_bb g_aaaa g_bbbb g_abab Daa Dab c solve =>
  C23_open_shell_run_raises_refuted 3 2 2 3 f_aa f_bb g_aaaa g_bbbb g_abab Daa i_open_den Dab
    (fun s p => nth p (map (i_open_eps s) (seq 0 5)) 0%Qc) c solve
    (fun H => match proj1 H with or_introl E => ltac:(discriminate E) | or_intror (or_introl E) => ltac:(discriminate E) | or_intror (or_intror E) => ltac:(discriminate E) end)
    i_open_den_ok.
Example C23_instance_shapes := fun t_aaaa t_abab f_aa g_aaaa g_bbbb g_abab rt =>
  C23_beta_shapes_raise_refuted 3 2 2 3 t_aaaa (tzeros [3; 3; 2; 2]%nat) t_abab f_aa (tzeros [5; 5]%nat) g_aaaa g_bbbb g_abab rt
    ltac:(discriminate) ltac:(discriminate) ltac:(discriminate) eq_refl eq_refl eq_refl.
