(** C70 for the full CC code: a CCDQ calculation, with or without DIIS, ends with a result. *)
From Coq Require Import String Ascii List Arith ZArith QArith Qcanon Bool Lia.
From Verif Require Import Sums Tensor Interp Numpy Diis Kernel SlowCC FullCC Total P_fullcc.
From Verif Require P_total.
Import ListNotations.
Open Scope string_scope.

Local Opaque call0 ttransp run.
(** the shape of an amplitude array *)
Definition fshape (no nv : nat) (k : string) : list nat :=
  match find (fun kr => String.eqb (fst kr) k) amp_ranks with Some kr => (repeat nv (snd kr) ++ repeat no (snd kr))%list | None => [] end.
Lemma resid_keys na nb f_aa f_bb g_aaaa g_bbbb g_abab denom c d d' :
  full_residMain na nb f_aa f_bb g_aaaa g_bbbb g_abab denom c d = Some d' -> map fst d' = map fst amp_ranks.
Proof.
  assert (K : forall (X : Type) (x : option X) (k : X -> option dict), (forall a, k a = Some d' -> map fst d' = map fst amp_ranks) -> obind x k = Some d' -> map fst d' = map fst amp_ranks).
  { intros X [a|] k Hk; cbn [obind]; [apply Hk|discriminate]. }
  unfold full_residMain. cbv zeta.
  repeat match goal with |- obind _ _ = _ -> _ => apply K; intros ? end.
  intros H. injection H as <-. reflexivity.
Qed.
Lemma slook_in k (d : dict) t : slook k d = Some t -> In k (map fst d).
Proof.
  induction d as [|[k' t'] d IH]; cbn [slook map fst]; [discriminate|]. destruct (String.eqb_spec k k') as [->|]; [left; reflexivity|right; auto].
Qed.
Lemma fshape_ranks no nv : Forall (fun kr => fshape no nv (fst kr) = (repeat nv (snd kr) ++ repeat no (snd kr))%list) amp_ranks.
Proof. repeat apply Forall_cons; try apply Forall_nil; reflexivity. Qed.
Lemma arrays_shaped no nv d : map fst d = map fst amp_ranks -> arrays no nv amp_ranks d -> shaped (fshape no nv) d.
Proof.
  intros HK HA k t E. pose proof (slook_in k d t E) as I. rewrite HK in I. apply in_map_iff in I. destruct I as [kr [<- I]].
  unfold arrays in HA. rewrite Forall_forall in HA. destruct (HA kr I) as [t' [E' S']]. pose proof (fshape_ranks no nv) as FR. rewrite Forall_forall in FR.
  rewrite (FR kr I). congruence.
Qed.
Lemma shaped_arrays no nv d : shaped (fshape no nv) d -> has (map fst amp_ranks) d -> arrays no nv amp_ranks d.
Proof.
  intros S H. unfold arrays. apply Forall_forall. intros kr I. destruct (slook (fst kr) d) as [t|] eqn:E; [|destruct (H (fst kr) (in_map fst _ _ I) E)].
  exists t. split; [reflexivity|]. pose proof (fshape_ranks no nv) as FR. rewrite Forall_forall in FR. rewrite <- (FR kr I). exact (S _ _ E).
Qed.
Lemma arrays_has no nv d : arrays no nv amp_ranks d -> has (map fst amp_ranks) d.
Proof.
  intros A k I. apply in_map_iff in I. destruct I as [kr [<- I]]. unfold arrays in A. rewrite Forall_forall in A. destruct (A kr I) as [t [-> _]]. discriminate.
Qed.

Section Full.
  Variables no nv : nat.
  Variables f_aa f_bb g_aaaa g_bbbb g_abab : tensor.
  Variable denom : dict.
  Variable c : calc.
  Variable solve : solver.
  Variable pert : energy_fn -> dict -> dict -> unit -> option (Qc * unit).
  Hypothesis S1 : shape f_aa = [no + nv; no + nv]%nat.
  Hypothesis S2 : shape f_bb = [no + nv; no + nv]%nat.
  Hypothesis S3 : shape g_aaaa = repeat (no + nv)%nat 4.
  Hypothesis S4 : shape g_bbbb = repeat (no + nv)%nat 4.
  Hypothesis S5 : shape g_abab = repeat (no + nv)%nat 4.
  Hypothesis HD : arrays no nv den_ranks denom.
  Hypothesis HL : cc_label c = "fullCCType".
  Hypothesis HT : cc_type c = "CCDQ".
  Hypothesis SOK : P_total.solver_succeeds solve.
  Hypothesis DU : P_total.diis_usable c.
  Hypothesis Ho : (0 < no)%nat.
  Hypothesis Hv : (0 < nv)%nat.
  Notation sh := (fshape no nv).
  Notation res := (full_resid no no f_aa f_bb g_aaaa g_bbbb g_abab denom c).
  Notation en := (full_energy no no f_aa f_bb g_aaaa g_bbbb g_abab denom).
  Definition QI (s : kstate unit) : Prop := arrays no nv amp_ranks (amps unit s) /\ diis_ready sh unit c s.
  Lemma qvk : vec_keys (cc_type c) = (t2_keys ++ t4_keys)%list.
  Proof using HT. rewrite HT. reflexivity. Qed.
  Lemma qhas d : has (map fst amp_ranks) d -> has (t2_keys ++ t4_keys)%list d.
  Proof using. intros H k I. apply H. cbn in I |- *. tauto. Qed.
  Lemma qi_step s : QI s -> exists s' E, iteration unit solve res en c s = Some (s', E) /\ QI s'.
  Proof using All.
    intros [A R]. unfold iteration. destruct (l2_def no nv _ A) as [l2 ->]. cbn [obind]. replace (resid_call c) with (Some R_fullCC) by (unfold resid_call; rewrite HL; reflexivity). cbn [obind full_resid].
    destruct (C40_ccdq_residuals no nv f_aa f_bb g_aaaa g_bbbb g_abab denom c (amps unit s) S1 S2 S3 S4 S5 HD A HT) as [d' [ER [A' _]]]. pose proof (resid_keys _ _ _ _ _ _ _ _ _ _ _ ER) as HK.
    rewrite ER. cbn [obind fst snd].
    destruct (block_total sh unit solve c SOK (mkSt unit d' l2 (old_vec unit s) (dstate unit s) (world unit s))) as [s1 [E1 [R1 [Sh1 [K1 _]]]]].
    - exact R.
    - exact (arrays_shaped no nv d' HK A').
    - intros _. rewrite qvk. apply qhas. exact (arrays_has no nv d' A').
    - rewrite E1. cbn [obind]. replace (energy_call c) with (Some E_fullCC) by (unfold energy_call; rewrite HL; reflexivity). cbn [obind full_energy].
      assert (A1 : arrays no nv amp_ranks (amps unit s1)) by (apply shaped_arrays; [exact Sh1|apply K1; exact (arrays_has no nv d' A')]).
      destruct (energy_ok no nv f_aa f_bb g_aaaa g_bbbb g_abab denom S1 S2 S3 S4 S5 HD _ A1) as [E EE]. rewrite EE. cbn [obind fst snd].
      eexists _, _. split; [reflexivity|]. split; [exact A1|exact R1].
  Qed.
  Lemma full_total : (0 < max_iter c)%nat -> P_total.ends_well c (full_kernel no no nv f_aa f_bb g_aaaa g_bbbb g_abab denom c solve pert).
  Proof using All.
    intros HM. unfold P_total.ends_well, full_kernel.
    assert (HS : exists s0 e0, start unit en (fun d => Some d) c (full_init no nv) (full_old no nv c) tt = Some (s0, e0) /\ QI s0).
    { unfold start. rewrite HL. change ("fullCCType" =? "ccdTypeSlow") with false. cbn [obind]. replace (energy_call c) with (Some E_fullCC) by (unfold energy_call; rewrite HL; reflexivity). cbn [obind full_energy].
      destruct (energy_ok no nv f_aa f_bb g_aaaa g_bbbb g_abab denom S1 S2 S3 S4 S5 HD (full_init no nv) (init_arrays no nv)) as [E0 EE0]. rewrite EE0. cbn [obind fst snd].
      eexists _, _. split; [reflexivity|]. split; [apply init_arrays|].
      apply P_total.ready_new with (w := tt) (d0 := full_init no nv) (l := []); auto. intros _. rewrite qvk. unfold full_old.
      change (old_keys true (cc_type c)) with (t2_keys ++ t4_keys)%list.
      destruct (vectorise_total sh (t2_keys ++ t4_keys)%list (full_init no nv)) as [v [-> LV]]; [| |exact LV].
      - intros k t E. pose proof (slook_in k _ t E) as I. destruct (in_dec string_dec k (map fst amp_ranks)) as [J|J].
        + apply in_map_iff in J. destruct J as [kr [<- J]]. pose proof (init_arrays no nv) as IA. unfold arrays in IA. rewrite Forall_forall in IA. destruct (IA kr J) as [t' [E' S']].
          pose proof (fshape_ranks no nv) as FR. rewrite Forall_forall in FR. rewrite (FR kr J). congruence.
        + exfalso. apply J. cbn in I |- *. tauto.
      - apply qhas. exact (arrays_has no nv _ (init_arrays no nv)). }
    destruct HS as [s0 [e0 [ES I0]]].
    apply (kernel_total unit solve res en pert (fun d => Some d) c QI qi_step) with (s0 := s0) (e0 := e0); auto.
    intros s E [A _]. split.
    - destruct (got no nv _ A "t2aa" 2 ltac:(cbn; tauto)) as [X1 X2]. unfold printable. rewrite X1, X2. cbn [repeat app]. rewrite (proj2 (Nat.ltb_lt 0 nv) Hv), (proj2 (Nat.ltb_lt 0 no) Ho). reflexivity.
    - unfold finalize, is_qf. rewrite HT. cbn. eauto.
  Qed.
End Full.

(** C70.  A full CC calculation with the label "CCDQ", for all sizes, integrals and denominators, never raises an exception unless the linear
    solver of DIIS does: it returns a result, or, if more than 76 passes were allowed, exits.  (With any other label it always raises:
    C40_other_labels_run_raises_refuted.) *)
Theorem C70_full_run_ends : forall no nv f_aa f_bb g_aaaa g_bbbb g_abab denom c solve pert,
  shape f_aa = [no + nv; no + nv]%nat -> shape f_bb = [no + nv; no + nv]%nat ->
  shape g_aaaa = repeat (no + nv)%nat 4 -> shape g_bbbb = repeat (no + nv)%nat 4 -> shape g_abab = repeat (no + nv)%nat 4 ->
  arrays no nv den_ranks denom -> cc_label c = "fullCCType" -> cc_type c = "CCDQ" ->
  P_total.solver_succeeds solve -> P_total.diis_usable c -> (0 < max_iter c)%nat -> (0 < no)%nat -> (0 < nv)%nat ->
  P_total.ends_well c (full_kernel no no nv f_aa f_bb g_aaaa g_bbbb g_abab denom c solve pert).
Proof.
  intros no nv f_aa f_bb g_aaaa g_bbbb g_abab denom c solve pert S1 S2 S3 S4 S5 HD HL HT SOK DU HM Ho Hv.
  exact (full_total no nv f_aa f_bb g_aaaa g_bbbb g_abab denom c solve pert S1 S2 S3 S4 S5 HD HL HT SOK DU Ho Hv HM).
Qed.
Print Assumptions C70_full_run_ends.
(** CCDQ with DIIS over six vectors *)
Example C70_full_instance := C70_full_run_ends 2 2 h2 h2 h4 h4 h4 (ones den_ranks) (mkCalc "fullCCType" "CCDQ" 30 (Q2Qc (1 # 1000)) (Some 6%nat) 2 (Q2Qc 1) (Q2Qc (-3 # 1)))
  P_total.i_solve (fun _ _ _ _ => None) eq_refl eq_refl eq_refl eq_refl eq_refl ones_den eq_refl eq_refl P_total.i_solve_ok ltac:(cbn; lia) ltac:(cbn; lia) ltac:(lia) ltac:(lia).
