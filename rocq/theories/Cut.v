(** Proof machinery: symbolic execution of a function that calls an antisymmetriser in the middle.  The result of
    that call is treated as a new antisymmetric array instead of being expanded. *)
From Coq Require Import String Ascii List Arith NArith ZArith QArith Qcanon Bool Lia Permutation.
From Verif Require Import Sums Tensor Interp Poly SymExec Canon Spec Instances Setup Master Spin Check Tabs NF.
Import ListNotations.
Open Scope string_scope.

Lemma steps_app call ss1 : forall env ss2, steps call env (ss1 ++ ss2) = (do e <- steps call env ss1; steps call e ss2).
Proof.
  induction ss1 as [|s ss1 IH]; intros env ss2; cbn [steps app]; [reflexivity|].
  destruct (step call env s); cbn [obind]; [apply IH|reflexivity].
Qed.

Definition scall1 (lib : list (string * fn)) (g : string) (vs : list sval) : option sval :=
  do h <- slook g lib; srun so_slm 0 lib h vs.
Definition call_1 (lib : list (string * fn)) (g : string) (vs : list value) : option value :=
  do h <- slook g lib; run 0 lib h vs.
Lemma run1 lib f args : run 1 lib f args = run_with (call_1 lib) f args. Proof. reflexivity. Qed.

(** the part of the symbolic run before the call, and the part after it *)
Definition spre (lib : list (string * fn)) (f : fn) (n : nat) (svs : list sval) : option (list (string * sval)) :=
  do e <- bind_params (fparams f) svs; ssteps so_slm (scall1 lib) e (firstn n (fbody f)).
Definition spost (lib : list (string * fn)) (f : fn) (n : nat) (x : string) (sT : sval) (e : option (list (string * sval))) : option sval :=
  do e1 <- e; do e2 <- ssteps so_slm (scall1 lib) (sset x sT e1) (skipn (S n) (fbody f)); seval so_slm (scall1 lib) e2 (fret f).

Section Cut.
  Variables no nv : nat.
  Variable lib : list (string * fn).
  Lemma call1_sound tab g svs vs sv : scall1 lib g svs = Some sv -> Forall2 (so_vsim no nv tab) svs vs ->
    exists v, call_1 lib g vs = Some v /\ so_vsim no nv tab sv v.
  Proof.
    unfold scall1, call_1. intros H HF. destruct (slook g lib) as [h|]; cbn [obind] in *; [|discriminate].
    eapply srun_sound; [apply so_slices_ok|exact HF|exact H].
  Qed.
  Theorem so_cut tab1 f n svs args x h hf a b c sps p :
    nth_error (fbody f) n = Some (SAssign x (ECall h [EVar a; EVar b; EVar c])) ->
    slook h lib = Some hf ->
    Forall2 (so_vsim no nv tab1) svs args ->
    (do e <- spre lib f n svs; sevals so_slm (scall1 lib) e [EVar a; EVar b; EVar c]) = Some [SP sps p; SDim 0; SDim 1] ->
    exists U, so_vsim no nv tab1 (SP sps p) (VT U) /\ shape U = map (dim (so_range no nv)) sps /\
      forall T, run 0 lib hf [VT U; VInt no; VInt nv] = Some (VT T) ->
      forall tab2 sT, Forall2 (so_vsim no nv tab2) svs args -> so_vsim no nv tab2 sT (VT T) ->
      forall r, spost lib f n x sT (spre lib f n svs) = Some r ->
      exists R, run 1 lib f args = Some R /\ so_vsim no nv tab2 r R.
  Proof.
    intros Hn Hh HV HP. unfold spre in *.
    destruct (bind_params (fparams f) svs) as [se0|] eqn:E0; cbn [obind] in HP; [|discriminate].
    destruct (ssteps so_slm (scall1 lib) se0 (firstn n (fbody f))) as [se1|] eqn:E1; cbn [obind] in HP; [|discriminate].
    destruct (bind_params_sound _ _ _ _ _ _ _ _ _ HV E0) as [ve0 [B0 S0]].
    destruct (ssteps_sound _ _ (so_slc no) so_slm _ _ (so_slices_ok no nv) _ _ (call1_sound tab1) _ _ _ _ S0 E1) as [ve1 [B1 S1]].
    cbn [sevals seval obind] in HP.
    destruct (slook a se1) as [sa|] eqn:La; cbn [obind] in HP; [|discriminate].
    destruct (slook b se1) as [sb|] eqn:Lb; cbn [obind] in HP; [|discriminate].
    destruct (slook c se1) as [sc|] eqn:Lc; cbn [obind] in HP; [|discriminate].
    apply some_inj in HP. injection HP as -> -> ->.
    destruct (dsim_look _ _ _ _ _ _ _ _ _ S1 La) as [va [La' Va]].
    destruct (dsim_look _ _ _ _ _ _ _ _ _ S1 Lb) as [vb [Lb' Vb]].
    destruct (dsim_look _ _ _ _ _ _ _ _ _ S1 Lc) as [vc [Lc' Vc]].
    inversion Va as [? ? U TU| | | | |]; subst. pose proof (proj1 TU) as SU.
    assert (Eb : vb = VInt no) by (inversion Vb; subst; rewrite dO; reflexivity).
    assert (Ec : vc = VInt nv) by (inversion Vc; subst; rewrite dV; reflexivity). subst vb vc. clear Vb Vc Va.
    exists U. split; [constructor; exact TU|]. split; [exact SU|]. intros T HT tab2 sT HV2 VT2 r HR.
    unfold spost in HR. cbn [obind] in HR. rewrite E1 in HR. cbn [obind] in HR.
    destruct (bind_params_sound _ _ _ _ _ _ _ _ _ HV2 E0) as [ve0' [B0' S0']].
    assert (ve0' = ve0) as -> by congruence.
    destruct (ssteps_sound _ _ (so_slc no) so_slm _ _ (so_slices_ok no nv) _ _ (call1_sound tab2) _ _ _ _ S0' E1) as [ve1' [B1' S1']].
    assert (ve1' = ve1) as -> by congruence.
    destruct (ssteps so_slm (scall1 lib) (sset x sT se1) (skipn (S n) (fbody f))) as [se2|] eqn:E2; cbn [obind] in HR; [|discriminate].
    pose proof (dsim_set _ _ _ _ _ _ _ x _ _ S1' VT2) as S2.
    destruct (ssteps_sound _ _ (so_slc no) so_slm _ _ (so_slices_ok no nv) _ _ (call1_sound tab2) _ _ _ _ S2 E2) as [ve2 [B2 S3]].
    destruct (seval_sound _ _ (so_slc no) so_slm _ _ (so_slices_ok no nv) _ _ (call1_sound tab2) _ _ S3 _ _ HR) as [R [ER VR]].
    exists R. split; [|exact VR]. rewrite run1. unfold run_with. rewrite B0. cbn [obind].
    assert (EB : fbody f = (firstn n (fbody f) ++ SAssign x (ECall h [EVar a; EVar b; EVar c]) :: skipn (S n) (fbody f))%list).
    { clear -Hn. revert Hn. generalize (fbody f) as l. induction n as [|n IH]; intros [|s l] Hn; cbn in Hn; try discriminate.
      - injection Hn as ->. reflexivity.
      - cbn [firstn skipn app]. f_equal. apply IH. exact Hn. }
    rewrite EB, steps_app, B1. cbn [obind steps step eval].
    rewrite La', Lb', Lc'. cbn [obind]. unfold call_1 at 1. rewrite Hh. cbn [obind]. rewrite HT. cbn [obind].
    rewrite B2. cbn [obind]. exact ER.
  Qed.
End Cut.

(** antisymmetry read off the polynomial of a result *)
Lemma so_vs_antis no nv tab sps q R i : Forall (atom_ok (so_range no nv) sy) tab -> (length sps <= 8)%nat -> (S i < length sps)%nat ->
  so_vsim no nv tab (SP sps q) (VT R) -> antis sps i (Some (SP sps q)) -> antisymmetric_in R i.
Proof.
  intros Hat HL Hlt V [h HC]. unfold so_chkb, chk in HC. rewrite !andb_true_iff in HC. destruct HC as [[[_ O2] Hg] Hp].
  inversion V as [? ? ? T1| | | | |]; subst.
  set (y := strp (swp_at (length sps) i) (Some (SP sps q))) in *.
  destruct y as [[s q'| | | | |]|] eqn:Ey; cbn [sneg outsp] in O2; try discriminate.
  apply eqb_sps_eq in O2. subst s. unfold y in Ey.
  destruct (strp_sound _ _ _ _ _ _ _ _ _ eq_refl Ey T1) as [R2 [HT T2]].
  pose proof (sneg_sound _ _ _ _ _ T2) as T3. cbn [sneg getp] in Hp.
  eapply (swp_antisym (length sps)); [exact HL|exact Hlt| |exact HT|].
  - destruct T1 as [-> _]. apply map_length.
  - eapply (so_peq no nv tab Hat); [exact Hg|exact Hp|exact T1|exact T3].
Qed.
