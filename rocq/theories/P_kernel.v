(** C29, C30, C32, C34, C35: the iterative driver. *)
From Coq Require Import String Ascii List Arith ZArith QArith Qcanon Bool Lia.
From Coq Require Qcabs.
From Verif Require Import Sums Tensor Interp Numpy Spec Diis Kernel.
Import ListNotations.
Open Scope string_scope.

(** ** C30: what a return of the loop means *)
Section Loop.
  Variable World : Type.
  Variable solve : solver.
  Variable resid : resid_fn -> dict -> dict -> World -> option (dict * World).
  Variable energy : energy_fn -> dict -> World -> option (Qc * World).
  Variable pert : energy_fn -> dict -> dict -> World -> option (Qc * World).
  Variable first_guess : dict -> option dict.
  Variable c : calc.
  Notation it := (iteration World solve resid energy c).

  (** The states and energies after k passes, starting from s0 with energy e0. *)
  Fixpoint after (s0 : kstate World) (e0 : Qc) (k : nat) : option (kstate World * Qc) :=
    match k with
    | O => Some (s0, e0)
    | S k' => do se <- after s0 e0 k'; it (fst se)
    end.
  (** The energy change of pass k is below the threshold. *)
  Definition converged_at (s0 : kstate World) (e0 : Qc) (k : nat) : Prop :=
    exists s e s' e', after s0 e0 k = Some (s, e) /\ after s0 e0 (S k) = Some (s', e') /\
      Qcabs.Qcabs (e - e') < stopping_eps c.

  Lemma loop_done s0 e0 : forall n idx s old current s' r,
    after s0 e0 idx = Some (s, old) -> (idx + n = max_iter c)%nat ->
    (forall j, (j < idx)%nat -> ~ converged_at s0 e0 j) ->
    (idx = 0%nat /\ current = None \/ (idx > 0)%nat /\ current = Some old) -> (idx <= 76)%nat ->
    loop World solve resid energy c n idx s old current = LDone World s' r ->
    (max_iter c = 0%nat /\ r = None) \/
    exists k e, r = Some e /\ (k < max_iter c)%nat /\ (k < 76)%nat /\ after s0 e0 (S k) = Some (s', e) /\
      (converged_at s0 e0 k \/ S k = max_iter c) /\ (forall j, (j < k)%nat -> ~ converged_at s0 e0 j).
  Proof.
    induction n as [|n IH]; intros idx s old current s' r HA HN HJ HC H76 HL; cbn [loop] in HL.
    - injection HL as <- <-. destruct HC as [[-> ->]|[Hi ->]]; [left; split; [lia|reflexivity]|].
      right. destruct idx as [|k]; [lia|]. exists k, old. repeat split; try assumption; try lia.
      intros j Hj. apply HJ. lia.
    - destruct (Nat.ltb_spec 75 idx); [discriminate|].
      destruct (it s) as [[s1 e1]|] eqn:EI; [|discriminate].
      assert (HA1 : after s0 e0 (S idx) = Some (s1, e1)) by (cbn [after]; rewrite HA; exact EI).
      destruct (Qclt_le_dec (Qcabs.Qcabs (old - e1)) (stopping_eps c)) as [Hlt|Hle].
      + injection HL as <- <-. right. exists idx, e1. repeat split; try assumption; try lia.
        left. exists s, old, s1, e1. repeat split; assumption.
      + destruct (Nat.ltb_spec (max_iter c) idx); [discriminate|].
        apply (IH (S idx) s1 e1 (Some e1) s' r); try assumption; try lia.
        * intros j Hj. destruct (Nat.eq_dec j idx) as [->|]; [|apply HJ; lia].
          intros [sa [ea [sb [eb [X1 [X2 X3]]]]]]. rewrite HA in X1. injection X1 as <- <-.
          rewrite HA1 in X2. injection X2 as <- <-. exact (Qclt_not_le _ _ X3 Hle).
        * right. split; [lia|reflexivity].
  Qed.

  (** If kernel() returns, it made k+1 passes, k+1 <= min(max_iter, 76); the returned amplitudes and the energy
      behind the returned total energy are those of the last pass; no earlier pass was converged; and the last one
      either was converged or was the max_iter-th. *)
  Theorem C30_kernel_return : forall d0 ov w d tf co,
    kernel World solve resid energy pert first_guess c d0 ov w = Returned d tf co ->
    exists s0 e0 k s e,
      start World energy first_guess c d0 ov w = Some (s0, e0) /\
      (k < max_iter c)%nat /\ (k < 76)%nat /\
      after s0 e0 (S k) = Some (s, e) /\ amps World s = d /\
      finalize World pert c e d (l2amps World s) (world World s) = Some (tf, co) /\
      (forall j, (j < k)%nat -> ~ converged_at s0 e0 j) /\
      (converged_at s0 e0 k \/ S k = max_iter c).
  Proof.
    intros d0 ov w d tf co H. unfold kernel in H.
    destruct (start World energy first_guess c d0 ov w) as [[s0 e0]|] eqn:E0; [|discriminate].
    destruct (loop World solve resid energy c (max_iter c) 0 s0 e0 None) as [s [e|]| |] eqn:EL; try discriminate.
    destruct (printable (amps World s)); [|discriminate].
    destruct (finalize World pert c e (amps World s) (l2amps World s) (world World s)) as [[tf' co']|] eqn:EF; [|discriminate].
    injection H as <- <- <-.
    destruct (loop_done s0 e0 (max_iter c) 0 s0 e0 None s (Some e)) as [[_ X]|X]; try reflexivity; try assumption; try lia;
      [left; split; reflexivity|discriminate|].
    destruct X as [k [e' [X1 [X2 [X3 [X4 [X5 X6]]]]]]]. injection X1 as <-.
    exists s0, e0, k, s, e. repeat split; assumption.
  Qed.

  (** The `raise ValueError` of the loop (kernel.py:463-464) can never be reached: with routines that never fail
      the loop never raises. *)
  Theorem C30_loop_never_raises : (forall s, it s <> None) ->
    forall s e, loop World solve resid energy c (max_iter c) 0 s e None <> LRaise World.
  Proof.
    intros HI s e.
    assert (G : forall n idx s e cur, (idx + n = max_iter c)%nat -> loop World solve resid energy c n idx s e cur <> LRaise World).
    { induction n as [|n IH]; intros idx s1 e1 cur HN; cbn [loop]; [discriminate|].
      destruct (Nat.ltb 75 idx); [discriminate|]. destruct (it s1) as [[s2 e2]|] eqn:E; [|destruct (HI _ E)].
      destruct (Qclt_le_dec _ _); [discriminate|]. destruct (Nat.ltb_spec (max_iter c) idx); [lia|]. apply IH. lia. }
    apply G. reflexivity.
  Qed.
  (** With more than 76 passes allowed and none of the first 76 converged, the process exits. *)
  Theorem C30_exit_at_76 : forall s0 e0, (76 < max_iter c)%nat ->
    (forall k, (k <= 76)%nat -> exists se, after s0 e0 k = Some se) ->
    (forall j, (j < 76)%nat -> ~ converged_at s0 e0 j) ->
    loop World solve resid energy c (max_iter c) 0 s0 e0 None = LExit World.
  Proof.
    intros s0 e0 HM HD HJ.
    assert (G : forall n idx s e cur, (idx + n = max_iter c)%nat -> (idx <= 76)%nat -> after s0 e0 idx = Some (s, e) ->
       loop World solve resid energy c n idx s e cur = LExit World).
    { induction n as [|n IH]; intros idx s1 e1 cur HN HI HA; cbn [loop]; [lia|].
      destruct (Nat.ltb_spec 75 idx); [reflexivity|].
      destruct (HD (S idx) ltac:(lia)) as [[s2 e2] HA2]. pose proof HA2 as HA3. cbn [after] in HA2. rewrite HA in HA2. cbn [obind fst] in HA2.
      rewrite HA2. destruct (Qclt_le_dec _ _) as [Hlt|].
      - exfalso. apply (HJ idx ltac:(lia)). exists s1, e1, s2, e2. repeat split; assumption.
      - destruct (Nat.ltb_spec (max_iter c) idx); [lia|]. apply IH; try lia. exact HA3. }
    apply G; try lia. reflexivity.
  Qed.
End Loop.
Print Assumptions C30_kernel_return.
Print Assumptions C30_loop_never_raises.
Print Assumptions C30_exit_at_76.

(** "kernel() reports an energy only when converged" ... *)
Definition reports_only_converged : Prop :=
  forall World solve resid energy pert first_guess c d0 ov w d tf co,
    kernel World solve resid energy pert first_guess c d0 ov w = Returned d tf co ->
    exists s0 e0 k, start World energy first_guess c d0 ov w = Some (s0, e0) /\
      converged_at World solve resid energy c s0 e0 k.
(** ... is false.  A calculation whose energy changes by 1 in every pass (threshold 1/10) returns after max_iter
    passes, without any signal. *)
Definition amps1 : dict := map (fun k => (k, tzeros [1; 1; 1; 1]%nat)) t2_keys.
Definition resid1 (_ : resid_fn) (d _ : dict) (w : nat) := Some (d, S w).
Definition energy1 (_ : energy_fn) (d : dict) (w : nat) := Some (qn w, w).
Definition pert1 (_ : energy_fn) (d _ : dict) (w : nat) := Some (qn w, w).
Definition calc1 (n : nat) : calc := mkCalc "ccdTypeSlow" "CCD" n (Q2Qc (1 # 10)) None 0 0%Qc 0%Qc.
Definition solve0 : solver := fun _ _ _ => None.
Lemma qn_S k : (qn (S k) = qn k + 1)%Qc.
Proof.
  apply Qc_is_canon. unfold qn, Qcplus, Q2Qc; cbn [this]. rewrite !Qred_correct.
  rewrite Nat2Z.inj_succ. unfold Z.succ. rewrite inject_Z_plus. reflexivity.
Qed.
Theorem C30_reports_only_converged_refuted : ~ reports_only_converged.
Proof.
  intros H.
  specialize (H nat solve0 resid1 energy1 pert1 (fun d => Some d) (calc1 3) amps1 [] 0%nat).
  destruct (kernel nat solve0 resid1 energy1 pert1 (fun d => Some d) (calc1 3) amps1 [] 0%nat) as [d tf co| |] eqn:E;
    [|vm_compute in E; discriminate|vm_compute in E; discriminate].
  clear E. destruct (H d tf co eq_refl) as [s0 [e0 [k [HS [s [e [s' [e' [A1 [A2 HC]]]]]]]]]]. clear H.
  assert (I0 : exists w, world nat s0 = w /\ e0 = qn w).
  { unfold start in HS. cbn [calc1 cc_label cc_type String.eqb Ascii.eqb Bool.eqb energy_call contains String.index prefix obind energy1 fst snd] in HS.
    injection HS as <- <-. exists 0%nat. split; reflexivity. }
  assert (IT : forall s s' e', iteration nat solve0 resid1 energy1 (calc1 3) s = Some (s', e') ->
      world nat s' = S (world nat s) /\ e' = qn (world nat s')).
  { clear. intros s s' e' H. unfold iteration in H. destruct (l2_of (amps nat s)); cbn [obind] in H; [|discriminate].
    cbn [resid_call energy_call calc1 cc_label cc_type String.eqb Ascii.eqb Bool.eqb contains String.index prefix obind resid1 energy1 fst snd diis_block diis_size amps l2amps world old_vec dstate] in H.
    injection H as <- <-. split; reflexivity. }
  assert (I : forall k s e, after nat solve0 resid1 energy1 (calc1 3) s0 e0 k = Some (s, e) -> e = qn (world nat s)).
  { intros j. destruct j as [|j]; intros s1 e1 HA; cbn [after] in HA.
    - injection HA as <- <-. destruct I0 as [w [-> ->]]. reflexivity.
    - destruct (after _ _ _ _ _ s0 e0 j) as [[s2 e2]|]; cbn [obind fst] in HA; [|discriminate]. apply (IT _ _ _ HA). }
  rewrite (I _ _ _ A1) in HC. cbn [after] in A2. rewrite A1 in A2. cbn [obind fst] in A2.
  destruct (IT _ _ _ A2) as [W ->]. rewrite W, qn_S in HC.
  replace (qn (world nat s) - (qn (world nat s) + 1))%Qc with (- (1))%Qc in HC by ring.
  vm_compute in HC. discriminate.
Qed.
Print Assumptions C30_reports_only_converged_refuted.
(** The same calculation meets the hypotheses of [C30_kernel_return] and [C30_loop_never_raises]. *)
Example C30_instance : exists d tf co,
  kernel nat solve0 resid1 energy1 pert1 (fun d => Some d) (calc1 3) amps1 [] 0%nat = Returned d tf co /\ tf = qn 3.
Proof. eexists; eexists; eexists. split; vm_compute; reflexivity. Qed.
Example C30_exit_instance :
  kernel nat solve0 resid1 energy1 pert1 (fun d => Some d) (calc1 100) amps1 [] 0%nat = SysExit.
Proof. vm_compute. reflexivity. Qed.
