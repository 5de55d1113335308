(** C43: which adjoint amplitudes the perturbative (Qf) correction is evaluated with. *)
From Coq Require Import String Ascii List Arith ZArith QArith Qcanon Bool Lia.
From Coq Require Qcabs.
From Verif Require Import Sums Tensor Interp Numpy Spec Diis Kernel P_kernel.
Import ListNotations.
Open Scope string_scope.

Section Stale.
  Variable World : Type.
  Variable solve : solver.
  Variable resid : resid_fn -> dict -> dict -> World -> option (dict * World).
  Variable energy : energy_fn -> dict -> World -> option (Qc * World).
  Variable pert : energy_fn -> dict -> dict -> World -> option (Qc * World).
  Variable first_guess : dict -> option dict.
  Variable c : calc.
  Notation it := (iteration World solve resid energy c).

  Lemma iteration_l2 s s' e : it s = Some (s', e) -> l2_of (amps World s) = Some (l2amps World s').
  Proof.
    unfold iteration. destruct (l2_of (amps World s)) as [l2|]; [|discriminate]. cbn [obind].
    destruct (resid_call c) as [rf|]; [|discriminate]. cbn [obind].
    destruct (resid rf (amps World s) l2 (world World s)) as [[d w]|]; [|discriminate]. cbn [obind fst snd].
    destruct (diis_block World solve c _) as [s1|] eqn:ED; [|discriminate]. cbn [obind].
    destruct (energy_call c) as [ef|]; [|discriminate]. cbn [obind].
    destruct (energy ef (amps World s1) (world World s1)) as [[x w2]|]; [|discriminate]. cbn [obind fst snd].
    intros H. injection H as <- <-. cbn [l2amps]. f_equal.
    unfold diis_block in ED. destruct (diis_size c); [|injection ED as <-; reflexivity].
    cbn [amps l2amps old_vec dstate world] in ED.
    destruct (vectorise _ d) as [v|]; [|discriminate]. cbn [obind] in ED.
    destruct (vbin Qcminus (old_vec World s) v) as [err|]; [|discriminate]. cbn [obind] in ED.
    destruct (compute_new_vec solve (dstate World s) v err) as [nd|]; [|discriminate]. cbn [obind] in ED.
    destruct (unvectorise _ 0 (fst nd) d) as [d2|]; [|discriminate]. cbn [obind] in ED.
    injection ED as <-. reflexivity.
  Qed.

  (** C43, what holds: the correction a (Qf) run on the spin-integrated route reports is computed from the returned
      amplitudes together with the adjoint of the amplitudes *before* the last pass. *)
  Theorem C43_correction_uses_previous_adjoints : forall d0 ov w d tf co,
    kernel World solve resid energy pert first_guess c d0 ov w = Returned d tf co ->
    is_qf c = true -> contains "UT2" (cc_type c) = false -> cc_label c = "ccdType" ->
    exists s0 e0 k s_prev e_prev s e l2 w',
      start World energy first_guess c d0 ov w = Some (s0, e0) /\
      after World solve resid energy c s0 e0 k = Some (s_prev, e_prev) /\
      after World solve resid energy c s0 e0 (S k) = Some (s, e) /\ amps World s = d /\
      l2_of (amps World s_prev) = Some l2 /\
      pert E_t2energy d l2 (world World s) = Some (co, w') /\ tf = (e + nucE c + co)%Qc.
  Proof.
    intros d0 ov w d tf co H Hq Hu Hl.
    destruct (C30_kernel_return World solve resid energy pert first_guess c d0 ov w d tf co H)
      as [s0 [e0 [k [s [e [HS [_ [_ [HA [Hd [HF _]]]]]]]]]]].
    pose proof HA as HA'. cbn [after] in HA'.
    destruct (after World solve resid energy c s0 e0 k) as [[sp ep]|] eqn:EP; [|discriminate].
    cbn [obind fst] in HA'. pose proof (iteration_l2 _ _ _ HA') as HL.
    unfold finalize in HF. rewrite Hq, Hu, Hl in HF. cbn [String.eqb Ascii.eqb Bool.eqb obind] in HF.
    destruct (pert E_t2energy d (l2amps World s) (world World s)) as [[q wq]|] eqn:EQ; [|discriminate].
    cbn [obind fst snd] in HF. injection HF as <- <-.
    exists s0, e0, k, sp, ep, s, e, (l2amps World s), wq. repeat split; assumption.
  Qed.
End Stale.
Print Assumptions C43_correction_uses_previous_adjoints.

(** The claim: for a (Qf) label on the spin-integrated route the reported correction is that of the returned
    amplitudes and their own adjoints. *)
Definition correction_from_final_amplitudes : Prop :=
  forall World solve resid energy pert first_guess c d0 ov w d tf co,
    is_qf c = true -> cc_label c = "ccdType" ->
    kernel World solve resid energy pert first_guess c d0 ov w = Returned d tf co ->
    exists l2 w1 w2, l2_of d = Some l2 /\ pert E_t2energy d l2 w1 = Some (co, w2).

(** A calculation in which every pass halves the distance of the amplitude to 1 (energy = amplitude, threshold 1/3)
    and the correction is the product of amplitude and adjoint amplitude. *)
Definition one4 (x : Qc) : tensor := mkT [1; 1; 1; 1]%nat (fun _ => x).
Definition get1 (k : string) (d : dict) : Qc := match slook k d with Some t => data t [0;0;0;0]%nat | None => 0%Qc end.
Definition amps2 (x : Qc) : dict := [("t2aa", one4 x); ("t2bb", one4 x); ("t2ab", one4 x)].
Definition half : Qc := Q2Qc (1 # 2).
Definition resid2 (_ : resid_fn) (d _ : dict) (w : unit) := Some (amps2 (half * get1 "t2aa" d + half)%Qc, w).
Definition energy2 (_ : energy_fn) (d : dict) (w : unit) := Some (get1 "t2aa" d, w).
Definition pert2 (_ : energy_fn) (d l2 : dict) (w : unit) := Some ((get1 "t2aa" d * get1 "l2aa" l2)%Qc, w).
Definition calc2 : calc := mkCalc "ccdType" "CCD(Qf)" 75 (Q2Qc (1 # 3)) None 0 0%Qc 0%Qc.
(** It returns after two passes with amplitude 3/4; the reported correction is 3/4*1/2, not 3/4*3/4. *)
Example C43_instance : exists d tf,
  kernel unit solve0 resid2 energy2 pert2 (fun d => Some d) calc2 (amps2 0%Qc) [] tt = Returned d tf (Q2Qc (3 # 8)) /\
  get1 "t2aa" d = Q2Qc (3 # 4) /\ is_qf calc2 = true /\ contains "UT2" (cc_type calc2) = false /\ cc_label calc2 = "ccdType".
Proof.
  eexists; eexists. split; [vm_compute; reflexivity|]. split; [apply Qc_is_canon; vm_compute; reflexivity|].
  repeat split; reflexivity.
Qed.
Theorem C43_correction_from_final_amplitudes_refuted : ~ correction_from_final_amplitudes.
Proof.
  intros H. destruct C43_instance as [d [tf [HK [Hd [Hq [_ Hl]]]]]].
  destruct (H unit solve0 resid2 energy2 pert2 (fun d => Some d) calc2 (amps2 0%Qc) [] tt d tf _ Hq Hl HK)
    as [l2 [w1 [w2 [HL HP]]]].
  assert (HD : get1 "l2aa" l2 = get1 "t2aa" d).
  { revert HL. vm_compute in HK. injection HK as <- _. clear. intros HL. vm_compute in HL. injection HL as <-. vm_compute. reflexivity. }
  unfold pert2 in HP. rewrite HD, Hd in HP. apply (f_equal (fun o => match o with Some (x, _) => Qc_eq_bool x (Q2Qc (3 # 8)) | None => true end)) in HP.
  vm_compute in HP. discriminate.
Qed.
Print Assumptions C43_correction_from_final_amplitudes_refuted.
