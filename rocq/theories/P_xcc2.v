(** C52: the XCCD energy is the CCD energy plus the contractions of T2 with the very arrays added to the residual.
    C34: the energy and the residual function the loop calls belong to the same method. *)
From Coq Require Import String Ascii List Arith NArith ZArith QArith Qcanon Bool Lia Permutation.
From Verif Require Import Sums Tensor Interp Numpy Poly SymExec Canon Spec Instances Setup Master Spin Check Tabs NF Antisym P_antisym.
From Verif Require Import Diis Kernel SlowCC Cut P_xcc SpecDriver P_ccsd P_slow P_slow3.
Import ListNotations.
Open Scope string_scope.
Open Scope Qc_scope.

(** 1/4 sum_abij cap[a,b,i,j] B[a,b,i,j] *)
Definition quarter (no nv : nat) (cap : nat -> nat -> nat -> nat -> Qc) (B : tensor) : Qc :=
  Q2Qc (1 # 4) * (Sum a < nv, Sum b < nv, Sum i < no, Sum j < no, cap a b i j * data B [a; b; i; j]).

Section Xcc2.
  Variables no nv : nat.
  Variables f g D2 t2 : tensor.
  Hypothesis Hg : is_tei (no + nv) g.
  Hypothesis DS : shape D2 = [nv; nv; no; no].
  Hypothesis Ht : is_amp 2 no nv t2.

  Lemma dot_val cap dag B : shape cap = [nv; nv; no; no] -> ttransp [2; 3; 0; 1]%nat cap = Some dag -> shape B = [nv; nv; no; no] ->
    exists e, dot "ijab,abij" dag B = Some e /\ Q2Qc (1 # 4) * e = quarter no nv (fun a b i j => data cap [a; b; i; j]) B.
  Proof using.
    intros Sc. unfold ttransp. rewrite Sc. cbn [length Nat.eqb is_permb seq forallb existsb orb andb].
    intros [= <-] Sb. unfold dot. destruct (parse_spec "ijab,abij") as [ins out] eqn:E. vm_compute in E. injection E as <- <-.
    unfold einsum. cbn [map]. cbn [shape]. rewrite Sb. cbn. rewrite !Nat.eqb_refl. cbn. eexists. split; [reflexivity|].
    unfold quarter. f_equal. rewrite suml_swap. apply suml_ext. intros a _. apply suml_ext. intros b _. rewrite suml_swap.
    apply suml_ext. intros i _. apply suml_ext. intros j _. ring.
  Qed.
  (** what the base is contracted with: the amplitudes, or (factorised) the first-order amplitudes *)
  Definition cap (factorization : bool) (a b i j : nat) : Qc :=
    if factorization then data g [no + a; no + b; i; j]%nat * data D2 [a; b; i; j] else data t2 [a; b; i; j].
  Lemma energy1_val fz order w B w' : xcc_base no nv g order t2 w = Some (B, w') -> is_amp 2 no nv B ->
    xcc_energy1 no nv g D2 fz t2 order w = Some (quarter no nv (cap fz) B, w').
  Proof using Hg DS Ht.
    intros HB [SB _]. unfold xcc_energy1.
    assert (HC : exists C, (if fz then do gs <- tslice [(no, None); (no, None); (0%nat, Some no); (0%nat, Some no)] g; tbin Qcmult gs D2 else Some t2) = Some C /\
       shape C = [nv; nv; no; no] /\ forall a b i j, (a < nv)%nat -> (b < nv)%nat -> (i < no)%nat -> (j < no)%nat -> data C [a; b; i; j] = cap fz a b i j).
    { destruct fz; [|exists t2; split; [reflexivity|]; split; [exact (proj1 Ht)|reflexivity]].
      destruct Hg as [Sg _]. unfold tslice. rewrite Sg. cbn [length Nat.eqb zipw map combine fst snd slice_len slice_start]. cbn [obind].
      rewrite tbin_ok.
      - eexists. split; [reflexivity|]. cbn [shape data]. split.
        + unfold zipw. cbn [map combine fst snd]. unfold slice_len, slice_stop, slice_start. f_equal; [lia|f_equal; [lia|f_equal; [lia|f_equal; lia]]].
        + intros a b i j Ha Hb Hi Hj. unfold cap, slice_start, zipw. cbn [map combine fst snd].
          rewrite Nat.min_l, Nat.min_0_l by lia. reflexivity.
      - cbn [shape]. rewrite DS. unfold zipw. cbn [map combine fst snd]. unfold slice_len, slice_stop, slice_start. f_equal; [lia|f_equal; [lia|f_equal; [lia|f_equal; lia]]]. }
    destruct HC as [C [-> [SC VC]]]. cbn [obind].
    assert (TD : exists dag, ttransp [2; 3; 0; 1]%nat C = Some dag).
    { unfold ttransp. rewrite SC. cbn [length Nat.eqb is_permb seq forallb existsb orb andb]. eexists; reflexivity. }
    destruct TD as [dag TD]. rewrite TD. cbn [obind]. rewrite HB. cbn [obind fst snd].
    destruct (dot_val C dag B SC TD SB) as [e [-> E]]. cbn [obind]. rewrite E. do 2 f_equal. unfold quarter. f_equal.
    apply suml_ext. intros a Ha. apply suml_ext. intros b Hb. apply suml_ext. intros i Hi. apply suml_ext. intros j Hj.
    apply in_seq in Ha, Hb, Hi, Hj. rewrite VC by lia. reflexivity.
  Qed.
  Lemma bases n : forall k w, (5 <= k)%nat -> (k + n <= 10)%nat -> (k = 5%nat \/ good_disk no nv w) ->
    exists Bs w', length Bs = n /\ Forall (is_amp 2 no nv) Bs /\
      (forall fz, xcc_energies no nv g D2 fz t2 (seq k n) w = Some (map (quarter no nv (cap fz)) Bs, w')) /\
      forall r, is_amp 2 no nv r -> exists r', xcc_resids no nv g (seq k n) t2 r w = Some (r', w') /\ is_amp 2 no nv r' /\
        forall idx, data r' idx = data r idx + suml Bs (fun B => data B idx).
  Proof using Hg DS Ht.
    induction n as [|n IH]; intros k w H1 H2 HW.
    - exists [], w. split; [reflexivity|]. split; [constructor|]. split; [intros fz; reflexivity|]. intros r Hr. exists r. split; [reflexivity|]. split; [exact Hr|].
      intros idx. cbn [suml]. ring.
    - destruct (xcc_base_ok no nv g t2 Hg Ht k w ltac:(lia) HW) as [B [w1 [E [HB [_ HW']]]]].
      destruct (IH (S k) w1 ltac:(lia) ltac:(lia) ltac:(auto)) as [Bs [w' [L [F [HE HR]]]]].
      exists (B :: Bs), w'. split; [cbn; congruence|]. split; [constructor; assumption|]. split.
      + intros fz. cbn [seq xcc_energies]. rewrite (energy1_val fz k w B w1 E HB). cbn [obind fst snd]. rewrite HE. reflexivity.
      + intros r Hr. cbn [seq xcc_resids]. rewrite E. cbn [obind fst snd]. rewrite tbin_ok by (rewrite (proj1 Hr), (proj1 HB); reflexivity). cbn [obind].
        destruct (HR (mkT (shape r) (fun i => data r i + data B i))) as [r' [E' [A' V']]].
        { destruct (amp_plus no nv 2 r B Hr HB) as [r2 [E2 A2]]. rewrite tbin_ok in E2 by (rewrite (proj1 Hr), (proj1 HB); reflexivity). apply some_inj in E2. rewrite E2. exact A2. }
        exists r'. split; [exact E'|]. split; [exact A'|]. intros idx. rewrite V'. cbn [data suml]. ring.
  Qed.
End Xcc2.

(** C52.  For an XCCD label with orders 5..n there are arrays B_5, ..., B_n such that the energy is the CCD energy plus
    1/4 sum t2 * B_k over the orders, the perturbative correction of the (Qf) kind is the same with the first-order amplitudes
    in place of t2, and the array added to the CCD residual is the sum of the same B_k. *)
Theorem C52_xccd_energy_and_residual : forall no nv f g D2 c t2 d w n,
  is_fock (no + nv) f -> is_tei (no + nv) g -> shape D2 = [nv; nv; no; no] -> is_amp 2 no nv t2 ->
  slook "t2aa" d = Some t2 -> extract_integer (cc_type c) = Some (seq 5 n) -> (n <= 5)%nat ->
  exists Bs w', length Bs = n /\ Forall (is_amp 2 no nv) Bs /\
    (xccd_flag c = true ->
       t2energy_slow no nv f g D2 c d w = Some (E_ccd no nv f g t2 + suml Bs (quarter no nv (fun a b i j => data t2 [a; b; i; j])), w')) /\
    t2pert_slow no nv g D2 c d w = Some (suml Bs (quarter no nv (fun a b i j => data g [no + a; no + b; i; j]%nat * data D2 [a; b; i; j])), w') /\
    forall r, is_amp 2 no nv r -> exists r', xcc_resids no nv g (seq 5 n) t2 r w = Some (r', w') /\
      forall idx, data r' idx = data r idx + suml Bs (fun B => data B idx).
Proof.
  intros no nv f g D2 c t2 d w n Hf Hg DS Ht Hd El Hn.
  destruct (bases no nv g D2 t2 Hg DS Ht n 5 w ltac:(lia) ltac:(lia) ltac:(auto)) as [Bs [w' [L [F [HE HR]]]]].
  exists Bs, w'. split; [exact L|]. split; [exact F|]. split; [|split].
  - intros HX. unfold t2energy_slow. rewrite Hd. cbn [obind]. rewrite HX, (ccd_energy_is no nv f g t2 Hf Hg Ht). cbn [obind]. rewrite El. cbn [obind].
    rewrite HE. cbn [obind fst snd]. unfold SlowCC.lsum. rewrite suml_map. reflexivity.
  - unfold t2pert_slow. rewrite Hd. cbn [obind]. rewrite El. cbn [obind]. rewrite HE. cbn [obind fst snd]. unfold SlowCC.lsum. rewrite suml_map. reflexivity.
  - intros r Hr. destruct (HR r Hr) as [r' [E1 [_ V]]]. eauto.
Qed.
Print Assumptions C52_xccd_energy_and_residual.
Example C52_instance := C52_xccd_energy_and_residual 4 4 (i_fock 8) (i_tei 8) (mkT [4; 4; 4; 4]%nat (fun _ => 1)) (mkCalc "ccdTypeSlow" "XCCD(6)" 10 0 None 0 0 0)
  (i_amp 2 4 4) [("t2aa", i_amp 2 4 4)] None 2 (i_fock_ok 8) (i_tei_ok 8) eq_refl (i_amp_ok 2 4 4) eq_refl eq_refl ltac:(lia).

(** C34.  Whatever the label, the energy function and the residual function that the loop calls are those of one method. *)
Definition matching (e : option energy_fn) (r : option resid_fn) : bool :=
  match e, r with
  | Some E_t2energy, Some R_t2resid | Some E_t2energySlow, Some R_t2residSlow | Some E_ucc4, Some R_ucc4
  | Some E_ccsdSO, Some R_ccsdSO | Some E_fullCC, Some R_fullCC | None, None => true
  | _, _ => false
  end.
Theorem C34_energy_and_residual_match : forall c,
  matching (energy_call c) (resid_call c) = true /\
  (cc_label c = "ccdType" -> energy_call c = Some E_t2energy) /\
  (cc_label c = "fullCCType" -> energy_call c = Some E_fullCC) /\
  (cc_label c = "ccdTypeSlow" -> contains "UCC(4)" (cc_type c) = false -> contains "CCSD(Qf)" (cc_type c) = false -> energy_call c = Some E_t2energySlow) /\
  (cc_label c = "ccdTypeSlow" -> contains "UCC(4)" (cc_type c) = true -> energy_call c = Some E_ucc4).
Proof.
  intros c. unfold energy_call, resid_call. split; [|split; [|split; [|split]]].
  - destruct (cc_label c =? "ccdType"); [reflexivity|]. destruct (cc_label c =? "ccdTypeSlow"); [|destruct (cc_label c =? "fullCCType"); reflexivity].
    destruct (contains "UCC(4)" (cc_type c)); [reflexivity|]. destruct (contains "CCSD(Qf)" (cc_type c)); reflexivity.
  - intros ->. reflexivity.
  - intros ->. reflexivity.
  - intros -> -> ->. reflexivity.
  - intros -> ->. reflexivity.
Qed.
Print Assumptions C34_energy_and_residual_match.
Example C34_match_instance := C34_energy_and_residual_match (mkCalc "fullCCType" "CCSDT" 10 0 None 0 0 0).
