(** C31, C48, C49, C50: the older, function-based iteration loop run_ccd.ccd_kernel. *)
From Coq Require Import String Ascii List Arith ZArith QArith Qcanon Bool Lia.
From Coq Require Qcabs.
From Verif Require Import Sums Tensor Interp Numpy Spec Diis P_diis Kernel P_kernel P_driver Linear SlowCC SpinCC Legacy P_slow.
From Verif Require Code_t2residEqns Code_t2energy Code_modify_T2resid_T4Qf1 Code_modify_T2resid_T4Qf2 Code_modify_T2energy_pertQf.
Import ListNotations.
Open Scope string_scope.

(** ** C31: the loop never returns unconverged *)
Section C31.
  Variables na nb nva nvb : nat.
  Variables f_aa f_bb g_aaaa g_bbbb g_abab Daa Dbb Dab : tensor.
  Variable nucE : Qc.
  Variable dsize : option nat.
  Variable dstart : nat.
  Variable ty : string.
  Variable solve : solver.
  Variable diag : amps3 -> option amps3.
  Notation pass := (lpass na nb nva f_aa f_bb g_aaaa g_bbbb g_abab Daa Dbb Dab dsize ty solve diag).
  Notation energy := (lenergy na nb f_aa f_bb g_aaaa g_bbbb g_abab).
  Notation init := (linit na nb nva nvb dsize dstart).
  (** the state and the energy after k passes *)
  Fixpoint lafter (k : nat) : option (lstate * Qc) :=
    match k with
    | O => do e <- energy (lamps init); Some (init, e)
    | S k' => do se <- lafter k'; pass (fst se)
    end.
  Definition lconverged_at (k : nat) : Prop :=
    exists s e s' e', lafter k = Some (s, e) /\ lafter (k + 1) = Some (s', e') /\ (Qcabs.Qcabs (e - e') < Q2Qc (1 # 10 ^ 12))%Qc.

  Lemma lloop_spec : forall n k s e, lafter k = Some (s, e) ->
    match lloop na nb nva f_aa f_bb g_aaaa g_bbbb g_abab Daa Dbb Dab dsize ty solve diag n s e with
    | Some (s', e', t) => exists j sj ej, (k <= j < k + n)%nat /\ lafter j = Some (sj, ej) /\ lafter (j + 1) = Some (s', e') /\ t = lamps sj /\
        lconverged_at j /\ (forall i, (k <= i < j)%nat -> ~ lconverged_at i)
    | None => (exists j, (k <= j < k + n)%nat /\ lafter (j + 1) = None) \/ (forall i, (k <= i < k + n)%nat -> ~ lconverged_at i)
    end.
  Proof.
    induction n as [|n IH]; intros k s e HA; cbn [lloop]; [right; intros; lia|].
    destruct (pass s) as [[s1 e1]|] eqn:EP; cbn [obind fst snd].
    - assert (HA1 : lafter (k + 1) = Some (s1, e1)) by (rewrite Nat.add_1_r; cbn [lafter]; rewrite HA; exact EP).
      destruct (Qclt_le_dec _ _) as [Hlt|Hle].
      + exists k, s, e. split; [lia|]. split; [exact HA|]. split; [exact HA1|]. split; [reflexivity|]. split.
        * exists s, e, s1, e1. split; [exact HA|]. split; [exact HA1|exact Hlt].
        * intros; lia.
      + assert (NC : ~ lconverged_at k).
        { intros [x1 [x2 [x3 [x4 [X1 [X2 X3]]]]]]. rewrite HA in X1. injection X1 as <- <-. rewrite HA1 in X2. injection X2 as <- <-.
          exact (Qclt_not_le _ _ X3 Hle). }
        specialize (IH (k + 1)%nat s1 e1 HA1).
        destruct (lloop _ _ _ _ _ _ _ _ _ _ _ _ _ _ _ n s1 e1) as [[[s' e'] t]|].
        * destruct IH as [j [sj [ej [J1 [J2 [J3 [J4 [J5 J6]]]]]]]]. exists j, sj, ej. split; [lia|]. repeat (split; [assumption|]).
          intros i Hi. destruct (Nat.eq_dec i k) as [->|]; [exact NC|]. apply J6. lia.
        * destruct IH as [[j [J1 J2]]|J]; [left; exists j; split; [lia|exact J2]|]. right. intros i Hi.
          destruct (Nat.eq_dec i k) as [->|]; [exact NC|]. apply J. lia.
    - left. exists k. split; [lia|]. rewrite Nat.add_1_r. cbn [lafter]. rewrite HA. exact EP.
  Qed.
  Notation run_legacy := (legacy_kernel na nb nva nvb f_aa f_bb g_aaaa g_bbbb g_abab Daa Dbb Dab nucE dsize dstart ty solve diag).
  (** If the function returns, it stopped after the first pass whose energy change was below 1e-12, within 75 passes; it
      returns the amplitudes of that pass, and its energy plus the nuclear repulsion (plus the correction). *)
  Theorem C31_legacy_return : forall t tf co, run_legacy = Some (t, tf, co) ->
    exists k s e, (k < 75)%nat /\ lafter (k + 1) = Some (s, e) /\ lconverged_at k /\ (forall i, (i < k)%nat -> ~ lconverged_at i) /\
      t = lamps s /\ (if String.eqb ty "CCD(Qf)" then tf = e + nucE + co else tf = e + nucE)%Qc.
  Proof.
    intros t tf co. unfold legacy_kernel. destruct (energy (lamps init)) as [e0|] eqn:E0; cbn [obind]; [|discriminate].
    assert (H0 : lafter 0 = Some (init, e0)) by (cbn [lafter]; rewrite E0; reflexivity).
    pose proof (lloop_spec legacy_max_iter 0 init e0 H0) as L.
    destruct (lloop _ _ _ _ _ _ _ _ _ _ _ _ _ _ _ _ _ _) as [[[s e] tp]|]; cbn [obind]; [|discriminate].
    destruct L as [j [sj [ej [J1 [J2 [J3 [J4 [J5 J6]]]]]]]]. intros H. unfold legacy_max_iter in J1.
    exists j, s, e. split; [lia|]. split; [exact J3|]. split; [exact J5|]. split; [intros; apply J6; lia|].
    destruct (String.eqb ty "CCD(Qf)").
    - destruct (adjoint tp); cbn [obind] in H; [|discriminate]. destruct (call0 _ _); cbn [obind] in H; [|discriminate].
      injection H as <- <- <-. split; reflexivity.
    - injection H as <- <- _. split; reflexivity.
  Qed.
  (** If none of the first 75 passes changes the energy by less than 1e-12, it raises. *)
  Theorem C31_legacy_raises : (forall k, (k < 75)%nat -> ~ lconverged_at k) -> run_legacy = None.
  Proof.
    intros HN. destruct run_legacy as [[[t tf] co]|] eqn:E; [|reflexivity].
    destruct (C31_legacy_return _ _ _ E) as [k [s [e [H1 [_ [H2 _]]]]]]. destruct (HN k H1 H2).
  Qed.
  (** If the passes run without exceptions and one of the first 75 changes the energy by less than 1e-12, it returns
      (for the labels without a final correction). *)
  Theorem C31_legacy_returns : ty <> "CCD(Qf)" -> (forall k, exists s e, lafter k = Some (s, e)) ->
    (exists k, (k < 75)%nat /\ lconverged_at k) -> exists t tf co, run_legacy = Some (t, tf, co).
  Proof.
    intros HT HA [k [HK HC]]. unfold legacy_kernel. destruct (HA 0%nat) as [s0 [e0 H0]].
    pose proof H0 as H0'. cbn [lafter] in H0'. destruct (energy (lamps init)) as [e0'|]; cbn [obind] in *; [|discriminate].
    injection H0' as <- <-. pose proof (lloop_spec legacy_max_iter 0 init _ H0) as L.
    destruct (lloop _ _ _ _ _ _ _ _ _ _ _ _ _ _ _ _ _ _) as [[[s e] tp]|]; cbn [obind].
    - destruct (String.eqb_spec ty "CCD(Qf)"); [contradiction|]. eauto.
    - exfalso. unfold legacy_max_iter in L. destruct L as [[j [_ L]]|L]; [destruct (HA (j + 1)%nat) as [? [? X]]; congruence|].
      apply (L k); [lia|exact HC].
  Qed.
End C31.
Print Assumptions C31_legacy_return.
Print Assumptions C31_legacy_raises.
Print Assumptions C31_legacy_returns.

(** ** One pass of the older loop is one pass of the class-based loop *)
Definition ldict (t : amps3) : dict := [("t2aa", A_aa t); ("t2bb", A_bb t); ("t2ab", A_ab t)].
Section Sim.
  Variables no nv : nat.
  Variables f_aa f_bb g_aaaa g_bbbb g_abab Daa Dbb Dab : tensor.
  Variable dsize : option nat.
  Variable dstart : nat.
  Variable ty : string.
  Variable solve : solver.
  Variable diag : amps3 -> option amps3.
  Variable c : calc.
  Hypothesis Hdiag : forall n u, diag n = Some u -> shape (A_aa u) = [nv; nv; no; no] /\ shape (A_bb u) = [nv; nv; no; no] /\ shape (A_ab u) = [nv; nv; no; no].
  Hypothesis Hlab : cc_label c = "ccdType".
  Hypothesis Hkeys : vec_keys (cc_type c) = t2_keys.
  Hypothesis Hds : diis_size c = dsize.
  Hypothesis Hdd : diis_start c = dstart.
  Notation pass := (lpass no no nv f_aa f_bb g_aaaa g_bbbb g_abab Daa Dbb Dab dsize ty solve diag).
  (** the residual step of the older loop, on dictionaries *)
  Definition lres (d l2 : dict) : option dict :=
    do a <- slook "t2aa" d; do b <- slook "t2bb" d; do x <- slook "t2ab" d;
    do la <- slook "l2aa" l2; do lb <- slook "l2bb" l2; do lx <- slook "l2ab" l2;
    do r <- lresid no no nv f_aa f_bb g_aaaa g_bbbb g_abab Daa Dbb Dab ty (mkA la lb lx) (mkA a b x);
    do n <- lnew no nv Daa Dbb Dab ty r; Some (ldict n).
  Definition lresk (rf : resid_fn) (d l2 : dict) (w : unit) : option (dict * unit) := do d' <- lres d l2; Some (d', w).
  Notation it := (iteration unit solve lresk (fast_energy no no f_aa f_bb g_aaaa g_bbbb g_abab) c).
  Definition shapes3 (t : amps3) : Prop := shape (A_aa t) = [nv; nv; no; no] /\ shape (A_bb t) = [nv; nv; no; no] /\ shape (A_ab t) = [nv; nv; no; no].
  Definition ks (s : lstate) (l2 : dict) : kstate unit := mkSt unit (ldict (lamps s)) l2 (lvec s) (ldiis s) tt.

  Lemma tbin_shapes f a b r : tbin f a b = Some r -> shape r = shape a /\ shape a = shape b.
  Proof. intros H. apply tbin_inv in H. destruct H as [H ->]. split; [reflexivity|exact H]. Qed.
  Lemma shifted_shape f D x t r : shifted no no f_aa f_bb g_aaaa g_bbbb g_abab f D x t = Some r -> shape r = shape x /\ shape D = shape x.
  Proof.
    unfold shifted. destruct (call0 _ _) as [q|]; cbn [obind]; [|discriminate]. destruct (tbin Qcmult _ _) as [y|] eqn:E; cbn [obind]; [|discriminate].
    intros H. apply tbin_shapes in H, E. destruct H as [H1 H2], E as [E1 E2]. cbn [trecip shape] in E1, E2. split; congruence.
  Qed.
  Lemma lqf_shape f1 f2 l t r r' : lqf no g_aaaa g_bbbb g_abab ty f1 f2 l t r = Some r' -> shape r' = shape r.
  Proof.
    unfold lqf. destruct (String.eqb ty "CCDQf-1"); [|destruct (String.eqb ty "CCDQf-2")].
    - destruct (call0 f1 _); cbn [obind]; [|discriminate]. intros H. apply tbin_shapes in H. apply H.
    - destruct (call0 f1 _); cbn [obind]; [|discriminate]. destruct (call0 f2 _); cbn [obind]; [|discriminate].
      destruct (tbin _ _ _); cbn [obind]; [|discriminate]. intros H. apply tbin_shapes in H. apply H.
    - intros H. injection H as <-. reflexivity.
  Qed.
  Lemma pairs_shape n o r t : pairs_of n o r = Some t -> shape t = [n; n; o; o].
  Proof. unfold pairs_of. destruct (shape r) as [|? [|? [|? [|? [|]]]]]; try discriminate. destruct (_ || _)%bool; [|discriminate]. intros H. injection H as <-. reflexivity. Qed.
  Lemma lstep_shapes l t r n : shapes3 t -> lresid no no nv f_aa f_bb g_aaaa g_bbbb g_abab Daa Dbb Dab ty l t = Some r -> lnew no nv Daa Dbb Dab ty r = Some n -> shapes3 n.
  Proof.
    intros [S1 [S2 S3]] HR HN. unfold lresid in HR.
    destruct (shifted _ _ _ _ _ _ _ _ Daa _ _) as [raa|] eqn:Ea; cbn [obind] in HR; [|discriminate].
    destruct (shifted _ _ _ _ _ _ _ _ Dbb _ _) as [rbb|] eqn:Eb; cbn [obind] in HR; [|discriminate].
    destruct (shifted _ _ _ _ _ _ _ _ Dab _ _) as [rab|] eqn:Ex; cbn [obind] in HR; [|discriminate].
    apply shifted_shape in Ea, Eb, Ex. destruct Ea as [Ea Da], Eb as [Eb Db], Ex as [Ex Dx].
    destruct (lqf _ _ _ _ _ _ _ _ _ raa) as [qa|] eqn:Qa; cbn [obind] in HR; [|discriminate].
    destruct (lqf _ _ _ _ _ _ _ _ _ rbb) as [qb|] eqn:Qb; cbn [obind] in HR; [|discriminate].
    destruct (lqf _ _ _ _ _ _ _ _ _ rab) as [qx|] eqn:Qx; cbn [obind] in HR; [|discriminate].
    apply lqf_shape in Qa, Qb, Qx. rewrite Ea, S1 in Qa. rewrite Eb, S2 in Qb. rewrite Ex, S3 in Qx.
    assert (R3 : shapes3 r).
    { destruct (String.eqb ty "pCCD").
      - destruct (pairs_of _ _ qa); cbn [obind] in HR; [|discriminate]. destruct (pairs_of _ _ qb); cbn [obind] in HR; [|discriminate].
        destruct (pairs_of _ _ qx) as [px|] eqn:Ep; cbn [obind] in HR; [|discriminate]. apply pairs_shape in Ep. injection HR as <-.
        split; [exact Qa|]. split; [exact Qb|exact Ep].
      - injection HR as <-. split; [exact Qa|]. split; [exact Qb|exact Qx]. }
    unfold lnew in HN. destruct R3 as [R1 [R2 R3]].
    destruct (tbin Qcmult (A_aa r) Daa) as [naa|] eqn:Na; cbn [obind] in HN; [|discriminate].
    destruct (tbin Qcmult (A_bb r) Dbb) as [nbb|] eqn:Nb; cbn [obind] in HN; [|discriminate].
    destruct (tbin Qcmult (A_ab r) Dab) as [nab|] eqn:Nx; cbn [obind] in HN; [|discriminate].
    apply tbin_shapes in Na, Nb, Nx. destruct Na as [Na _], Nb as [Nb _], Nx as [Nx _]. rewrite R1 in Na. rewrite R2 in Nb. rewrite R3 in Nx.
    destruct (String.eqb ty "pCCD").
    - cbv zeta in HN. destruct (pairs_of nv no (A_ab r)) as [px|] eqn:Ep; cbn [obind] in HN; [|discriminate]. apply pairs_shape in Ep.
      destruct (tbin Qcmult px Dab) as [ny|] eqn:Ny; cbn [obind] in HN; [|discriminate]. apply tbin_shapes in Ny. injection HN as <-.
      split; [exact Na|]. split; [exact Na|]. destruct Ny as [Ny _]. cbn [A_ab]. congruence.
    - injection HN as <-. split; [exact Na|]. split; [exact Nb|exact Nx].
  Qed.
  Lemma adjoint_l2 t l : adjoint t = Some l -> l2_of (ldict t) = Some [("l2aa", A_aa l); ("l2bb", A_bb l); ("l2ab", A_ab l)].
  Proof.
    unfold adjoint, l2_of, ldict. cbn [slook String.eqb Ascii.eqb Bool.eqb obind].
    destruct (ttransp _ (A_aa t)); cbn [obind]; [|discriminate]. destruct (ttransp _ (A_bb t)); cbn [obind]; [|discriminate].
    destruct (ttransp _ (A_ab t)); cbn [obind]; [|discriminate]. intros H. injection H as <-. reflexivity.
  Qed.
  Lemma sim s s' e l2 : shapes3 (lamps s) -> pass s = Some (s', e) -> exists l2', it (ks s l2) = Some (ks s' l2', e) /\ shapes3 (lamps s').
  Proof.
    intros HS. unfold lpass. destruct (adjoint (lamps s)) as [l|] eqn:EL; cbn [obind]; [|discriminate].
    destruct (lresid _ _ _ _ _ _ _ _ _ _ _ _ _ _) as [r|] eqn:ER; cbn [obind]; [|discriminate].
    destruct (lnew _ _ _ _ _ _ _) as [n|] eqn:EN; cbn [obind]; [|discriminate].
    pose proof (lstep_shapes _ _ _ _ HS ER EN) as NS.
    destruct (if String.eqb ty "DiagCCD" then diag n else Some (lamps s)) as [cur|] eqn:EC; cbn [obind]; [|discriminate].
    assert (CS : shapes3 cur). { destruct (String.eqb ty "DiagCCD"); [apply Hdiag in EC; exact EC|injection EC as <-; exact HS]. }
    destruct (ldiis_block _ _ _ _ _) as [[[x y] z]|] eqn:ED; cbn [obind fst snd]; [|discriminate].
    destruct (lenergy _ _ _ _ _ _ _ _) as [e1|] eqn:EE; cbn [obind]; [|discriminate]. intros H. injection H as <- <-.
    exists [("l2aa", A_aa l); ("l2bb", A_bb l); ("l2ab", A_ab l)].
    unfold iteration. cbn [ks amps]. rewrite (adjoint_l2 _ _ EL). cbn [obind].
    unfold resid_call. rewrite Hlab. change ("ccdType" =? "ccdType") with true. cbn iota. cbn [obind].
    assert (EQ : lresk R_t2resid (ldict (lamps s)) [("l2aa", A_aa l); ("l2bb", A_bb l); ("l2ab", A_ab l)] tt = Some (ldict n, tt)).
    { unfold lresk, lres, ldict. cbn [slook String.eqb Ascii.eqb Bool.eqb obind]. destruct (lamps s) as [t1 t2 t3], l as [l1 l2' l3]. cbn [A_aa A_bb A_ab] in *.
      rewrite ER. cbn [obind]. rewrite EN. reflexivity. }
    cbn [world]. change (world unit (ks s l2)) with tt. rewrite EQ. cbn [obind fst snd].
    assert (DB : diis_block unit solve c (mkSt unit (ldict n) [("l2aa", A_aa l); ("l2bb", A_bb l); ("l2ab", A_ab l)] (lvec s) (ldiis s) tt) =
      Some (mkSt unit (ldict x) [("l2aa", A_aa l); ("l2bb", A_bb l); ("l2ab", A_ab l)] y z tt) /\ shapes3 x).
    { unfold diis_block. unfold ldiis_block in ED. rewrite Hds, Hkeys. destruct dsize as [m|].
      - cbn [amps old_vec dstate l2amps world].
        assert (EV : vectorise t2_keys (ldict n) = Some (stack3 n)) by reflexivity. rewrite EV. cbn [obind].
        destruct (vbin _ _ _) as [er|]; cbn [obind] in *; [|discriminate].
        destruct (compute_new_vec _ _ _ _) as [[v d]|]; cbn [obind fst snd] in *; [|discriminate].
        destruct (unstack3 cur v) as [u|] eqn:EU; cbn [obind] in ED; [|discriminate]. injection ED as <- <- <-.
        destruct CS as [C1 [C2 C3]], NS as [N1 [N2 N3]]. unfold unstack3 in EU. rewrite C1, C2, C3 in EU.
        unfold t2_keys, ldict. cbn [unvectorise slook sset String.eqb Ascii.eqb Bool.eqb obind]. rewrite N1, N2, N3. cbn [Nat.add].
        destruct (reshape _ (vslice 0 _ _)) as [u1|] eqn:R1; cbn [obind] in *; [|discriminate].
        cbn [slook sset String.eqb Ascii.eqb Bool.eqb obind].
        destruct (reshape _ (vslice _ (_ + _) _)) as [u2|] eqn:R2; cbn [obind] in *; [|discriminate].
        cbn [slook sset String.eqb Ascii.eqb Bool.eqb obind].
        destruct (reshape _ (vfrom _ _)) as [u3|] eqn:R3; cbn [obind] in *; [|discriminate]. injection EU as <-. split; [reflexivity|].
        assert (RS : forall sh v t, reshape sh v = Some t -> shape t = sh).
        { intros sh v0 t0. unfold reshape. destruct (Nat.eqb _ _); [|discriminate]. intros H. injection H as <-. reflexivity. }
        apply RS in R1, R2, R3. split; [exact R1|split; [exact R2|exact R3]].
      - injection ED as <- <- <-. split; [reflexivity|exact NS]. }
    destruct DB as [DB XS]. cbn [ks old_vec dstate]. change (old_vec unit (ks s l2)) with (lvec s). change (dstate unit (ks s l2)) with (ldiis s). rewrite DB. cbn [obind amps world].
    unfold energy_call. rewrite Hlab. change ("ccdType" =? "ccdType") with true. cbn iota. cbn [obind].
    assert (EX : fast_energy no no f_aa f_bb g_aaaa g_bbbb g_abab E_t2energy (ldict x) tt = Some (e1, tt)).
    { unfold fast_energy, t2energy_fast, ldict. cbn [slook String.eqb Ascii.eqb Bool.eqb obind]. unfold lenergy, largs in EE. 
      destruct (call0 _ _); cbn [obind] in *; [|discriminate]. injection EE as <-. reflexivity. }
    rewrite EX. cbn [obind fst snd l2amps old_vec dstate]. split; [reflexivity|exact XS].
  Qed.
End Sim.

(** ** C48: the older loop and the class-based loop agree *)
Section Agree.
  Variables no nv : nat.
  Variables f_aa f_bb g_aaaa g_bbbb g_abab Daa Dbb Dab : tensor.
  Variable dsize : option nat.
  Variable dstart : nat.
  Variables nucE hfE : Qc.
  Variable ty : string.
  Variable solve : solver.
  Variable diag : amps3 -> option amps3.
  Hypothesis Hdiag : forall n u, diag n = Some u -> shape (A_aa u) = [nv; nv; no; no] /\ shape (A_bb u) = [nv; nv; no; no] /\ shape (A_ab u) = [nv; nv; no; no].
  Hypothesis Hty : ty = "CCD" \/ ty = "DiagCCD".
  Definition class_calc : calc := mkCalc "ccdType" "CCD" 75 (Q2Qc (1 # 10 ^ 12)) dsize dstart nucE hfE.
  Notation c := class_calc.
  Lemma lres_fast rf d l2 w d' : rf = R_t2resid -> lresk no nv f_aa f_bb g_aaaa g_bbbb g_abab Daa Dbb Dab ty rf d l2 w = Some d' ->
    fast_resid no no f_aa f_bb g_aaaa g_bbbb g_abab Daa Dbb Dab c rf d l2 w = Some d'.
  Proof.
    intros -> H. unfold lresk, lres in H. unfold fast_resid, t2resid_fast.
    destruct (slook "t2aa" d) as [a|]; cbn [obind] in *; [|discriminate]. destruct (slook "t2bb" d) as [b|]; cbn [obind] in *; [|discriminate].
    destruct (slook "t2ab" d) as [x|]; cbn [obind] in *; [|discriminate]. destruct (slook "l2aa" l2) as [la|]; cbn [obind] in *; [|discriminate].
    destruct (slook "l2bb" l2) as [lb|]; cbn [obind] in *; [|discriminate]. destruct (slook "l2ab" l2) as [lx|]; cbn [obind] in *; [|discriminate].
    assert (Q : forall f1 f2 l t r, lqf no g_aaaa g_bbbb g_abab ty f1 f2 l t r = Some r) by (intros; unfold lqf; destruct Hty as [-> | ->]; reflexivity).
    assert (NP : (ty =? "pCCD") = false) by (destruct Hty as [-> | ->]; reflexivity).
    unfold lresid, shifted, largs in H. cbn [A_aa A_bb A_ab] in H. cbv zeta.
    destruct (call0 Code_t2residEqns.ccd_t2_aaaa_residual _) as [ra|]; cbn [obind] in *; [|discriminate].
    destruct (tbin Qcmult (trecip Daa) a) as [ya|] eqn:E1; cbn [obind] in *; [|discriminate].
    destruct (tbin Qcplus ra ya) as [sa|] eqn:E2; cbn [obind] in *; [|discriminate].
    destruct (call0 Code_t2residEqns.ccd_t2_bbbb_residual _) as [rb|]; cbn [obind] in *; [|discriminate].
    destruct (tbin Qcmult (trecip Dbb) b) as [yb|] eqn:E3; cbn [obind] in *; [|discriminate].
    destruct (tbin Qcplus rb yb) as [sb|] eqn:E4; cbn [obind] in *; [|discriminate].
    destruct (call0 Code_t2residEqns.ccd_t2_abab_residual _) as [rx|]; cbn [obind] in *; [|discriminate].
    destruct (tbin Qcmult (trecip Dab) x) as [yx|] eqn:E5; cbn [obind] in *; [|discriminate].
    destruct (tbin Qcplus rx yx) as [sx|] eqn:E6; cbn [obind] in *; [|discriminate].
    rewrite !Q in H. cbn [obind] in H. rewrite NP in H. cbn [obind] in H. unfold lnew in H. rewrite NP in H. cbn [A_aa A_bb A_ab] in H.
    unfold qf_part, update. cbn [cc_type class_calc]. change ("CCD" =? "CCDQf-1") with false. change ("CCD" =? "CCDQf-2") with false. cbn iota. cbn [obind].
    rewrite E1. cbn [obind]. rewrite E2. cbn [obind]. destruct (tbin Qcmult sa Daa) as [na|]; cbn [obind] in *; [|discriminate].
    rewrite E3. cbn [obind]. rewrite E4. cbn [obind]. destruct (tbin Qcmult sb Dbb) as [nb|]; cbn [obind] in *; [|discriminate].
    rewrite E5. cbn [obind]. rewrite E6. cbn [obind]. destruct (tbin Qcmult sx Dab) as [nx|]; cbn [obind] in *; [|discriminate]. exact H.
  Qed.
  Notation fres := (fast_resid no no f_aa f_bb g_aaaa g_bbbb g_abab Daa Dbb Dab c).
  Notation fen := (fast_energy no no f_aa f_bb g_aaaa g_bbbb g_abab).
  Notation pass := (lpass no no nv f_aa f_bb g_aaaa g_bbbb g_abab Daa Dbb Dab dsize ty solve diag).
  Lemma pass_fast s s' e l2 : shapes3 no nv (lamps s) -> pass s = Some (s', e) ->
    exists l2', iteration unit solve fres fen c (ks s l2) = Some (ks s' l2', e) /\ shapes3 no nv (lamps s').
  Proof.
    intros HS HP. destruct (sim no nv f_aa f_bb g_aaaa g_bbbb g_abab Daa Dbb Dab dsize ty solve diag c Hdiag eq_refl eq_refl eq_refl s s' e l2 HS HP) as [l2' [HI HS']].
    exists l2'. split; [|exact HS']. rewrite <- HI. unfold iteration.
    destruct (l2_of _) as [l|] eqn:EL; cbn [obind]; [|reflexivity]. change (resid_call c) with (Some R_t2resid). cbn [obind].
    unfold iteration in HI. rewrite EL in HI. change (resid_call c) with (Some R_t2resid) in HI. cbn [obind] in HI.
    destruct (lresk _ _ _ _ _ _ _ _ _ _ _ R_t2resid _ _ _) as [[d w]|] eqn:ER; cbn [obind] in HI; [|discriminate].
    rewrite (lres_fast _ _ _ _ _ eq_refl ER). reflexivity.
  Qed.
  Lemma loop_fast : forall n s old s' e t l2 idx cur, shapes3 no nv (lamps s) -> (idx + n <= 75)%nat ->
    lloop no no nv f_aa f_bb g_aaaa g_bbbb g_abab Daa Dbb Dab dsize ty solve diag n s old = Some (s', e, t) ->
    exists l2', loop unit solve fres fen c n idx (ks s l2) old cur = LDone unit (ks s' l2') (Some e) /\ shapes3 no nv (lamps s').
  Proof.
    induction n as [|n IH]; intros s old s' e t l2 idx cur HS HI HL; cbn [lloop] in HL; [discriminate|].
    destruct (pass s) as [[s1 e1]|] eqn:EP; cbn [obind fst snd] in HL; [|discriminate].
    destruct (pass_fast s s1 e1 l2 HS EP) as [l2' [EI HS1]]. cbn [loop]. rewrite (proj2 (Nat.ltb_ge 75 idx)) by lia. rewrite EI.
    unfold legacy_eps in HL. change (stopping_eps c) with (Q2Qc (1 # 10 ^ 12)). change (1 # 10 ^ 12) with (1 # 1000000000000).
    destruct (Qclt_le_dec _ _).
    - injection HL as <- <- <-. exists l2'. split; [reflexivity|exact HS1].
    - change (max_iter c) with 75%nat. rewrite (proj2 (Nat.ltb_ge 75 idx)) by lia. apply (IH s1 e1 s' e t); try assumption. lia.
  Qed.
  Theorem C48_legacy_matches_class : forall t tf co, (0 < no)%nat -> (0 < nv)%nat ->
    legacy_kernel no no nv nv f_aa f_bb g_aaaa g_bbbb g_abab Daa Dbb Dab nucE dsize dstart ty solve diag = Some (t, tf, co) ->
    fast_kernel no no nv f_aa f_bb g_aaaa g_bbbb g_abab Daa Dbb Dab c solve =
      Returned [("t2aa", A_aa t); ("t2bb", A_bb t); ("t2ab", A_ab t)] tf (tf - hfE)%Qc.
  Proof.
    intros t tf co HO HV. unfold legacy_kernel. set (i := linit no no nv nv dsize dstart).
    destruct (lenergy _ _ _ _ _ _ _ (lamps i)) as [e0|] eqn:E0; cbn [obind]; [|discriminate].
    destruct (lloop _ _ _ _ _ _ _ _ _ _ _ _ _ _ _ _ _ _) as [[[s e] tp]|] eqn:EL; cbn [obind]; [|discriminate].
    assert (NQ : (ty =? "CCD(Qf)") = false) by (destruct Hty as [-> | ->]; reflexivity). rewrite NQ. intros H. injection H as <- <- <-.
    assert (HS : shapes3 no nv (lamps i)) by (repeat split).
    destruct (loop_fast legacy_max_iter i e0 s e tp [] 0 None HS (Nat.le_refl 75) EL) as [l2' [HL [S1 [S2 S3]]]].
    unfold fast_kernel, kernel.
    assert (ST : start unit fen (fun d => Some d) c (fast_init no nv c) (fast_old no nv c) tt = Some (ks i [], e0)).
    { unfold start. change (cc_label c =? "ccdTypeSlow") with false. cbn iota. cbn [obind]. change (energy_call c) with (Some E_t2energy). cbn [obind].
      assert (FI : fast_init no nv c = ldict (lamps i)). { unfold fast_init. change (diis_size c) with dsize. change (contains "UCC(4)" (cc_type c)) with false. destruct dsize; reflexivity. }
      assert (FE : fen E_t2energy (ldict (lamps i)) tt = Some (e0, tt)).
      { unfold fast_energy, t2energy_fast, ldict. cbn [slook String.eqb Ascii.eqb Bool.eqb obind]. unfold lenergy, largs in E0.
        destruct (call0 _ _); cbn [obind] in *; [|discriminate]. injection E0 as <-. reflexivity. }
      unfold fast_old. rewrite FI, FE. cbn [obind fst snd]. reflexivity. }
    rewrite ST. change (max_iter c) with legacy_max_iter. rewrite HL.
    assert (PR : printable (amps unit (ks s l2')) = true).
    { unfold printable, ks, ldict. cbn [amps slook String.eqb Ascii.eqb Bool.eqb]. rewrite S1.
      rewrite (proj2 (Nat.ltb_lt 0 no)), (proj2 (Nat.ltb_lt 0 nv)) by assumption. reflexivity. }
    rewrite PR. unfold finalize, is_qf. change (cc_type c) with "CCD". change (existsb (String.eqb "CCD") qf_types) with false.
    change (contains "UT2" "CCD") with false. change (negb ("CCD" =? "CCD(Qf)")) with true. cbn iota. cbn [obind fst snd]. unfold class_calc. cbn [Kernel.nucE Kernel.hf_energy].
    cbn [ks amps]. unfold ldict. f_equal. ring.
  Qed.
End Agree.
Print Assumptions C48_legacy_matches_class.

(** ** C50: the label "DiagCCD" *)
(** Whatever the eigenvalue step computes, as long as it does not raise and gives arrays of the right shape, the label
    "DiagCCD" gives exactly the result of "CCD": the diagonalised arrays are never used. *)
Section Diag.
  Variables no nv : nat.
  Variables f_aa f_bb g_aaaa g_bbbb g_abab Daa Dbb Dab : tensor.
  Variable dsize : option nat.
  Variable dstart : nat.
  Variable nucE : Qc.
  Variable solve : solver.
  Variables diag diag' : amps3 -> option amps3.
  Hypothesis Hdiag : forall n, exists u, diag n = Some u /\ shape (A_aa u) = [nv; nv; no; no] /\ shape (A_bb u) = [nv; nv; no; no] /\ shape (A_ab u) = [nv; nv; no; no].
  Notation pass d ty := (lpass no no nv f_aa f_bb g_aaaa g_bbbb g_abab Daa Dbb Dab dsize ty solve d).
  Lemma diag_shapes n u : diag n = Some u -> shape (A_aa u) = [nv; nv; no; no] /\ shape (A_bb u) = [nv; nv; no; no] /\ shape (A_ab u) = [nv; nv; no; no].
  Proof. intros H. destruct (Hdiag n) as [u' [E X]]. assert (u' = u) as -> by congruence. exact X. Qed.
  Lemma diag_pass s : shapes3 no nv (lamps s) -> pass diag "DiagCCD" s = pass diag' "CCD" s.
  Proof.
    intros [S1 [S2 S3]]. unfold lpass. destruct (adjoint (lamps s)) as [l|]; cbn [obind]; [|reflexivity].
    change (lresid no no nv f_aa f_bb g_aaaa g_bbbb g_abab Daa Dbb Dab "DiagCCD" l (lamps s)) with (lresid no no nv f_aa f_bb g_aaaa g_bbbb g_abab Daa Dbb Dab "CCD" l (lamps s)).
    destruct (lresid _ _ _ _ _ _ _ _ _ _ _ _ _ _) as [r|]; cbn [obind]; [|reflexivity].
    change (lnew no nv Daa Dbb Dab "DiagCCD" r) with (lnew no nv Daa Dbb Dab "CCD" r).
    destruct (lnew _ _ _ _ _ _ _) as [n|]; cbn [obind]; [|reflexivity].
    change ("DiagCCD" =? "DiagCCD") with true. change ("CCD" =? "DiagCCD") with false. cbn iota.
    destruct (Hdiag n) as [u [-> [U1 [U2 U3]]]]. cbn [obind].
    assert (X : ldiis_block dsize solve u n s = ldiis_block dsize solve (lamps s) n s); [|rewrite X; reflexivity].
    unfold ldiis_block, unstack3. destruct dsize; [|reflexivity]. rewrite U1, U2, U3, S1, S2, S3. reflexivity.
  Qed.
  Lemma diag_loop : forall n s old, shapes3 no nv (lamps s) ->
    lloop no no nv f_aa f_bb g_aaaa g_bbbb g_abab Daa Dbb Dab dsize "DiagCCD" solve diag n s old =
    lloop no no nv f_aa f_bb g_aaaa g_bbbb g_abab Daa Dbb Dab dsize "CCD" solve diag' n s old.
  Proof.
    induction n as [|n IH]; intros s old HS; cbn [lloop]; [reflexivity|]. rewrite (diag_pass s HS).
    destruct (pass diag' "CCD" s) as [[s1 e1]|] eqn:EP; cbn [obind fst snd]; [|reflexivity]. destruct (Qclt_le_dec _ _); [reflexivity|].
    apply IH. rewrite <- (diag_pass s HS) in EP.
    destruct (pass_fast no nv f_aa f_bb g_aaaa g_bbbb g_abab Daa Dbb Dab dsize dstart 0 0 "DiagCCD" solve diag diag_shapes (or_intror eq_refl) s s1 e1 [] HS EP) as [_ [_ H]]. exact H.
  Qed.
  Theorem C50_DiagCCD_is_CCD_refuted :
    legacy_kernel no no nv nv f_aa f_bb g_aaaa g_bbbb g_abab Daa Dbb Dab nucE dsize dstart "DiagCCD" solve diag =
    legacy_kernel no no nv nv f_aa f_bb g_aaaa g_bbbb g_abab Daa Dbb Dab nucE dsize dstart "CCD" solve diag'.
  Proof.
    unfold legacy_kernel. destruct (lenergy _ _ _ _ _ _ _ _); cbn [obind]; [|reflexivity].
    rewrite diag_loop by (repeat split). reflexivity.
  Qed.
End Diag.
Print Assumptions C50_DiagCCD_is_CCD_refuted.

(** ** C49: the older pCCD keeps only pair amplitudes *)
(** an array of shape (nv, nv, no, no) with entries only at [a,a,i,i] *)
Definition pair_array (no nv : nat) (t : tensor) : Prop :=
  shape t = [nv; nv; no; no] /\ forall a b i j, inr [a; b; i; j] (shape t) -> (a <> b \/ i <> j) -> data t [a; b; i; j] = 0%Qc.
Definition zero_array (no nv : nat) (t : tensor) : Prop :=
  shape t = [nv; nv; no; no] /\ forall idx, inr idx (shape t) -> data t idx = 0%Qc.
Section Pairs.
  Variables no nv : nat.
  Variables f_aa f_bb g_aaaa g_bbbb g_abab Daa Dbb Dab : tensor.
  Variable dsize : option nat.
  Variable dstart : nat.
  Variable solve : solver.
  Variable diag : amps3 -> option amps3.
  Definition Ppair (k : string) (t : tensor) : Prop := if String.eqb k "t2ab" then pair_array no nv t else zero_array no nv t.
  Notation c := (class_calc dsize dstart 0 0).
  Lemma Ppair_shape k t : Ppair k t -> shape t = [nv; nv; no; no].
  Proof. unfold Ppair. destruct (String.eqb k "t2ab"); intros [H _]; exact H. Qed.
  Lemma Ppair_teq k t u : Ppair k t -> teq u t -> Ppair k u.
  Proof.
    unfold Ppair. destruct (String.eqb k "t2ab"); intros [H1 H2] [E1 E2]; (split; [congruence|]).
    - intros a b i j I N. rewrite E2 by exact I. apply H2; [rewrite <- E1; exact I|exact N].
    - intros idx I. rewrite E2 by exact I. apply H2. rewrite <- E1. exact I.
  Qed.
  Lemma Ppair_lin k n co ts : (forall i, (i < n)%nat -> Ppair k (ts i)) -> Ppair k (lincomb [nv; nv; no; no] n co ts).
  Proof.
    unfold Ppair. destruct (String.eqb k "t2ab"); intros H; (split; [reflexivity|]); cbn [lincomb shape data].
    - intros a b i j I N. apply suml_zero. intros m Hm. apply in_seq in Hm. destruct (H m) as [S Z]; [lia|]. rewrite Z; [ring|rewrite S; exact I|exact N].
    - intros idx I. apply suml_zero. intros m Hm. apply in_seq in Hm. destruct (H m) as [S Z]; [lia|]. rewrite Z; [ring|rewrite S; exact I].
  Qed.
  Lemma pairs_pair r t : pairs_of nv no r = Some t -> pair_array no nv t.
  Proof.
    intros H. split; [eapply pairs_shape; exact H|]. intros a b i j _ N. revert H. unfold pairs_of.
    destruct (shape r) as [|? [|? [|? [|? [|]]]]]; try discriminate. destruct (_ || _)%bool; [|discriminate].
    intros H. injection H as <-. cbn [data]. destruct (Nat.eqb_spec a b), (Nat.eqb_spec i j); cbn [andb]; try reflexivity. destruct N; contradiction.
  Qed.
  Lemma lres_pair rf d l2 w d' w' : resid_call c = Some rf -> gooddict Ppair d -> l2_of d = Some l2 ->
    lresk no nv f_aa f_bb g_aaaa g_bbbb g_abab Daa Dbb Dab "pCCD" rf d l2 w = Some (d', w') -> gooddict Ppair d'.
  Proof.
    intros _ HG _. unfold lresk, lres.
    destruct (slook "t2aa" d) as [a|] eqn:Da; cbn [obind]; [|discriminate]. destruct (slook "t2bb" d) as [b|] eqn:Db; cbn [obind]; [|discriminate].
    destruct (slook "t2ab" d) as [x|] eqn:Dx; cbn [obind]; [|discriminate]. destruct (slook "l2aa" l2) as [la|]; cbn [obind]; [|discriminate].
    destruct (slook "l2bb" l2) as [lb|]; cbn [obind]; [|discriminate]. destruct (slook "l2ab" l2) as [lx|]; cbn [obind]; [|discriminate].
    destruct (lresid _ _ _ _ _ _ _ _ _ _ _ _ _ _) as [r|] eqn:ER; cbn [obind]; [|discriminate].
    destruct (lnew _ _ _ _ _ _ r) as [n|] eqn:EN; cbn [obind]; [|discriminate]. intros H. injection H as <- _.
    assert (NS : shapes3 no nv n).
    { eapply lstep_shapes; [|exact ER|exact EN]. split; [|split]; eapply Ppair_shape; apply HG; eassumption. }
    unfold lnew in EN. change ("pCCD" =? "pCCD") with true in EN. cbn iota in EN.
    destruct (tbin Qcmult (A_aa r) Daa) as [naa|]; cbn [obind] in EN; [|discriminate].
    destruct (tbin Qcmult (A_bb r) Dbb) as [nbb|]; cbn [obind] in EN; [|discriminate].
    destruct (tbin Qcmult (A_ab r) Dab) as [nab|]; cbn [obind] in EN; [|discriminate]. cbv zeta in EN.
    destruct (pairs_of nv no (A_ab r)) as [px|] eqn:Ep; cbn [obind] in EN; [|discriminate].
    destruct (tbin Qcmult px Dab) as [ny|] eqn:Ny; cbn [obind] in EN; [|discriminate]. injection EN as <-.
    destruct NS as [N1 [_ N3]]. cbn [A_aa A_ab] in N1, N3.
    assert (Z : zero_array no nv (tscale 0 naa)) by (split; [exact N1|]; intros idx _; cbn [tscale data]; ring).
    assert (PP : pair_array no nv ny).
    { split; [exact N3|]. intros p q i j I N. apply pairs_pair in Ep. destruct Ep as [Sp Zp]. apply tbin_inv in Ny. destruct Ny as [_ ->]. cbn [data].
      rewrite Zp; [ring|rewrite Sp; rewrite N3 in I; exact I|exact N]. }
    intros k t Hk. unfold ldict in Hk. cbn [slook A_aa A_bb A_ab] in Hk. unfold Ppair.
    destruct (String.eqb_spec k "t2aa") as [->|]; [injection Hk as <-; exact Z|].
    destruct (String.eqb_spec k "t2bb") as [->|]; [injection Hk as <-; exact Z|].
    destruct (String.eqb_spec k "t2ab") as [->|]; [injection Hk as <-; exact PP|discriminate].
  Qed.
  Hypothesis Hdiag : forall n u, diag n = Some u -> shape (A_aa u) = [nv; nv; no; no] /\ shape (A_bb u) = [nv; nv; no; no] /\ shape (A_ab u) = [nv; nv; no; no].
  Theorem C49_legacy_pCCD_pairs : forall k s e,
    lafter no no nv nv f_aa f_bb g_aaaa g_bbbb g_abab Daa Dbb Dab dsize dstart "pCCD" solve diag k = Some (s, e) ->
    zero_array no nv (A_aa (lamps s)) /\ zero_array no nv (A_bb (lamps s)) /\ pair_array no nv (A_ab (lamps s)).
  Proof.
    assert (K : forall k s e, lafter no no nv nv f_aa f_bb g_aaaa g_bbbb g_abab Daa Dbb Dab dsize dstart "pCCD" solve diag k = Some (s, e) ->
      shapes3 no nv (lamps s) /\ exists l2, okstate Ppair unit c (gooddict Ppair) (ks s l2)).
    { induction k as [|k IH]; intros s e; cbn [lafter].
      - destruct (lenergy _ _ _ _ _ _ _ _); cbn [obind]; [|discriminate]. intros H. injection H as <- _. split; [repeat split|]. exists [].
        split; [|constructor]. intros k t Hk. cbn [ks amps ldict linit lamps slook A_aa A_bb A_ab] in Hk. unfold Ppair.
        destruct (String.eqb_spec k "t2aa") as [->|]; [injection Hk as <-; split; reflexivity|].
        destruct (String.eqb_spec k "t2bb") as [->|]; [injection Hk as <-; split; reflexivity|].
        destruct (String.eqb_spec k "t2ab") as [->|]; [injection Hk as <-; split; reflexivity|discriminate].
      - destruct (lafter _ _ _ _ _ _ _ _ _ _ _ _ _ _ _ _ _ k) as [[s1 e1]|] eqn:EA; cbn [obind fst]; [|discriminate]. intros HP.
        destruct (IH _ _ eq_refl) as [S1 [l2 O1]].
        destruct (sim no nv f_aa f_bb g_aaaa g_bbbb g_abab Daa Dbb Dab dsize "pCCD" solve diag c Hdiag eq_refl eq_refl eq_refl s1 s e l2 S1 HP) as [l2' [HI HS]].
        split; [exact HS|]. exists l2'.
        exact (proj1 (okstate_iteration (fun _ => [nv; nv; no; no]) Ppair Ppair_shape Ppair_teq Ppair_lin unit solve _ _ c (gooddict Ppair) (fun d H => H) lres_pair _ _ _ O1 HI)). }
    intros k s e H. destruct (K k s e H) as [_ [l2 [G _]]]. cbn [ks amps] in G.
    split; [exact (G "t2aa" _ eq_refl)|]. split; [exact (G "t2bb" _ eq_refl)|exact (G "t2ab" _ eq_refl)].
  Qed.
End Pairs.
Print Assumptions C49_legacy_pCCD_pairs.

(** *** Instances: one occupied and one virtual orbital per spin *)
Definition l_small : Qc := Q2Qc (1 # 10000000).
Definition l_g : tensor := mkT [2; 2; 2; 2]%nat (fun idx => match idx with [0; 0; 1; 1] | [1; 1; 0; 0] => l_small | [0; 0; 0; 0] => Q2Qc (1 # 2) | _ => 0%Qc end)%nat.
Definition l_f : tensor := mkT [2; 2]%nat (fun idx => match idx with [0; 0] => Q2Qc (-1 # 1) | [1; 1] => Q2Qc (1 # 1) | _ => 0%Qc end)%nat.
Definition l_D : tensor := mkT [1; 1; 1; 1]%nat (fun _ => Q2Qc (-1 # 4)).
Definition l_run (ty : string) (ds : option nat) : option (amps3 * Qc * Qc) :=
  legacy_kernel 1 1 1 1 l_f l_f (tzeros [2; 2; 2; 2]%nat) (tzeros [2; 2; 2; 2]%nat) l_g l_D l_D l_D (Q2Qc (3 # 1)) ds 1 ty (fun _ _ _ => None) (fun n => Some n).
Definition l_test (r : option (amps3 * Qc * Qc)) : bool :=
  match r with
  | Some (t, tf, co) => (negb (Qeq_bool (data (A_ab t) [0; 0; 0; 0]%nat) 0) && Qeq_bool (data (A_aa t) [0; 0; 0; 0]%nat) 0)%bool
  | None => false
  end.
(** it returns, with a nonzero amplitude *)
Example C31_instance : l_test (l_run "CCD" None) = true /\ l_test (l_run "CCD" (Some 5%nat)) = true /\ l_test (l_run "pCCD" (Some 5%nat)) = true /\
  l_test (l_run "CCD(Qf)" None) = true.
Proof. vm_compute. auto. Qed.
Lemma l_test_some r : l_test r = true -> exists t tf co, r = Some (t, tf, co).
Proof. destruct r as [[[t tf] co]|]; [eauto|discriminate]. Qed.
Example C48_instance : exists t tf,
  fast_kernel 1 1 1 l_f l_f (tzeros [2; 2; 2; 2]%nat) (tzeros [2; 2; 2; 2]%nat) l_g l_D l_D l_D (class_calc (Some 5%nat) 1 (Q2Qc (3 # 1)) (Q2Qc (2 # 1))) (fun _ _ _ => None) =
  Returned (ldict t) tf (tf - Q2Qc (2 # 1))%Qc.
Proof.
  destruct (l_test_some _ (proj1 (proj2 C31_instance))) as [t [tf [co E]]]. exists t, tf.
  apply (C48_legacy_matches_class 1 1 l_f l_f (tzeros [2; 2; 2; 2]%nat) (tzeros [2; 2; 2; 2]%nat) l_g l_D l_D l_D (Some 5%nat) 1 (Q2Qc (3 # 1)) (Q2Qc (2 # 1)) "CCD"
    (fun _ _ _ => None) (fun n => Some (mkA (tzeros [1; 1; 1; 1]%nat) (tzeros [1; 1; 1; 1]%nat) (tzeros [1; 1; 1; 1]%nat)))) with (co := co); try lia; [|left; reflexivity|exact E].
  intros n u H. injection H as <-. repeat split.
Qed.
Example C49_instance : exists s e, lafter 1 1 1 1 l_f l_f (tzeros [2; 2; 2; 2]%nat) (tzeros [2; 2; 2; 2]%nat) l_g l_D l_D l_D None 1 "pCCD" (fun _ _ _ => None) (fun n => Some n) 2 = Some (s, e) /\
  data (A_ab (lamps s)) [0; 0; 0; 0]%nat <> 0%Qc.
Proof.
  assert (H : match lafter 1 1 1 1 l_f l_f (tzeros [2; 2; 2; 2]%nat) (tzeros [2; 2; 2; 2]%nat) l_g l_D l_D l_D None 1 "pCCD" (fun _ _ _ => None) (fun n => Some n) 2 with
     Some (s, e) => Qeq_bool (data (A_ab (lamps s)) [0; 0; 0; 0]%nat) 0 = false | None => False end) by (vm_compute; reflexivity).
  destruct (lafter _ _ _ _ _ _ _ _ _ _ _ _ _ _ _ _ _ 2) as [[s e]|]; [|contradiction]. exists s, e. split; [reflexivity|].
  intros E. rewrite E in H. discriminate.
Qed.
