(** From the coupled-cluster state of [Fock] to tensor polynomials: linearity, excitation levels, and the symbolic Hamiltonian
    and cluster operators.  Proof machinery; it models no particular source line. *)
From Coq Require Import String Ascii List Arith NArith ZArith QArith Qcanon Bool Lia Permutation Factorial.
From Verif Require Import Sums Tensor Interp Poly SymExec Canon Spec Setup Master Fock Wick.
Import ListNotations.
Open Scope Qc_scope.

(** ** Linear operators *)
Definition lin (X : Fock.op) : Prop :=
  (forall psi phi n, (forall m, psi m = phi m) -> X psi n = X phi n) /\
  (forall K c (F : nat -> ket) n, X (fun m => Sum k < K, c k * F k m) n = Sum k < K, c k * X (F k) n).
Lemma lin_iter X : lin X -> forall j, lin (Nat.iter j X).
Proof.
  intros HL. induction j as [|j IH]; [split; [intros psi phi n H; apply H|reflexivity]|].
  destruct HL as [H1 H2], IH as [I1 I2]. split.
  - intros psi phi n H. apply H1. intros m. apply I1, H.
  - intros K c F n. change (X (Nat.iter j X (fun m => Sum k < K, c k * F k m)) n = Sum k < K, c k * X (Nat.iter j X (F k)) n).
    rewrite <- (H2 K c (fun k => Nat.iter j X (F k))). apply H1. intros m. apply I2.
Qed.
Lemma suml_guard n k (F : nat -> Qc) : (k <= n)%nat -> (forall j, (k <= j)%nat -> (j < n)%nat -> F j = 0) -> Sum j < n, F j = Sum j < k, F j.
Proof.
  intros L H. replace n with (k + (n - k))%nat by lia. rewrite seq_app, suml_app. rewrite (suml_zero _ (seq (0 + k) _)); [ring|].
  intros j Hj. apply in_seq in Hj. apply H; lia.
Qed.

(** ** Levels: how many virtual orbitals are occupied *)
Fixpoint cnt (n : det) : nat := match n with [] => O | b :: r => if b then S (cnt r) else cnt r end.
Definition lev (no : nat) (n : det) : nat := cnt (skipn no n).
Definition lowb (no L : nat) (psi : ket) : Prop := forall n, (lev no n < L)%nat -> psi n = 0.
Lemma ferm_lev (d : bool) : forall n p no psi,
  (forall m : det, (if Nat.ltb p no then lev no m = lev no n else if d then S (lev no m) = lev no n else lev no m = S (lev no n)) -> psi m = 0) ->
  ferm d p n psi = 0.
Proof.
  induction n as [|b r IH]; intros p no psi H; [reflexivity|]. destruct p as [|q]; cbn [ferm].
  - destruct (Bool.eqb_spec b d) as [->|]; [|reflexivity]. apply H. destruct no; [|reflexivity]. destruct d; reflexivity.
  - rewrite (IH q (Nat.pred no)); [ring|]. intros m Hm. apply H. destruct no as [|no]; [|exact Hm].
    cbn [Nat.pred] in Hm. change (S q <? 0)%nat with false. change (q <? 0)%nat with false in Hm. cbn [skipn] in *.
    unfold lev in *. cbn [skipn cnt] in *. destruct b, d; lia.
Qed.
Lemma lowb_weak no L L' psi : (L' <= L)%nat -> lowb no L psi -> lowb no L' psi.
Proof. intros HL H n Hn. apply H. lia. Qed.
Lemma lowb_suml {X} no L (l : list X) (F : X -> ket) : (forall x, In x l -> lowb no L (F x)) -> lowb no L (fun n => suml l (fun x => F x n)).
Proof. intros H n Hn. apply suml_zero. intros x Hx. apply (H x Hx n Hn). Qed.
Lemma lowb_scale no L c psi : lowb no L psi -> lowb no L (fun n => c * psi n).
Proof. intros H n Hn. rewrite (H n Hn). ring. Qed.
Definition olev (virt : bool) (d : bool) (L : nat) : nat := if virt then if d then S L else (L - 1)%nat else L.
Lemma lowb_fop no d p L psi : lowb no L psi -> lowb no (olev (negb (Nat.ltb p no)) d L) (fop d p psi).
Proof.
  intros H n Hn. apply (ferm_lev d n p no). intros m Hm. apply H. unfold olev in Hn.
  destruct (Nat.ltb p no); cbn [negb] in *; [lia|]. destruct d; lia.
Qed.
Lemma lev_ref no nv : lev no (ref no nv) = O.
Proof.
  unfold lev, ref. assert (S1 : forall k (l : list bool), skipn k (repeat true k ++ l) = l).
  { induction k as [|k IH]; intros l; [reflexivity|]. cbn [repeat app skipn]. apply IH. }
  rewrite S1. induction nv as [|k IH]; [reflexivity|]. exact IH.
Qed.

(** ** The expansion of exp(-X) H exp(X) that a given matrix element can see *)
Section Expand.
  Variables no nv r m : nat.
  Variables X H : Fock.op.
  Variable B : ket -> Qc.
  Hypothesis LX : lin X.
  Hypothesis LH : lin H.
  Hypothesis EB : forall psi phi, (forall n, psi n = phi n) -> B psi = B phi.
  Hypothesis LB : forall K c (F : nat -> ket), B (fun n => Sum k < K, c k * F k n) = Sum k < K, c k * B (F k).
  Hypothesis RX : forall L psi, lowb no L psi -> lowb no (L + r) (X psi).
  Hypothesis RH : forall L psi, lowb no L psi -> lowb no (L - 2) (H psi).
  Hypothesis RB : forall psi, lowb no (S m) psi -> B psi = 0.
  Lemma lowb_iter k : forall L psi, lowb no L psi -> lowb no (L + k * r) (Nat.iter k X psi).
  Proof using RX.
    induction k as [|k IH]; intros L psi HL; [apply (lowb_weak no L); [lia|exact HL]|]. cbn [Nat.iter nat_rect].
    apply (lowb_weak no (L + k * r + r)); [lia|]. apply RX, IH, HL.
  Qed.
  Definition ecf (c : Qc) (k : nat) : Qc := c ^ k * / Q2Qc (Z.of_nat (fact k) # 1).
  Definition jk (j k : nat) : Qc := B (Nat.iter j X (H (Nat.iter k X (Phi no nv)))).
  Theorem cc_expand K J1 K1 : (J1 <= S K)%nat -> (K1 <= S K)%nat -> (m < J1 * r)%nat -> (m + 2 < K1 * r)%nat ->
    B (expo K (- (1)) X (H (expo K 1 X (Phi no nv)))) = Sum j < J1, Sum k < K1, ecf (- (1)) j * ecf 1 k * jk j k.
  Proof using All.
    intros L1 L2 M1 M2.
    transitivity (Sum j < S K, ecf (- (1)) j * (Sum k < S K, ecf 1 k * jk j k)).
    - unfold expo. rewrite (LB (S K) (ecf (- (1)))). apply suml_ext. intros j _. f_equal.
      unfold jk. rewrite <- (LB (S K) (ecf 1) (fun k => Nat.iter j X (H (Nat.iter k X (Phi no nv))))). apply EB. intros n. destruct (lin_iter X LX j) as [I1 I2].
      rewrite <- (I2 (S K) (ecf 1) (fun k => H (Nat.iter k X (Phi no nv)))). apply I1. intros n'. destruct LH as [H1 H2].
      rewrite <- (H2 (S K) (ecf 1) (fun k => Nat.iter k X (Phi no nv))). apply H1. reflexivity.
    - assert (Z : forall j k, (J1 <= j)%nat \/ (K1 <= k)%nat -> jk j k = 0).
      { intros j k HJ. apply RB. apply (lowb_weak no (0 + k * r - 2 + j * r)).
        - destruct HJ as [HJ|HJ]; [assert (J1 * r <= j * r)%nat by (apply Nat.mul_le_mono_r; exact HJ)|assert (K1 * r <= k * r)%nat by (apply Nat.mul_le_mono_r; exact HJ)]; lia.
        - apply lowb_iter, RH, lowb_iter. intros n Hn. lia. }
      rewrite (suml_guard (S K) J1) by first [exact L1|(intros j Hj _; rewrite suml_zero; [ring|intros k _; rewrite Z by (left; exact Hj); ring])].
      apply suml_ext. intros j _. rewrite <- suml_scale.
      rewrite (suml_guard (S K) K1) by first [exact L2|(intros k Hk _; rewrite Z by (right; exact Hk); ring)].
      apply suml_ext. intros k _. ring.
  Qed.
End Expand.

(** ** Symbolic operators *)
Definition hv (s : space) (k : N) : var := mkv s (8 + k).
Definition one_ (s1 s2 : space) : oterm := OT 1 [hv s1 0; hv s2 1] [(0%N, [hv s1 0; hv s2 1])] [(true, hv s1 0); (false, hv s2 1)].
Definition mean (s1 s2 : space) : oterm :=
  OT (-1) [hv s1 0; hv s2 1; hv 0 2] [(1%N, [hv s1 0; hv 0 2; hv s2 1; hv 0 2])] [(true, hv s1 0); (false, hv s2 1)].
Definition two (s1 s2 s3 s4 : space) : oterm :=
  OT (1 # 4) [hv s1 0; hv s2 1; hv s3 2; hv s4 3] [(1%N, [hv s1 0; hv s2 1; hv s3 2; hv s4 3])]
     [(true, hv s1 0); (true, hv s2 1); (false, hv s4 3); (false, hv s3 2)].
Definition OV : list space := [0; 1]%N.
Definition hams : list oterm :=
  (flat_map (fun s1 => map (one_ s1) OV) OV ++ flat_map (fun s1 => map (mean s1) OV) OV ++
   flat_map (fun s1 => flat_map (fun s2 => flat_map (fun s3 => map (two s1 s2 s3) OV) OV) OV) OV)%list.
(** cluster operator of rank k with amplitude atom n, copy c *)
Definition tv (s : space) (c k : nat) : var := mkv s (N.of_nat (16 + 4 * c + k)).
Definition tot (k : nat) (n : N) (q : Q) (c : nat) : oterm :=
  OT q (map (tv 1 c) (seq 0 k) ++ map (tv 0 c) (seq 0 k)) [(n, map (tv 1 c) (seq 0 k) ++ map (tv 0 c) (seq 0 k))%list]
    (map (fun i => (true, tv 1 c i)) (seq 0 k) ++ map (fun i => (false, tv 0 c i)) (rev (seq 0 k))).

Section Sem.
  Variables no nv : nat.
  Notation range := (so_range no nv).
  Variable A : N -> list nat -> Qc.
  Variables f g : tensor.
  Hypothesis A0 : forall p q, (p < no + nv)%nat -> (q < no + nv)%nat -> A 0%N [p; q] = data f [p; q].
  Hypothesis A1 : forall p q r s, (p < no + nv)%nat -> (q < no + nv)%nat -> (r < no + nv)%nat -> (s < no + nv)%nat -> A 1%N [p; q; r; s] = data g [p; q; r; s].
  Notation osem := (osem no nv A).
  Notation oact := (oact no nv A).

  Lemma lin_osem e ts : lin (osem e ts).
  Proof.
    split; [intros psi phi n H; apply osem_ext, H|]. intros K c F n. unfold Wick.osem.
    rewrite (suml_ext _ _ _ (fun t => Sum k < K, c k * oact e t (F k) n)).
    - rewrite suml_swap. apply suml_ext. intros k _. apply suml_scale.
    - intros t _. unfold Wick.oact.
      rewrite (sumD_ext range _ _ (fun e' => Sum k < K, c k * (evalFs A (ofs t) e' * act (map (inst e') (oo t)) (F k) n))).
      2:{ intros e'. rewrite (act_suml _ (seq 0 K) (fun k m => c k * F k m)), <- suml_scale. apply suml_ext. intros k _. rewrite act_scale. ring. }
      assert (SW : forall ds G e, sumD range ds (fun e' => Sum k < K, G k e') e = Sum k < K, sumD range ds (G k) e).
      { clear. intros ds G. induction ds as [|d ds IH]; intros e; cbn [sumD]; [reflexivity|].
        rewrite suml_swap. apply suml_ext. intros x _. apply IH. }
      rewrite SW, <- suml_scale. apply suml_ext. intros k _. rewrite sumD_const. ring.
  Qed.

  Lemma all_OV (F : nat -> Qc) : Sum p < (no + nv), F p = suml OV (fun s => suml (range s) F).
  Proof. rewrite seq_app, suml_app. cbn [OV suml]. change (range 0%N) with (seq 0 no). change (range 1%N) with (seq (0 + no) nv). rewrite Qcplus_0_r. reflexivity. Qed.
  Lemma in_range s p : In s OV -> In p (range s) -> (p < no + nv)%nat.
  Proof. intros [<-|[<-|[]]] H; cbn in H; apply in_seq in H; lia. Qed.
  Lemma in_rangeO p : In p (range 0%N) -> (p < no + nv)%nat.
  Proof. apply in_range. left. reflexivity. Qed.
  Ltac inrg := match goal with H : In ?p (so_range no nv ?s) |- (?p < _)%nat => first [apply (in_range s p); [assumption|exact H] | apply in_rangeO; exact H] end.
  Ltac cases H := destruct H as [<-|[<-|[]]].
  Lemma one_sem e s1 s2 psi n : In s1 OV -> In s2 OV ->
    oact e (one_ s1 s2) psi n = suml (range s1) (fun p => suml (range s2) (fun q => data f [p; q] * cre p (ann q psi) n)).
  Proof.
    intros H1 H2. unfold Wick.oact. change (Q2Qc (oc (one_ s1 s2))) with 1. rewrite Qcmult_1_l.
    assert (E : forall e, sumD range (od (one_ s1 s2)) (fun e' => evalFs A (ofs (one_ s1 s2)) e' * act (map (inst e') (oo (one_ s1 s2))) psi n) e =
      suml (range s1) (fun p => suml (range s2) (fun q => A 0%N [p; q] * cre p (ann q psi) n))).
    { intros e0. cases H1; cases H2; cbn [one_ od ofs oo sumD]; apply suml_ext; intros p _; apply suml_ext; intros q _;
        cbn [evalFs]; rewrite Qcmult_1_r; reflexivity. }
    rewrite E. apply suml_ext. intros p Hp. apply suml_ext. intros q Hq. rewrite A0; [reflexivity|inrg..].
  Qed.
  Lemma mean_sem e s1 s2 psi n : In s1 OV -> In s2 OV ->
    oact e (mean s1 s2) psi n = suml (range s1) (fun p => suml (range s2) (fun q => - (Sum i < no, data g [p; i; q; i]) * cre p (ann q psi) n)).
  Proof.
    intros H1 H2. unfold Wick.oact. change (Q2Qc (oc (mean s1 s2))) with (- (1)).
    assert (E : forall e, sumD range (od (mean s1 s2)) (fun e' => evalFs A (ofs (mean s1 s2)) e' * act (map (inst e') (oo (mean s1 s2))) psi n) e =
      suml (range s1) (fun p => suml (range s2) (fun q => suml (range 0%N) (fun i => A 1%N [p; i; q; i] * cre p (ann q psi) n)))).
    { intros e0. cases H1; cases H2; cbn [mean od ofs oo sumD]; apply suml_ext; intros p _; apply suml_ext; intros q _; apply suml_ext; intros i _;
        cbn [evalFs]; rewrite Qcmult_1_r; reflexivity. }
    rewrite E, <- suml_scale. apply suml_ext. intros p Hp. rewrite <- suml_scale. apply suml_ext. intros q Hq. rewrite suml_scale_r.
    rewrite (suml_ext _ _ _ (fun i => data g [p; i; q; i])); [change (range 0%N) with (seq 0 no); ring|].
    intros i Hi. apply A1; inrg.
  Qed.
  Lemma two_sem e s1 s2 s3 s4 psi n : In s1 OV -> In s2 OV -> In s3 OV -> In s4 OV ->
    oact e (two s1 s2 s3 s4) psi n = Q2Qc (1 # 4) * suml (range s1) (fun p => suml (range s2) (fun q => suml (range s3) (fun r => suml (range s4) (fun s =>
      data g [p; q; r; s] * cre p (cre q (ann s (ann r psi))) n)))).
  Proof.
    intros H1 H2 H3 H4. unfold Wick.oact. change (Q2Qc (oc (two s1 s2 s3 s4))) with (Q2Qc (1 # 4)). f_equal.
    assert (E : forall e, sumD range (od (two s1 s2 s3 s4)) (fun e' => evalFs A (ofs (two s1 s2 s3 s4)) e' * act (map (inst e') (oo (two s1 s2 s3 s4))) psi n) e =
      suml (range s1) (fun p => suml (range s2) (fun q => suml (range s3) (fun r => suml (range s4) (fun s => A 1%N [p; q; r; s] * cre p (cre q (ann s (ann r psi))) n))))).
    { intros e0. cases H1; cases H2; cases H3; cases H4; cbn [two od ofs oo sumD]; apply suml_ext; intros p _; apply suml_ext; intros q _; apply suml_ext; intros r _; apply suml_ext; intros s _;
        cbn [evalFs]; rewrite Qcmult_1_r; reflexivity. }
    rewrite E. apply suml_ext. intros p Hp. apply suml_ext. intros q Hq. apply suml_ext. intros r Hr. apply suml_ext. intros s Hs.
    rewrite A1; [reflexivity|inrg..].
  Qed.

  Theorem ham_sem e psi n : Ham no nv f g psi n = osem e hams psi n.
  Proof.
    unfold Ham, Wick.osem, hams. rewrite !suml_app, !suml_flat_map.
    rewrite Qcplus_assoc. f_equal.
    - rewrite all_OV, <- suml_plus. apply suml_ext. intros s1 H1. rewrite !suml_map, <- suml_plus.
      rewrite (suml_ext _ _ _ (fun p => suml OV (fun s2 => suml (range s2) (fun q => (data f [p; q] - Sum i < no, data g [p; i; q; i]) * cre p (ann q psi) n))))
        by (intros p _; apply all_OV).
      rewrite suml_swap. apply suml_ext. intros s2 H2. rewrite one_sem, mean_sem by assumption. rewrite <- suml_plus. apply suml_ext. intros p _.
      rewrite <- suml_plus. apply suml_ext. intros q _. ring.
    - rewrite all_OV, <- suml_scale. apply suml_ext. intros s1 H1. rewrite suml_flat_map.
      rewrite (suml_ext _ (range s1) _ (fun p => suml OV (fun s2 => suml (range s2) (fun q => Sum r < (no + nv), Sum s < (no + nv), data g [p; q; r; s] * cre p (cre q (ann s (ann r psi))) n))))
        by (intros p _; apply all_OV).
      rewrite suml_swap, <- suml_scale. apply suml_ext. intros s2 H2. rewrite suml_flat_map.
      rewrite (suml_ext _ (range s1) _ (fun p => suml OV (fun s3 => suml (range s2) (fun q => suml (range s3) (fun r => Sum s < (no + nv), data g [p; q; r; s] * cre p (cre q (ann s (ann r psi))) n))))).
      2:{ intros p _. symmetry. rewrite suml_swap. apply suml_ext. intros q _. symmetry. apply all_OV. }
      rewrite suml_swap, <- suml_scale. apply suml_ext. intros s3 H3. rewrite suml_map.
      rewrite (suml_ext _ (range s1) _ (fun p => suml OV (fun s4 => suml (range s2) (fun q => suml (range s3) (fun r => suml (range s4) (fun s => data g [p; q; r; s] * cre p (cre q (ann s (ann r psi))) n)))))).
      2:{ intros p _. symmetry. rewrite suml_swap. apply suml_ext. intros q _. rewrite suml_swap. apply suml_ext. intros r _. symmetry. apply all_OV. }
      rewrite suml_swap, <- suml_scale. apply suml_ext. intros s4 H4. symmetry. apply two_sem; assumption.
  Qed.

  (** the cluster operators *)
  Lemma suml_seqV (F : nat -> Qc) : Sum a < nv, F (no + a)%nat = suml (range 1%N) F.
  Proof using.
    change (range 1%N) with (seq no nv). clear A0 A1. generalize no as k. intros k. revert F k. induction nv as [|n IH]; intros F k; [reflexivity|].
    cbn [seq suml]. rewrite Nat.add_0_r. f_equal. rewrite <- (IH F (S k)), suml_seq_shift. apply suml_ext. intros x _. f_equal. lia.
  Qed.
  Lemma tot1_sem n0 t (HA : forall a i, (a < nv)%nat -> (i < no)%nat -> A n0 [no + a; i]%nat = data t [a; i]) e c psi n :
    (c < 10)%nat -> T1op no nv t psi n = oact e (tot 1 n0 1 c) psi n.
  Proof using.
    intros HC. unfold T1op.
    transitivity (suml (range 1%N) (fun a => suml (range 0%N) (fun i => A n0 [a; i] * cre a (ann i psi) n))).
    - rewrite <- suml_seqV. apply suml_ext. intros a Ha. apply suml_ext. intros i Hi. apply in_seq in Ha, Hi. rewrite HA by lia. reflexivity.
    - unfold Wick.oact. change (Q2Qc (oc (tot 1 n0 1 c))) with 1. rewrite Qcmult_1_l. revert e.
      do 10 (destruct c as [|c]; [intros e; cbn [tot od ofs oo sumD map app seq rev]; apply suml_ext; intros a _; apply suml_ext; intros i _;
        cbn [evalFs]; rewrite Qcmult_1_r; reflexivity|]). lia.
  Qed.
  Lemma tot2_sem n0 t (HA : forall a b i j, (a < nv)%nat -> (b < nv)%nat -> (i < no)%nat -> (j < no)%nat -> A n0 [no + a; no + b; i; j]%nat = data t [a; b; i; j]) e c psi n :
    (c < 10)%nat -> T2op no nv t psi n = oact e (tot 2 n0 (1 # 4) c) psi n.
  Proof using.
    intros HC. unfold T2op, Wick.oact. change (Q2Qc (oc (tot 2 n0 (1 # 4) c))) with (Q2Qc (1 # 4)). f_equal.
    transitivity (suml (range 1%N) (fun a => suml (range 1%N) (fun b => suml (range 0%N) (fun i => suml (range 0%N) (fun j => A n0 [a; b; i; j] * cre a (cre b (ann j (ann i psi))) n))))).
    - rewrite <- suml_seqV. apply suml_ext. intros a Ha. rewrite <- suml_seqV. apply suml_ext. intros b Hb. apply suml_ext. intros i Hi. apply suml_ext. intros j Hj.
      apply in_seq in Ha, Hb, Hi, Hj. rewrite HA by lia. reflexivity.
    - revert e. do 10 (destruct c as [|c]; [intros e; cbn [tot od ofs oo sumD map app seq rev]; apply suml_ext; intros a _; apply suml_ext; intros b _; apply suml_ext; intros i _; apply suml_ext; intros j _;
        cbn [evalFs]; rewrite Qcmult_1_r; reflexivity|]). lia.
  Qed.
  Lemma tot3_sem n0 t (HA : forall a b c i j k, (a < nv)%nat -> (b < nv)%nat -> (c < nv)%nat -> (i < no)%nat -> (j < no)%nat -> (k < no)%nat ->
      A n0 [no + a; no + b; no + c; i; j; k]%nat = data t [a; b; c; i; j; k]) e z psi n :
    (z < 10)%nat -> T3op no nv t psi n = oact e (tot 3 n0 (1 # 36) z) psi n.
  Proof using.
    intros HC. unfold T3op, Wick.oact. change (Q2Qc (oc (tot 3 n0 (1 # 36) z))) with (Q2Qc (1 # 36)). f_equal.
    transitivity (suml (range 1%N) (fun a => suml (range 1%N) (fun b => suml (range 1%N) (fun c => suml (range 0%N) (fun i => suml (range 0%N) (fun j => suml (range 0%N) (fun k =>
      A n0 [a; b; c; i; j; k] * cre a (cre b (cre c (ann k (ann j (ann i psi))))) n))))))).
    - rewrite <- suml_seqV. apply suml_ext. intros a Ha. rewrite <- suml_seqV. apply suml_ext. intros b Hb. rewrite <- suml_seqV. apply suml_ext. intros c Hc.
      apply suml_ext. intros i Hi. apply suml_ext. intros j Hj. apply suml_ext. intros k Hk.
      apply in_seq in Ha, Hb, Hc, Hi, Hj, Hk. rewrite HA by lia. reflexivity.
    - revert e. do 10 (destruct z as [|z]; [intros e; cbn [tot od ofs oo sumD map app seq rev];
        apply suml_ext; intros a _; apply suml_ext; intros b _; apply suml_ext; intros c _; apply suml_ext; intros i _; apply suml_ext; intros j _; apply suml_ext; intros k _;
        cbn [evalFs]; rewrite Qcmult_1_r; reflexivity|]). lia.
  Qed.
  Lemma tot4_sem n0 t (HA : forall a b c d i j k l, (a < nv)%nat -> (b < nv)%nat -> (c < nv)%nat -> (d < nv)%nat -> (i < no)%nat -> (j < no)%nat -> (k < no)%nat -> (l < no)%nat ->
      A n0 [no + a; no + b; no + c; no + d; i; j; k; l]%nat = data t [a; b; c; d; i; j; k; l]) e z psi n :
    (z < 10)%nat -> T4op no nv t psi n = oact e (tot 4 n0 (1 # 576) z) psi n.
  Proof using.
    intros HC. unfold T4op, Wick.oact. change (Q2Qc (oc (tot 4 n0 (1 # 576) z))) with (Q2Qc (1 # 576)). f_equal.
    transitivity (suml (range 1%N) (fun a => suml (range 1%N) (fun b => suml (range 1%N) (fun c => suml (range 1%N) (fun d => suml (range 0%N) (fun i => suml (range 0%N) (fun j => suml (range 0%N) (fun k => suml (range 0%N) (fun l =>
      A n0 [a; b; c; d; i; j; k; l] * cre a (cre b (cre c (cre d (ann l (ann k (ann j (ann i psi))))))) n))))))))).
    - rewrite <- suml_seqV. apply suml_ext. intros a Ha. rewrite <- suml_seqV. apply suml_ext. intros b Hb. rewrite <- suml_seqV. apply suml_ext. intros c Hc. rewrite <- suml_seqV. apply suml_ext. intros d Hd.
      apply suml_ext. intros i Hi. apply suml_ext. intros j Hj. apply suml_ext. intros k Hk. apply suml_ext. intros l Hl.
      apply in_seq in Ha, Hb, Hc, Hd, Hi, Hj, Hk, Hl. rewrite HA by lia. reflexivity.
    - revert e. do 10 (destruct z as [|z]; [intros e; cbn [tot od ofs oo sumD map app seq rev];
        apply suml_ext; intros a _; apply suml_ext; intros b _; apply suml_ext; intros c _; apply suml_ext; intros d _; apply suml_ext; intros i _; apply suml_ext; intros j _; apply suml_ext; intros k _; apply suml_ext; intros l _;
        cbn [evalFs]; rewrite Qcmult_1_r; reflexivity|]). lia.
  Qed.

  (** levels of symbolic operators *)
  Definition slev (ops : list vop) (L : nat) : nat := fold_right (fun (o : vop) l => olev (N.eqb (spc (snd o)) 1) (fst o) l) L ops.
  Definition allsum (t : oterm) : bool := forallb (fun o : vop => ov (spc (snd o)) && memv (snd o) (od t))%bool (oo t).
  Lemma lowb_act e ops L psi : typed no nv e ops -> lowb no L psi -> lowb no (slev ops L) (act (map (inst e) ops) psi).
  Proof.
    induction ops as [|o ops IH]; intros HT HL; [exact HL|]. cbn [map slev fold_right].
    change (act (inst e o :: map (inst e) ops) psi) with (fop (fst o) (e (snd o)) (act (map (inst e) ops) psi)).
    destruct (HT o (or_introl eq_refl)) as [O1 R1]. destruct (typed_lt no nv e o O1 R1) as [_ LT].
    replace (N.eqb (spc (snd o)) 1) with (negb (Nat.ltb (e (snd o)) no)).
    - apply lowb_fop, IH; [|exact HL]. intros x Hx. apply HT. right. exact Hx.
    - rewrite LT. unfold ov in O1. destruct (N.eqb_spec (spc (snd o)) 0) as [E|E]; [rewrite E; reflexivity|]. change (N.eqb (spc (snd o)) 1 = true) in O1. rewrite O1. reflexivity.
  Qed.
  Lemma sumD_zero_typed ds F : forall e, (forall e', (forall v, In v ds -> In (e' v) (range (spc v))) -> F e' = 0) -> sumD range ds F e = 0.
  Proof.
    intros e H. rewrite (sumD_ext_in no nv ds F (fun _ => 0)); [apply sumD_zero|]. intros e' _ H2. apply H, H2.
  Qed.
  Lemma lowb_osem e ts L L' psi : forallb allsum ts = true -> (forall t, In t ts -> (L' <= slev (oo t) L)%nat) -> lowb no L psi ->
    lowb no L' (osem e ts psi).
  Proof.
    intros HA HL HP. unfold Wick.osem. apply lowb_suml. intros t Ht n Hn. unfold Wick.oact.
    rewrite sumD_zero_typed; [ring|]. intros e' He'. rewrite forallb_forall in HA. specialize (HA t Ht). unfold allsum in HA. rewrite forallb_forall in HA.
    rewrite (lowb_act e' (oo t) L psi); [ring| |exact HP|].
    - intros o Ho. specialize (HA o Ho). apply andb_true_iff in HA. destruct HA as [K1 K2]. split; [exact K1|]. apply He', memv_In, K2.
    - specialize (HL t Ht). lia.
  Qed.
  Lemma ham_low e L psi : lowb no L psi -> lowb no (L - 2) (osem e hams psi).
  Proof.
    apply lowb_osem; [reflexivity|]. intros t Ht.
    assert (K : Forall (fun t => (L - 2 <= slev (oo t) L)%nat) hams).
    { unfold hams, OV. cbn. repeat (apply Forall_cons; [cbn; lia|]). apply Forall_nil. }
    rewrite Forall_forall in K. apply K, Ht.
  Qed.

  (** the product  T^j H T^k  as a sum of operator terms, for a cluster operator given by [ts] *)
  Definition unit_ : oterm := OT 1 [] [] [].
  Variable ts : nat -> list oterm.
  Fixpoint tpow (c k : nat) : list oterm := match k with O => [unit_] | S k => omuls (ts c) (tpow (S c) k) end.
  Fixpoint tpow_ok (c k : nat) : bool := match k with O => true | S k => (odisjs (ts c) (tpow (S c) k) && tpow_ok (S c) k)%bool end.
  Definition full (D : list vop) (j k : nat) : list oterm :=
    omuls [OT 1 [] [] D] (omuls (tpow 0 j) (omuls hams (tpow j k))).
  Definition full_ok (D : list vop) (j k : nat) : bool :=
    (tpow_ok 0 j && tpow_ok j k && odisjs hams (tpow j k) && odisjs (tpow 0 j) (omuls hams (tpow j k)) &&
     odisjs [OT 1 [] [] D] (omuls (tpow 0 j) (omuls hams (tpow j k))))%bool.
  Variable Top : Fock.op.
  Hypothesis HT : forall e c psi n, (c < 10)%nat -> Top psi n = osem e (ts c) psi n.
  Lemma lin_Top : lin Top.
  Proof using HT. 
    destruct (lin_osem (fun _ => O) (ts 0)) as [H1 H2]. split.
    - intros psi phi n H. rewrite !(HT (fun _ => O) 0%nat) by lia. apply H1, H.
    - intros K c F n. rewrite (HT (fun _ => O) 0%nat), H2 by lia. apply suml_ext. intros k _. rewrite (HT (fun _ => O) 0%nat) by lia. reflexivity.
  Qed.
  Lemma iter_sem e k : forall c psi n, (c + k <= 10)%nat -> tpow_ok c k = true -> Nat.iter k Top psi n = osem e (tpow c k) psi n.
  Proof using HT.
    induction k as [|k IH]; intros c psi n LE H; cbn [Nat.iter nat_rect tpow tpow_ok] in *.
    - unfold Wick.osem, Wick.oact. cbn. change (Q2Qc 1) with 1. ring.
    - apply andb_true_iff in H. destruct H as [H1 H2]. rewrite <- osem_omuls by exact H1. rewrite (HT e c) by lia. apply osem_ext. intros m. apply IH; [lia|exact H2].
  Qed.
  Lemma full_sem e D j k : (j + k <= 10)%nat -> full_ok D j k = true ->
    act (map (inst e) D) (Nat.iter j Top (Ham no nv f g (Nat.iter k Top (Phi no nv)))) (ref no nv) =
    osem e (full D j k) (Phi no nv) (ref no nv).
  Proof using HT A0 A1.
    unfold full_ok. rewrite !andb_true_iff. intros LE [[[[H1 H2] H3] H4] H5]. unfold full.
    rewrite <- osem_omuls by exact H5.
    transitivity (osem e [OT 1 [] [] D] (Nat.iter j Top (Ham no nv f g (Nat.iter k Top (Phi no nv)))) (ref no nv)).
    { unfold Wick.osem, Wick.oact. cbn [suml oc od ofs oo sumD evalFs]. change (Q2Qc 1) with 1. ring. }
    apply osem_ext. intros n1. rewrite (iter_sem e j 0) by (try exact H1; lia). rewrite <- osem_omuls by exact H4. apply osem_ext. intros n2.
    rewrite (ham_sem e), <- osem_omuls by exact H3. apply osem_ext. intros n3. apply iter_sem; [lia|exact H2].
  Qed.

  (** coefficients as rationals *)
  Definition qcf (j k : nat) : Q := Qred ((if Nat.even j then 1 else -1) * (1 # Pos.of_nat (fact j * fact k)))%Q.
  Definition cf_ok (j k : nat) : bool := Qeq_bool (this (ecf (- (1)) j * ecf 1 k)) (qcf j k).
  Definition idxs (J1 K1 : nat) : list (nat * nat) := list_prod (seq 0 J1) (seq 0 K1).
  Definition cpoly (xs : list var) (D : list vop) (J1 K1 : nat) : poly :=
    flat_map (fun p => pscale (qcf (fst p) (snd p)) (vpoly xs (full D (fst p) (snd p)))) (idxs J1 K1).
  Definition cpoly_ok (xs : list var) (D : list vop) (J1 K1 : nat) : bool :=
    forallb (fun p => cf_ok (fst p) (snd p) && full_ok D (fst p) (snd p) && vok xs (full D (fst p) (snd p)))%bool (idxs J1 K1).
  Fixpoint nann (D : list vop) : nat := match D with [] => O | o :: r => if fst o then nann r else S (nann r) end.
  Lemma lowb_bra e D L psi : lowb no (nann D + L) psi -> lowb no L (act (map (inst e) D) psi).
  Proof.
    revert L. induction D as [|o D IH]; intros L H; [exact H|]. cbn [map nann] in *.
    change (act (inst e o :: map (inst e) D) psi) with (fop (fst o) (e (snd o)) (act (map (inst e) D) psi)).
    destruct (fst o) eqn:E.
    - apply (lowb_weak no (olev (negb (Nat.ltb (e (snd o)) no)) true L)); [unfold olev; destruct (negb _); lia|]. apply lowb_fop, IH, H.
    - apply (lowb_weak no (olev (negb (Nat.ltb (e (snd o)) no)) false (S L))); [unfold olev; destruct (negb _); lia|]. apply lowb_fop, IH.
      eapply lowb_weak; [|exact H]. lia.
  Qed.
  Theorem cc_poly e xs D r J1 K1 K : cpoly_ok xs D J1 K1 = true -> (forall v, In v xs -> In (e v) (range (spc v))) ->
    forallb allsum (ts 0) = true -> (forall L t, In t (ts 0%nat) -> (L + r <= slev (oo t) L)%nat) ->
    (J1 + K1 <= 10)%nat -> (J1 <= S K)%nat -> (K1 <= S K)%nat -> (nann D < J1 * r)%nat -> (nann D + 2 < K1 * r)%nat ->
    act (map (inst e) D) (cc_state K no nv f g Top) (ref no nv) = evalP range A e (cpoly xs D J1 K1).
  Proof using HT A0 A1.
    intros OK Hx HA HR LE L1 L2 M1 M2. unfold cc_state.
    rewrite (cc_expand no nv r (nann D) Top (Ham no nv f g) (fun psi => act (map (inst e) D) psi (ref no nv))) with (J1 := J1) (K1 := K1); try assumption.
    - unfold evalP, cpoly. rewrite suml_flat_map. unfold cpoly_ok in OK. rewrite forallb_forall in OK. unfold idxs.
      assert (PR : forall (l1 l2 : list nat) (F : nat * nat -> Qc), suml (list_prod l1 l2) F = suml l1 (fun j => suml l2 (fun k => F (j, k)))).
      { clear. induction l1 as [|x l1 IH]; intros l2 F; [reflexivity|]. cbn [list_prod suml]. rewrite suml_app, suml_map, IH. reflexivity. }
      rewrite PR. apply suml_ext. intros j Hj. apply suml_ext. intros k Hk. cbn [fst snd].
      specialize (OK (j, k) (proj2 (in_prod_iff _ _ _ _) (conj Hj Hk))). cbn [fst snd] in OK. rewrite !andb_true_iff in OK. destruct OK as [[O1 O2] O3].
      change (suml (pscale (qcf j k) (vpoly xs (full D j k))) (evalT range A e)) with (evalP range A e (pscale (qcf j k) (vpoly xs (full D j k)))).
      rewrite pscale_sound. unfold jk. rewrite (full_sem e D j k) by (try exact O2; apply in_seq in Hj; apply in_seq in Hk; lia). rewrite (vpoly_sound no nv A xs e _ O3 Hx). f_equal.
      apply Qc_is_canon. cbn [this]. unfold cf_ok in O1. apply Qeq_bool_iff in O1. rewrite O1. unfold Q2Qc. cbn [this]. rewrite Qred_correct. reflexivity.
    - apply lin_Top.
    - destruct (lin_osem (fun _ => O) hams) as [H1 H2]. split.
      + intros psi phi n H. rewrite !(ham_sem (fun _ => O)). apply H1, H.
      + intros K' c F n. rewrite (ham_sem (fun _ => O)), H2. apply suml_ext. intros k _. rewrite (ham_sem (fun _ => O)). reflexivity.
    - intros psi phi H. apply act_ext, H.
    - intros K' c F. rewrite (act_suml _ (seq 0 K') (fun k m => c k * F k m)). apply suml_ext. intros k _. apply act_scale.
    - intros L psi H. intros n Hn. rewrite (HT (fun _ => O) 0%nat) by lia. revert n Hn. change (lowb no (L + r) (osem (fun _ => O) (ts 0) psi)).
      apply (lowb_osem _ _ L); [exact HA|intros t Ht; apply HR, Ht|exact H].
    - intros L psi H n Hn. rewrite (ham_sem (fun _ => O)). revert n Hn. change (lowb no (L - 2) (osem (fun _ => O) hams psi)). apply ham_low, H.
    - intros psi H. apply (lowb_bra e D 1); [eapply lowb_weak; [|exact H]; lia|]. rewrite lev_ref. lia.
  Qed.
End Sem.
