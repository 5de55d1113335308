(** Similarity transformation letter by letter: exp(-T) x exp(T) = x + [x,T] for a fermion operator x and a cluster operator T,
    so that exp(-T) H exp(T) |Phi> is a short sum of normal-ordered strings.
    Proof machinery; it models no particular source line. *)
From Coq Require Import List Arith NArith ZArith QArith Qcanon Bool Lia Permutation Factorial.
From Verif Require Import Sums Tensor Interp Poly SymExec Canon Spec Setup Master Fock Wick CCState.
Import ListNotations.
Open Scope Qc_scope.

(** ** Agreement of two states on the determinants of N orbitals below a level *)
Section Agree.
  Variables no N : nat.
  Definition agr (L : nat) (psi phi : ket) : Prop := forall n, length n = N -> (lev no n < L)%nat -> psi n = phi n.
  Definition eqN (psi phi : ket) : Prop := forall n, length n = N -> psi n = phi n.
  Lemma eqN_agr L psi phi : eqN psi phi -> agr L psi phi. Proof. intros H n Hn _. apply H, Hn. Qed.
  Lemma agr_all psi phi : (forall L, agr L psi phi) -> eqN psi phi. Proof. intros H n Hn. apply (H (S (lev no n))); [exact Hn|lia]. Qed.
  Lemma agr_weak L L' psi phi : (L' <= L)%nat -> agr L psi phi -> agr L' psi phi. Proof. intros HL H n Hn HN. apply H; [exact Hn|lia]. Qed.
  Lemma agr_trans L a b c : agr L a b -> agr L b c -> agr L a c.
  Proof. intros H K n Hn HL. rewrite H, K by assumption. reflexivity. Qed.
  Lemma agr_sym L a b : agr L a b -> agr L b a. Proof. intros H n Hn HL. symmetry. apply H; assumption. Qed.
  Lemma eqN_trans a b c : eqN a b -> eqN b c -> eqN a c. Proof. intros H K n Hn. rewrite H, K by assumption. reflexivity. Qed.
  Lemma eqN_sym a b : eqN a b -> eqN b a. Proof. intros H n Hn. symmetry. apply H, Hn. Qed.

  Lemma ferm_cong (d : bool) : forall n p k (psi phi : ket),
    (forall m : det, length m = length n -> (if Nat.ltb p k then lev k m = lev k n else if d then S (lev k m) = lev k n else lev k m = S (lev k n)) -> psi m = phi m) ->
    ferm d p n psi = ferm d p n phi.
  Proof.
    induction n as [|b r IH]; intros p k psi phi H; [reflexivity|]. destruct p as [|q]; cbn [ferm].
    - destruct (Bool.eqb_spec b d) as [->|]; [|reflexivity]. apply H; [reflexivity|]. destruct k; [|reflexivity]. destruct d; reflexivity.
    - f_equal. apply (IH q (Nat.pred k)). intros m Lm Hm. apply H; [cbn; congruence|]. destruct k as [|k]; [|exact Hm].
      cbn [Nat.pred] in Hm. change (S q <? 0)%nat with false. change (q <? 0)%nat with false in Hm. cbn [skipn] in *.
      unfold lev in *. cbn [skipn cnt] in *. destruct b, d; lia.
  Qed.
  Lemma agr_fop d p L psi phi : agr L psi phi -> agr (olev (negb (Nat.ltb p no)) d L) (fop d p psi) (fop d p phi).
  Proof.
    intros H n Hn HL. apply (ferm_cong d n p no). intros m Lm Hm. apply H; [congruence|]. unfold olev in HL.
    destruct (Nat.ltb p no); cbn [negb] in *; [lia|]. destruct d; lia.
  Qed.
  Lemma agr_fop1 d p L psi phi : agr (S L) psi phi -> agr L (fop d p psi) (fop d p phi).
  Proof.
    intros H. eapply agr_weak; [|apply agr_fop, H]. unfold olev. destruct (negb _), d; lia.
  Qed.
  Lemma eqN_act ops psi phi : eqN psi phi -> eqN (act ops psi) (act ops phi).
  Proof.
    intros H. induction ops as [|o ops IH]; [exact H|]. cbn [act fold_right]. apply agr_all. intros L. apply agr_fop1, eqN_agr, IH.
  Qed.
End Agree.

(** ** Linear operators, once more *)
Section Lin.
  Variable X : Fock.op.
  Hypothesis LX : lin X.
  Lemma lin_plus psi phi n : X (fun m => psi m + phi m) n = X psi n + X phi n.
  Proof using LX.
    destruct LX as [H1 H2]. pose proof (H2 2%nat (fun _ => 1) (fun k => match k with O => psi | _ => phi end) n) as E. cbn [seq suml] in E.
    rewrite (H1 _ (fun m => 1 * psi m + (1 * phi m + 0))) by (intros; ring). rewrite E. ring.
  Qed.
  Lemma lin_scale c psi n : X (fun m => c * psi m) n = c * X psi n.
  Proof using LX.
    destruct LX as [H1 H2]. pose proof (H2 1%nat (fun _ => c) (fun k => psi) n) as E. cbn [seq suml] in E.
    rewrite (H1 _ (fun m => c * psi m + 0)) by (intros; ring). rewrite E. ring.
  Qed.
  Lemma lin_zero n : X (fun _ => 0) n = 0.
  Proof using LX.
    destruct LX as [H1 _]. rewrite (H1 _ (fun m => 0 * 0)) by (intros; ring). rewrite lin_scale. ring.
  Qed.
  Lemma lin_suml {Y} (l : list Y) F n : X (fun m => suml l (fun y => F y m)) n = suml l (fun y => X (F y) n).
  Proof using LX.
    induction l as [|y l IH]; cbn [suml]; [apply lin_zero|]. rewrite <- IH. apply (lin_plus (F y)).
  Qed.
  Lemma lin_sumD range ds (F : env -> ket) n : forall e, X (fun m => sumD range ds (fun e' => F e' m) e) n = sumD range ds (fun e' => X (F e') n) e.
  Proof using LX.
    induction ds as [|d ds IH]; intros e; cbn [sumD]; [reflexivity|].
    rewrite (lin_suml (range (spc d)) (fun x m => sumD range ds (fun e' => F e' m) (upd e d x))). apply suml_ext. intros x _. apply IH.
  Qed.
End Lin.
Lemma lin_expo X : lin X -> forall K c, lin (expo K c X).
Proof.
  intros LX K c. unfold expo. split.
  - intros psi phi n H. apply suml_ext. intros k _. f_equal. apply (lin_iter X LX k), H.
  - intros J d F n. rewrite (suml_ext _ (seq 0 J) (fun k => d k * _) (fun j => Sum k < S K, d j * (c ^ k * / Q2Qc (Z.of_nat (fact k) # 1) * Nat.iter k X (F j) n))).
    2:{ intros j _. symmetry. apply (suml_scale _ (seq 0 (S K)) (d j)). }
    rewrite suml_swap. apply suml_ext. intros k _. rewrite (proj2 (lin_iter X LX k) J d F n), <- suml_scale. apply suml_ext. intros j _. ring.
Qed.
Lemma lin_fop d p : lin (fop d p).
Proof.
  split; [intros psi phi n H; apply ferm_ext, H|]. intros K c F n. unfold fop.
  rewrite (ferm_suml d n p (seq 0 K) (fun k m => c k * F k m)). apply suml_ext. intros k _. apply ferm_scale.
Qed.

(** ** Exponentials of an operator that raises the level *)
Lemma ecf_S c k : ecf c (S k) * Q2Qc (Z.of_nat (S k) # 1) = c * ecf c k.
Proof.
  unfold ecf. cbn [Qcpower]. assert (F1 : Q2Qc (Z.of_nat (fact k) # 1) <> 0).
  { intros E. apply (f_equal this) in E. cbn [this Q2Qc] in E. assert (Qred (Z.of_nat (fact k) # 1) == 0)%Q by (rewrite E; reflexivity).
    rewrite Qred_correct in H. unfold Qeq in H. cbn in H. pose proof (lt_O_fact k). lia. }
  assert (F2 : Q2Qc (Z.of_nat (S k) # 1) <> 0).
  { intros E. apply (f_equal this) in E. cbn [this Q2Qc] in E. assert (Qred (Z.of_nat (S k) # 1) == 0)%Q by (rewrite E; reflexivity).
    rewrite Qred_correct in H. unfold Qeq in H. cbn in H. lia. }
  replace (Q2Qc (Z.of_nat (fact (S k)) # 1)) with (Q2Qc (Z.of_nat (S k) # 1) * Q2Qc (Z.of_nat (fact k) # 1)).
  - field. split; assumption.
  - change (fact (S k)) with (S k * fact k)%nat. rewrite Nat2Z.inj_mul. apply Qc_is_canon. unfold Qcmult, Q2Qc. cbn [this]. rewrite !Qred_correct. reflexivity.
Qed.
Lemma ecf_0 c : ecf c 0 = 1. Proof. unfold ecf. cbn. apply Qc_is_canon. reflexivity. Qed.
Lemma suml_shift n F : Sum k < S n, F k = F O + Sum k < n, F (S k).
Proof. cbn [seq suml]. f_equal. rewrite <- seq_shift. apply suml_map. Qed.
Lemma suml_last n F : Sum k < S n, F k = (Sum k < n, F k) + F n.
Proof. rewrite seq_S, suml_app. cbn [suml plus]. ring. Qed.

Section Expo.
  Variables no N : nat.
  Variable X : Fock.op.
  Hypothesis LX : lin X.
  Hypothesis XA : forall L psi phi, agr no N L psi phi -> agr no N (S L) (X psi) (X phi).
  Notation agr := (agr no N).
  Notation eqN := (eqN N).
  Lemma eqN_X psi phi : eqN psi phi -> eqN (X psi) (X phi).
  Proof using XA. intros H. apply (agr_all no). intros L. eapply agr_weak; [|apply XA, eqN_agr, H]. instantiate (1 := L). lia. Qed.
  Lemma iter_agr k : forall L psi phi, agr L psi phi -> agr (L + k) (Nat.iter k X psi) (Nat.iter k X phi).
  Proof using XA.
    induction k as [|k IH]; intros L psi phi H; [rewrite Nat.add_0_r; exact H|]. rewrite Nat.add_succ_r. apply XA, IH, H.
  Qed.
  Lemma iter_zero k psi : agr k (Nat.iter k X psi) (fun _ => 0).
  Proof using XA LX.
    intros n Hn HL. rewrite (iter_agr k 0 psi (fun _ => 0)); [|intros m _ Hm; lia|exact Hn|exact HL]. apply (lin_zero _ (lin_iter X LX k)).
  Qed.
  Lemma agr_expo K c L psi phi : agr L psi phi -> agr L (expo K c X psi) (expo K c X phi).
  Proof using XA.
    intros H n Hn HL. unfold expo. apply suml_ext. intros k _. f_equal. apply (iter_agr k L psi phi H); [exact Hn|lia].
  Qed.
  Lemma expo_cut K c psi : agr (S K) (expo (S K) c X psi) (expo K c X psi).
  Proof using XA LX.
    intros n Hn HL. unfold expo. rewrite suml_last, (iter_zero (S K) psi n Hn HL). ring.
  Qed.
  (** exp(-X) exp(X) = 1 *)
  Definition cnv (s : nat) : Qc := Sum j < S s, ecf (- (1)) j * ecf 1 (s - j).
  Lemma cnv_S s : cnv (S s) = 0.
  Proof using.
    assert (NZ : Q2Qc (Z.of_nat (S s) # 1) <> 0).
    { intros E. apply (f_equal this) in E. cbn [this Q2Qc] in E. assert (Qred (Z.of_nat (S s) # 1) == 0)%Q by (rewrite E; reflexivity).
      rewrite Qred_correct in H. unfold Qeq in H. cbn in H. lia. }
    assert (K : Q2Qc (Z.of_nat (S s) # 1) * cnv (S s) = 0).
    { unfold cnv. rewrite <- suml_scale.
      rewrite (suml_ext _ _ _ (fun j => (ecf (- (1)) j * Q2Qc (Z.of_nat j # 1)) * ecf 1 (S s - j) + ecf (- (1)) j * (ecf 1 (S s - j) * Q2Qc (Z.of_nat (S s - j) # 1)))).
      2:{ intros j Hj. apply in_seq in Hj. replace (Q2Qc (Z.of_nat (S s) # 1)) with (Q2Qc (Z.of_nat j # 1) + Q2Qc (Z.of_nat (S s - j) # 1)); [ring|].
          apply Qc_is_canon. unfold Qcplus, Q2Qc. cbn [this]. rewrite !Qred_correct. unfold Qeq, Qplus. cbn [Qnum Qden]. rewrite Nat2Z.inj_sub by lia. lia. }
      rewrite suml_plus, suml_shift. rewrite (suml_last (S s) (fun j => ecf (- (1)) j * (ecf 1 (S s - j) * _))).
      rewrite Nat.sub_diag. change (Q2Qc (Z.of_nat 0 # 1)) with 0.
      rewrite (suml_ext _ _ (fun k => ecf (- (1)) (S k) * _ * _) (fun k => - (ecf (- (1)) k * ecf 1 (s - k)))).
      2:{ intros k _. rewrite ecf_S. change (S s - S k)%nat with (s - k)%nat. ring. }
      rewrite (suml_ext _ _ (fun k => ecf (- (1)) k * (ecf 1 (S s - k) * _)) (fun k => ecf (- (1)) k * ecf 1 (s - k))).
      2:{ intros k Hk. apply in_seq in Hk. replace (S s - k)%nat with (S (s - k)) by lia. rewrite ecf_S. ring. }
      rewrite suml_opp. ring. }
    transitivity (/ Q2Qc (Z.of_nat (S s) # 1) * (Q2Qc (Z.of_nat (S s) # 1) * cnv (S s))); [field; exact NZ|]. rewrite K. ring.
  Qed.
  (** a double sum over j + k <= K, by diagonals *)
  Lemma diag K : forall F : nat -> nat -> Qc, (forall j k, (K < j + k)%nat -> F j k = 0) ->
    Sum j < S K, Sum k < S K, F j k = Sum s < S K, Sum j < S s, F j (s - j)%nat.
  Proof using.
    intros F H.
    assert (E1 : Sum j < S K, Sum k < S K, F j k = Sum j < S K, Sum k < S (K - j), F j k).
    { apply suml_ext. intros j Hj. apply in_seq in Hj. apply suml_guard; [lia|]. intros k K1 K2. apply H. lia. }
    rewrite E1. clear E1 H. induction K as [|K IH]; [reflexivity|].
    rewrite (suml_last (S K) (fun s => Sum j < S s, F j (s - j)%nat)), <- IH.
    rewrite (suml_last (S K) (fun j => Sum k < S (S K - j), F j k)), (suml_last (S K) (fun j => F j (S K - j)%nat)), Nat.sub_diag.
    change (Sum k < 1, F (S K) k) with (F (S K) O + 0). rewrite !Qcplus_0_r, Qcplus_assoc. f_equal. rewrite <- suml_plus. apply suml_ext. intros j Hj. apply in_seq in Hj.
    replace (S (S K - j)) with (S (S (K - j))) by lia. rewrite suml_last. repeat f_equal; lia.
  Qed.
  Lemma expo_inverse K psi : agr (S K) (expo K (- (1)) X (expo K 1 X psi)) psi.
  Proof using XA LX.
    intros n Hn HL.
    transitivity (Sum j < S K, Sum k < S K, ecf (- (1)) j * ecf 1 k * Nat.iter (j + k) X psi n).
    { unfold expo at 1. apply suml_ext. intros j _. fold (ecf (- (1)) j).
      change (expo K 1 X psi) with (fun m => Sum k < S K, ecf 1 k * Nat.iter k X psi m).
      rewrite (proj2 (lin_iter X LX j) (S K) (ecf 1) (fun k => Nat.iter k X psi) n), <- suml_scale. apply suml_ext. intros k _.
      assert (E : Nat.iter (j + k) X psi = Nat.iter j X (Nat.iter k X psi)) by (clear; induction j as [|j IH]; [reflexivity|exact (f_equal X IH)]).
      rewrite E. ring. }
    rewrite (diag K (fun j k => ecf (- (1)) j * ecf 1 k * Nat.iter (j + k) X psi n)).
    2:{ intros j k Hjk. rewrite (agr_weak no N (j + k) (S K) _ _ ltac:(lia) (iter_zero (j + k) psi) n Hn HL). ring. }
    rewrite (suml_ext _ _ _ (fun s => cnv s * Nat.iter s X psi n)).
    2:{ intros s _. unfold cnv. rewrite <- suml_scale_r. apply suml_ext. intros j Hj. apply in_seq in Hj. replace (j + (s - j))%nat with s by lia. reflexivity. }
    rewrite suml_shift, suml_zero.
    - unfold cnv. cbn [seq suml]. rewrite !ecf_0. cbn. ring.
    - intros s _. rewrite cnv_S. ring.
  Qed.
  (** a letter moved through the exponential *)
  Variables x Y : Fock.op.
  Hypothesis Lx : lin x.
  Hypothesis LY : lin Y.
  Hypothesis Ex : forall psi phi, eqN psi phi -> eqN (x psi) (x phi).
  Hypothesis EY : forall psi phi, eqN psi phi -> eqN (Y psi) (Y phi).
  Hypothesis C1 : forall psi, eqN (x (X psi)) (fun n => X (x psi) n + Y psi n).
  Hypothesis C2 : forall psi, eqN (Y (X psi)) (X (Y psi)).
  Lemma iter_Y k psi : eqN (Y (Nat.iter k X psi)) (Nat.iter k X (Y psi)).
  Proof using C2 XA.
    induction k as [|k IH]; [intros n _; reflexivity|]. cbn [Nat.iter nat_rect]. eapply eqN_trans; [apply C2|]. apply eqN_X, IH.
  Qed.
  Lemma iter_x k psi : eqN (x (Nat.iter k X psi)) (fun n => Nat.iter k X (x psi) n + Q2Qc (Z.of_nat k # 1) * Nat.iter (Nat.pred k) X (Y psi) n).
  Proof using C1 C2 XA LX.
    induction k as [|k IH].
    - intros n Hn. cbn [Nat.iter nat_rect]. change (Q2Qc (Z.of_nat 0 # 1)) with 0. ring.
    - change (Nat.iter (S k) X psi) with (X (Nat.iter k X psi)). eapply eqN_trans; [apply C1|]. intros n Hn.
      change (Nat.iter (S k) X (x psi)) with (X (Nat.iter k X (x psi))). cbv beta. rewrite (iter_Y k psi n Hn), (eqN_X _ _ IH n Hn).
      rewrite (lin_plus X LX), (lin_scale X LX). cbn [Nat.pred]. rewrite <- Qcplus_assoc. f_equal.
      assert (E : Q2Qc (Z.of_nat (S k) # 1) = Q2Qc (Z.of_nat k # 1) + 1).
      { apply Qc_is_canon. unfold Qcplus, Q2Qc. cbn [this]. rewrite !Qred_correct. unfold Qeq, Qplus. cbn [Qnum Qden]. lia. }
      rewrite E. destruct k as [|k]; [change (Q2Qc (Z.of_nat 0 # 1)) with 0; ring|]. cbn [Nat.pred]. change (Nat.iter (S k) X (Y psi)) with (X (Nat.iter k X (Y psi))). ring.
  Qed.
  Lemma expo_letter K psi : agr (S K) (x (expo (S K) 1 X psi)) (expo (S K) 1 X (fun n => x psi n + Y psi n)).
  Proof using C1 C2 XA LX Lx LY.
    intros n Hn HL.
    transitivity (expo (S K) 1 X (x psi) n + expo K 1 X (Y psi) n).
    - change (expo (S K) 1 X psi) with (fun m => Sum k < S (S K), ecf 1 k * Nat.iter k X psi m). rewrite (proj2 Lx (S (S K)) (ecf 1) (fun k => Nat.iter k X psi) n).
      rewrite (suml_ext _ _ _ (fun k => ecf 1 k * Nat.iter k X (x psi) n + ecf 1 k * Q2Qc (Z.of_nat k # 1) * Nat.iter (Nat.pred k) X (Y psi) n)).
      2:{ intros k _. rewrite (iter_x k psi n Hn). ring. }
      rewrite suml_plus. unfold expo. f_equal. rewrite suml_shift. change (Q2Qc (Z.of_nat 0 # 1)) with 0.
      rewrite (suml_ext _ _ _ (fun k => ecf 1 k * Nat.iter k X (Y psi) n)) by (intros k _; rewrite ecf_S; cbn [Nat.pred]; ring).
      unfold ecf. ring.
    - rewrite (lin_plus _ (lin_expo X LX (S K) 1)), (expo_cut K 1 (Y psi) n Hn HL). reflexivity.
  Qed.
End Expo.

(** ** Quasi-particle creators anticommute *)
Definition crt (no : nat) (o : bool * nat) : Prop := Nat.ltb (snd o) no = negb (fst o).
Lemma crt_swap no x y psi n : crt no x -> crt no y ->
  fop (fst x) (snd x) (fop (fst y) (snd y) psi) n = - fop (fst y) (snd y) (fop (fst x) (snd x) psi) n.
Proof.
  intros Hx Hy. pose proof (anticommutator (fst x) (fst y) n (snd x) (snd y) psi) as E.
  replace (xorb (fst x) (fst y) && (snd x =? snd y)%nat && (snd x <? length n)%nat)%bool with false in E.
  - unfold fop in *. rewrite <- (Qcplus_0_l (- _)), <- E. ring.
  - destruct (Nat.eqb_spec (snd x) (snd y)) as [Q|Q]; [|rewrite andb_false_r; reflexivity]. unfold crt in *. rewrite Q in Hx. rewrite Hx in Hy.
    destruct (fst x), (fst y); try discriminate; reflexivity.
Qed.
Lemma crt_pass no x w psi : crt no x -> Forall (crt no) w -> forall n,
  act (x :: w) psi n = sb (Nat.odd (length w)) * act (w ++ [x]) psi n.
Proof.
  intros Hx HW. induction HW as [|y w Hy HW IH]; intros n; [cbn; ring|].
  change (act (x :: y :: w) psi n) with (fop (fst x) (snd x) (fop (fst y) (snd y) (act w psi)) n). rewrite (crt_swap no x y) by assumption.
  change (fop (fst x) (snd x) (act w psi)) with (act (x :: w) psi). cbn [app]. change (act (y :: w ++ [x]) psi n) with (fop (fst y) (snd y) (act (w ++ [x]) psi) n).
  unfold fop. rewrite (ferm_ext _ _ _ _ _ IH), ferm_scale. change (length (y :: w)) with (S (length w)). rewrite Nat.odd_succ, <- Nat.negb_odd.
  destruct (Nat.odd (length w)); cbn [negb sb]; ring.
Qed.
Lemma crt_comm no u w psi : Forall (crt no) u -> Forall (crt no) w -> Nat.even (length w) = true -> forall n,
  act u (act w psi) n = act w (act u psi) n.
Proof.
  intros HU HW EV. induction HU as [|x u Hx HU IH]; intros n; [reflexivity|].
  change (act (x :: u) (act w psi) n) with (fop (fst x) (snd x) (act u (act w psi)) n). unfold fop. rewrite (ferm_ext _ _ _ _ _ IH).
  change (act (x :: w) (act u psi) n = act w (act (x :: u) psi) n). rewrite (crt_pass no x w) by assumption. rewrite <- Nat.negb_even, EV. cbn [negb sb].
  rewrite act_app. change (act [x] (act u psi)) with (act (x :: u) psi). ring.
Qed.
(** a letter moved through a string *)
Lemma move_through x psi N : forall ys n, length n = N ->
  fop (fst x) (snd x) (act ys psi) n =
  suml (picks ys) (fun t => sgn (fst (fst t)) * antic N x (snd (fst t)) * act (snd t) psi n) + sb (Nat.odd (length ys)) * act ys (fop (fst x) (snd x) psi) n.
Proof.
  induction ys as [|y ys IH]; intros n L; [cbn; ring|].
  change (act (y :: ys) psi) with (fop (fst y) (snd y) (act ys psi)).
  pose proof (anticommutator (fst x) (fst y) n (snd x) (snd y) (act ys psi)) as AC.
  cbn [picks suml fst snd]. rewrite suml_map. cbn [fst snd sgn].
  change (fop (fst x) (snd x) (fop (fst y) (snd y) (act ys psi)) n) with (ferm (fst x) (snd x) n (fop (fst y) (snd y) (act ys psi))).
  transitivity ((if (xorb (fst x) (fst y) && Nat.eqb (snd x) (snd y) && Nat.ltb (snd x) (length n))%bool then act ys psi n else 0) - ferm (fst y) (snd y) n (fop (fst x) (snd x) (act ys psi))).
  { rewrite <- AC. ring. }
  rewrite (ferm_cong (fst y) n (snd y) O _ (fun m => suml (picks ys) (fun t => sgn (fst (fst t)) * antic N x (snd (fst t)) * act (snd t) psi m) + sb (Nat.odd (length ys)) * act ys (fop (fst x) (snd x) psi) m)).
  2:{ intros m Lm _. apply IH. congruence. }
  rewrite ferm_plus, ferm_scale, (ferm_suml (fst y) n (snd y) (picks ys) (fun t m => sgn (fst (fst t)) * antic N x (snd (fst t)) * act (snd t) psi m)).
  change (ferm (fst y) (snd y) n (act ys (fop (fst x) (snd x) psi))) with (act (y :: ys) (fop (fst x) (snd x) psi) n).
  rewrite (suml_ext _ (picks ys) (fun t => sgn (negb (fst (fst t))) * _ * _) (fun t => - ferm (fst y) (snd y) n (fun m => sgn (fst (fst t)) * antic N x (snd (fst t)) * act (snd t) psi m))).
  2:{ intros t _. rewrite ferm_scale. change (ferm (fst y) (snd y) n (act (snd t) psi)) with (act (y :: snd t) psi n). destruct (fst (fst t)); cbn [negb sgn]; ring. }
  rewrite suml_opp. change (length (y :: ys)) with (S (length ys)). rewrite Nat.odd_succ, <- Nat.negb_odd.
  unfold antic at 2. rewrite <- L. destruct (_ && _)%bool, (Nat.odd (length ys)); cbn [negb sb]; ring.
Qed.

(** ** Dressing with a symbolic cluster operator *)
Section Dressing.
  Variables no nv : nat.
  Notation range := (so_range no nv).
  Variable A : N -> list nat -> Qc.
  Notation B := (A' A).
  Notation osem := (osem no nv B).
  Notation oact := (oact no nv B).
  Notation agr := (agr no (no + nv)).
  Notation eqN := (eqN (no + nv)).

  Definition isc (o : vop) : bool := (ov (spc (snd o)) && negb (killer o))%bool.
  Lemma isc_crt e o : isc o = true -> In (e (snd o)) (range (spc (snd o))) -> crt no (inst e o).
  Proof.
    unfold isc. rewrite andb_true_iff, negb_true_iff. intros [H1 H2] H. destruct (typed_lt no nv e o H1 H) as [_ LT].
    unfold crt, inst. cbn [fst snd]. rewrite LT. unfold killer in H2. unfold ov in H1. destruct (fst o); cbn [negb]; [exact H2|].
    rewrite H2, orb_false_r in H1. exact H1.
  Qed.
  Definition cterm (t : oterm) : bool :=
    (forallb (fun o => isc o && memv (snd o) (od t))%bool (oo t) && Nat.even (length (oo t)) && existsb (fun o : vop => fst o) (oo t))%bool.
  Lemma cterm_crt t e : forallb (fun o => isc o && memv (snd o) (od t))%bool (oo t) = true -> (forall v, In v (od t) -> In (e v) (range (spc v))) -> Forall (crt no) (map (inst e) (oo t)).
  Proof.
    intros H He. rewrite forallb_forall in H. apply Forall_forall. intros y Hy. apply in_map_iff in Hy. destruct Hy as [o [<- Ho]].
    specialize (H o Ho). apply andb_true_iff in H. destruct H as [H1 H2]. apply isc_crt; [exact H1|]. apply He, memv_In, H2.
  Qed.

  Variable ts : nat -> list oterm.
  Hypothesis TC : forall c, (c < 10)%nat -> forallb cterm (ts c) = true.
  Variable Top : Fock.op.
  Hypothesis HT : forall e c psi n, (c < 10)%nat -> Top psi n = osem e (ts c) psi n.

  Lemma top_lin : lin Top. Proof using HT. exact (lin_Top no nv B ts Top HT). Qed.
  (** it raises the level *)
  Lemma agr_act_crt ops : Forall (crt no) ops -> forall L psi phi, agr L psi phi ->
    agr (if existsb (fun o => fst o) ops then S L else L) (act ops psi) (act ops phi).
  Proof.
    induction 1 as [|o ops Ho H IH]; intros L psi phi HL; [exact HL|]. cbn [existsb]. specialize (IH L psi phi HL).
    change (agr (if (fst o || existsb (fun o => fst o) ops)%bool then S L else L) (fop (fst o) (snd o) (act ops psi)) (fop (fst o) (snd o) (act ops phi))).
    eapply agr_weak; [|apply agr_fop, IH]. unfold crt in Ho. rewrite Ho. destruct (fst o), (existsb _ ops); cbn; lia.
  Qed.
  Lemma top_agr L psi phi : agr L psi phi -> agr (S L) (Top psi) (Top phi).
  Proof using HT TC.
    intros H n Hn HL. rewrite !(HT (fun _ => O) 0%nat) by lia. unfold Wick.osem. apply suml_ext. intros t Ht.
    pose proof (TC 0%nat ltac:(lia)) as K. rewrite forallb_forall in K. specialize (K t Ht). unfold cterm in K. rewrite !andb_true_iff in K. destruct K as [[K1 _] K3].
    unfold Wick.oact. f_equal. apply sumD_ext_in. intros e' _ He'. f_equal.
    apply (agr_act_crt (map (inst e') (oo t)) (cterm_crt t e' K1 He') L psi phi H); [exact Hn|].
    replace (existsb (fun o => fst o) (map (inst e') (oo t))) with true; [exact HL|]. symmetry. rewrite existsb_exists in K3. destruct K3 as [o [O1 O2]].
    apply existsb_exists. exists (inst e' o). split; [apply in_map, O1|exact O2].
  Qed.
  (** it commutes with creators *)
  Lemma top_comm u psi n : Forall (crt no) u -> act u (Top psi) n = Top (act u psi) n.
  Proof using HT TC.
    intros HU. rewrite (act_ext u _ (osem (fun _ => O) (ts 0) psi)) by (intros m; apply HT; lia). rewrite (HT (fun _ => O) 0%nat) by lia.
    unfold Wick.osem. rewrite (act_suml u (ts 0) (fun t m => oact (fun _ => O) t psi m)). apply suml_ext. intros t Ht.
    pose proof (TC 0%nat ltac:(lia)) as K. rewrite forallb_forall in K. specialize (K t Ht). unfold cterm in K. rewrite !andb_true_iff in K. destruct K as [[K1 K2] _].
    unfold Wick.oact. rewrite act_scale, act_sumD. f_equal. apply sumD_ext_in. intros e' _ He'. rewrite act_scale. f_equal.
    apply (crt_comm no); [exact HU|apply cterm_crt; assumption|rewrite map_length; exact K2].
  Qed.
  (** one letter and one copy of the cluster operator *)
  Definition contr1 (x : vop) (t : oterm) : list oterm :=
    flat_map (fun p : bool * vop * list vop => if compat x (snd (fst p)) then
       [OT (if fst (fst p) then oc t else (- oc t)%Q) (od t) ((dlt, [snd x; snd (snd (fst p))]) :: ofs t) (snd p)] else []) (picks (oo t)).
  Definition contr (c : nat) (x : vop) : list oterm := flat_map (contr1 x) (ts c).
  Definition dress (c : nat) (x : vop) : list oterm := OT 1 [] [] [x] :: contr c x.
  Definition fresh (x : vop) (c : nat) : bool := forallb (fun t => negb (memv (snd x) (od t))) (ts c).
  Lemma antic_compat e x y : ov (spc (snd x)) = true -> In (e (snd x)) (range (spc (snd x))) -> ov (spc (snd y)) = true -> In (e (snd y)) (range (spc (snd y))) ->
    antic (no + nv) (inst e x) (inst e y) = if compat x y then evalF B e (dlt, [snd x; snd y]) else 0.
  Proof.
    intros O1 R1 O2 R2. destruct (typed_lt no nv e x O1 R1) as [LT ISO]. destruct (typed_lt no nv e y O2 R2) as [LT2 ISO2].
    destruct (compat x y) eqn:CX; unfold compat in CX.
    - apply andb_true_iff in CX. destruct CX as [CX _]. unfold antic, inst, evalF, A'. cbn [fst snd map]. rewrite N.eqb_refl, CX, (proj2 (Nat.ltb_lt _ _) LT), andb_true_r. reflexivity.
    - unfold antic, inst. cbn [fst snd]. destruct (xorb (fst x) (fst y)); [|reflexivity]. cbn [andb] in *.
      destruct (Nat.eqb_spec (e (snd x)) (e (snd y))) as [EQ|]; [|reflexivity]. exfalso.
      rewrite EQ in ISO. rewrite ISO in ISO2. apply N.eqb_neq in CX. apply CX.
      unfold ov in O1, O2. destruct (N.eqb_spec (spc (snd x)) 0), (N.eqb_spec (spc (snd y)) 0); cbn in *; try discriminate; try congruence.
      apply N.eqb_eq in O1, O2. congruence.
  Qed.
  Lemma letter_top e c x psi : (c < 10)%nat -> typed no nv e [x] -> fresh x c = true ->
    eqN (fop (fst x) (e (snd x)) (Top psi)) (fun n => Top (fop (fst x) (e (snd x)) psi) n + osem e (contr c x) psi n).
  Proof using HT TC.
    intros HC HX HF n Hn. destruct (HX x (or_introl eq_refl)) as [O1 R1].
    unfold fop at 1. rewrite (ferm_ext _ _ _ _ (osem e (ts c) psi)) by (intros m; apply HT, HC). rewrite (HT e c) by exact HC.
    unfold Wick.osem. rewrite (ferm_suml _ _ _ (ts c) (fun t m => oact e t psi m)). unfold contr. rewrite suml_flat_map, <- suml_plus. apply suml_ext. intros t Ht.
    pose proof (TC c HC) as K. rewrite forallb_forall in K. specialize (K t Ht). unfold cterm in K. rewrite !andb_true_iff in K. destruct K as [[K1 K2] _].
    unfold fresh in HF. rewrite forallb_forall in HF. specialize (HF t Ht). rewrite negb_true_iff in HF.
    unfold Wick.oact at 1. rewrite ferm_scale. change (ferm (fst x) (e (snd x)) n) with (fun psi => act [inst e x] psi n). cbv beta. rewrite act_sumD.
    unfold contr1. rewrite suml_flat_map.
    rewrite (suml_ext _ (picks (oo t)) _ (fun p => Q2Qc (oc t) * sumD range (od t) (fun e' => evalFs B (ofs t) e' * (sgn (fst (fst p)) * antic (no + nv) (inst e' x) (inst e' (snd (fst p))) * act (map (inst e') (snd p)) psi n)) e)).
    - unfold Wick.oact. rewrite suml_scale, <- Qcmult_plus_distr_r. f_equal.
      assert (SW : forall (ws : list (bool * vop * list vop)) ds F e, suml ws (fun u => sumD range ds (F u) e) = sumD range ds (fun e' => suml ws (fun u => F u e')) e).
      { clear. intros ws ds F. induction ds as [|d ds IH]; intros e; cbn [sumD]; [reflexivity|]. rewrite suml_swap. apply suml_ext. intros x _. apply IH. }
      rewrite SW.
      assert (PL : forall ds F G e, sumD range ds F e + sumD range ds G e = sumD range ds (fun e' => F e' + G e') e).
      { clear. intros ds F G. induction ds as [|d ds IH]; intros e; cbn [sumD]; [reflexivity|]. rewrite <- suml_plus. apply suml_ext. intros x _. apply IH. }
      rewrite PL. apply sumD_ext_in. intros e' He1 He2. rewrite act_scale.
      assert (EX : inst e x = inst e' x).
      { unfold inst. rewrite He1; [reflexivity|]. intros I. apply memv_In in I. congruence. }
      change (act [inst e x] (act (map (inst e') (oo t)) psi) n) with (fop (fst (inst e x)) (snd (inst e x)) (act (map (inst e') (oo t)) psi) n).
      rewrite (move_through (inst e x) psi (no + nv)) by exact Hn. rewrite map_length, <- Nat.negb_even, K2. cbn [negb sb].
      rewrite picks_map, suml_map. cbn [fst snd]. rewrite suml_scale, EX. change (fst (inst e' x)) with (fst x). change (snd (inst e' x)) with (e' (snd x)).
      replace (e (snd x)) with (e' (snd x)) by (injection EX as ->; reflexivity). ring.
    - intros p Hp. destruct (picks_in _ _ Hp) as [P1 [P2 _]]. rewrite forallb_forall in K1. specialize (K1 _ P1). apply andb_true_iff in K1. destruct K1 as [I1 I2].
      unfold isc in I1. apply andb_true_iff in I1. destruct I1 as [I1 _].
      assert (AN : forall e', (forall v, ~ In v (od t) -> e' v = e v) -> (forall v, In v (od t) -> In (e' v) (range (spc v))) ->
        antic (no + nv) (inst e' x) (inst e' (snd (fst p))) = if compat x (snd (fst p)) then evalF B e' (dlt, [snd x; snd (snd (fst p))]) else 0).
      { intros e' He1 He2. apply antic_compat; [exact O1| |exact I1|apply He2, memv_In, I2]. rewrite He1; [exact R1|]. intros I. apply memv_In in I. congruence. }
      destruct (compat x (snd (fst p))) eqn:CX.
      + cbn [suml]. rewrite Qcplus_0_r. unfold Wick.oact. cbn [oc od ofs oo].
        transitivity (Q2Qc (oc t) * sumD range (od t) (fun e' => sgn (fst (fst p)) * (evalFs B ((dlt, [snd x; snd (snd (fst p))]) :: ofs t) e' * act (map (inst e') (snd p)) psi n)) e).
        * rewrite sumD_const. destruct (fst (fst p)); cbn [sgn]; [ring|]. replace (Q2Qc (- oc t)) with (- Q2Qc (oc t)); [ring|].
          apply Qc_is_canon. unfold Qcopp, Q2Qc. cbn [this]. rewrite !Qred_correct. reflexivity.
        * f_equal. apply sumD_ext_in. intros e' He1 He2. rewrite AN by assumption. cbn [evalFs]. ring.
      + cbn [suml]. symmetry. rewrite (sumD_ext_in no nv _ _ (fun _ => 0)); [rewrite sumD_zero; ring|]. intros e' He1 He2. rewrite AN by assumption. ring.
  Qed.
  Lemma contr_crt c x u e : (c < 10)%nat -> In u (contr c x) -> (forall v, In v (od u) -> In (e v) (range (spc v))) -> Forall (crt no) (map (inst e) (oo u)).
  Proof using TC.
    intros HC Hu He. unfold contr in Hu. apply in_flat_map in Hu. destruct Hu as [t [Ht Hu]]. unfold contr1 in Hu. apply in_flat_map in Hu. destruct Hu as [p [Hp Hu]].
    destruct (compat x (snd (fst p))); [|destruct Hu]. destruct Hu as [<-|[]]. cbn [od oo] in *.
    pose proof (TC c HC) as K. rewrite forallb_forall in K. specialize (K t Ht). unfold cterm in K. rewrite !andb_true_iff in K. destruct K as [[K1 _] _].
    pose proof (cterm_crt t e K1 He) as F. rewrite Forall_forall in F. apply Forall_forall. intros y Hy. apply in_map_iff in Hy. destruct Hy as [o [<- Ho]].
    apply F, in_map. destruct (picks_in _ _ Hp) as [_ [P2 _]]. apply P2, Ho.
  Qed.
  Lemma contr_top e c x psi : (c < 10)%nat -> eqN (osem e (contr c x) (Top psi)) (Top (osem e (contr c x) psi)).
  Proof using HT TC.
    intros HC n _. unfold Wick.osem. rewrite (lin_suml Top top_lin (contr c x) (fun u m => oact e u psi m)). apply suml_ext. intros u Hu.
    unfold Wick.oact. rewrite (lin_scale Top top_lin), (lin_sumD Top top_lin range (od u) (fun e' m => evalFs B (ofs u) e' * act (map (inst e') (oo u)) psi m)). f_equal.
    apply sumD_ext_in. intros e' _ He'. rewrite (lin_scale Top top_lin). f_equal. apply top_comm. eapply contr_crt; [exact HC|exact Hu|exact He'].
  Qed.
  Lemma eqN_osem e l psi phi : eqN psi phi -> eqN (osem e l psi) (osem e l phi).
  Proof using.
    intros H n Hn. unfold Wick.osem. apply suml_ext. intros u _. unfold Wick.oact. f_equal. apply sumD_ext. intros e'. f_equal.
    apply (eqN_act no _ _ _ _ H n Hn).
  Qed.
  Lemma letter_expo e c x K psi : (c < 10)%nat -> typed no nv e [x] -> fresh x c = true -> (1 <= K)%nat ->
    agr K (fop (fst x) (e (snd x)) (expo K 1 Top psi)) (expo K 1 Top (osem e (dress c x) psi)).
  Proof using HT TC.
    intros HC HX HF HK. destruct K as [|K]; [lia|].
    eapply agr_trans; [apply (expo_letter no (no + nv) Top top_lin top_agr (fop (fst x) (e (snd x))) (osem e (contr c x)))|].
    - apply lin_fop.
    - apply lin_osem.
    - intros phi. apply letter_top; assumption.
    - intros phi. apply contr_top, HC.
    - apply eqN_agr. intros n _. apply (proj1 (lin_expo Top top_lin (S K) 1)). intros m. unfold dress, Wick.osem. cbn [suml]. f_equal.
      unfold Wick.oact. cbn [oc od ofs oo sumD evalFs map]. change (Q2Qc 1) with 1. cbn. ring.
  Qed.
  (** strings *)
  Fixpoint dr (e : env) (c : nat) (xs : list vop) (psi : ket) : ket :=
    match xs with [] => psi | x :: r => osem e (dress c x) (dr e (S c) r psi) end.
  Fixpoint drs (c : nat) (xs : list vop) : list oterm :=
    match xs with [] => [unit_] | x :: r => omuls (dress c x) (drs (S c) r) end.
  Fixpoint drs_ok (c : nat) (xs : list vop) : bool :=
    match xs with [] => true | x :: r => (fresh x c && odisjs (dress c x) (drs (S c) r) && drs_ok (S c) r)%bool end.
  Lemma dr_drs e xs : forall c psi n, drs_ok c xs = true -> dr e c xs psi n = osem e (drs c xs) psi n.
  Proof using.
    induction xs as [|x r IH]; intros c psi n H; cbn [dr drs drs_ok] in *.
    - unfold Wick.osem, Wick.oact. cbn. change (Q2Qc 1) with 1. ring.
    - rewrite !andb_true_iff in H. destruct H as [[_ H1] H2]. rewrite <- osem_omuls by exact H1. apply osem_ext. intros m. apply IH, H2.
  Qed.
  Lemma string_expo e K psi : (1 <= K)%nat -> forall xs c, (c + length xs <= 10)%nat -> typed no nv e xs -> drs_ok c xs = true ->
    agr (K - length xs) (act (map (inst e) xs) (expo K 1 Top psi)) (expo K 1 Top (dr e c xs psi)).
  Proof using HT TC.
    intros HK. induction xs as [|x r IH]; intros c HC HX H; cbn [map dr].
    - intros n _ _. reflexivity.
    - cbn [drs_ok length] in *. rewrite !andb_true_iff in H. destruct H as [[H0 _] H2].
      specialize (IH (S c) ltac:(lia) (fun o Ho => HX o (or_intror Ho)) H2).
      change (act (inst e x :: map (inst e) r) (expo K 1 Top psi)) with (fop (fst x) (e (snd x)) (act (map (inst e) r) (expo K 1 Top psi))).
      destruct (Nat.le_gt_cases K (length r)) as [LE|GT]; [intros n _ HL; lia|].
      eapply agr_trans.
      + apply agr_fop1. eapply agr_weak; [|exact IH]. lia.
      + eapply agr_weak; [|apply (letter_expo e c x K)]; [lia|lia| |exact H0|exact HK]. intros o [<-|[]]. apply HX. left. reflexivity.
  Qed.
  (** the dressed Hamiltonian *)
  Definition bindh (h y : oterm) : oterm := OT (Qred (oc h * oc y)) (od h ++ od y) (ofs h ++ ofs y) (oo y).
  Definition hbar (hs : list oterm) : list oterm := flat_map (fun h => map (bindh h) (drs 0 (oo h))) hs.
  Definition hbar_ok (hs : list oterm) : bool :=
    forallb (fun h => allsum h && Nat.leb (length (oo h)) 4 && drs_ok 0 (oo h) && forallb (fun y => disj (od y) (fvars (ofs h))) (drs 0 (oo h)))%bool hs.
  Lemma hbar_term e h psi n : hbar_ok [h] = true ->
    suml (map (bindh h) (drs 0 (oo h))) (fun t => oact e t psi n) = Q2Qc (oc h) * sumD range (od h) (fun e' => evalFs B (ofs h) e' * dr e' 0 (oo h) psi n) e.
  Proof using.
    unfold hbar_ok. cbn [forallb]. rewrite !andb_true_iff. intros [[[[_ _] H1] H2] _]. rewrite forallb_forall in H2.
    rewrite (sumD_ext range _ _ (fun e' => suml (drs 0 (oo h)) (fun y => evalFs B (ofs h) e' * oact e' y psi n))).
    2:{ intros e'. rewrite (dr_drs e' _ _ _ _ H1). unfold Wick.osem. rewrite suml_scale. reflexivity. }
    assert (SW : forall (ws : list oterm) ds F e, sumD range ds (fun e' => suml ws (fun u => F u e')) e = suml ws (fun u => sumD range ds (F u) e)).
    { clear. intros ws ds F. induction ds as [|d ds IH]; intros e; cbn [sumD]; [reflexivity|]. rewrite suml_swap. apply suml_ext. intros x _. apply IH. }
    rewrite SW, <- suml_scale, suml_map. apply suml_ext. intros y Hy. specialize (H2 y Hy). unfold Wick.oact. cbn [bindh oc od ofs oo].
    rewrite Q2Qc_red, Q2Qc_mult, sumD_app, <- Qcmult_assoc. f_equal. rewrite <- sumD_const. apply sumD_ext. intros e'.
    transitivity (Q2Qc (oc y) * (evalFs B (ofs h) e' * sumD range (od y) (fun e'' => evalFs B (ofs y) e'' * act (map (inst e'') (oo y)) psi n) e')); [|ring].
    f_equal. rewrite <- sumD_const. apply sumD_ext_in. intros e'' He1 _. rewrite evalFs_app, (evalFs_agree B (ofs h) e'' e'); [ring|].
    intros v Hv. apply He1. intros I. exact (disj_spec _ _ _ H2 I Hv).
  Qed.
  Lemma hbar_expo e hs K psi : hbar_ok hs = true -> (1 <= K)%nat ->
    agr (K - 4) (osem e hs (expo K 1 Top psi)) (expo K 1 Top (osem e (hbar hs) psi)).
  Proof using HT TC.
    intros H HK n Hn HL. unfold hbar. unfold Wick.osem at 1.
    rewrite (proj1 (lin_expo Top top_lin K 1) _ (fun m => suml hs (fun h => Q2Qc (oc h) * sumD range (od h) (fun e' => evalFs B (ofs h) e' * dr e' 0 (oo h) psi m) e))).
    - rewrite (lin_suml _ (lin_expo Top top_lin K 1) hs (fun h m => Q2Qc (oc h) * sumD range (od h) (fun e' => evalFs B (ofs h) e' * dr e' 0 (oo h) psi m) e)).
      apply suml_ext. intros h Hh. unfold hbar_ok in H. rewrite forallb_forall in H. specialize (H h Hh). rewrite !andb_true_iff in H. destruct H as [[[HA H4] H1] _].
      rewrite (lin_scale _ (lin_expo Top top_lin K 1)), (lin_sumD _ (lin_expo Top top_lin K 1) range (od h) (fun e' m => evalFs B (ofs h) e' * dr e' 0 (oo h) psi m)).
      unfold Wick.oact. f_equal. apply sumD_ext_in. intros e' _ He'. rewrite (lin_scale _ (lin_expo Top top_lin K 1)). f_equal.
      apply Nat.leb_le in H4. apply (string_expo e' K psi HK (oo h) 0); [lia| |exact H1|exact Hn|lia].
      intros o Ho. unfold allsum in HA. rewrite forallb_forall in HA. specialize (HA o Ho). apply andb_true_iff in HA. destruct HA as [I1 I2]. split; [exact I1|]. apply He', memv_In, I2.
    - intros m. unfold Wick.osem. rewrite suml_flat_map. apply suml_ext. intros h Hh. apply hbar_term. unfold hbar_ok in *. rewrite forallb_forall in H. cbn [forallb].
      rewrite (H h Hh). reflexivity.
  Qed.
  Variables f g : tensor.
  Hypothesis A0 : forall p q, (p < no + nv)%nat -> (q < no + nv)%nat -> A 0%N [p; q] = data f [p; q].
  Hypothesis A1 : forall p q r s, (p < no + nv)%nat -> (q < no + nv)%nat -> (r < no + nv)%nat -> (s < no + nv)%nat -> A 1%N [p; q; r; s] = data g [p; q; r; s].
  Lemma agr_bra e D L psi phi : agr (nann D + L) psi phi -> agr L (act (map (inst e) D) psi) (act (map (inst e) D) phi).
  Proof using.
    revert L. induction D as [|o D IH]; intros L H; [exact H|]. cbn [map nann] in *.
    change (agr L (fop (fst o) (e (snd o)) (act (map (inst e) D) psi)) (fop (fst o) (e (snd o)) (act (map (inst e) D) phi))).
    destruct (fst o) eqn:E.
    - eapply agr_weak; [|apply agr_fop, IH, H]. unfold olev. destruct (negb _); lia.
    - eapply agr_weak; [|apply agr_fop, (IH (S L))]. { unfold olev. destruct (negb _); lia. } eapply agr_weak; [|exact H]. lia.
  Qed.
  Theorem hbar_elem e D K : hbar_ok hams = true -> (nann D + 5 <= K)%nat ->
    act (map (inst e) D) (cc_state K no nv f g Top) (ref no nv) = act (map (inst e) D) (osem e (hbar hams) (Phi no nv)) (ref no nv).
  Proof using HT TC A0 A1.
    intros H HK. apply (agr_bra e D 1 _ (osem e (hbar hams) (Phi no nv))); [|apply ref_len|rewrite lev_ref; lia].
    unfold cc_state. eapply agr_trans.
    - apply (agr_expo no (no + nv) Top top_agr K (- (1))). apply (agr_weak no (no + nv) (K - 4)); [lia|]. eapply agr_trans.
      + apply eqN_agr. intros n _. apply (ham_sem no nv B f g A0 A1 e).
      + apply hbar_expo; [exact H|lia].
    - eapply agr_weak; [|apply (expo_inverse no (no + nv) Top top_lin top_agr)]. lia.
  Qed.
End Dressing.
