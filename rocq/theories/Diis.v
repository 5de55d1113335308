(** Model of /repo/UT2/diis.py (class DIIS).  [None] = an exception.
    Simplifications: `np.linalg.solve` is a parameter (any function that returns exact solutions); only the
    one-dimensional branch of `edot` is modelled, the only one the callers reach (kernel.py:379 and
    run_ccd.py:470 pass flattened vectors). *)
From Coq Require Import List Arith ZArith QArith Qcanon Bool Lia.
From Verif Require Import Sums Tensor Interp Numpy.
Import ListNotations.
Open Scope Qc_scope.

Notation vec := (list Qc).
Notation matrix := (nat -> nat -> Qc).
(** `np.linalg.solve(A, b)` for an n x n system; None = LinAlgError *)
Definition solver := nat -> matrix -> (nat -> Qc) -> option (nat -> Qc).

(** diis.py:25-39 __init__ *)
Record diis := mkDiis { nvecs : nat; prev_vecs : list vec; error_vecs : list vec; start_iter : nat; iter_idx : nat }.
Definition diis_new (num_diis_vecs start : nat) : diis := mkDiis num_diis_vecs [] [] start 0.

(** diis.py:95-109 edot, one-dimensional branch; numpy raises ValueError for different lengths *)
Definition edot (a b : vec) : option Qc :=
  if Nat.eqb (length a) (length b) then Some (suml (zipw Qcmult a b) (fun x => x)) else None.

(** b[i,j] = x *)
Definition mput (i j : nat) (x : Qc) (b : matrix) : matrix :=
  fun k l => if (Nat.eqb k i && Nat.eqb l j)%bool then x else b k l.
(** one pass of the loop body, diis.py:80-83 *)
Definition bmat_step (es : list vec) (b : option matrix) (ij : nat * nat) : option matrix :=
  do m <- b;
  let (i, j) := ij in
  if Nat.leb i j then
    do x <- edot (nth i es []) (nth j es []);
    let m1 := mput i j x m in Some (mput j i (m1 i j) m1)
  else Some m.
(** diis.py:74-93 get_bmat: the bordered matrix and the right-hand side *)
Definition get_bmat (dim : nat) (es : list vec) : option (matrix * (nat -> Qc)) :=
  do b <- fold_left (bmat_step es) (list_prod (seq 0 dim) (seq 0 dim)) (Some (fun _ _ => 0));
  let h : matrix := fun i j => if Nat.ltb j dim then b i j else - (1) in          (* hstack *)
  let v : matrix := fun i j => if Nat.ltb i dim then h i j else - (1) in          (* vstack *)
  Some (mput dim dim 0 v, fun i => if Nat.eqb i dim then - (1) else 0).

(** diis.py:66-71 new_iterate *)
Definition combination (c : nat -> Qc) (vs : list vec) : option vec :=
  match vs with
  | [] => None
  | v0 :: _ =>
      fold_left (fun acc ii => do a <- acc; vbin Qcplus a (map (Qcmult (c ii)) (nth ii vs [])))
        (seq 0 (length vs)) (Some (map (fun _ => 0) v0))
  end.

(** diis.py:41-72 compute_new_vec *)
Definition compute_new_vec (solve : solver) (d : diis) (iterate error : vec) : option (vec * diis) :=
  if Nat.ltb (iter_idx d) (start_iter d)
  then Some (iterate, mkDiis (nvecs d) (prev_vecs d) (error_vecs d) (start_iter d) (S (iter_idx d)))
  else
    let pv := (prev_vecs d ++ [iterate])%list in
    let ev := (error_vecs d ++ [error])%list in
    let (pv, ev) := if Nat.ltb (nvecs d) (length pv) then (tl pv, tl ev) else (pv, ev) in
    let d' := mkDiis (nvecs d) pv ev (start_iter d) (S (iter_idx d)) in
    let dim := length pv in
    do br <- get_bmat dim ev;
    do c <- solve (S dim) (fst br) (snd br);
    do v <- combination c pv;
    Some (v, d').

(** ** The bordered matrix *)
Lemma edot_comm a b : edot a b = edot b a.
Proof.
  unfold edot. rewrite (Nat.eqb_sym (length b)). destruct (Nat.eqb_spec (length a) (length b)) as [E|]; [|reflexivity].
  f_equal. f_equal. revert b E. induction a as [|x a IH]; intros [|y b] E; cbn in E; try lia; [reflexivity|].
  unfold zipw in *. cbn [combine map fst snd]. rewrite Qcmult_comm, (IH b) by lia. reflexivity.
Qed.

Section BMat.
  Variable es : list vec.
  Definition dotij (i j : nat) : option Qc := edot (nth i es []) (nth j es []).
  Lemma fold_none l : fold_left (bmat_step es) l None = None.
  Proof. induction l as [|x l IH]; [reflexivity|]. exact IH. Qed.
  (** after the loop every visited pair holds the dot product *)
  Lemma fold_spec l : forall b b', fold_left (bmat_step es) l (Some b) = Some b' ->
    forall i j, (In (i, j) l \/ In (j, i) l -> (i <= j)%nat -> In (i, j) l) ->
      (In (i, j) l -> (i <= j)%nat -> dotij i j = Some (b' i j) /\ b' j i = b' i j).
  Proof.
    induction l as [|[p q] l IH] using rev_ind; intros b b' HF i j _ HI Hij; [destruct HI|].
    rewrite fold_left_app in HF. cbn [fold_left] in HF.
    destruct (fold_left (bmat_step es) l (Some b)) as [m|] eqn:E; cbn [bmat_step obind] in HF; [|discriminate].
    destruct (Nat.leb_spec p q) as [Hpq|Hpq].
    - destruct (edot (nth p es []) (nth q es [])) as [x|] eqn:Ex; cbn [obind] in HF; [|discriminate].
      injection HF as <-. unfold mput. rewrite !Nat.eqb_refl. cbn [andb].
      assert (D : (i = p /\ j = q) \/ (In (i, j) l /\ ~ (i = p /\ j = q))).
      { destruct (Nat.eq_dec i p), (Nat.eq_dec j q); try (left; split; assumption);
          right; (split; [|lia]); apply in_app_or in HI; destruct HI as [HI|[HI|[]]]; try exact HI; congruence. }
      destruct D as [[D1 D2]|[D1 D2]].
      + rewrite D1, D2, !Nat.eqb_refl. cbn [andb]. split; [unfold dotij; rewrite Ex; f_equal|].
        * destruct (Nat.eqb p q && Nat.eqb q p)%bool; reflexivity.
        * destruct (Nat.eqb p q && Nat.eqb q p)%bool; reflexivity.
      + destruct (IH _ _ E i j (fun _ _ => D1) D1 Hij) as [A B].
        assert (F1 : (Nat.eqb i q && Nat.eqb j p)%bool = false)
          by (apply andb_false_iff; destruct (Nat.eqb_spec i q), (Nat.eqb_spec j p); auto; lia).
        assert (F2 : (Nat.eqb i p && Nat.eqb j q)%bool = false)
          by (apply andb_false_iff; destruct (Nat.eqb_spec i p), (Nat.eqb_spec j q); auto; lia).
        rewrite F1, F2, (andb_comm (Nat.eqb j q)), F2, (andb_comm (Nat.eqb j p)), F1. split; assumption.
    - injection HF as <-. apply in_app_or in HI. destruct HI as [HI|[HI|[]]].
      + apply (IH _ _ E i j (fun _ _ => HI) HI Hij).
      + injection HI as -> ->. lia.
  Qed.
End BMat.

Lemma get_bmat_spec dim es B rhs : get_bmat dim es = Some (B, rhs) ->
  (forall i j, (i < dim)%nat -> (j < dim)%nat -> edot (nth i es []) (nth j es []) = Some (B i j)) /\
  (forall i, (i < dim)%nat -> B i dim = - (1) /\ B dim i = - (1)) /\ B dim dim = 0 /\
  (forall i, (i < dim)%nat -> rhs i = 0) /\ rhs dim = - (1).
Proof.
  unfold get_bmat. destruct (fold_left _ _ _) as [b|] eqn:E; cbn [obind]; [|discriminate]. intros H.
  injection H as <- <-. unfold mput. rewrite !Nat.eqb_refl. cbn [andb].
  assert (HB : forall i j, (i < dim)%nat -> (j < dim)%nat -> edot (nth i es []) (nth j es []) = Some (b i j)).
  { intros i j Hi Hj.
    assert (HP : forall i j, (i < dim)%nat -> (j < dim)%nat -> In (i, j) (list_prod (seq 0 dim) (seq 0 dim)))
      by (intros; apply in_prod; apply in_seq; lia).
    destruct (Nat.le_ge_cases i j) as [L|L].
    - apply (fold_spec es _ _ _ E i j (fun _ _ => HP _ _ Hi Hj) (HP _ _ Hi Hj) L).
    - destruct (fold_spec es _ _ _ E j i (fun _ _ => HP _ _ Hj Hi) (HP _ _ Hj Hi) L) as [A C].
      rewrite edot_comm. unfold dotij in A. rewrite A, C. reflexivity. }
  repeat split.
  - intros i j Hi Hj. rewrite (HB i j Hi Hj).
    destruct (Nat.eqb_spec i dim); [lia|]. cbn [andb].
    destruct (Nat.ltb_spec i dim); [|lia]. destruct (Nat.ltb_spec j dim); [reflexivity|lia].
  - destruct (Nat.eqb_spec i dim); [lia|]. cbn [andb].
    destruct (Nat.ltb_spec i dim); [|lia]. destruct (Nat.ltb_spec dim dim); [lia|reflexivity].
  - destruct (Nat.eqb_spec i dim); [lia|]. cbn [andb]. destruct (Nat.ltb_spec dim dim); [lia|reflexivity].
  - intros i Hi. destruct (Nat.eqb_spec i dim); [lia|reflexivity].
Qed.
