(** Further numpy/Python primitives used by the drivers: `a.flatten()`, `np.hstack`, `v[i:j].reshape(s)`,
    `np.reciprocal`, `s in t` on strings, `range(a,b)`, dictionaries.
    Simplifications: exact rational entries; `1/0` is 0 (numpy gives inf and a warning), so statements that
    divide carry a non-zero hypothesis. *)
From Coq Require Import String Ascii List Arith ZArith QArith Qcanon Bool Lia.
From Verif Require Import Sums Tensor Interp.
Import ListNotations.
Open Scope nat_scope.

(** `a.size` *)
Definition size (sh : list nat) : nat := fold_right Nat.mul 1 sh.
(** All legal indices in row-major (C) order, the order of `a.flatten()`. *)
Fixpoint all_idx (sh : list nat) : list (list nat) :=
  match sh with
  | [] => [[]]
  | n :: r => flat_map (fun i => map (cons i) (all_idx r)) (seq 0 n)
  end.
(** `a.flatten()` *)
Definition flatten (t : tensor) : list Qc := map (data t) (all_idx (shape t)).
(** Position of an index in row-major order. *)
Fixpoint ravel (sh idx : list nat) : nat :=
  match sh, idx with
  | _ :: r, i :: idx' => i * size r + ravel r idx'
  | _, _ => 0
  end.
(** `v.reshape(sh)`; numpy raises ValueError when the sizes differ. *)
Definition reshape (sh : list nat) (v : list Qc) : option tensor :=
  if Nat.eqb (length v) (size sh) then Some (mkT sh (fun idx => nth (ravel sh idx) v 0%Qc)) else None.
(** `np.hstack((a, b, ...))` of vectors *)
Definition hstack (vs : list (list Qc)) : list Qc := concat vs.
(** `v[i:j]` and `v[i:]` of a vector *)
Definition vslice (i j : nat) (v : list Qc) : list Qc := firstn (j - i) (skipn i v).
Definition vfrom (i : nat) (v : list Qc) : list Qc := skipn i v.
(** elementwise arithmetic on vectors of the same length (numpy raises otherwise; the length-1 broadcast is
    not modelled) *)
Definition vbin (f : Qc -> Qc -> Qc) (a b : list Qc) : option (list Qc) :=
  if Nat.eqb (length a) (length b) then Some (zipw f a b) else None.
(** `np.reciprocal(a)` *)
Definition trecip (t : tensor) : tensor := mkT (shape t) (fun i => Qcinv (data t i)).
(** `a[i1,..,ik] = x` *)
Definition tput (idx : list nat) (x : Qc) (t : tensor) : tensor :=
  mkT (shape t) (fun j => if list_eq_dec Nat.eq_dec j idx then x else data t j).
(** `s in t` on strings *)
Definition contains (s t : string) : bool :=
  match String.index 0 s t with Some _ => true | None => false end.
(** `range(a, b)` *)
Definition prange (a b : nat) : list nat := seq a (b - a).

(** ** Facts *)
Lemma all_idx_length sh : length (all_idx sh) = size sh.
Proof.
  induction sh as [|n r IH]; [reflexivity|]. cbn [all_idx size fold_right].
  fold (size r). rewrite <- IH. generalize 0 as s. induction n as [|n IHn]; intros s; [reflexivity|].
  cbn [seq flat_map]. rewrite app_length, map_length, IHn. lia.
Qed.
Lemma flatten_length t : length (flatten t) = size (shape t).
Proof. unfold flatten. rewrite map_length. apply all_idx_length. Qed.

Lemma in_all_idx sh : forall idx, In idx (all_idx sh) <-> inr idx sh.
Proof.
  induction sh as [|n r IH]; intros idx; cbn [all_idx].
  - split; [intros [<-|[]]; constructor|]. intros H; inversion H; subst. left; reflexivity.
  - rewrite in_flat_map. split.
    + intros [i [Hi H]]. apply in_seq in Hi. apply in_map_iff in H. destruct H as [j [<- Hj]].
      constructor; [lia|]. apply IH, Hj.
    + intros H; inversion H as [|i m idx' r' Hlt HF]; subst. exists i. split; [apply in_seq; lia|].
      apply in_map, IH, HF.
Qed.

Lemma ravel_lt sh : forall idx, inr idx sh -> ravel sh idx < size sh.
Proof.
  induction sh as [|n r IH]; intros idx H; inversion H as [|i m idx' r' Hlt HF]; subst; cbn [ravel size fold_right].
  - lia.
  - fold (size r). specialize (IH _ HF). nia.
Qed.

Lemma nth_blocks {X} (d : X) k : forall (L : list (list X)) i j,
  (forall b, In b L -> length b = k) -> i < length L -> j < k -> nth (i * k + j) (concat L) d = nth j (nth i L []) d.
Proof.
  induction L as [|b L IH]; intros i j HL Hi Hj; cbn [length] in Hi; [lia|]. cbn [concat].
  pose proof (HL b (or_introl eq_refl)) as Hb. destruct i as [|i].
  - cbn [Nat.mul Nat.add nth]. apply app_nth1. lia.
  - rewrite app_nth2 by (cbn; lia). replace (S i * k + j - length b) with (i * k + j) by (cbn; lia).
    cbn [nth]. apply IH; [intros; apply HL; right; assumption|lia|exact Hj].
Qed.

Lemma nth_all_idx sh : forall idx, inr idx sh -> nth (ravel sh idx) (all_idx sh) [] = idx.
Proof.
  induction sh as [|n r IH]; intros idx H; inversion H as [|i m idx' r' Hlt HF]; subst; cbn [ravel all_idx].
  - reflexivity.
  - rewrite flat_map_concat_map.
    rewrite (nth_blocks ([] : list nat) (size r)).
    + rewrite (nth_indep _ [] (map (cons 0) (all_idx r))) by (rewrite map_length, seq_length; exact Hlt).
      rewrite (map_nth (fun i => map (cons i) (all_idx r))), seq_nth by exact Hlt. cbn [Nat.add].
      pose proof (ravel_lt _ _ HF) as HL.
      rewrite (nth_indep _ [] (i :: [])) by (rewrite map_length, all_idx_length; exact HL).
      rewrite (map_nth (cons i)), IH by exact HF. reflexivity.
    + intros b Hb. apply in_map_iff in Hb. destruct Hb as [x [<- _]]. rewrite map_length. apply all_idx_length.
    + rewrite map_length, seq_length. exact Hlt.
    + apply ravel_lt, HF.
Qed.

Lemma flatten_nth t idx : inr idx (shape t) -> nth (ravel (shape t) idx) (flatten t) 0%Qc = data t idx.
Proof.
  intros H. unfold flatten.
  rewrite (nth_indep _ 0%Qc (data t [])) by (rewrite map_length, all_idx_length; apply ravel_lt, H).
  rewrite map_nth. f_equal. apply nth_all_idx, H.
Qed.

(** Flattening and reshaping back gives the same array. *)
Lemma reshape_flatten t : exists t', reshape (shape t) (flatten t) = Some t' /\ teq t' t.
Proof.
  unfold reshape. rewrite flatten_length, Nat.eqb_refl. eexists; split; [reflexivity|].
  split; [reflexivity|]. cbn [shape data]. intros idx H. apply flatten_nth, H.
Qed.
Lemma zipw_nth f : forall (a b : list Qc) i, length a = length b ->
  f 0%Qc 0%Qc = 0%Qc -> nth i (zipw f a b) 0%Qc = f (nth i a 0%Qc) (nth i b 0%Qc).
Proof.
  unfold zipw. induction a as [|x a IH]; intros [|y b] i HL H0; cbn in HL; try lia.
  - destruct i; cbn; symmetry; exact H0.
  - destruct i as [|i]; cbn; [reflexivity|]. apply IH; [lia|exact H0].
Qed.
Lemma zipw_length {X Y Z} (f : X -> Y -> Z) a b : length a = length b -> length (zipw f a b) = length a.
Proof. intros H. unfold zipw. rewrite map_length, combine_length. lia. Qed.
