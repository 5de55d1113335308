(** Specification for size consistency (C19): a system made of two fragments A and B.  Every occupied and every virtual spin orbital
    of the whole system belongs to exactly one fragment, in any order. *)
From Coq Require Import List Arith QArith Qcanon Bool Permutation.
From Verif Require Import Sums Tensor Interp.
Import ListNotations.
Open Scope Qc_scope.

Inductive frag := FA | FB.
(** The occupied (virtual) orbitals of each fragment, as indices of the occupied (virtual) orbitals of the whole system. *)
Record fragmap := mkFM { focc : frag -> list nat; fvir : frag -> list nat }.
Definition frag_ok (no nv : nat) (M : fragmap) : Prop :=
  Permutation (focc M FA ++ focc M FB) (seq 0 no) /\ Permutation (fvir M FA ++ fvir M FB) (seq 0 nv).
Definition fno (M : fragmap) (x : frag) : nat := length (focc M x).
Definition fnv (M : fragmap) (x : frag) : nat := length (fvir M x).

(** What an array index counts: occupied orbitals, virtual orbitals, or all orbitals (occupied first). *)
Inductive kind := Oc | Vi | Al.
Definition ksize (no nv : nat) (k : kind) : nat := match k with Oc => no | Vi => nv | Al => (no + nv)%nat end.
(** The orbital of the whole system that is orbital p of fragment x. *)
Definition korb (M : fragmap) (no : nat) (x : frag) (k : kind) (p : nat) : nat :=
  match k with
  | Oc => nth p (focc M x) O
  | Vi => nth p (fvir M x) O
  | Al => if Nat.ltb p (fno M x) then nth p (focc M x) O else (no + nth (p - fno M x) (fvir M x) O)%nat
  end.
Definition belongs (M : fragmap) (no : nat) (x : frag) (k : kind) (p : nat) : Prop :=
  match k with
  | Oc => In p (focc M x)
  | Vi => In p (fvir M x)
  | Al => if Nat.ltb p no then In p (focc M x) else In (p - no)%nat (fvir M x)
  end.
(** [b] is the part of the array [t] with all indices in fragment x. *)
Definition part (M : fragmap) (no : nat) (x : frag) (ks : list kind) (t b : tensor) : Prop :=
  shape b = map (ksize (fno M x) (fnv M x)) ks /\
  forall idx, inr idx (shape b) -> data b idx = data t (zipw (korb M no x) ks idx).
(** An index list with at least one index in fragment x. *)
Definition touches (M : fragmap) (no : nat) (x : frag) (ks : list kind) (idx : list nat) : Prop :=
  exists j k p, nth_error ks j = Some k /\ nth_error idx j = Some p /\ belongs M no x k p.
(** Entries that couple the fragments vanish. *)
Definition separate (M : fragmap) (no : nat) (ks : list kind) (t : tensor) : Prop :=
  forall idx, inr idx (shape t) -> touches M no FA ks idx -> touches M no FB ks idx -> data t idx = 0.
(** [t] is assembled from the fragment arrays [a] and [b] and nothing else. *)
Definition assembled (M : fragmap) (no : nat) (ks : list kind) (t a b : tensor) : Prop :=
  part M no FA ks t a /\ part M no FB ks t b /\ separate M no ks t.
Definition vo_kinds (k : nat) : list kind := (repeat Vi k ++ repeat Oc k)%list.
Definition ov_kinds (k : nat) : list kind := (repeat Oc k ++ repeat Vi k)%list.
