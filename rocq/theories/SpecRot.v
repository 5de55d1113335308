(** Specification for orbital rotations (C67): the occupied orbitals are mixed among themselves by an orthogonal matrix [Uo], and the
    virtual orbitals among themselves by an orthogonal matrix [Uv].  Reordering orbitals and changing their signs are special cases. *)
From Coq Require Import List Arith QArith Qcanon Bool.
From Verif Require Import Sums Tensor Interp Spec SpecFrag.
Import ListNotations.
Open Scope Qc_scope.

(** the columns of the n by n matrix [U] are orthonormal *)
Definition orthogonal (n : nat) (U : nat -> nat -> Qc) : Prop :=
  forall p q, (p < n)%nat -> (q < n)%nat -> (Sum k < n, U k p * U k q) = if Nat.eqb p q then 1 else 0.
(** The coefficient of old orbital j in new orbital i, for an index that counts occupied, virtual or all orbitals. *)
Definition rmat (no : nat) (Uo Uv : nat -> nat -> Qc) (k : kind) (i j : nat) : Qc :=
  match k with
  | Oc => Uo i j
  | Vi => Uv i j
  | Al => if Nat.ltb i no then if Nat.ltb j no then Uo i j else 0 else if Nat.ltb j no then 0 else Uv (i - no)%nat (j - no)%nat
  end.
(** The entry [idx] of the array [F] in the new orbitals: every index is transformed. *)
Fixpoint rot_at (no nv : nat) (Uo Uv : nat -> nat -> Qc) (ks : list kind) (F : list nat -> Qc) (idx : list nat) : Qc :=
  match ks, idx with
  | k :: ks', i :: idx' => Sum j < ksize no nv k, rmat no Uo Uv k i j * rot_at no nv Uo Uv ks' (fun r => F (j :: r)) idx'
  | _, _ => F []
  end.
(** [t'] is the array [t] in the new orbitals. *)
Definition rotated (no nv : nat) (Uo Uv : nat -> nat -> Qc) (ks : list kind) (t t' : tensor) : Prop :=
  shape t = map (ksize no nv) ks /\ shape t' = map (ksize no nv) ks /\
  forall idx, inr idx (shape t') -> data t' idx = rot_at no nv Uo Uv ks (data t) idx.

(** Reordering the orbitals of one space and changing some of their signs: new orbital i is [s i] times old orbital [p i]. *)
Definition is_relabelling (n : nat) (p : nat -> nat) (s : nat -> Qc) : Prop :=
  (forall i, (i < n)%nat -> (p i < n)%nat /\ s i * s i = 1) /\ (exists q, forall j, (j < n)%nat -> (q j < n)%nat /\ p (q j) = j) /\
  (forall i i', (i < n)%nat -> (i' < n)%nat -> p i = p i' -> i = i').
(** The old label and the sign of new orbital i, for an index that counts occupied, virtual or all orbitals. *)
Definition klabel (no : nat) (po pv : nat -> nat) (k : kind) (i : nat) : nat :=
  match k with Oc => po i | Vi => pv i | Al => if Nat.ltb i no then po i else (no + pv (i - no))%nat end.
Definition ksign (no : nat) (so sv : nat -> Qc) (k : kind) (i : nat) : Qc :=
  match k with Oc => so i | Vi => sv i | Al => if Nat.ltb i no then so i else sv (i - no)%nat end.
Definition signs (no : nat) (so sv : nat -> Qc) (ks : list kind) (idx : list nat) : Qc :=
  fold_right Qcmult 1 (map (fun p => ksign no so sv (fst p) (snd p)) (combine ks idx)).
Definition labels (no : nat) (po pv : nat -> nat) (ks : list kind) (idx : list nat) : list nat :=
  map (fun p => klabel no po pv (fst p) (snd p)) (combine ks idx).
(** [t'] is the array [t] after relabelling. *)
Definition relabelled (no nv : nat) (po pv : nat -> nat) (so sv : nat -> Qc) (ks : list kind) (t t' : tensor) : Prop :=
  shape t = map (ksize no nv) ks /\ shape t' = map (ksize no nv) ks /\
  forall idx, inr idx (shape t') -> data t' idx = signs no so sv ks idx * data t (labels no po pv ks idx).
(** The matrix that describes a relabelling. *)
Definition relabelling_matrix (p : nat -> nat) (s : nat -> Qc) (i j : nat) : Qc := if Nat.eqb j (p i) then s i else 0.
