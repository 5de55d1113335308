(** Specification vocabulary for the driver theorems: orbital-energy denominators. *)
From Coq Require Import List Arith ZArith QArith Qcanon Bool Lia.
From Verif Require Import Sums Tensor Spec.
Import ListNotations.
Open Scope Qc_scope.

(** eps_i + eps_j + ... - eps_a - eps_b - ..., virtual orbital a being orbital no + a *)
Definition gap (no : nat) (eps : nat -> Qc) (virt occ : list nat) : Qc :=
  suml occ eps - suml virt (fun a => eps (no + a)%nat).
(** D[a,b,..,i,j,..] = 1 / (eps_i + eps_j + ... - eps_a - eps_b - ...); 1/0 = 0 here *)
Definition is_denominator (k no nv : nat) (eps : nat -> Qc) (D : tensor) : Prop :=
  shape D = (repeat nv k ++ repeat no k)%list /\
  forall virt occ, length virt = k -> inr (virt ++ occ) (shape D) -> data D (virt ++ occ)%list = / gap no eps virt occ.
(** no excitation of k electrons has zero orbital-energy difference *)
Definition gapped (k no nv : nat) (eps : nat -> Qc) : Prop :=
  forall virt occ, length virt = k -> length occ = k -> (forall a, In a virt -> (a < nv)%nat) -> (forall i, In i occ -> (i < no)%nat) ->
    gap no eps virt occ <> 0.

(** ** Two kinds of electrons: [n s] occupied and [m s] virtual orbitals of spin s with energies [e s] *)
Definition spin_gap (n : spin -> nat) (e : spin -> nat -> Qc) (ss : list spin) (virt occ : list nat) : Qc :=
  suml (combine ss occ) (fun p => e (fst p) (snd p)) - suml (combine ss virt) (fun p => e (fst p) (n (fst p) + snd p)%nat).
(** the denominator array of the spin block [ss] *)
Definition is_spin_denominator (ss : list spin) (n m : spin -> nat) (e : spin -> nat -> Qc) (D : tensor) : Prop :=
  shape D = (map m ss ++ map n ss)%list /\
  forall virt occ, length virt = length ss -> inr (virt ++ occ) (shape D) ->
    data D (virt ++ occ)%list = / spin_gap n e ss virt occ.
(** every occupied orbital lies below every virtual one *)
Definition homo_lumo (n m : spin -> nat) (e : spin -> nat -> Qc) : Prop :=
  forall s s' i a, (i < n s)%nat -> (a < m s')%nat -> e s i < e s' (n s' + a)%nat.
