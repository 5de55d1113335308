(** Vocabulary of the property statements: plain mathematical predicates on arrays, independent of the
    symbolic machinery.  Indices of an array of shape [n1;...;nk] are lists [i1;...;ik] with ij < nj. *)
From Coq Require Import String List Arith ZArith QArith Qcanon Bool Lia Permutation.
From Coq Require Qcabs.
From Verif Require Import Sums Tensor Interp.
Import ListNotations.
Open Scope Qc_scope.

(** Sum over k = 0 .. n-1. *)
Notation "'Sum' k < n , e" := (suml (seq 0 n) (fun k => e))
  (at level 60, k name, n at level 9, e at level 60, right associativity).

(** Exchanging the index values at positions i and i+1 changes the sign / does not change the entry. *)
Definition antisymmetric_in (t : tensor) (i : nat) : Prop :=
  forall pre x y post, length pre = i ->
    inr (pre ++ x :: y :: post) (shape t) -> inr (pre ++ y :: x :: post) (shape t) ->
    data t (pre ++ x :: y :: post) = - data t (pre ++ y :: x :: post).
Definition symmetric_in (t : tensor) (i : nat) : Prop :=
  forall pre x y post, length pre = i ->
    inr (pre ++ x :: y :: post) (shape t) -> inr (pre ++ y :: x :: post) (shape t) ->
    data t (pre ++ x :: y :: post) = data t (pre ++ y :: x :: post).

(** Antisymmetric in the first k and in the last k of 2k indices. *)
Definition antisymmetric (k : nat) (t : tensor) : Prop :=
  forall i, (S i < k)%nat -> antisymmetric_in t i /\ antisymmetric_in t (k + i).

(** Bra-ket symmetry of a real operator matrix element with k indices on each side. *)
Definition hermitian (k : nat) (t : tensor) : Prop :=
  forall l1 l2, length l1 = k -> length l2 = k ->
    inr (l1 ++ l2) (shape t) -> data t (l1 ++ l2) = data t (l2 ++ l1).

(** Fock matrix and antisymmetrised two-electron integrals over n spin orbitals. *)
Definition is_fock (n : nat) (f : tensor) : Prop := shape f = [n; n] /\ hermitian 1 f.
Definition is_tei (n : nat) (g : tensor) : Prop :=
  shape g = [n; n; n; n] /\ antisymmetric 2 g /\ hermitian 2 g.

(** k-fold cluster amplitudes, virtual indices first (the [pdaggerq] files) ... *)
Definition is_amp (k no nv : nat) (t : tensor) : Prop :=
  shape t = (repeat nv k ++ repeat no k)%list /\ antisymmetric k t.
(** ... or occupied indices first (the [wicked] files). *)
Definition is_amp_ov (k no nv : nat) (t : tensor) : Prop :=
  shape t = (repeat no k ++ repeat nv k)%list /\ antisymmetric k t.

(** The same amplitudes in the other index order. *)
Definition swapped (k : nat) (t t' : tensor) : Prop :=
  shape t' = (skipn k (shape t) ++ firstn k (shape t))%list /\
  forall l1 l2, length l1 = k -> inr (l1 ++ l2) (shape t) -> data t' (l2 ++ l1) = data t (l1 ++ l2).

(** All entries vanish. *)
Definition zero_tensor (t : tensor) : Prop := forall idx, inr idx (shape t) -> data t idx = 0.

(** ** Antisymmetrisation
    All permutations of a list with their parity ([true] = even): the head is inserted at every position of
    every permutation of the tail, changing the parity once per step to the right. *)
Definition sgn (b : bool) : Qc := if b then 1 else - (1).
Fixpoint inserts {X} (x : X) (l : list X) : list (bool * list X) :=
  match l with
  | [] => [(true, [x])]
  | y :: r => (true, x :: l) :: map (fun sp => (negb (fst sp), y :: snd sp)) (inserts x r)
  end.
Fixpoint signed_perms {X} (l : list X) : list (bool * list X) :=
  match l with
  | [] => [(true, [])]
  | x :: r => flat_map (fun sp => map (fun sq => (Bool.eqb (fst sp) (fst sq), snd sq)) (inserts x (snd sp)))
                       (signed_perms r)
  end.
(** R = sum over all permutations of the first k and of the last k indices of X, with signs. *)
Definition antisymmetrised (k : nat) (X R : tensor) : Prop :=
  shape R = shape X /\
  forall l1 l2, length l1 = k -> inr (l1 ++ l2) (shape X) ->
    data R (l1 ++ l2) =
    suml (signed_perms l1) (fun p => suml (signed_perms l2) (fun q =>
      sgn (fst p) * sgn (fst q) * data X (snd p ++ snd q))).

(** The occupied and virtual slice objects of a calculation with no occupied orbitals:
    `o = slice(None, nocc)`, `v = slice(nocc, None)` (run_ccd.py:652-655, 726-727, 811-812, 868-869). *)
Definition o_ (no : nat) : value := VSl 0 (Some no).
Definition v_ (no : nat) : value := VSl no None.

(** Calling [f] (with library [lib], call depth at most [d]) on [args] returns the array R. *)
Definition returns (d : nat) (lib : list (string * fn)) (f : fn) (args : list value) (R : tensor) : Prop :=
  run d lib f args = Some (VT R).

(** ** Spin
    A spin labelling of 2*no occupied and 2*nv virtual spin orbitals (any ordering): which positions carry
    the no alpha/beta occupied and the nv alpha/beta virtual orbitals.  Virtual positions are counted from
    the first virtual orbital. *)
Inductive spin := Up | Dn.
Record spinmap := mkSM { occ : spin -> list nat; vir : spin -> list nat }.
Definition spin_ok (no nv : nat) (S : spinmap) : Prop :=
  (forall s, length (occ S s) = no) /\ (forall s, length (vir S s) = nv) /\
  Permutation (occ S Up ++ occ S Dn) (seq 0 (2 * no)) /\
  Permutation (vir S Up ++ vir S Dn) (seq 0 (2 * nv)).

(** Spin orbital of spatial orbital p with spin s. *)
Definition orb (S : spinmap) (no : nat) (s : spin) (p : nat) : nat :=
  if Nat.ltb p no then nth p (occ S s) O else (2 * no + nth (p - no) (vir S s) O)%nat.
Definition isup_occ (S : spinmap) (i : nat) : bool := existsb (Nat.eqb i) (occ S Up).
Definition isup_vir (S : spinmap) (a : nat) : bool := existsb (Nat.eqb a) (vir S Up).
Definition isup (S : spinmap) (no p : nat) : bool :=
  if Nat.ltb p (2 * no) then isup_occ S p else isup_vir S (p - 2 * no).
Definition count (f : nat -> bool) (l : list nat) : nat := length (filter f l).

(** Entries with different numbers of alpha indices on the two sides vanish. *)
Definition spin_conserving (S : spinmap) (no k : nat) (t : tensor) : Prop :=
  forall l1 l2, length l1 = k -> length l2 = k -> inr (l1 ++ l2) (shape t) ->
    count (isup S no) l1 <> count (isup S no) l2 -> data t (l1 ++ l2) = 0.
Definition spin_conserving_amp (S : spinmap) (k : nat) (t : tensor) : Prop :=
  forall l1 l2, length l1 = k -> length l2 = k -> inr (l1 ++ l2) (shape t) ->
    count (isup_vir S) l1 <> count (isup_occ S) l2 -> data t (l1 ++ l2) = 0.
Definition spin_conserving_amp_ov (S : spinmap) (k : nat) (t : tensor) : Prop :=
  forall l1 l2, length l1 = k -> length l2 = k -> inr (l1 ++ l2) (shape t) ->
    count (isup_occ S) l1 <> count (isup_vir S) l2 -> data t (l1 ++ l2) = 0.

(** [b] is the spin block of the array [t] with the given spins on its axes. *)
Definition block_full (S : spinmap) (no nv : nat) (ss : list spin) (t b : tensor) : Prop :=
  shape b = repeat (no + nv)%nat (length ss) /\
  forall idx, inr idx (shape b) -> data b idx = data t (zipw (orb S no) ss idx).
Definition block_amp (S : spinmap) (no nv : nat) (ss : list spin) (t b : tensor) : Prop :=
  shape b = (repeat nv (length ss) ++ repeat no (length ss))%list /\
  forall l1 l2, length l1 = length ss -> inr (l1 ++ l2) (shape b) ->
    data b (l1 ++ l2) =
    data t (zipw (fun s a => nth a (vir S s) O) ss l1 ++ zipw (fun s i => nth i (occ S s) O) ss l2).
Definition block_amp_ov (S : spinmap) (no nv : nat) (ss : list spin) (t b : tensor) : Prop :=
  shape b = (repeat no (length ss) ++ repeat nv (length ss))%list /\
  forall l1 l2, length l1 = length ss -> inr (l1 ++ l2) (shape b) ->
    data b (l1 ++ l2) =
    data t (zipw (fun s i => nth i (occ S s) O) ss l1 ++ zipw (fun s a => nth a (vir S s) O) ss l2).

(** A spin-orbital Hamiltonian and its spin blocks. *)
Definition spin_hamiltonian (S : spinmap) (no nv : nat) (F G f_aa f_bb g_aaaa g_bbbb g_abab : tensor) : Prop :=
  is_fock (2 * no + 2 * nv) F /\ spin_conserving S no 1 F /\
  is_tei (2 * no + 2 * nv) G /\ spin_conserving S no 2 G /\
  block_full S no nv [Up; Up] F f_aa /\ block_full S no nv [Dn; Dn] F f_bb /\
  block_full S no nv [Up; Up; Up; Up] G g_aaaa /\ block_full S no nv [Dn; Dn; Dn; Dn] G g_bbbb /\
  block_full S no nv [Up; Dn; Up; Dn] G g_abab.
(** Spin-conserving k-fold amplitudes (virtual first) of 2*no occupied, 2*nv virtual spin orbitals. *)
Definition spin_amp (S : spinmap) (k no nv : nat) (T : tensor) : Prop :=
  is_amp k (2 * no) (2 * nv) T /\ spin_conserving_amp S k T.
Definition spin_amp_ov (S : spinmap) (k no nv : nat) (T : tensor) : Prop :=
  is_amp_ov k (2 * no) (2 * nv) T /\ spin_conserving_amp_ov S k T.
Definition blocks1 (S : spinmap) (no nv : nat) (T t_aa t_bb : tensor) : Prop :=
  block_amp S no nv [Up] T t_aa /\ block_amp S no nv [Dn] T t_bb.
Definition blocks2 (S : spinmap) (no nv : nat) (T t_aaaa t_bbbb t_abab : tensor) : Prop :=
  block_amp S no nv [Up; Up] T t_aaaa /\ block_amp S no nv [Dn; Dn] T t_bbbb /\
  block_amp S no nv [Up; Dn] T t_abab.
Definition blocks2_ov (S : spinmap) (no nv : nat) (T t_aaaa t_bbbb t_abab : tensor) : Prop :=
  block_amp_ov S no nv [Up; Up] T t_aaaa /\ block_amp_ov S no nv [Dn; Dn] T t_bbbb /\
  block_amp_ov S no nv [Up; Dn] T t_abab.
Definition blocks3 (S : spinmap) (no nv : nat) (T t_aaa t_aab t_abb t_bbb : tensor) : Prop :=
  block_amp S no nv [Up; Up; Up] T t_aaa /\ block_amp S no nv [Up; Up; Dn] T t_aab /\
  block_amp S no nv [Up; Dn; Dn] T t_abb /\ block_amp S no nv [Dn; Dn; Dn] T t_bbb.
Definition blocks4 (S : spinmap) (no nv : nat) (T t_aaaa t_aaab t_aabb t_abbb t_bbbb : tensor) : Prop :=
  block_amp S no nv [Up; Up; Up; Up] T t_aaaa /\ block_amp S no nv [Up; Up; Up; Dn] T t_aaab /\
  block_amp S no nv [Up; Up; Dn; Dn] T t_aabb /\ block_amp S no nv [Up; Dn; Dn; Dn] T t_abbb /\
  block_amp S no nv [Dn; Dn; Dn; Dn] T t_bbbb.

(** ** Arrays given entry by entry *)
Definition arr0 (x : Qc) : tensor := mkT [] (fun _ => x).
Definition arr2 (n1 n2 : nat) (F : nat -> nat -> Qc) : tensor :=
  mkT [n1; n2] (fun idx => match idx with [a; b] => F a b | _ => 0 end).
Definition arr4 (n1 n2 n3 n4 : nat) (F : nat -> nat -> nat -> nat -> Qc) : tensor :=
  mkT [n1; n2; n3; n4] (fun idx => match idx with [a; b; c; d] => F a b c d | _ => 0 end).
Definition arr6 (n1 n2 : nat) (F : nat -> nat -> nat -> nat -> nat -> nat -> Qc) : tensor :=
  mkT [n1; n1; n1; n2; n2; n2] (fun idx => match idx with [a; b; c; d; e; f] => F a b c d e f | _ => 0 end).
Definition arr8 (n1 n2 : nat) (F : nat -> nat -> nat -> nat -> nat -> nat -> nat -> nat -> Qc) : tensor :=
  mkT [n1; n1; n1; n1; n2; n2; n2; n2]
    (fun idx => match idx with [a; b; c; d; e; f; g; h] => F a b c d e f g h | _ => 0 end).

(** ** Size of entries and closeness *)
Definition qn (n : nat) : Qc := Q2Qc (inject_Z (Z.of_nat n)).
(** Every entry is at most M in absolute value. *)
Definition bounded (M : Qc) (t : tensor) : Prop := forall idx, inr idx (shape t) -> Qcabs.Qcabs (data t idx) <= M.
(** Same shape, and entries that differ by at most eps. *)
Definition close (eps : Qc) (t t' : tensor) : Prop :=
  shape t = shape t' /\ forall idx, inr idx (shape t) -> Qcabs.Qcabs (data t idx - data t' idx) <= eps.
