(** Arrays and [numpy.einsum], the primitive every equation file of /repo/UT2 is written in
    (e.g. `from numpy import einsum`, t2residEqnsSlow.py:1; `np.einsum(...)`, cc_eqns.py:69).
    An array is a shape and a total indexing function; only in-range indices are meaningful.
    Simplifications: exact rational entries (no floating point); `einsum` size-1 broadcasting and
    the `optimize=` keyword (which only chooses a contraction order) are not modelled. *)
From Coq Require Import String Ascii List Arith ZArith QArith Qcanon Bool Lia Permutation.
From Verif Require Import Sums.
Import ListNotations.
Open Scope Qc_scope.

Record tensor := mkT { shape : list nat; data : list nat -> Qc }.

(** [idx] is a legal index of an array of shape [sh]. *)
Definition inr (idx sh : list nat) : Prop := Forall2 lt idx sh.

(** Equality of arrays: same shape, same entries. *)
Definition teq (a b : tensor) : Prop :=
  shape a = shape b /\ forall idx, inr idx (shape a) -> data a idx = data b idx.

(** ** einsum *)
Notation letter := ascii (only parsing).
Definition leb_letter (a b : letter) : bool := Nat.leb (nat_of_ascii a) (nat_of_ascii b).

(** The spec string of `einsum`: blanks are ignored, operands are separated by commas,
    `->` introduces the output; without `->` the output is the alphabetically sorted list of the
    letters that occur exactly once (numpy.einsum documentation, "implicit mode"). *)
Fixpoint strip (s : string) : list ascii :=
  match s with
  | EmptyString => []
  | String c r => if Ascii.eqb c " "%char then strip r else c :: strip r
  end.

Fixpoint split_arrow (l : list ascii) : list ascii * option (list ascii) :=
  match l with
  | [] => ([], None)
  | c :: r =>
      match r with
      | d :: r' =>
          if (Ascii.eqb c "-"%char && Ascii.eqb d ">"%char)%bool then ([], Some r')
          else let (a, o) := split_arrow r in (c :: a, o)
      | [] => ([c], None)
      end
  end.

Fixpoint split_comma (l : list ascii) : list (list ascii) :=
  match l with
  | [] => [[]]
  | c :: r =>
      let t := split_comma r in
      if Ascii.eqb c ","%char then [] :: t
      else match t with
           | [] => [[c]]
           | h :: t' => (c :: h) :: t'
           end
  end.

Fixpoint count_letter (c : letter) (l : list letter) : nat :=
  match l with
  | [] => 0
  | d :: r => if Ascii.eqb c d then S (count_letter c r) else count_letter c r
  end.

Fixpoint insert_letter (c : letter) (l : list letter) : list letter :=
  match l with
  | [] => [c]
  | d :: r => if leb_letter c d then c :: l else d :: insert_letter c r
  end.
Definition sort_letters (l : list letter) : list letter := fold_right insert_letter [] l.

Definition parse_spec (s : string) : list (list letter) * list letter :=
  match split_arrow (strip s) with
  | (a, Some o) => (split_comma a, o)
  | (a, None) =>
      let ins := split_comma a in
      let all := concat ins in
      (ins, sort_letters (filter (fun c => Nat.eqb (count_letter c all) 1) all))
  end.

Definition mem_letter (c : letter) (l : list letter) : bool := existsb (Ascii.eqb c) l.

Fixpoint nodup_letters (l : list letter) : list letter :=
  match l with
  | [] => []
  | c :: r => if mem_letter c r then nodup_letters r else c :: nodup_letters r
  end.

Fixpoint nodupb_letters (l : list letter) : bool :=
  match l with
  | [] => true
  | c :: r => (negb (mem_letter c r) && nodupb_letters r)%bool
  end.

(** Association list letter -> X, used for dimensions here and for spaces in the symbolic executor. *)
Fixpoint alook {X} (c : letter) (m : list (letter * X)) : option X :=
  match m with
  | [] => None
  | (d, n) :: r => if Ascii.eqb c d then Some n else alook c r
  end.

(** Bind the letters of one operand to its axes; a letter that is already bound must have the
    same dimension (numpy raises otherwise). *)
Fixpoint bind1 {X} (eqX : X -> X -> bool) (ls : list letter) (sh : list X)
    (m : list (letter * X)) : option (list (letter * X)) :=
  match ls, sh with
  | [], [] => Some m
  | c :: ls', n :: sh' =>
      match alook c m with
      | None => bind1 eqX ls' sh' ((c, n) :: m)
      | Some k => if eqX k n then bind1 eqX ls' sh' m else None
      end
  | _, _ => None
  end.
Fixpoint bindall {X} (eqX : X -> X -> bool) (ins : list (list letter)) (shs : list (list X))
    (m : list (letter * X)) : option (list (letter * X)) :=
  match ins, shs with
  | [], [] => Some m
  | l :: ins', sh :: shs' =>
      match bind1 eqX l sh m with
      | Some m' => bindall eqX ins' shs' m'
      | None => None
      end
  | _, _ => None
  end.

Fixpoint omap {A B} (f : A -> option B) (l : list A) : option (list B) :=
  match l with
  | [] => Some []
  | x :: r => match f x, omap f r with Some y, Some ys => Some (y :: ys) | _, _ => None end
  end.

(** Sum over all values of the contracted letters. *)
Definition lenv := letter -> nat.
Definition lupd (e : lenv) (c : letter) (x : nat) : lenv :=
  fun d => if Ascii.eqb d c then x else e d.
Fixpoint sumC (cs : list (letter * nat)) (F : lenv -> Qc) (e : lenv) : Qc :=
  match cs with
  | [] => F e
  | (c, n) :: r => suml (seq 0 n) (fun x => sumC r F (lupd e c x))
  end.

Fixpoint bindidx (out : list letter) (idx : list nat) : lenv :=
  match out, idx with
  | c :: o', x :: i' => lupd (bindidx o' i') c x
  | _, _ => fun _ => O
  end.

Fixpoint prodops (ins : list (list letter)) (ts : list tensor) (e : lenv) : Qc :=
  match ins, ts with
  | l :: ins', t :: ts' => data t (map e l) * prodops ins' ts' e
  | _, _ => 1
  end.

Definition contracted {X} (out : list letter) (m : list (letter * X)) : list (letter * X) :=
  filter (fun p => negb (mem_letter (fst p) out)) m.

Definition einsum (ins : list (list letter)) (out : list letter) (ts : list tensor)
  : option tensor :=
  match bindall Nat.eqb ins (map shape ts) [] with
  | None => None
  | Some m =>
      if nodupb_letters out then
        match omap (fun c => alook c m) out with
        | None => None
        | Some sh =>
            Some (mkT sh (fun idx => sumC (contracted out m) (prodops ins ts) (bindidx out idx)))
        end
      else None
  end.

(** ** Slicing, transposition, elementwise arithmetic *)

(** `slice(a, b)` applied to an axis of length n: Python clips both ends. *)
Definition slice_start (a n : nat) : nat := Nat.min a n.
Definition slice_stop (b : option nat) (n : nat) : nat :=
  match b with None => n | Some b => Nat.min b n end.
Definition slice_len (a : nat) (b : option nat) (n : nat) : nat :=
  (slice_stop b n - slice_start a n)%nat.

Definition zipw {A B C} (f : A -> B -> C) (l1 : list A) (l2 : list B) : list C :=
  map (fun p => f (fst p) (snd p)) (combine l1 l2).

Definition tslice (ss : list (nat * option nat)) (t : tensor) : option tensor :=
  if Nat.eqb (List.length ss) (List.length (shape t)) then
    Some (mkT (zipw (fun s n => slice_len (fst s) (snd s) n) ss (shape t))
              (fun idx => data t (zipw Nat.add
                 (zipw (fun s n => slice_start (fst s) n) ss (shape t)) idx)))
  else None.

Definition is_permb (p : list nat) : bool :=
  forallb (fun i => existsb (Nat.eqb i) p) (seq 0 (List.length p)).

(** `t.transpose(p)`: result axis k is axis p[k] of t, so entry idx of the result is the entry of t
    whose p[k]-th index is idx[k]. *)
Fixpoint index_of (i : nat) (p : list nat) : nat :=
  match p with
  | [] => O
  | j :: r => if Nat.eqb i j then O else S (index_of i r)
  end.
Definition ttransp (p : list nat) (t : tensor) : option tensor :=
  if (Nat.eqb (List.length p) (List.length (shape t)) && is_permb p)%bool then
    Some (mkT (map (fun k => nth k (shape t) O) p)
              (fun idx => data t (map (fun i => nth (index_of i p) idx O) (seq 0 (List.length p)))))
  else None.

Fixpoint eqb_shape (a b : list nat) : bool :=
  match a, b with
  | [], [] => true
  | x :: a', y :: b' => (Nat.eqb x y && eqb_shape a' b')%bool
  | _, _ => false
  end.

Definition tscale (c : Qc) (t : tensor) : tensor := mkT (shape t) (fun i => c * data t i).
Definition tbin (f : Qc -> Qc -> Qc) (a b : tensor) : option tensor :=
  if eqb_shape (shape a) (shape b) then Some (mkT (shape a) (fun i => f (data a i) (data b i)))
  else None.
Definition tzeros (sh : list nat) : tensor := mkT sh (fun _ => 0).
Definition tnum (c : Qc) : tensor := mkT [] (fun _ => c).
