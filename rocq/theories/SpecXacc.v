(** The format of the text files that describe a system, its integrals and its amplitudes to the program, as a
    specification.  Independent of the model of the reader. *)
From Coq Require Import String Ascii List Arith ZArith QArith Qcanon Bool.
From Coq Require DecimalString.
From Verif Require Import Tensor.
Import ListNotations.
Open Scope string_scope.

Fixpoint chars (P : ascii -> Prop) (s : string) : Prop := match s with "" => True | String c r => P c /\ chars P r end.
(** blank, tab, line feed, carriage return *)
Definition is_blank (c : ascii) : Prop := In (nat_of_ascii c) [9; 10; 13; 32]%nat.
(** A word is one or more visible ASCII characters. *)
Definition visible (c : ascii) : Prop := (33 <= nat_of_ascii c <= 126)%nat.
Definition word (w : string) : Prop := w <> "" /\ chars visible w.
(** The line consists of these words, with blanks between, and possibly before and after them. *)
Inductive spaced : string -> list string -> Prop :=
| sp_end s : chars is_blank s -> spaced s []
| sp_last pre w : chars is_blank pre -> word w -> spaced (pre ++ w) [w]
| sp_more pre w c s ws : chars is_blank pre -> word w -> is_blank c -> spaced s ws -> spaced (pre ++ w ++ String c s) (w :: ws).
(** decimal numeral *)
Definition dec (n : nat) : string := DecimalString.NilZero.string_of_int (Z.to_int (Z.of_nat n)).

(** ** Amplitude and integral lines *)
(** `p^ q^ r s | x` and `p^ r | x`; orbitals are numbered from 0, the occupied ones first. *)
Inductive entry := Double (p q r s : nat) (x : Qc) | Single (p r : nat) (x : Qc).
Definition operators_of (e : entry) : list string :=
  match e with
  | Double p q r s _ => [dec p ++ "^"; dec q ++ "^"; dec r; dec s]
  | Single p r _ => [dec p ++ "^"; dec r]
  end.
Definition value_of (e : entry) : Qc := match e with Double _ _ _ _ x => x | Single _ _ x => x end.

Section Format.
(** what a numeral with a decimal point means *)
Variable fl : string -> option Qc.
Definition numeral (txt : string) (x : Qc) : Prop := word txt /\ chars (fun c => c <> "|"%char) txt /\ fl txt = Some x.
(** the bar may or may not be followed by a blank *)
Definition amp_text (e : entry) (line : string) : Prop :=
  exists txt, numeral txt (value_of e) /\
    (spaced line (operators_of e ++ ["|"; txt]) \/ spaced line (operators_of e ++ ["|" ++ txt])).
(** any lines, a line beginning with +++++, one line for each entry *)
Definition amp_file (es : list entry) (file : list string) : Prop :=
  exists pre head lines, file = (pre ++ head :: lines)%list /\
    Forall (fun l => prefix "+++++" l = false) pre /\ prefix "+++++" head = true /\ Forall2 amp_text es lines.

(** one line for each integral; after the bar there must be a blank *)
Record integral := Int { i_p : nat; i_q : nat; i_r : nat; i_s : nat; i_x : Qc }.
Definition int_text (e : integral) (line : string) : Prop :=
  exists txt, numeral txt (i_x e) /\ spaced line [dec (i_p e) ++ "^"; dec (i_q e) ++ "^"; dec (i_r e); dec (i_s e); "|"; txt].
Definition int_file (es : list integral) (file : list string) : Prop := Forall2 int_text es file.

(** four lines; the last word of the second and third is a number of spatial orbitals, that of the fourth a list in brackets *)
Fixpoint listed (l : list string) : string := match l with [] => "" | [w] => w | w :: r => w ++ "," ++ listed r end.
Definition number_in (txt : string) (x : Qc) : Prop :=
  word txt /\ chars (fun c => c <> ","%char /\ c <> "["%char /\ c <> "]"%char) txt /\ fl txt = Some x.
Definition ends_in (w : string) (line : string) : Prop := exists ws, spaced line (ws ++ [w]).
Definition system_file (no nv : nat) (energies : list Qc) (file : list string) : Prop :=
  exists l0 l1 l2 l3 rest txts, file = l0 :: l1 :: l2 :: l3 :: rest /\
    ends_in (dec no) l1 /\ ends_in (dec nv) l2 /\ txts <> [] /\ ends_in ("[" ++ listed txts ++ "]") l3 /\
    Forall2 number_in txts energies.
End Format.

(** ** Which orbitals an entry is about *)
(** distinct virtual orbitals and distinct occupied orbitals of a system with no occupied and nv virtual orbitals *)
Definition proper (no nv : nat) (e : entry) : Prop :=
  match e with
  | Double p q r s _ => (no <= p < no + nv /\ no <= q < no + nv /\ r < no /\ s < no /\ p <> q /\ r <> s)%nat
  | Single p r _ => (no <= p < no + nv /\ r < no)%nat
  end.
Definition about2 (p q r s : nat) (e : entry) : Prop :=
  match e with
  | Double p' q' r' s' _ => (p = p' /\ q = q' \/ p = q' /\ q = p') /\ (r = r' /\ s = s' \/ r = s' /\ s = r')
  | Single _ _ _ => False
  end.
Definition about1 (p r : nat) (e : entry) : Prop :=
  match e with Single p' r' _ => p = p' /\ r = r' | Double _ _ _ _ _ => False end.
(** the last entry with the property is [e] *)
Definition last_about {A} (P : A -> Prop) (e : A) (es : list A) : Prop :=
  exists before after, es = (before ++ e :: after)%list /\ P e /\ forall e', In e' after -> ~ P e'.

(** ** The operators the files stand for *)
From Verif Require Import Sums Spec Fock.
Open Scope Qc_scope.
(** `p^ q^ r s` is the product of the four operators in this order. *)
Definition entry_op (e : entry) : op := fun psi n =>
  match e with
  | Double p q r s x => x * cre p (cre q (ann r (ann s psi))) n
  | Single p r x => x * cre p (ann r psi) n
  end.
Definition file_op (es : list entry) : op := fun psi n => suml es (fun e => entry_op e psi n).
Definition integral_op (es : list integral) : op := fun psi n =>
  suml es (fun e => i_x e * cre (i_p e) (cre (i_q e) (ann (i_r e) (ann (i_s e) psi))) n).
(** the two-electron part of the Hamiltonian of Fock.v *)
Definition two_electron (N : nat) (g : tensor) : op := fun psi n =>
  Q2Qc (1 # 4) * (Sum p < N, Sum q < N, Sum r < N, Sum s < N, data g [p; q; r; s] * cre p (cre q (ann s (ann r psi))) n).
(** no two entries are about the same orbitals *)
Definition same_orbitals (e e' : entry) : Prop :=
  match e with Double p q r s _ => about2 p q r s e' | Single p r _ => about1 p r e' end.
Definition int_at (e : integral) : list nat := [i_p e; i_q e; i_r e; i_s e].
