(** Reading decimal coefficient literals as the fractions they abbreviate.
    The generated equation files print coefficients such as 1/12 as 0.083333333 (wicked, 9 digits) or
    0.083333333333333 (pdaggerq, 15 digits).  [unround] replaces a literal that is within 1e-9 of a
    multiple of 1/9216 by that multiple and leaves every other literal unchanged; [unround_fn] does this to all
    literals of a transcribed function.  Specification vocabulary; it models no particular source line. *)
From Coq Require Import String List Arith ZArith QArith Qabs Qround Bool.
From Verif Require Import Interp.
Import ListNotations.

Definition unround (q : Q) : Q :=
  let r := Qred (Qfloor (q * 9216 + (1 # 2)) # 9216) in
  if Qle_bool (Qabs (q - r)) (1 # 1000000000) then r else q.

Fixpoint unround_e (e : expr) : expr :=
  match e with
  | EVar x => EVar x
  | EItem e k => EItem (unround_e e) k
  | ESlice e ss => ESlice (unround_e e) ss
  | ETransp e p => ETransp (unround_e e) p
  | EEins s es => EEins s (map unround_e es)
  | EScale c e => EScale (unround c) (unround_e e)
  | EAdd a b => EAdd (unround_e a) (unround_e b)
  | ESub a b => ESub (unround_e a) (unround_e b)
  | EMul a b => EMul (unround_e a) (unround_e b)
  | ENum c => ENum (unround c)
  | ENone => ENone
  | EShape e k => EShape (unround_e e) k
  | EZeros es => EZeros (map unround_e es)
  | ECall f es => ECall f (map unround_e es)
  end.
Definition unround_s (s : stmt) : stmt :=
  match s with
  | SAssign x e => SAssign x (unround_e e)
  | SAug a x e => SAug a x (unround_e e)
  end.
Definition unround_fn (f : fn) : fn := mkFn (fparams f) (map unround_s (fbody f)) (unround_e (fret f)).
Definition unround_lib (l : list (string * fn)) : list (string * fn) :=
  map (fun p => (fst p, unround_fn (snd p))) l.

Example unround_wicked : unround (83333333 # 1000000000) = 1 # 12. Proof. reflexivity. Qed.
Example unround_pdaggerq : unround (83333333333333 # 1000000000000000) = 1 # 12. Proof. reflexivity. Qed.
Example unround_exact : unround (-1 # 16) = -1 # 16. Proof. reflexivity. Qed.
Example unround_other : unround (123 # 1000) = 123 # 1000. Proof. reflexivity. Qed.
