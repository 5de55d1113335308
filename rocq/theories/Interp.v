(** The straight-line Python fragment in which the equation functions of /repo/UT2 are written, and its
    interpreter.  [None] stands for "Python raises an exception" (or, for a few unsupported
    broadcasting cases, "outside the modelled fragment").
    Value semantics: in the transcribed functions the target of every `+=`/`-=` was created by an
    arithmetic expression in the same function, so in-place update and rebinding coincide; the
    transcriber (tools/transcribe.py) rejects functions where this is not syntactically evident. *)
From Coq Require Import String Ascii List Arith ZArith QArith Qcanon Bool.
From Verif Require Import Sums Tensor.
Import ListNotations.
Open Scope string_scope.

Inductive value :=
| VT (t : tensor)                          (* numpy array (shape [] = scalar) *)
| VSl (a : nat) (b : option nat)           (* slice(a, b) *)
| VInt (n : nat)
| VNone
| VDict (d : list (string * value)).

(** One component of a subscript: a slice variable or `:`. *)
Inductive sidx := SV (x : string) | SAll.

Inductive expr :=
| EVar (x : string)
| EItem (e : expr) (k : string)                     (* e["k"] *)
| ESlice (e : expr) (ss : list sidx)                (* e[o,o,v,v] *)
| ETransp (e : expr) (p : list nat)                 (* e.transpose(p) *)
| EEins (spec : string) (es : list expr)            (* einsum(spec, es...) *)
| EScale (c : Q) (e : expr)                         (* literal * e *)
| EAdd (a b : expr)
| ESub (a b : expr)
| EMul (a b : expr)                                 (* elementwise product *)
| ENum (c : Q)
| ENone
| EShape (e : expr) (k : nat)                       (* e.shape[k] *)
| EZeros (es : list expr)                           (* np.zeros((..)) *)
| ECall (f : string) (es : list expr).

Inductive stmt :=
| SAssign (x : string) (e : expr)
| SAug (add : bool) (x : string) (e : expr).        (* x += e  /  x -= e *)

Record fn := mkFn { fparams : list string; fbody : list stmt; fret : expr }.

Definition venv := list (string * value).
(** assignment to a local variable *)
Fixpoint sset {X} (x : string) (v : X) (m : list (string * X)) : list (string * X) :=
  match m with
  | [] => [(x, v)]
  | (y, w) :: r => if String.eqb x y then (y, v) :: r else (y, w) :: sset x v r
  end.
Fixpoint slook {X} (x : string) (m : list (string * X)) : option X :=
  match m with
  | [] => None
  | (y, v) :: r => if String.eqb x y then Some v else slook x r
  end.

Definition obind {A B} (o : option A) (f : A -> option B) : option B :=
  match o with Some a => f a | None => None end.
Notation "'do' x <- a ; b" := (obind a (fun x => b)) (at level 200, x name, a at level 100, b at level 200).

Definition asT (v : value) : option tensor := match v with VT t => Some t | _ => None end.
Definition asInt (v : value) : option nat := match v with VInt n => Some n | _ => None end.
Definition asDict (v : value) := match v with VDict d => Some d | _ => None end.
Definition asSl (v : value) := match v with VSl a b => Some (a, b) | _ => None end.

Definition sidx_val (env : venv) (s : sidx) : option (nat * option nat) :=
  match s with
  | SAll => Some (O, None)
  | SV x => do v <- slook x env; asSl v
  end.

Section Eval.
  Variable call : string -> list value -> option value.
  Variable env : venv.

  Definition tbinv (f : Qc -> Qc -> Qc) (a b : option value) : option value :=
    do va <- a; do vb <- b; do ta <- asT va; do tb <- asT vb;
    do t <- tbin f ta tb; Some (VT t).

  Fixpoint eval (e : expr) : option value :=
    let fix evals (es : list expr) : option (list value) :=
      match es with
      | [] => Some []
      | e :: r => do v <- eval e; do vs <- evals r; Some (v :: vs)
      end in
    match e with
    | EVar x => slook x env
    | EItem e k => do v <- eval e; do d <- asDict v; slook k d
    | ESlice e ss =>
        do v <- eval e; do t <- asT v;
        do sl <- omap (sidx_val env) ss; do r <- tslice sl t; Some (VT r)
    | ETransp e p => do v <- eval e; do t <- asT v; do r <- ttransp p t; Some (VT r)
    | EEins spec es =>
        do vs <- evals es; do ts <- omap asT vs;
        let (ins, out) := parse_spec spec in
        do r <- einsum ins out ts; Some (VT r)
    | EScale c e => do v <- eval e; do t <- asT v; Some (VT (tscale (Q2Qc c) t))
    | EAdd a b => tbinv Qcplus (eval a) (eval b)
    | ESub a b => tbinv Qcminus (eval a) (eval b)
    | EMul a b => tbinv Qcmult (eval a) (eval b)
    | ENum c => Some (VT (tnum (Q2Qc c)))
    | ENone => Some VNone
    | EShape e k =>
        do v <- eval e; do t <- asT v; do n <- nth_error (shape t) k; Some (VInt n)
    | EZeros es => do vs <- evals es; do ns <- omap asInt vs; Some (VT (tzeros ns))
    | ECall f es => do vs <- evals es; call f vs
    end.

  Fixpoint evals (es : list expr) : option (list value) :=
    match es with
    | [] => Some []
    | e :: r => do v <- eval e; do vs <- evals r; Some (v :: vs)
    end.
End Eval.

Definition step (call : string -> list value -> option value) (env : venv) (s : stmt)
  : option venv :=
  match s with
  | SAssign x e => do v <- eval call env e; Some (sset x v env)
  | SAug add x e =>
      do v <- tbinv (if add then Qcplus else Qcminus) (slook x env) (eval call env e);
      Some (sset x v env)
  end.

Fixpoint steps call (env : venv) (ss : list stmt) : option venv :=
  match ss with
  | [] => Some env
  | s :: r => do env' <- step call env s; steps call env' r
  end.

Fixpoint bind_params {X} (ps : list string) (vs : list X) : option (list (string * X)) :=
  match ps, vs with
  | [], [] => Some []
  | p :: ps', v :: vs' => do m <- bind_params ps' vs'; Some ((p, v) :: m)
  | _, _ => None
  end.

Definition run_with call (f : fn) (args : list value) : option value :=
  do env <- bind_params (fparams f) args;
  do env' <- steps call env (fbody f);
  eval call env' (fret f).

(** [lib] maps callee names to functions; [d] bounds the call depth (the call graph is acyclic). *)
Fixpoint run (d : nat) (lib : list (string * fn)) (f : fn) (args : list value) : option value :=
  run_with
    (match d with
     | O => fun _ _ => None
     | S d' => fun g vs => do h <- slook g lib; run d' lib h vs
     end) f args.
