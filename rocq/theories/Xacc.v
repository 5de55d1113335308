(** Model of the reader of files written by another program: xacc.py (class run_xacc), of the class AmpHandler of
    amphandler.py, and of the branch of ccd_main that uses them (run_ccd.py:144-187).
    A text file is the list of its lines (with or without the newline at the end); the files named exist.
    [None] = an exception.  The text of a decimal number is turned into a number by [fl], a parameter: every theorem holds
    for every such function (Python's float() among them, as far as it is a function to the rationals).
    Simplifications: exact rationals; int() accepts an optional minus sign and digits (Python also accepts a plus sign,
    underscores and blanks); printing left out. *)
From Coq Require Import String Ascii List Arith ZArith QArith Qcanon Bool Lia.
From Coq Require DecimalString.
From Verif Require Import Sums Tensor Interp Numpy Spec Diis Kernel Denoms.
From Verif Require Code_pdagq_T3corr.
Import ListNotations.
Open Scope string_scope.

(** ** Python strings *)
(** the ASCII characters `str.split()` and `str.strip()` treat as blanks *)
Definition blank (c : ascii) : bool :=
  let n := nat_of_ascii c in (Nat.leb 9 n && Nat.leb n 13 || Nat.leb 28 n && Nat.leb n 32)%bool.
(** `line.split()`: [words] returns the characters before the first blank and the words after it *)
Definition add_word (w : string) (ws : list string) : list string := match w with "" => ws | _ => w :: ws end.
Fixpoint words (s : string) : string * list string :=
  match s with
  | "" => ("", [])
  | String c r => let (w, ws) := words r in if blank c then ("", add_word w ws) else (String c w, ws)
  end.
Definition split (s : string) : list string := let (w, ws) := words s in add_word w ws.
(** `s.split(',')` *)
Fixpoint split_at (d : ascii) (s : string) : string * list string :=
  match s with
  | "" => ("", [])
  | String c r => let (w, ws) := split_at d r in if Ascii.eqb c d then ("", w :: ws) else (String c w, ws)
  end.
Definition split_on (d : ascii) (s : string) : list string := let (w, ws) := split_at d s in w :: ws.
(** `s.strip(c)` and, with [blank], `s.strip()` *)
Fixpoint lstrip (p : ascii -> bool) (s : string) : string :=
  match s with "" => "" | String c r => if p c then lstrip p r else s end.
Fixpoint rstrip (p : ascii -> bool) (s : string) : string :=
  match s with
  | "" => ""
  | String c r => match rstrip p r with "" => if p c then "" else String c "" | r' => String c r' end
  end.
Definition strip (p : ascii -> bool) (s : string) : string := rstrip p (lstrip p s).
Definition strip_c (c : ascii) : string -> string := strip (Ascii.eqb c).
(** `int(s)` *)
Definition int_of (s : string) : option Z := option_map Z.of_int (DecimalString.NilZero.int_of_string s).
(** `l[-1]` *)
Definition last_of {A} (l : list A) : option A := match rev l with [] => None | x :: _ => Some x end.

(** ** numpy *)
(** position meant by the index z in an axis of length n: negative indices count from the end; IndexError otherwise *)
Definition np_index (n : nat) (z : Z) : option nat :=
  if (Z.leb 0 z && Z.ltb z (Z.of_nat n))%bool then Some (Z.to_nat z)
  else if (Z.leb (- Z.of_nat n) z && Z.ltb z 0)%bool then Some (Z.to_nat (z + Z.of_nat n)) else None.
Fixpoint np_indices (sh : list nat) (zs : list Z) : option (list nat) :=
  match sh, zs with
  | [], [] => Some []
  | n :: sh, z :: zs => do i <- np_index n z; do r <- np_indices sh zs; Some (i :: r)
  | _, _ => None
  end.
(** `t[z1,..,zk] = x` *)
Definition put (zs : list Z) (x : Qc) (t : tensor) : option tensor :=
  do idx <- np_indices (shape t) zs; Some (tput idx x t).
(** `np.sort(v)` *)
Fixpoint insert_q (x : Qc) (l : list Qc) : list Qc :=
  match l with [] => [x] | y :: r => if Qclt_le_dec y x then y :: insert_q x r else x :: l end.
Definition np_sort (l : list Qc) : list Qc := fold_right insert_q [] l.

(** ** class run_xacc *)
Section Reader.
Variable fl : string -> option Qc.

(** xacc.py:86-89 and 116-119: at most [k] operator indices, up to the first '|'.  An item [None] of the list is the number
    appended by line 114 (which has no method strip: AttributeError); the end of the list is an IndexError. *)
Fixpoint operators (k : nat) (l : list (option string)) : option (list Z) :=
  match k with
  | O => Some []
  | S k =>
      match l with
      | Some w :: r => if String.eqb w "|" then Some [] else
          do z <- int_of (strip_c "^" w); do zs <- operators k r; Some (z :: zs)
      | _ => None
      end
  end.

(** xacc.py:110-135, one line after the header: [(t1, t2)] before and after *)
Definition amp_line (nocc : nat) (line : string) (t : tensor * tensor) : option (tensor * tensor) :=
  do w <- last_of (split line);
  do x <- fl (strip_c "|" w);
  do ops <- operators 4 (map Some (removelast (split line)) ++ [Some "|"; None]);
  let n := Z.of_nat nocc in
  match ops with
  | [p; q; i; j] =>
      let a := (p - n)%Z in let b := (q - n)%Z in
      do u <- put [a; b; i; j] x (snd t);
      do u <- put [b; a; i; j] (- (1) * x)%Qc u;
      do u <- put [a; b; j; i] (- (1) * x)%Qc u;
      do u <- put [b; a; j; i] x u;
      Some (fst t, u)
  | p :: i :: _ =>
      do u <- put [(p - n)%Z; i] x (fst t);
      Some (u, snd t)
  | _ => None
  end.
(** xacc.py:105-138: [on] is read_amps *)
Fixpoint amp_lines (nocc : nat) (on : bool) (ls : list string) (t : tensor * tensor) : option (tensor * tensor) :=
  match ls with
  | [] => Some t
  | l :: r => do t' <- (if on then amp_line nocc l t else Some t); amp_lines nocc (on || prefix "+++++" l) r t'
  end.
(** xacc.py:16-18 and 102-142 *)
Definition read_tamps (nocc nvirt : nat) (ls : list string) : option (tensor * tensor) :=
  amp_lines nocc false ls (tzeros [nvirt; nocc], tzeros [nvirt; nvirt; nocc; nocc]).

(** xacc.py:82-98, one line.  (The dictionary tei of lines 80 and 98 is not used.) *)
Definition tei_line (line : string) (g : tensor) : option tensor :=
  do w <- last_of (split line);
  do x <- fl w;
  do ops <- operators 4 (map Some (split line));
  match ops with [_; _; _; _] => put ops (Q2Qc 4 * x)%Qc g | _ => None end.
Fixpoint tei_lines (ls : list string) (g : tensor) : option tensor :=
  match ls with [] => Some g | l :: r => do g' <- tei_line l g; tei_lines r g' end.
(** xacc.py:21-23 and 79-98 *)
Definition read_tei (nbas : nat) (ls : list string) : option tensor := tei_lines ls (tzeros [nbas; nbas; nbas; nbas]).

(** xacc.py:144-156.  A negative number of orbitals makes np.zeros of line 16 raise; the model raises here. *)
Definition natural (z : Z) : option nat := if Z.leb 0 z then Some (Z.to_nat z) else None.
Definition read_bkgrd (ls : list string) : option (nat * nat * list Qc) :=
  do l1 <- nth_error ls 1; do w1 <- last_of (split (strip blank l1)); do z1 <- int_of w1; do no <- natural (2 * z1);
  do l2 <- nth_error ls 2; do w2 <- last_of (split (strip blank l2)); do z2 <- int_of w2; do nv <- natural (2 * z2);
  do l3 <- nth_error ls 3; do w3 <- last_of (split (strip blank l3));
  do es <- omap (fun e => fl (strip_c "]" (strip_c "[" e))) (split_on "," w3);
  Some (no, nv, es).

Record xacc := mkX { x_nocc : nat; x_nvirt : nat; x_energies : list Qc; x_d1 : tensor; x_d2 : tensor; x_d3 : tensor;
                     x_t1 : tensor; x_t2 : tensor; x_tei : tensor }.
(** xacc.py:6-38 (set_denoms: 27-38); o = slice(None,nocc), v = slice(nocc,None) *)
Definition run_xacc (bkgrd tamps tei : list string) : option xacc :=
  do b <- read_bkgrd bkgrd;
  let nocc := fst (fst b) in let nvirt := snd (fst b) in let es := snd b in
  let eps := np_sort (es ++ es) in
  let o := (O, Some nocc) in let v := (nocc, None) in
  do t <- read_tamps nocc nvirt tamps;
  do g <- read_tei (nocc + nvirt) tei;
  Some (mkX nocc nvirt es (den 1 eps o v) (den 2 eps o v) (den 3 eps o v) (fst t) (snd t) g).
End Reader.

(** ** class AmpHandler *)
(** `try: a  except: b` *)
Definition try_ {A} (a b : option A) : option A := match a with Some x => Some x | None => b end.
(** amphandler.py:34-56.  The arguments are the arrays in the pickle files, [None] = no file name given.  [t1_tmp] is
    assigned only when there is no T1 file; an unassigned variable is [None]. *)
Definition get_amps (nocc nvirt : nat) (t2file t1file : option tensor) : option (tensor * tensor) :=
  do t2_tmp <- t2file;                                         (* open(None): TypeError *)
  let t1_tmp := match t1file with Some _ => None | None => Some (tzeros [nvirt; nocc]) end in
  try_ (do t1 <- t1_tmp; Some (t1, t2_tmp))
       (do t1 <- t1_tmp; do t1 <- ttransp [1; 0]%nat t1; do t2 <- ttransp [2; 3; 0; 1]%nat t2_tmp; Some (t1, t2)).
(** amphandler.py:18-25.  Without any file line 25 raises NameError, because sys is not imported. *)
Definition handler_amps (nocc nvirt : nat) (t2file t1file : option tensor) (xo : option xacc) : option (tensor * tensor) :=
  match t2file, t1file with
  | None, None => match xo with Some x => Some (x_t1 x, x_t2 x) | None => None end
  | _, _ => get_amps nocc nvirt t2file t1file
  end.

(** amphandler.py:97-119.  [fock] is storedInfo.integralInfo["oei"].  The first result is None: pdagq_T3corr.py:51-69 prints the
    CCSD energy and returns nothing. *)
Definition run_pdagq (nocc nvirt : nat) (g d3 : tensor) (fock : value) (t : tensor * tensor) : option (value * Qc) :=
  let o := o_ nocc in let v := v_ nocc in
  do n0 <- nth_error (shape (snd t)) 0;
  do p <- (if negb (Nat.eqb n0 nvirt) then
             do t2 <- ttransp [2; 3; 0; 1]%nat (snd t); do t1 <- ttransp [1; 0]%nat (fst t); Some (fst t, snd t, t1, t2)
           else
             do l1 <- ttransp [1; 0]%nat (fst t); do l2 <- ttransp [2; 3; 0; 1]%nat (snd t); Some (l1, l2, fst t, snd t));
  let '(l1, l2, t1, t2) := p in
  do r <- run 0 [] Code_pdagq_T3corr.build_T3 [VT g; o; v; VT t2];
  do r <- asT r;
  do t3 <- tbin Qcmult r d3;
  do e <- run 0 [] Code_pdagq_T3corr.pdagq_T3energy [VT g; o; v; VT l1; VT l2; VT t3];
  do e <- asT e;
  do _ <- run 0 [] Code_pdagq_T3corr.ccsd_energy_L68 [VT g; fock; o; v; VT t1; VT t2];
  Some (VNone, data e []).

(** amphandler.py:59-95 and 121-468: whatever the statements before do ([w]: they may raise), both methods then execute
    `sys.exit()` (lines 95 and 309), and sys is not imported: NameError.  The statements after it are never reached. *)
Definition sys_exit {A} : option A := None.
Definition run_wickedTest (w : option unit) : option (value * Qc) := do _ <- w; sys_exit.
Definition run_UCCDcheck (w : option unit) : option (value * Qc) := do _ <- w; sys_exit.

(** ** The branch of ccd_main: run_ccd.py:144-187 *)
(** What the keys "pertOrderSoftware", "xaccfiles" and "pertCorr" point to: the three text files; or the sizes, integrals,
    Fock matrix and orbital energies found by convertSCFinfo_tmpslow, and the pickle files. *)
Inductive source :=
| FromXacc (bkgrd tamps tei : list string)
| FromScf (nocc nvirt : nat) (g fock : tensor) (mo_energy : list Qc) (t2file t1file : option tensor).
(** run_ccd.py:165: np.sort(np.kron(mo_energy, np.ones(2))) *)
Definition doubled (l : list Qc) : list Qc := np_sort (flat_map (fun x => [x; x]) l).
(** [w] is what run_wickedTest and run_UCCDcheck do before their exit.  The result [Some None] means that no energy was
    assigned.  integralInfo["oei"] of the xacc route (line 152) is the list of orbital energies; lists cannot be indexed by
    a pair of slices, and neither can None, which stands for it here. *)
Definition pert_branch (fl : string -> option Qc) (w : option unit) (orders : string) (s : source) : option (option (value * Qc)) :=
  do h <- match s with
          | FromXacc b t i =>
              do x <- run_xacc fl b t i;
              do am <- handler_amps (x_nocc x) (x_nvirt x) None None (Some x);
              Some (x_nocc x, x_nvirt x, x_tei x, x_d3 x, VNone, am)
          | FromScf no nv g f es t2f t1f =>
              do am <- handler_amps no nv t2f t1f None;
              Some (no, nv, g, den 3 (doubled es) (O, Some no) (no, None), VT f, am)
          end;
  let '(no, nv, g, d3, fock, am) := h in
  if String.eqb orders "pdagq_parT" then do r <- run_pdagq no nv g d3 fock am; Some (Some r)
  else if String.eqb orders "wicked_parT" then do r <- run_wickedTest w; Some (Some r)
  else if String.eqb orders "checkUCCD" then do r <- run_UCCDcheck w; Some (Some r)
  else Some None.
(** run_ccd.py:144-228 with none of the keys ccdType, fullCCType, ccdTypeSlow: `return currentE, corrE` raises
    UnboundLocalError when nothing was assigned. *)
Definition pert_main (fl : string -> option Qc) (w : option unit) (orders : string) (s : source) : option (value * Qc) :=
  do r <- pert_branch fl w orders s; r.
