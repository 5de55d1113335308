(** Model of the option handling of run_ccd.ccd_main (/repo/UT2/run_ccd.py:109-244) and of the settings that
    kernel.UltT2CC.__init__ (/repo/UT2/kernel.py:95-113) reads back, and of the class StoredInfo
    (/repo/UT2/run_ccd.py:19-105) with Python's default arguments.
    Not modelled: the "pertCorr" branch (run_ccd.py:144-198) of ccd_main and what the conversion routines compute;
    those routines read the option dictionary but do not change it. *)
From Coq Require Import String Ascii List Arith ZArith QArith Qcanon Bool Lia.
From Verif Require Import Sums Tensor Interp Numpy Diis Kernel.
Import ListNotations.
Open Scope string_scope.

(** Values found in an option dictionary. *)
Inductive oval := ONum (q : Qc) | ONat (n : nat) | OStr (s : string) | OBool (b : bool) | ONone | OOther (n : nat).
Notation opts := (list (string * oval)).
Definition haskey {V} (k : string) (d : list (string * V)) : bool := match slook k d with Some _ => true | None => false end.
(** `if k not in d: d.update({k: v})` *)
Definition default (k : string) (v : oval) (d : opts) : opts := if haskey k d then d else sset k v d.

(** run_ccd.py:127-142: the energies are always written, the five defaults only when absent *)
Definition fill (hf nuc : Qc) (rt : opts) : opts :=
  default "pert_E_corr" (OStr "0") (default "pert_wvfxn_corr" (OStr "0") (default "dump_tamps" (OBool false)
    (default "max_iter" (ONat 75) (default "stopping_eps" (ONum (Q2Qc (1 # 10 ^ 10)))
      (sset "nuclear_energy" (ONum nuc) (sset "hf_energy" (ONum hf) rt)))))).
(** run_ccd.py:220-226, 233-239: KeyError when diis_size comes without diis_start_cycle *)
Definition diis_opts (rt : opts) : option opts :=
  match slook "diis_size" rt with
  | Some ds => do dst <- slook "diis_start_cycle" rt; Some (sset "diis_start_cycle" dst (sset "diis_size" ds rt))
  | None => Some (sset "diis_start_cycle" ONone (sset "diis_size" ONone rt))
  end.
(** which conversion routine prepares the integrals and denominators *)
Inductive prep := SpinIntegrated | SpinOrbital.
(** run_ccd.py:201-244: the option dictionary as the driver object sees it (it is the caller's own dictionary), and the
    conversion routine used; None = an exception (no route key: `currentE` is unbound) *)
Definition ccd_main_options (hf nuc : Qc) (rt : opts) : option (opts * prep) :=
  let rt := fill hf nuc rt in
  if haskey "ccdType" rt then
    Some (sset "diis_start_cycle" (ONat 1) (sset "diis_size" (ONat 10) (sset "stopping_eps" (ONum (Q2Qc (1 # 10 ^ 10))) (sset "max_iter" (ONat 75) rt))), SpinIntegrated)
  else if haskey "fullCCType" rt then
    let rt := default "max_iter" (ONat 75) (default "stopping_eps" (ONum (Q2Qc (1 # 10 ^ 10))) rt) in
    do rt <- diis_opts rt; Some (rt, SpinIntegrated)
  else if haskey "ccdTypeSlow" rt then do rt <- diis_opts rt; Some (rt, SpinOrbital)
  else None.

(** kernel.py:98-113: the settings read from the dictionary (KeyError when absent) *)
Record settings := mkSet { s_max : oval; s_eps : oval; s_size : oval; s_start : oval; s_dump : oval; s_wf : oval; s_E : oval; s_label : string; s_type : oval; s_nuc : oval; s_hf : oval }.
Definition read_settings (rt : opts) : option settings :=
  do m <- slook "max_iter" rt; do e <- slook "stopping_eps" rt; do ds <- slook "diis_size" rt; do dst <- slook "diis_start_cycle" rt;
  do du <- slook "dump_tamps" rt; do pw <- slook "pert_wvfxn_corr" rt; do pE <- slook "pert_E_corr" rt;
  do lt <- get_calc rt calc_list; do nu <- slook "nuclear_energy" rt; do hf <- slook "hf_energy" rt;
  Some (mkSet m e ds dst du pw pE (fst lt) (snd lt) nu hf).

(** ** StoredInfo: objects whose fields are references to dictionaries *)
Section Store.
  Variable V : Type.
  Notation dic := (list (string * V)).
  (** the five fields of a StoredInfo object, run_ccd.py:41-46 *)
  Inductive field := FOcc | FSlice | FDenom | FRuntype | FInt.
  Definition obj := field -> nat.                                     (* addresses of dictionaries *)
  (** the heap; addresses 0-4 hold the default dictionaries, created once when the class is defined (Python evaluates
      default arguments at the definition, run_ccd.py:41) *)
  Record store := mkStore { mem : list dic; objs : list obj }.
  Definition default_addr (f : field) : nat := match f with FOcc => 0 | FSlice => 1 | FDenom => 2 | FRuntype => 3 | FInt => 4 end.
  Definition store0 : store := mkStore [[]; []; []; []; []] [].
  Definition field_eqb (f g : field) : bool := Nat.eqb (default_addr f) (default_addr g).
  Fixpoint upd {X} (n : nat) (x : X) (l : list X) : list X :=
    match n, l with O, _ :: r => x :: r | S n', y :: r => y :: upd n' x r | _, [] => [] end.
  (** d.update({k: v}) *)
  Definition poke (a : nat) (k : string) (v : V) (m : list dic) : list dic :=
    match nth_error m a with Some d => upd a (sset k v d) m | None => m end.
  Inductive op :=
  | NewDict (d : dic)                                     (* the caller creates a dictionary *)
  | NewObj (args : field -> option nat)                   (* StoredInfo(...): None = argument left out, run_ccd.py:41-46 *)
  | SetField (i : nat) (f : field) (a : nat)              (* obj.set_xxx(dictionary), run_ccd.py:48-66 *)
  | Update (i : nat) (f : field) (k : string) (v : V).    (* obj.xxxInfo.update({k: v}), as in run_ccd.py:173 *)
  Definition exec (s : store) (o : op) : store :=
    match o with
    | NewDict d => mkStore (mem s ++ [d]) (objs s)
    | NewObj args => mkStore (mem s) (objs s ++ [fun f => match args f with Some a => a | None => default_addr f end])
    | SetField i f a =>
        match nth_error (objs s) i with
        | Some o => mkStore (mem s) (upd i (fun g => if field_eqb f g then a else o g) (objs s))
        | None => s
        end
    | Update i f k v =>
        match nth_error (objs s) i with Some o => mkStore (poke (o f) k v (mem s)) (objs s) | None => s end
    end.
  Definition history := list op.
  Definition after_history (h : history) : store := fold_left exec h store0.
  (** obj.get_xxx(key), run_ccd.py:68-105 *)
  Definition get (s : store) (i : nat) (f : field) (k : string) : option V :=
    do o <- nth_error (objs s) i; do d <- nth_error (mem s) (o f); slook k d.
End Store.
