(** Model of /repo/UT2/kernel.py: class UltT2CC (the iterative driver) and its option parsing.
    The residual and energy routines the loop calls are parameters here (the theorems about the loop hold for
    every behaviour of them); SlowCC.v supplies the spin-orbital ones.
    kernel.py:30 imports UT2.drive_ccsd_SO, which is not in the repository, so as committed the module cannot be
    imported; the model describes the class as written, and treats calls into the missing module as raising.
    Printing is not modelled, except for the subscripts it evaluates (kernel.py:472). *)
From Coq Require Import String Ascii List Arith ZArith QArith Qcanon Bool Lia.
From Coq Require Qcabs.
From Verif Require Import Sums Tensor Interp Numpy Diis.
Import ListNotations.
Open Scope string_scope.

(** kernel.py:62-83 extract_integer: the digit characters of the label; None without digits, else
    range(5, last digit + 1). *)
Definition digit (c : ascii) : option nat :=
  let n := nat_of_ascii c in if (Nat.leb 48 n && Nat.leb n 57)%bool then Some (n - 48)%nat else None.
Fixpoint digits (s : string) : list nat :=
  match s with
  | EmptyString => []
  | String c r => match digit c with Some n => n :: digits r | None => digits r end
  end.
Definition extract_integer (s : string) : option (list nat) :=
  match digits s with
  | [] => None
  | l => Some (prange 5 (last l 0%nat + 1))
  end.

(** kernel.py:33-59 get_calc over a dictionary of options: the first listed key that is present. *)
Definition calc_list : list string := ["ccdType"; "ccdTypeSlow"; "fullCCType"].
Fixpoint get_calc {V} (opts : list (string * V)) (labels : list string) : option (string * V) :=
  match labels with
  | [] => None
  | k :: r => match slook k opts with Some v => Some (k, v) | None => get_calc opts r end
  end.

(** Dictionaries of amplitude arrays.  Simplification: the entry 't1aa': None of kernel.py:126 is left out. *)
Notation dict := (list (string * tensor)).

Record calc := mkCalc {
  cc_label : string; cc_type : string;
  max_iter : nat; stopping_eps : Qc;
  diis_size : option nat; diis_start : nat;
  nucE : Qc; hf_energy : Qc }.

(** The functions the loop calls. *)
Inductive energy_fn := E_t2energy | E_t2energySlow | E_ucc4 | E_ccsdSO | E_fullCC.
Inductive resid_fn := R_t2resid | R_t2residSlow | R_ucc4 | R_ccsdSO | R_fullCC.
(** kernel.py:295-313, 439-449 *)
Definition energy_call (c : calc) : option energy_fn :=
  if cc_label c =? "ccdType" then Some E_t2energy
  else if cc_label c =? "ccdTypeSlow" then
    if contains "UCC(4)" (cc_type c) then Some E_ucc4
    else if contains "CCSD(Qf)" (cc_type c) then Some E_ccsdSO
    else Some E_t2energySlow
  else if cc_label c =? "fullCCType" then Some E_fullCC
  else None.
(** kernel.py:323-334 *)
Definition resid_call (c : calc) : option resid_fn :=
  if cc_label c =? "ccdType" then Some R_t2resid
  else if cc_label c =? "ccdTypeSlow" then
    if contains "UCC(4)" (cc_type c) then Some R_ucc4
    else if contains "CCSD(Qf)" (cc_type c) then Some R_ccsdSO
    else Some R_t2residSlow
  else if cc_label c =? "fullCCType" then Some R_fullCC
  else None.

(** ** Amplitudes as one vector *)
Definition t2_keys := ["t2aa"; "t2bb"; "t2ab"].
Definition t4_keys := ["t4aaaa"; "t4aaab"; "t4aabb"; "t4abbb"; "t4bbbb"].
(** kernel.py:339-367: the arrays that make up `vectorized_iterate` *)
Definition vec_keys (cc_type : string) : list string :=
  if contains "UCC(4)" cc_type then ["t1aa"; "t2aa"; "t3aa"]
  else if contains "CCDQ" cc_type then (t2_keys ++ t4_keys)%list
  else t2_keys.
(** kernel.py:123-167: the arrays that make up the initial `old_vec`; [full] is the branch taken when neither
    "ccdType" nor "ccdTypeSlow" is among the options *)
Definition old_keys (full : bool) (cc_type : string) : list string :=
  if full then (t2_keys ++ t4_keys)%list
  else if contains "UCC(4)" cc_type then ["t1aa"; "t2aa"; "t3aa"] else t2_keys.

Definition vectorise (keys : list string) (d : dict) : option vec :=
  do ts <- omap (fun k => slook k d) keys; Some (hstack (map flatten ts)).
(** kernel.py:373-436: each array is the slice of its size, the last one takes the rest *)
Fixpoint unvectorise (keys : list string) (off : nat) (v : vec) (d : dict) : option dict :=
  match keys with
  | [] => Some d
  | [k] => do t <- slook k d; do t' <- reshape (shape t) (vfrom off v); Some (sset k t' d)
  | k :: r =>
      do t <- slook k d;
      do t' <- reshape (shape t) (vslice off (off + size (shape t)) v);
      unvectorise r (off + size (shape t)) v (sset k t' d)
  end.

(** kernel.py:204-206 set_l2amps(): the transposes of the three T2 arrays (transpose gives a view of an array that
    is never updated in place afterwards, so a copy) *)
Definition l2_of (d : dict) : option dict :=
  do aa <- slook "t2aa" d; do bb <- slook "t2bb" d; do ab <- slook "t2ab" d;
  do laa <- ttransp [2; 3; 0; 1]%nat aa; do lbb <- ttransp [2; 3; 0; 1]%nat bb; do lab <- ttransp [2; 3; 0; 1]%nat ab;
  Some [("l2aa", laa); ("l2bb", lbb); ("l2ab", lab)].

(** kernel.py:472: `tamps["t2aa"][0,0,0,:]` and `[0,:,0,0]` *)
Definition printable (d : dict) : bool :=
  match slook "t2aa" d with
  | Some t => match shape t with
              | [a; b; i; j] => (Nat.ltb 0 a && Nat.ltb 0 b && Nat.ltb 0 i && Nat.ltb 0 j)%bool
              | _ => false
              end
  | None => false
  end.

Section Kernel.
  Variable World : Type.                                   (* files read and written by the routines *)
  (* the routines get the amplitudes and, where they read it, the l2 dictionary *)
  Variable solve : solver.
  Variable resid : resid_fn -> dict -> dict -> World -> option (dict * World).
  Variable energy : energy_fn -> dict -> World -> option (Qc * World).         (* get_perturbCorr=False *)
  Variable pert : energy_fn -> dict -> dict -> World -> option (Qc * World).           (* get_perturbCorr=True *)
  Variable first_guess : dict -> option dict.              (* kernel.py:301: tei[v,v,o,o]*D2aa as t2aa *)
  Variable c : calc.

  Record kstate := mkSt { amps : dict; l2amps : dict; old_vec : vec; dstate : diis; world : World }.

  (** kernel.py:338-436: the DIIS block *)
  Definition diis_block (s : kstate) : option kstate :=
    match diis_size c with
    | None => Some s
    | Some _ =>
        do v <- vectorise (vec_keys (cc_type c)) (amps s);
        do err <- vbin Qcminus (old_vec s) v;
        do nd <- compute_new_vec solve (dstate s) v err;
        do d <- unvectorise (vec_keys (cc_type c)) 0 (fst nd) (amps s);
        Some (mkSt d (l2amps s) (fst nd) (snd nd) (world s))
    end.

  (** one pass through the loop body up to the energy, kernel.py:320-449 *)
  Definition iteration (s : kstate) : option (kstate * Qc) :=
    do l2 <- l2_of (amps s);
    do rf <- resid_call c;
    do dw <- resid rf (amps s) l2 (world s);
    do s1 <- diis_block (mkSt (fst dw) l2 (old_vec s) (dstate s) (snd dw));
    do ef <- energy_call c;
    do ew <- energy ef (amps s1) (world s1);
    Some (mkSt (amps s1) (l2amps s1) (old_vec s1) (dstate s1) (snd ew), fst ew).

  Inductive loop_end := LDone (s : kstate) (current : option Qc) | LExit | LRaise.
  (** kernel.py:316-464; [n] passes of `for idx in range(max_iter)` remain *)
  Fixpoint loop (n idx : nat) (s : kstate) (old : Qc) (current : option Qc) : loop_end :=
    match n with
    | O => LDone s current
    | S n' =>
        if Nat.ltb 75 idx then LExit
        else match iteration s with
             | None => LRaise
             | Some (s', e) =>
                 if Qclt_le_dec (Qcabs.Qcabs (old - e)) (stopping_eps c) then LDone s' (Some e)
                 else if Nat.ltb (max_iter c) idx then LRaise
                 else loop n' (S idx) s' e (Some e)
             end
    end.

  Definition qf_types := ["CCD(Qf)"; "CCD(Qf*)"; "CCSDT(Qf)"; "CCSDT(Qf*)"; "CCSD(Qf)"].
  Definition is_qf : bool := existsb (String.eqb (cc_type c)) qf_types.
  (** kernel.py:226-280 finalize: (tfinalEnergy, corrE) *)
  Definition finalize (current : Qc) (d l2 : dict) (w : World) : option (Qc * Qc) :=
    let p0 := if negb (cc_type c =? "CCD(Qf)")
              then Some (current + nucE c, nucE c + current - hf_energy c)%Qc else None in
    do p1 <- (if is_qf then
                do ef <- (if cc_label c =? "ccdType" then Some E_t2energy
                          else if cc_label c =? "ccdTypeSlow" then Some E_t2energySlow
                          else if cc_label c =? "fullCCType" then Some E_fullCC else None);
                do qw <- pert ef d l2 w;
                Some (Some (current + nucE c + fst qw, fst qw)%Qc, snd qw)
              else Some (p0, w));
    do p2 <- (if contains "UT2" (cc_type c) then
                do uw <- pert E_t2energySlow d l2 (snd p1);
                do tc <- fst p1;
                Some (Some (current + nucE c + fst uw, snd tc + fst uw)%Qc)
              else Some (fst p1));
    p2.

  Inductive outcome := Returned (d : dict) (tfinal corr : Qc) | SysExit | Raised.
  (** kernel.py:294-313: the state and `old_energy` before the first pass *)
  Definition start (d0 : dict) (ov : vec) (w : World) : option (kstate * Qc) :=
    do d1 <- (if cc_label c =? "ccdTypeSlow" then first_guess d0 else Some d0);
    do ef <- energy_call c;
    do ew <- energy ef d1 w;
    Some (mkSt d1 [] ov (diis_new (match diis_size c with Some n => n | None => O end) (diis_start c)) (snd ew), fst ew).
  (** kernel.py:282-475, from the initial amplitudes *)
  Definition kernel (d0 : dict) (ov : vec) (w : World) : outcome :=
    match start d0 ov w with
    | None => Raised
    | Some (s0, e0) =>
        match loop (max_iter c) 0 s0 e0 None with
        | LExit => SysExit
        | LRaise => Raised
        | LDone s None => Raised                            (* current_energy is unbound *)
        | LDone s (Some e) =>
            if printable (amps s) then
              match finalize e (amps s) (l2amps s) (world s) with
              | Some (tf, co) => Returned (amps s) tf co
              | None => Raised
              end
            else Raised
        end
    end.
End Kernel.
