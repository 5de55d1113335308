(** Model of wicked_main of wicked_T3corr.py (4-47, 68-87), which AmpHandler.run_wickedTest calls for the triples corrections
    (amphandler.py:416) and which can be called by itself.  The contractions are the transcribed functions of Code_wicked_T3corr.v.
    [None] = an exception.  Simplifications: exact rationals; arguments that are not read (t1, t1_dag) are left out; the printed
    types (28) are left out. *)
From Coq Require Import String Ascii List Arith ZArith QArith Qcanon Bool Lia.
From Verif Require Import Sums Tensor Interp Numpy Spec SlowCC SpinOrb Wicked.
From Verif Require Code_wicked_T3corr.
Import ListNotations.
Open Scope string_scope.

(** the functions the module calls by name *)
Definition wicked_lib : list (string * fn) := [("antisym_T3", Code_wicked_T3corr.antisym_T3); ("contractE", Code_wicked_T3corr.contractE)].
Definition wcall (f : fn) (args : list value) : option tensor := do v <- run 1 wicked_lib f args; asT v.
(** wicked_T3corr.py:79-81 *)
Definition second_order_resid (no nv : nat) (g T2 : tensor) : option tensor :=
  do r <- call0 Code_wicked_T3corr.build_T3_secondO [VT g; VSl 0 (Some no); VSl no None; VT T2];
  call0 Code_wicked_T3corr.antisym_T3 [VT r; VInt no; VInt nv].
(** wicked_T3corr.py:84-86 *)
Definition third_order_resid (no nv : nat) (g T2 : tensor) : option tensor :=
  do r <- call0 Code_wicked_T3corr.build_T3_thirdO [VT g; VSl 0 (Some no); VSl no None; VT T2];
  call0 Code_wicked_T3corr.antisym_T3 [VT r; VInt no; VInt nv].
(** wicked_T3corr.py:76-87: the dictionary with keys 2 and 3 *)
Definition build_T3_resids (no nv : nat) (g T2 : tensor) : option (tensor * tensor) :=
  do a <- second_order_resid no nv g T2; do b <- third_order_resid no nv g T2; Some (a, b).
(** wicked_T3corr.py:12 and 69-70, 38-39: turned over and multiplied by the denominators *)
Definition over_D3 (D3 r : tensor) : option tensor := do x <- ttransp [3; 4; 5; 0; 1; 2]%nat r; tbin Qcmult x D3.
(** wicked_T3corr.py:68-71 *)
Definition get_fourthOrder (r D3 : tensor) : option Qc := do x <- over_D3 D3 r; number Code_wicked_T3corr.contractE [VT r; VT x].
(** wicked_T3corr.py:31-47: what is printed *)
Definition get_fifthOrder (no nv : nat) (g t2_dag r2 r3 D3 : tensor) : option (list (string * Qc)) :=
  let o := VSl 0 (Some no) in let v := VSl no None in
  do capA <- wcall Code_wicked_T3corr.fifthOrder_capA [VT g; o; v; VT t2_dag; VInt no; VInt nv];
  do capA <- tbin Qcmult D3 capA;
  do eA <- number Code_wicked_T3corr.contractE [VT r2; VT capA];
  do capB <- over_D3 D3 r2;
  do eB <- number Code_wicked_T3corr.contractE [VT r3; VT capB];
  do capC <- wcall Code_wicked_T3corr.fifthOrder_capC [VT g; o; v; VT t2_dag; VInt no; VInt nv];
  do capC <- tbin Qcmult capC D3;
  do eC <- number Code_wicked_T3corr.contractE [VT r2; VT capC];
  Some [("capA_energy:", eA); ("", (Q2Qc (-1 # 8) * eA)%Qc); ("capB_energy", eB); ("", (Q2Qc (25 # 100) * eB)%Qc);
        ("capC_energy", eC); ("", (Q2Qc (25 # 100) * eC)%Qc)].
(** wicked_T3corr.py:4-29: the numbers printed and the number returned *)
Definition wicked_main (no nv : nat) (g T2 t2_dag D3 D2 : tensor) : option (list (string * Qc) * Qc) :=
  do base <- build_T3_resids no nv g T2;
  do x <- tslice [(no, None); (no, None); (0%nat, Some no); (0%nat, Some no)] g;
  do x <- tbin Qcmult x D2;
  do first <- ttransp [2; 3; 0; 1]%nat x;
  do caps <- build_T3_resids no nv g first;
  do cap <- over_D3 D3 (fst caps);
  do newway <- number Code_wicked_T3corr.contractE [VT (fst base); VT cap];
  do fourth <- get_fourthOrder (fst base) D3;
  do fifth <- get_fifthOrder no nv g t2_dag (fst base) (snd base) D3;
  Some ([("2e cap is: ", newway); ("", (newway * Q2Qc (25 # 100))%Qc); ("fourthOenergy:", fourth); ("", (Q2Qc (25 # 100) * fourth)%Qc)] ++ fifth,
        (Q2Qc (25 # 100) * fourth)%Qc)%list.
