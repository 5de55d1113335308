(** Vocabulary of the theorems about the third driver (test.py): amplitudes with occupied indices first. *)
From Coq Require Import String List Arith ZArith QArith Qcanon Bool Lia.
From Coq Require Qcabs.
From Verif Require Import Sums Tensor Interp Numpy Spec Diis Kernel Denoms SpecDriver SlowCC Drive.
From Verif Require Code_cc_eqns Code_ccsdt_eqns Code_ccdq_eqns.
Import ListNotations.
Open Scope string_scope.
Open Scope Qc_scope.

(** A set-up calculation with no occupied and nv virtual spin orbitals: the slices and counts agree, the Hamiltonian has the
    symmetries of one, and the denominators are those of its orbital energies. *)
Definition prepared (no nv : nat) (label : string) (x : setup) : Prop :=
  x_no x = no /\ x_nv x = nv /\ x_end x = no /\ is_fock (no + nv) (x_f x) /\ is_tei (no + nv) (x_g x) /\
  length (x_e x) = (no + nv)%nat /\ drive_denoms label (x_e x) no = Some (x_den x).
(** the orbital energies as a function *)
Definition energies_of (x : setup) (p : nat) : Qc := nth p (x_e x) 0.

(** Entry [key] of the dictionary is a k-fold amplitude array if [b], and is absent otherwise. *)
Definition holds_amp (key : string) (b : bool) (k no nv : nat) (d : dict) : Prop :=
  if b then exists t, slook key d = Some t /\ is_amp_ov k no nv t else slook key d = None.
(** The amplitudes a label asks for: T1 if it has an S, T2 if it has a D, T3 if it has a T, T4 if it has a Q. *)
Definition amplitudes (no nv : nat) (label : string) (d : dict) : Prop :=
  holds_amp "t1aa" (contains "S" label) 1 no nv d /\ holds_amp "t2aa" (contains "D" label) 2 no nv d /\
  holds_amp "t3aa" (contains "T" label) 3 no nv d /\ holds_amp "t4aa" (contains "Q" label) 4 no nv d.

(** The coupled-cluster energy  sum_i f_ii - 1/2 sum_ij <ij||ij> + sum_ia f_ia t_ia + 1/4 sum <ij||ab> t_ijab
    + 1/2 sum <ij||ab> t_ia t_jb *)
Definition reference_energy (no : nat) (f g : tensor) : Qc :=
  (Sum i < no, data f [i; i]) - Q2Qc (1 # 2) * (Sum i < no, Sum j < no, data g [i; j; i; j]).
Definition doubles_energy (no nv : nat) (g T2 : tensor) : Qc :=
  Q2Qc (1 # 4) * (Sum i < no, Sum j < no, Sum a < nv, Sum b < nv, data g [i; j; no + a; no + b]%nat * data T2 [i; j; a; b]).
Definition singles_energy (no nv : nat) (f g T1 : tensor) : Qc :=
  (Sum i < no, Sum a < nv, data f [i; no + a]%nat * data T1 [i; a]) +
  Q2Qc (1 # 2) * (Sum i < no, Sum j < no, Sum a < nv, Sum b < nv, data g [i; j; no + a; no + b]%nat * data T1 [i; a] * data T1 [j; b]).
(** the energy of the amplitudes in a dictionary (no T1: no singles part) *)
Definition cc_energy (no nv : nat) (f g : tensor) (d : dict) : Qc :=
  reference_energy no f g +
  match slook "t2aa" d with Some T2 => doubles_energy no nv g T2 | None => 0 end +
  match slook "t1aa" d with Some T1 => singles_energy no nv f g T1 | None => 0 end.

(** Two successive energies differ by less than the threshold *)
Definition settled (thr : Qc) (E : nat -> Qc) (n : nat) : Prop := Qcabs.Qcabs (E n - E (S n)) < thr.

(** The residual arrays a label stands for, under the names of the amplitudes they belong to: CCSDT, CCSD, CCDQ, and CCD for every other
    label with a D. *)
Definition method_residuals (no nv : nat) (f g : tensor) (label : string) (d : dict) (rs : dict) : Prop :=
  if contains "CCSDT" label then exists T1 T2 T3 R1 R2 R3,
    slook "t1aa" d = Some T1 /\ slook "t2aa" d = Some T2 /\ slook "t3aa" d = Some T3 /\
    returns 1 tamps_lib Code_ccsdt_eqns.ccsdt_t1eqns [VT f; VT g; VT T1; VT T2; VT T3; o_ no; v_ no] R1 /\
    returns 1 tamps_lib Code_ccsdt_eqns.ccsdt_t2eqns [VT f; VT g; VT T1; VT T2; VT T3; o_ no; v_ no] R2 /\
    returns 1 tamps_lib Code_ccsdt_eqns.ccsdt_t3eqns [VT f; VT g; VT T1; VT T2; VT T3; o_ no; v_ no] R3 /\
    rs = [("t1aa", R1); ("t2aa", R2); ("t3aa", R3)]
  else if contains "CCSD" label then exists T1 T2 R1 R2,
    slook "t1aa" d = Some T1 /\ slook "t2aa" d = Some T2 /\
    returns 1 tamps_lib Code_cc_eqns.ccsd_t1resid [VT f; VT g; VT T1; VT T2; o_ no; v_ no] R1 /\
    returns 1 tamps_lib Code_cc_eqns.ccsd_t2resid [VT f; VT g; VT T1; VT T2; o_ no; v_ no; VInt no; VInt nv] R2 /\
    rs = [("t1aa", R1); ("t2aa", R2)]
  else if contains "CCDQ" label then exists T2 T4 R2 R4,
    slook "t2aa" d = Some T2 /\ slook "t4aa" d = Some T4 /\
    returns 1 tamps_lib Code_ccdq_eqns.ccdq_t2eqns [VT f; VT g; VT T2; VT T4; o_ no; v_ no] R2 /\
    returns 1 tamps_lib Code_ccdq_eqns.ccdq_t4eqns [VT f; VT g; VT T2; VT T4; o_ no; v_ no] R4 /\
    rs = [("t2aa", R2); ("t4aa", R4)]
  else exists T2 R2, slook "t2aa" d = Some T2 /\
    returns 1 tamps_lib Code_cc_eqns.ccsd_t2resid [VT f; VT g; VT (tzeros [no; nv]); VT T2; o_ no; v_ no; VInt no; VInt nv] R2 /\
    rs = [("t2aa", R2)].
(** no excitation of up to four electrons has zero orbital-energy difference *)
Definition all_gaps (no nv : nat) (eps : nat -> Qc) : Prop := forall k, (1 <= k <= 4)%nat -> gapped k no nv eps.
(** [d'] is [d] with every array named in [rs] moved by residual over orbital-energy difference:
    t'[i,j,..,a,b,..] = t[i,j,..,a,b,..] + R[i,j,..,a,b,..] / (eps_i + eps_j + ... - eps_a - eps_b - ...) *)
Definition updates (no nv : nat) (eps : nat -> Qc) (rs d d' : dict) : Prop :=
  forall key, match slook key rs with
              | None => slook key d' = slook key d
              | Some R => exists T T', slook key d = Some T /\ slook key d' = Some T' /\ shape R = shape T /\ shape T' = shape T /\
                  (all_gaps no nv eps -> forall occ virt, length occ = length virt -> inr (occ ++ virt) (shape T) ->
                     data T' (occ ++ virt)%list = data T (occ ++ virt)%list + data R (occ ++ virt)%list / gap no eps virt occ)
              end.
(** all residuals vanish; all named arrays are the same in both dictionaries *)
Definition all_zero (rs : dict) : Prop := forall key R, slook key rs = Some R -> zero_tensor R.
Definition same_amplitudes (d d' : dict) : Prop :=
  forall key, match slook key d, slook key d' with Some T, Some T' => teq T T' | None, None => True | _, _ => False end.
(** The first guess: T2 = <ij||ab> / (eps_i + eps_j - eps_a - eps_b), everything else zero. *)
Definition first_guess (no nv : nat) (eps : nat -> Qc) (g : tensor) (d : dict) : Prop :=
  (forall key T, slook key d = Some T -> key <> "t2aa" -> zero_tensor T) /\
  exists T2, slook "t2aa" d = Some T2 /\
    forall i j a b, (i < no)%nat -> (j < no)%nat -> (a < nv)%nat -> (b < nv)%nat ->
      data T2 [i; j; a; b] = data g [i; j; no + a; no + b]%nat / gap no eps [a; b] [i; j].
