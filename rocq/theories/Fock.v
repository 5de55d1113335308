(** Second quantisation, as a specification: fermion operators on the states of N = no + nv spin orbitals, the bare
    electronic Hamiltonian, the cluster operators and the coupled-cluster matrix elements.
    This file is textbook quantum chemistry; it models no source line and does not depend on the model of the code. *)
From Coq Require Import List Arith ZArith QArith Qcanon Bool.
From Coq Require Import Factorial.
From Verif Require Import Sums Tensor Spec.
Import ListNotations.
Open Scope Qc_scope.

(** A determinant says for every spin orbital whether it is occupied; a state gives every determinant its coefficient. *)
Definition det := list bool.
Definition ket := det -> Qc.
Definition op := ket -> ket.

(** The coefficient of the determinant [n] in  a_p^dagger psi  ([d] = true)  or  a_p psi  ([d] = false): passing an occupied
    orbital in front of p changes the sign; creation takes p from empty to occupied, annihilation from occupied to empty. *)
Fixpoint ferm (d : bool) (p : nat) (n : det) (psi : ket) {struct n} : Qc :=
  match n with
  | [] => 0
  | b :: r =>
      match p with
      | O => if Bool.eqb b d then psi (negb d :: r) else 0
      | S q => (if b then - (1) else 1) * ferm d q r (fun m => psi (b :: m))
      end
  end.
Definition cre (p : nat) : op := fun psi n => ferm true p n psi.
Definition ann (p : nat) : op := fun psi n => ferm false p n psi.

(** The reference determinant: the first [no] orbitals occupied; the state |Phi>; <Phi|psi>. *)
Definition ref (no nv : nat) : det := (repeat true no ++ repeat false nv)%list.
Fixpoint same_det (n m : det) : bool :=
  match n, m with [], [] => true | b :: n, c :: m => (Bool.eqb b c && same_det n m)%bool | _, _ => false end.
Definition Phi (no nv : nat) : ket := fun n => if same_det n (ref no nv) then 1 else 0.
Definition bra0 (no nv : nat) (psi : ket) : Qc := psi (ref no nv).
(** <Phi_i^a|psi>  and  <Phi_ij^ab|psi>  with |Phi_ij^ab> = a^+ b^+ j i |Phi>; a, b count virtual orbitals *)
Definition bra1 (no nv a i : nat) (psi : ket) : Qc := bra0 no nv (cre i (ann (no + a) psi)).
Definition bra2 (no nv a b i j : nat) (psi : ket) : Qc :=
  bra0 no nv (cre i (cre j (ann (no + b) (ann (no + a) psi)))).
(** <Phi_ijk^abc|psi>  and  <Phi_ijkl^abcd|psi> *)
Definition bra3 (no nv a b c i j k : nat) (psi : ket) : Qc :=
  bra0 no nv (cre i (cre j (cre k (ann (no + c) (ann (no + b) (ann (no + a) psi)))))).
Definition bra4 (no nv a b c d i j k l : nat) (psi : ket) : Qc :=
  bra0 no nv (cre i (cre j (cre k (cre l (ann (no + d) (ann (no + c) (ann (no + b) (ann (no + a) psi)))))))).

(** H = sum_pq h_pq p^+ q + 1/4 sum_pqrs <pq||rs> p^+ q^+ s r, where h is the one-electron Hamiltonian whose Fock matrix is
    f:  f_pq = h_pq + sum_i <pi||qi> *)
Definition Ham (no nv : nat) (f g : tensor) : op := fun psi n =>
  (Sum p < (no + nv), Sum q < (no + nv), (data f [p; q] - Sum i < no, data g [p; i; q; i]) * cre p (ann q psi) n) +
  Q2Qc (1 # 4) * (Sum p < (no + nv), Sum q < (no + nv), Sum r < (no + nv), Sum s < (no + nv),
     data g [p; q; r; s] * cre p (cre q (ann s (ann r psi))) n).

(** Cluster operators with amplitudes t[a,i], t[a,b,i,j], t[a,b,c,i,j,k], t[a,b,c,d,i,j,k,l] *)
Definition T1op (no nv : nat) (t : tensor) : op := fun psi n =>
  Sum a < nv, Sum i < no, data t [a; i] * cre (no + a) (ann i psi) n.
Definition T2op (no nv : nat) (t : tensor) : op := fun psi n =>
  Q2Qc (1 # 4) * (Sum a < nv, Sum b < nv, Sum i < no, Sum j < no,
    data t [a; b; i; j] * cre (no + a) (cre (no + b) (ann j (ann i psi))) n).
Definition T3op (no nv : nat) (t : tensor) : op := fun psi n =>
  Q2Qc (1 # 36) * (Sum a < nv, Sum b < nv, Sum c < nv, Sum i < no, Sum j < no, Sum k < no,
    data t [a; b; c; i; j; k] * cre (no + a) (cre (no + b) (cre (no + c) (ann k (ann j (ann i psi))))) n).
Definition T4op (no nv : nat) (t : tensor) : op := fun psi n =>
  Q2Qc (1 # 576) * (Sum a < nv, Sum b < nv, Sum c < nv, Sum d < nv, Sum i < no, Sum j < no, Sum k < no, Sum l < no,
    data t [a; b; c; d; i; j; k; l] * cre (no + a) (cre (no + b) (cre (no + c) (cre (no + d) (ann l (ann k (ann j (ann i psi))))))) n).
Definition oplus (X Y : op) : op := fun psi n => X psi n + Y psi n.

(** exp(c X), up to the K-th power.  (Cluster operators are nilpotent, so for large K this is the whole series.) *)
Definition expo (K : nat) (c : Qc) (X : op) : op := fun psi n =>
  Sum k < (S K), c ^ k * / Q2Qc (Z.of_nat (fact k) # 1) * Nat.iter k X psi n.
(** exp(-T) H exp(T) |Phi> *)
Definition cc_state (K no nv : nat) (f g : tensor) (T : op) : ket :=
  expo K (- (1)) T (Ham no nv f g (expo K 1 T (Phi no nv))).

(** [X, Y] *)
Definition comm (X Y : op) : op := fun psi n => X (Y psi) n - Y (X psi) n.
Definition oscale (q : Q) (X : op) : op := fun psi n => Q2Qc q * X psi n.
(** The de-excitation operator of doubles l[i,j,a,b]: the adjoint of the cluster operator with t[a,b,i,j] = l[i,j,a,b]. *)
Definition L2op (no nv : nat) (l : tensor) : op := fun psi n =>
  Q2Qc (1 # 4) * (Sum i < no, Sum j < no, Sum a < nv, Sum b < nv,
    data l [i; j; a; b] * cre i (cre j (ann (no + b) (ann (no + a) psi))) n).
