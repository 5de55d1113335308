(** Model of the integral conversion: run_ccd.spin_block_tei (671-680), the RHF/UHF conversion of the spin-orbital route
    convertSCFinfo_tmpslow (683-780), and that of the spin-integrated route convertSCFinfo (605-668) with generalUHF
    (1146-1215).  The SCF object is its data: AO integrals, AO Fock matrices, orbital coefficients, orbital energies.
    [None] = an exception.
    Simplifications: the 'ao_tei.pickle' fallback is left out (the AO integrals are an input); the energies computed
    only to be printed are left out; `pyscf.ao2mo.incore.general` on an array with all n^4 entries is the contraction
    'pqrs,pi,qj,rk,sl->ijkl'; the permutation `eps.argsort()` is an input, since numpy's default sort is not stable, and
    `np.sort(eps)` is eps taken in that order. *)
From Coq Require Import String Ascii List Arith ZArith QArith Qcanon Bool Lia.
From Verif Require Import Sums Tensor Interp Numpy Spec.
Import ListNotations.
Open Scope string_scope.

(** `np.einsum(spec, ...)` *)
Definition es (spec : string) (ts : list tensor) : option tensor := let (ins, out) := parse_spec spec in einsum ins out ts.
(** `np.kron(a, b)` for a with at most as many axes as b: the shape of a is padded with ones on the left *)
Definition tkron (a b : tensor) : tensor :=
  let k := (length (shape b) - length (shape a))%nat in
  mkT (zipw Nat.mul (repeat 1%nat k ++ shape a) (shape b))
      (fun idx => data a (skipn k (zipw Nat.div idx (shape b))) * data b (zipw Nat.modulo idx (shape b)))%Qc.
(** `np.eye(n)` *)
Definition teye (n : nat) : tensor := arr2 n n (fun i j => if Nat.eqb i j then 1 else 0)%Qc.
(** `a.T` *)
Definition tT (t : tensor) : option tensor := ttransp (rev (seq 0 (length (shape t)))) t.
(** `a @ b` for matrices *)
Definition tmatmul (a b : tensor) : option tensor := es "ij,jk->ik" [a; b].
(** `np.block([[Ca, np.zeros_like(Cb)], [np.zeros_like(Ca), Cb]])` *)
Definition block_diag (a b : tensor) : option tensor :=
  match shape a, shape b with
  | [n; ma], [n'; mb] =>
      if Nat.eqb n n' then
        Some (arr2 (n + n') (ma + mb) (fun i j =>
          if Nat.ltb i n then (if Nat.ltb j ma then data a [i; j] else 0%Qc)
          else (if Nat.ltb j ma then 0%Qc else data b [i - n; j - ma]%nat)))
      else None
  | _, _ => None
  end.
(** `C[:, p]` with an integer array p; IndexError when out of range *)
Definition take_cols (p : list nat) (t : tensor) : option tensor :=
  match shape t with
  | [n; m] => if forallb (fun k => Nat.ltb k m) p then Some (arr2 n (length p) (fun i k => data t [i; nth k p O])) else None
  | _ => None
  end.
(** `np.diag(eps)` of a vector *)
Definition tdiag (eps : list Qc) : tensor :=
  arr2 (length eps) (length eps) (fun i j => if Nat.eqb i j then nth i eps 0%Qc else 0%Qc).

(** run_ccd.py:671-680 *)
Definition spin_block_tei (I : tensor) : option tensor := do J <- tT (tkron (teye 2) I); Some (tkron (teye 2) J).
(** run_ccd.py:736-742: chemist's to physicist's notation and antisymmetrisation *)
Definition gao_of (I : tensor) : option tensor :=
  do B <- spin_block_tei I; do tmp <- ttransp [0; 2; 1; 3]%nat B; do x <- ttransp [0; 1; 3; 2]%nat tmp; tbin Qcminus tmp x.
(** run_ccd.py:757-760 *)
Definition gmo_of (gao C : tensor) : option tensor :=
  do a <- es "pqrs, sS -> pqrS" [gao; C]; do b <- es "pqrS, rR -> pqRS" [a; C];
  do c <- es "pqRS, qQ -> pQRS" [b; C]; es "pQRS, pP -> PQRS" [c; C].
(** run_ccd.py:683-780 convertSCFinfo_tmpslow: ("oei", "tei", eps).  [order eps] is `eps.argsort()`.
    Lines 762-766 (an MP2 energy, unused) are left out. *)
Definition convert_slow (order : list Qc -> list nat) (eri Ca Cb : tensor) (eps_a eps_b : list Qc) : option (tensor * tensor * list Qc) :=
  do C <- block_diag Ca Cb;
  do gao <- gao_of eri;
  let eps := (eps_a ++ eps_b)%list in
  do C <- take_cols (order eps) C;
  let eps := map (fun k => nth k eps 0%Qc) (order eps) in
  do gmo <- gmo_of gao C;
  Some (tdiag eps, gmo, eps).
(** run_ccd.py:691-692, 701-702: the numbers stored as nocc_aa and nvirt_aa, and the end of the occupied slice (726) *)
Definition slow_counts_rhf (norbs nele : nat) : nat * nat * nat := (2 * (nele / 2), 2 * (norbs - nele / 2), nele)%nat.
Definition slow_counts_uhf (norbs na nb : nat) : nat * nat * nat := (na + nb, 2 * (norbs - na), na + nb)%nat.

(** `ao2mo.incore.general(eri, (c1, c2, c3, c4))`, run_ccd.py:1182-1184 *)
Definition ao2mo (eri c1 c2 c3 c4 : tensor) : option tensor := es "pqrs,pi,qj,rk,sl->ijkl" [eri; c1; c2; c3; c4].
(** `c.T @ f @ c`, run_ccd.py:1168-1169 *)
Definition in_mo (f c : tensor) : option tensor := do ct <- tT c; do x <- tmatmul ct f; tmatmul x c.
(** run_ccd.py:1198-1199 *)
Definition dirac_anti (g : tensor) : option tensor :=
  do x <- ttransp [0; 2; 1; 3]%nat g; do y <- ttransp [0; 3; 2; 1]%nat g; tbin Qcminus x y.
(** run_ccd.py:1146-1215 generalUHF: (faa, fbb, g_aaaa, g_bbbb, g_abab) *)
Definition convert_fast (eri fa fb Ca Cb : tensor) : option (tensor * tensor * tensor * tensor * tensor) :=
  do faa <- in_mo fa Ca; do fbb <- in_mo fb Cb;
  do a <- ao2mo eri Ca Ca Ca Ca; do b <- ao2mo eri Cb Cb Cb Cb; do c <- ao2mo eri Ca Ca Cb Cb;
  do ga <- dirac_anti a; do gb <- dirac_anti b; do gab <- ttransp [0; 2; 1; 3]%nat c;
  Some (faa, fbb, ga, gb, gab).
