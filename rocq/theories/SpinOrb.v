(** Model of the other conversion of closed-shell integrals to spin orbitals, run_ccd.convertSCFinfo_slow (782-856, branch
    orb.ndim <= 2) with spinorb_from_spatial (1217-1257).  No driver calls it; its branch for orb.ndim > 2 (857-941) repeats the
    lines of convertSCFinfo_tmpslow that Ints.convert_slow models.
    [None] = an exception.
    Simplifications: as in Ints.v; `ao2mo.kernel` followed by `ao2mo.restore(1, .., n)` gives the integrals of all n^4 orbital
    quadruples, for as many orbitals as basis functions. *)
From Coq Require Import String Ascii List Arith ZArith QArith Qcanon Bool Lia.
From Verif Require Import Sums Tensor Interp Numpy Spec Ints.
Import ListNotations.
Open Scope string_scope.
Open Scope Qc_scope.

(** `a[idx] = x` *)
Definition put (t : tensor) (w : list nat * Qc) : tensor :=
  mkT (shape t) (fun idx => if list_eq_dec Nat.eq_dec idx (fst w) then snd w else data t idx).
(** the assignments of run_ccd.py:1236-1239, in their order *)
Definition writes1 (n : nat) (oei : tensor) : list (list nat * Qc) :=
  flat_map (fun p => flat_map (fun q =>
    [([2 * p; 2 * q]%nat, data oei [p; q]); ([2 * p + 1; 2 * q + 1]%nat, data oei [p; q])]) (seq 0 n)) (seq 0 n).
(** the assignments of run_ccd.py:1245-1255, in their order *)
Definition writes2 (n : nat) (tei : tensor) : list (list nat * Qc) :=
  flat_map (fun p => flat_map (fun q => flat_map (fun r => flat_map (fun s =>
    [([2 * p; 2 * q + 1; 2 * r + 1; 2 * s]%nat, data tei [p; q; r; s]);
     ([2 * p + 1; 2 * q; 2 * r; 2 * s + 1]%nat, data tei [p; q; r; s]);
     ([2 * p; 2 * q; 2 * r; 2 * s]%nat, data tei [p; q; r; s]);
     ([2 * p + 1; 2 * q + 1; 2 * r + 1; 2 * s + 1]%nat, data tei [p; q; r; s])])
    (seq 0 n)) (seq 0 n)) (seq 0 n)) (seq 0 n).
(** run_ccd.py:1217-1257 spinorb_from_spatial; an index out of range raises *)
Definition spinorb_from_spatial (oei tei : tensor) : option (tensor * tensor) :=
  match shape oei, shape tei with
  | [n; m], [a; b; c; d] =>
      if (Nat.leb n m && Nat.leb n a && Nat.leb n b && Nat.leb n c && Nat.leb n d)%bool then
        Some (fold_left put (writes1 n oei) (tzeros [2 * n; 2 * n]%nat),
              fold_left put (writes2 n tei) (tzeros [2 * n; 2 * n; 2 * n; 2 * n]%nat))
      else None
  | _, _ => None
  end.
(** run_ccd.py:782-856 convertSCFinfo_slow: ("oei", "tei", eps_aa); [nsocc] is the number of occupied spin orbitals *)
Definition convert_interleaved (nsocc : nat) (eri h C : tensor) (moE : list Qc) : option (tensor * tensor * list Qc) :=
  do hcoreMO <- in_mo h C;
  do two <- ao2mo eri C C C C;
  do two <- ttransp [0; 2; 3; 1]%nat two;
  do so <- spinorb_from_spatial hcoreMO two;
  let (soei, stei) := so in
  do x <- ttransp [0; 1; 3; 2]%nat stei;
  do astei <- tbin Qcminus stei x;
  do gtei <- ttransp [0; 1; 3; 2]%nat astei;
  do part <- tslice [(0%nat, None); (0%nat, Some nsocc); (0%nat, Some nsocc); (0%nat, None)] astei;
  do k <- es "piiq->pq" [part];
  do fock <- tbin Qcplus soei k;
  Some (fock, gtei, flat_map (fun e => [e; e]) moE).
