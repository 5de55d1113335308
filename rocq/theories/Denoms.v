(** Model of the energy denominators: run_ccd.py:946-1142 get_denoms and set_denoms.py.
    Orbital energies are one-dimensional arrays (lists).  [None] = an exception (KeyError, UnboundLocalError).
    Simplifications: exact rationals, 1/0 = 0; option values are strings; printing left out; the number 0.0 stored
    under "D1ab" (run_ccd.py:1041, read by nothing) is an array with no axes. *)
From Coq Require Import String Ascii List Arith ZArith QArith Qcanon Bool Lia.
From Verif Require Import Sums Tensor Interp Numpy Spec Diis Kernel.
Import ListNotations.
Open Scope string_scope.

Notation slc := (nat * option nat)%type.
(** A summand `+eps[n,..,s,..,n]` or `-eps[n,..,s,..,n]` with `n = np.newaxis`: the k-th summand of every expression in
    get_denoms has its slice on axis k, so the sum is an array with one axis per summand. *)
Record axis := mkAx { plus : bool; energies : list Qc; part : slc }.
Definition ax_len (a : axis) : nat := slice_len (fst (part a)) (snd (part a)) (length (energies a)).
Definition ax_at (a : axis) (i : nat) : Qc :=
  let x := nth (slice_start (fst (part a)) (length (energies a)) + i) (energies a) 0%Qc in if plus a then x else (- x)%Qc.
(** `1.0 / ( ... )` *)
Definition outer_recip (axs : list axis) : tensor :=
  mkT (map ax_len axs) (fun idx => / suml (combine axs idx) (fun p => ax_at (fst p) (snd p)))%Qc.
Definition Vx (eps : list Qc) (s : slc) : axis := mkAx false eps s.
Definition Ox (eps : list Qc) (s : slc) : axis := mkAx true eps s.

(** D_k over one kind of orbital: run_ccd.py:993-998 (k=2), 1002-1004 (k=1,3), 1014-1021 (k=4), 1039, 1045-1062,
    1080-1099; set_denoms.py *)
Definition den (k : nat) (eps : list Qc) (o v : slc) : tensor :=
  outer_recip (repeat (Vx eps v) k ++ repeat (Ox eps o) k).

Notation opts := (list (string * string)).
Definition haskey (k : string) (d : opts) : bool := match slook k d with Some _ => true | None => false end.
Definition hasvalue (x : string) (d : opts) : bool := existsb (fun kv => String.eqb (snd kv) x) d.

(** run_ccd.py:946-1142.  [sl] is occupationSliceInfo, [eps] the dictionary of orbital energies. *)
Definition get_denoms (rt : opts) (sl : list (string * slc)) (eps : list (string * list Qc)) : option dict :=
  let slow := haskey "ccdTypeSlow" rt in
  let spin := (negb slow && (haskey "ccdType" rt || haskey "fullCCType" rt))%bool in
  (* neither branch: virt_aa is unbound at line 993 *)
  if negb (slow || spin) then None else
  do va <- slook "virt_aa" sl; do oa <- slook "occ_aa" sl; do ea <- slook "eps_aa" eps;
  (* lines 969-991 *)
  do ab <- (if spin then
              do vb <- slook "virt_bb" sl; do ob <- slook "occ_bb" sl; do eb <- slook "eps_bb" eps;
              Some [("D2ab", outer_recip [Vx ea va; Vx eb vb; Ox ea oa; Ox eb ob]); ("D2bb", den 2 eb ob vb)]
            else Some []);
  let d1 := sset "D2aa" (den 2 ea oa va) ab in
  (* lines 1000-1036 *)
  do d2 <- (if slow then
              do hg <- slook "ccdTypeSlow" rt;
              let d := sset "D3aa" (den 3 ea oa va) (sset "D1aa" (den 1 ea oa va) d1) in
              Some (if ((hg =? "UT2-CCD(7)") || (hg =? "UT2-CCD(8)") || (hg =? "UT2-CCD(9)"))%bool
                    then sset "D4aa" (den 4 ea oa va) d else d)
            else Some d1);
  (* lines 1037-1140 *)
  if haskey "fullCCType" rt then
    if slow then None                                   (* epsbb, virt_bb unbound *)
    else
      do vb <- slook "virt_bb" sl; do ob <- slook "occ_bb" sl; do eb <- slook "eps_bb" eps;
      let d3 := fold_left (fun d kt => sset (fst kt) (snd kt) d)
        [("D1aa", den 1 ea oa va); ("D1bb", outer_recip [Vx eb vb; Ox ea ob]); ("D1ab", tnum 0);
         ("D3aaa", den 3 ea oa va); ("D3bbb", den 3 eb ob vb);
         ("D3aab", outer_recip [Vx ea va; Vx eb va; Vx ea vb; Ox ea oa; Ox eb oa; Ox ea ob]);
         ("D3abb", outer_recip [Vx ea va; Vx eb vb; Vx ea vb; Ox ea oa; Ox eb ob; Ox ea ob])] d2 in
      if (hasvalue "CCSDTQ" rt || hasvalue "CCDQ" rt)%bool then
        Some (fold_left (fun d kt => sset (fst kt) (snd kt) d)
          [("D4aaaa", den 4 ea oa va); ("D4bbbb", den 4 eb ob vb);
           ("D4aaab", outer_recip [Vx ea va; Vx ea vb; Vx ea va; Vx eb vb; Ox ea oa; Ox ea ob; Ox ea oa; Ox eb ob]);
           ("D4aabb", outer_recip [Vx ea va; Vx ea vb; Vx eb va; Vx eb vb; Ox ea oa; Ox ea ob; Ox eb oa; Ox eb ob]);
           ("D4abbb", outer_recip [Vx ea va; Vx eb vb; Vx eb va; Vx eb vb; Ox ea oa; Ox eb ob; Ox eb oa; Ox eb ob])] d3)
      else Some d3
  else Some d2.

(** set_denoms.py D1denomSlow .. D4denomSlow: the same arrays with the occupied axes first *)
Definition den_slow (k : nat) (eps : list Qc) (o v : slc) : option tensor :=
  ttransp (seq k k ++ seq 0 k) (den k eps o v).
