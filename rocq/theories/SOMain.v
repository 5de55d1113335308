(** Model of the stand-alone driver /repo/UT2/run_ccd_SOslow.py: ccd_main (25-74), ccd_kernel (77-370),
    convertSCFinfo (373-535) and generalUHF (538-580).
    Much of that file is the text of run_ccd.py once more, so the parts which are literally the same are the definitions
    of Legacy.v, Ints.v and Denoms.v; what differs is written out here.  [None] = an exception.
    Simplifications: as in Legacy.v, Ints.v, Denoms.v (exact rationals, 1/0 = 0, no size-1 broadcasting); printing, the
    energies which are only printed (e_coul, e_exch, totSCFenergy, hf_energy) and the denominators which nothing reads
    (singles, and the triples and quadruples built for "fullCCtype") are left out; `linalg.eig` is the parameter [diag]. *)
From Coq Require Import String Ascii List Arith ZArith QArith Qcanon Bool Lia.
From Coq Require Qcabs.
From Verif Require Import Sums Tensor Interp Numpy Spec Diis Kernel SlowCC SpinCC Legacy Denoms Ints.
From Verif Require Code_t2residEqns Code_t2energy Code_modify_T2resid_T4Qf1 Code_modify_T2resid_T4Qf2 Code_modify_T2energy_pertQf.
Import ListNotations.
Open Scope string_scope.

Section SO.
  Variables na nb nva nvb : nat.
  Variables f_aa f_bb g_aaaa g_bbbb g_abab : tensor.
  Variables Daa Dbb Dab : tensor.
  Variable nucE : Qc.
  Variable dsize : option nat.
  Variable dstart : nat.
  Variable ty : string.
  Variable solve : solver.
  Variable diag : amps3 -> option amps3.                             (* run_ccd_SOslow.py:250-291, as in Legacy.v *)
  Notation shifted_ := (shifted na nb f_aa f_bb g_aaaa g_bbbb g_abab).
  Notation lqf_ := (lqf na g_aaaa g_bbbb g_abab ty).
  Notation energy_ := (lenergy na nb f_aa f_bb g_aaaa g_bbbb g_abab).

  (** run_ccd_SOslow.py:156-249: resid_xxxx, the label-dependent additions and new_doubles_xxxx.  Unlike run_ccd.py the
      pair restriction is applied only here, after the multiplication by the denominators, and is read off the full
      resid_abab. *)
  Definition so_new (l t : amps3) : option amps3 :=
    do raa <- shifted_ Code_t2residEqns.ccd_t2_aaaa_residual Daa (A_aa t) t;
    do rbb <- shifted_ Code_t2residEqns.ccd_t2_bbbb_residual Dbb (A_bb t) t;
    do rab <- shifted_ Code_t2residEqns.ccd_t2_abab_residual Dab (A_ab t) t;
    do raa <- lqf_ Code_modify_T2resid_T4Qf1.residQf1_aaaa Code_modify_T2resid_T4Qf2.residQf2_aaaa l t raa;
    do rbb <- lqf_ Code_modify_T2resid_T4Qf1.residQf1_bbbb Code_modify_T2resid_T4Qf2.residQf2_bbbb l t rbb;
    do rab <- lqf_ Code_modify_T2resid_T4Qf1.residQf1_abab Code_modify_T2resid_T4Qf2.residQf2_abab l t rab;
    do naa <- tbin Qcmult raa Daa; do nbb <- tbin Qcmult rbb Dbb; do nab <- tbin Qcmult rab Dab;
    if ty =? "pCCD" then
      let naa := tscale 0 naa in
      do tmp <- pairs_of nva na rab; do nab <- tbin Qcmult tmp Dab;
      Some (mkA naa naa nab)
    else Some (mkA naa nbb nab).
  (** run_ccd_SOslow.py:147-331: one pass *)
  Definition so_pass (s : lstate) : option (lstate * Qc) :=
    let t := lamps s in
    do l <- adjoint t;
    do n <- so_new l t;
    do cur <- (if ty =? "DiagCCD" then diag n else Some t);
    do x <- ldiis_block dsize solve cur n s;
    do e <- energy_ (fst (fst x));
    Some (mkL (fst (fst x)) (snd (fst x)) (snd x), e).
  (** run_ccd_SOslow.py:146-345: the `for ... else` loop; the amplitudes the last pass started from are still bound *)
  Fixpoint so_loop (n : nat) (s : lstate) (old : Qc) : option (lstate * Qc * amps3) :=
    match n with
    | O => None                                                       (* raise ValueError *)
    | S n' =>
        do se <- so_pass s;
        if Qclt_le_dec (Qcabs.Qcabs (old - snd se)) legacy_eps then Some (fst se, snd se, lamps s)
        else so_loop n' (fst se) (snd se)
    end.
  (** run_ccd_SOslow.py:77-370: (t2aaaa, t2bbbb, t2abab, tfinalEnergy, corrE) *)
  Definition so_kernel : option (amps3 * Qc * Qc) :=
    do e0 <- energy_ (lamps (linit na nb nva nvb dsize dstart));
    do r <- so_loop legacy_max_iter (linit na nb nva nvb dsize dstart) e0;
    let '(s, e, t) := r in
    if ty =? "CCD(Qf)" then
      do l <- adjoint t;
      do q <- call0 Code_modify_T2energy_pertQf.energy_pertQf (qargs na g_aaaa g_bbbb g_abab l t);
      Some (lamps s, e + nucE + data q [], data q [])%Qc
    else Some (lamps s, e + nucE, nucE + e)%Qc.
End SO.

(** The part of PySCF's `mf`, `mol` and `orb` the driver reads: AO Fock matrices, coefficients, orbital energies and
    electron counts of a restricted (orb.ndim <= 2, mol.nelectron) or an unrestricted (mf.nelec) calculation. *)
Inductive scf :=
| rhf (f C : tensor) (eps : list Qc) (nele : nat)
| uhf (fa fb Ca Cb : tensor) (eps_a eps_b : list Qc) (na nb : nat).
(** run_ccd_SOslow.py:375-398: both kinds become one form *)
Definition two_spin_form (x : scf) : tensor * tensor * tensor * tensor * list Qc * list Qc * nat * nat :=
  match x with
  | rhf f C eps nele => (f, f, C, C, eps, eps, nele / 2, nele / 2)%nat
  | uhf fa fb Ca Cb eps_a eps_b na nb => (fa, fb, Ca, Cb, eps_a, eps_b, na, nb)
  end.
(** run_ccd_SOslow.py:413-445: eabij_aa, eabij_bb, eabij_ab *)
Definition so_denoms (ea eb : list Qc) (na nb : nat) : tensor * tensor * tensor :=
  let oa := (0%nat, Some na) in let va := (na, None) in let ob := (0%nat, Some nb) in let vb := (nb, None) in
  (outer_recip [Vx ea va; Vx ea va; Ox ea oa; Ox ea oa],
   outer_recip [Vx eb vb; Vx eb vb; Ox eb ob; Ox eb ob],
   outer_recip [Vx ea va; Vx eb vb; Ox ea oa; Ox eb ob]).
(** run_ccd_SOslow.py:25-74 ccd_main with convertSCFinfo and generalUHF: (currentE, corrE).  diis_size is 15 and
    diis_start_cycle 4; nvirta, nvirtb are the numbers of rows of the Fock matrices less the electrons; the label is
    cc_runtype["ccdType"] (KeyError without it). *)
Definition so_main (eri : tensor) (x : scf) (rt : opts) (nuc : Qc) (solve : solver) (diag : amps3 -> option amps3) : option (Qc * Qc) :=
  let '(fa, fb, Ca, Cb, ea, eb, na, nb) := two_spin_form x in
  let nva := (hd 0 (shape fa) - na)%nat in let nvb := (hd 0 (shape fb) - nb)%nat in
  do ints <- convert_fast eri fa fb Ca Cb;
  let '(f_aa, f_bb, g_aaaa, g_bbbb, g_abab) := ints in
  let '(Daa, Dbb, Dab) := so_denoms ea eb na nb in
  do ty <- slook "ccdType" rt;
  do r <- so_kernel na nb nva nvb f_aa f_bb g_aaaa g_bbbb g_abab Daa Dbb Dab nuc (Some 15%nat) 4 ty solve diag;
  Some (snd (fst r), snd r).
