(** Model of the spin-integrated full-CC routines that the iteration kernel (Kernel.v) calls for cc_label = "fullCCType":
    fullCCresidEqns.residMain and fullCCenergy.fullCC_energyMain (with and without perturbative correction), with the initial amplitudes of
    kernel.UltT2CC.  The equations themselves are the transcribed functions of the Code_ files.  [None] = an exception.
    Simplifications as in SlowCC.v: elementwise operations require equal shapes, 1/0 = 0 in [trecip].  The arrays resid_t3_* of the
    CCDQ branch are all made from the aaa array (fullCCresidEqns.py:117-120), modelled as written. *)
From Coq Require Import String Ascii List Arith ZArith QArith Qcanon Bool Lia.
From Verif Require Import Sums Tensor Interp Numpy Spec Diis Kernel SlowCC SpinCC.
From Verif Require Code_fullCCresidEqns Code_ccdq_resids Code_testing_modifyT2eqns_with_T4 Code_fullCCenergy Code_build_approxT3full Code_square_brakT_corr.
Import ListNotations.
Open Scope string_scope.

Section Full.
  Variables na nb nva : nat.                                       (* nocc_aa, nocc_bb, nvirt_aa *)
  Variables f_aa f_bb g_aaaa g_bbbb g_abab : tensor.               (* ints["oei"], ints["tei"] *)
  Variable denom : dict.                                           (* ccd_kernel.denom *)
  Variable c : calc.

  Definition ints : list value := [VT f_aa; VT f_bb; VT g_aaaa; VT g_bbbb; VT g_abab; o_ na; o_ nb; v_ na; v_ nb].
  (** `resid + np.reciprocal(D)*t`, fullCCresidEqns.py:129-147 *)
  Definition shifted (D t r : tensor) : option tensor := do x <- tbin Qcmult (trecip D) t; tbin Qcplus r x.
  Definition zero_labels := ["CCD(Qf)"; "CCD(Qf*)"; "CCD"; "CCDQf"; "CCDQf*"; "CCDQ"].
  Definition qf_labels := ["CCSDTQf-1"; "CCDQf"; "CCDQf*"].
  Definition is_in (l : list string) : bool := existsb (String.eqb (cc_type c)) l.

  (** fullCCresidEqns.py:10-181 residMain *)
  Definition full_residMain (d : dict) : option dict :=
    do t1aa <- slook "t1aa" d; do t1bb <- slook "t1bb" d;
    do t2aa <- slook "t2aa" d; do t2bb <- slook "t2bb" d; do t2ab <- slook "t2ab" d;
    do t3aaa <- slook "t3aaa" d; do t3bbb <- slook "t3bbb" d; do t3aab <- slook "t3aab" d; do t3abb <- slook "t3abb" d;
    do t4aaaa <- slook "t4aaaa" d; do t4aaab <- slook "t4aaab" d; do t4aabb <- slook "t4aabb" d; do t4abbb <- slook "t4abbb" d;
    do t4bbbb <- slook "t4bbbb" d;
    do D1aa <- slook "D1aa" denom; do D1bb <- slook "D1bb" denom;
    do D2aa <- slook "D2aa" denom; do D2bb <- slook "D2bb" denom; do D2ab <- slook "D2ab" denom;
    do D3aaa <- slook "D3aaa" denom; do D3bbb <- slook "D3bbb" denom; do D3aab <- slook "D3aab" denom; do D3abb <- slook "D3abb" denom;
    do D4aaaa <- slook "D4aaaa" denom; do D4aaab <- slook "D4aaab" denom; do D4aabb <- slook "D4aabb" denom;
    do D4abbb <- slook "D4abbb" denom; do D4bbbb <- slook "D4bbbb" denom;
    let a := ([VT t1aa; VT t1bb; VT t2aa; VT t2bb; VT t2ab; VT t3aaa; VT t3aab; VT t3abb; VT t3bbb] ++ ints)%list in
    let q := ([VT t2aa; VT t2bb; VT t2ab; VT t4aaaa; VT t4aaab; VT t4aabb; VT t4abbb; VT t4bbbb] ++ ints)%list in
    do r1aa <- call0 Code_fullCCresidEqns.ccsdt_t1_aa_residual a;
    do r1bb <- call0 Code_fullCCresidEqns.ccsdt_t1_bb_residual a;
    (* lines 81-112; without the CCDQ branch the five resid_t4xxxx stay unassigned *)
    do r2 <- (if cc_type c =? "CCDQ" then
                do raa <- call0 Code_ccdq_resids.ccdq_t2_aaaa_residual q;
                do rbb <- call0 Code_ccdq_resids.ccdq_t2_bbbb_residual q;
                do rab <- call0 Code_ccdq_resids.ccdq_t2_abab_residual q; Some (raa, rbb, rab)
              else
                do raa <- call0 Code_fullCCresidEqns.ccsdt_t2_aaaa_residual a;
                do rbb <- call0 Code_fullCCresidEqns.ccsdt_t2_bbbb_residual a;
                do rab <- call0 Code_fullCCresidEqns.ccsdt_t2_abab_residual a; Some (raa, rbb, rab));
    let t4 f := if cc_type c =? "CCDQ" then call0 f q else None in
    (* lines 116-125 *)
    let t3 f := if is_in ["CCSD(Qf)"; "CCDQ"] then Some (tscale 0 t3aaa) else call0 f a in
    do r3aaa <- t3 Code_fullCCresidEqns.ccsdt_t3_aaaaaa_residual;
    do r3bbb <- t3 Code_fullCCresidEqns.ccsdt_t3_bbbbbb_residual;
    do r3aab <- t3 Code_fullCCresidEqns.ccsdt_t3_aabaab_residual;
    do r3abb <- t3 Code_fullCCresidEqns.ccsdt_t3_abbabb_residual;
    (* lines 129-147 *)
    do r1aa <- shifted D1aa t1aa r1aa; do r1bb <- shifted D1bb t1bb r1bb;
    do r2aa <- shifted D2aa t2aa (fst (fst r2)); do r2bb <- shifted D2bb t2bb (snd (fst r2)); do r2ab <- shifted D2ab t2ab (snd r2);
    do r3aaa <- shifted D3aaa t3aaa r3aaa; do r3bbb <- shifted D3bbb t3bbb r3bbb;
    do r3aab <- shifted D3aab t3aab r3aab; do r3abb <- shifted D3abb t3abb r3abb;
    do r4aaaa <- t4 Code_ccdq_resids.ccdq_t4_aaaaaaaa_residual; do r4aaaa <- shifted D4aaaa t4aaaa r4aaaa;
    do r4aaab <- t4 Code_ccdq_resids.ccdq_t4_aaabaaab_residual; do r4aaab <- shifted D4aaab t4aaab r4aaab;
    do r4aabb <- t4 Code_ccdq_resids.ccdq_t4_aabbaabb_residual; do r4aabb <- shifted D4aabb t4aabb r4aabb;
    do r4abbb <- t4 Code_ccdq_resids.ccdq_t4_abbbabbb_residual; do r4abbb <- shifted D4abbb t4abbb r4abbb;
    do r4bbbb <- t4 Code_ccdq_resids.ccdq_t4_bbbbbbbb_residual; do r4bbbb <- shifted D4bbbb t4bbbb r4bbbb;
    (* lines 149-151 *)
    let z1 r := if is_in zero_labels then tscale 0 r1aa else r in
    let z3 r := if is_in zero_labels then tscale 0 r3aaa else r in
    (* lines 157-166 *)
    do laa <- ttransp [2; 3; 0; 1]%nat t2aa; do lbb <- ttransp [2; 3; 0; 1]%nat t2bb; do lab <- ttransp [2; 3; 0; 1]%nat t2ab;
    let x := [VT t2aa; VT t2bb; VT t2ab; VT t3aaa; VT t3bbb; VT t3aab; VT t3abb; VT g_aaaa; VT g_bbbb; VT g_abab; VT laa; VT lbb; VT lab;
              o_ na; o_ nb; v_ na; v_ nb] in
    let qf f r := if is_in qf_labels then do y <- call0 f x; tbin Qcplus r (tscale (Q2Qc (1 # 2)) y) else Some r in
    do r2aa <- qf Code_testing_modifyT2eqns_with_T4.ccsdt_t2_aaaa_residual_Qf r2aa;
    do r2bb <- qf Code_testing_modifyT2eqns_with_T4.ccsdt_t2_bbbb_residual_Qf r2bb;
    do r2ab <- qf Code_testing_modifyT2eqns_with_T4.ccsdt_t2_abab_residual_Qf r2ab;
    (* lines 170-177 *)
    do n1aa <- tbin Qcmult (z1 r1aa) D1aa; do n1bb <- tbin Qcmult (z1 r1bb) D1bb;
    do n2aa <- tbin Qcmult r2aa D2aa; do n2bb <- tbin Qcmult r2bb D2bb; do n2ab <- tbin Qcmult r2ab D2ab;
    do n3aaa <- tbin Qcmult (z3 r3aaa) D3aaa; do n3bbb <- tbin Qcmult (z3 r3bbb) D3bbb;
    do n3aab <- tbin Qcmult (z3 r3aab) D3aab; do n3abb <- tbin Qcmult (z3 r3abb) D3abb;
    do n4aaaa <- tbin Qcmult r4aaaa D4aaaa; do n4aaab <- tbin Qcmult r4aaab D4aaab; do n4aabb <- tbin Qcmult r4aabb D4aabb;
    do n4abbb <- tbin Qcmult r4abbb D4abbb; do n4bbbb <- tbin Qcmult r4bbbb D4bbbb;
    Some [("t1aa", n1aa); ("t1bb", n1bb); ("t2aa", n2aa); ("t2bb", n2bb); ("t2ab", n2ab);
          ("t3aaa", n3aaa); ("t3bbb", n3bbb); ("t3aab", n3aab); ("t3abb", n3abb);
          ("t4aaaa", n4aaaa); ("t4aaab", n4aaab); ("t4aabb", n4aabb); ("t4abbb", n4abbb); ("t4bbbb", n4bbbb)].

  (** fullCCenergy.py:9-59, 161-162 fullCC_energyMain with get_perturbCorr=False *)
  Definition full_energyMain (d : dict) : option Qc :=
    do t1aa <- slook "t1aa" d; do t1bb <- slook "t1bb" d;
    do t2aa <- slook "t2aa" d; do t2bb <- slook "t2bb" d; do t2ab <- slook "t2ab" d;
    do _ <- slook "t3aaa" d; do _ <- slook "t3bbb" d; do _ <- slook "t3aab" d; do _ <- slook "t3abb" d;
    do _ <- slook "D3aaa" denom; do _ <- slook "D3bbb" denom; do _ <- slook "D3aab" denom; do _ <- slook "D3abb" denom;
    do e <- call0 Code_fullCCenergy.ccsd_energy_with_spin ([VT t1aa; VT t1bb; VT t2aa; VT t2bb; VT t2ab] ++ ints); Some (data e []).

  (** fullCCenergy.py:9-160 fullCC_energyMain with get_perturbCorr=True.  [l2] is what get_l2amps returns; its three arrays are read
      (lines 60-63) and then replaced by the transposed doubles (lines 66-68).  T1 and T4 are passed as None (line 69).  The result is
      the [T] value the code prints (lines 81-82, only for "CCSD(Qf)") and the number it returns (line 160).  Of the other printed
      values only the possibility of an exception is kept (the contraction of line 121). *)
  Definition full_pert (d l2 : dict) : option (option Qc * Qc) :=
    do _ <- slook "t1aa" d; do _ <- slook "t1bb" d;
    do t2aa <- slook "t2aa" d; do t2bb <- slook "t2bb" d; do t2ab <- slook "t2ab" d;
    do t3aaa <- slook "t3aaa" d; do t3bbb <- slook "t3bbb" d; do t3aab <- slook "t3aab" d; do t3abb <- slook "t3abb" d;
    do D3aaa <- slook "D3aaa" denom; do D3bbb <- slook "D3bbb" denom; do D3aab <- slook "D3aab" denom; do D3abb <- slook "D3abb" denom;
    do _ <- slook "l2aa" l2; do _ <- slook "l2bb" l2; do _ <- slook "l2ab" l2;
    do laa <- ttransp [2; 3; 0; 1]%nat t2aa; do lbb <- ttransp [2; 3; 0; 1]%nat t2bb; do lab <- ttransp [2; 3; 0; 1]%nat t2ab;
    (* lines 70-82 *)
    do t3 <- (if cc_type c =? "CCSD(Qf)" then
                let a := [VT t2aa; VT t2bb; VT t2ab; VT g_aaaa; VT g_bbbb; VT g_abab; o_ na; o_ na; v_ na; v_ na] in
                do raaa <- call0 Code_build_approxT3full.ccsdtq_t3_aaaaaa_residual a;
                do raab <- call0 Code_build_approxT3full.ccsdtq_t3_aabaab_residual a;
                do rabb <- call0 Code_build_approxT3full.ccsdtq_t3_abbabb_residual a;
                do rbbb <- call0 Code_build_approxT3full.ccsdtq_t3_bbbbbb_residual a;
                do xaaa <- tbin Qcmult raaa D3aaa; do xaab <- tbin Qcmult raab D3aab;
                do xabb <- tbin Qcmult rabb D3abb; do xbbb <- tbin Qcmult rbbb D3bbb;
                do e <- call0 Code_square_brakT_corr.square_brakT [VT g_aaaa; VT g_abab; VT g_bbbb; o_ na; v_ na;
                          VT laa; VT lab; VT lbb; VT xaaa; VT xaab; VT xabb; VT xbbb];
                Some (Some (data e []), (xaaa, xaab, xabb, xbbb))
              else Some (None, (t3aaa, t3aab, t3abb, t3bbb)));
    let '(printed, (t3aaa, t3aab, t3abb, t3bbb)) := t3 in
    (* lines 84-108 *)
    let a := ([VNone; VNone; VT t2aa; VT t2bb; VT t2ab; VT t3aaa; VT t3aab; VT t3abb; VT t3bbb;
               VNone; VNone; VNone; VNone; VNone] ++ ints)%list in
    do qaaaa <- call0 Code_fullCCenergy.ccsdtq_t4_aaaaaaaa_residual a;
    do qbbbb <- call0 Code_fullCCenergy.ccsdtq_t4_bbbbbbbb_residual a;
    do qaaab <- call0 Code_fullCCenergy.ccsdtq_t4_aaabaaab_residual a;
    do qaabb <- call0 Code_fullCCenergy.ccsdtq_t4_aabbaabb_residual a;
    do qabbb <- call0 Code_fullCCenergy.ccsdtq_t4_abbbabbb_residual a;
    (* lines 112-119 *)
    do D2aa <- slook "D2aa" denom; do D2ab <- slook "D2ab" denom; do D2bb <- slook "D2bb" denom;
    let vvoo := [(na, None); (na, None); (0%nat, Some na); (0%nat, Some na)] in
    let dagger g D := do x <- tslice vvoo g; do y <- tbin Qcmult x D; ttransp [2; 3; 0; 1]%nat y in
    do kaa <- dagger g_aaaa D2aa; do kab <- dagger g_abab D2ab; do kbb <- dagger g_bbbb D2bb;
    let qf x1 x2 x3 x4 x5 := call0 Code_fullCCenergy.energy_pertQf
      [VT kaa; VT kab; VT kbb; VT x1; VT x2; VT x3; VT x4; VT x5; VT laa; VT lbb; VT lab; o_ na; v_ na] in
    do _ <- qf qaaaa qaaab qaabb qabbb qbbbb;
    (* lines 127-156 *)
    let add f q := if is_in ["CCSDT(Qf*)"; "CCD(Qf*)"] then do x <- call0 f a; tbin Qcplus q x else Some q in
    do qaaaa <- add Code_fullCCenergy.ccsdtqT2cubed_t4_aaaaaaaa_residual qaaaa;
    do qaaab <- add Code_fullCCenergy.ccsdtqT2cubed_t4_aaabaaab_residual qaaab;
    do qaabb <- add Code_fullCCenergy.ccsdtqT2cubed_t4_aabbaabb_residual qaabb;
    do qabbb <- add Code_fullCCenergy.ccsdtqT2cubed_t4_abbbabbb_residual qabbb;
    do qbbbb <- add Code_fullCCenergy.ccsdtqT2cubed_t4_bbbbbbbb_residual qbbbb;
    (* lines 158-160 *)
    do e <- qf qaaaa qaaab qaabb qabbb qbbbb;
    Some (printed, data e [] * Q2Qc (1 # 2))%Qc.

  (** The routines as the kernel calls them; the perturbative correction is a parameter [pert] of [full_kernel], so that what is proved
      of a run holds for every such routine; the code's is [full_pertMain]. *)
  Definition full_pertMain (ef : energy_fn) (d l2 : dict) (w : unit) : option (Qc * unit) :=
    match ef with E_fullCC => do r <- full_pert d l2; Some (snd r, w) | _ => None end.
  Definition full_resid (rf : resid_fn) (d l2 : dict) (w : unit) : option (dict * unit) :=
    match rf with R_fullCC => do d' <- full_residMain d; Some (d', w) | _ => None end.
  Definition full_energy (ef : energy_fn) (d : dict) (w : unit) : option (Qc * unit) :=
    match ef with E_fullCC => do e <- full_energyMain d; Some (e, w) | _ => None end.
  (** kernel.py:143-160: every array has the shape of the alpha block *)
  Definition full_init : dict :=
    let z k := tzeros (repeat nva k ++ repeat na k) in
    [("t1aa", z 1%nat); ("t1bb", z 1%nat); ("t2aa", z 2%nat); ("t2bb", z 2%nat); ("t2ab", z 2%nat);
     ("t3aaa", z 3%nat); ("t3bbb", z 3%nat); ("t3aab", z 3%nat); ("t3abb", z 3%nat);
     ("t4aaaa", z 4%nat); ("t4bbbb", z 4%nat); ("t4aaab", z 4%nat); ("t4aabb", z 4%nat); ("t4abbb", z 4%nat)].
  Definition full_old : vec :=
    match vectorise (old_keys true (cc_type c)) full_init with Some v => v | None => [] end.
  (** A whole full-CC run. *)
  Definition full_kernel (solve : solver) (pert : energy_fn -> dict -> dict -> unit -> option (Qc * unit)) : outcome :=
    kernel unit solve full_resid full_energy pert (fun d => Some d) c full_init full_old tt.
End Full.
