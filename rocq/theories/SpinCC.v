(** Model of the spin-integrated T2 routines that the iteration kernel (Kernel.v) calls for cc_label = "ccdType":
    t2residEqns.residMain and t2energy.ccd_energyMain, with the initial amplitudes of kernel.UltT2CC.
    The equations themselves are the transcribed functions of the Code_ files.  [None] = an exception.
    Simplifications as in SlowCC.v: elementwise operations require equal shapes, 1/0 = 0 in [trecip]. *)
From Coq Require Import String Ascii List Arith ZArith QArith Qcanon Bool Lia.
From Verif Require Import Sums Tensor Interp Numpy Spec Diis Kernel SlowCC.
From Verif Require Code_t2residEqns Code_t2energy Code_modify_T2resid_T4Qf1 Code_modify_T2resid_T4Qf2 Code_modify_T2energy_pertQf.
Import ListNotations.
Open Scope string_scope.

(** {"aaaa": ..., "bbbb": ..., "abab": ...} *)
Definition three (x_aaaa x_bbbb x_abab : tensor) : value :=
  VDict [("aaaa", VT x_aaaa); ("bbbb", VT x_bbbb); ("abab", VT x_abab)].

Section Fast.
  Variables na nb nva : nat.                                       (* nocc_aa, nocc_bb, nvirt_aa *)
  Variables f_aa f_bb g_aaaa g_bbbb g_abab : tensor.               (* ints["oei"], ints["tei"] *)
  Variables Daa Dbb Dab : tensor.                                  (* denom["D2aa"], ["D2bb"], ["D2ab"] *)
  Variable c : calc.

  Definition base_args (t_aaaa t_bbbb t_abab : tensor) : list value :=
    [VT t_aaaa; VT t_bbbb; VT t_abab; VT f_aa; VT f_bb; VT g_aaaa; VT g_bbbb; VT g_abab; o_ na; o_ nb; v_ na; v_ nb].
  (** t2residEqns.py:52-77: what `resid_xxxx += ...` adds; Q1, Q2 are the Qf1, Qf2 functions of the block *)
  Definition qf_part (f1 f2 : fn) (args : list value) (r : tensor) : option tensor :=
    if cc_type c =? "CCDQf-1" then
      do q1 <- call0 f1 args; tbin Qcplus r (tscale (Q2Qc (1 # 2)) q1)
    else if cc_type c =? "CCDQf-2" then
      do q1 <- call0 f1 args; do q2 <- call0 f2 args;
      do x <- tbin Qcplus (tscale (Q2Qc (1 # 2)) q1) (tscale (Q2Qc (1 # 6)) q2);
      tbin Qcplus r x
    else Some r.
  (** t2residEqns.py:80-87: `(resid + reciprocal(D) * t) * D` *)
  Definition update (D t r : tensor) : option tensor :=
    do x <- tbin Qcmult (trecip D) t; do s <- tbin Qcplus r x; tbin Qcmult s D.

  (** t2residEqns.py:6-94 residMain; [l2] is the dictionary of set_l2amps *)
  Definition t2resid_fast (d l2 : dict) : option dict :=
    do taa <- slook "t2aa" d; do tbb <- slook "t2bb" d; do tab <- slook "t2ab" d;
    do laa <- slook "l2aa" l2; do lbb <- slook "l2bb" l2; do lab <- slook "l2ab" l2;
    let a := (base_args taa tbb tab ++ [VNone])%list in
    let q := [three g_aaaa g_bbbb g_abab; three laa lbb lab; three taa tbb tab; o_ na; v_ na] in
    do raa <- call0 Code_t2residEqns.ccd_t2_aaaa_residual a;
    do rbb <- call0 Code_t2residEqns.ccd_t2_bbbb_residual a;
    do rab <- call0 Code_t2residEqns.ccd_t2_abab_residual a;
    do raa <- qf_part Code_modify_T2resid_T4Qf1.residQf1_aaaa Code_modify_T2resid_T4Qf2.residQf2_aaaa q raa;
    do rbb <- qf_part Code_modify_T2resid_T4Qf1.residQf1_bbbb Code_modify_T2resid_T4Qf2.residQf2_bbbb q rbb;
    do rab <- qf_part Code_modify_T2resid_T4Qf1.residQf1_abab Code_modify_T2resid_T4Qf2.residQf2_abab q rab;
    do naa <- update Daa taa raa; do nbb <- update Dbb tbb rbb; do nab <- update Dab tab rab;
    Some [("t2aa", naa); ("t2bb", nbb); ("t2ab", nab)].

  (** t2energy.py:6-57 ccd_energyMain with get_perturbCorr=False *)
  Definition t2energy_fast (d : dict) : option Qc :=
    do taa <- slook "t2aa" d; do tbb <- slook "t2bb" d; do tab <- slook "t2ab" d;
    do e <- call0 Code_t2energy.ccd_energy_with_spin (base_args taa tbb tab); Some (data e []).
  (** ... and with get_perturbCorr=True *)
  Definition t2pert_fast (d l2 : dict) : option Qc :=
    do taa <- slook "t2aa" d; do tbb <- slook "t2bb" d; do tab <- slook "t2ab" d;
    do laa <- slook "l2aa" l2; do lbb <- slook "l2bb" l2; do lab <- slook "l2ab" l2;
    do e <- call0 Code_modify_T2energy_pertQf.energy_pertQf
              [three g_aaaa g_bbbb g_abab; three laa lbb lab; three taa tbb tab; o_ na; v_ na];
    Some (data e []).

  (** The routines as the kernel calls them; a run with cc_label = "ccdType" calls no others, except that a label
      containing "UT2" makes `finalize` call the spin-orbital energy routine on the spin-integrated arrays
      (not modelled: treated as raising). *)
  Definition fast_resid (rf : resid_fn) (d l2 : dict) (w : unit) : option (dict * unit) :=
    match rf with R_t2resid => do d' <- t2resid_fast d l2; Some (d', w) | _ => None end.
  Definition fast_energy (ef : energy_fn) (d : dict) (w : unit) : option (Qc * unit) :=
    match ef with E_t2energy => do e <- t2energy_fast d; Some (e, w) | _ => None end.
  Definition fast_pert (ef : energy_fn) (d l2 : dict) (w : unit) : option (Qc * unit) :=
    match ef with E_t2energy => do e <- t2pert_fast d l2; Some (e, w) | _ => None end.
  (** kernel.py:123-141: all three arrays have the shape of the alpha block *)
  Definition fast_init : dict :=
    let t2 := tzeros [nva; nva; na; na] in
    ([("t2aa", t2); ("t2bb", t2); ("t2ab", t2)] ++
     match diis_size c with
     | Some _ => if contains "UCC(4)" (cc_type c)
                 then [("t1aa", tzeros [nva; na]); ("t3aa", tzeros [nva; nva; nva; na; na; na])] else []
     | None => []
     end)%list.
  Definition fast_old : vec :=
    match vectorise (old_keys false (cc_type c)) fast_init with Some v => v | None => [] end.
  (** A whole spin-integrated run. *)
  Definition fast_start : option (kstate unit * Qc) := start unit fast_energy (fun d => Some d) c fast_init fast_old tt.
  Definition fast_kernel (solve : solver) : outcome :=
    kernel unit solve fast_resid fast_energy fast_pert (fun d => Some d) c fast_init fast_old tt.
End Fast.
