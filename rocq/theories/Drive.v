(** Model of the third driver: test.py (classes SetupCC and DriveCC), cc_eqns.cceqns_driver, cc_energy.ccenergy_driver and
    perturbE_driver, tamps.set_tampsSLOW and get_oldvec.  The equations are the transcribed functions of the Code_ files, the
    denominators those of Denoms.v, the integral transformations those of Ints.v.  [None] = an exception.
    test.py imports neither sys nor pickle, so `sys.exit()` (lines 125, 215) is a NameError.
    Simplifications: printing is left out, except for the numbers of perturbE_driver; 1/0 = 0; elementwise operations require
    equal shapes; the 'ao_tei.pickle' fallback (lines 79-83, which raises: norbs is unbound) is left out; dropping more orbitals
    than are occupied, which numpy would read as a slice from the end, raises. *)
From Coq Require Import String Ascii List Arith ZArith QArith Qcanon Bool Lia.
From Coq Require Qcabs.
From Verif Require Import Sums Tensor Interp Numpy Spec Diis Kernel Denoms Ints SlowCC.
From Verif Require Code_tamps Code_cc_eqns Code_cc_energy Code_ccsdt_eqns Code_ccdq_eqns Code_modify_T2resid_T4Qf1Slow Code_build_qf_correction.
Import ListNotations.
Open Scope string_scope.

(** What SetupCC reads from the pyscf objects.  An RHF result has one set of orbitals, [s_Ca] = [s_Cb]. *)
Record scf := mkScf { s_rhf : bool; s_norb : nat; s_na : nat; s_nb : nat; s_eri : tensor; s_Ca : tensor; s_Cb : tensor;
                      s_ea : list Qc; s_eb : list Qc; s_etot : Qc; s_enuc : Qc }.
(** cc_info: test.py:15-20, 29-30, 152-167.  [j_diis] = (diis_size, diis_start_cycle), [j_t2file] the array in t2ampFile *)
Record job := mkJob { j_label : string; j_max_iter : nat; j_eps : Qc; j_drop : nat; j_diis : option (nat * option nat); j_t2file : option tensor }.
(** The attributes set by SetupCC: occInfo, the end of the occupied slice, integralInfo, eps, denomInfo, hf_e, nuc_e *)
Record setup := mkSetup { x_no : nat; x_nv : nat; x_end : nat; x_f : tensor; x_g : tensor; x_e : list Qc; x_den : dict; x_hf : Qc; x_nuc : Qc }.

(** test.py:118-146 get_occInfo: (nocc_aa, nvirt_aa, end of the occupied slice) *)
Definition occ_info (s : scf) (drop : nat) : option (nat * nat * nat) :=
  if s_rhf s then
    if Nat.ltb 0 drop then None
    else let nele := (s_na s + s_nb s)%nat in let nocc := (nele / 2)%nat in Some (2 * nocc, 2 * (s_norb s - nocc), nele)%nat
  else if Nat.ltb (s_na s + s_nb s) (2 * drop) then None
  else let nele := (s_na s + s_nb s - 2 * drop)%nat in Some (nele, 2 * (s_norb s - s_na s), nele)%nat.
(** test.py:62-115 get_integrals: (oei, tei, eps); [order eps] is `eps.argsort()` *)
Definition drive_integrals (order : list Qc -> list nat) (s : scf) (drop : nat) : option (tensor * tensor * list Qc) :=
  do C <- block_diag (s_Ca s) (s_Cb s);
  do gao <- gao_of (s_eri s);
  let eps := (s_ea s ++ s_eb s)%list in
  let p := skipn (2 * drop) (order eps) in
  do C <- take_cols p C;
  let eps := map (fun k => nth k eps 0%Qc) p in
  do gmo <- gmo_of gao C;
  Some (tdiag eps, gmo, eps).
(** test.py:36-48 get_denomsSlow *)
Definition drive_denoms (label : string) (eps : list Qc) (nele : nat) : option dict :=
  let add (b : bool) k key d :=
    if b then do D <- den_slow k eps (O, Some nele) (nele, None); Some (sset key D d) else Some d in
  do d <- add (contains "S" label) 1%nat "D1aa" [];
  do d <- add (contains "D" label) 2%nat "D2aa" d;
  do d <- add (contains "T" label) 3%nat "D3aa" d;
  add (contains "UT2" label || contains "X" label || contains "Qdebug" label || contains "Q" label)%bool 4%nat "D4aa" d.
(** test.py:8-33 SetupCC.__init__ *)
Definition setup_cc (order : list Qc -> list nat) (s : scf) (j : job) : option setup :=
  do o <- occ_info s (j_drop j);
  do i <- drive_integrals order s (j_drop j);
  do d <- drive_denoms (j_label j) (snd i) (snd o);
  Some (mkSetup (fst (fst o)) (snd (fst o)) (snd o) (fst (fst i)) (snd (fst i)) (snd i) d (s_etot s) (s_enuc s)).

(** functions of cc_eqns.py, ccsdt_eqns.py and ccdq_eqns.py call those of tamps.py *)
Definition tamps_lib : list (string * fn) :=
  [("tamps.antisym_T2", Code_tamps.antisym_T2); ("tamps.antisym_T3", Code_tamps.antisym_T3); ("tamps.antisym_T4", Code_tamps.antisym_T4)].
(** what perturbE_driver calls *)
Definition energy_lib : list (string * fn) :=
  [("tamps.antisym_T2", Code_tamps.antisym_T2); ("tamps.antisym_T3", Code_tamps.antisym_T3); ("tamps.antisym_T4", Code_tamps.antisym_T4);
   ("qf.wnT2cubed_toT4", Code_build_qf_correction.wnT2cubed_toT4);
   ("qf.wnT2cubed_toT2", Code_build_qf_correction.wnT2cubed_toT2);
   ("qf.wnT2T3_toT4", Code_build_qf_correction.wnT2T3_toT4);
   ("qf.wnT2T3_toT2", Code_build_qf_correction.wnT2T3_toT2);
   ("optWnT2sqr", Code_cc_energy.optWnT2sqr); ("optWnT3", Code_cc_energy.optWnT3);
   ("build_approxT3", Code_cc_energy.build_approxT3); ("T3portion_Qf", Code_cc_energy.T3portion_Qf);
   ("pdag_xcc5.residQf1_aaaa", Code_modify_T2resid_T4Qf1Slow.residQf1_aaaa)].
(** cc_energy.py:61-62 *)
Definition pt_approx : fn := mkFn ["W"; "T2"; "o"; "v"]
  [SAssign "T3" (ECall "build_approxT3" [EVar "W"; EVar "T2"; EVar "o"; EVar "v"])]
  (ECall "tamps.antisym_T3" [EVar "T3"; ENone; ENone]).
(** cc_energy.py:64-67 *)
Definition pt_fifth : fn := mkFn ["W"; "T2"; "o"; "v"; "D2"]
  [SAssign "t2_resid" (EScale (1 # 2) (ECall "pdag_xcc5.residQf1_aaaa" [EVar "W"; EVar "T2"; ETransp (EVar "T2") [2; 3; 0; 1]%nat; EVar "o"; EVar "v"]));
   SAssign "fo_t2_b" (EMul (ESlice (EVar "W") [SV "o"; SV "o"; SV "v"; SV "v"]) (EVar "D2"))]
  (EScale (1 # 4) (EEins "jiab,abji" [EVar "fo_t2_b"; EVar "t2_resid"])).
(** cc_energy.py:71-74 *)
Definition pt_brak : fn := mkFn ["T3"; "D3"]
  [SAssign "D3T3" (EMul (EVar "T3") (EVar "D3")); SAssign "D3T3" (ETransp (EVar "D3T3") [3; 4; 5; 0; 1; 2]%nat)]
  (EScale (1 # 4) (EScale (111111111 # 1000000000) (EEins "ijkabc,abcijk->" [EVar "T3"; EVar "D3T3"]))).
(** cc_energy.py:76-78 *)
Definition pt_t3 : fn := mkFn ["W"; "T2"; "T3"; "o"; "v"; "D2"]
  [SAssign "fo_t2_b" (EMul (ESlice (EVar "W") [SV "o"; SV "o"; SV "v"; SV "v"]) (EVar "D2"));
   SAssign "t2resid_t3" (EScale (1 # 4) (ECall "T3portion_Qf" [EVar "W"; ETransp (EVar "T2") [2; 3; 0; 1]%nat; EVar "T3"; EVar "o"; EVar "v"]));
   SAssign "t2resid_t3" (ECall "tamps.antisym_T2" [EVar "t2resid_t3"; ENone; ENone])]
  (EScale (1 # 4) (EEins "jiab,abji" [EVar "fo_t2_b"; ETransp (EVar "t2resid_t3") [2; 3; 0; 1]%nat])).

Section Drive.
  Variable x : setup.
  Variable label : string.
  Local Notation no := (x_no x). Local Notation nv := (x_nv x).
  Local Notation o := (o_ (x_end x)). Local Notation v := (v_ (x_end x)).
  Local Notation F := (VT (x_f x)). Local Notation W := (VT (x_g x)).
  Definition woovv : option tensor :=
    tslice [(O, Some (x_end x)); (O, Some (x_end x)); (x_end x, None); (x_end x, None)] (x_g x).
  Definition callt (f : fn) (args : list value) : option tensor := do r <- run 1 tamps_lib f args; asT r.

  (** tamps.py:4-28 set_tampsSLOW and its call test.py:167 *)
  Definition init_tamps (t2file : option tensor) : option dict :=
    do D2 <- slook "D2aa" (x_den x); do w <- woovv; do g2 <- tbin Qcmult w D2;
    let add (b : bool) key t d := if b then sset key t d else d in
    let d := add (contains "S" label) "t1aa" (tzeros [no; nv]) [] in
    let d := add (contains "D" label) "t2aa" (match t2file with Some t => t | None => g2 end) d in
    let d := add (contains "T" label) "t3aa" (tzeros [no; no; no; nv; nv; nv]) d in
    Some (add (contains "Q" label) "t4aa" (tzeros [no; no; no; no; nv; nv; nv; nv]) d).
  (** tamps.py:31-49 get_oldvec *)
  Definition old_vec (d : dict) : option vec :=
    if contains "DQ" label then vectorise ["t2aa"; "t4aa"] d
    else if contains "SDT" label then vectorise ["t1aa"; "t2aa"; "t3aa"] d
    else if contains "SD" label then vectorise ["t1aa"; "t2aa"] d
    else if contains "D" label then vectorise ["t2aa"] d
    else None.
  (** test.py:152-174 DriveCC.__init__: the amplitudes, and the attributes diis_update and old_vec *)
  Definition drive_init (j : job) : option (dict * option (diis * vec)) :=
    do d <- init_tamps (j_t2file j);
    match j_diis j with
    | None => Some (d, None)
    | Some (n, st) => do w <- old_vec d; Some (d, Some (diis_new n (match st with Some k => k | None => O end), w))
    end.

  (** `resid += np.reciprocal(D)*T` and `resid*D`: cc_eqns.py:31-35, 45-47, 57-59, 65-66 *)
  Definition updated (key : string) (T R : tensor) : option tensor :=
    do D <- slook key (x_den x);
    do y <- tbin Qcmult (trecip D) T; do r <- tbin Qcplus R y; tbin Qcmult r D.
  (** cc_eqns.py:6-66 cceqns_driver *)
  Definition drive_eqns (d : dict) : option dict :=
    if contains "CCSDT" label then
      do T1 <- slook "t1aa" d; do T2 <- slook "t2aa" d; do T3 <- slook "t3aa" d;
      do R1 <- callt Code_ccsdt_eqns.ccsdt_t1eqns [F; W; VT T1; VT T2; VT T3; o; v];
      do R2 <- callt Code_ccsdt_eqns.ccsdt_t2eqns [F; W; VT T1; VT T2; VT T3; o; v];
      do R3 <- callt Code_ccsdt_eqns.ccsdt_t3eqns [F; W; VT T1; VT T2; VT T3; o; v];
      do n1 <- updated "D1aa" T1 R1; do n2 <- updated "D2aa" T2 R2; do n3 <- updated "D3aa" T3 R3;
      Some (sset "t3aa" n3 (sset "t2aa" n2 (sset "t1aa" n1 d)))
    else if contains "CCSD" label then
      do T1 <- slook "t1aa" d; do T2 <- slook "t2aa" d;
      do R1 <- callt Code_cc_eqns.ccsd_t1resid [F; W; VT T1; VT T2; o; v];
      do R2 <- callt Code_cc_eqns.ccsd_t2resid [F; W; VT T1; VT T2; o; v; VInt no; VInt nv];
      do n1 <- updated "D1aa" T1 R1; do n2 <- updated "D2aa" T2 R2;
      Some (sset "t2aa" n2 (sset "t1aa" n1 d))
    else if contains "CCDQ" label then
      do T2 <- slook "t2aa" d; do T4 <- slook "t4aa" d;
      do R2 <- callt Code_ccdq_eqns.ccdq_t2eqns [F; W; VT T2; VT T4; o; v];
      do R4 <- callt Code_ccdq_eqns.ccdq_t4eqns [F; W; VT T2; VT T4; o; v];
      do n2 <- updated "D2aa" T2 R2; do n4 <- updated "D4aa" T4 R4;
      Some (sset "t4aa" n4 (sset "t2aa" n2 d))
    else if contains "D" label then
      do T2 <- slook "t2aa" d;
      do R2 <- callt Code_cc_eqns.ccsd_t2resid [F; W; VT (tzeros [no; nv]); VT T2; o; v; VInt no; VInt nv];
      do n2 <- updated "D2aa" T2 R2;
      Some (sset "t2aa" n2 d)
    else Some d.
  (** cc_energy.py:8-23 ccenergy_driver *)
  Definition drive_energy (d : dict) : option Qc :=
    do T2 <- slook "t2aa" d;
    do e <- match slook "t1aa" d with
            | Some T1 => call0 Code_cc_energy.spinorbitalCCSDE_T1 [VT T2; W; F; o; v; VT T1]
            | None => call0 Code_cc_energy.spinorbitalCCSDE_noT1 [VT T2; W; F; o; v; VNone]
            end;
    Some (data e []).

  (** cc_energy.py:46-88 perturbE_driver: the printed numbers in order, each as the value of a program ([pt_fifth], [pt_brak], [pt_t3] below;
      for the functions of cc_energy.py:91-175 it calls, Code_cc_energy holds one program per printed number).
      [None] inside: the function returns None.  The default of `denomInfo.get("D3aa", ...)` cannot raise. *)
  Definition calle (f : fn) (args : list value) : option Qc := do r <- run 2 energy_lib f args; do t <- asT r; Some (data t []).
  Definition perturb (d : dict) : option (option (list (string * Qc))) :=
    do D3 <- match slook "D3aa" (x_den x) with
             | Some D3 => Some D3
             | None => den_slow 3 (x_e x) (O, Some (x_end x)) (x_end x, None)
             end;
    if contains "(qf)" label then
      do T2 <- slook "t2aa" d; do D2 <- slook "D2aa" (x_den x);
      do T3 <- match slook "t3aa" d with
               | Some T3 => Some T3
               | None => do r <- run 2 energy_lib pt_approx [W; VT T2; o; v]; asT r
               end;
      let a5 := [W; VT T2; VT T3; o; v; VT D2] in let a6 := [W; VT T2; o; v; VT D2] in
      do fifth <- calle pt_fifth a6; do brak <- calle pt_brak [VT T3; VT D3]; do t3c <- calle pt_t3 a5;
      do e134 <- calle Code_cc_energy.long_testQf5Order_L134 a5; do e141 <- calle Code_cc_energy.long_testQf5Order_L141 a5;
      do e149 <- calle Code_cc_energy.long_testQf5Order_L149 a5; do e161 <- calle Code_cc_energy.long_testQf5Order_L161 a5;
      do e162 <- calle Code_cc_energy.long_testQf5Order_L162 a5; do e175 <- calle Code_cc_energy.long_testQf5Order_L175 a5;
      do e175' <- calle Code_cc_energy.long_testQf5Order_L175_2 a5;
      do e110 <- calle Code_cc_energy.sixthOrderQf_wnT2T3_L110 a5; do e116 <- calle Code_cc_energy.sixthOrderQf_wnT2T3_L116 a5;
      do e96 <- calle Code_cc_energy.sixthOrderQf_wnT2cubed_L96 a6; do e103 <- calle Code_cc_energy.sixthOrderQf_wnT2cubed_L103 a6;
      Some (Some [("5th order energy:", fifth); ("5th order energy: (second)", Q2Qc 4 * fifth)%Qc; ("[T] correction to CCSD:", brak);
                  ("t3 contribution to Qf:", Q2Qc 2 * t3c)%Qc; ("Combined Qf correction:", Q2Qc 2 * t3c + fifth)%Qc;
                  ("WnT2^2 contribution to (Qf):", e134); ("test WnT2^2 scaling faster:", e141); ("test WnT3 scaling faster:", e149);
                  ("WnT3 contribution to (Qf):", e161); ("total Qf:", e162);
                  ("WnT3 contribution to (Qf): (again)", e175); ("WnT3 contribution to (Qf): (again, second)", e175');
                  ("WnT2T3 contribution to (Qf):", e110); ("WnT2T3 contribution to (Qf) faster T2 route:", e116);
                  ("WnT2^3 contribution to (Qf):", e96); ("WnT2^3 contribution to (Qf) faster T2 route:", e103)])
    else Some None.

  (** What a caller finds afterwards: correlationE["mp2e"], ["totalE"], ["totalCorrE"], tamps, and what was printed. *)
  Record result := mkResult { r_first : Qc; r_total : Qc; r_corr : Qc; r_tamps : dict; r_printed : list (string * Qc) }.
  (** test.py:190-215: [None] at the end is the NameError of line 215 *)
  Fixpoint drive_loop (thr : Qc) (n : nat) (old : Qc) (d : dict) : option (Qc * dict) :=
    match n with
    | O => None
    | S n => do d' <- drive_eqns d; do e <- drive_energy d';
             if Qclt_le_dec (Qcabs.Qcabs (old - e)) thr then Some (e, d') else drive_loop thr n e d'
    end.
  (** test.py:178-235 kernel and finalizeCC.  perturbE_driver returning None makes line 234 raise. *)
  Definition drive_kernel (j : job) (d : dict) : option result :=
    do e0 <- drive_energy d;
    do r <- drive_loop (j_eps j) (j_max_iter j) e0 d;
    do pr <- (if contains "(" label then do p <- perturb (snd r); p else Some []);
    Some (mkResult e0 (fst r) (x_nuc x + fst r - x_hf x)%Qc (snd r) pr).
End Drive.

(** `DriveCC(mf, mol, cc_info).kernel(cc_info)` *)
Definition drive_from (x : setup) (j : job) : option result :=
  do i <- drive_init x (j_label j) j; drive_kernel x (j_label j) j (fst i).
Definition drive_cc (order : list Qc -> list nat) (s : scf) (j : job) : option result :=
  do x <- setup_cc order s j; drive_from x j.
