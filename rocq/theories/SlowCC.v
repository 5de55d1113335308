(** Model of the spin-orbital routines that the iteration kernel (Kernel.v) calls:
    t2residEqnsSlow.residMain, t2energySlow.ccd_energyMain, drive_ucc4.resid_main and ucc4_energy_simplified,
    kernel.BuildBaseAmps/ContractAdjointAmps, and the first guess of kernel.py:301.
    The equations themselves are the transcribed functions of the Code_ files.
    [None] = an exception.  Simplification: elementwise operations require equal shapes (numpy would broadcast
    arrays whose shapes differ by axes of length 1); 1/0 is 0 in [trecip] (numpy: inf), the theorems that use it
    assume non-zero denominators. *)
From Coq Require Import String Ascii List Arith ZArith QArith Qcanon Bool Lia.
From Verif Require Import Sums Tensor Interp Numpy Spec Diis Kernel.
From Verif Require Code_t2residEqnsSlow Code_t2energySlow Code_XCCDbasebuilder Code_antisym_t4resids Code_drive_ucc4.
Import ListNotations.
Open Scope string_scope.

(** calling an equation function that makes no further calls / with its module's functions *)
Definition call0 (f : fn) (args : list value) : option tensor := do v <- run 0 [] f args; asT v.
Definition xcc_lib : list (string * fn) :=
  [("antisym.antisym_t4_residual", Code_antisym_t4resids.antisym_t4_residual);
   ("get_xcc7residual", Code_XCCDbasebuilder.get_xcc7residual);
   ("get_xcc8residual", Code_XCCDbasebuilder.get_xcc8residual);
   ("get_xcc9residual", Code_XCCDbasebuilder.get_xcc9residual)].
Definition call1 (f : fn) (args : list value) : option tensor := do v <- run 1 xcc_lib f args; asT v.
(** einsum of two arrays to a number *)
Definition dot (spec : string) (a b : tensor) : option Qc :=
  let (ins, out) := parse_spec spec in do r <- einsum ins out [a; b]; Some (data r []).

(** The only state outside the amplitudes: the file roooovvvv_t4_third.pickle in the working directory. *)
Definition disk := option tensor.

Section Slow.
  Variables no nv : nat.                       (* nocca, nvrta: numbers of occupied and virtual spin orbitals *)
  Variables f g D1 D2 D3 : tensor.             (* ints["oei"], ints["tei"], denom["D1aa"], ["D2aa"], ["D3aa"] *)
  Variable c : calc.

  (** kernel.py:177; "tamps" (the zero array of __init__) is read by none of the functions *)
  Definition contract_info : value :=
    VDict [("nocc", VInt no); ("nvir", VInt nv); ("tamps", VT (tzeros [nv; nv; no; no]));
           ("ints", VT g); ("oa", o_ no); ("va", v_ no)].
  (** XCCDbasebuilder.py:6-87 build_XCCDbase: order 5 also writes the file, orders 7 and 9 read it; any other
      order reaches `sys.exit()` where sys is not imported: NameError.  (Code_XCCDbasebuilder holds one function per
      value of `order`, whose own `order` argument is therefore unused.) *)
  Definition xcc_base (order : nat) (t2 : tensor) (w : disk) : option (tensor * disk) :=
    match order with
    | 5 => do r <- call1 Code_XCCDbasebuilder.build_XCCDbase_5 [VT t2; VNone; contract_info];
           do p <- call1 Code_XCCDbasebuilder.build_XCCDbase_5_dump [VT t2; VNone; contract_info];
           Some (r, Some p)
    | 6 => do r <- call1 Code_XCCDbasebuilder.build_XCCDbase_6 [VT t2; VNone; contract_info]; Some (r, w)
    | 7 => do p <- w;
           do r <- call1 Code_XCCDbasebuilder.build_XCCDbase_7 [VT t2; VNone; contract_info; VT p]; Some (r, w)
    | 8 => do r <- call1 Code_XCCDbasebuilder.build_XCCDbase_8 [VT t2; VNone; contract_info]; Some (r, w)
    | 9 => do p <- w;
           do r <- call1 Code_XCCDbasebuilder.build_XCCDbase_9 [VT t2; VNone; contract_info; VT p]; Some (r, w)
    | _ => None
    end%nat.
  (** t2residEqnsSlow.py:55-57 *)
  Fixpoint xcc_resids (orders : list nat) (t2 r : tensor) (w : disk) : option (tensor * disk) :=
    match orders with
    | [] => Some (r, w)
    | k :: rest => do bw <- xcc_base k t2 w; do r' <- tbin Qcplus r (fst bw); xcc_resids rest t2 r' (snd bw)
    end.
  (** t2residEqnsSlow.py:73-76: only the entries [a,a,i,i] are kept *)
  Definition pair_part (r : tensor) : tensor :=
    fold_left (fun t ai => tput [fst ai; fst ai; snd ai; snd ai] (data r [fst ai; fst ai; snd ai; snd ai]) t)
      (list_prod (seq 0 nv) (seq 0 no)) (tzeros [nv; nv; no; no]).
  (** t2residEqnsSlow.py:10-98 residMain: the new amplitude dictionary.  `cc_label == "UCC(4)"` (line 46) never
      holds, labels being dictionary keys; the label test of the caller is in Kernel.resid_call. *)
  Definition t2resid_slow (d : dict) (w : disk) : option (dict * disk) :=
    do t2 <- slook "t2aa" d;
    do r0 <- call0 Code_t2residEqnsSlow.ccd_t2residual [VT t2; VT f; VT g; o_ no; v_ no];
    do r1 <- (if cc_type c =? "LCCD" then
                do off <- call0 Code_t2residEqnsSlow.doubles_resLCCDoffset [VT t2; VT f; VT g; o_ no; v_ no];
                tbin Qcminus r0 off
              else Some r0);
    do rw <- (if contains "X" (cc_type c) then
                do orders <- extract_integer (cc_type c);           (* iterating over None raises *)
                xcc_resids orders t2 r1 w
              else Some (r1, w));
    do x <- tbin Qcmult (trecip D2) t2;
    do r2 <- tbin Qcplus (fst rw) x;
    do new <- tbin Qcmult r2 D2;
    let t2aa := if cc_type c =? "pCCD" then pair_part new else new in
    let z := if cc_type c =? "pCCD" then t2aa else r2 in
    Some ([("t2aa", t2aa); ("t2bb", tscale 0 z); ("t2ab", tscale 0 z)], snd rw).

  (** t2energySlow.py:114-118 ccdEnergy *)
  Definition ccd_energy (t2 : tensor) : option Qc :=
    do e <- call0 Code_t2energySlow.ccdEnergy [VT t2; VT f; VT g; o_ no; v_ no]; Some (data e []).
  (** kernel.py:524-550 buildXCCD_T2energy *)
  Definition xcc_energy1 (factorization : bool) (t2 : tensor) (order : nat) (w : disk) : option (Qc * disk) :=
    do cap <- (if factorization then
                 do gs <- tslice [(no, None); (no, None); (0%nat, Some no); (0%nat, Some no)] g;
                 tbin Qcmult gs D2
               else Some t2);
    do dag <- ttransp [2; 3; 0; 1]%nat cap;
    do bw <- xcc_base order t2 w;
    do e <- dot "ijab,abij" dag (fst bw);
    Some (Q2Qc (1 # 4) * e, snd bw)%Qc.
  (** t2energySlow.py:66-83 add_XCCenergy: the list of energies *)
  Fixpoint xcc_energies (factorization : bool) (t2 : tensor) (orders : list nat) (w : disk) : option (list Qc * disk) :=
    match orders with
    | [] => Some ([], w)
    | k :: rest =>
        do ew <- xcc_energy1 factorization t2 k w;
        do lw <- xcc_energies factorization t2 rest (snd ew);
        Some (fst ew :: fst lw, snd lw)
    end.
  (** t2energySlow.py:32-33 *)
  Definition xccd_flag : bool :=
    existsb (fun m => contains m (cc_type c)) ["XCCD(5)"; "XCCD(6)"; "XCCD(7)"; "XCCD(8)"; "XCCD(9)"].
  Definition lsum (l : list Qc) : Qc := suml l (fun x => x).
  (** t2energySlow.py:14-63 ccd_energyMain with get_perturbCorr=False *)
  Definition t2energy_slow (d : dict) (w : disk) : option (Qc * disk) :=
    do t2 <- slook "t2aa" d;
    if xccd_flag then
      do e <- ccd_energy t2;
      do orders <- extract_integer (cc_type c);
      do lw <- xcc_energies false t2 orders w;
      Some (e + lsum (fst lw), snd lw)%Qc
    else do e <- ccd_energy t2; Some (e, w).
  (** ... and with get_perturbCorr=True *)
  Definition t2pert_slow (d : dict) (w : disk) : option (Qc * disk) :=
    do t2 <- slook "t2aa" d;
    do orders <- extract_integer (cc_type c);
    do lw <- xcc_energies true t2 orders w;
    Some (lsum (fst lw), snd lw).

  (** drive_ucc4.py:27-92 resid_main *)
  Definition ucc4_resid (d : dict) (w : disk) : option (dict * disk) :=
    let d := match slook "t3aa" d with
             | Some _ => d
             | None => sset "t3aa" (tzeros [nv; nv; nv; no; no; no]) (sset "t1aa" (tzeros [nv; no]) d)
             end in
    do t2 <- slook "t2aa" d;
    do t2d <- ttransp [2; 3; 0; 1]%nat t2;
    do t1 <- slook "t1aa" d;
    do t3 <- slook "t3aa" d;
    do r1 <- call0 Code_drive_ucc4.t1_residEqns [VT t1; VT t2; VT f; VT g; o_ no; v_ no];
    do r2a <- call0 Code_t2residEqnsSlow.ccd_t2residual [VT t2; VT f; VT g; o_ no; v_ no];
    do a <- call0 Code_drive_ucc4.offset_t2resid_t2squared [VT t2; VT g; o_ no; v_ no];
    do r2b <- tbin Qcminus r2a a;
    do b <- call0 Code_drive_ucc4.offset_t2resid_t2dag_w_t2 [VT t2; VT t2d; VT g; o_ no; v_ no];
    do r2c <- tbin Qcplus r2b b;
    do e <- call0 Code_drive_ucc4.offset_t2resid_T1_T3 [VT t1; VT t3; VT g; o_ no; v_ no];
    do r2d <- tbin Qcplus r2c e;
    do r3 <- call0 Code_drive_ucc4.t3_resid [VT t3; VT t2; VT f; VT g; o_ no; v_ no];
    do x1 <- tbin Qcmult (trecip D1) t1; do s1 <- tbin Qcplus r1 x1;
    do x2 <- tbin Qcmult (trecip D2) t2; do s2 <- tbin Qcplus r2d x2;
    do x3 <- tbin Qcmult (trecip D3) t3; do s3 <- tbin Qcplus r3 x3;
    do n2 <- tbin Qcmult s2 D2; do n1 <- tbin Qcmult s1 D1; do n3 <- tbin Qcmult s3 D3;
    Some (sset "t3aa" n3 (sset "t1aa" n1 (sset "t2aa" n2 d)), w).
  (** drive_ucc4.py:8-25 ucc4_energy_simplified *)
  Definition ucc4_energy (d : dict) (w : disk) : option (Qc * disk) :=
    do ew <- t2energy_slow d w;
    do t2 <- slook "t2aa" d;
    do t2d <- ttransp [2; 3; 0; 1]%nat t2;
    do b <- call0 Code_drive_ucc4.offset_t2resid_t2dag_w_t2 [VT t2; VT t2d; VT g; o_ no; v_ no];
    do r <- tbin Qcmult (tscale (1 + 1) b) D2;
    do e <- dot "jiab,abji" t2d r;
    Some (fst ew + e, snd ew)%Qc.

  (** The routines as the kernel calls them.  Only the spin-orbital ones are given here; a run with
      cc_label = "ccdTypeSlow" calls no others. *)
  Definition slow_resid (rf : resid_fn) (d l2 : dict) (w : disk) : option (dict * disk) :=
    match rf with R_t2residSlow => t2resid_slow d w | R_ucc4 => ucc4_resid d w | _ => None end.
  Definition slow_energy (ef : energy_fn) (d : dict) (w : disk) : option (Qc * disk) :=
    match ef with E_t2energySlow => t2energy_slow d w | E_ucc4 => ucc4_energy d w | _ => None end.
  Definition slow_pert (ef : energy_fn) (d l2 : dict) (w : disk) : option (Qc * disk) :=
    match ef with E_t2energySlow => t2pert_slow d w | _ => None end.
  (** kernel.py:301 *)
  Definition mp_guess (d : dict) : option dict :=
    do gs <- tslice [(no, None); (no, None); (0%nat, Some no); (0%nat, Some no)] g;
    do t <- tbin Qcmult gs D2;
    Some (sset "t2aa" t d).
  (** kernel.py:123-141: amplitudes and old vector of __init__ (branch "ccdType"/"ccdTypeSlow") *)
  Definition slow_init : dict :=
    let t2 := tzeros [nv; nv; no; no] in
    ([("t2aa", t2); ("t2bb", t2); ("t2ab", t2)] ++
     match diis_size c with
     | Some _ => if contains "UCC(4)" (cc_type c)
                 then [("t1aa", tzeros [nv; no]); ("t3aa", tzeros [nv; nv; nv; no; no; no])] else []
     | None => []
     end)%list.
  Definition slow_old : vec :=
    match vectorise (old_keys false (cc_type c)) slow_init with Some v => v | None => [] end.
  (** A whole spin-orbital run. *)
  Definition slow_kernel (solve : solver) (w : disk) : outcome :=
    kernel disk solve slow_resid slow_energy slow_pert mp_guess c slow_init slow_old w.
End Slow.
