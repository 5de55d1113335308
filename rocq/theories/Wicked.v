(** Model of the perturbation energies that AmpHandler.run_wickedTest (amphandler.py:121-309, method "wicked_parT") prints before
    it stops: the local functions build_MP2_T2, build_LCCD_T2, get_WnT2_energy, kill_Diag_T2, build_WnT1_T2 and build_CCD_T2_sqr
    (202-263) and the statements 266-308 that use them; and the numbers printed before (132-195).
    [None] = an exception.
    None of the statements 132-195 changes the arrays used later: 266 starts again from the integrals and the denominators, and
    the arrays written in place by determine_pCCD_correction (132-144) are not read after line 168.
    Left out: the list of singles printed in 181-184.
    Simplifications: exact rationals; np.copy makes an array equal to the old one, so the writes of kill_Diag_T2 act on a value. *)
From Coq Require Import String Ascii List Arith ZArith QArith Qcanon Bool Lia.
From Verif Require Import Sums Tensor Interp Numpy Spec SlowCC SpinOrb.
From Verif Require Code_wicked_T3corr.
Import ListNotations.
Open Scope string_scope.

(** amphandler.py:203, where W is g[o,o,v,v] (line 266) *)
Definition mp2_source : fn := mkFn ["g"; "o"; "v"]
  [(*L203*) SAssign "roovv" (EScale (250000000 # 1000000000) (EEins "ijab->ijab" [ESlice (EVar "g") [SV "o"; SV "o"; SV "v"; SV "v"]]))]
  (EVar "roovv").
(** amphandler.py:213-215 *)
Definition lccd_source : fn := mkFn ["T2"; "W"; "o"; "v"]
  [(*L213*) SAssign "roovv" (EScale (125000000 # 1000000000) (EEins "klab,ijkl->ijab" [EVar "T2"; ESlice (EVar "W") [SV "o"; SV "o"; SV "o"; SV "o"]]));
   (*L214*) SAug true "roovv" (EScale (-1000000000 # 1000000000) (EEins "ikac,jckb->ijab" [EVar "T2"; ESlice (EVar "W") [SV "o"; SV "v"; SV "o"; SV "v"]]));
   (*L215*) SAug true "roovv" (EScale (125000000 # 1000000000) (EEins "ijcd,cdab->ijab" [EVar "T2"; ESlice (EVar "W") [SV "v"; SV "v"; SV "v"; SV "v"]]))]
  (EVar "roovv").
(** amphandler.py:224-226 get_WnT2_energy, called with g[v,v,o,o] *)
Definition get_WnT2_energy_fn : fn := mkFn ["T2"; "g"; "o"; "v"]
  [(*L225*) SAssign "energy" (EScale (250000000 # 1000000000) (EEins "ijab,abij->" [EVar "T2"; ESlice (EVar "g") [SV "v"; SV "v"; SV "o"; SV "o"]]))]
  (*L226*) (EVar "energy").
Definition get_WnT2_energy (no : nat) (T2 g : tensor) : option Qc :=
  do e <- call0 get_WnT2_energy_fn [VT T2; VT g; VSl 0 (Some no); VSl no None];
  match shape e with [] => Some (data e []) | _ => None end.
(** amphandler.py:204-207 and 217-220: antisymmetrise, transpose, multiply by denoms["D2aa"], transpose back *)
Definition over_gaps (no nv : nat) (D2 roovv : tensor) : option tensor :=
  do r <- call0 Code_wicked_T3corr.antisym_T2 [VT roovv; VInt no; VInt nv];
  do r <- ttransp [2; 3; 0; 1]%nat r;
  do r <- tbin Qcmult r D2;
  ttransp [2; 3; 0; 1]%nat r.
(** amphandler.py:202-208 build_MP2_T2, called with g[o,o,v,v] *)
Definition build_MP2_T2 (no nv : nat) (g D2 : tensor) : option tensor :=
  do r <- call0 mp2_source [VT g; VSl 0 (Some no); VSl no None];
  over_gaps no nv D2 r.
(** amphandler.py:212-221 build_LCCD_T2 *)
Definition build_LCCD_T2 (no nv : nat) (g D2 T2 : tensor) : option tensor :=
  do r <- call0 lccd_source [VT T2; VT g; VSl 0 (Some no); VSl no None];
  over_gaps no nv D2 r.
(** amphandler.py:229-237 kill_Diag_T2: the assignments in their order *)
Definition kill_writes (no nv : nat) : list (list nat * Qc) :=
  flat_map (fun i => flat_map (fun a =>
    [([i; i + 1; a; a + 1]%nat, 0%Qc); ([i + 1; i; a; a + 1]%nat, 0%Qc);
     ([i; i + 1; a + 1; a]%nat, 0%Qc); ([i + 1; i; a + 1; a]%nat, 0%Qc)]) (seq 0 (nv - 1))) (seq 0 (no - 1)).
Definition kill_Diag_T2 (no nv : nat) (T2 : tensor) : tensor := fold_left put (kill_writes no nv) T2.
(** amphandler.py:266-283: the four numbers printed, with the words in front of them *)
Definition printed_MP (no nv : nat) (g D2 : tensor) : option (list (string * Qc)) :=
  do first <- build_MP2_T2 no nv g D2;
  let killed := kill_Diag_T2 no nv first in
  do MP2fullE <- get_WnT2_energy no first g;
  do MP2offDiagE <- get_WnT2_energy no killed g;
  do second <- build_LCCD_T2 no nv g D2 first;
  do MP3fullE <- get_WnT2_energy no second g;
  do second_killed <- build_LCCD_T2 no nv g D2 killed;
  do MP3offDiagE <- get_WnT2_energy no second_killed g;
  Some [("full MP2 energy:", MP2fullE); ("off Diag MP2 energy:", MP2offDiagE);
        ("full MP3 energy:", (- MP3fullE)%Qc); ("off diag MP3 energy:", (- MP3offDiagE)%Qc)].

(** amphandler.py:242-243 *)
Definition t1_source : fn := mkFn ["T1"; "g"; "o"; "v"]
  [(*L242*) SAssign "r" (EScale (-500000000 # 1000000000) (EEins "ka,ijkb->ijab" [EVar "T1"; ESlice (EVar "g") [SV "o"; SV "o"; SV "o"; SV "v"]]));
   (*L243*) SAug true "r" (EScale (-500000000 # 1000000000) (EEins "ic,jcab->ijab" [EVar "T1"; ESlice (EVar "g") [SV "o"; SV "v"; SV "v"; SV "v"]]))]
  (EVar "r").
(** amphandler.py:253-257, where W is g[v,v,o,o] (line 306) *)
Definition sqr_source : fn := mkFn ["T2"; "g"; "o"; "v"]
  [SAssign "W" (ESlice (EVar "g") [SV "v"; SV "v"; SV "o"; SV "o"]);
   (*L253*) SAssign "roovv" (EScale (-500000000 # 1000000000) (EEins "ikab,jlcd,cdkl->ijab" [EVar "T2"; EVar "T2"; EVar "W"]));
   (*L254*) SAug true "roovv" (EScale (125000000 # 1000000000) (EEins "klab,ijcd,cdkl->ijab" [EVar "T2"; EVar "T2"; EVar "W"]));
   (*L255*) SAug true "roovv" (EScale (-500000000 # 1000000000) (EEins "ijac,klbd,cdkl->ijab" [EVar "T2"; EVar "T2"; EVar "W"]));
   (*L256*) SAug true "roovv" (EScale (1000000000 # 1000000000) (EEins "ikac,jlbd,cdkl->ijab" [EVar "T2"; EVar "T2"; EVar "W"]));
   (*L257*) SAssign "roovv" (EScale (5 # 10) (EVar "roovv"))]
  (EVar "roovv").
(** amphandler.py:240-249 build_WnT1_T2 *)
Definition build_WnT1_T2 (no nv : nat) (g D2 T1 : tensor) : option tensor :=
  do r <- call0 t1_source [VT T1; VT g; VSl 0 (Some no); VSl no None];
  over_gaps no nv D2 r.
(** amphandler.py:252-263 build_CCD_T2_sqr *)
Definition build_CCD_T2_sqr (no nv : nat) (g D2 T2 : tensor) : option tensor :=
  do r <- call0 sqr_source [VT T2; VT g; VSl 0 (Some no); VSl no None];
  over_gaps no nv D2 r.
(** amphandler.py:128, 130 and 288-308: the five numbers printed after those of [printed_MP]; [t1] and [t2] are the amplitudes
    held by the object, virtual indices first *)
Definition printed_amp (no nv : nat) (g D2 t1 t2 : tensor) : option (list (string * Qc)) :=
  do t1 <- ttransp [1; 0]%nat t1;
  do t2 <- ttransp [2; 3; 0; 1]%nat t2;
  do first <- build_MP2_T2 no nv g D2;
  let killed := kill_Diag_T2 no nv first in
  do pLCCD_T2 <- build_LCCD_T2 no nv g D2 t2;
  do testE <- get_WnT2_energy no pLCCD_T2 g;
  do pLCCD_e <- get_WnT2_energy no (kill_Diag_T2 no nv pLCCD_T2) g;
  do from_T1 <- build_WnT1_T2 no nv g D2 t1;
  do t1_energy <- get_WnT2_energy no from_T1 g;
  do t1_energyOD <- get_WnT2_energy no (kill_Diag_T2 no nv from_T1) g;
  do t2_sqrCCD <- build_CCD_T2_sqr no nv g D2 killed;
  do t2_sqrCCD_E <- get_WnT2_energy no t2_sqrCCD g;
  Some [("test LCCD energy from pCCD:", (- testE)%Qc); ("off diag LCCD energy from pCCD amps:", (- pLCCD_e)%Qc);
        ("UCCSpD full correction from T1:", t1_energy); ("UCCSpD off diag correction from T1:", t1_energyOD);
        ("Wnt2^2 from MP2 off-diagonal amps:", t2_sqrCCD_E)].

(** amphandler.py:132-144 determine_pCCD_correction: the numbers printed, the number returned, and the array T2op after the
    call: zerod_T2 is the same array (line 135), so the zeros are written into the caller's array.  An entry is read (138)
    before it is set to zero (139), and each pass of the loops reads and sets another entry. *)
Definition zero_writes (no nv : nat) : list (list nat * Qc) :=
  flat_map (fun i => map (fun a => ([i; i + 1; a; a + 1]%nat, 0%Qc)) (seq 0 (nv - 1))) (seq 0 (no - 1)).
Definition pairs_sum (no nv : nat) (F : nat -> nat -> Qc) : Qc := suml (seq 0 (no - 1)) (fun i => suml (seq 0 (nv - 1)) (F i)).
Definition determine_pCCD_correction (no nv : nat) (g T2op : tensor) : option (list (string * Qc) * Qc * tensor) :=
  do fullE <- get_WnT2_energy no T2op g;
  let subtractE := pairs_sum no nv (fun i a => Q2Qc (25 # 100) * data T2op [i; i + 1; a; a + 1]%nat * data g [a; a + 1; i; i + 1]%nat)%Qc in
  let zerod_T2 := fold_left put (zero_writes no nv) T2op in
  do test <- get_WnT2_energy no zerod_T2 g;
  let offDiagE := (fullE - subtractE)%Qc in
  Some ([("fullE:", fullE); ("diagonal portion of E:", subtractE); ("test of off-diagon:", test); ("final pCCD related E", offDiagE)], offDiagE, zerod_T2).
(** amphandler.py:185 *)
Definition singles_energy_fn : fn := mkFn ["a"; "b"]
  [(*L185*) SAssign "fullE" (EScale (250000000 # 1000000000) (EEins "abij,ijab->" [EVar "a"; EVar "b"]))] (EVar "fullE").
(** amphandler.py:128 and 151-195; lines 160-167 are those of build_LCCD_T2, 173-179 those of build_WnT1_T2 *)
Definition printed_pCCD (no nv : nat) (g D2 t1 : tensor) : option (list (string * Qc)) :=
  do t1 <- ttransp [1; 0]%nat t1;
  do x <- tslice [(no, None); (no, None); (0%nat, Some no); (0%nat, Some no)] g;
  do x <- tbin Qcmult x D2;
  do first <- ttransp [2; 3; 0; 1]%nat x;
  do c <- determine_pCCD_correction no nv g first;
  let '(p1, offDiag_MP2_E, first) := c in
  do second <- build_LCCD_T2 no nv g D2 first;
  do c <- determine_pCCD_correction no nv g (tscale (-(1))%Qc second);
  let '(p2, offDiag_MP3_E, _) := c in
  do r <- call0 t1_source [VT t1; VT g; VSl 0 (Some no); VSl no None];
  do orig <- call0 Code_wicked_T3corr.antisym_T2 [VT r; VInt no; VInt nv];
  do r <- ttransp [2; 3; 0; 1]%nat orig;
  do t2_fromT1 <- tbin Qcmult r D2;
  do e <- call0 singles_energy_fn [VT t2_fromT1; VT orig];
  do fullE <- match shape e with [] => Some (data e []) | _ => None end;
  let subtractE := pairs_sum no nv (fun i a => Q2Qc (25 # 100) * data orig [i; i + 1; a; a + 1]%nat * data t2_fromT1 [a; a + 1; i; i + 1]%nat)%Qc in
  let offDiagE := (fullE - subtractE)%Qc in
  Some (p1 ++ [("Off diag pCCD MP2 energy:", offDiag_MP2_E)] ++ p2 ++ [("Off diag pCCD MP3 energy:", offDiag_MP3_E)] ++
    [("full singles portion of CCSpD T1 corr:", fullE); ("fullE:", fullE); ("diagonal portion of E:", subtractE); ("final pCCD related E", offDiagE);
     ("UCCSpD off diagonal singles correction:", offDiagE);
     ("total UCCSpD off diagonal singles correction:", (offDiagE + offDiag_MP2_E + offDiag_MP3_E)%Qc)])%list.

(** ** AmpHandler.run_UCCDcheck (amphandler.py:59-95, method "checkUCCD"): the numbers printed before it stops *)
(** amphandler.py:71 *)
Definition uccd_B : fn := mkFn ["t2_dag"; "g"; "o"; "v"]
  [(*L71*) SAssign "e" (EScale (250000000 # 1000000000) (EEins "abij,ijab->" [EVar "t2_dag"; ESlice (EVar "g") [SV "o"; SV "o"; SV "v"; SV "v"]]))] (EVar "e").
(** amphandler.py:73-75 *)
Definition uccd_C : fn := mkFn ["t2"; "t2_dag"; "g"; "o"; "v"]
  [(*L73*) SAssign "e" (EScale (125000000 # 1000000000) (EEins "ijab,cdij,abcd->" [EVar "t2"; EVar "t2_dag"; ESlice (EVar "g") [SV "v"; SV "v"; SV "v"; SV "v"]]));
   (*L74*) SAug true "e" (EScale (-1000000000 # 1000000000) (EEins "ijab,acik,kbjc->" [EVar "t2"; EVar "t2_dag"; ESlice (EVar "g") [SV "o"; SV "v"; SV "o"; SV "v"]]));
   (*L75*) SAug true "e" (EScale (125000000 # 1000000000) (EEins "ijab,abkl,klij->" [EVar "t2"; EVar "t2_dag"; ESlice (EVar "g") [SV "o"; SV "o"; SV "o"; SV "o"]]))]
  (EVar "e").
(** amphandler.py:78-79 *)
Definition uccd_F : fn := mkFn ["t2"; "t2_dag"; "fock"; "o"; "v"]
  [(*L78*) SAssign "e" (EScale (-500000000 # 1000000000) (EEins "ji,ikab,abjk->" [ESlice (EVar "fock") [SV "o"; SV "o"]; EVar "t2"; EVar "t2_dag"]));
   (*L79*) SAug true "e" (EScale (500000000 # 1000000000) (EEins "ba,ijbc,acij->" [ESlice (EVar "fock") [SV "v"; SV "v"]; EVar "t2"; EVar "t2_dag"]))]
  (EVar "e").
(** amphandler.py:93 *)
Definition uccd_N : fn := mkFn ["roovv"; "t2_dag"]
  [(*L93*) SAssign "e" (EScale (250000000 # 1000000000) (EEins "ijab,abij->" [EVar "roovv"; EVar "t2_dag"]))] (EVar "e").
Definition number (f : fn) (args : list value) : option Qc :=
  do e <- call0 f args; match shape e with [] => Some (data e []) | _ => None end.
(** amphandler.py:60-94; [t2] has the virtual indices first.  The literal of line 83 is the energy of one molecule. *)
Definition printed_UCCD (no nv : nat) (g fock t2_dag : tensor) : option (list (string * Qc)) :=
  let o := VSl 0 (Some no) in let v := VSl no None in
  do t2 <- ttransp [2; 3; 0; 1]%nat t2_dag;
  do energyA <- number get_WnT2_energy_fn [VT t2; VT g; o; v];
  do energyB <- number uccd_B [VT t2_dag; VT g; o; v];
  do energyC <- number uccd_C [VT t2; VT t2_dag; VT g; o; v];
  do fockpart <- number uccd_F [VT t2; VT t2_dag; VT fock; o; v];
  let energy := (energyA + energyB + energyC)%Qc in
  do roovv <- call0 lccd_source [VT t2; VT g; o; v];
  do roovv <- call0 Code_wicked_T3corr.antisym_T2 [VT roovv; VInt no; VInt nv];
  do newE <- number uccd_N [VT roovv; VT t2_dag];
  Some [("energies A,B,C", energyA); ("", energyB); ("", energyC); ("fockpart:", fockpart);
        ("total corr E", energy); ("", (energy + Q2Qc (-111632556448611 # 100000000000000))%Qc); ("new diagram C energy:", newE)].
