(** C76: the energies printed by run_UCCDcheck. *)
From Coq Require Import String Ascii List Arith NArith ZArith QArith Qcanon Bool Lia Permutation.
From Verif Require Import Sums Tensor Interp Poly SymExec Canon Spec SpecDriver Instances Setup Master Spin Check Tabs NF Antisym Formula P_antisym Asym
  P_drive SlowCC P_slow SpinOrb P_ints3 Wicked P_wicked.
From Verif Require Code_wicked_T3corr.
Import ListNotations.
Open Scope string_scope.
Open Scope list_scope.
Open Scope Qc_scope.

(** ** Specification *)
(** expectation value of the Fock operator between doubles: particle and hole parts *)
Definition E_fock (no nv : nat) (f : tensor) (t : nat -> nat -> nat -> nat -> Qc) : Qc :=
  Q2Qc (1 # 2) * (Sum a < nv, Sum b < nv, Sum i < no, Sum j < no, Sum c < nv, data f [no + a; no + b]%nat * t i j a c * t i j b c) +
  Q2Qc (-1 # 2) * (Sum i < no, Sum j < no, Sum k < no, Sum a < nv, Sum b < nv, data f [i; j] * t i k a b * t j k a b).

(** ** Proof machinery *)
Definition p_A : poly := Eval vm_compute in [mkterm "" "ijab" (1 # 4) [(1%N, "ijab"); (3%N, "abij")]].
Definition p_C : poly := Eval vm_compute in
  [mkterm "" "ijabcd" (1 # 8) [(3%N, "abij"); (1%N, "abcd"); (3%N, "cdij")];
   mkterm "" "ijabkl" (1 # 8) [(3%N, "abij"); (1%N, "ijkl"); (3%N, "abkl")];
   mkterm "" "ijabkc" (-1 # 1) [(3%N, "abij"); (1%N, "jckb"); (3%N, "acik")]].
Definition p_F : poly := Eval vm_compute in
  [mkterm "" "abijc" (1 # 2) [(0%N, "ab"); (3%N, "acij"); (3%N, "bcij")];
   mkterm "" "ijkab" (-1 # 2) [(0%N, "ij"); (3%N, "abik"); (3%N, "abjk")]].

(** C76.  Diagrams A and B are both the second-order energy expression of the amplitudes, diagram C is the third-order expression
    (the ladders between the amplitudes and themselves), the Fock part is the expectation value of the Fock operator, the total is
    A + B + C, and the second route to diagram C, through the doubles residual, gives the same number. *)
Theorem C76_printed_UCCD : forall no nv f g t2,
  is_fock (no + nv) f -> is_tei (no + nv) g -> is_amp 2 no nv t2 ->
  let t i j a b := data t2 [a; b; i; j] in
  let A := E2 no nv g t in let C := E3 no nv g t t in
  printed_UCCD no nv g f t2 = Some
    [("energies A,B,C", A); ("", A); ("", C); ("fockpart:", E_fock no nv f t);
     ("total corr E", A + A + C); ("", A + A + C + Q2Qc (-111632556448611 # 100000000000000)); ("new diagram C energy:", C)].
Proof.
  intros no nv f g t2 Hf Hg H2 t A C.
  destruct (transp_amp no nv t2 H2) as [u [HU [SW AU]]].
  set (tab := [(0%N, ([6;6]%N, f)); (1%N, ([6;6;6;6]%N, g)); (3%N, ([1;1;0;0]%N, t2))] : atomtab).
  assert (OK : Forall (atom_ok (so_range no nv) sy) tab) by (unfold tab; oks).
  assert (NUM : forall fn args x E, returns 0 [] fn args E -> teq E (arr0 x) -> number fn args = Some x).
  { intros fn args x E H1 [T1 T2]. unfold number. rewrite (call0_returns _ _ _ H1). cbn [obind]. cbn [shape arr0] in T1. rewrite T1.
    f_equal. apply (T2 []). rewrite T1. constructor. }
  set (x2 := swp 3 2 [0;0;1;1]%N). set (y2 := at_ 3 [1;1;0;0]%N).
  assert (FA : so_vsim no nv tab (SP [] p_A) (VT (arr0 A))) by (unfold p_A, A, E2, t, tab; so_form).
  assert (FC : so_vsim no nv tab (SP [] p_C) (VT (arr0 C))).
  { unfold p_C, C, E3, t, tab. so_form. }
  assert (FF : so_vsim no nv tab (SP [] p_F) (VT (arr0 (E_fock no nv f t)))) by (unfold p_F, E_fock, t, tab; so_form).
  assert (VA : Forall2 (so_vsim no nv tab) [x2; xG; xo; xv] [VT u; VT g; o_ no; v_ no]) by (unfold x2; vsims).
  assert (VB : Forall2 (so_vsim no nv tab) [y2; xG; xo; xv] [VT t2; VT g; o_ no; v_ no]) by (unfold y2; vsims).
  assert (VC : Forall2 (so_vsim no nv tab) [x2; y2; xG; xo; xv] [VT u; VT t2; VT g; o_ no; v_ no]) by (unfold x2, y2; vsims).
  assert (VF : Forall2 (so_vsim no nv tab) [x2; y2; SFull 0 [0;0]%N; xo; xv] [VT u; VT t2; VT f; o_ no; v_ no]) by (unfold x2, y2; vsims).
  destruct (so_reads no nv tab 0 [] get_WnT2_energy_fn _ _ [] p_A _ OK VA FA) as [EA [HA TA]]; [chk_|].
  destruct (so_reads no nv tab 0 [] uccd_B _ _ [] p_A _ OK VB FA) as [EB [HB TB]]; [chk_|].
  destruct (so_reads no nv tab 0 [] uccd_C _ _ [] p_C _ OK VC FC) as [EC [HC TC]]; [chk_|].
  destruct (so_reads no nv tab 0 [] uccd_F _ _ [] p_F _ OK VF FF) as [EF [HF TF]]; [chk_|].
  so_nf OK 0%nat (@nil (string * fn)) lccd_source [0;0;1;1]%N VA U HU' VU.
  pose proof (so_asym_vs_ov no nv tab _ _ _ VU) as V4.
  so_nf OK 0%nat (@nil (string * fn)) Code_wicked_T3corr.antisym_T2 [0;0;1;1]%N V4 R HR VR.
  assert (VN : Forall2 (so_vsim no nv tab) [_; y2] [VT R; VT t2]) by (constructor; [exact VR|unfold y2; vsims]).
  destruct (so_reads no nv tab 0 [] uccd_N _ _ [] p_C _ OK VN FC) as [EN [HN TN]]; [chk_|].
  unfold printed_UCCD. cbv zeta. rewrite HU. cbn [obind].
  rewrite (NUM _ _ _ _ HA TA : number get_WnT2_energy_fn [VT u; VT g; VSl 0 (Some no); VSl no None] = _). cbn [obind].
  rewrite (NUM _ _ _ _ HB TB : number uccd_B [VT t2; VT g; VSl 0 (Some no); VSl no None] = _). cbn [obind].
  rewrite (NUM _ _ _ _ HC TC : number uccd_C [VT u; VT t2; VT g; VSl 0 (Some no); VSl no None] = _). cbn [obind].
  rewrite (NUM _ _ _ _ HF TF : number uccd_F [VT u; VT t2; VT f; VSl 0 (Some no); VSl no None] = _). cbn [obind].
  rewrite (call0_returns _ _ _ HU' : call0 lccd_source [VT u; VT g; VSl 0 (Some no); VSl no None] = Some U). cbn [obind].
  rewrite (call0_returns _ _ _ HR). cbn [obind]. rewrite (NUM _ _ _ _ HN TN). reflexivity.
Qed.
Print Assumptions C76_printed_UCCD.
Example C76_instance := C76_printed_UCCD 4 2 (i_fock 6) (i_tei 6) (i_amp 2 4 2) (i_fock_ok 6) (i_tei_ok 6) (i_amp_ok 2 4 2).
