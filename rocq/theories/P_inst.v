(** Concrete cases that meet the hypotheses of C39, C44, C45 and C64. *)
From Coq Require Import String Ascii List Arith NArith ZArith QArith Qcanon Bool Lia.
From Verif Require Import Sums Tensor Interp Spec SpecDriver Instances Setup Spin Diis Kernel SlowCC P_kernel P_driver P_ccsd P_ccd P_slow P_slow2 P_slow3 Legacy SOMain P_legacy P_spinrun2 P_somain.
From Coq Require Import List.
Import ListNotations.
Open Scope string_scope.
Open Scope list_scope.

Definition isS {A} (x : option A) : bool := match x with Some _ => true | None => false end.
Lemma isS_ex {A} (x : option A) : isS x = true -> exists y, x = Some y. Proof. destruct x; [eauto|discriminate]. Qed.

(** C39: a CCD calculation on 2 occupied and 2 virtual orbitals does start, so its first guess and energy are the ones stated. *)
Example C39_first_guess_instance : exists s0 e0,
  start disk (slow_energy 2 2 (i_fock 4) (i_tei 4) (i_den 2 2 2) (i_calc "CCD" None)) (mp_guess 2 (i_tei 4) (i_den 2 2 2)) (i_calc "CCD" None)
    (slow_init 2 2 (i_calc "CCD" None)) (slow_old 2 2 (i_calc "CCD" None)) None = Some (s0, e0) /\
  e0 = (E_ref 2 (i_fock 4) (i_tei 4) + E_mp2 2 2 (i_tei 4) i_eps)%Qc.
Proof.
  destruct (isS_ex (start disk (slow_energy 2 2 (i_fock 4) (i_tei 4) (i_den 2 2 2) (i_calc "CCD" None)) (mp_guess 2 (i_tei 4) (i_den 2 2 2)) (i_calc "CCD" None)
    (slow_init 2 2 (i_calc "CCD" None)) (slow_old 2 2 (i_calc "CCD" None)) None)) as [[s0 e0] E]; [lazy; reflexivity|].
  exists s0, e0. split; [exact E|].
  exact (proj1 (C39_first_guess 2 2 (i_fock 4) (i_tei 4) (i_den 2 2 2) i_eps (i_calc "CCD" None) None s0 e0 (i_fock_ok 4) (i_tei_ok 4) (i_den_ok 2 2 2) eq_refl eq_refl eq_refl E)).
Qed.
(** C44: the inputs of [C22_instance], whose pCCD calculation returns, never return under the label CCD(Qf). *)
Example C44_instance d tf co := C44_slow_qf_never_returns_refuted 2 2 (i_fock 4) (i_tei 4) (i_den 1 2 2) (i_den 2 2 2) (i_den 3 2 2) (i_calc "CCD(Qf)" None) (fun _ _ _ => None) None d tf co
  eq_refl (or_introl eq_refl).
(** C45: an XCCD(7) calculation, which reads the file, with no file and with one of the wrong content. *)
Example C45_instance := C45_result_independent_of_old_file 2 2 (i_fock 4) (i_tei 4) (i_den 1 2 2) (i_den 2 2 2) (i_den 3 2 2) (i_calc "XCCD(7)" None) (fun _ _ _ => None)
  None (Some (tzeros [1; 2; 3]%nat)).

(** C64 on 2 occupied and 2 virtual orbitals of each spin *)
Local Notation F22 := (s_fock S22 2 2).
Local Notation G22 := (s_tei S22 2 2).
Local Notation fa := (blk_full S22 2 2 [Up; Up] F22).
Local Notation fb := (blk_full S22 2 2 [Dn; Dn] F22).
Local Notation ga := (blk_full S22 2 2 [Up; Up; Up; Up] G22).
Local Notation gb := (blk_full S22 2 2 [Dn; Dn; Dn; Dn] G22).
Local Notation gx := (blk_full S22 2 2 [Up; Dn; Up; Dn] G22).
Local Notation da := (i_sden [Up; Up] 2 2 i_se).
Local Notation db := (i_sden [Dn; Dn] 2 2 i_se).
Local Notation dx := (i_sden [Up; Dn] 2 2 i_se).
Example C64_legacy_iterates_instance : exists s E T2,
  lafter 2 2 2 2 fa fb ga gb gx da db dx (Some 5%nat) 1 "CCD" (fun _ _ _ => None) (fun _ => None) 1 = Some (s, E) /\
  spin_amp S22 2 2 2 T2 /\ blocks2 S22 2 2 T2 (A_aa (lamps s)) (A_bb (lamps s)) (A_ab (lamps s)) /\
  E = Fock.bra0 4 4 (Fock.cc_state 2 4 4 F22 G22 (Fock.T2op 4 4 T2)).
Proof.
  destruct (isS_ex (lafter 2 2 2 2 fa fb ga gb gx da db dx (Some 5%nat) 1 "CCD" (fun _ _ _ => None) (fun _ => None) 1)) as [[s E] H]; [lazy; reflexivity|].
  destruct (C64_legacy_iterates 2 2 S22 _ _ _ _ _ _ _ _ _ _ i_se S22_ok (s_ham_ok S22 2 2) (i_sden_ok _ 2 2 _) (i_sden_ok _ 2 2 _) (i_sden_ok _ 2 2 _)
    (Some 5%nat) 1%nat "CCD" (fun _ _ _ => None) (fun _ => None) 1%nat s E ltac:(discriminate) H) as [T2 [X1 [X2 X3]]].
  exists s, E, T2. split; [exact H|]. split; [exact X1|]. split; [exact X2|]. exact (X3 2%nat (Nat.le_refl 2)).
Qed.
Example C64_copies_agree_instance : l_test (l_run "CCD(Qf)" None) = true /\
  so_kernel 1 1 1 1 l_f l_f (tzeros [2; 2; 2; 2]%nat) (tzeros [2; 2; 2; 2]%nat) l_g l_D l_D l_D (Q2Qc (3 # 1)) None 1 "CCD(Qf)" (fun _ _ _ => None) (fun n => Some n) = l_run "CCD(Qf)" None.
Proof. split; [apply C31_instance|]. apply C64_copies_agree. discriminate. Qed.
Local Notation t22 := (mkA (blk_amp S22 2 2 [Up; Up] (s_amp S22 2 2 2)) (blk_amp S22 2 2 [Dn; Dn] (s_amp S22 2 2 2)) (blk_amp S22 2 2 [Up; Dn] (s_amp S22 2 2 2))).
Example C64_fixed_point_instance : exists n, so_new 2 2 2 fa fb ga gb gx da db dx "CCD" t22 t22 = Some n /\
  ((teq (A_aa n) (A_aa t22) /\ teq (A_bb n) (A_bb t22) /\ teq (A_ab n) (A_ab t22)) <->
   (forall a b i j, (a < 4)%nat -> (b < 4)%nat -> (i < 4)%nat -> (j < 4)%nat -> Fock.bra2 4 4 a b i j (Fock.cc_state 2 4 4 F22 G22 (Fock.T2op 4 4 (s_amp S22 2 2 2))) = 0%Qc)).
Proof.
  destruct (isS_ex (so_new 2 2 2 fa fb ga gb gx da db dx "CCD" t22 t22)) as [n H]; [lazy; reflexivity|].
  exists n. split; [exact H|].
  exact (C64_fixed_point 2 2 S22 _ _ _ _ _ _ _ _ _ _ i_se S22_ok (s_ham_ok S22 2 2) (i_sden_ok _ 2 2 _) (i_sden_ok _ 2 2 _) (i_sden_ok _ 2 2 _)
    "CCD" (s_amp S22 2 2 2) t22 t22 n 2%nat ltac:(discriminate) ltac:(discriminate) ltac:(discriminate) (i_se_gapped [Up; Up] eq_refl) (i_se_gapped [Dn; Dn] eq_refl) (i_se_gapped [Up; Dn] eq_refl)
    (s_amp_ok S22 2 2 2) (blocks2_ok S22 2 2 _) (Nat.le_refl 2) H).
Qed.
(** C01: the second iterate of XCCD(9) *)
Example C01_iterate_instance : exists s0 e0 s e t2,
  start disk (slow_energy 2 2 (i_fock 4) (i_tei 4) (i_den 2 2 2) (i_calc "XCCD(9)" None)) (mp_guess 2 (i_tei 4) (i_den 2 2 2)) (i_calc "XCCD(9)" None)
    (slow_init 2 2 (i_calc "XCCD(9)" None)) (slow_old 2 2 (i_calc "XCCD(9)" None)) None = Some (s0, e0) /\
  after disk (fun _ _ _ => None) (slow_resid 2 2 (i_fock 4) (i_tei 4) (i_den 1 2 2) (i_den 2 2 2) (i_den 3 2 2) (i_calc "XCCD(9)" None))
    (slow_energy 2 2 (i_fock 4) (i_tei 4) (i_den 2 2 2) (i_calc "XCCD(9)" None)) (i_calc "XCCD(9)" None) s0 e0 2 = Some (s, e) /\
  slook "t2aa" (amps disk s) = Some t2 /\ is_amp 2 2 2 t2.
Proof.
  destruct C01_instance_xccd9 as [s0 [e0 [E0 X]]]. destruct (X 2%nat) as [s [e E1]].
  destruct (C01_every_iterate_antisymmetric 2 2 (i_fock 4) (i_tei 4) (i_den 1 2 2) (i_den 2 2 2) (i_den 3 2 2) i_eps (i_calc "XCCD(9)" None) (fun _ _ _ => None) None s0 e0 2 s e
    (i_fock_ok 4) (i_tei_ok 4) (i_den_ok 2 2 2) eq_refl eq_refl E0 E1) as [t2 [T1 T2]].
  exists s0, e0, s, e, t2. auto.
Qed.
Lemma GA : gapped 2 2 2 i_eps.
Proof.
  intros virt occ LV LO HV HO. destruct virt as [|a [|b [|]]]; try discriminate. destruct occ as [|i [|j [|]]]; try discriminate.
    assert (Ha : (a < 2)%nat) by (apply HV; cbn; auto). assert (Hb : (b < 2)%nat) by (apply HV; cbn; auto).
    assert (Hi : (i < 2)%nat) by (apply HO; cbn; auto). assert (Hj : (j < 2)%nat) by (apply HO; cbn; auto).
    (destruct a as [|[|]]; [| |lia]); (destruct b as [|[|]]; [| |lia]); (destruct i as [|[|]]; [| |lia]); (destruct j as [|[|]]; [| |lia]); vm_compute; discriminate.
Qed.
(** C26: XCCD(6) *)
Example C26_fixed_point_instance : exists d' w' R t2', t2resid_slow 2 2 (i_fock 4) (i_tei 4) (i_den 2 2 2) (i_calc "XCCD(6)" None) [("t2aa", i_amp 2 2 2)] None = Some (d', w') /\
  method_residual 2 2 (i_fock 4) (i_tei 4) "XCCD(6)" (i_amp 2 2 2) R /\ slook "t2aa" d' = Some t2' /\ (teq t2' (i_amp 2 2 2) <-> zero_tensor R).
Proof.
  destruct C26_instance as [d' [w' H]].
  destruct (C26_fixed_point 2 2 (i_fock 4) (i_tei 4) (i_den 2 2 2) i_eps (i_calc "XCCD(6)" None) [("t2aa", i_amp 2 2 2)] None (i_amp 2 2 2) d' w'
    (i_fock_ok 4) (i_tei_ok 4) (i_den_ok 2 2 2) GA eq_refl (i_amp_ok 2 2 2) ltac:(discriminate) H) as [R [t2' [X1 [X2 X3]]]].
  exists d', w', R, t2'. auto.
Qed.
