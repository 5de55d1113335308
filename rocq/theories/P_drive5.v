(** C60: the "[T] correction" the third driver (test.py) prints. *)
From Coq Require Import String Ascii List Arith NArith ZArith QArith Qcanon Bool Lia Permutation.
From Coq Require Qcabs.
From Verif Require Import Sums Tensor Interp Numpy Poly SymExec Canon Spec SpecDriver Instances Setup Master Spin Check Tabs NF Formula Asym.
From Verif Require Import Diis Kernel Denoms P_denoms SlowCC P_slow P_flip P_ccsd P_triples Drive SpecDrive P_drive P_drive2 P_drive3.
From Verif Require Code_tamps Code_cc_energy.
Import ListNotations.
Open Scope string_scope.
Open Scope Qc_scope.

(** ** The [T] energy of triples t3 with T2 as the lambda amplitudes is 1/36 of the contraction of t3 with the approximate-triples numerator *)
Definition p_ET2 : poly := Eval vm_compute in
  [mkterm "" "ijklabc" (1 # 4) [(1%N, "lkcj"); (3%N, "baij"); (4%N, "cbailk")];
   mkterm "" "ijkabcd" (1 # 4) [(1%N, "kbcd"); (3%N, "baij"); (4%N, "cdaijk")]].
Definition p_dot3 : poly := Eval vm_compute in [mkterm "" "ijkabc" (1 # 36) [(8%N, "abcijk"); (4%N, "abcijk")]].
Definition dot3 : fn := mkFn ["N"; "t"] [] (EScale (1 # 36) (EEins "abcijk,abcijk->" [EVar "N"; EVar "t"])).
Definition numerator_dot (no nv : nat) (N t3 : tensor) : Qc :=
  Q2Qc (1 # 36) * (Sum i < no, Sum j < no, Sum k < no, Sum a < nv, Sum b < nv, Sum c < nv, data N [a;b;c;i;j;k] * data t3 [a;b;c;i;j;k]).
Ltac sums := repeat (apply suml_ext_in; let i := fresh "i" in let Hi := fresh "Hi" in intros i Hi; apply in_seq in Hi).
Lemma bracket_T no nv g t2 T2 N t3 : is_tei (no + nv) g -> is_amp 2 no nv t2 -> swapped 2 t2 T2 -> antisymmetrised 3 (W_T2 no nv g t2) N -> is_amp 3 no nv t3 ->
  E_T no nv g T2 t3 = numerator_dot no nv N t3.
Proof.
  intros Hg H2 SW AN H3.
  set (E2 := Q2Qc (1 # 4) * (Sum i < no, Sum j < no, Sum k < no, Sum l < no, Sum a < nv, Sum b < nv, Sum c < nv,
     data g [l;k;no+c;j]%nat * data t2 [b;a;i;j] * data t3 [c;b;a;i;l;k]) +
    Q2Qc (1 # 4) * (Sum i < no, Sum j < no, Sum k < no, Sum a < nv, Sum b < nv, Sum c < nv, Sum d < nv,
     data g [k;no+b;no+c;no+d]%nat * data t2 [b;a;i;j] * data t3 [c;d;a;i;j;k])).
  assert (X : E_T no nv g T2 t3 = E2).
  { assert (Z : forall a b i j, (a < nv)%nat -> (b < nv)%nat -> (i < no)%nat -> (j < no)%nat -> data T2 [i;j;b;a] = data t2 [b;a;i;j]).
    { intros a b i j Ha Hb Hi Hj. apply (proj2 SW [b;a] [i;j] eq_refl). rewrite (proj1 H2). repeat constructor; assumption. }
    unfold E_T, E2. f_equal; f_equal; sums; rewrite Z by lia; reflexivity. }
  rewrite X.
  set (tab := [(1%N, ([6;6;6;6]%N, g)); (3%N, ([1;1;0;0]%N, t2)); (4%N, ([1;1;1;0;0;0]%N, t3))] : atomtab).
  assert (OK : Forall (atom_ok (so_range no nv) sy) tab) by (unfold tab; oks).
  assert (VE : so_vsim no nv tab (SP [] p_ET2) (VT (arr0 E2))) by (unfold p_ET2, E2, tab; so_form).
  assert (VW : so_vsim no nv tab (SP (vo_ 3) p_WT2) (VT (W_T2 no nv g t2))).
  { unfold vo_, p_WT2, W_T2, tab. cbn [repeat app]. so_form. }
  so_asym OK Code_tamps.antisym_T3 asym3 3%nat VW M3 AT ANT V3.
  assert (EQ : forall a b c i j k, (a < nv)%nat -> (b < nv)%nat -> (c < nv)%nat -> (i < no)%nat -> (j < no)%nat -> (k < no)%nat ->
    data N [a;b;c;i;j;k] = data M3 [a;b;c;i;j;k]).
  { intros a b c i j k Ha Hb Hc Hi Hj Hk. assert (I : inr [a;b;c;i;j;k] (shape (W_T2 no nv g t2))) by (repeat constructor; assumption).
    pose proof (proj2 AN [a;b;c] [i;j;k] eq_refl I) as Q1. pose proof (proj2 AT [a;b;c] [i;j;k] eq_refl I) as Q2. cbn [app] in Q1, Q2. rewrite Q1, Q2. reflexivity. }
  destruct (so_reads no nv tab 0 [] dot3 [SP (vo_ 3) _; at_ 4 [1;1;1;0;0;0]%N] [VT M3; VT t3] [] p_ET2 _ OK
    ltac:(constructor; [exact V3|]; constructor; [apply so_atom; [reflexivity|rewrite (proj1 H3); symmetry; apply (sh_vo no nv 3)]|constructor]) VE) as [E [R1 B1]]; [chk_|].
  set (tab' := [(8%N, ([1;1;1;0;0;0]%N, M3)); (4%N, ([1;1;1;0;0;0]%N, t3))] : atomtab).
  assert (SM : shape M3 = map (dim (so_range no nv)) [1;1;1;0;0;0]%N) by (rewrite (proj1 AT); symmetry; apply (sh_vo no nv 3)).
  assert (OK' : Forall (atom_ok (so_range no nv) sy) tab') by (unfold tab'; oks; apply atom_ok_gen; [reflexivity|exact SM]).
  assert (VD : so_vsim no nv tab' (SP [] p_dot3) (VT (arr0 (numerator_dot no nv M3 t3)))) by (unfold p_dot3, numerator_dot, tab'; so_form).
  destruct (so_reads no nv tab' 0 [] dot3 [at_ 8 [1;1;1;0;0;0]%N; at_ 4 [1;1;1;0;0;0]%N] [VT M3; VT t3] [] p_dot3 _ OK'
    ltac:(constructor; [apply so_atom; [reflexivity|exact SM]|]; constructor; [apply so_atom; [reflexivity|rewrite (proj1 H3); symmetry; apply (sh_vo no nv 3)]|constructor]) VD)
    as [E' [R2 B2]]; [chk_|].
  pose proof (returns_eq _ _ _ _ _ _ R1 R2) as <-.
  apply so_scalar in B1, B2. destruct B1 as [_ B1], B2 as [_ B2]. rewrite <- B1, B2. unfold numerator_dot. f_equal. sums. rewrite EQ by lia. reflexivity.
Qed.

(** A "(qf)" run that returns prints the numbers of C54 for its final amplitudes. *)
Lemma finished_qf no nv x j r : prepared no nv (j_label j) x -> contains "D" (j_label j) = true -> match j_t2file j with Some t => is_amp_ov 2 no nv t | None => True end ->
  contains "(qf)" (j_label j) = true -> drive_from x j = Some r ->
  amplitudes no nv (j_label j) (r_tamps r) /\
  exists D2 a b c e110 e116 e, slook "D2aa" (x_den x) = Some D2 /\ qf_inputs no nv (x_g x) D2 (energies_of x) (r_tamps r) a b c e110 e116 e /\
    r_printed r = qf_printout a b c e110 e116 e.
Proof.
  intros P HD HF HQ HR. destruct (C54_drive_run no nv x (j_label j) (j_t2file j) P HD HF) as [A [_ [_ [HA [_ H]]]]]. specialize (H j eq_refl eq_refl).
  set (E := fun n => cc_energy no nv (x_f x) (x_g x) (A n)) in *. destruct H as [H1 H2].
  destruct (first_settled (j_eps j) E (j_max_iter j)) as [[n [Hn [S1 S2]]]|N]; [|rewrite (H2 N) in HR; discriminate].
  destruct (H1 n Hn S1 S2) as [_ [K2 _]]. destruct (K2 HQ) as [D2 [a [b [c [e110 [e116 [e [K3 [K4 K]]]]]]]]]. rewrite K in HR. injection HR as <-.
  split; [exact (HA _)|]. exists D2, a, b, c, e110, e116, e. auto.
Qed.

Lemma unswap no nv k Tw : is_amp_ov k no nv Tw -> exists T, swapped k T Tw /\ is_amp k no nv T.
Proof.
  intros H. pose proof (proj1 H) as S1.
  assert (S2 : skipn k (shape Tw) = repeat nv k /\ firstn k (shape Tw) = repeat no k).
  { rewrite S1. apply and_comm, Instances.fs_app, repeat_length. }
  assert (SW : swapped k (swap_t k Tw) Tw).
  { destruct S2 as [Q1 Q2]. split.
    - cbn [shape swap_t]. rewrite Q1, Q2, S1. destruct (Instances.fs_app k (repeat nv k) (repeat no k) (repeat_length _ _)) as [-> ->]. reflexivity.
    - intros l1 l2 HL I. cbn [data shape swap_t] in *. rewrite Q1, Q2 in I. apply Forall2_len in I. rewrite !app_length, !repeat_length in I.
      rewrite app_length, HL. replace (k + length l2 - k)%nat with (length l1) by lia. destruct (Instances.fs_app (length l1) l1 l2 eq_refl) as [-> ->]. reflexivity. }
  exists (swap_t k Tw). split; [exact SW|]. exact (swapped_amp _ _ _ _ _ SW H).
Qed.

(** C60.  What a run of CCD(qf) or CCSD(qf) prints as "[T] correction to CCSD:" is the [T] energy of its final doubles: the triples are the antisymmetrised
    <||> T2 over the orbital-energy differences, T2 plays the part of the lambda amplitudes, and 1/9 is written as 0.111111111. *)
Theorem C60_bracket_T : forall no nv x j r, prepared no nv (j_label j) x -> contains "D" (j_label j) = true -> contains "T" (j_label j) = false ->
  contains "(qf)" (j_label j) = true -> match j_t2file j with Some t => is_amp_ov 2 no nv t | None => True end -> all_gaps no nv (energies_of x) ->
  drive_from x j = Some r ->
  exists T2 t2 N T3, slook "t2aa" (r_tamps r) = Some T2 /\ swapped 2 t2 T2 /\ is_amp 2 no nv t2 /\ antisymmetrised 3 (W_T2 no nv (x_g x) t2) N /\
    is_amp 3 no nv T3 /\
    (let e := energies_of x in
     forall a b c i j k, (a < nv)%nat -> (b < nv)%nat -> (c < nv)%nat -> (i < no)%nat -> (j < no)%nat -> (k < no)%nat ->
       data T3 [a;b;c;i;j;k] * (e i + e j + e k - e (no + a)%nat - e (no + b)%nat - e (no + c)%nat) = data N [a;b;c;i;j;k]) /\
    slook "[T] correction to CCSD:" (r_printed r) = Some (Q2Qc (999999999 # 1000000000) * E_T no nv (x_g x) T2 T3).
Proof.
  intros no nv x j r P HD HT HQ HF HG HR. destruct (finished_qf no nv x j r P HD HF HQ HR) as [AM [D2 [a [b [c [e110 [e116 [e [_ [K K']]]]]]]]]].
  destruct K as [T2 [T3 [E2 [H3 [AP [_ [EB _]]]]]]]. destruct AM as [_ [A2 [A3 _]]]. unfold holds_amp in A2, A3. rewrite HT in A3. rewrite A3 in AP.
  rewrite HD in A2. destruct A2 as [T2' [E2' H2]]. assert (T2' = T2) by congruence. subst T2'. clear E2'.
  pose proof (Pg no nv _ x P) as Hg. set (g := x_g x) in *. set (en := energies_of x) in *.
  destruct (unswap no nv 2 T2 H2) as [t2 [SW Ht2]].
  destruct (AP t2 SW) as [N [AN SN]].
  assert (HN : is_amp 3 no nv N) by exact (swapped_amp _ _ _ _ _ SN H3).
  set (D := mkT (repeat nv 3 ++ repeat no 3)%list (fun l => / gap no en (firstn 3 l) (skipn 3 l))).
  assert (KD : is_denominator 3 no nv en D).
  { split; [reflexivity|]. intros virt occ LV I. cbn [data D]. rewrite <- LV, firstn_app, skipn_app, firstn_all, skipn_all, Nat.sub_diag. cbn [firstn skipn app]. rewrite app_nil_r. reflexivity. }
  destruct (amp_times_sym no nv 3 N D HN (den_sym no nv 3 en D KD)) as [t3 [ET H3']].
  assert (V3 : forall a b c i j k, data t3 [a;b;c;i;j;k] = data N [a;b;c;i;j;k] * / gap no en [a;b;c] [i;j;k]).
  { intros. apply tbin_inv in ET. destruct ET as [_ ->]. reflexivity. }
  exists T2, t2, N, t3. split; [exact E2|]. split; [exact SW|]. split; [exact Ht2|]. split; [exact AN|]. split; [exact H3'|]. split.
  - intros e0 a0 b0 c0 i j0 k Ha Hb Hc Hi Hj Hk. rewrite V3.
    assert (GN : gap no en [a0;b0;c0] [i;j0;k] <> 0).
    { apply (HG 3%nat ltac:(lia)); try reflexivity; cbn [In]; intros y Hy; repeat destruct Hy as [Hy|Hy]; try contradiction; subst; assumption. }
    replace (e0 i + e0 j0 + e0 k - e0 (no + a0)%nat - e0 (no + b0)%nat - e0 (no + c0)%nat) with (gap no en [a0;b0;c0] [i;j0;k]) by (unfold gap, e0; cbn [suml]; ring).
    field. exact GN.
  - rewrite K'. cbn [qf_printout slook String.eqb Ascii.eqb Bool.eqb]. f_equal. rewrite EB, (bracket_T no nv g t2 T2 N t3 Hg Ht2 SW AN H3'). unfold numerator_dot.
    rewrite Qcmult_assoc. f_equal.
    + apply Qc_is_canon. vm_compute. reflexivity.
    + sums. rewrite V3. pose proof (proj2 SN [i2;i3;i4] [i;i0;i1] eq_refl) as Z. rewrite (proj1 HN) in Z. specialize (Z ltac:(repeat constructor; lia)). cbn [app] in Z. rewrite Z. ring.
Qed.
Print Assumptions C60_bracket_T.

(** ** Three occupied and three virtual spin orbitals: triples exist *)
Lemma low_high no nv eps : (forall i, (i < no)%nat -> eps i <= 1) -> (forall a, (a < nv)%nat -> Q2Qc (4 # 1) <= eps (no + a)%nat) -> all_gaps no nv eps.
Proof.
  intros HL HH k Hk virt occ LV LO HV HO.
  assert (A : suml occ eps <= Q2Qc (Z.of_nat (length occ) # 1)).
  { clear LO. induction occ as [|i occ IH]; [vm_compute; discriminate|]. cbn [suml length].
    specialize (IH (fun i Hi => HO i (or_intror Hi))). pose proof (HL i (HO i (or_introl eq_refl))) as B.
    apply Qcle_trans with (1 + Q2Qc (Z.of_nat (length occ) # 1)); [apply Qcplus_le_compat; assumption|].
    change 1 with (Q2Qc (1 # 1)). rewrite z_plus. apply z_le. lia. }
  assert (B : Q2Qc (4 * Z.of_nat (length virt) # 1) <= suml virt (fun a => eps (no + a)%nat)).
  { clear LV. induction virt as [|i virt IH]; [vm_compute; discriminate|]. cbn [suml length].
    specialize (IH (fun i Hi => HV i (or_intror Hi))). pose proof (HH i (HV i (or_introl eq_refl))) as B.
    apply Qcle_trans with (Q2Qc (4 # 1) + Q2Qc (4 * Z.of_nat (length virt) # 1)); [|apply Qcplus_le_compat; assumption].
    rewrite z_plus. apply z_le. lia. }
  intros G. unfold gap in G. rewrite LO in A. rewrite LV in B.
  assert (C : suml occ eps = suml virt (fun a => eps (no + a)%nat)).
  { match goal with |- ?a = ?b => transitivity ((a - b) + b); [ring|] end. rewrite G. ring. }
  rewrite <- C in B. pose proof (Qcle_trans _ _ _ B A) as X. pose proof (proj1 (z_le _ _) X). lia.
Qed.
Definition t_energies : list Qc := [- (1); 0; 1; Q2Qc (4 # 1); Q2Qc (5 # 1); Q2Qc (7 # 1)].
Definition t_setup (label : string) : setup :=
  mkSetup 3 3 3 (i_fock 6) (i_tei 6) t_energies (match drive_denoms label t_energies 3 with Some d => d | None => [] end) (Q2Qc (-5 # 1)) (Q2Qc (2 # 1)).
Example t_prepared label : prepared 3 3 label (t_setup label).
Proof.
  repeat (split; [reflexivity || apply i_fock_ok || apply i_tei_ok|]). cbn [x_e x_den t_setup].
  destruct (denoms_total label t_energies 3 3 eq_refl) as [d ->]. reflexivity.
Qed.
Example t_gaps label : all_gaps 3 3 (energies_of (t_setup label)).
Proof. apply low_high; intros i Hi; do 3 (destruct i as [|i]; [vm_compute; discriminate|]); lia. Qed.
Example C60_run := some_threshold 3 3 (t_setup "CCSD(qf)") "CCSD(qf)" None 20 0 (Some (6%nat, None)) (t_prepared _) eq_refl I (fun _ => eq_refl) ltac:(lia).
Definition t_job (thr : Qc) : job := mkJob "CCSD(qf)" 20 thr 0 (Some (6%nat, None)) None.
Example C60_instance thr r := C60_bracket_T 3 3 (t_setup "CCSD(qf)") (t_job thr) r (t_prepared _) eq_refl eq_refl eq_refl I (t_gaps _).
(** the numerator of these integrals and of the doubles the run starts from does not vanish *)
Definition t_guess : tensor := arr4 3 3 3 3 (fun a b i j => data (i_tei 6) [i; j; 3 + a; 3 + b]%nat * / gap 3 (fun p => nth p t_energies 0) [a; b] [i; j]).
Example C60_numerator : forall N, antisymmetrised 3 (W_T2 3 3 (i_tei 6) t_guess) N -> data N [0;1;2;0;1;2]%nat <> 0.
Proof.
  intros N [_ A]. specialize (A [0;1;2]%nat [0;1;2]%nat eq_refl ltac:(repeat constructor)). cbn [app] in A. rewrite A. intros X.
  apply (f_equal (fun q : Qc => Qeq_bool q 0)) in X. vm_compute in X. discriminate.
Qed.
