(** C66, orders 8 and 9 of the XCCD(n) methods. *)
From Coq Require Import String Ascii List Arith NArith ZArith QArith Qcanon Bool Lia Permutation.
From Verif Require Import Sums Tensor Interp Numpy Poly SymExec Canon Spec Instances Setup Master Spin Check Tabs NF Antisym Formula Unround Fock Wick CCState P_fock Dress Commut NOrd Proj Elem P_antisym Asym P_fock2 P_fock3 P_qf P_fock4 Bound.
From Verif Require Import Diis Kernel SlowCC Cut P_xcc SpecDriver P_ccsd P_slow P_slow3 P_xcc2 BoundedInst OpMerge P_xcc3 P_xcc4.
From Verif Require Code_XCCDbasebuilder Code_antisym_t4resids.
Import ListNotations.
Open Scope string_scope.
Open Scope Qc_scope.

Section Builder.
  Variables no nv : nat.
  Variables f g t2 t4 p : tensor.
  Hypothesis Hf : is_fock (no + nv) f.
  Hypothesis Hg : is_tei (no + nv) g.
  Hypothesis H2 : is_amp 2 no nv t2.
  Hypothesis H4 : is_amp 4 no nv t4.
  Hypothesis Hp : swapped 4 t4 p.
  Notation range := (so_range no nv).
  Notation tab := (tab3 f g t2 t4).
  Lemma x3_ket lib fn n a pk X ys : slook "antisym.antisym_t4_residual" lib = Some Code_antisym_t4resids.antisym_t4_residual ->
    nth_error (fbody fn) n = Some (SAssign "t4" (ECall "antisym.antisym_t4_residual" [EVar a; EVar "nocc"; EVar "nvir"])) ->
    x3_pre_ok lib fn n a pk = true -> (forall e, Dress.eqN (no + nv) (X (Phi no nv)) (osem no nv (A' (Aof range tab)) e ys (Phi no nv))) -> ctsum_ok 4 ys = true ->
    forallb (closed_term (xi 4 ++ xa 4)) (ctsum 4 ys) = true ->
    proj_ok 4 51 (x3_poly lib fn n a pk) = true -> proj_ok 4 51 (ctsum 4 ys) = true ->
    so_chk [] (Some (SP [] (dotp 4 51 (x3_poly lib fn n a pk)))) (Some (SP [] (dotp 4 51 (ctsum 4 ys)))) ->
    exists T, teq T (elem4_ov no nv (X (Phi no nv))) /\
      forall r, x3_post lib fn n pk = Some r -> exists R, run 1 lib fn (xcc_vals no nv g t2 p pk) = Some R /\ so_vsim no nv (tab3T f g t2 t4 T) r R.
  Proof using All.
    intros HL Hn HP HX CO CL P1 P2 CK. destruct (x3_cut no nv f g t2 t4 p Hg H2 H4 Hp lib fn n a pk HL Hn HP) as [U [T [VU [AU [ST HR]]]]]. exists T. split; [|exact HR].
    set (S := elem4_ov no nv (X (Phi no nv))).
    assert (AS : antisymmetrised 4 (carr no nv 4 tab (ctsum 4 ys)) S).
    { apply (elem_antis no nv 4 tab eq_refl tpl4 ys (X (Phi no nv)) S eq_refl (ent4 no nv _)); [|exact CO|exact CL].
      intros e. apply (eqN_act no (no + nv) _ _ _ (HX e)). apply ref_len. }
    exact (so_proj no nv 4 eq_refl 51%N tab _ (ctsum 4 ys) U _ T S ltac:(lia) eq_refl (tab3_ok no nv f g t2 t4 Hf Hg H2 H4) VU (carr_vsim no nv 4 eq_refl tab _ CL) AU AS P1 P2 CK).
  Qed.
  Lemma order8 : exists R, returns 1 xcc_lib Code_XCCDbasebuilder.build_XCCDbase_8 (xcc_vals no nv g t2 p false) R /\
    teq R (LT4 no nv (1 # 24) t2 (elem4_ov no nv (omul (T2adj no nv t2) (H4op no nv f g t2) (Phi no nv)))).
  Proof using All.
    destruct (x3_ket xcc_lib Code_XCCDbasebuilder.build_XCCDbase_8 13 "t4" false (omul (T2adj no nv t2) (H4op no nv f g t2)) ys8) as [T [ET HR]].
    - reflexivity.
    - reflexivity.
    - vm_true.
    - exact (lket8 no nv f g t2 t4 Hf Hg H2 H4).
    - vm_true.
    - vm_true.
    - vm_true.
    - vm_true.
    - chk_.
    - eapply (proj_of no nv f g t2 Hf Hg H2 _ _ _ _ t4 p (1 # 24) _ T _ H4 ET HR); [vm_compute; reflexivity|chk_].
  Qed.
  Lemma order9 : exists R, returns 1 xlib7 Code_XCCDbasebuilder.build_XCCDbase_9 (xcc_vals no nv g t2 p true) R /\
    teq R (LT4 no nv (1 # 24) t2 (elem4_ov no nv (omul (T2adj no nv t2) (W9op no nv t2 t4) (Phi no nv)))).
  Proof using All.
    destruct (x3_ket xlib7 Code_XCCDbasebuilder.build_XCCDbase_9 15 "Roooovvvv" true (omul (T2adj no nv t2) (W9op no nv t2 t4)) ys9) as [T [ET HR]].
    - vm_compute. reflexivity.
    - reflexivity.
    - vm_true.
    - exact (lket9 no nv f g t2 t4 Hf Hg H2 H4).
    - vm_true.
    - vm_true.
    - vm_true.
    - vm_true.
    - chk_.
    - eapply (proj_of no nv f g t2 Hf Hg H2 _ _ _ _ t4 p (1 # 24) _ T _ H4 ET HR); [vm_compute; reflexivity|chk_].
  Qed.
End Builder.

(** C66, order 8.  B_8, as coded, is 1/6 of the projection of L2 L2 D |Phi>, with D = 1/24 [[[[H,T2],T2],T2],T2]. *)
Theorem C66_xccd_order_8 : forall no nv f g t2,
  is_fock (no + nv) f -> is_tei (no + nv) g -> is_amp 2 no nv t2 ->
  let H := Ham no nv f g in
  let T2 := T2op no nv t2 in
  let L2 := T2adj no nv t2 in
  let D := oscale (1 # 24) (comm (comm (comm (comm H T2) T2) T2) T2) in
  exists B8, (forall w, xcc_base no nv g 8 t2 w = Some (B8, w)) /\
    teq B8 (elem2 no nv (oscale (1 # 6) (omul L2 (omul L2 D)) (Phi no nv))).
Proof.
  intros no nv f g t2 Hf Hg H2 H T2 L2 D.
  destruct (order8 no nv f g t2 (z4 no nv) (swap_t 4 (z4 no nv)) Hf Hg H2 (z4_ok no nv) (swap_t_ok 4 _)) as [B8 [R8 E8]].
  exists B8. split.
  - intros w. unfold xcc_base, call1. change [VT t2; VNone; contract_info no nv g] with (xcc_vals no nv g t2 (swap_t 4 (z4 no nv)) false). rewrite R8. reflexivity.
  - eapply teq_tr; [exact E8|]. apply LT4_elem. apply Qc_is_canon. reflexivity.
Qed.
Print Assumptions C66_xccd_order_8.
Example C66_xccd_order_8_instance := C66_xccd_order_8 4 4 _ _ _ (i_fock_ok 8) (i_tei_ok 8) (i_amp_ok 2 4 4).

(** C66, order 9.  Reading the nine-digit coefficients as the fractions they abbreviate, B_9 is 1/6 of the projection of L2 L2 W |Phi>, with
    W = 1/2 [[[L2,T2],T2],Q4] + 1/2 [[L2,Q4],Q4] and Q4 the cluster operator whose amplitudes are the array stored in the file. *)
Theorem C66_xccd_order_9 : forall no nv g t2 t4 p,
  is_tei (no + nv) g -> is_amp 2 no nv t2 -> is_amp 4 no nv t4 -> swapped 4 t4 p ->
  let T2 := T2op no nv t2 in
  let L2 := T2adj no nv t2 in
  let Q4 := T4op no nv t4 in
  let W := oplus (oscale (1 # 2) (comm (comm (comm L2 T2) T2) Q4)) (oscale (1 # 2) (comm (comm L2 Q4) Q4)) in
  exists B9, returns 1 (map (fun d => (fst d, unround_fn (snd d))) xcc_lib) Code_XCCDbasebuilder.build_XCCDbase_9
      [VT t2; VNone; contract_info no nv g; VT p] B9 /\
    teq B9 (elem2 no nv (oscale (1 # 6) (omul L2 (omul L2 W)) (Phi no nv))).
Proof.
  intros no nv g t2 t4 p Hg H2 H4 Hp T2 L2 Q4 W.
  destruct (order9 no nv (fock0 (no + nv)) g t2 t4 p (fock0_ok _) Hg H2 H4 Hp) as [B9 [R9 E9]].
  exists B9. split; [exact R9|]. eapply teq_tr; [exact E9|]. apply LT4_elem. apply Qc_is_canon. reflexivity.
Qed.
Print Assumptions C66_xccd_order_9.
Example C66_xccd_order_9_instance := C66_xccd_order_9 4 4 _ _ _ _ (i_tei_ok 8) (i_amp_ok 2 4 4) (i_amp_ok 4 4 4) (swap_t_ok 4 _).

(** C66, order 9 as coded. *)
Definition p_post9 : poly := Eval vm_compute in match x3_post xlib7 Code_XCCDbasebuilder.build_XCCDbase_9 15 true with Some (SP _ p) => p | _ => [] end.
Theorem C66_xccd_order_9_bound : forall no nv g t2 t4 p M,
  is_tei (no + nv) g -> is_amp 2 no nv t2 -> is_amp 4 no nv t4 -> swapped 4 t4 p ->
  (1 <= no + nv)%nat -> 1 <= M -> bounded M g -> bounded M t2 -> bounded M t4 ->
  let T2 := T2op no nv t2 in
  let L2 := T2adj no nv t2 in
  let Q4 := T4op no nv t4 in
  let W := oplus (oscale (1 # 2) (comm (comm (comm L2 T2) T2) Q4)) (oscale (1 # 2) (comm (comm L2 Q4) Q4)) in
  exists B9, xcc_base no nv g 9 t2 (Some p) = Some (B9, Some p) /\
    close (Q2Qc (3 # 1000000) * qn (no + nv) ^ 12 * M ^ 6) B9 (elem2 no nv (oscale (1 # 6) (omul L2 (omul L2 W)) (Phi no nv))).
Proof.
  intros no nv g t2 t4 p M Hg H2 H4 Hp HN HM Bg B2 B4 T2 L2 Q4 W.
  set (f := fock0 (no + nv)). pose proof (fock0_ok (no + nv)) as Hf. fold f in Hf.
  assert (M0 : 0 <= M) by (eapply Qcle_trans; [apply Qcle_0_1|exact HM]).
  assert (HB : Forall (fun a : BinNums.N * (list space * tensor) => bounded M (snd (snd a))) (tab3 f g t2 t4)).
  { unfold tab3. repeat constructor; cbn [snd]; try assumption. intros idx _. cbn [f fock0 data]. rewrite Qcabs.Qcabs_pos by apply Qcle_refl. exact M0. }
  destruct (order9 no nv f g t2 t4 p Hf Hg H2 H4 Hp) as [B9' [R9' E9']].
  destruct (x3_cut no nv f g t2 t4 p Hg H2 H4 Hp xcc_lib Code_XCCDbasebuilder.build_XCCDbase_9 15 "Roooovvvv" true) as [U [T [VU [AU [ST HR]]]]]; [reflexivity|reflexivity|vm_true|].
  destruct (x3_cut no nv f g t2 t4 p Hg H2 H4 Hp xlib7 Code_XCCDbasebuilder.build_XCCDbase_9 15 "Roooovvvv" true) as [U' [T' [VU' [AU' [ST' HR']]]]]; [vm_compute; reflexivity|reflexivity|vm_true|].
  assert (CU : close (Q2Qc (1 # 10000000) * qn (no + nv) ^ 8 * M ^ 5) U U').
  { eapply (so_vs_close no nv (tab3 f g t2 t4) (tab3_ok no nv f g t2 t4 Hf Hg H2 H4) (no + nv) M (le_n _) HN HM HB); [exact VU|exact VU'|]. cchk_. }
  assert (P0 : 0 <= Q2Qc (1 # 10000000) * qn (no + nv) ^ 8 * M ^ 5).
  { apply Qcmult_nonneg; [apply Qcmult_nonneg|]; [discriminate|apply Qcpow_nonneg, qn_pos|apply Qcpow_nonneg, M0]. }
  pose proof (antis_close 4 no nv _ U U' T T' ltac:(rewrite <- (proj1 AU), ST; reflexivity) P0 CU AU AU') as CT.
  set (eps := qn (fact 4) * (qn (fact 4) * (Q2Qc (1 # 10000000) * qn (no + nv) ^ 8 * M ^ 5))) in CT.
  assert (E0 : 0 <= eps) by (unfold eps; apply Qcmult_nonneg; [apply qn_pos|apply Qcmult_nonneg; [apply qn_pos|exact P0]]).
  pose proof (LT4_close no nv (1 # 24) t2 T T' (no + nv) M eps ltac:(lia) ltac:(lia) (proj1 H2) ST ltac:(discriminate) M0 E0 B2 CT) as CL.
  (* the two runs *)
  assert (E1 : x3_post xcc_lib Code_XCCDbasebuilder.build_XCCDbase_9 15 true = Some (SP [1;1;0;0]%N p_post9)) by (vm_compute; reflexivity).
  assert (E2 : x3_post xlib7 Code_XCCDbasebuilder.build_XCCDbase_9 15 true = Some (SP [1;1;0;0]%N p_post9)) by (vm_compute; reflexivity).
  assert (CK9 : so_chk [1;1;0;0]%N (Some (SP [1;1;0;0]%N p_post9)) (Some (SP [1;1;0;0]%N (p_LT4 (1 # 24))))) by chk_.
  assert (RUN : forall lib T0, shape T0 = xshape no nv ->
     (forall r, x3_post lib Code_XCCDbasebuilder.build_XCCDbase_9 15 true = Some r -> exists R, run 1 lib Code_XCCDbasebuilder.build_XCCDbase_9 (xcc_vals no nv g t2 p true) = Some R /\ so_vsim no nv (tab3T f g t2 t4 T0) r R) ->
     forall r, x3_post lib Code_XCCDbasebuilder.build_XCCDbase_9 15 true = Some (SP [1;1;0;0]%N r) -> so_chk [1;1;0;0]%N (Some (SP [1;1;0;0]%N r)) (Some (SP [1;1;0;0]%N (p_LT4 (1 # 24)))) ->
     exists R, returns 1 lib Code_XCCDbasebuilder.build_XCCDbase_9 (xcc_vals no nv g t2 p true) R /\ teq R (LT4 no nv (1 # 24) t2 T0)).
  { intros lib T0 S0 HR0 r ER CK. destruct (HR0 _ ER) as [R [HR1 VR]]. inversion VR as [? ? R' TR| | | | |]; subst. exists R'. split; [exact HR1|].
    exact (so_vs_eq no nv _ (tab3T_ok no nv f g t2 t4 Hf Hg H2 H4 T0 S0) [1;1;0;0]%N _ _ _ _ VR (LT4_vs no nv f g t2 t4 (1 # 24) T0) CK). }
  destruct (RUN xcc_lib T ST HR p_post9 E1 CK9) as [B [RB EB]].
  destruct (RUN xlib7 T' ST' HR' p_post9 E2 CK9) as [B' [RB' EB']].
  assert (B9' = B') as -> by (unfold returns in *; congruence).
  exists B. split.
  { unfold xcc_base. cbn [obind]. unfold call1. change [VT t2; VNone; contract_info no nv g; VT p] with (xcc_vals no nv g t2 p true). rewrite RB. reflexivity. }
  assert (E9 : teq B' (elem2 no nv (oscale (1 # 6) (omul L2 (omul L2 W)) (Phi no nv)))).
  { eapply teq_tr; [exact E9'|]. apply LT4_elem. apply Qc_is_canon. reflexivity. }
  split; [rewrite (proj1 EB); reflexivity|]. intros idx I.
  assert (I' : inr idx (shape B')) by (rewrite (proj1 EB'); rewrite (proj1 EB) in I; exact I).
  rewrite <- (proj2 E9 idx I'), (proj2 EB idx I), (proj2 EB' idx I').
  eapply Qcle_trans; [apply CL; rewrite (proj1 EB) in I; exact I|].
  match goal with |- ?x <= _ => replace x with (Q2Qc (24 # 10000000) * (qn (no + nv) ^ 12 * M ^ 6)) end.
  - rewrite <- (Qcmult_assoc (Q2Qc (3 # 1000000))). apply Qcmult_le_compat_r; [discriminate|]. apply Qcmult_nonneg; apply Qcpow_nonneg; [apply qn_pos|exact M0].
  - unfold eps. change (qn (fact 4)) with (Q2Qc 24). set (N := qn (no + nv)).
    replace (N ^ 12) with (N ^ 4 * N ^ 8) by (cbn [Qcpower]; ring). replace (M ^ 6) with (M * M ^ 5) by (cbn [Qcpower]; ring).
    replace (Q2Qc (24 # 10000000)) with (Q2Qc (1 # 24) * (Q2Qc 24 * (Q2Qc 24 * Q2Qc (1 # 10000000)))) by (apply Qc_is_canon; reflexivity). ring.
Qed.
Print Assumptions C66_xccd_order_9_bound.
Example C66_xccd_order_9_bound_instance : exists M, 1 <= M /\ exists B9, xcc_base 4 4 (i_tei 8) 9 (i_amp 2 4 4) (Some (swap_t 4 (i_amp 4 4 4))) = Some (B9, Some (swap_t 4 (i_amp 4 4 4))).
Proof.
  destruct (bounded_all [i_tei 8; i_amp 2 4 4; i_amp 4 4 4]) as [M [M1 MB]]. inversion MB as [|? ? B1 MB1]; subst. inversion MB1 as [|? ? B2 MB2]; subst. inversion MB2 as [|? ? B3 _]; subst.
  destruct (C66_xccd_order_9_bound 4 4 _ _ _ _ M (i_tei_ok 8) (i_amp_ok 2 4 4) (i_amp_ok 4 4 4) (swap_t_ok 4 _) ltac:(lia) M1 B1 B2 B3) as [B9 [E1 E2]].
  exists M. split; [exact M1|]. exists B9. exact E1.
Qed.
