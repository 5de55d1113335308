(** C79: the fifth-order numbers wicked_main prints. *)
From Coq Require Import String Ascii List Arith NArith ZArith QArith Qcanon Bool Lia Permutation.
From Verif Require Import Sums Tensor Interp Poly SymExec Canon Spec SpecDriver Instances Setup Master Spin Check Tabs NF Antisym Formula P_antisym Asym
  P_drive SlowCC P_slow P_flip P_triples P_drive5 Wicked P_wicked WickedT3 P_wicked4.
From Verif Require Import Fock P_fock4.
From Verif Require P_wicked5.
From Verif Require Code_wicked_T3corr.
Import ListNotations.
Open Scope string_scope.
Open Scope list_scope.
Open Scope Qc_scope.

Lemma main_inv no nv g T2 l2 D3 D2 l E : wicked_main no nv g T2 l2 D3 D2 = Some (l, E) ->
  exists R R3 pre fifth, second_order_resid no nv g T2 = Some R /\ third_order_resid no nv g T2 = Some R3 /\
    get_fifthOrder no nv g l2 R R3 D3 = Some fifth /\ length pre = 4%nat /\ l = (pre ++ fifth)%list.
Proof.
  unfold wicked_main, build_T3_resids. intros H.
  destruct (second_order_resid no nv g T2) as [R|]; [|discriminate H]. destruct (third_order_resid no nv g T2) as [R3|]; [|discriminate H]. cbn [obind fst snd] in H.
  destruct (tslice _ g) as [x|]; [|discriminate H]. cbn [obind] in H. destruct (tbin Qcmult x D2) as [y|]; [|discriminate H]. cbn [obind] in H.
  destruct (ttransp _ y) as [z|]; [|discriminate H]. cbn [obind] in H. destruct (second_order_resid no nv g z) as [u|]; [|discriminate H]. cbn [obind] in H.
  destruct (third_order_resid no nv g z) as [w|]; [|discriminate H]. cbn [obind fst snd] in H. destruct (over_D3 D3 u) as [c|]; [|discriminate H]. cbn [obind] in H.
  destruct (number _ [VT R; VT c]) as [n|]; [|discriminate H]. cbn [obind] in H. destruct (get_fourthOrder R D3) as [n4|]; [|discriminate H]. cbn [obind] in H.
  destruct (get_fifthOrder no nv g l2 R R3 D3) as [r|] eqn:G5; [|discriminate H]. cbn [obind] in H. injection H as H1 H2. exists R, R3.
  exists (firstn 4 l), r. subst l. repeat split. exact G5.
Qed.

(** C79.  For orbital-energy denominators the fifth-order numbers wicked_main prints are, with X(t) = <Phi_ijk^abc|[W,T2]|Phi> and
    D = e_i + e_j + e_k - e_a - e_b - e_c: 0.111111111 times the sum of X(t2) <Phi_ijk^abc|[[W,L2],L2]|Phi> / D and minus an eighth of it;
    of <Phi_ijk^abc|1/2 [[W,T2],T2]|Phi> X(t2) / D and a quarter of it; of X(t2) C / D and a quarter of it, where C is the antisymmetrised product
    of a quarter of l2 and <Phi_k^c|[W,L2]|Phi>.  T2 and L2 are the cluster operators of the two arrays of doubles. *)
Theorem C79_fifth_order : forall no nv g e D2 D3 t2 T2 l2,
  is_tei (no + nv) g -> is_denominator 2 no nv e D2 -> is_denominator 3 no nv e D3 ->
  is_amp 2 no nv t2 -> swapped 2 t2 T2 -> is_amp 2 no nv l2 ->
  let W := Fluct no nv g in let X2 := T2op no nv t2 in let Y2 := T2op no nv l2 in let vac := Phi no nv in
  let total F := Q2Qc (111111111 # 1000000000) * (Sum i < no, Sum j < no, Sum k < no, Sum a < nv, Sum b < nv, Sum c < nv,
    F a b c i j k / gap no e [a; b; c] [i; j; k]) in
  exists pre E C,
    length pre = 4%nat /\
    antisymmetrised 3 (mkT [nv; nv; nv; no; no; no] (fun l => match l with [a; b; c; i; j; k] =>
      Q2Qc (1 # 4) * (data l2 [a; b; i; j] * bra1 no nv c k (comm W Y2 vac)) | _ => 0 end)) C /\
    let eA := total (fun a b c i j k => bra3 no nv a b c i j k (comm W X2 vac) * bra3 no nv a b c i j k (comm (comm W Y2) Y2 vac)) in
    let eB := total (fun a b c i j k => bra3 no nv a b c i j k (oscale (1 # 2) (comm (comm W X2) X2) vac) * bra3 no nv a b c i j k (comm W X2 vac)) in
    let eC := total (fun a b c i j k => bra3 no nv a b c i j k (comm W X2 vac) * data C [a; b; c; i; j; k]) in
    wicked_main no nv g T2 l2 D3 D2 =
      Some (pre ++ [("capA_energy:", eA); ("", Q2Qc (-1 # 8) * eA); ("capB_energy", eB); ("", Q2Qc (25 # 100) * eB);
                    ("capC_energy", eC); ("", Q2Qc (25 # 100) * eC)], E).
Proof.
  intros no nv g e D2 D3 t2 T2 l2 Hg HD2 HD3 Ht SW Hl W X2 Y2 vac total.
  destruct (C77_wicked_main no nv g e D2 D3 t2 T2 l2 Hg HD2 HD3 Ht SW Hl) as [fi [t3 [t3f [rest [_ [_ [_ [_ M]]]]]]]]. cbv zeta in M.
  match type of M with _ = Some (?l, ?x) => set (L := l) in M; set (E := x) in M end.
  destruct (main_inv _ _ _ _ _ _ _ _ _ M) as [R [R3 [pre [fifth [ER [ER3 [G5 [LP EL]]]]]]]]. rewrite EL in M. clear EL L rest.
  destruct (P_wicked5.C78_wicked_sources no nv g (i_amp 1 no nv) t2 (i_amp 3 no nv) _ T2 _ Hg (i_amp_ok 1 no nv) Ht (i_amp_ok 3 no nv) (swap_t_ok 1 _) SW (swap_t_ok 3 _))
    as [R1 [U2 [R2 [U2' [R2' [U3 [S3 [U3' [S3' [E' [_ [_ [_ [_ [_ [P1 [P2 [P3 [P4 [_ [_ [_ [_ [Q1 [Q2 [_ [_ V]]]]]]]]]]]]]]]]]]]]]]]]]]].
  unfold second_order_resid in ER. rewrite (call0_returns _ _ _ P1 : call0 _ [VT g; VSl 0 (Some no); VSl no None; VT T2] = Some U3) in ER. cbn [obind] in ER. rewrite (call0_returns _ _ _ P2) in ER. apply some_inj in ER. subst S3.
  unfold third_order_resid in ER3. rewrite (call0_returns _ _ _ P3 : call0 _ [VT g; VSl 0 (Some no); VSl no None; VT T2] = Some U3') in ER3. cbn [obind] in ER3. rewrite (call0_returns _ _ _ P4) in ER3. apply some_inj in ER3. subst S3'.
  destruct (P_wicked5.C78_fifth_order_caps no nv g l2 Hg Hl) as [cA [cC [C [EA [EC [SA [[SC TC] [AC VA]]]]]]]].
  assert (SCC : shape cC = [nv; nv; nv; no; no; no]) by (rewrite SC, (proj1 AC); reflexivity).
  pose proof (proj1 HD3) as SD. cbn [repeat app] in SD.
  assert (SH : forall x : tensor, shape x = [no; no; no; nv; nv; nv] -> exists y, ttransp [3; 4; 5; 0; 1; 2]%nat x = Some y /\ swapped 3 y x).
  { intros x Sx. assert (K : exists X, ttransp [3; 4; 5; 0; 1; 2]%nat x = Some X).
    { unfold ttransp. rewrite Sx. cbn [length Nat.eqb is_permb seq forallb existsb Datatypes.orb Datatypes.andb]. eexists; reflexivity. }
    destruct K as [X K]. exists X. split; [exact K|]. apply (flip_swapped 3 x X X); [lia|exact K|rewrite Sx; reflexivity|apply P_flip.teq_refl]. }
  destruct (SH R Q1) as [XR [EX SX]]. pose proof (swapped_shape 3 no nv XR R SX Q1) as SXR. cbn [repeat app] in SXR.
  assert (VD : forall a b c i j k, (a < nv)%nat -> (b < nv)%nat -> (c < nv)%nat -> (i < no)%nat -> (j < no)%nat -> (k < no)%nat -> data D3 [a; b; c; i; j; k] = / gap no e [a; b; c] [i; j; k]).
  { intros a b c i j k Ha Hb Hc Hi Hj Hk. apply (proj2 HD3 [a; b; c] [i; j; k] eq_refl). rewrite SD. repeat constructor; assumption. }
  exists pre, E, C. split; [exact LP|]. split; [exact AC|]. cbv zeta. rewrite M. do 2 f_equal. f_equal. apply some_inj. rewrite <- G5.
  unfold get_fifthOrder. cbv zeta. unfold wcall.
  rewrite (EA : run 1 wicked_lib _ [VT g; VSl 0 (Some no); VSl no None; VT l2; VInt no; VInt nv] = Some (VT cA)). cbn [obind asT].
  rewrite (tbin_ok Qcmult D3 cA) by congruence. cbn [obind]. rewrite (contract_ok no nv R _ Q1) by (cbn [shape]; congruence). cbn [obind].
  unfold over_D3. rewrite EX. cbn [obind]. rewrite (tbin_ok Qcmult XR D3) by congruence. cbn [obind]. rewrite (contract_ok no nv R3 _ Q2) by (cbn [shape]; congruence). cbn [obind].
  rewrite (EC : run 1 wicked_lib _ [VT g; VSl 0 (Some no); VSl no None; VT l2; VInt no; VInt nv] = Some (VT cC)). cbn [obind asT].
  rewrite (tbin_ok Qcmult cC D3) by congruence. cbn [obind]. rewrite (contract_ok no nv R _ Q1) by (cbn [shape]; congruence). cbn [obind data].
  match goal with |- Some [(_, ?u); _; (_, ?v); _; (_, ?w); _] = Some [(_, ?u'); _; (_, ?v'); _; (_, ?w'); _] =>
    assert (ZA : u = u'); [|assert (ZB : v = v'); [|assert (ZC : w = w'); [|rewrite ZA, ZB, ZC; reflexivity]]] end; unfold total; f_equal.
  - sums_ext i Hi. sums_ext j Hj. sums_ext k Hk. sums_ext a Ha. sums_ext b Hb. sums_ext c Hc.
    destruct (V i j k a b c Hi Hj Hk Ha Hb Hc) as [_ [_ [_ [V1 V2]]]]. rewrite V1, VA, VD by assumption. fold W X2 Y2 vac. unfold Qcdiv. ring.
  - sums_ext i Hi. sums_ext j Hj. sums_ext k Hk. sums_ext a Ha. sums_ext b Hb. sums_ext c Hc.
    destruct (V i j k a b c Hi Hj Hk Ha Hb Hc) as [_ [_ [_ [V1 V2]]]]. rewrite V2, VD by assumption.
    rewrite <- (proj2 SX [a; b; c] [i; j; k] eq_refl : _ -> data R [i; j; k; a; b; c] = data XR [a; b; c; i; j; k]) by (rewrite SXR; repeat constructor; assumption).
    rewrite V1. fold W X2 Y2 vac. unfold Qcdiv. ring.
  - sums_ext i Hi. sums_ext j Hj. sums_ext k Hk. sums_ext a Ha. sums_ext b Hb. sums_ext c Hc.
    destruct (V i j k a b c Hi Hj Hk Ha Hb Hc) as [_ [_ [_ [V1 V2]]]]. rewrite V1, VD by assumption.
    rewrite (TC [a; b; c; i; j; k]) by (rewrite SCC; repeat constructor; assumption). fold W X2 Y2 vac. unfold Qcdiv. ring.
Qed.
Print Assumptions C79_fifth_order.
Example C79_instance := C79_fifth_order 3 3 (i_tei 6) i_eps (i_den 2 3 3) (i_den 3 3 3) (i_amp 2 3 3) _ (i_amp 2 3 3) (i_tei_ok 6) (i_den_ok 2 3 3) (i_den_ok 3 3 3)
  (i_amp_ok 2 3 3) (swap_t_ok 2 _) (i_amp_ok 2 3 3).
Lemma amp_swapped no nv t T : is_amp 2 no nv t -> swapped 2 t T -> is_amp_ov 2 no nv T.
Proof.
  intros [S A] [Q1 Q2]. assert (ST : shape T = (repeat no 2 ++ repeat nv 2)%list) by (rewrite Q1, S; reflexivity).
  refine (swapped_amp 2 nv no T t _ (conj S A)). split; [rewrite ST, S; reflexivity|]. intros l1 l2 L I. symmetry. apply Q2.
  - pose proof (inr_len _ _ I) as X. rewrite ST, !app_length in X. cbn in X. lia.
  - rewrite S. apply (inr_turn 2 no nv l1 l2 L). rewrite <- ST. exact I.
Qed.
(** C79, continued.  The energy getE_squareBrackT returns is <Phi|T2' [W,T3]|Phi>, and wicked_main returns 0.999999999 times this for the triples
    <Phi_ijk^abc|[W,T2]|Phi> / (e_i + e_j + e_k - e_a - e_b - e_c). *)
Theorem C79_bracket_matrix_element : forall no nv g t2 T2,
  is_tei (no + nv) g -> is_amp 2 no nv t2 -> swapped 2 t2 T2 ->
  let W := Fluct no nv g in let vac := Phi no nv in let E_of t3 := bra0 no nv (L2op no nv T2 (comm W (T3op no nv t3) vac)) in
  (forall t3 T3, is_amp 3 no nv t3 -> swapped 3 t3 T3 ->
    exists E, returns 0 [] Code_wicked_T3corr.getE_squareBrackT [VT g; o_ no; v_ no; VT T3; VT t2] E /\ shape E = [] /\ data E [] = E_of t3) /\
  (forall e D2 D3 l2, is_denominator 2 no nv e D2 -> is_denominator 3 no nv e D3 -> is_amp 2 no nv l2 ->
    exists t3 printed, is_amp 3 no nv t3 /\
      (forall a b c i j k, (a < nv)%nat -> (b < nv)%nat -> (c < nv)%nat -> (i < no)%nat -> (j < no)%nat -> (k < no)%nat ->
        data t3 [a; b; c; i; j; k] = bra3 no nv a b c i j k (comm W (T2op no nv t2) vac) / gap no e [a; b; c] [i; j; k]) /\
      wicked_main no nv g T2 l2 D3 D2 = Some (printed, Q2Qc (999999999 # 1000000000) * E_of t3)).
Proof.
  intros no nv g t2 T2 Hg Ht SW W vac E_of. pose proof (amp_swapped no nv t2 T2 Ht SW) as HT. split.
  - intros t3 T3 H3 S3. destruct (C77_square_bracket no nv g t2 T2 t3 T3 Hg Ht SW H3 S3) as [E [A [B C]]]. exists E. split; [exact A|]. split; [exact B|].
    rewrite C. apply E_T_elem; assumption.
  - intros e D2 D3 l2 HD2 HD3 Hl.
    destruct (C77_wicked_main no nv g e D2 D3 t2 T2 l2 Hg HD2 HD3 Ht SW Hl) as [fi [t3 [t3f [rest [_ [_ [[A3 [N [AN VN]]] [_ M]]]]]]]]. cbv zeta in M.
    rewrite (E_T_elem no nv g t3 T2 Hg A3 HT) in M. eexists t3, _. split; [exact A3|]. split; [|exact M].
    destruct (second_ok no nv g Hg t2 T2 Ht SW) as [R [N' [ER [AR [AN' SN]]]]].
    destruct (P_wicked5.C78_wicked_sources no nv g (i_amp 1 no nv) t2 (i_amp 3 no nv) _ T2 _ Hg (i_amp_ok 1 no nv) Ht (i_amp_ok 3 no nv) (swap_t_ok 1 _) SW (swap_t_ok 3 _))
      as [R1 [U2 [R2 [U2' [R2' [U3 [S3 [U3' [S3' [E' [_ [_ [_ [_ [_ [P1 [P2 [P3 [P4 [_ [_ [_ [_ [Q1 [Q2 [_ [_ V]]]]]]]]]]]]]]]]]]]]]]]]]]].
    unfold second_order_resid in ER. rewrite (call0_returns _ _ _ P1 : call0 _ [VT g; VSl 0 (Some no); VSl no None; VT T2] = Some U3) in ER. cbn [obind] in ER. rewrite (call0_returns _ _ _ P2) in ER. apply some_inj in ER. subst S3.
    pose proof (swapped_shape 3 no nv N' R SN Q1) as SN'. cbn [repeat app] in SN'.
    intros a b c i j k Ha Hb Hc Hi Hj Hk. rewrite VN by assumption. f_equal.
    assert (I : inr ([a; b; c] ++ [i; j; k]) [nv; nv; nv; no; no; no]) by (repeat constructor; assumption).
    pose proof (proj2 AN [a; b; c] [i; j; k] eq_refl I) as K. pose proof (proj2 AN' [a; b; c] [i; j; k] eq_refl I) as K'. cbn [app] in K, K'.
    rewrite K, <- K'. destruct (V i j k a b c Hi Hj Hk Ha Hb Hc) as [_ [_ [_ [V1 _]]]]. fold W vac in V1. rewrite <- V1.
    symmetry. apply (proj2 SN [a; b; c] [i; j; k] eq_refl). rewrite SN'. exact I.
Qed.
Print Assumptions C79_bracket_matrix_element.
Example C79_bracket_instance := C79_bracket_matrix_element 3 3 (i_tei 6) (i_amp 2 3 3) _ (i_tei_ok 6) (i_amp_ok 2 3 3) (swap_t_ok 2 _).
Example C79_bracket_instance2 := proj2 C79_bracket_instance i_eps (i_den 2 3 3) (i_den 3 3 3) (i_amp 2 3 3) (i_den_ok 2 3 3) (i_den_ok 3 3 3) (i_amp_ok 2 3 3).
