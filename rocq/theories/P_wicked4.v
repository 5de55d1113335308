(** C77: what wicked_main of wicked_T3corr.py returns. *)
From Coq Require Import String Ascii List Arith NArith ZArith QArith Qcanon Bool Lia Permutation.
From Verif Require Import Sums Tensor Interp Poly SymExec Canon Spec SpecDriver Instances Setup Master Spin Check Tabs NF Antisym Formula P_antisym Asym
  P_drive SlowCC P_slow P_flip P_triples P_drive5 Wicked P_wicked WickedT3.
From Verif Require Code_wicked_T3corr Code_tamps.
Import ListNotations.
Open Scope string_scope.
Open Scope list_scope.
Open Scope Qc_scope.

Lemma number_of fn args x E : returns 0 [] fn args E -> teq E (arr0 x) -> number fn args = Some x.
Proof.
  intros H1 [T1 T2]. unfold number. rewrite (call0_returns _ _ _ H1). cbn [obind]. cbn [shape arr0] in T1. rewrite T1.
  f_equal. apply (T2 []). rewrite T1. constructor.
Qed.
Lemma wicked_antisym3 : is_antisymmetriser Code_wicked_T3corr.antisym_T3 3.
Proof. apply antisymmetriser_of_checks; [lia|unfold antisym_check1, antchk; cbv zeta; chk_|unfold antisym_check2; cbv zeta; chk_]. Qed.
Definition p_c3 : poly := Eval vm_compute in [mkterm "" "ijkabc" (111111111 # 1000000000) [(60%N, "ijkabc"); (61%N, "abcijk")]].

Section Parts.
  Variables no nv : nat.
  Lemma contract_ok R x : shape R = [no; no; no; nv; nv; nv] -> shape x = [nv; nv; nv; no; no; no] ->
    number Code_wicked_T3corr.contractE [VT R; VT x] = Some (Q2Qc (111111111 # 1000000000) *
      (Sum i < no, Sum j < no, Sum k < no, Sum a < nv, Sum b < nv, Sum c < nv, data R [i; j; k; a; b; c] * data x [a; b; c; i; j; k])).
  Proof.
    intros S1 S2. set (tab := [(60%N, ([0;0;0;1;1;1]%N, R)); (61%N, ([1;1;1;0;0;0]%N, x))] : atomtab).
    assert (M1 : [no; no; no; nv; nv; nv] = map (dim (so_range no nv)) [0;0;0;1;1;1]%N) by (symmetry; apply (sh_ov no nv 3)).
    assert (M2 : [nv; nv; nv; no; no; no] = map (dim (so_range no nv)) [1;1;1;0;0;0]%N) by (symmetry; apply (sh_vo no nv 3)).
    assert (OK : Forall (atom_ok (so_range no nv) sy) tab).
    { unfold tab. constructor; [|constructor; [|constructor]]; apply atom_ok_gen; first [reflexivity|congruence]. }
    assert (X : exists E, returns 0 [] Code_wicked_T3corr.contractE [VT R; VT x] E /\ teq E (arr0 (Q2Qc (111111111 # 1000000000) *
      (Sum i < no, Sum j < no, Sum k < no, Sum a < nv, Sum b < nv, Sum c < nv, data R [i; j; k; a; b; c] * data x [a; b; c; i; j; k])))).
    { eapply (so_reads no nv tab 0 [] Code_wicked_T3corr.contractE [at_ 60 [0;0;0;1;1;1]%N; at_ 61 [1;1;1;0;0;0]%N] _ [] p_c3 _ OK).
      - constructor; [|constructor; [|constructor]]; apply so_atom; first [reflexivity|congruence].
      - unfold p_c3, tab. so_form.
      - chk_. }
    destruct X as [E [H T]]. exact (number_of _ _ _ _ H T).
  Qed.
  Lemma contract_dot R N x : shape R = [no; no; no; nv; nv; nv] -> swapped 3 N R -> shape x = [nv; nv; nv; no; no; no] ->
    number Code_wicked_T3corr.contractE [VT R; VT x] = Some (Q2Qc (4 # 1) * (Q2Qc (999999999 # 1000000000) * numerator_dot no nv N x)).
  Proof.
    intros S1 SW S2. rewrite (contract_ok R x S1 S2). f_equal. unfold numerator_dot. rewrite !Qcmult_assoc.
    replace (Q2Qc (4 # 1) * Q2Qc (999999999 # 1000000000) * Q2Qc (1 # 36)) with (Q2Qc (111111111 # 1000000000)) by (apply Qc_is_canon; reflexivity).
    f_equal. pose proof (swapped_shape 3 no nv N R SW S1) as SN. cbn [repeat app] in SN.
    sums_ext i Hi. sums_ext j Hj. sums_ext k Hk. sums_ext a Ha. sums_ext b Hb. sums_ext c Hc.
    f_equal. apply (proj2 SW [a; b; c] [i; j; k] eq_refl). rewrite SN. repeat constructor; assumption.
  Qed.
  Lemma turned R : is_amp_ov 3 no nv R -> exists X, ttransp [3; 4; 5; 0; 1; 2]%nat R = Some X /\ swapped 3 X R /\ is_amp 3 no nv X.
  Proof.
    intros A. pose proof (proj1 A) as S. cbn [repeat app] in S.
    assert (E : exists X, ttransp [3; 4; 5; 0; 1; 2]%nat R = Some X).
    { unfold ttransp. rewrite S. cbn [length Nat.eqb is_permb seq forallb existsb Datatypes.orb Datatypes.andb]. eexists; reflexivity. }
    destruct E as [X E]. exists X. split; [exact E|].
    assert (SW : swapped 3 X R) by (apply (flip_swapped 3 R X X); [lia|exact E|rewrite S; reflexivity|apply P_flip.teq_refl]).
    split; [exact SW|exact (swapped_amp _ _ _ _ _ SW A)].
  Qed.
  Variable g : tensor.
  Hypothesis Hg : is_tei (no + nv) g.
  Lemma amp3 U R : shape U = [no; no; no; nv; nv; nv] -> returns 0 [] Code_wicked_T3corr.antisym_T3 [VT U; VInt no; VInt nv] R -> is_amp_ov 3 no nv R.
  Proof using.
    intros S H. destruct (wicked_antisym3 no nv U S) as [R' [H' [[S' _] [A _]]]]. rewrite (returns_eq _ _ _ _ _ _ H H').
    split; [rewrite S', S; reflexivity|exact A].
  Qed.
  (** the second-order residual is the antisymmetrised <||> T2, turned over *)
  Lemma second_ok t2 T2 : is_amp 2 no nv t2 -> swapped 2 t2 T2 ->
    exists R N, second_order_resid no nv g T2 = Some R /\ is_amp_ov 3 no nv R /\ antisymmetrised 3 (W_T2 no nv g t2) N /\ swapped 3 N R.
  Proof using Hg.
    intros Ht SW. set (tab := [(1%N, ([6;6;6;6]%N, g)); (3%N, ([1;1;0;0]%N, t2))] : atomtab).
    assert (OK : Forall (atom_ok (so_range no nv) sy) tab) by (unfold tab; oks).
    assert (VW : so_vsim no nv tab (SP (vo_ 3) p_WT2) (VT (W_T2 no nv g t2))).
    { unfold vo_, p_WT2, W_T2, tab. cbn [repeat app]. so_form. }
    so_asym OK Code_tamps.antisym_T3 asym3 3%nat VW M3 AT ANT V3.
    assert (V2 : Forall2 (so_vsim no nv tab) [xG; xo; xv; swp 3 2 [0;0;1;1]%N] [VT g; o_ no; v_ no; VT T2]) by vsims.
    so_nf OK 0%nat (@nil (string * fn)) Code_wicked_T3corr.build_T3_secondO [0;0;0;1;1;1]%N V2 U HU VU.
    pose proof (so_asym_vs_ov no nv tab _ _ _ VU) as V4.
    so_nf OK 0%nat (@nil (string * fn)) Code_wicked_T3corr.antisym_T3 [0;0;0;1;1;1]%N V4 R HR VR.
    flip_ (so_vs_flip no nv tab) 3%nat VR X SX VX.
    assert (E1 : teq X M3) by (eapply (so_vs_eq no nv tab OK (vo_ 3)); [exact VX|exact V3|chk_]).
    pose proof (so_vs_shape _ _ _ _ _ _ VU) as SU. rewrite (sh_ov no nv 3 : map (dim (so_range no nv)) [0;0;0;1;1;1]%N = _) in SU.
    exists R, M3. split; [|split; [exact (amp3 U R SU HR)|split; [exact AT|]]].
    - unfold second_order_resid. rewrite (call0_returns _ _ _ HU : call0 _ [VT g; VSl 0 (Some no); VSl no None; VT T2] = Some U). cbn [obind]. exact (call0_returns _ _ _ HR).
    - destruct E1 as [E1 E2], SX as [Q1 Q2]. split; [rewrite Q1, E1; reflexivity|].
      intros l1 l2 HL I. rewrite <- E1 in I. rewrite (Q2 l1 l2 HL I). apply E2. exact I.
  Qed.
  Lemma third_ok t2 T2 : is_amp 2 no nv t2 -> swapped 2 t2 T2 -> exists R, third_order_resid no nv g T2 = Some R /\ is_amp_ov 3 no nv R.
  Proof using Hg.
    intros Ht SW. set (tab := [(1%N, ([6;6;6;6]%N, g)); (3%N, ([1;1;0;0]%N, t2))] : atomtab).
    assert (OK : Forall (atom_ok (so_range no nv) sy) tab) by (unfold tab; oks).
    assert (V2 : Forall2 (so_vsim no nv tab) [xG; xo; xv; swp 3 2 [0;0;1;1]%N] [VT g; o_ no; v_ no; VT T2]) by vsims.
    so_nf OK 0%nat (@nil (string * fn)) Code_wicked_T3corr.build_T3_thirdO [0;0;0;1;1;1]%N V2 U HU VU.
    pose proof (so_vs_shape _ _ _ _ _ _ VU) as SU. rewrite (sh_ov no nv 3 : map (dim (so_range no nv)) [0;0;0;1;1;1]%N = _) in SU.
    destruct (wicked_antisym3 no nv U SU) as [R [HR _]]. exists R. split; [|exact (amp3 U R SU HR)].
    unfold third_order_resid. rewrite (call0_returns _ _ _ HU : call0 _ [VT g; VSl 0 (Some no); VSl no None; VT T2] = Some U). cbn [obind]. exact (call0_returns _ _ _ HR).
  Qed.
  Lemma capA_ok t2 : is_amp 2 no nv t2 -> exists R, wcall Code_wicked_T3corr.fifthOrder_capA [VT g; VSl 0 (Some no); VSl no None; VT t2; VInt no; VInt nv] = Some R /\ shape R = [nv; nv; nv; no; no; no].
  Proof using Hg.
    intros Ht. set (tab := [(1%N, ([6;6;6;6]%N, g)); (3%N, ([1;1;0;0]%N, t2))] : atomtab).
    assert (OK : Forall (atom_ok (so_range no nv) sy) tab) by (unfold tab; oks).
    assert (V2 : Forall2 (so_vsim no nv tab) [xG; xo; xv; at_ 3 [1;1;0;0]%N; SDim 0; SDim 1] [VT g; o_ no; v_ no; VT t2; VInt no; VInt nv]) by vsims.
    so_nf OK 1%nat wicked_lib Code_wicked_T3corr.fifthOrder_capA [1;1;1;0;0;0]%N V2 U HU VU.
    pose proof (so_vs_shape _ _ _ _ _ _ VU) as SU. rewrite (sh_vo no nv 3 : map (dim (so_range no nv)) [1;1;1;0;0;0]%N = _) in SU.
    exists U. split; [|exact SU]. unfold wcall. rewrite (HU : run 1 wicked_lib _ [VT g; VSl 0 (Some no); VSl no None; VT t2; VInt no; VInt nv] = Some (VT U)). reflexivity.
  Qed.
  Lemma capC_ok t2 : is_amp 2 no nv t2 -> exists R, wcall Code_wicked_T3corr.fifthOrder_capC [VT g; VSl 0 (Some no); VSl no None; VT t2; VInt no; VInt nv] = Some R /\ shape R = [nv; nv; nv; no; no; no].
  Proof using Hg.
    intros Ht. set (tab := [(1%N, ([6;6;6;6]%N, g)); (3%N, ([1;1;0;0]%N, t2))] : atomtab).
    assert (OK : Forall (atom_ok (so_range no nv) sy) tab) by (unfold tab; oks).
    assert (V2 : Forall2 (so_vsim no nv tab) [xG; xo; xv; at_ 3 [1;1;0;0]%N; SDim 0; SDim 1] [VT g; o_ no; v_ no; VT t2; VInt no; VInt nv]) by vsims.
    so_nf OK 1%nat wicked_lib Code_wicked_T3corr.fifthOrder_capC [1;1;1;0;0;0]%N V2 U HU VU.
    pose proof (so_vs_shape _ _ _ _ _ _ VU) as SU. rewrite (sh_vo no nv 3 : map (dim (so_range no nv)) [1;1;1;0;0;0]%N = _) in SU.
    exists U. split; [|exact SU]. unfold wcall. rewrite (HU : run 1 wicked_lib _ [VT g; VSl 0 (Some no); VSl no None; VT t2; VInt no; VInt nv] = Some (VT U)). reflexivity.
  Qed.
  Variables (D3 : tensor) (e : nat -> Qc).
  Hypothesis HD : is_denominator 3 no nv e D3.
  Lemma over_ok R N : is_amp_ov 3 no nv R -> swapped 3 N R -> exists t3, over_D3 D3 R = Some t3 /\ is_amp 3 no nv t3 /\
    forall a b c i j k, (a < nv)%nat -> (b < nv)%nat -> (c < nv)%nat -> (i < no)%nat -> (j < no)%nat -> (k < no)%nat ->
      data t3 [a; b; c; i; j; k] = data N [a; b; c; i; j; k] / gap no e [a; b; c] [i; j; k].
  Proof using HD.
    intros A SW. destruct (turned R A) as [X [E [SX AX]]]. pose proof (swapped_teq 3 no nv N X R SW SX (proj1 A)) as [T1 T2].
    destruct (amp_times_sym no nv 3 X D3 AX (den_sym no nv 3 e D3 HD)) as [t3 [E3 A3]]. exists t3.
    split; [unfold over_D3; rewrite E; exact E3|]. split; [exact A3|]. intros a b c i j k Ha Hb Hc Hi Hj Hk.
    apply tbin_inv in E3. destruct E3 as [_ ->]. cbn [data]. destruct AX as [S1 _]. cbn [repeat app] in S1.
    rewrite T2 by (rewrite T1, S1; repeat constructor; assumption). unfold Qcdiv. f_equal.
    apply (proj2 HD [a; b; c] [i; j; k] eq_refl). rewrite (proj1 HD). repeat constructor; assumption.
  Qed.
End Parts.

(** C77.  wicked_main succeeds and returns 0.999999999 times the [T] energy of T2 (with 0.111111111 for 1/9): the triples t3 are the
    antisymmetrised <||> T2 over the orbital-energy differences, contracted with <||> and T2.  The numbers printed first are four times
    this and, under "2e cap is:", the same with the triples of the first-order doubles <ab||ij> / (e_i + e_j - e_a - e_b). *)
Theorem C77_wicked_main : forall no nv g e D2 D3 t2 T2 l2,
  is_tei (no + nv) g -> is_denominator 2 no nv e D2 -> is_denominator 3 no nv e D3 ->
  is_amp 2 no nv t2 -> swapped 2 t2 T2 -> is_amp 2 no nv l2 ->
  let triples t2 t3 := is_amp 3 no nv t3 /\ exists N, antisymmetrised 3 (W_T2 no nv g t2) N /\
    forall a b c i j k, (a < nv)%nat -> (b < nv)%nat -> (c < nv)%nat -> (i < no)%nat -> (j < no)%nat -> (k < no)%nat ->
      data t3 [a; b; c; i; j; k] = data N [a; b; c; i; j; k] / gap no e [a; b; c] [i; j; k] in
  exists first t3 t3f rest,
    is_amp 2 no nv first /\
    (forall a b i j, (a < nv)%nat -> (b < nv)%nat -> (i < no)%nat -> (j < no)%nat ->
      data first [a; b; i; j] = data g [no + a; no + b; i; j]%nat / gap no e [a; b] [i; j]) /\
    triples t2 t3 /\ triples first t3f /\
    let r := Q2Qc (999999999 # 1000000000) in let E := r * E_T no nv g T2 t3 in let E' := r * E_T no nv g T2 t3f in
    wicked_main no nv g T2 l2 D3 D2 =
      Some ([("2e cap is: ", Q2Qc (4 # 1) * E'); ("", E'); ("fourthOenergy:", Q2Qc (4 # 1) * E); ("", E)] ++ rest, E).
Proof.
  intros no nv g e D2 D3 t2 T2 l2 Hg HD2 HD3 Ht SW Hl triples.
  destruct (second_ok no nv g Hg t2 T2 Ht SW) as [R [N [ER [AR [AN SN]]]]].
  destruct (third_ok no nv g Hg t2 T2 Ht SW) as [R3 [ER3 AR3]].
  destruct (guess_amp no nv g D2 e Hg HD2) as [gs [first [EG [EF AF]]]].
  destruct (transp_amp no nv first AF) as [F' [EF' [SF AF']]].
  destruct (second_ok no nv g Hg first F' AF SF) as [Rf [Nf [ERf [ARf [ANf SNf]]]]].
  destruct (third_ok no nv g Hg first F' AF SF) as [Rf3 [ERf3 _]].
  destruct (over_ok no nv D3 e HD3 R N AR SN) as [t3 [E3 [A3 V3]]].
  destruct (over_ok no nv D3 e HD3 Rf Nf ARf SNf) as [t3f [E3f [A3f V3f]]].
  destruct (capA_ok no nv g Hg l2 Hl) as [cA [EA SA]]. destruct (capC_ok no nv g Hg l2 Hl) as [cC [EC SC]].
  pose proof (proj1 HD3) as SD. cbn [repeat app] in SD. pose proof (proj1 AR) as SR. cbn [repeat app] in SR. pose proof (proj1 AR3) as SR3. cbn [repeat app] in SR3.
  pose proof (proj1 A3) as S3. cbn [repeat app] in S3. pose proof (proj1 A3f) as S3f. cbn [repeat app] in S3f.
  pose proof (bracket_T no nv g t2 T2 N t3 Hg Ht SW AN A3) as B1. pose proof (bracket_T no nv g t2 T2 N t3f Hg Ht SW AN A3f) as B2.
  pose proof (contract_dot no nv R N t3 SR SN S3) as C1. pose proof (contract_dot no nv R N t3f SR SN S3f) as C2.
  rewrite <- B1 in C1. rewrite <- B2 in C2.
  assert (G5 : exists rest, get_fifthOrder no nv g l2 R R3 D3 = Some rest).
  { unfold get_fifthOrder. cbv zeta. rewrite EA. cbn [obind]. rewrite tbin_ok by congruence. cbn [obind].
    rewrite (contract_ok no nv R _ SR) by (cbn [shape]; congruence). cbn [obind]. rewrite E3. cbn [obind].
    rewrite (contract_ok no nv R3 _ SR3 S3). cbn [obind]. rewrite EC. cbn [obind]. rewrite tbin_ok by congruence. cbn [obind].
    rewrite (contract_ok no nv R _ SR) by (cbn [shape]; congruence). cbn [obind]. eexists; reflexivity. }
  destruct G5 as [rest G5]. exists first, t3, t3f, rest. split; [exact AF|]. split.
  { intros a b i j Ha Hb Hi Hj. apply tbin_inv in EF. destruct EF as [SG ->]. cbn [data]. unfold Qcdiv. f_equal.
    - unfold tslice in EG. rewrite (proj1 Hg) in EG. cbn [length Nat.eqb repeat zipw fst snd] in EG. apply some_inj in EG. rewrite <- EG. cbn [data].
      unfold zipw, slice_start. cbn [combine map fst snd]. rewrite !(Nat.min_l no (no + nv)), !Nat.min_0_l by lia. reflexivity.
    - apply (proj2 HD2 [a; b] [i; j] eq_refl). rewrite (proj1 HD2). repeat constructor; assumption. }
  split; [split; [exact A3|exists N; split; [exact AN|exact V3]]|]. split; [split; [exact A3f|exists Nf; split; [exact ANf|exact V3f]]|].
  intros r E E'. unfold wicked_main, build_T3_resids. rewrite ER. cbn [obind]. rewrite ER3. cbn [obind]. rewrite EG. cbn [obind]. rewrite EF. cbn [obind]. rewrite EF'. cbn [obind].
  rewrite ERf. cbn [obind]. rewrite ERf3. cbn [obind fst snd]. rewrite E3f. cbn [obind]. rewrite C2. cbn [obind].
  unfold get_fourthOrder. rewrite E3. cbn [obind]. rewrite C1. cbn [obind]. rewrite G5. cbn [obind].
  assert (Q : forall x, Q2Qc (25 # 100) * (Q2Qc (4 # 1) * x) = x).
  { intros x. rewrite Qcmult_assoc. replace (Q2Qc (25 # 100) * Q2Qc (4 # 1)) with 1 by (apply Qc_is_canon; reflexivity). ring. }
  rewrite (Qcmult_comm _ (Q2Qc (25 # 100))), !Q. reflexivity.
Qed.
Print Assumptions C77_wicked_main.
Example C77_instance := C77_wicked_main 3 3 (i_tei 6) i_eps (i_den 2 3 3) (i_den 3 3 3) (i_amp 2 3 3) _ (i_amp 2 3 3) (i_tei_ok 6) (i_den_ok 2 3 3) (i_den_ok 3 3 3)
  (i_amp_ok 2 3 3) (swap_t_ok 2 _) (i_amp_ok 2 3 3).
(** C77.  The other route, getE_squareBrackT (109-113), called with triples (occupied indices first) and the doubles (virtual indices first),
    returns the [T] energy itself. *)
Theorem C77_square_bracket : forall no nv g t2 T2 t3 T3,
  is_tei (no + nv) g -> is_amp 2 no nv t2 -> swapped 2 t2 T2 -> is_amp 3 no nv t3 -> swapped 3 t3 T3 ->
  exists E, returns 0 [] Code_wicked_T3corr.getE_squareBrackT [VT g; o_ no; v_ no; VT T3; VT t2] E /\ shape E = [] /\ data E [] = E_T no nv g T2 t3.
Proof.
  intros no nv g t2 T2 t3 T3 Hg H2 SW H3 S3.
  set (tab := [(1%N, ([6;6;6;6]%N, g)); (3%N, ([1;1;0;0]%N, t2)); (4%N, ([1;1;1;0;0;0]%N, t3))] : atomtab).
  assert (OK : Forall (atom_ok (so_range no nv) sy) tab) by (unfold tab; oks).
  set (E2 := Q2Qc (1 # 4) * (Sum i < no, Sum j < no, Sum k < no, Sum l < no, Sum a < nv, Sum b < nv, Sum c < nv,
     data g [l;k;no+c;j]%nat * data t2 [b;a;i;j] * data t3 [c;b;a;i;l;k]) +
    Q2Qc (1 # 4) * (Sum i < no, Sum j < no, Sum k < no, Sum a < nv, Sum b < nv, Sum c < nv, Sum d < nv,
     data g [k;no+b;no+c;no+d]%nat * data t2 [b;a;i;j] * data t3 [c;d;a;i;j;k])).
  assert (X : E_T no nv g T2 t3 = E2).
  { assert (Z : forall a b i j, (a < nv)%nat -> (b < nv)%nat -> (i < no)%nat -> (j < no)%nat -> data T2 [i;j;b;a] = data t2 [b;a;i;j]).
    { intros a b i j Ha Hb Hi Hj. apply (proj2 SW [b;a] [i;j] eq_refl). rewrite (proj1 H2). repeat constructor; assumption. }
    unfold E_T, E2. f_equal; f_equal; sums; rewrite Z by lia; reflexivity. }
  assert (VE : so_vsim no nv tab (SP [] p_ET2) (VT (arr0 E2))) by (unfold p_ET2, E2, tab; so_form).
  assert (V : Forall2 (so_vsim no nv tab) [xG; xo; xv; swp 4 3 [0;0;0;1;1;1]%N; at_ 3 [1;1;0;0]%N] [VT g; o_ no; v_ no; VT T3; VT t2]) by vsims.
  destruct (so_reads no nv tab 0 [] Code_wicked_T3corr.getE_squareBrackT _ _ [] p_ET2 _ OK V VE) as [E [HE [T1 T2']]]; [chk_|].
  exists E. split; [exact HE|]. split; [exact T1|]. rewrite X. apply T2'. rewrite T1. constructor.
Qed.
Print Assumptions C77_square_bracket.
Example C77_bracket_instance := C77_square_bracket 3 3 (i_tei 6) (i_amp 2 3 3) _ (i_amp 3 3 3) _ (i_tei_ok 6) (i_amp_ok 2 3 3) (swap_t_ok 2 _) (i_amp_ok 3 3 3) (swap_t_ok 3 _).
