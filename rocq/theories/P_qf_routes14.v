(** C14: the two routes to the WnT2^3 contribution printed by cc_energy.py. *)
From Coq Require Import String Ascii List Arith NArith ZArith QArith Qcanon Bool Lia Permutation.
From Verif Require Import Sums Tensor Interp Poly SymExec Canon Spec Setup Master Spin Check Tabs NF Antisym Formula
  Bound Unround Instances P_qf_routes.
From Verif Require Code_cc_energy Code_build_qf_correction Code_tamps.
Import ListNotations.
Open Scope string_scope.
Open Scope Qc_scope.
Import Code_cc_energy.

(** C14.  What the two printed WnT2^3 numbers differ by: exactly the WnT2^2 contribution. *)
Theorem C14_WnT2cubed_routes_differ_by_WnT2sqr : forall no nv W T2 T3 D2,
  is_tei (no + nv) W -> is_amp_ov 2 no nv T2 -> is_amp_ov 3 no nv T3 -> shape D2 = [no; no; nv; nv] ->
  exists E96 E103 E134,
    returns 2 lib_cc_energy sixthOrderQf_wnT2cubed_L96 [VT W; VT T2; o_ no; v_ no; VT D2] E96 /\
    returns 2 lib_cc_energy sixthOrderQf_wnT2cubed_L103 [VT W; VT T2; o_ no; v_ no; VT D2] E103 /\
    returns 2 lib_cc_energy long_testQf5Order_L134 [VT W; VT T2; VT T3; o_ no; v_ no; VT D2] E134 /\
    data E96 [] = data E103 [] + data E134 [].
Proof.
  intros no nv W T2 T3 D2 HW H2 H3 HD.
  pose proof (r_vs5 no nv W T2 T3 D2 HW H2 H3 HD) as VS.
  pose proof (r_vs6 no nv W T2 T3 D2 HW H2 HD) as VS6.
  pose proof (r_ok no nv W T2 T3 D2 HW H2 H3 HD) as OK.
  run_ OK VS6 sixthOrderQf_wnT2cubed_L96 E96 R96 V96. run_ OK VS6 sixthOrderQf_wnT2cubed_L103 E103 R103 V103.
  run_ OK VS long_testQf5Order_L134 E134 R134 V134.
  exists E96, E103, E134. repeat (split; [assumption|]).
  rewrite (r_rel no nv W T2 T3 D2 HW H2 H3 HD 1%Q _ _ _ _ _ _ V96 V103 V134); [ring|chk_].
Qed.
Print Assumptions C14_WnT2cubed_routes_differ_by_WnT2sqr.

(** The energy expression of lines 133/140 for a given intermediate X (virtual indices first). *)
Definition f_energy : fn := mkFn ["W"; "X"; "o"; "v"; "D2"] []
  (EScale (1 # 4) (EEins "ijab,abij" [EMul (ESlice (EVar "W") [SV "o"; SV "o"; SV "v"; SV "v"]) (EVar "D2"); EVar "X"])).
(** The intermediate of lines 137-139. *)
Definition f_inter : fn := mkFn ["W"; "T2"; "o"; "v"]
  [SAssign "t2test" (EScale (1 # 2) (ECall "optWnT2sqr" [EVar "W"; EVar "T2"; EVar "o"; EVar "v"]));
   SAssign "t2test" (ECall "tamps.antisym_T2" [EVar "t2test"; ENone; ENone]);
   SAssign "t2test" (ETransp (EVar "t2test") [2; 3; 0; 1]%nat)] (EVar "t2test").
Definition p_energy : poly := Eval vm_compute in
  [mkterm "" "ijab" (1 # 4) [(1%N, "ijab"); (8%N, "ijab"); (10%N, "abij")]].
Lemma f_energy_formula no nv W X D2 : is_tei (no + nv) W -> shape X = [nv;nv;no;no] -> shape D2 = [no;no;nv;nv] ->
  exists E, returns 0 [] f_energy [VT W; VT X; o_ no; v_ no; VT D2] E /\
    data E [] = Q2Qc (1 # 4) * Sum i < no, Sum j < no, Sum a < nv, Sum b < nv,
      data W [i; j; no + a; no + b]%nat * data D2 [i; j; a; b] * data X [a; b; i; j].
Proof.
  intros HW HX HD.
  set (tab := [(1%N, ([6;6;6;6]%N, W)); (8%N, ([0;0;1;1]%N, D2)); (10%N, ([1;1;0;0]%N, X))] : atomtab).
  destruct (so_reads no nv tab 0 [] f_energy [xG; at_ 10 [1;1;0;0]%N; SSl 0; SSl 1; at_ 8 [0;0;1;1]%N]
    [VT W; VT X; o_ no; v_ no; VT D2] [] p_energy
    (arr0 (Q2Qc (1 # 4) * Sum i < no, Sum j < no, Sum a < nv, Sum b < nv,
      data W [i; j; no + a; no + b]%nat * data D2 [i; j; a; b] * data X [a; b; i; j]))) as [E [HE [S1 S2]]].
  - unfold tab. oks; (apply atom_ok_gen; [reflexivity|apply shapes_dim; [assumption|reflexivity]]).
  - unfold tab, xG. vsims; (apply so_atom; [reflexivity|apply shapes_dim; [assumption|reflexivity]]).
  - unfold tab, p_energy. so_form.
  - chk_.
  - exists E. split; [exact HE|]. apply S2. rewrite S1. constructor.
Qed.

Definition e2 (p q i j : nat) : Qc :=
  if (Nat.eqb i p && Nat.eqb j q)%bool then 1 else if (Nat.eqb i q && Nat.eqb j p)%bool then -(1) else 0.
Definition T_w : tensor := arr4 4 4 4 4 (fun i j a b => e2 0 1 i j * e2 0 1 a b + e2 2 3 i j * e2 2 3 a b).
Definition dlt (p i : nat) : Qc := if Nat.eqb i p then 1 else 0.
Definition D_w : tensor := arr4 4 4 4 4 (fun i j a b => dlt 0 i * (dlt 1 j * (dlt 0 a * dlt 1 b))).
Lemma e2_anti p q i j : p <> q -> e2 p q i j = - e2 p q j i.
Proof.
  intros H. unfold e2.
  destruct (Nat.eqb_spec i p), (Nat.eqb_spec j q), (Nat.eqb_spec i q), (Nat.eqb_spec j p); subst; cbn [andb]; try contradiction; ring.
Qed.
Lemma T_w_ok : is_amp_ov 2 4 4 T_w.
Proof.
  split; [reflexivity|]. intros i Hi. assert (i = O) as -> by lia.
  split; intros pre x y post Hp H1 H2; unfold T_w, arr4 in *; cbn [data shape] in *.
  - destruct pre; [|discriminate]. cbn [app] in *. pose proof (inr_length _ _ H1) as L. cbn [length] in L.
    destruct post as [|a [|b [|? ?]]]; cbn [length] in L; try discriminate.
    rewrite (e2_anti 0 1 x y), (e2_anti 2 3 x y) by discriminate. ring.
  - destruct pre as [|u [|w [|? ?]]]; try discriminate. cbn [app] in *. pose proof (inr_length _ _ H1) as L. cbn [length] in L.
    destruct post as [|? ?]; cbn [length] in L; try discriminate.
    rewrite (e2_anti 0 1 x y), (e2_anti 2 3 x y) by discriminate. ring.
Qed.
Lemma sum_dlt n p F : (p < n)%nat -> suml (seq 0 n) (fun i => dlt p i * F i) = F p.
Proof.
  intros H. rewrite (suml_seq_delta n p _ H).
  - unfold dlt. rewrite Nat.eqb_refl. ring.
  - intros i Hi. unfold dlt. apply Nat.eqb_neq in Hi. rewrite Hi. ring.
Qed.

(** For denominators that are 1 at one entry and 0 elsewhere the difference is a single product. *)
Lemma C14_difference W T2 T3 : is_tei (4 + 4) W -> is_amp_ov 2 4 4 T2 -> is_amp_ov 3 4 4 T3 ->
  exists E96 E103 X,
  returns 2 lib_cc_energy sixthOrderQf_wnT2cubed_L96 [VT W; VT T2; o_ 4; v_ 4; VT D_w] E96 /\
  returns 2 lib_cc_energy sixthOrderQf_wnT2cubed_L103 [VT W; VT T2; o_ 4; v_ 4; VT D_w] E103 /\
  returns 2 lib_cc_energy f_inter [VT W; VT T2; o_ 4; v_ 4] X /\
  data E96 [] = data E103 [] + Q2Qc (1 # 4) * (data W [0; 1; 4; 5]%nat * data X [0; 1; 0; 1]%nat).
Proof.
  intros HW HT H3.
  assert (HD : shape D_w = [4; 4; 4; 4]%nat) by reflexivity.
  destruct (C14_WnT2cubed_routes_differ_by_WnT2sqr 4 4 W T2 T3 D_w HW HT H3 HD) as [E96 [E103 [E134 [R96 [R103 [R134 E]]]]]].
  destruct (C13_fast_route_is_T4_route 4 4 W T2 T3 D_w HW HT H3 HD) as [E134' [E141 [_ [_ [_ [_ [R134' [R141 [_ [_ [_ [_ [EQ _]]]]]]]]]]]]].
  assert (E134' = E134) as -> by (unfold returns in *; congruence). rewrite EQ in E. clear EQ R134 R134'.
  pose proof (r_vs5 4 4 W T2 T3 D_w HW HT H3 HD) as VS.
  pose proof (r_D2 4 4 W T2 T3 D_w HD) as VD.
  pose proof (r_ok 4 4 W T2 T3 D_w HW HT H3 HD) as OK.
  assert (VX : Forall2 (so_vsim 4 4 (r_atoms W T2 T3 D_w)) [xG; at_ 3 [0;0;1;1]%N; SSl 0; SSl 1] [VT W; VT T2; o_ 4; v_ 4]).
  { unfold xG. vsims. }
  so_nf OK 2%nat lib_cc_energy f_inter [1;1;0;0]%N VX X RX VXX.
  pose proof (so_vs_shape _ _ _ _ _ _ VXX) as SX.
  exists E96, E103, X. repeat (split; [assumption|]). rewrite E.
  destruct (f_energy_formula 4 4 W X D_w) as [E' [RE' FE]].
  { exact HW. } { exact (dims_shape 4 4 [1;1;0;0]%N _ SX eq_refl). } { reflexivity. }
  match type of VXX with _ (SP _ ?q) _ => set (p := q) in VXX end.
  assert (VE : Forall2 (so_vsim 4 4 (r_atoms W T2 T3 D_w))
     [xG; SP [1;1;0;0]%N p; SSl 0; SSl 1; at_ 8 [0;0;1;1]%N]
     [VT W; VT X; o_ 4; v_ 4; VT D_w]).
  { clearbody p. unfold xG. vsims; [exact VXX|exact VD]. }
  unfold p in VE.
  destruct (so_compare 4 4 (r_atoms W T2 T3 D_w) OK 2 lib_cc_energy long_testQf5Order_L141 r_args5 _
     0 [] f_energy _ _ [] VS VE) as [A [B [RA [RB [SA [_ AB]]]]]]; [chk_|].
  assert (A = E141) as -> by (unfold returns in *; congruence).
  assert (B = E') as -> by (unfold returns in *; congruence).
  rewrite AB by (rewrite SA; constructor). rewrite FE. f_equal. f_equal. clear.
  transitivity (Sum i < 4, dlt 0 i * Sum j < 4, dlt 1 j * Sum a < 4, dlt 0 a * Sum b < 4, dlt 1 b *
      (data W [i; j; (4 + a)%nat; (4 + b)%nat] * data X [a; b; i; j])).
  { apply suml_ext; intros i _. rewrite <- suml_scale. apply suml_ext; intros j _. rewrite <- !suml_scale. apply suml_ext; intros a _.
    rewrite <- !suml_scale. apply suml_ext; intros b _. unfold D_w, arr4; cbn [data]. ring. }
  rewrite (sum_dlt 4 0) by lia. rewrite (sum_dlt 4 1) by lia. rewrite (sum_dlt 4 0) by lia. rewrite (sum_dlt 4 1) by lia. reflexivity.
Qed.

(** C14 is false as stated: the two printed WnT2^3 numbers differ for this W, T2 and D2. *)
Theorem C14_WnT2cubed_routes_refuted : exists no nv W T2 D2 E96 E103,
  is_tei (no + nv) W /\ is_amp_ov 2 no nv T2 /\ shape D2 = [no; no; nv; nv] /\
  returns 2 lib_cc_energy sixthOrderQf_wnT2cubed_L96 [VT W; VT T2; o_ no; v_ no; VT D2] E96 /\
  returns 2 lib_cc_energy sixthOrderQf_wnT2cubed_L103 [VT W; VT T2; o_ no; v_ no; VT D2] E103 /\
  data E96 [] <> data E103 [].
Proof.
  destruct (C14_difference (i_tei 8) T_w (i_amp_ov 3 4 4) (i_tei_ok 8) T_w_ok (i_amp_ov_ok 3 4 4)) as [E96 [E103 [X [R96 [R103 [RX E]]]]]].
  exists 4%nat, 4%nat, (i_tei 8), T_w, D_w, E96, E103.
  split; [exact (i_tei_ok 8)|]. split; [exact T_w_ok|]. split; [reflexivity|]. split; [exact R96|]. split; [exact R103|].
  rewrite E. generalize (data E103 []); intros e H. clear E R96 R103.
  assert (V : data X [0; 1; 0; 1]%nat = match run 2 lib_cc_energy f_inter [VT (i_tei 8); VT T_w; o_ 4; v_ 4] with
     Some (VT X) => data X [0; 1; 0; 1]%nat | _ => 0 end) by (unfold returns in RX; rewrite RX; reflexivity).
  rewrite V in H. clear V RX X.
  assert (G : forall x y : Qc, x + y = x -> y = 0).
  { intros x y K. replace y with (x + y - x) by ring. rewrite K. ring. }
  apply G in H. revert H. vm_compute. discriminate.
Qed.
Print Assumptions C14_WnT2cubed_routes_refuted.
