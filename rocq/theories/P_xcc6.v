(** C66, the methods XCCD(5) ... XCCD(9): energy and residual as projections of one state. *)
From Coq Require Import String Ascii List Arith NArith ZArith QArith Qcanon Bool Lia Permutation.
From Verif Require Import Sums Tensor Interp Numpy Poly SymExec Canon Spec Instances Setup Master Spin Check Tabs NF Antisym Formula Unround Fock Wick CCState P_fock Dress Commut NOrd Proj Elem P_antisym Asym P_fock2 P_fock3 P_qf P_fock4 Bound.
From Verif Require Import Diis Kernel SlowCC Cut P_xcc SpecDriver P_ccsd P_slow P_slow3 P_xcc2 BoundedInst OpMerge P_xcc3 P_xcc4 P_xcc5.
From Coq Require Import List.
Import ListNotations.
Open Scope string_scope.
Open Scope list_scope.
Open Scope Qc_scope.

Lemma Qcmult_le_l a c d : 0 <= a -> c <= d -> a * c <= a * d.
Proof. intros H1 H2. rewrite (Qcmult_comm a c), (Qcmult_comm a d). apply Qcmult_le_compat_r; assumption. Qed.

(** *** The quadruple matrix elements of any state are antisymmetric *)
Lemma act_cons o ops psi n : act (o :: ops) psi n = fop (fst o) (snd o) (act ops psi) n.
Proof. reflexivity. Qed.
Lemma act_dex_swap no x y post psi : dex no x -> dex no y -> forall pre n, act (pre ++ x :: y :: post) psi n = - act (pre ++ y :: x :: post) psi n.
Proof.
  intros Hx Hy. induction pre as [|o pre IH]; intros n.
  - cbn [app]. rewrite !act_cons. apply (dex_swap no x y (act post psi) n Hx Hy).
  - cbn [app]. rewrite !act_cons. unfold fop. rewrite (ferm_ext _ _ _ _ (fun m => - (1) * act (pre ++ y :: x :: post) psi m)) by (intros m; rewrite IH; ring).
    rewrite ferm_scale. ring.
Qed.
Lemma bra4_act no nv a b c d i j k l psi : bra4 no nv a b c d i j k l psi =
  act [(true, i); (true, j); (true, k); (true, l); (false, no + d); (false, no + c); (false, no + b); (false, no + a)]%nat psi (ref no nv).
Proof. reflexivity. Qed.
Lemma dexO no i : (i < no)%nat -> dex no (true, i).
Proof. intros H. unfold dex. cbn [fst snd]. apply Nat.ltb_lt. exact H. Qed.
Lemma dexV no a : dex no (false, no + a)%nat.
Proof. unfold dex. cbn [fst snd]. apply Nat.ltb_ge. lia. Qed.
Lemma elem4_amp no nv psi : is_amp 4 no nv (elem4 no nv psi).
Proof.
  split; [reflexivity|]. intros i Hi. assert (i = 0 \/ i = 1 \/ i = 2)%nat as Ci by lia.
  split; intros pre x y post L I1 _; cbn [shape elem4] in I1.
  - destruct Ci as [->|[->| ->]].
    + destruct pre as [|? ?]; [|discriminate L]. cbn [app] in *. idx_ I1. cbn [elem4 data]. rewrite !bra4_act.
      match goal with |- act [?o1; ?o2; ?o3; ?o4; ?o5; ?o6; ?u; ?v] _ _ = _ => exact (act_dex_swap no u v [] psi (dexV _ _) (dexV _ _) [o1; o2; o3; o4; o5; o6] _) end.
    + destruct pre as [|? [|? ?]]; try discriminate L. cbn [app] in *. idx_ I1. cbn [elem4 data]. rewrite !bra4_act.
      match goal with |- act [?o1; ?o2; ?o3; ?o4; ?o5; ?u; ?v; ?o8] _ _ = _ => exact (act_dex_swap no u v [o8] psi (dexV _ _) (dexV _ _) [o1; o2; o3; o4; o5] _) end.
    + destruct pre as [|? [|? [|? ?]]]; try discriminate L. cbn [app] in *. idx_ I1. cbn [elem4 data]. rewrite !bra4_act.
      match goal with |- act [?o1; ?o2; ?o3; ?o4; ?u; ?v; ?o7; ?o8] _ _ = _ => exact (act_dex_swap no u v [o7; o8] psi (dexV _ _) (dexV _ _) [o1; o2; o3; o4] _) end.
  - destruct Ci as [->|[->| ->]].
    + destruct pre as [|? [|? [|? [|? [|? ?]]]]]; try discriminate L. cbn [app] in *. idx_ I1. cbn [elem4 data]. rewrite !bra4_act.
      match goal with |- act [?u; ?v; ?o3; ?o4; ?o5; ?o6; ?o7; ?o8] _ _ = _ => refine (act_dex_swap no u v [o3; o4; o5; o6; o7; o8] psi _ _ [] _); apply dexO; assumption end.
    + destruct pre as [|? [|? [|? [|? [|? [|? ?]]]]]]; try discriminate L. cbn [app] in *. idx_ I1. cbn [elem4 data]. rewrite !bra4_act.
      match goal with |- act [?o1; ?u; ?v; ?o4; ?o5; ?o6; ?o7; ?o8] _ _ = _ => refine (act_dex_swap no u v [o4; o5; o6; o7; o8] psi _ _ [o1] _); apply dexO; assumption end.
    + destruct pre as [|? [|? [|? [|? [|? [|? [|? ?]]]]]]]; try discriminate L. cbn [app] in *. idx_ I1. cbn [elem4 data]. rewrite !bra4_act.
      match goal with |- act [?o1; ?o2; ?u; ?v; ?o5; ?o6; ?o7; ?o8] _ _ = _ => refine (act_dex_swap no u v [o5; o6; o7; o8] psi _ _ [o1; o2] _); apply dexO; assumption end.
Qed.
Lemma elem4_swapped no nv psi P : teq P (elem4_ov no nv psi) -> swapped 4 (elem4 no nv psi) P.
Proof.
  intros [S E]. split; [exact S|]. intros l1 l2 L I. pose proof I as I'. cbn [elem4 shape] in I'.
  destruct l1 as [|a [|b [|c [|d [|? ?]]]]]; try discriminate L. clear L. cbn [app] in *. idx_ I'. cbn [app elem4 data].
  rewrite E by (rewrite S; repeat constructor; assumption). reflexivity.
Qed.

(** *** The correction states, order by order, and their sum.  The amplitudes of Q4 are the numbers <Phi_ijkl^abcd| Q |Phi>
    which the order-5 step leaves in the file: nothing divides them by an orbital gap. *)
Definition xccd_corr (k no nv : nat) (f g t2 : tensor) : ket :=
  let H := Ham no nv f g in
  let T2 := T2op no nv t2 in
  let L2 := T2adj no nv t2 in
  let Q := oscale (1 # 2) (comm (comm H T2) T2) in
  let C := oscale (1 # 6) (comm (comm (comm H T2) T2) T2) in
  let D := oscale (1 # 24) (comm (comm (comm (comm H T2) T2) T2) T2) in
  let Q4 := T4op no nv (elem4 no nv (Q (Phi no nv))) in
  let W := oplus (oscale (1 # 2) (comm (comm (comm L2 T2) T2) Q4)) (oscale (1 # 2) (comm (comm L2 Q4) Q4)) in
  match k with
  | 5%nat => oscale (1 # 2) (omul L2 Q) (Phi no nv)
  | 6%nat => oscale (1 # 2) (omul L2 C) (Phi no nv)
  | 7%nat => oscale (1 # 6) (omul L2 (comm (comm L2 T2) Q4)) (Phi no nv)
  | 8%nat => oscale (1 # 6) (omul L2 (omul L2 D)) (Phi no nv)
  | 9%nat => oscale (1 # 6) (omul L2 (omul L2 W)) (Phi no nv)
  | _ => fun _ => 0
  end.
Definition xccd_state (n no nv : nat) (f g t2 : tensor) : ket := fun m => suml (seq 5 (n - 4)) (fun k => xccd_corr k no nv f g t2 m).
(** How far the printed decimals move an entry: orders 7 and 9 have rounded coefficients, the others are exact. *)
Definition xccd_eps (n N : nat) (M : Qc) : Qc :=
  (if (7 <=? n)%nat then Q2Qc (1 # 10000000) * qn N ^ 8 * M ^ 4 else 0) + (if (9 <=? n)%nat then Q2Qc (3 # 1000000) * qn N ^ 12 * M ^ 6 else 0).

Lemma bra2_suml no nv a b i j (ks : list nat) F : bra2 no nv a b i j (fun m => suml ks (fun k => F k m)) = suml ks (fun k => bra2 no nv a b i j (F k)).
Proof. exact (act_suml [(true, i); (true, j); (false, no + b); (false, no + a)]%nat ks (fun k m => F k m) (ref no nv)). Qed.

Section Orders.
  Variables no nv : nat.
  Variables f g t2 : tensor.
  Variable M : Qc.
  Hypothesis Hf : is_fock (no + nv) f.
  Hypothesis Hg : is_tei (no + nv) g.
  Hypothesis H2 : is_amp 2 no nv t2.
  Hypothesis HN : (1 <= no + nv)%nat.
  Hypothesis HM : 1 <= M.
  Hypothesis Bg : bounded M g.
  Hypothesis B2 : bounded M t2.
  Notation Qstate := (oscale (1 # 2) (comm (comm (Ham no nv f g) (T2op no nv t2)) (T2op no nv t2)) (Phi no nv)).
  Hypothesis B4 : bounded M (elem4 no nv Qstate).
  Notation e7 := (Q2Qc (1 # 10000000) * qn (no + nv) ^ 8 * M ^ 4).
  Notation e9 := (Q2Qc (3 # 1000000) * qn (no + nv) ^ 12 * M ^ 6).
  Lemma e7_pos : 0 <= e7.
  Proof using HM.
    assert (M0 : 0 <= M) by (eapply Qcle_trans; [apply Qcle_0_1|exact HM]).
    apply Qcmult_nonneg; [apply Qcmult_nonneg|]; [discriminate|apply Qcpow_nonneg, qn_pos|apply Qcpow_nonneg, M0].
  Qed.
  Lemma e9_pos : 0 <= e9.
  Proof using HM.
    assert (M0 : 0 <= M) by (eapply Qcle_trans; [apply Qcle_0_1|exact HM]).
    apply Qcmult_nonneg; [apply Qcmult_nonneg|]; [discriminate|apply Qcpow_nonneg, qn_pos|apply Qcpow_nonneg, M0].
  Qed.
  Definition ek (k : nat) : Qc := if Nat.eqb k 7 then e7 else if Nat.eqb k 9 then e9 else 0.
  Lemma ek_pos k : 0 <= ek k.
  Proof using HM. unfold ek. destruct (Nat.eqb k 7); [apply e7_pos|]. destruct (Nat.eqb k 9); [apply e9_pos|apply Qcle_refl]. Qed.
  Lemma teq_close T S : teq T S -> close 0 T S.
  Proof using. intros [E1 E2]. split; [exact E1|]. intros idx I. rewrite E2 by exact I. replace (data S idx - data S idx) with 0 by ring. rewrite Qcabs.Qcabs_pos by apply Qcle_refl. apply Qcle_refl. Qed.

  Lemma xccd_bases : exists B P, (forall w, xcc_base no nv g 5 t2 w = Some (B 5%nat, Some P)) /\
    (forall k, (6 <= k <= 9)%nat -> xcc_base no nv g k t2 (Some P) = Some (B k, Some P)) /\
    (forall k, (5 <= k <= 9)%nat -> is_amp 2 no nv (B k) /\ close (ek k) (B k) (elem2 no nv (xccd_corr k no nv f g t2))).
  Proof using All.
    destruct (C66_xccd_orders_5_6 no nv f g t2 Hf Hg H2) as [B5 [B6 [P [X5 [X6 [E5 [E6 EP]]]]]]].
    pose proof (elem4_swapped no nv _ P EP) as SW. pose proof (elem4_amp no nv Qstate) as A4.
    destruct (C66_xccd_order_7_bound no nv g t2 _ P M Hg H2 A4 SW HN HM Bg B2 B4) as [B7 [X7 C7]].
    destruct (C66_xccd_order_8 no nv f g t2 Hf Hg H2) as [B8 [X8 E8]].
    destruct (C66_xccd_order_9_bound no nv g t2 _ P M Hg H2 A4 SW HN HM Bg B2 B4) as [B9 [X9 C9]].
    set (B := fun k => match k with 5%nat => B5 | 6%nat => B6 | 7%nat => B7 | 8%nat => B8 | _ => B9 end).
    assert (XK : forall k, (6 <= k <= 9)%nat -> xcc_base no nv g k t2 (Some P) = Some (B k, Some P)).
    { intros k Hk. assert (k = 6 \/ k = 7 \/ k = 8 \/ k = 9)%nat as [->|[->|[->| ->]]] by lia; cbn [B]; [apply X6|exact X7|apply X8|exact X9]. }
    exists B, P. split; [exact X5|]. split; [exact XK|].
    destruct (xcc_base_ok no nv g t2 Hg H2 5 None ltac:(lia) (or_introl eq_refl)) as [B' [w1 [EB [A5 [_ GD]]]]]. rewrite X5 in EB. injection EB as <- <-.
    intros k Hk. split.
    - destruct (Nat.eq_dec k 5) as [->|N5]; [exact A5|].
      destruct (xcc_base_ok no nv g t2 Hg H2 k (Some P) ltac:(lia) (or_intror GD)) as [B' [w1 [EB [A6 _]]]]. rewrite XK in EB by lia. injection EB as <- <-. exact A6.
    - assert (k = 5 \/ k = 6 \/ k = 7 \/ k = 8 \/ k = 9)%nat as [->|[->|[->|[->| ->]]]] by lia; cbn [B xccd_corr ek Nat.eqb];
        [apply teq_close, E5|apply teq_close, E6|exact C7|apply teq_close, E8|exact C9].
  Qed.
  Lemma eps_sum n : (5 <= n <= 9)%nat -> suml (seq 5 (n - 4)) ek = xccd_eps n (no + nv) M.
  Proof using.
    clear HN. intros Hn. assert (n = 5 \/ n = 6 \/ n = 7 \/ n = 8 \/ n = 9)%nat as [->|[->|[->|[->| ->]]]] by lia; cbn [Nat.sub seq suml]; unfold ek, xccd_eps; cbn [Nat.eqb Nat.leb]; ring.
  Qed.
  Lemma suml_err {X} (l : list X) (F G E : X -> Qc) : (forall x, In x l -> Qcabs.Qcabs (F x - G x) <= E x) -> Qcabs.Qcabs (suml l F - suml l G) <= suml l E.
  Proof using.
    induction l as [|x l IH]; intros H; cbn [suml].
    - replace (0 - 0) with 0 by ring. rewrite Qcabs.Qcabs_pos by apply Qcle_refl. apply Qcle_refl.
    - replace (F x + suml l F - (G x + suml l G)) with ((F x - G x) + (suml l F - suml l G)) by ring.
      eapply Qcle_trans; [apply Qcabs.Qcabs_triangle|]. apply Qcplus_le_compat; [apply H; left; reflexivity|]. apply IH. intros y Hy. apply H. right. exact Hy.
  Qed.
End Orders.

Section Runs.
  Variables no nv : nat.
  Variables f g D2 t2 : tensor.
  Hypothesis Hg : is_tei (no + nv) g.
  Hypothesis DS : shape D2 = [nv; nv; no; no].
  Hypothesis Ht : is_amp 2 no nv t2.
  Variable B : nat -> tensor.
  Variable P : tensor.
  Lemma runs_from n : forall k w, (5 <= k)%nat -> (k + n <= 10)%nat -> (forall w, xcc_base no nv g 5 t2 w = Some (B 5%nat, Some P)) ->
    (forall k, (6 <= k <= 9)%nat -> xcc_base no nv g k t2 (Some P) = Some (B k, Some P)) -> (forall k, (5 <= k <= 9)%nat -> is_amp 2 no nv (B k)) ->
    (k = 5%nat \/ w = Some P) ->
    (exists w', xcc_energies no nv g D2 false t2 (seq k n) w = Some (map (fun k => quarter no nv (fun a b i j => data t2 [a; b; i; j]) (B k)) (seq k n), w')) /\
    forall r, is_amp 2 no nv r -> exists r' w', xcc_resids no nv g (seq k n) t2 r w = Some (r', w') /\ is_amp 2 no nv r' /\
      forall idx, data r' idx = data r idx + suml (seq k n) (fun k => data (B k) idx).
  Proof using Hg DS Ht.
    induction n as [|n IH]; intros k w H1 H2 X5 XK HA HW.
    - split; [eexists; reflexivity|]. intros r Hr. exists r, w. split; [reflexivity|]. split; [exact Hr|]. intros idx. cbn [seq suml]. ring.
    - assert (E : xcc_base no nv g k t2 w = Some (B k, Some P)).
      { destruct HW as [->| ->]; [apply X5|]. destruct (Nat.eq_dec k 5) as [->|]; [apply X5|apply XK; lia]. }
      pose proof (HA k ltac:(lia)) as HB.
      destruct (IH (S k) (Some P) ltac:(lia) ltac:(lia) X5 XK HA (or_intror eq_refl)) as [[w' HE] HR]. split.
      + exists w'. cbn [seq xcc_energies]. rewrite (energy1_val no nv g D2 t2 Hg DS Ht false k w (B k) (Some P) E HB). cbn [obind fst snd]. rewrite HE. reflexivity.
      + intros r Hr. cbn [seq xcc_resids]. rewrite E. cbn [obind fst snd]. rewrite tbin_ok by (rewrite (proj1 Hr), (proj1 HB); reflexivity). cbn [obind].
        destruct (HR (mkT (shape r) (fun i => data r i + data (B k) i))) as [r' [w2 [E' [A' V']]]].
        { destruct (amp_plus no nv 2 r (B k) Hr HB) as [r2 [E2 A2]]. rewrite tbin_ok in E2 by (rewrite (proj1 Hr), (proj1 HB); reflexivity). apply some_inj in E2. rewrite E2. exact A2. }
        exists r', w2. split; [exact E'|]. split; [exact A'|]. intros idx. rewrite V'. cbn [data suml seq]. ring.
  Qed.
End Runs.

(** C66, all methods.  With the labels XCCD(5), ..., XCCD(9) the energy is <Phi| e^-T H e^T |Phi> plus <Phi| L2 |chi_n>, and one pass
    replaces t2 by t2 + D * (<Phi_ij^ab| e^-T H e^T |Phi> + <Phi_ij^ab| chi_n>), with T = T2 and |chi_n> the sum of the corrections of the
    orders 5 to n: up to the rounding of the printed coefficients of orders 7 and 9, and whatever file an earlier calculation left behind. *)
Definition xccd_label (n : nat) : string := nth (n - 5) ["XCCD(5)"; "XCCD(6)"; "XCCD(7)"; "XCCD(8)"; "XCCD(9)"] "".
Theorem C66_xccd_methods_all : forall no nv f g D2 eps c n d w t2 M K,
  is_fock (no + nv) f -> is_tei (no + nv) g -> is_denominator 2 no nv eps D2 -> gapped 2 no nv eps ->
  (5 <= n <= 9)%nat -> cc_type c = xccd_label n -> slook "t2aa" d = Some t2 -> is_amp 2 no nv t2 -> (2 <= K)%nat ->
  let Q := oscale (1 # 2) (comm (comm (Ham no nv f g) (T2op no nv t2)) (T2op no nv t2)) in
  (1 <= no + nv)%nat -> 1 <= M -> bounded M g -> bounded M t2 -> bounded M (elem4 no nv (Q (Phi no nv))) ->
  let psi := cc_state K no nv f g (T2op no nv t2) in
  let chi := xccd_state n no nv f g t2 in
  let err := xccd_eps n (no + nv) M in
  (exists E w', t2energy_slow no nv f g D2 c d w = Some (E, w') /\
     Qcabs.Qcabs (E - (bra0 no nv psi + bra0 no nv (T2adj no nv t2 chi))) <= Q2Qc (1 # 4) * qn (no + nv) ^ 4 * M * err) /\
  exists d' w' t2', t2resid_slow no nv f g D2 c d w = Some (d', w') /\ slook "t2aa" d' = Some t2' /\ shape t2' = [nv; nv; no; no] /\
    forall a b i j, (a < nv)%nat -> (b < nv)%nat -> (i < no)%nat -> (j < no)%nat ->
      Qcabs.Qcabs (data t2' [a; b; i; j] - (data t2 [a; b; i; j] + data D2 [a; b; i; j] * (bra2 no nv a b i j psi + bra2 no nv a b i j chi)))
        <= Qcabs.Qcabs (data D2 [a; b; i; j]) * err.
Proof.
  intros no nv f g D2 eps c n d w t2 M K Hf Hg HD HG Hn Ty Hd Ht HK Q HN HM Bg B2 B4 psi chi err.
  assert (M0 : 0 <= M) by (eapply Qcle_trans; [apply Qcle_0_1|exact HM]).
  destruct (xccd_bases no nv f g t2 M Hf Hg Ht HN HM Bg B2 B4) as [B [P [X5 [XK HA]]]].
  destruct (C42_ccd_equations no nv f g t2 Hf Hg Ht) as [R0 [E0 [HR0 [HE0 [_ [_ HMx]]]]]]. destruct (HMx K HK) as [ME MR]. clear HMx. fold psi in ME, MR.
  assert (DS : shape D2 = [nv; nv; no; no]) by apply HD.
  destruct (runs_from no nv g D2 t2 Hg DS Ht B P (n - 4) 5 w ltac:(lia) ltac:(lia) X5 XK (fun k Hk => proj1 (HA k Hk)) (or_introl eq_refl)) as [[w1 HE] HRr].
  assert (EO : extract_integer (cc_type c) = Some (seq 5 (n - 4))).
  { rewrite Ty. assert (n = 5 \/ n = 6 \/ n = 7 \/ n = 8 \/ n = 9)%nat as [->|[->|[->|[->| ->]]]] by lia; reflexivity. }
  assert (XF : xccd_flag c = true /\ contains "X" (cc_type c) = true /\ (cc_type c =? "LCCD") = false /\ (cc_type c =? "pCCD") = false).
  { unfold xccd_flag. rewrite Ty. assert (n = 5 \/ n = 6 \/ n = 7 \/ n = 8 \/ n = 9)%nat as [->|[->|[->|[->| ->]]]] by lia; repeat split; reflexivity. }
  destruct XF as [XF [CX [NL NP]]].
  set (BS := mkT [nv; nv; no; no] (fun idx => suml (seq 5 (n - 4)) (fun k => data (B k) idx))).
  assert (EX : forall a b i j, (a < nv)%nat -> (b < nv)%nat -> (i < no)%nat -> (j < no)%nat -> Qcabs.Qcabs (data BS [a; b; i; j] - bra2 no nv a b i j chi) <= err).
  { intros a b i j Ha Hb Hi Hj. cbn [BS data]. unfold chi, xccd_state. rewrite bra2_suml. unfold err. rewrite <- (eps_sum no nv M n Hn).
    apply suml_err. intros k Hk. apply in_seq in Hk. destruct (HA k ltac:(lia)) as [AB [CS CD]].
    apply (CD [a; b; i; j]). rewrite CS. repeat constructor; assumption. }
  assert (ER : 0 <= err).
  { unfold err. rewrite <- (eps_sum no nv M n Hn). clear -HM. induction (seq 5 (n - 4)) as [|k l IH]; cbn [suml]; [apply Qcle_refl|].
    replace 0 with (0 + 0) by ring. apply Qcplus_le_compat; [apply ek_pos; exact HM|exact IH]. }
  split.
  - eexists _, w1. split.
    + unfold t2energy_slow. rewrite Hd. cbn [obind]. rewrite XF. unfold ccd_energy. rewrite (call0_returns _ _ _ HE0). cbn [obind]. rewrite EO. cbn [obind]. rewrite HE. cbn [obind fst snd]. reflexivity.
    + rewrite ME. rewrite <- (quarter_L2 no nv t2 (elem2 no nv chi) chi) by (intros; reflexivity).
      set (tt := fun a b i j => data t2 [a; b; i; j]).
      assert (LS : lsum (map (fun k => quarter no nv tt (B k)) (seq 5 (n - 4))) = quarter no nv tt BS).
      { unfold lsum. rewrite suml_map. unfold quarter. cbn [BS data]. rewrite suml_scale. f_equal. rewrite suml_swap. apply suml_ext. intros a _. rewrite suml_swap. apply suml_ext. intros b _.
        rewrite suml_swap. apply suml_ext. intros i _. rewrite suml_swap. apply suml_ext. intros j _. apply suml_scale. }
      rewrite LS. match goal with |- Qcabs.Qcabs ?x <= _ => replace x with (quarter no nv tt BS - quarter no nv tt (elem2 no nv chi)) by ring end.
      assert (NO : qn no <= qn (no + nv)) by (apply qn_le; lia). assert (NV : qn nv <= qn (no + nv)) by (apply qn_le; lia).
      pose proof (qn_pos no) as PO. pose proof (qn_pos nv) as PV. pose proof (qn_pos (no + nv)) as PN.
      assert (ME0 : 0 <= M * err) by (apply Qcmult_nonneg; assumption).
      unfold quarter. match goal with |- Qcabs.Qcabs (?u * ?x - ?u * ?y) <= _ => replace (u * x - u * y) with (u * (x - y)) by ring end.
      rewrite Qcabs.Qcabs_Qcmult. rewrite (Qcabs.Qcabs_pos (Q2Qc (1 # 4))) by discriminate.
      match goal with |- _ <= ?r => replace r with (Q2Qc (1 # 4) * (qn (no + nv) * (qn (no + nv) * (qn (no + nv) * (qn (no + nv) * (M * err)))))) by (unfold Qcpower; ring) end.
      apply Qcmult_le_l; [discriminate|].
      assert (step : forall (m : nat) F G b, (m <= no + nv)%nat -> 0 <= b -> (forall x, (x < m)%nat -> Qcabs.Qcabs (F x - G x) <= b) -> Qcabs.Qcabs ((Sum x < m, F x) - (Sum x < m, G x)) <= qn (no + nv) * b).
      { intros m F G b Hm Hb0 HF. rewrite <- suml_minus2. eapply Qcle_trans; [apply (suml_abs _ _ b Hb0)|].
        - intros x Hx. apply in_seq in Hx. apply HF. lia.
        - rewrite seq_length. apply Qcmult_le_compat_r; [apply qn_le; exact Hm|exact Hb0]. }
      assert (PN1 : forall b, 0 <= b -> 0 <= qn (no + nv) * b) by (intros; apply Qcmult_nonneg; assumption).
      apply step; [lia|auto|]. intros a Ha. apply step; [lia|auto|]. intros b Hb. apply step; [lia|auto|]. intros i Hi. apply step; [lia|auto|]. intros j Hj.
      replace (tt a b i j * data BS [a; b; i; j] - tt a b i j * data (elem2 no nv chi) [a; b; i; j]) with (tt a b i j * (data BS [a; b; i; j] - bra2 no nv a b i j chi)) by (cbn [elem2 data]; ring).
      rewrite Qcabs.Qcabs_Qcmult. eapply Qcle_trans; [apply Qcmult_le_l; [apply Qcabs.Qcabs_nonneg|apply EX; assumption]|].
      apply Qcmult_le_compat_r; [|exact ER]. apply (B2 [a; b; i; j]). rewrite (proj1 Ht). repeat constructor; assumption.
  - destruct (ccd_amp no nv f g t2 Hf Hg Ht) as [R0' [H0 A0]].
    assert (R0' = R0) as -> by (pose proof (call0_returns _ _ _ HR0) as H1; congruence).
    destruct (HRr R0 A0) as [r' [w2 [E' [A' V']]]].
    assert (ST : shape t2 = [nv; nv; no; no]) by apply Ht. assert (SR : shape r' = [nv; nv; no; no]) by apply A'.
    eexists _, w2, _. split; [|split; [|split]].
    + unfold t2resid_slow. rewrite Hd. cbn [obind]. rewrite H0. cbn [obind]. rewrite NL. cbn [obind]. rewrite CX, EO. cbn [obind]. rewrite E'. cbn [obind fst snd].
      rewrite tbin_ok by (cbn [trecip shape]; congruence). cbn [obind].
      rewrite tbin_ok by (cbn [trecip shape]; congruence). cbn [obind].
      rewrite tbin_ok by (cbn [trecip shape]; congruence). cbn [obind]. rewrite NP. reflexivity.
    + cbn [slook String.eqb Ascii.eqb Bool.eqb]. reflexivity.
    + exact SR.
    + intros a b i j Ha Hb Hi Hj. cbn [data trecip].
      assert (I : inr [a; b; i; j] [nv; nv; no; no]) by (repeat constructor; assumption).
      assert (ND : data D2 [a; b; i; j] <> 0).
      { change [a; b; i; j] with ([a; b] ++ [i; j])%list. rewrite (proj2 HD [a; b] [i; j] eq_refl) by (rewrite DS; exact I).
        assert (NG : gap no eps [a; b] [i; j] <> 0) by (apply HG; try reflexivity; intros x [<-|[<-|[]]]; assumption).
        intros Z. apply NG. transitivity (gap no eps [a; b] [i; j] * (gap no eps [a; b] [i; j] * / gap no eps [a; b] [i; j]))%Qc.
        - rewrite Qcmult_inv_r by exact NG. ring.
        - rewrite Z. ring. }
      rewrite V'. change (suml (seq 5 (n - 4)) (fun k => data (B k) [a; b; i; j])) with (data BS [a; b; i; j]). rewrite MR by assumption.
      set (dd := data D2 [a; b; i; j]) in *. set (x := data t2 [a; b; i; j]). set (y := bra2 no nv a b i j psi).
      match goal with |- Qcabs.Qcabs ?z <= _ => replace z with (dd * (data BS [a; b; i; j] - bra2 no nv a b i j chi)) end.
      * rewrite Qcabs.Qcabs_Qcmult. apply Qcmult_le_l; [apply Qcabs.Qcabs_nonneg|apply EX; assumption].
      * replace ((y + data BS [a; b; i; j] + / dd * x) * dd) with ((dd * / dd) * x + dd * (y + data BS [a; b; i; j])) by ring. rewrite Qcmult_inv_r by exact ND. ring.
Qed.
Print Assumptions C66_xccd_methods_all.
Lemma i_eps_gapped4 : gapped 2 4 4 i_eps.
Proof.
  intros virt occ LV LO HV HO. destruct virt as [|a [|b [|]]]; try discriminate. destruct occ as [|i [|j [|]]]; try discriminate.
  assert (Ha : (a < 4)%nat) by (apply HV; cbn; auto). assert (Hb : (b < 4)%nat) by (apply HV; cbn; auto).
  assert (Hi : (i < 4)%nat) by (apply HO; cbn; auto). assert (Hj : (j < 4)%nat) by (apply HO; cbn; auto).
  destruct a as [|[|[|[|]]]], b as [|[|[|[|]]]], i as [|[|[|[|]]]], j as [|[|[|[|]]]]; try lia; vm_compute; discriminate.
Qed.
Example C66_xccd_methods_all_instance : exists M E w' d' w'' t2', 1 <= M /\ bounded M (i_tei 8) /\ bounded M (i_amp 2 4 4) /\
  t2energy_slow 4 4 (i_fock 8) (i_tei 8) (i_den 2 4 4) (i_calc "XCCD(9)" None) [("t2aa", i_amp 2 4 4)] None = Some (E, w') /\
  t2resid_slow 4 4 (i_fock 8) (i_tei 8) (i_den 2 4 4) (i_calc "XCCD(9)" None) [("t2aa", i_amp 2 4 4)] None = Some (d', w'') /\ slook "t2aa" d' = Some t2'.
Proof.
  set (Q := oscale (1 # 2) (comm (comm (Ham 4 4 (i_fock 8) (i_tei 8)) (T2op 4 4 (i_amp 2 4 4))) (T2op 4 4 (i_amp 2 4 4)))).
  destruct (bounded_all [i_tei 8; i_amp 2 4 4; elem4 4 4 (Q (Phi 4 4))]) as [M [M1 MB]].
  inversion MB as [|? ? B1 MB1]; subst. inversion MB1 as [|? ? B2 MB2]; subst. inversion MB2 as [|? ? B3 _]; subst.
  destruct (C66_xccd_methods_all 4 4 _ _ _ i_eps (i_calc "XCCD(9)" None) 9 [("t2aa", i_amp 2 4 4)] None _ M 2
    (i_fock_ok 8) (i_tei_ok 8) (i_den_ok 2 4 4) i_eps_gapped4 ltac:(lia) eq_refl eq_refl (i_amp_ok 2 4 4) (le_n 2) ltac:(lia) M1 B1 B2 B3) as [[E [w' [HE _]]] [d' [w'' [t2' [HR [HT _]]]]]].
  exists M, E, w', d', w'', t2'. split; [exact M1|]. split; [exact B1|]. split; [exact B2|]. split; [exact HE|]. split; [exact HR|exact HT].
Qed.
