(** C74, C75: the perturbation energies printed by run_wickedTest. *)
From Coq Require Import String Ascii List Arith NArith ZArith QArith Qcanon Bool Lia Permutation.
From Verif Require Import Sums Tensor Interp Poly SymExec Canon Spec SpecDriver Instances Setup Master Spin Check Tabs NF Antisym Formula P_antisym Asym
  P_drive SlowCC P_slow SpinOrb P_ints3 Wicked.
From Verif Require Code_wicked_T3corr.
Import ListNotations.
Open Scope string_scope.
Open Scope list_scope.
Open Scope Qc_scope.

(** ** Specification *)
(** first-order doubles amplitudes <ij||ab> / (e_i + e_j - e_a - e_b) *)
Definition mp_amp (no : nat) (eps : nat -> Qc) (g : tensor) (i j a b : nat) : Qc :=
  data g [i; j; no + a; no + b]%nat / gap no eps [a; b] [i; j].
(** second-order energy 1/4 sum <ij||ab> t_ijab *)
Definition E2 (no nv : nat) (g : tensor) (t : nat -> nat -> nat -> nat -> Qc) : Qc :=
  Q2Qc (1 # 4) * (Sum i < no, Sum j < no, Sum a < nv, Sum b < nv, data g [i; j; no + a; no + b]%nat * t i j a b).
(** third-order energy: particle-particle, hole-hole and particle-hole ladders between t and t' *)
Definition E3 (no nv : nat) (g : tensor) (t t' : nat -> nat -> nat -> nat -> Qc) : Qc :=
  Q2Qc (1 # 8) * (Sum i < no, Sum j < no, Sum a < nv, Sum b < nv, Sum c < nv, Sum d < nv,
     t i j a b * data g [no + a; no + b; no + c; no + d]%nat * t' i j c d) +
  Q2Qc (1 # 8) * (Sum i < no, Sum j < no, Sum a < nv, Sum b < nv, Sum k < no, Sum l < no,
     t i j a b * data g [i; j; k; l] * t' k l a b) +
  Q2Qc (-1 # 1) * (Sum i < no, Sum j < no, Sum a < nv, Sum b < nv, Sum k < no, Sum c < nv,
     t i j a b * data g [j; no + c; k; no + b]%nat * t' i k a c).
(** p and q follow each other *)
Definition next_to (p q : nat) : bool := (Nat.eqb q (p + 1) || Nat.eqb p (q + 1))%bool.
(** amplitudes without those of two neighbouring occupied and two neighbouring virtual spin orbitals *)
Definition no_neighbours (t : nat -> nat -> nat -> nat -> Qc) (i j a b : nat) : Qc :=
  if (next_to i j && next_to a b)%bool then 0 else t i j a b.

(** ** Proof machinery *)
Definition c_dot : fn := mkFn ["R"; "T"] [SAssign "e" (EScale (1 # 4) (EEins "ijab,ijab->" [EVar "R"; EVar "T"]))] (EVar "e").
Definition p_dot : poly := Eval vm_compute in [mkterm "" "ijab" (1 # 4) [(60%N, "ijab"); (61%N, "ijab")]].
Definition p_en : poly := Eval vm_compute in [mkterm "" "ijab" (1 # 4) [(60%N, "ijab"); (1%N, "abij")]].
Definition p_W : poly := Eval vm_compute in [mkterm "ijab" "" (1 # 1) [(1%N, "ijab")]].
Definition p_E3 : poly := Eval vm_compute in
  [mkterm "" "ijabcd" (1 # 8) [(3%N, "ijab"); (1%N, "abcd"); (6%N, "ijcd")];
   mkterm "" "ijabkl" (1 # 8) [(3%N, "ijab"); (1%N, "ijkl"); (6%N, "klab")];
   mkterm "" "ijabkc" (-1 # 1) [(3%N, "ijab"); (1%N, "jckb"); (6%N, "ikac")]].
Ltac sums_ext i Hi := apply suml_ext_in; intros i Hi; apply in_seq in Hi; destruct Hi as [_ Hi]; cbn [Nat.add] in Hi.
Definition fun4 (t : tensor) (i j a b : nat) : Qc := data t [i; j; a; b].

Lemma wicked_antisym : is_antisymmetriser Code_wicked_T3corr.antisym_T2 2.
Proof. apply antisymmetriser_of_checks; [lia|unfold antisym_check1, antchk; cbv zeta; chk_|unfold antisym_check2; cbv zeta; chk_]. Qed.
Lemma wicked_antisym_amp no nv U R : shape U = [no; no; nv; nv] ->
  returns 0 [] Code_wicked_T3corr.antisym_T2 [VT U; VInt no; VInt nv] R -> is_amp_ov 2 no nv R.
Proof.
  intros S H. destruct (wicked_antisym no nv U S) as [R' [H' [[S' _] [A _]]]]. rewrite (returns_eq _ _ _ _ _ _ H H').
  split; [rewrite S', S; reflexivity|exact A].
Qed.

Section MP.
  Variables (no nv : nat) (g : tensor) (eps : nat -> Qc) (D2 : tensor).
  Hypothesis Hg : is_tei (no + nv) g.
  Hypothesis HD : is_denominator 2 no nv eps D2.
  Lemma dot_sum R T : shape R = [no; no; nv; nv] -> shape T = [no; no; nv; nv] ->
    exists E, returns 0 [] c_dot [VT R; VT T] E /\
      teq E (arr0 (Q2Qc (1 # 4) * (Sum i < no, Sum j < no, Sum a < nv, Sum b < nv, data R [i; j; a; b] * data T [i; j; a; b]))).
  Proof using.
    intros S1 S2. set (tab := [(60%N, ([0;0;1;1]%N, R)); (61%N, ([0;0;1;1]%N, T))] : atomtab).
    assert (M : [no; no; nv; nv] = map (dim (so_range no nv)) [0;0;1;1]%N) by (symmetry; apply (sh_ov no nv 2)).
    assert (OK : Forall (atom_ok (so_range no nv) sy) tab).
    { unfold tab. constructor; [|constructor; [|constructor]]; apply atom_ok_gen; first [reflexivity|congruence]. }
    eapply (so_reads no nv tab 0 [] c_dot [at_ 60 [0;0;1;1]%N; at_ 61 [0;0;1;1]%N] _ [] p_dot _ OK).
    - constructor; [|constructor; [|constructor]]; apply so_atom; first [reflexivity|congruence].
    - unfold p_dot, tab. so_form.
    - chk_.
  Qed.
  Lemma en_sum S : shape S = [no; no; nv; nv] ->
    get_WnT2_energy no S g = Some (Q2Qc (1 # 4) * (Sum i < no, Sum j < no, Sum a < nv, Sum b < nv, data S [i; j; a; b] * data g [no + a; no + b; i; j]%nat)).
  Proof using Hg.
    intros S1. set (tab := [(60%N, ([0;0;1;1]%N, S)); (1%N, ([6;6;6;6]%N, g))] : atomtab).
    assert (M : [no; no; nv; nv] = map (dim (so_range no nv)) [0;0;1;1]%N) by (symmetry; apply (sh_ov no nv 2)).
    assert (OK : Forall (atom_ok (so_range no nv) sy) tab).
    { unfold tab. constructor; [apply atom_ok_gen; [reflexivity|congruence]|]. oks. }
    assert (V1 : Forall2 (so_vsim no nv tab) [at_ 60 [0;0;1;1]%N; xG; xo; xv] [VT S; VT g; o_ no; v_ no]).
    { constructor; [apply so_atom; [reflexivity|congruence]|]. vsims. }
    assert (VF : so_vsim no nv tab (SP [] p_en) (VT (arr0 (Q2Qc (1 # 4) * (Sum i < no, Sum j < no, Sum a < nv, Sum b < nv,
       data S [i; j; a; b] * data g [no + a; no + b; i; j]%nat))))) by (unfold p_en, tab; so_form).
    destruct (so_reads no nv tab 0 [] get_WnT2_energy_fn _ _ [] p_en _ OK V1 VF) as [E [HE TE]]; [chk_|].
    unfold get_WnT2_energy. rewrite (call0_returns _ _ _ HE : call0 get_WnT2_energy_fn [VT S; VT g; VSl 0 (Some no); VSl no None] = Some E). cbn [obind]. destruct TE as [T1 T2]. cbn [shape arr0] in T1. rewrite T1.
    f_equal. apply (T2 []). rewrite T1. constructor.
  Qed.
  (** antisymmetrise, divide by the energy differences *)
  Lemma over_gaps_ok U R : returns 0 [] Code_wicked_T3corr.antisym_T2 [VT U; VInt no; VInt nv] R -> is_amp_ov 2 no nv R ->
    exists S, over_gaps no nv D2 U = Some S /\ is_amp_ov 2 no nv S /\
      forall i j a b, data S [i; j; a; b] = data R [i; j; a; b] * data D2 [a; b; i; j].
  Proof using HD.
    intros HR [S1 A1]. unfold over_gaps. rewrite (call0_returns _ _ _ HR). cbn [obind].
    destruct (den_sym no nv 2 eps D2 HD) as [S2 A2]. cbn [repeat app] in S1, S2.
    unfold ttransp at 1. rewrite S1. cbn [length Nat.eqb is_permb seq forallb existsb Datatypes.orb Datatypes.andb obind map nth index_of].
    rewrite tbin_ok by (cbn [shape]; congruence). cbn [obind shape data].
    unfold ttransp. cbn [shape length Nat.eqb is_permb seq forallb existsb Datatypes.orb Datatypes.andb map nth index_of data].
    eexists; split; [reflexivity|]. split; [|reflexivity].
    split; [reflexivity|]. intros i Hi. assert (i = 0%nat) as -> by lia.
    destruct (A1 0%nat ltac:(lia)) as [P1 P2], (A2 0%nat ltac:(lia)) as [Q1 Q2].
    split; intros pre x y post HL I1 I2; cbn [data shape] in *.
    - destruct pre; [|discriminate]. cbn [app] in *. pose proof (Forall2_len _ _ _ I1) as LL. cbn in LL.
      destruct post as [|a [|b [|]]]; cbn in LL; try lia. cbn [nth].
      pose proof (P1 [] x y [a; b] eq_refl) as P3. cbn [app] in P3. rewrite P3 by (rewrite S1; assumption).
      inversion I1; inversion I2; subst. repeat match goal with H : Forall2 _ (_ :: _) _ |- _ => inversion H; subst; clear H end.
      pose proof (Q2 [a; b] x y [] eq_refl) as Q3. cbn [app] in Q3. rewrite Q3 by (rewrite S2; repeat constructor; assumption). ring.
    - destruct pre as [|i [|j [|]]]; try discriminate. cbn [app] in *. pose proof (Forall2_len _ _ _ I1) as LL. cbn in LL.
      destruct post; cbn in LL; try lia. cbn [nth].
      pose proof (P2 [i; j] x y [] eq_refl) as P3. cbn [app] in P3. rewrite P3 by (rewrite S1; assumption).
      inversion I1; inversion I2; subst. repeat match goal with H : Forall2 _ (_ :: _) _ |- _ => inversion H; subst; clear H end.
      pose proof (Q1 [] x y [i; j] eq_refl) as Q3. cbn [app] in Q3. rewrite Q3 by (rewrite S2; repeat constructor; assumption). ring.
  Qed.
  (** the first-order amplitudes *)
  Lemma mp2_ok : exists T, build_MP2_T2 no nv g D2 = Some T /\ is_amp_ov 2 no nv T /\
    forall i j a b, (i < no)%nat -> (j < no)%nat -> (a < nv)%nat -> (b < nv)%nat ->
      data T [i; j; a; b] = data g [i; j; no + a; no + b]%nat * data D2 [a; b; i; j].
  Proof using Hg HD.
    set (tab := [(1%N, ([6;6;6;6]%N, g))] : atomtab).
    assert (OK : Forall (atom_ok (so_range no nv) sy) tab) by (unfold tab; oks).
    assert (V1 : Forall2 (so_vsim no nv tab) [xG; xo; xv] [VT g; o_ no; v_ no]) by vsims.
    set (W := arr4 no no nv nv (fun i j a b => 1 * data g [i; j; no + a; no + b]%nat)).
    assert (VW : so_vsim no nv tab (SP [0;0;1;1]%N p_W) (VT W)) by (unfold p_W, W, tab; so_form).
    so_nf OK 0%nat (@nil (string * fn)) mp2_source [0;0;1;1]%N V1 U HU VU.
    pose proof (so_asym_vs_ov no nv tab _ _ _ VU) as V4.
    so_nf OK 0%nat (@nil (string * fn)) Code_wicked_T3corr.antisym_T2 [0;0;1;1]%N V4 R HR VR.
    assert (E : teq R W) by (eapply (so_vs_eq no nv tab OK [0;0;1;1]%N); [exact VR|exact VW|chk_]).
    destruct E as [E1 E2].
    assert (AR : is_amp_ov 2 no nv R).
    { refine (wicked_antisym_amp no nv U R _ HR). rewrite (so_vs_shape _ _ _ _ _ _ VU). apply (sh_ov no nv 2). }
    destruct (over_gaps_ok U R HR AR) as [T [HT [AT DT]]]. exists T. split; [|split; [exact AT|]].
    - unfold build_MP2_T2. rewrite (call0_returns _ _ _ HU : call0 mp2_source [VT g; VSl 0 (Some no); VSl no None] = Some U). cbn [obind]. exact HT.
    - intros i j a b Hi Hj Ha Hb. rewrite DT, E2 by (rewrite E1; repeat constructor; assumption). unfold W. cbn [data arr4]. ring.
  Qed.
  (** the second-order amplitudes made from t', with the energy *)
  Lemma mp3_ok T T' : is_amp_ov 2 no nv T -> is_amp_ov 2 no nv T' ->
    (forall i j a b, (i < no)%nat -> (j < no)%nat -> (a < nv)%nat -> (b < nv)%nat ->
      data T [i; j; a; b] = data g [i; j; no + a; no + b]%nat * data D2 [a; b; i; j]) ->
    exists S, build_LCCD_T2 no nv g D2 T' = Some S /\ get_WnT2_energy no S g = Some (E3 no nv g (fun4 T) (fun4 T')).
  Proof using Hg HD.
    intros HT HT' DT.
    set (tab := [(1%N, ([6;6;6;6]%N, g)); (3%N, ([0;0;1;1]%N, T)); (6%N, ([0;0;1;1]%N, T'))] : atomtab).
    assert (OK : Forall (atom_ok (so_range no nv) sy) tab) by (unfold tab; oks).
    assert (V1 : Forall2 (so_vsim no nv tab) [at_ 6 [0;0;1;1]%N; xG; xo; xv] [VT T'; VT g; o_ no; v_ no]) by vsims.
    assert (VE : so_vsim no nv tab (SP [] p_E3) (VT (arr0 (E3 no nv g (fun4 T) (fun4 T'))))) by (unfold p_E3, E3, fun4, tab; so_form).
    so_nf OK 0%nat (@nil (string * fn)) lccd_source [0;0;1;1]%N V1 U HU VU.
    pose proof (so_asym_vs_ov no nv tab _ _ _ VU) as V4.
    so_nf OK 0%nat (@nil (string * fn)) Code_wicked_T3corr.antisym_T2 [0;0;1;1]%N V4 R HR VR.
    assert (SR : shape R = [no; no; nv; nv]).
    { pose proof (so_vs_shape _ _ _ _ _ _ VR) as X. rewrite X. apply (sh_ov no nv 2). }
    assert (AR : is_amp_ov 2 no nv R).
    { refine (wicked_antisym_amp no nv U R _ HR). rewrite (so_vs_shape _ _ _ _ _ _ VU). apply (sh_ov no nv 2). }
    destruct (over_gaps_ok U R HR AR) as [S [HS [AS DS]]]. exists S. split.
    - unfold build_LCCD_T2. rewrite (call0_returns _ _ _ HU : call0 lccd_source [VT T'; VT g; VSl 0 (Some no); VSl no None] = Some U). cbn [obind]. exact HS.
    - rewrite (en_sum S (proj1 AS)). f_equal.
      assert (V5 : Forall2 (so_vsim no nv tab) [_; at_ 3 [0;0;1;1]%N] [VT R; VT T]) by (constructor; [exact VR|vsims]).
      destruct (so_reads no nv tab 0 [] c_dot _ _ [] p_E3 _ OK V5 VE) as [E [HE TE]]; [chk_|].
      destruct (dot_sum R T SR (proj1 HT)) as [E' [HE' TE']].
      pose proof (returns_eq _ _ _ _ _ _ HE HE') as <-. destruct TE as [E1 E2], TE' as [_ E3'].
      assert (I0 : inr [] (shape E)) by (rewrite E1; constructor).
      transitivity (data E []); [|exact (E2 [] I0)]. rewrite (E3' [] I0). cbn [data arr0]. f_equal.
      destruct Hg as [Sg [_ Hh]].
      sums_ext i Hi. sums_ext j Hj. sums_ext a Ha. sums_ext b Hb.
      rewrite DS, (DT i j a b Hi Hj Ha Hb). pose proof (Hh [i; j] [no + a; no + b]%nat eq_refl eq_refl) as H2. cbn [app] in H2.
      rewrite H2 by (rewrite Sg; repeat constructor; lia). ring.
  Qed.
End MP.

Lemma kill_data no nv T i j a b : (i < no)%nat -> (j < no)%nat -> (a < nv)%nat -> (b < nv)%nat ->
  data (kill_Diag_T2 no nv T) [i; j; a; b] = no_neighbours (fun4 T) i j a b.
Proof.
  intros Hi Hj Ha Hb. unfold kill_Diag_T2, no_neighbours.
  assert (W : forall x y c d v, In ([x; y; c; d], v) (kill_writes no nv) -> v = 0 /\ next_to x y = true /\ next_to c d = true).
  { intros x y c d v H. unfold kill_writes in H. apply in_flat_map in H. destruct H as [p [_ H]]. apply in_flat_map in H. destruct H as [q [_ H]].
    unfold next_to. cbn [In] in H.
    destruct H as [H|[H|[H|[H|[]]]]]; inversion H; subst; (split; [reflexivity|]); rewrite ?Nat.eqb_refl, ?Bool.orb_true_r; split; reflexivity. }
  destruct (next_to i j && next_to a b)%bool eqn:E.
  - apply andb_true_iff in E. destruct E as [E1 E2]. apply puts_hit; [|intros x H; apply (W _ _ _ _ _ H)].
    unfold next_to in E1, E2. rewrite orb_true_iff, !Nat.eqb_eq in E1, E2. unfold kill_writes.
    apply in_flat_map. exists (Nat.min i j). split; [apply in_seq; lia|].
    apply in_flat_map. exists (Nat.min a b). split; [apply in_seq; lia|].
    destruct E1 as [-> | ->], E2 as [-> | ->]; rewrite ?(Nat.min_l _ (_ + 1)%nat), ?(Nat.min_r (_ + 1)%nat) by lia; cbn [In]; auto.
  - apply puts_miss. intros x H. destruct (W _ _ _ _ _ H) as [_ [E1 E2]]. rewrite E1, E2 in E. discriminate.
Qed.
Lemma kill_amp no nv T : is_amp_ov 2 no nv T -> is_amp_ov 2 no nv (kill_Diag_T2 no nv T).
Proof.
  intros [S A]. assert (SK : shape (kill_Diag_T2 no nv T) = shape T) by apply put_shape. split; [rewrite SK; exact S|].
  intros i Hi. assert (i = 0%nat) as -> by lia. destruct (A 0%nat Hi) as [P1 P2]. cbn [repeat app] in S.
  assert (NS : forall p q, next_to p q = next_to q p) by (intros; unfold next_to; apply orb_comm).
  split; intros pre x y post HL I1 I2; rewrite SK in I1, I2; pose proof I1 as I1'; pose proof I2 as I2'; rewrite S in I1, I2.
  - destruct pre; [|discriminate]. cbn [app] in *. pose proof (Forall2_len _ _ _ I1) as LL. cbn in LL.
    destruct post as [|a [|b [|]]]; cbn in LL; try lia.
    inversion I1; subst. repeat match goal with H : Forall2 _ (_ :: _) _ |- _ => inversion H; subst; clear H end.
    rewrite !kill_data by assumption. unfold no_neighbours, fun4. rewrite (NS y x).
    destruct (_ && _)%bool; [ring|]. apply (P1 [] x y [a; b] eq_refl); assumption.
  - destruct pre as [|i [|j [|]]]; try discriminate. cbn [app] in *. pose proof (Forall2_len _ _ _ I1) as LL. cbn in LL.
    destruct post; cbn in LL; try lia.
    inversion I1; subst. repeat match goal with H : Forall2 _ (_ :: _) _ |- _ => inversion H; subst; clear H end.
    rewrite !kill_data by assumption. unfold no_neighbours, fun4. rewrite (NS y x).
    destruct (_ && _)%bool; [ring|]. apply (P2 [i; j] x y [] eq_refl); assumption.
Qed.

(** ** Theorems *)
Lemma E2_ext no nv g t t' : (forall i j a b, (i < no)%nat -> (j < no)%nat -> (a < nv)%nat -> (b < nv)%nat -> t i j a b = t' i j a b) ->
  E2 no nv g t = E2 no nv g t'.
Proof.
  intros H. unfold E2. f_equal. sums_ext i Hi. sums_ext j Hj. sums_ext a Ha. sums_ext b Hb. rewrite H by assumption. reflexivity.
Qed.
Lemma E3_ext no nv g t t' u u' :
  (forall i j a b, (i < no)%nat -> (j < no)%nat -> (a < nv)%nat -> (b < nv)%nat -> t i j a b = t' i j a b) ->
  (forall i j a b, (i < no)%nat -> (j < no)%nat -> (a < nv)%nat -> (b < nv)%nat -> u i j a b = u' i j a b) ->
  E3 no nv g t u = E3 no nv g t' u'.
Proof.
  intros H K. unfold E3. f_equal; [f_equal|]; f_equal;
    sums_ext i Hi; sums_ext j Hj; sums_ext a Ha; sums_ext b Hb; sums_ext k Hk; sums_ext l Hl; rewrite H, K by assumption; reflexivity.
Qed.
(** C74.  The four numbers printed: the second-order energy; the same without the amplitudes of neighbouring spin orbitals; MINUS
    the third-order energy; minus the third-order energy with those amplitudes left out on one side. *)
Theorem C74_printed_energies : forall no nv g eps D2,
  is_tei (no + nv) g -> is_denominator 2 no nv eps D2 ->
  let t := mp_amp no eps g in
  printed_MP no nv g D2 = Some
    [("full MP2 energy:", E2 no nv g t); ("off Diag MP2 energy:", E2 no nv g (no_neighbours t));
     ("full MP3 energy:", - E3 no nv g t t); ("off diag MP3 energy:", - E3 no nv g t (no_neighbours t))].
Proof.
  intros no nv g eps D2 Hg HD t.
  destruct (mp2_ok no nv g eps D2 Hg HD) as [T [HT [AT DT]]].
  set (K := kill_Diag_T2 no nv T). assert (AK : is_amp_ov 2 no nv K) by (apply kill_amp; exact AT).
  assert (TT : forall i j a b, (i < no)%nat -> (j < no)%nat -> (a < nv)%nat -> (b < nv)%nat -> fun4 T i j a b = t i j a b).
  { intros i j a b Hi Hj Ha Hb. unfold fun4, t, mp_amp. rewrite DT by assumption. destruct HD as [SD HD].
    pose proof (HD [a; b] [i; j] eq_refl) as H3. cbn [app] in H3. rewrite H3 by (rewrite SD; repeat constructor; assumption). reflexivity. }
  assert (KK : forall i j a b, (i < no)%nat -> (j < no)%nat -> (a < nv)%nat -> (b < nv)%nat -> fun4 K i j a b = no_neighbours t i j a b).
  { intros i j a b Hi Hj Ha Hb. unfold K, fun4 at 1. rewrite kill_data by assumption. unfold no_neighbours. rewrite TT by assumption. reflexivity. }
  assert (EN : forall S, is_amp_ov 2 no nv S -> get_WnT2_energy no S g = Some (E2 no nv g (fun4 S))).
  { intros S [SS _]. rewrite (en_sum no nv g Hg S SS). f_equal. unfold E2, fun4. f_equal.
    sums_ext i Hi. sums_ext j Hj. sums_ext a Ha. sums_ext b Hb.
    destruct Hg as [Sg [_ Hh]]. pose proof (Hh [i; j] [no + a; no + b]%nat eq_refl eq_refl) as H2. cbn [app] in H2.
    rewrite H2 by (rewrite Sg; repeat constructor; lia). ring. }
  destruct (mp3_ok no nv g eps D2 Hg HD T T AT AT DT) as [S [HS ES]].
  destruct (mp3_ok no nv g eps D2 Hg HD T K AT AK DT) as [S' [HS' ES']].
  unfold printed_MP. rewrite HT. cbn [obind]. fold K.
  rewrite (EN T AT), (EN K AK), HS. cbn [obind]. rewrite ES. cbn [obind]. rewrite HS'. cbn [obind]. rewrite ES'. cbn [obind].
  rewrite (E2_ext _ _ _ _ _ TT), (E2_ext _ _ _ _ _ KK), (E3_ext _ _ _ _ _ _ _ TT TT), (E3_ext _ _ _ _ _ _ _ TT KK). reflexivity.
Qed.
Print Assumptions C74_printed_energies.
Example C74_instance := C74_printed_energies 4 2 (i_tei 6) i_eps (i_den 2 4 2) (i_tei_ok 6) (i_den_ok 2 4 2).

(** amplitudes without those in which i, j are the two spin orbitals of one orbital and so are a, b, for spin orbitals ordered
    alpha, beta, alpha, beta, .. (no is even) *)
Definition no_pairs (t : nat -> nat -> nat -> nat -> Qc) (i j a b : nat) : Qc :=
  if (Nat.eqb (i / 2) (j / 2) && Nat.eqb (a / 2) (b / 2))%bool then 0 else t i j a b.
(** C74: the number printed as third-order energy is not the third-order energy, and the number printed as off-diagonal
    second-order energy is not the second-order energy without the pair amplitudes: there are integrals and orbital energies,
    without vanishing energy differences, for which both are different. *)
Theorem C74_intended_energies_refuted :
  exists no nv g eps D2, is_tei (no + nv) g /\ is_denominator 2 no nv eps D2 /\ gapped 2 no nv eps /\
    exists m2 m2o m3 m3o,
      printed_MP no nv g D2 = Some [("full MP2 energy:", m2); ("off Diag MP2 energy:", m2o); ("full MP3 energy:", m3); ("off diag MP3 energy:", m3o)] /\
      m3 <> E3 no nv g (mp_amp no eps g) (mp_amp no eps g) /\
      m2o <> E2 no nv g (no_pairs (mp_amp no eps g)).
Proof.
  exists 4%nat, 2%nat, (i_tei 6), i_eps, (i_den 2 4 2). split; [exact (i_tei_ok 6)|]. split; [exact (i_den_ok 2 4 2)|]. split.
  - intros virt occ L1 L2 Hv Ho. destruct virt as [|a [|b [|]]]; try discriminate. destruct occ as [|i [|j [|]]]; try discriminate.
    assert (a < 2 /\ b < 2 /\ i < 4 /\ j < 4)%nat as [Ha [Hb [Hi Hj]]] by (repeat split; (apply Hv || apply Ho); cbn [In]; auto).
    intros H. assert (G : forall a b i j, (a < 2)%nat -> (b < 2)%nat -> (i < 4)%nat -> (j < 4)%nat -> Qclt (gap 4 i_eps [a; b] [i; j]) 0).
    { clear. intros a b i j Ha Hb Hi Hj. destruct a as [|[|]], b as [|[|]]; try lia; destruct i as [|[|[|[|]]]]; try lia; destruct j as [|[|[|[|]]]]; try lia;
      vm_compute; reflexivity. }
    specialize (G a b i j Ha Hb Hi Hj). rewrite H in G. discriminate G.
  - do 4 eexists. split; [exact C74_instance|]. split.
    + intros H. apply (f_equal this) in H. vm_compute in H. discriminate H.
    + intros H. apply (f_equal this) in H. vm_compute in H. discriminate H.
Qed.
Print Assumptions C74_intended_energies_refuted.

(** ** The numbers made from given amplitudes *)
(** linear CCD residual without orbital energies and source term, of doubles u_ijab *)
Definition lccd_terms (no nv : nat) (g : tensor) (u : nat -> nat -> nat -> nat -> Qc) (i j a b : nat) : Qc :=
  Q2Qc (1 # 2) * (Sum k < no, Sum l < no, u k l a b * data g [i; j; k; l]) +
  Q2Qc (1 # 2) * (Sum c < nv, Sum d < nv, u i j c d * data g [no + c; no + d; no + a; no + b]%nat) +
  (Q2Qc (-1 # 1) * (Sum k < no, Sum c < nv, u i k a c * data g [j; no + c; k; no + b]%nat) +
   1 * (Sum k < no, Sum c < nv, u j k a c * data g [i; no + c; k; no + b]%nat) +
   1 * (Sum k < no, Sum c < nv, u i k b c * data g [j; no + c; k; no + a]%nat) +
   Q2Qc (-1 # 1) * (Sum k < no, Sum c < nv, u j k b c * data g [i; no + c; k; no + a]%nat)).
(** what singles s_ia contribute to the doubles equations to first order *)
Definition singles_terms (no nv : nat) (g : tensor) (s : nat -> nat -> Qc) (i j a b : nat) : Qc :=
  Q2Qc (-1 # 1) * (Sum k < no, s k a * data g [i; j; k; no + b]%nat) + 1 * (Sum k < no, s k b * data g [i; j; k; no + a]%nat) +
  Q2Qc (-1 # 1) * (Sum c < nv, s i c * data g [j; no + c; no + a; no + b]%nat) + 1 * (Sum c < nv, s j c * data g [i; no + c; no + a; no + b]%nat).
(** the quadratic CCD terms *)
Definition quadratic_terms (no nv : nat) (g : tensor) (u : nat -> nat -> nat -> nat -> Qc) (i j a b : nat) : Qc :=
  let W k l c d := data g [k; l; no + c; no + d]%nat in
  Q2Qc (1 # 4) * (Sum k < no, Sum l < no, Sum c < nv, Sum d < nv, u k l a b * u i j c d * W k l c d) +
  (Q2Qc (-1 # 2) * (Sum k < no, Sum l < no, Sum c < nv, Sum d < nv, u i k a b * u j l c d * W k l c d) +
   Q2Qc (1 # 2) * (Sum k < no, Sum l < no, Sum c < nv, Sum d < nv, u j k a b * u i l c d * W k l c d)) +
  (Q2Qc (-1 # 2) * (Sum k < no, Sum l < no, Sum c < nv, Sum d < nv, u i j a c * u k l b d * W k l c d) +
   Q2Qc (1 # 2) * (Sum k < no, Sum l < no, Sum c < nv, Sum d < nv, u i j b c * u k l a d * W k l c d)) +
  (1 * (Sum k < no, Sum l < no, Sum c < nv, Sum d < nv, u i k a c * u j l b d * W k l c d) +
   Q2Qc (-1 # 1) * (Sum k < no, Sum l < no, Sum c < nv, Sum d < nv, u j k a c * u i l b d * W k l c d)).
(** divided by the energy differences *)
Definition per_gap (no : nat) (eps : nat -> Qc) (r : nat -> nat -> nat -> nat -> Qc) (i j a b : nat) : Qc := r i j a b / gap no eps [a; b] [i; j].

Definition p_lccd : poly := Eval vm_compute in
  [mkterm "ijab" "kl" (1 # 2) [(6%N, "klab"); (1%N, "ijkl")]; mkterm "ijab" "cd" (1 # 2) [(6%N, "ijcd"); (1%N, "cdab")];
   mkterm "ijab" "kc" (-1 # 1) [(6%N, "ikac"); (1%N, "jckb")]; mkterm "ijab" "kc" (1 # 1) [(6%N, "jkac"); (1%N, "ickb")];
   mkterm "ijab" "kc" (1 # 1) [(6%N, "ikbc"); (1%N, "jcka")]; mkterm "ijab" "kc" (-1 # 1) [(6%N, "jkbc"); (1%N, "icka")]].
Definition p_singles : poly := Eval vm_compute in
  [mkterm "ijab" "k" (-1 # 1) [(7%N, "ka"); (1%N, "ijkb")]; mkterm "ijab" "k" (1 # 1) [(7%N, "kb"); (1%N, "ijka")];
   mkterm "ijab" "c" (-1 # 1) [(7%N, "ic"); (1%N, "jcab")]; mkterm "ijab" "c" (1 # 1) [(7%N, "jc"); (1%N, "icab")]].
Definition p_quad : poly := Eval vm_compute in
  [mkterm "ijab" "klcd" (1 # 4) [(6%N, "klab"); (6%N, "ijcd"); (1%N, "klcd")];
   mkterm "ijab" "klcd" (-1 # 2) [(6%N, "ikab"); (6%N, "jlcd"); (1%N, "klcd")]; mkterm "ijab" "klcd" (1 # 2) [(6%N, "jkab"); (6%N, "ilcd"); (1%N, "klcd")];
   mkterm "ijab" "klcd" (-1 # 2) [(6%N, "ijac"); (6%N, "klbd"); (1%N, "klcd")]; mkterm "ijab" "klcd" (1 # 2) [(6%N, "ijbc"); (6%N, "klad"); (1%N, "klcd")];
   mkterm "ijab" "klcd" (1 # 1) [(6%N, "ikac"); (6%N, "jlbd"); (1%N, "klcd")]; mkterm "ijab" "klcd" (-1 # 1) [(6%N, "jkac"); (6%N, "ilbd"); (1%N, "klcd")]].

Ltac given_entries :=
   let idx := fresh "idx" in let Hi := fresh "Hi" in let L := fresh "L" in
   intros idx Hi; pose proof (inr_len _ _ Hi) as L; clear Hi;
   cbn [length shape arr0 arr2 arr4 arr6 arr8] in L; dlist idx L;
   cbn [data arr0 arr2 arr4 arr6 arr8]; posread; rewrite ?Qcmult_1_l; try reflexivity; try ring.
Section Given.
  Variables (no nv : nat) (g : tensor) (eps : nat -> Qc) (D2 : tensor).
  Hypothesis Hg : is_tei (no + nv) g.
  Hypothesis HD : is_denominator 2 no nv eps D2.
  Definition gives (o : option tensor) (F : nat -> nat -> nat -> nat -> Qc) : Prop :=
    exists S, o = Some S /\ is_amp_ov 2 no nv S /\
      forall i j a b, (i < no)%nat -> (j < no)%nat -> (a < nv)%nat -> (b < nv)%nat -> fun4 S i j a b = per_gap no eps F i j a b.
  Lemma gives_ok U R F : shape U = [no; no; nv; nv] -> returns 0 [] Code_wicked_T3corr.antisym_T2 [VT U; VInt no; VInt nv] R ->
    teq R (arr4 no no nv nv F) -> gives (over_gaps no nv D2 U) F.
  Proof using HD.
    intros SU HR [E1 E2]. pose proof (wicked_antisym_amp no nv U R SU HR) as AR.
    destruct (over_gaps_ok no nv eps D2 HD U R HR AR) as [S [HS [AS DS]]]. exists S. split; [exact HS|]. split; [exact AS|].
    intros i j a b Hi Hj Ha Hb. unfold fun4, per_gap. rewrite DS, E2 by (rewrite E1; repeat constructor; assumption). cbn [data arr4].
    destruct HD as [SD HD']. pose proof (HD' [a; b] [i; j] eq_refl) as H3. cbn [app] in H3. rewrite H3 by (rewrite SD; repeat constructor; assumption). reflexivity.
  Qed.
  Lemma lccd_gives T' : is_amp_ov 2 no nv T' -> gives (build_LCCD_T2 no nv g D2 T') (lccd_terms no nv g (fun4 T')).
  Proof using Hg HD.
    intros HT'.
    set (tab := [(1%N, ([6;6;6;6]%N, g)); (6%N, ([0;0;1;1]%N, T'))] : atomtab).
    assert (OK : Forall (atom_ok (so_range no nv) sy) tab) by (unfold tab; oks).
    assert (V1 : Forall2 (so_vsim no nv tab) [at_ 6 [0;0;1;1]%N; xG; xo; xv] [VT T'; VT g; o_ no; v_ no]) by vsims.
    assert (VE : so_vsim no nv tab (SP [0;0;1;1]%N p_lccd) (VT (arr4 no no nv nv (lccd_terms no nv g (fun4 T'))))).
    { unfold p_lccd, lccd_terms, fun4, tab. apply so_formula; [vm_compute; reflexivity|reflexivity|]. given_entries. }
    so_nf OK 0%nat (@nil (string * fn)) lccd_source [0;0;1;1]%N V1 U HU VU.
    pose proof (so_asym_vs_ov no nv tab _ _ _ VU) as V4.
    so_nf OK 0%nat (@nil (string * fn)) Code_wicked_T3corr.antisym_T2 [0;0;1;1]%N V4 R HR VR.
    unfold build_LCCD_T2. rewrite (call0_returns _ _ _ HU : call0 lccd_source [VT T'; VT g; VSl 0 (Some no); VSl no None] = Some U). cbn [obind].
    apply (gives_ok U R); [rewrite (so_vs_shape _ _ _ _ _ _ VU); apply (sh_ov no nv 2)|exact HR|].
    eapply (so_vs_eq no nv tab OK [0;0;1;1]%N); [exact VR|exact VE|chk_].
  Qed.
  Lemma singles_gives S1 : is_amp_ov 1 no nv S1 -> gives (build_WnT1_T2 no nv g D2 S1) (singles_terms no nv g (fun i a => data S1 [i; a])).
  Proof using Hg HD.
    intros HS1.
    set (tab := [(1%N, ([6;6;6;6]%N, g)); (7%N, ([0;1]%N, S1))] : atomtab).
    assert (OK : Forall (atom_ok (so_range no nv) sy) tab) by (unfold tab; oks).
    assert (V1 : Forall2 (so_vsim no nv tab) [at_ 7 [0;1]%N; xG; xo; xv] [VT S1; VT g; o_ no; v_ no]) by vsims.
    assert (VE : so_vsim no nv tab (SP [0;0;1;1]%N p_singles) (VT (arr4 no no nv nv (singles_terms no nv g (fun i a => data S1 [i; a]))))).
    { unfold p_singles, singles_terms, tab. apply so_formula; [vm_compute; reflexivity|reflexivity|]. given_entries. }
    so_nf OK 0%nat (@nil (string * fn)) t1_source [0;0;1;1]%N V1 U HU VU.
    pose proof (so_asym_vs_ov no nv tab _ _ _ VU) as V4.
    so_nf OK 0%nat (@nil (string * fn)) Code_wicked_T3corr.antisym_T2 [0;0;1;1]%N V4 R HR VR.
    unfold build_WnT1_T2. rewrite (call0_returns _ _ _ HU : call0 t1_source [VT S1; VT g; VSl 0 (Some no); VSl no None] = Some U). cbn [obind].
    apply (gives_ok U R); [rewrite (so_vs_shape _ _ _ _ _ _ VU); apply (sh_ov no nv 2)|exact HR|].
    eapply (so_vs_eq no nv tab OK [0;0;1;1]%N); [exact VR|exact VE|chk_].
  Qed.
  Lemma quad_gives T' : is_amp_ov 2 no nv T' -> gives (build_CCD_T2_sqr no nv g D2 T') (quadratic_terms no nv g (fun4 T')).
  Proof using Hg HD.
    intros HT'.
    set (tab := [(1%N, ([6;6;6;6]%N, g)); (6%N, ([0;0;1;1]%N, T'))] : atomtab).
    assert (OK : Forall (atom_ok (so_range no nv) sy) tab) by (unfold tab; oks).
    assert (V1 : Forall2 (so_vsim no nv tab) [at_ 6 [0;0;1;1]%N; xG; xo; xv] [VT T'; VT g; o_ no; v_ no]) by vsims.
    assert (VE : so_vsim no nv tab (SP [0;0;1;1]%N p_quad) (VT (arr4 no no nv nv (quadratic_terms no nv g (fun4 T'))))).
    { unfold p_quad, quadratic_terms, fun4, tab. cbv zeta. apply so_formula; [vm_compute; reflexivity|reflexivity|]. given_entries. }
    so_nf OK 0%nat (@nil (string * fn)) sqr_source [0;0;1;1]%N V1 U HU VU.
    pose proof (so_asym_vs_ov no nv tab _ _ _ VU) as V4.
    so_nf OK 0%nat (@nil (string * fn)) Code_wicked_T3corr.antisym_T2 [0;0;1;1]%N V4 R HR VR.
    unfold build_CCD_T2_sqr. rewrite (call0_returns _ _ _ HU : call0 sqr_source [VT T'; VT g; VSl 0 (Some no); VSl no None] = Some U). cbn [obind].
    apply (gives_ok U R); [rewrite (so_vs_shape _ _ _ _ _ _ VU); apply (sh_ov no nv 2)|exact HR|].
    eapply (so_vs_eq no nv tab OK [0;0;1;1]%N); [exact VR|exact VE|chk_].
  Qed.
End Given.
Lemma E2_gives no nv g eps o F : is_tei (no + nv) g -> gives no nv eps o F -> exists S, o = Some S /\
  get_WnT2_energy no S g = Some (E2 no nv g (per_gap no eps F)) /\
  get_WnT2_energy no (kill_Diag_T2 no nv S) g = Some (E2 no nv g (no_neighbours (per_gap no eps F))).
Proof.
  intros Hg [S [HS [AS DS]]]. exists S. split; [exact HS|].
  assert (EN : forall S, is_amp_ov 2 no nv S -> get_WnT2_energy no S g = Some (E2 no nv g (fun4 S))).
  { clear -Hg. intros S [SS _]. rewrite (en_sum no nv g Hg S SS). f_equal. unfold E2, fun4. f_equal.
    sums_ext i Hi. sums_ext j Hj. sums_ext a Ha. sums_ext b Hb.
    destruct Hg as [Sg [_ Hh]]. pose proof (Hh [i; j] [no + a; no + b]%nat eq_refl eq_refl) as H2. cbn [app] in H2.
    rewrite H2 by (rewrite Sg; repeat constructor; lia). ring. }
  rewrite (EN S AS), (EN _ (kill_amp no nv S AS)). split; f_equal; apply E2_ext; [exact DS|].
  intros i j a b Hi Hj Ha Hb. unfold fun4 at 1. rewrite kill_data by assumption. unfold no_neighbours. rewrite DS by assumption. reflexivity.
Qed.
(** The other five numbers.  With [s], [u] the amplitudes the object holds: minus the energy of the amplitudes made by the linear
    CCD terms of u, then without the neighbours; the energy of the amplitudes made by the singles, then without the neighbours;
    the energy of the amplitudes made by the quadratic CCD terms of the first-order amplitudes without neighbours. *)
Theorem C74_printed_from_amplitudes : forall no nv g eps D2 t1 t2,
  is_tei (no + nv) g -> is_denominator 2 no nv eps D2 -> is_amp 1 no nv t1 -> is_amp 2 no nv t2 ->
  let s i a := data t1 [a; i] in let u i j a b := data t2 [a; b; i; j] in
  let made := per_gap no eps in
  printed_amp no nv g D2 t1 t2 = Some
    [("test LCCD energy from pCCD:", - E2 no nv g (made (lccd_terms no nv g u)));
     ("off diag LCCD energy from pCCD amps:", - E2 no nv g (no_neighbours (made (lccd_terms no nv g u))));
     ("UCCSpD full correction from T1:", E2 no nv g (made (singles_terms no nv g s)));
     ("UCCSpD off diag correction from T1:", E2 no nv g (no_neighbours (made (singles_terms no nv g s))));
     ("Wnt2^2 from MP2 off-diagonal amps:", E2 no nv g (made (quadratic_terms no nv g (no_neighbours (mp_amp no eps g)))))].
Proof.
  intros no nv g eps D2 t1 t2 Hg HD [S1 _] H2 s u made.
  destruct (transp_amp no nv t2 H2) as [u2 [HU [[_ SW] AU]]].
  destruct (mp2_ok no nv g eps D2 Hg HD) as [T [HT [AT DT]]].
  set (K := kill_Diag_T2 no nv T). assert (AK : is_amp_ov 2 no nv K) by (apply kill_amp; exact AT).
  assert (KK : forall i j a b, (i < no)%nat -> (j < no)%nat -> (a < nv)%nat -> (b < nv)%nat -> fun4 K i j a b = no_neighbours (mp_amp no eps g) i j a b).
  { intros i j a b Hi Hj Ha Hb. unfold K, fun4 at 1. rewrite kill_data by assumption. unfold no_neighbours, fun4, mp_amp.
    rewrite DT by assumption. destruct HD as [SD HD'].
    pose proof (HD' [a; b] [i; j] eq_refl) as H3. cbn [app] in H3. rewrite H3 by (rewrite SD; repeat constructor; assumption). reflexivity. }
  cbn [repeat app] in S1.
  set (u1 := mkT [no; nv] (fun idx => data t1 [nth 1 idx 0%nat; nth 0 idx 0%nat])).
  assert (HU1 : ttransp [1; 0]%nat t1 = Some u1) by (unfold ttransp; rewrite S1; reflexivity).
  assert (AU1 : is_amp_ov 1 no nv u1) by (split; [reflexivity|intros i Hi; lia]).
  destruct (E2_gives no nv g eps _ _ Hg (lccd_gives no nv g eps D2 Hg HD u2 AU)) as [P [HP [P1 P2]]].
  destruct (E2_gives no nv g eps _ _ Hg (singles_gives no nv g eps D2 Hg HD u1 AU1)) as [Q [HQ [Q1 Q2]]].
  destruct (E2_gives no nv g eps _ _ Hg (quad_gives no nv g eps D2 Hg HD K AK)) as [R [HR [R1 _]]].
  unfold printed_amp. rewrite HU1. cbn [obind]. rewrite HU. cbn [obind]. rewrite HT. cbn [obind]. fold K.
  rewrite HP. cbn [obind]. rewrite P1, P2. cbn [obind]. rewrite HQ. cbn [obind]. rewrite Q1, Q2. cbn [obind]. rewrite HR. cbn [obind]. rewrite R1. cbn [obind].
  assert (UU : forall i j a b, (i < no)%nat -> (j < no)%nat -> (a < nv)%nat -> (b < nv)%nat -> fun4 u2 i j a b = u i j a b).
  { intros i j a b Hi Hj Ha Hb. unfold fun4, u. apply (SW [a; b] [i; j] eq_refl). destruct H2 as [S2 _]. rewrite S2. repeat constructor; assumption. }
  assert (L : forall v v', (forall i j a b, (i < no)%nat -> (j < no)%nat -> (a < nv)%nat -> (b < nv)%nat -> v i j a b = v' i j a b) ->
    forall i j a b, (i < no)%nat -> (j < no)%nat -> (a < nv)%nat -> (b < nv)%nat -> made (lccd_terms no nv g v) i j a b = made (lccd_terms no nv g v') i j a b).
  { clear. intros v v' H i j a b Hi Hj Ha Hb. unfold made, per_gap, lccd_terms. f_equal.
    repeat (match goal with |- (_ + _ = _ + _)%Qc => f_equal | |- (_ * _ = _ * _)%Qc => f_equal end);
    match goal with |- suml _ _ = suml _ _ => sums_ext k Hk; sums_ext l Hl; rewrite H by assumption; reflexivity | _ => idtac end. }
  assert (M : forall v v', (forall i j a b, (i < no)%nat -> (j < no)%nat -> (a < nv)%nat -> (b < nv)%nat -> v i j a b = v' i j a b) ->
    forall i j a b, (i < no)%nat -> (j < no)%nat -> (a < nv)%nat -> (b < nv)%nat -> made (quadratic_terms no nv g v) i j a b = made (quadratic_terms no nv g v') i j a b).
  { clear. intros v v' H i j a b Hi Hj Ha Hb. unfold made, per_gap, quadratic_terms. cbv zeta. f_equal.
    repeat (match goal with |- (_ + _ = _ + _)%Qc => f_equal | |- (_ * _ = _ * _)%Qc => f_equal end);
    match goal with |- suml _ _ = suml _ _ => sums_ext k Hk; sums_ext l Hl; sums_ext c Hc; sums_ext d Hd; rewrite !H by assumption; reflexivity | _ => idtac end. }
  assert (NN : forall v v', (forall i j a b, (i < no)%nat -> (j < no)%nat -> (a < nv)%nat -> (b < nv)%nat -> v i j a b = v' i j a b) ->
    forall i j a b, (i < no)%nat -> (j < no)%nat -> (a < nv)%nat -> (b < nv)%nat -> no_neighbours v i j a b = no_neighbours v' i j a b).
  { clear. intros v v' H i j a b Hi Hj Ha Hb. unfold no_neighbours. rewrite H by assumption. reflexivity. }
  pose proof (E2_ext no nv g _ _ (L _ _ UU)) as X1. pose proof (E2_ext no nv g _ _ (NN _ _ (L _ _ UU))) as X2. pose proof (E2_ext no nv g _ _ (M _ _ KK)) as X3.
  fold made in X1, X2, X3 |- *. rewrite X1, X2, X3. reflexivity.
Qed.
Print Assumptions C74_printed_from_amplitudes.
Example C74_amplitudes_instance := C74_printed_from_amplitudes 4 2 (i_tei 6) i_eps (i_den 2 4 2) (i_amp 1 4 2) (i_amp 2 4 2)
  (i_tei_ok 6) (i_den_ok 2 4 2) (i_amp_ok 1 4 2) (i_amp_ok 2 4 2).

(** ** The numbers printed first *)
(** amplitudes without t_{i,i+1,a,a+1} *)
Definition one_side (t : nat -> nat -> nat -> nat -> Qc) (i j a b : nat) : Qc :=
  if (Nat.eqb j (i + 1) && Nat.eqb b (a + 1))%bool then 0 else t i j a b.
(** the sum subtracted: the integrals are read at a, a+1 instead of no+a, no+a+1 *)
Definition subtracted (no nv : nat) (g : tensor) (t : nat -> nat -> nat -> nat -> Qc) : Qc :=
  Sum i < (no - 1)%nat, Sum a < (nv - 1)%nat, Q2Qc (1 # 4) * t i (i + 1)%nat a (a + 1)%nat * data g [a; a + 1; i; i + 1]%nat.
(** the numbers printed for doubles t *)
Definition pair_report (no nv : nat) (g : tensor) (t : nat -> nat -> nat -> nat -> Qc) : list (string * Qc) :=
  [("fullE:", E2 no nv g t); ("diagonal portion of E:", subtracted no nv g t); ("test of off-diagon:", E2 no nv g (one_side t));
   ("final pCCD related E", E2 no nv g t - subtracted no nv g t)].
Definition anti4 (F : nat -> nat -> nat -> nat -> Qc) (i j a b : nat) : Qc := F i j a b - F j i a b - F i j b a + F j i b a.
Definition lccd_raw (no nv : nat) (g : tensor) (u : nat -> nat -> nat -> nat -> Qc) (i j a b : nat) : Qc :=
  Q2Qc (1 # 8) * (Sum k < no, Sum l < no, u k l a b * data g [i; j; k; l]) +
  Q2Qc (-1 # 1) * (Sum k < no, Sum c < nv, u i k a c * data g [j; no + c; k; no + b]%nat) +
  Q2Qc (1 # 8) * (Sum c < nv, Sum d < nv, u i j c d * data g [no + c; no + d; no + a; no + b]%nat).

Definition p_raw : poly := Eval vm_compute in
  [mkterm "ijab" "kl" (1 # 8) [(60%N, "klab"); (1%N, "ijkl")]; mkterm "ijab" "kc" (-1 # 1) [(60%N, "ikac"); (1%N, "jckb")];
   mkterm "ijab" "cd" (1 # 8) [(60%N, "ijcd"); (1%N, "cdab")]].
Definition p_anti4 : poly := Eval vm_compute in
  [mkterm "ijab" "" (1 # 1) [(60%N, "ijab")]; mkterm "ijab" "" (-1 # 1) [(60%N, "jiab")];
   mkterm "ijab" "" (-1 # 1) [(60%N, "ijba")]; mkterm "ijab" "" (1 # 1) [(60%N, "jiba")]].
Definition p_dot2 : poly := Eval vm_compute in [mkterm "" "ijab" (1 # 4) [(61%N, "abij"); (60%N, "ijab")]].

Lemma zero_data no nv T i j a b : (i < no)%nat -> (j < no)%nat -> (a < nv)%nat -> (b < nv)%nat ->
  data (fold_left put (zero_writes no nv) T) [i; j; a; b] = one_side (fun4 T) i j a b.
Proof.
  intros Hi Hj Ha Hb. unfold one_side.
  assert (W : forall x y c d v, In ([x; y; c; d], v) (zero_writes no nv) -> v = 0 /\ Nat.eqb y (x + 1) = true /\ Nat.eqb d (c + 1) = true).
  { intros x y c d v H. unfold zero_writes in H. apply in_flat_map in H. destruct H as [p [_ H]]. apply in_map_iff in H. destruct H as [q [H _]].
    inversion H; subst. rewrite !Nat.eqb_refl. auto. }
  destruct (Nat.eqb j (i + 1) && Nat.eqb b (a + 1))%bool eqn:E.
  - apply andb_true_iff in E. destruct E as [E1 E2]. apply Nat.eqb_eq in E1, E2. subst j b.
    apply puts_hit; [|intros x H; apply (W _ _ _ _ _ H)]. unfold zero_writes.
    apply in_flat_map. exists i. split; [apply in_seq; lia|]. apply in_map_iff. exists a. split; [reflexivity|apply in_seq; lia].
  - apply puts_miss. intros x H. destruct (W _ _ _ _ _ H) as [_ [E1 E2]]. rewrite E1, E2 in E. discriminate.
Qed.
Definition agree (no nv : nat) (T : tensor) (t : nat -> nat -> nat -> nat -> Qc) : Prop :=
  shape T = [no; no; nv; nv] /\ forall i j a b, (i < no)%nat -> (j < no)%nat -> (a < nv)%nat -> (b < nv)%nat -> fun4 T i j a b = t i j a b.
Lemma E2_agree no nv g T t : is_tei (no + nv) g -> agree no nv T t -> get_WnT2_energy no T g = Some (E2 no nv g t).
Proof.
  intros Hg [SS D]. rewrite (en_sum no nv g Hg T SS). f_equal. unfold E2. f_equal.
  sums_ext i Hi. sums_ext j Hj. sums_ext a Ha. sums_ext b Hb. rewrite <- D by assumption. unfold fun4.
  destruct Hg as [Sg [_ Hh]]. pose proof (Hh [i; j] [no + a; no + b]%nat eq_refl eq_refl) as H2. cbn [app] in H2.
  rewrite H2 by (rewrite Sg; repeat constructor; lia). ring.
Qed.
Lemma determine_ok no nv g T t : is_tei (no + nv) g -> agree no nv T t ->
  exists Z, determine_pCCD_correction no nv g T = Some (pair_report no nv g t, E2 no nv g t - subtracted no nv g t, Z) /\ agree no nv Z (one_side t).
Proof.
  intros Hg A. set (Z := fold_left put (zero_writes no nv) T). exists Z.
  assert (AZ : agree no nv Z (one_side t)).
  { split; [unfold Z; rewrite put_shape; apply A|]. intros i j a b Hi Hj Ha Hb. unfold fun4, Z. rewrite zero_data by assumption.
    unfold one_side. rewrite (proj2 A) by assumption. reflexivity. }
  split; [|exact AZ]. unfold determine_pCCD_correction. fold Z. rewrite (E2_agree _ _ _ _ _ Hg A), (E2_agree _ _ _ _ _ Hg AZ). cbn [obind]. cbv zeta.
  assert (E : pairs_sum no nv (fun i a => Q2Qc (25 # 100) * data T [i; i + 1; a; a + 1]%nat * data g [a; a + 1; i; i + 1]%nat) = subtracted no nv g t).
  { unfold pairs_sum, subtracted. sums_ext i Hi. sums_ext a Ha. pose proof (proj2 A i (i + 1) a (a + 1))%nat as X. unfold fun4 in X. rewrite X by lia.
    replace (Q2Qc (25 # 100)) with (Q2Qc (1 # 4)) by (apply Qc_is_canon; vm_compute; reflexivity). reflexivity. }
  rewrite E. reflexivity.
Qed.
Lemma anti4_ok no nv U : shape U = [no; no; nv; nv] ->
  exists R, returns 0 [] Code_wicked_T3corr.antisym_T2 [VT U; VInt no; VInt nv] R /\ teq R (arr4 no no nv nv (anti4 (fun4 U))).
Proof.
  intros S. set (tab := [(60%N, ([0;0;1;1]%N, U))] : atomtab).
  assert (M : [no; no; nv; nv] = map (dim (so_range no nv)) [0;0;1;1]%N) by (symmetry; apply (sh_ov no nv 2)).
  assert (OK : Forall (atom_ok (so_range no nv) sy) tab).
  { unfold tab. constructor; [|constructor]. apply atom_ok_gen; [reflexivity|congruence]. }
  eapply (so_reads no nv tab 0 [] Code_wicked_T3corr.antisym_T2 [at_ 60 [0;0;1;1]%N; SDim 0; SDim 1] _ [0;0;1;1]%N p_anti4 _ OK).
  - apply so_asym_vs_ov. apply so_atom; [reflexivity|congruence].
  - unfold p_anti4, tab, anti4, fun4. apply so_formula; [vm_compute; reflexivity|reflexivity|]. given_entries.
  - chk_.
Qed.
Lemma raw_ok no nv g eps D2 T t : is_tei (no + nv) g -> is_denominator 2 no nv eps D2 -> agree no nv T t ->
  exists S, build_LCCD_T2 no nv g D2 T = Some S /\ agree no nv S (per_gap no eps (anti4 (lccd_raw no nv g t))).
Proof.
  intros Hg HD [ST DT]. set (tab := [(60%N, ([0;0;1;1]%N, T)); (1%N, ([6;6;6;6]%N, g))] : atomtab).
  assert (M : [no; no; nv; nv] = map (dim (so_range no nv)) [0;0;1;1]%N) by (symmetry; apply (sh_ov no nv 2)).
  assert (OK : Forall (atom_ok (so_range no nv) sy) tab).
  { unfold tab. constructor; [apply atom_ok_gen; [reflexivity|congruence]|]. oks. }
  assert (V1 : Forall2 (so_vsim no nv tab) [at_ 60 [0;0;1;1]%N; xG; xo; xv] [VT T; VT g; o_ no; v_ no]).
  { constructor; [apply so_atom; [reflexivity|congruence]|]. vsims. }
  assert (VF : so_vsim no nv tab (SP [0;0;1;1]%N p_raw) (VT (arr4 no no nv nv (lccd_raw no nv g (fun4 T))))).
  { unfold p_raw, tab, lccd_raw, fun4. apply so_formula; [vm_compute; reflexivity|reflexivity|]. given_entries. }
  destruct (so_reads no nv tab 0 [] lccd_source _ _ _ p_raw _ OK V1 VF) as [U [HU [U1 U2]]]; [chk_|].
  cbn [shape arr4] in U1. destruct (anti4_ok no nv U U1) as [R [HR TR]].
  unfold build_LCCD_T2. rewrite (call0_returns _ _ _ HU : call0 lccd_source [VT T; VT g; VSl 0 (Some no); VSl no None] = Some U). cbn [obind].
  destruct (gives_ok no nv eps D2 HD U R _ U1 HR TR) as [S [HS [[SS _] DS]]]. exists S. split; [exact HS|]. split; [exact SS|].
  intros i j a b Hi Hj Ha Hb. rewrite DS by assumption. unfold per_gap. f_equal.
  assert (X : forall i j a b, (i < no)%nat -> (j < no)%nat -> (a < nv)%nat -> (b < nv)%nat -> fun4 U i j a b = lccd_raw no nv g t i j a b).
  { clear -U1 U2 DT. intros i j a b Hi Hj Ha Hb. unfold fun4. rewrite U2 by (rewrite U1; repeat constructor; assumption). cbn [data arr4]. unfold lccd_raw.
    f_equal; [f_equal|]; f_equal; sums_ext k Hk; sums_ext l Hl; rewrite DT by assumption; reflexivity. }
  unfold anti4. rewrite !X by assumption. reflexivity.
Qed.

(** C75.  The numbers printed before those above: for the first-order amplitudes t, then for the negative of the amplitudes made by the
    linear CCD terms of t without t_{i,i+1,a,a+1} (the first report has set them to zero), then for the singles s. *)
Theorem C75_printed_pair_corrections : forall no nv g eps D2 t1,
  is_tei (no + nv) g -> is_denominator 2 no nv eps D2 -> is_amp 1 no nv t1 ->
  let t := mp_amp no eps g in
  let w i j a b := - per_gap no eps (anti4 (lccd_raw no nv g (one_side t))) i j a b in
  let r := singles_terms no nv g (fun i a => data t1 [a; i]) in
  let q i j a b := r i j a b * r i j a b / gap no eps [a; b] [i; j] in
  let mp2 := E2 no nv g t - subtracted no nv g t in
  let mp3 := E2 no nv g w - subtracted no nv g w in
  let full := Q2Qc (1 # 4) * (Sum i < no, Sum j < no, Sum a < nv, Sum b < nv, q i j a b) in
  let diag := Sum i < (no - 1)%nat, Sum a < (nv - 1)%nat, Q2Qc (1 # 4) * q i (i + 1)%nat a (a + 1)%nat in
  printed_pCCD no nv g D2 t1 = Some
    (pair_report no nv g t ++ [("Off diag pCCD MP2 energy:", mp2)] ++ pair_report no nv g w ++ [("Off diag pCCD MP3 energy:", mp3)] ++
     [("full singles portion of CCSpD T1 corr:", full); ("fullE:", full); ("diagonal portion of E:", diag); ("final pCCD related E", full - diag);
      ("UCCSpD off diagonal singles correction:", full - diag);
      ("total UCCSpD off diagonal singles correction:", full - diag + mp2 + mp3)]).
Proof.
  intros no nv g eps D2 t1 Hg HD [S1 _] t w r q mp2 mp3 full diag.
  cbn [repeat app] in S1. pose proof Hg as [Sg [_ Hh]]. pose proof HD as [SD HD']. cbn [repeat app] in SD.
  assert (DD : forall i j a b, (i < no)%nat -> (j < no)%nat -> (a < nv)%nat -> (b < nv)%nat -> data D2 [a; b; i; j] = / gap no eps [a; b] [i; j]).
  { intros i j a b Hi Hj Ha Hb. apply (HD' [a; b] [i; j] eq_refl). rewrite SD. repeat constructor; assumption. }
  set (u1 := mkT [no; nv] (fun idx => data t1 [nth 1 idx 0%nat; nth 0 idx 0%nat])).
  assert (HU1 : ttransp [1; 0]%nat t1 = Some u1) by (unfold ttransp; rewrite S1; reflexivity).
  assert (AU1 : is_amp_ov 1 no nv u1) by (split; [reflexivity|intros i Hi; lia]).
  unfold printed_pCCD. rewrite HU1. cbn [obind].
  assert (HX : exists x, tslice [(no, None); (no, None); (0%nat, Some no); (0%nat, Some no)] g = Some x /\ shape x = [nv; nv; no; no] /\
    forall i j a b, data x [a; b; i; j] = data g [no + a; no + b; i; j]%nat).
  { unfold tslice. rewrite Sg. cbn [length Nat.eqb zipw fst snd]. eexists; split; [reflexivity|]. cbn [shape data].
    unfold zipw, slice_len, slice_start, slice_stop. cbn [combine map fst snd].
    rewrite !(Nat.min_l no (no + nv)), !Nat.min_0_l, Nat.sub_0_r by lia. replace (no + nv - no)%nat with nv by lia.
    split; [reflexivity|]. intros i j a b. reflexivity. }
  destruct HX as [x [-> [SX DX]]]. cbn [obind]. rewrite tbin_ok by congruence. cbn [obind].
  assert (HF : exists f, ttransp [2; 3; 0; 1]%nat (mkT (shape x) (fun i => data x i * data D2 i)) = Some f /\ agree no nv f t).
  { unfold ttransp. cbn [shape data]. rewrite SX. eexists; split; [reflexivity|]. split; [reflexivity|]. intros i j a b Hi Hj Ha Hb.
    unfold fun4, t, mp_amp. cbn [data map nth seq length index_of Nat.eqb]. rewrite DX, DD by assumption.
    pose proof (Hh [i; j] [no + a; no + b]%nat eq_refl eq_refl) as H2. cbn [app] in H2. rewrite H2 by (rewrite Sg; repeat constructor; lia). reflexivity. }
  destruct HF as [f [-> AF]]. cbn [obind]. destruct (determine_ok no nv g f t Hg AF) as [Z [-> AZ]]. cbn [obind].
  destruct (raw_ok no nv g eps D2 Z (one_side t) Hg HD AZ) as [S [-> AS]]. cbn [obind].
  assert (AW : agree no nv (tscale (-(1)) S) w).
  { split; [apply AS|]. intros i j a b Hi Hj Ha Hb. unfold fun4, tscale, w. cbn [data]. rewrite <- (proj2 AS) by assumption. unfold fun4. ring. }
  destruct (determine_ok no nv g _ w Hg AW) as [Z' [-> _]]. cbn [obind].
  (* singles *)
  set (tab := [(1%N, ([6;6;6;6]%N, g)); (7%N, ([0;1]%N, u1))] : atomtab).
  assert (OK : Forall (atom_ok (so_range no nv) sy) tab) by (unfold tab; oks).
  assert (V1 : Forall2 (so_vsim no nv tab) [at_ 7 [0;1]%N; xG; xo; xv] [VT u1; VT g; o_ no; v_ no]) by vsims.
  assert (VE : so_vsim no nv tab (SP [0;0;1;1]%N p_singles) (VT (arr4 no no nv nv (singles_terms no nv g (fun i a => data u1 [i; a]))))).
  { unfold p_singles, singles_terms, tab. apply so_formula; [vm_compute; reflexivity|reflexivity|]. given_entries. }
  so_nf OK 0%nat (@nil (string * fn)) t1_source [0;0;1;1]%N V1 U HU VU.
  pose proof (so_asym_vs_ov no nv tab _ _ _ VU) as V4.
  so_nf OK 0%nat (@nil (string * fn)) Code_wicked_T3corr.antisym_T2 [0;0;1;1]%N V4 R HR VR.
  assert (ER : teq R (arr4 no no nv nv (singles_terms no nv g (fun i a => data u1 [i; a])))).
  { eapply (so_vs_eq no nv tab OK [0;0;1;1]%N); [exact VR|exact VE|chk_]. }
  rewrite (call0_returns _ _ _ HU : call0 t1_source [VT u1; VT g; VSl 0 (Some no); VSl no None] = Some U). cbn [obind].
  rewrite (call0_returns _ _ _ HR). cbn [obind]. destruct ER as [R1 R2]. cbn [shape arr4] in R1.
  assert (DR : forall i j a b, (i < no)%nat -> (j < no)%nat -> (a < nv)%nat -> (b < nv)%nat -> data R [i; j; a; b] = r i j a b).
  { intros i j a b Hi Hj Ha Hb. rewrite R2 by (rewrite R1; repeat constructor; assumption). reflexivity. }
  assert (HY : exists y, ttransp [2; 3; 0; 1]%nat R = Some y /\ shape y = [nv; nv; no; no] /\ forall i j a b, data y [a; b; i; j] = data R [i; j; a; b]).
  { unfold ttransp. rewrite R1. eexists; split; [reflexivity|]. split; [reflexivity|]. reflexivity. }
  destruct HY as [y [-> [SY DY]]]. cbn [obind]. rewrite tbin_ok by congruence. cbn [obind].
  set (X := mkT (shape y) (fun i => data y i * data D2 i)).
  assert (HE : exists E, returns 0 [] singles_energy_fn [VT X; VT R] E /\
     teq E (arr0 (Q2Qc (1 # 4) * (Sum i < no, Sum j < no, Sum a < nv, Sum b < nv, data X [a; b; i; j] * data R [i; j; a; b])))).
  { clear -R1 SY. assert (SX : shape X = [nv; nv; no; no]) by exact SY. clearbody X.
    set (tab := [(60%N, ([0;0;1;1]%N, R)); (61%N, ([1;1;0;0]%N, X))] : atomtab).
    assert (M : [no; no; nv; nv] = map (dim (so_range no nv)) [0;0;1;1]%N) by (symmetry; apply (sh_ov no nv 2)).
    assert (M' : [nv; nv; no; no] = map (dim (so_range no nv)) [1;1;0;0]%N) by (symmetry; apply (sh_vo no nv 2)).
    assert (OK : Forall (atom_ok (so_range no nv) sy) tab).
    { unfold tab. constructor; [|constructor; [|constructor]]; apply atom_ok_gen; first [reflexivity|congruence]. }
    eapply (so_reads no nv tab 0 [] singles_energy_fn [at_ 61 [1;1;0;0]%N; at_ 60 [0;0;1;1]%N] _ [] p_dot2 _ OK).
    - constructor; [|constructor; [|constructor]]; apply so_atom; first [reflexivity|congruence].
    - unfold p_dot2, tab. so_form.
    - chk_. }
  destruct HE as [E [HE [T1 T2]]]. rewrite (call0_returns _ _ _ HE). cbn [obind]. cbn [shape arr0] in T1. rewrite T1. cbn [obind].
  assert (DX' : forall i j a b, (i < no)%nat -> (j < no)%nat -> (a < nv)%nat -> (b < nv)%nat -> data X [a; b; i; j] = r i j a b / gap no eps [a; b] [i; j]).
  { intros i j a b Hi Hj Ha Hb. unfold X. cbn [data]. rewrite DY, DR, DD by assumption. reflexivity. }
  assert (EF : data E [] = full).
  { rewrite (T2 []) by (rewrite T1; constructor). cbn [data arr0]. unfold full, q. f_equal.
    sums_ext i Hi. sums_ext j Hj. sums_ext a Ha. sums_ext b Hb. rewrite DX', DR by assumption. unfold Qcdiv. ring. }
  assert (ED : pairs_sum no nv (fun i a => Q2Qc (25 # 100) * data R [i; i + 1; a; a + 1]%nat * data X [a; a + 1; i; i + 1]%nat) = diag).
  { unfold pairs_sum, diag, q. sums_ext i Hi. sums_ext a Ha. rewrite DX', DR by lia.
    replace (Q2Qc (25 # 100)) with (Q2Qc (1 # 4)) by (apply Qc_is_canon; vm_compute; reflexivity). unfold Qcdiv. ring. }
  cbv zeta. rewrite EF, ED. reflexivity.
Qed.
Print Assumptions C75_printed_pair_corrections.
Example C75_instance := C75_printed_pair_corrections 4 2 (i_tei 6) i_eps (i_den 2 4 2) (i_amp 1 4 2) (i_tei_ok 6) (i_den_ok 2 4 2) (i_amp_ok 1 4 2).
(** C75.  The two numbers printed for the off-diagonal energy, "test of off-diagon" and "final pCCD related E", can differ. *)
Definition wt (l : list nat) : Qc := fold_right (fun p x => Q2Qc (inject_Z (Z.of_nat (p + 1))) * x) 1 l.
Definition i_tei_w (n : nat) : tensor := mkT [n; n; n; n] (fun idx => wt idx * data (i_tei n) idx).
Lemma wt_cons x l : wt (x :: l) = Q2Qc (inject_Z (Z.of_nat (x + 1))) * wt l. Proof. reflexivity. Qed.
Lemma wt_app l l' : wt (l ++ l') = wt l * wt l'.
Proof. induction l as [|x l IH]; [cbn [app]; change (wt []) with 1; ring|]. cbn [app]. rewrite !wt_cons, IH. ring. Qed.
Lemma i_tei_w_ok n : is_tei n (i_tei_w n).
Proof.
  destruct (i_tei_ok n) as [S [A H]]. split; [reflexivity|]. split.
  - intros i Hi. destruct (A i Hi) as [A1 A2].
    split; intros pre x y post HL I1 I2; cbn [data i_tei_w]; [rewrite (A1 pre x y post HL I1 I2)|rewrite (A2 pre x y post HL I1 I2)];
      rewrite !wt_app, !wt_cons; ring.
  - intros l1 l2 L1 L2 I. cbn [data i_tei_w]. rewrite (H l1 l2 L1 L2 I), !wt_app. ring.
Qed.
Theorem C75_pair_correction_refuted :
  exists no nv g eps D2 t1, is_tei (no + nv) g /\ is_denominator 2 no nv eps D2 /\ is_amp 1 no nv t1 /\
    exists full diag test final rest,
      printed_pCCD no nv g D2 t1 = Some (("fullE:", full) :: ("diagonal portion of E:", diag) :: ("test of off-diagon:", test) :: ("final pCCD related E", final) :: rest) /\
      test <> final.
Proof.
  exists 4%nat, 2%nat, (i_tei_w 6), i_eps, (i_den 2 4 2), (i_amp 1 4 2). split; [exact (i_tei_w_ok 6)|]. split; [exact (i_den_ok 2 4 2)|].
  split; [exact (i_amp_ok 1 4 2)|]. do 5 eexists.
  split; [exact (C75_printed_pair_corrections 4 2 (i_tei_w 6) i_eps (i_den 2 4 2) (i_amp 1 4 2) (i_tei_w_ok 6) (i_den_ok 2 4 2) (i_amp_ok 1 4 2))|].
  intros H. apply (f_equal this) in H. vm_compute in H. discriminate H.
Qed.
Print Assumptions C75_pair_correction_refuted.
