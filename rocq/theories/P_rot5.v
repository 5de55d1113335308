(** C68 for the numbers DriveCC prints for a label with (qf): they are the same in equivalent orbitals. *)
From Coq Require Import String Ascii List Arith NArith ZArith QArith Qcanon Bool Lia Permutation.
From Verif Require Import Sums Tensor Interp Numpy Poly SymExec Canon Spec SpecFrag SpecRot Instances Setup Master Spin Check Tabs Frag P_wanti Rot RotTabs P_rot P_rot2.
From Verif Require Import Diis Kernel Denoms SlowCC SpecDriver P_slow P_triples Drive SpecDrive P_qf_routes P_drive P_drive2 P_drive3 P_drive5 P_driver RelRun P_rot3 P_rot4.
From Verif Require Code_cc_energy.
From Coq Require Import List.
Import ListNotations.
Open Scope string_scope.
Open Scope list_scope.
Open Scope Qc_scope.

(** ** Elementwise products
    The correction programs form `W[o,o,v,v]*D2` (or `T3*D3`), which is not a contraction.  A term that holds atom [n] and atom 8 (the
    denominators) at the same indices is read as one atom 9, the product array, which does transform like an array of orbitals. *)
Fixpoint leqb (a b : list N) : bool :=
  match a, b with [], [] => true | x :: a, y :: b => (N.eqb x y && leqb a b)%bool | _, _ => false end.
Lemma leqb_eq a : forall b, leqb a b = true -> a = b.
Proof.
  induction a as [|x a IH]; intros [|y b] H; cbn [leqb] in H; try discriminate; [reflexivity|].
  apply andb_true_iff in H. destruct H as [H1 H2]. apply N.eqb_eq in H1. rewrite H1, (IH b H2). reflexivity.
Qed.
Fixpoint rmf (n : N) (l : list N) (fs : list fac) : option (list fac) :=
  match fs with
  | [] => None
  | f :: r => if (N.eqb (fst f) n && leqb (snd f) l)%bool then Some r else match rmf n l r with Some q => Some (f :: q) | None => None end
  end.
Definition special (f : fac) : bool := (N.eqb (fst f) 8 || N.eqb (fst f) 9)%bool.
Definition mergeT (n : N) (t : term) : option term :=
  match find (fun f => N.eqb (fst f) 8) (tf t) with
  | None => None
  | Some f => match rmf 8 (snd f) (tf t) with
      | None => None
      | Some r => match rmf n (snd f) r with
          | None => None
          | Some r' => if existsb special r' then None else Some (T (tc t) (td t) ((9%N, snd f) :: r'))
          end
      end
  end.
Lemma rmf_ok A n l e : forall fs r, rmf n l fs = Some r -> evalFs A fs e = A n (map e l) * evalFs A r e.
Proof.
  induction fs as [|f fs IH]; intros r H; cbn [rmf] in H; [discriminate|]. destruct (N.eqb (fst f) n && leqb (snd f) l)%bool eqn:E.
  - apply andb_true_iff in E. destruct E as [E1 E2]. apply N.eqb_eq in E1. apply leqb_eq in E2. injection H as <-. cbn [evalFs]. unfold evalF. rewrite E1, E2. reflexivity.
  - destruct (rmf n l fs) as [q|] eqn:Q; [|discriminate]. injection H as <-. cbn [evalFs]. rewrite (IH q eq_refl). ring.
Qed.
Section Merge.
  Variable range : N -> list nat.
  Variables A B : N -> list nat -> Qc.
  Variable n : N.
  Hypothesis H9 : forall l, B 9%N l = A n l * A 8%N l.
  Hypothesis HB : forall k l, k <> 8%N -> k <> 9%N -> B k l = A k l.
  Lemma plain_ok e : forall fs, existsb special fs = false -> evalFs B fs e = evalFs A fs e.
  Proof.
    induction fs as [|f fs IH]; intros H; [reflexivity|]. cbn [existsb] in H. apply orb_false_iff in H. destruct H as [H1 H2]. cbn [evalFs]. rewrite (IH H2). f_equal.
    unfold special in H1. apply orb_false_iff in H1. destruct H1 as [H3 H4]. apply N.eqb_neq in H3, H4. unfold evalF. apply HB; assumption.
  Qed.
  Lemma mergeT_ok e t t' : mergeT n t = Some t' -> evalT range B e t' = evalT range A e t.
  Proof.
    unfold mergeT. destruct (find (fun f => N.eqb (fst f) 8) (tf t)) as [f|]; [|discriminate]. destruct (rmf 8 (snd f) (tf t)) as [r|] eqn:R; [|discriminate].
    destruct (rmf n (snd f) r) as [r'|] eqn:R'; [|discriminate]. destruct (existsb special r') eqn:S; [discriminate|]. intros H. injection H as <-.
    unfold evalT. cbn [tc td tf]. f_equal. apply sumD_ext. intros e'. rewrite (rmf_ok A _ _ e' _ _ R), (rmf_ok A _ _ e' _ _ R'). cbn [evalFs]. unfold evalF. cbn [fst snd].
    rewrite H9, (plain_ok e' r' S). ring.
  Qed.
  Lemma merge_ok e p q : omapl (mergeT n) p = Some q -> evalP range B e q = evalP range A e p.
  Proof. intros H. unfold evalP at 2. apply (omapl_sum range B (mergeT n) (evalT range A e) p q e H). intros x t _ Hx. apply mergeT_ok, Hx. Qed.
End Merge.
Definition mchk (n : N) (r : option sval) : bool :=
  (outsp [] r && match omapl (mergeT n) (getp r) with Some q => rotpoly [] q | None => false end)%bool.

Section Num.
  Variables no nv : nat.
  Variables Uo Uv : nat -> nat -> Qc.
  Hypothesis Ho : orthogonal no Uo.
  Hypothesis Hv : orthogonal nv Uv.
  Local Notation rg := (so_range no nv).
  Definition merges (n : N) (tab tab9 : atomtab) : Prop :=
    (forall l, Aof rg tab9 9%N l = Aof rg tab n l * Aof rg tab 8%N l) /\ (forall k l, k <> 8%N -> k <> 9%N -> Aof rg tab9 k l = Aof rg tab k l).
  Lemma merged_number n tab tab9 tab' tab9' d lib f a v v' : merges n tab tab9 -> merges n tab' tab9' -> Forall2 (rtab no nv Uo Uv) tab9 tab9' ->
    Forall2 (so_vsim no nv tab) a v -> Forall2 (so_vsim no nv tab') a v' -> mchk n (srun so_slm d lib f a) = true ->
    exists R R', returns d lib f v R /\ returns d lib f v' R' /\ data R' [] = data R [].
  Proof using Ho Hv.
    intros [M9 MB] [M9' MB'] HT V V' C. unfold mchk in C. apply andb_true_iff in C. destruct C as [O C].
    destruct (omapl _ _) as [q|] eqn:Q; [|discriminate].
    destruct (so_exec _ _ _ _ _ _ _ _ _ V O) as [R [E [T _]]], (so_exec _ _ _ _ _ _ _ _ _ V' O) as [R' [E' [T' _]]].
    exists R, R'. split; [exact E|]. split; [exact E'|].
    assert (W : so_tsim no nv tab9 (map ksp []) q R). { destruct T as [S1 T]. split; [exact S1|]. intros idx e Hi He. rewrite (merge_ok rg _ _ n M9 MB e _ _ Q). apply T; assumption. }
    assert (W' : so_tsim no nv tab9' (map ksp []) q R'). { destruct T' as [S1 T']. split; [exact S1|]. intros idx e Hi He. rewrite (merge_ok rg _ _ n M9' MB' e _ _ Q). apply T'; assumption. }
    destruct (rot_ok no nv Uo Uv Ho Hv tab9 tab9' HT [] q R R' eq_refl eq_refl C W W') as [_ [S2 RR]]. apply (RR []). rewrite S2. constructor.
  Qed.
End Num.

(** ** The correction programs *)
Section Printed.
  Variables no nv : nat.
  Variables Uo Uv : nat -> nat -> Qc.
  Hypothesis Ho : orthogonal no Uo.
  Hypothesis Hv : orthogonal nv Uv.
  Local Notation rg := (so_range no nv).
  Local Notation rotd := (rotated no nv Uo Uv).
  Definition tab9 (W T2 T3 K : tensor) : atomtab :=
    [(1%N, ([6;6;6;6]%N, W)); (3%N, ([0;0;1;1]%N, T2)); (4%N, ([0;0;0;1;1;1]%N, T3)); (9%N, ([0;0;1;1]%N, K))].
  (** K = <ij||ab> D_ijab *)
  Definition prod_ovov (W D2 K : tensor) : Prop := shape K = [no; no; nv; nv] /\
    forall i j a b, (i < no)%nat -> (j < no)%nat -> (a < nv)%nat -> (b < nv)%nat -> data K [i; j; a; b] = data W [i; j; no + a; no + b]%nat * data D2 [i; j; a; b].
  Lemma range_all p : In p (rg 6%N) -> index_of p (rg 6%N) = p.
  Proof using. cbn [so_range]. intros H. rewrite index_of_seq by exact H. lia. Qed.
  Lemma merges_W W T2 T3 D2 K : prod_ovov W D2 K -> merges no nv 1%N (r_atoms W T2 T3 D2) (tab9 W T2 T3 K).
  Proof using.
    intros [_ HK]. split.
    - intros l. unfold Aof, tab9, r_atoms. cbn [nlook N.eqb Pos.eqb]. destruct (inrb rg [0;0;1;1]%N l) eqn:E; [|rewrite Qcmult_0_r; reflexivity].
      apply inrb_spec in E. inversion E as [|? i ? ? I1 E1]; subst. inversion E1 as [|? j ? ? I2 E2]; subst. inversion E2 as [|? a ? ? I3 E3]; subst. inversion E3 as [|? b ? ? I4 E4]; subst. inversion E4; subst.
      assert (I6 : Forall2 (fun s x => In x (rg s)) [6;6;6;6]%N [i; j; a; b]).
      { repeat constructor; cbn [so_range] in *; rewrite in_seq in *; lia. }
      rewrite (proj2 (inrb_spec rg _ _) I6). unfold rel. rewrite !zipw_cons. inversion I6 as [|? ? ? ? J1 F1]; subst. inversion F1 as [|? ? ? ? J2 F2]; subst. inversion F2 as [|? ? ? ? J3 F3]; subst. inversion F3 as [|? ? ? ? J4 F4]; subst.
      rewrite !range_all by assumption. unfold zipw. cbn [combine map]. cbn [so_range] in I1, I2, I3, I4 |- *. rewrite !index_of_seq by assumption.
      apply in_seq in I1, I2, I3, I4. rewrite !Nat.sub_0_r. rewrite HK by lia. replace (no + (a - no))%nat with a by lia. replace (no + (b - no))%nat with b by lia. reflexivity.
    - intros k l N8 N9. unfold Aof, tab9, r_atoms. cbn [nlook]. apply N.eqb_neq in N8, N9. rewrite N8, N9. reflexivity.
  Qed.
  Section Two.
    Variables W W' T2 T2' T3 T3' D2 D2' K K' : tensor.
    Hypothesis RW : rotd [Al; Al; Al; Al] W W'.
    Hypothesis R2 : rotd (ov_kinds 2) T2 T2'.
    Hypothesis R3 : rotd (ov_kinds 3) T3 T3'.
    Hypothesis RK : rotd (ov_kinds 2) K K'.
    Hypothesis PK : prod_ovov W D2 K.
    Hypothesis PK' : prod_ovov W' D2' K'.
    Hypothesis SD : shape D2 = [no; no; nv; nv].
    Hypothesis SD' : shape D2' = [no; no; nv; nv].
    Hypothesis HW : is_tei (no + nv) W.
    Hypothesis HW' : is_tei (no + nv) W'.
    Hypothesis H2 : is_amp_ov 2 no nv T2.
    Hypothesis H2' : is_amp_ov 2 no nv T2'.
    Hypothesis H3 : is_amp_ov 3 no nv T3.
    Hypothesis H3' : is_amp_ov 3 no nv T3'.
    Lemma t9 : Forall2 (rtab no nv Uo Uv) (tab9 W T2 T3 K) (tab9 W' T2' T3' K').
    Proof using All. unfold tab9. repeat (apply Forall2_cons; [split; [reflexivity|]|]); [exists [Al;Al;Al;Al]|exists (ov_kinds 2)|exists (ov_kinds 3)|exists (ov_kinds 2)|constructor]; cbn [fst snd]; auto. Qed.
    Lemma num5 f E E' : mchk 1 (srun so_slm 2 lib_cc_energy f r_args5) = true ->
      qf_value no W T2 T3 D2 f E -> qf_value no W' T2' T3' D2' f E' -> E' = E.
    Proof using All.
      intros C [X [HX <-]] [X' [HX' <-]].
      destruct (merged_number no nv Uo Uv Ho Hv 1 _ _ _ _ 2 lib_cc_energy f r_args5 _ _ (merges_W W T2 T3 D2 K PK) (merges_W W' T2' T3' D2' K' PK') t9
        (r_vs5 no nv W T2 T3 D2 HW H2 H3 SD) (r_vs5 no nv W' T2' T3' D2' HW' H2' H3' SD') C) as [R [R' [HR [HR' HE]]]].
      rewrite (returns_eq _ _ _ _ _ _ HX HR), (returns_eq _ _ _ _ _ _ HX' HR'). exact HE.
    Qed.
    Lemma num6 f E E' : mchk 1 (srun so_slm 2 lib_cc_energy f r_args6) = true ->
      qf_value2 no W T2 D2 f E -> qf_value2 no W' T2' D2' f E' -> E' = E.
    Proof using All.
      intros C [X [HX <-]] [X' [HX' <-]].
      destruct (merged_number no nv Uo Uv Ho Hv 1 _ _ _ _ 2 lib_cc_energy f r_args6 _ _ (merges_W W T2 T3 D2 K PK) (merges_W W' T2' T3' D2' K' PK') t9
        (r_vs6 no nv W T2 T3 D2 HW H2 SD) (r_vs6 no nv W' T2' T3' D2' HW' H2' SD') C) as [R [R' [HR [HR' HE]]]].
      rewrite (returns_eq _ _ _ _ _ _ HX HR), (returns_eq _ _ _ _ _ _ HX' HR'). exact HE.
    Qed.
  End Two.
End Printed.
Lemma c134 : mchk 1 (srun so_slm 2 lib_cc_energy Code_cc_energy.long_testQf5Order_L134 r_args5) = true. Proof. rtchk. Qed.
Lemma c149 : mchk 1 (srun so_slm 2 lib_cc_energy Code_cc_energy.long_testQf5Order_L149 r_args5) = true. Proof. rtchk. Qed.
Lemma c110 : mchk 1 (srun so_slm 2 lib_cc_energy Code_cc_energy.sixthOrderQf_wnT2T3_L110 r_args5) = true. Proof. rtchk. Qed.
Lemma c116 : mchk 1 (srun so_slm 2 lib_cc_energy Code_cc_energy.sixthOrderQf_wnT2T3_L116 r_args5) = true. Proof. rtchk. Qed.
Lemma c103 : mchk 1 (srun so_slm 2 lib_cc_energy Code_cc_energy.sixthOrderQf_wnT2cubed_L103 r_args6) = true. Proof. rtchk. Qed.
Definition t_args : list sval := [SFull 1 [0;0;0;0]%N; at_ 3 [0;0;1;1]%N; SSl 0; SSl 1].
Lemma capprox : rotchk (ov_kinds 3) (srun so_slm 2 energy_lib pt_approx t_args) = true. Proof. rtchk. Qed.
Definition b_args : list sval := [at_ 4 [0;0;0;1;1;1]%N; at_ 8 [0;0;0;1;1;1]%N].
Lemma cbrak : mchk 4 (srun so_slm 2 energy_lib pt_brak b_args) = true. Proof. rtchk. Qed.

Section Pert.
  Variables no nv : nat.
  Variables Uo Uv : nat -> nat -> Qc.
  Hypothesis Ho : orthogonal no Uo.
  Hypothesis Hv : orthogonal nv Uv.
  Local Notation rg := (so_range no nv).
  Local Notation rotd := (rotated no nv Uo Uv).
  Variable label : string.
  Variables x x' : setup.
  Hypothesis P : prepared no nv label x.
  Hypothesis P' : prepared no nv label x'.
  Hypothesis Rf : rotd [Al; Al] (x_f x) (x_f x').
  Hypothesis Rg : rotd [Al; Al; Al; Al] (x_g x) (x_g x').
  Hypothesis HM : mixes_equal_energies no nv Uo Uv (energies_of x) (energies_of x').

  (** the approximate triples transform *)
  Lemma approx_unique g T2 t2 T3 X : swapped 2 t2 T2 -> approximate_triples no nv g T2 T3 -> (exists N, antisymmetrised 3 (W_T2 no nv g t2) N /\ swapped 3 N X) ->
    shape T3 = shape X /\ forall idx, inr idx (shape X) -> data T3 idx = data X idx.
  Proof using.
    intros SW AP [N' [[S2 A2] [Q3 Q4]]]. destruct (AP t2 SW) as [N1 [[S1 A1] [Q1 Q2]]].
    assert (SH : shape (W_T2 no nv g t2) = [nv; nv; nv; no; no; no]) by reflexivity. rewrite SH in *. rewrite S1 in Q1. rewrite S2 in Q3. cbn [skipn firstn app] in Q1, Q3.
    split; [rewrite Q1, Q3; reflexivity|]. intros idx Hi. rewrite Q3 in Hi.
    inversion Hi as [|i ? r1 ? I1 E1]; subst. inversion E1 as [|j ? r2 ? I2 E2]; subst. inversion E2 as [|k ? r3 ? I3 E3]; subst.
    inversion E3 as [|a ? r4 ? I4 E4]; subst. inversion E4 as [|b ? r5 ? I5 E5]; subst. inversion E5 as [|c ? r6 ? I6 E6]; subst. inversion E6; subst.
    assert (IW : inr ([a; b; c] ++ [i; j; k]) [nv; nv; nv; no; no; no]) by (repeat constructor; assumption).
    change [i; j; k; a; b; c] with ([i; j; k] ++ [a; b; c]). rewrite (Q2 [a; b; c] [i; j; k] eq_refl ltac:(rewrite S1; exact IW)), (Q4 [a; b; c] [i; j; k] eq_refl ltac:(rewrite S2; exact IW)).
    rewrite (A1 [a; b; c] [i; j; k] eq_refl IW), (A2 [a; b; c] [i; j; k] eq_refl IW). reflexivity.
  Qed.
  Lemma rotd_ext ks t t' u u' : rotd ks t t' -> shape u = shape t -> (forall idx, inr idx (shape t) -> data u idx = data t idx) ->
    shape u' = shape t' -> (forall idx, inr idx (shape t') -> data u' idx = data t' idx) -> rotd ks u u'.
  Proof using.
    intros [S1 [S2 R]] SU EU SU' EU'. split; [congruence|]. split; [congruence|]. intros idx Hi. rewrite SU' in Hi. rewrite EU' by exact Hi. rewrite R by exact Hi.
    apply ra_ext; [rewrite S2 in Hi; apply Forall2_len in Hi; rewrite map_length in Hi; exact Hi|]. intros l Hl. symmetry. apply EU. rewrite S1. exact Hl.
  Qed.
  Lemma triples_rel T2 T2' T3 T3' : is_amp_ov 2 no nv T2 -> is_amp_ov 2 no nv T2' -> rotd (ov_kinds 2) T2 T2' ->
    approximate_triples no nv (x_g x) T2 T3 -> approximate_triples no nv (x_g x') T2' T3' -> rotd (ov_kinds 3) T3 T3'.
  Proof using All.
    intros H2 H2' R2 AP AP'. set (tab := fun g t : tensor => [(1%N, ([6;6;6;6]%N, g)); (3%N, ([0;0;1;1]%N, t))] : atomtab).
    assert (OK : Forall2 (rtab no nv Uo Uv) (tab (x_g x) T2) (tab (x_g x') T2')).
    { unfold tab. repeat (apply Forall2_cons; [split; [reflexivity|]|]); [exists [Al;Al;Al;Al]|exists (ov_kinds 2)|constructor]; cbn [fst snd]; auto. }
    pose proof (Pg no nv label x P) as Hg. pose proof (Pg no nv label x' P') as Hg'.
    assert (V : Forall2 (so_vsim no nv (tab (x_g x) T2)) t_args [VT (x_g x); VT T2; o_ no; v_ no]) by (unfold tab, t_args; vsims).
    assert (V' : Forall2 (so_vsim no nv (tab (x_g x') T2')) t_args [VT (x_g x'); VT T2'; o_ no; v_ no]) by (unfold tab, t_args; vsims).
    destruct (rot_residual no nv Uo Uv Ho Hv _ _ OK _ _ _ _ _ _ _ V V' capprox) as [X [X' [HX [HX' RX]]]].
    destruct (unswap no nv 2 T2 H2) as [t2 [SW Ht]], (unswap no nv 2 T2' H2') as [t2' [SW' Ht']].
    destruct (approx_unique _ _ _ _ X SW AP (approx_program no nv _ _ _ _ Hg Ht SW HX)) as [U1 U2].
    destruct (approx_unique _ _ _ _ X' SW' AP' (approx_program no nv _ _ _ _ Hg' Ht' SW' HX')) as [U3 U4].
    eapply rotd_ext; eassumption.
  Qed.
  (** the bracket-T number *)
  Definition bracket (e : nat -> Qc) (T3 : tensor) : Qc := Q2Qc (111111111 # 4000000000) * (Sum i < no, Sum j < no, Sum k < no, Sum a < nv, Sum b < nv, Sum c < nv,
    data T3 [i; j; k; a; b; c] * data T3 [i; j; k; a; b; c] * / gap no e [a; b; c] [i; j; k]).
  Lemma tbin_data (h : Qc -> Qc -> Qc) a b c : shape a = shape b -> tbin h a b = Some c -> shape c = shape a /\ forall idx, inr idx (shape a) -> data c idx = h (data a idx) (data b idx).
  Proof using.
    intros E H. rewrite (tbin_ok h a b E) in H. injection H as <-. split; [reflexivity|]. intros idx _. reflexivity.
  Qed.
  Lemma bracket_rel T3 T3' : is_amp_ov 3 no nv T3 -> is_amp_ov 3 no nv T3' -> rotd (ov_kinds 3) T3 T3' -> bracket (energies_of x') T3' = bracket (energies_of x) T3.
  Proof using All.
    intros H3 H3' R3. destruct (den_def no nv label x P 3 ltac:(lia)) as [D [_ KD]], (den_def no nv label x' P' 3 ltac:(lia)) as [D' [_ KD']].
    pose proof (brak no nv x T3 D H3 KD) as B. pose proof (brak no nv x' T3' D' H3' KD') as B'.
    pose proof (rot_times nv no Uv Uo _ _ (swap_mix no nv Uo Uv _ _ HM) 3 D D' T3 T3' KD KD' (proj1 (swap_rot no nv Uo Uv 3 T3 T3') R3)) as RK.
    destruct (tbin Qcmult T3 D) as [K|] eqn:EK, (tbin Qcmult T3' D') as [K'|] eqn:EK'; cbn [orel] in RK; try contradiction; [|].
    2:{ exfalso. rewrite tbin_ok in EK; [discriminate|]. rewrite (proj1 KD), (proj1 H3). reflexivity. }
    apply swap_rot in RK.
    assert (SH : forall y T D, prepared no nv label y -> is_amp_ov 3 no nv T -> den_ov no nv y 3 D -> shape T = shape D) by (intros y T E _ [A _] [C _]; rewrite A, C; reflexivity).
    set (tb := fun T D : tensor => [(4%N, ([0;0;0;1;1;1]%N, T)); (8%N, ([0;0;0;1;1;1]%N, D))] : atomtab).
    set (t9 := fun T K : tensor => [(4%N, ([0;0;0;1;1;1]%N, T)); (9%N, ([0;0;0;1;1;1]%N, K))] : atomtab).
    assert (MG : forall T E Z, is_amp_ov 3 no nv T -> shape T = shape E -> tbin Qcmult T E = Some Z -> merges no nv 4%N (tb T E) (t9 T Z)).
    { clear. intros T E Z [ST _] HS HZ. destruct (tbin_data _ _ _ _ HS HZ) as [_ HD]. split.
      - intros l. unfold Aof, t9, tb. cbn [nlook N.eqb Pos.eqb]. destruct (inrb rg [0;0;0;1;1;1]%N l) eqn:I; [|rewrite Qcmult_0_r; reflexivity].
        apply HD. rewrite ST. apply inrb_spec in I. rewrite <- (sh_ov no nv 3). apply rel_inr, I.
      - intros k l N8 N9. unfold Aof, t9, tb. cbn [nlook]. apply N.eqb_neq in N8, N9. rewrite N8, N9. reflexivity. }
    assert (VA : forall T E, is_amp_ov 3 no nv T -> shape T = shape E -> Forall2 (so_vsim no nv (tb T E)) b_args [VT T; VT E]).
    { clear. intros T E [ST _] HS. constructor; [apply so_atom; [reflexivity|]; rewrite ST; symmetry; apply (sh_ov no nv 3)|].
      constructor; [apply so_atom; [reflexivity|]; rewrite <- HS, ST; symmetry; apply (sh_ov no nv 3)|constructor]. }
    assert (T9 : Forall2 (rtab no nv Uo Uv) (t9 T3 K) (t9 T3' K')).
    { unfold t9. repeat (apply Forall2_cons; [split; [reflexivity|]|]); [exists (ov_kinds 3)|exists (ov_kinds 3)|constructor]; cbn [fst snd]; auto. }
    pose proof (SH x T3 D P H3 KD) as S1. pose proof (SH x' T3' D' P' H3' KD') as S2.
    destruct (merged_number no nv Uo Uv Ho Hv 4 _ _ _ _ 2 energy_lib pt_brak b_args _ _ (MG _ _ _ H3 S1 EK) (MG _ _ _ H3' S2 EK') T9 (VA _ _ H3 S1) (VA _ _ H3' S2) cbrak) as [R [R' [HR [HR' HE]]]].
    rewrite (calle_of _ _ _ HR) in B. rewrite (calle_of _ _ _ HR') in B'. unfold bracket. congruence.
  Qed.
  (** all printed numbers *)
  Lemma printed_rel d d' D2 D2' a b c u v w a' b' c' u' v' w' : contains "D" label = true -> amplitudes no nv label d -> amplitudes no nv label d' ->
    (forall k, same_in_new_orbitals no nv Uo Uv (ov_kinds (ov_rank k)) (slook k d) (slook k d')) ->
    slook "D2aa" (x_den x) = Some D2 -> slook "D2aa" (x_den x') = Some D2' ->
    qf_inputs no nv (x_g x) D2 (energies_of x) d a b c u v w -> qf_inputs no nv (x_g x') D2' (energies_of x') d' a' b' c' u' v' w' ->
    qf_printout a' b' c' u' v' w' = qf_printout a b c u v w.
  Proof using All.
    intros HD A A' RD E E' [T2 [T3 [E2 [H3 [ET [Ia [Ib [Ic [Iu [Iv Iw]]]]]]]]]] [T2' [T3' [E2' [H3' [ET' [Ia' [Ib' [Ic' [Iu' [Iv' Iw']]]]]]]]]].
    pose proof (RD "t2aa") as R2. rewrite E2, E2' in R2. cbn [same_in_new_orbitals] in R2. change (ov_rank "t2aa") with 2%nat in R2.
    destruct (have no nv _ _ _ _ (proj1 (proj2 A)) HD) as [Y2 [Q2 H2]]. rewrite E2 in Q2. injection Q2 as <-.
    destruct (have no nv _ _ _ _ (proj1 (proj2 A')) HD) as [Y2 [Q2 H2']]. rewrite E2' in Q2. injection Q2 as <-.
    assert (R3 : rotd (ov_kinds 3) T3 T3').
    { pose proof (RD "t3aa") as R3. change (ov_rank "t3aa") with 3%nat in R3. destruct (slook "t3aa" d), (slook "t3aa" d'); cbn [same_in_new_orbitals] in R3; try contradiction.
      - subst. exact R3.
      - exact (triples_rel T2 T2' T3 T3' H2 H2' R2 ET ET'). }
    destruct (key2 no nv label x P HD) as [Z [EZ K2]]. rewrite E in EZ. injection EZ as <-. destruct (key2 no nv label x' P' HD) as [Z [EZ K2']]. rewrite E' in EZ. injection EZ as <-.
    destruct (oovv_slice no nv label x P) as [s [Es [As Ds]]], (oovv_slice no nv label x' P') as [s' [Es' [As' Ds']]].
    pose proof (woovv_rel no nv Uo Uv Ho Hv label x x' P P' Rf Rg HM) as RS. rewrite Es, Es' in RS. cbn [orel] in RS.
    pose proof (rot_times nv no Uv Uo _ _ (swap_mix no nv Uo Uv _ _ HM) 2 D2 D2' s s' K2 K2' (proj1 (swap_rot no nv Uo Uv 2 s s') RS)) as RK.
    assert (SS : shape s = shape D2) by (rewrite (proj1 As), (proj1 K2); reflexivity). assert (SS' : shape s' = shape D2') by (rewrite (proj1 As'), (proj1 K2'); reflexivity).
    destruct (tbin Qcmult s D2) as [K|] eqn:EK; [|exfalso; rewrite tbin_ok in EK by exact SS; discriminate]. destruct (tbin Qcmult s' D2') as [K'|] eqn:EK'; cbn [orel] in RK; [|contradiction].
    apply swap_rot in RK. destruct (tbin_data _ _ _ _ SS EK) as [SK DK], (tbin_data _ _ _ _ SS' EK') as [SK' DK'].
    assert (PK : prod_ovov no nv (x_g x) D2 K).
    { split; [rewrite SK; exact (proj1 As)|]. intros i j e f Hi Hj He Hf. rewrite DK by (rewrite (proj1 As); repeat constructor; assumption). rewrite Ds by assumption. reflexivity. }
    assert (PK' : prod_ovov no nv (x_g x') D2' K').
    { split; [rewrite SK'; exact (proj1 As')|]. intros i j e f Hi Hj He Hf. rewrite DK' by (rewrite (proj1 As'); repeat constructor; assumption). rewrite Ds' by assumption. reflexivity. }
    pose proof (Pg no nv label x P) as HW. pose proof (Pg no nv label x' P') as HW'.
    pose proof (fun f e e' => num5 no nv Uo Uv Ho Hv _ _ _ _ _ _ _ _ _ _ Rg R2 R3 RK PK PK' (proj1 K2) (proj1 K2') HW HW' H2 H2' H3 H3' f e e') as N5.
    pose proof (fun f e e' => num6 no nv Uo Uv Ho Hv _ _ _ _ _ _ _ _ _ _ Rg R2 R3 RK PK PK' (proj1 K2) (proj1 K2') HW HW' H2 H2' H3 H3' f e e') as N6.
    rewrite (N5 _ _ _ c134 Ia Ia'), (N5 _ _ _ c149 Ic Ic'), (N5 _ _ _ c110 Iu Iu'), (N5 _ _ _ c116 Iv Iv'), (N6 _ _ _ c103 Iw Iw').
    replace b' with b; [reflexivity|]. rewrite Ib, Ib'. symmetry. exact (bracket_rel T3 T3' H3 H3' R3).
  Qed.
End Pert.

(** C68, the numbers DriveCC prints: two calculations in equivalent orbitals print the same numbers. *)
Theorem C68_drive_printed : forall no nv Uo Uv x x' j j' r r', orthogonal no Uo -> orthogonal nv Uv ->
  prepared no nv (j_label j) x -> prepared no nv (j_label j) x' -> contains "D" (j_label j) = true ->
  rotated no nv Uo Uv [Al; Al] (x_f x) (x_f x') -> rotated no nv Uo Uv [Al; Al; Al; Al] (x_g x) (x_g x') ->
  mixes_equal_energies no nv Uo Uv (energies_of x) (energies_of x') -> x_hf x' = x_hf x -> x_nuc x' = x_nuc x ->
  j_label j' = j_label j -> j_max_iter j' = j_max_iter j -> j_eps j' = j_eps j ->
  same_in_new_orbitals no nv Uo Uv (ov_kinds 2) (j_t2file j) (j_t2file j') -> (forall t, j_t2file j = Some t -> is_amp_ov 2 no nv t) ->
  drive_from x j = Some r -> drive_from x' j' = Some r' -> r_printed r' = r_printed r.
Proof.
  intros no nv Uo Uv x x' j j' r r' Ho Hv P P' HD Rf Rg HM Hh Hn EL EM EE HT AT E E'.
  pose proof (C68_drive_rotation no nv Uo Uv x x' j j' Ho Hv P P' HD Rf Rg HM Hh Hn EL EM EE HT AT) as S. rewrite E, E' in S. destruct S as [_ [_ [_ S]]].
  assert (A1 : match j_t2file j with Some t => is_amp_ov 2 no nv t | None => True end) by (destruct (j_t2file j) as [t|]; [exact (AT t eq_refl)|exact I]).
  assert (A2 : match j_t2file j' with Some t => is_amp_ov 2 no nv t | None => True end).
  { destruct (j_t2file j') as [t'|]; [|exact I]. destruct (j_t2file j) as [t|]; cbn in HT; [|contradiction]. eapply rot_amp_ov; [exact HT|]. exact (AT t eq_refl). }
  destruct (contains "(qf)" (j_label j)) eqn:HQ.
  - destruct (finished_qf no nv x j r P HD A1 HQ E) as [AM [D2 [a [b [c [u [v [w [ED [IN ->]]]]]]]]]].
    destruct (finished_qf no nv x' j' r' ltac:(rewrite EL; exact P') ltac:(rewrite EL; exact HD) A2 ltac:(rewrite EL; exact HQ) E') as [AM' [D2' [a' [b' [c' [u' [v' [w' [ED' [IN' ->]]]]]]]]]].
    rewrite EL in AM'. exact (printed_rel no nv Uo Uv Ho Hv (j_label j) x x' P P' Rf Rg HM _ _ _ _ _ _ _ _ _ _ _ _ _ _ _ _ HD AM AM' S ED ED' IN IN').
  - assert (Z : forall y i q, j_label i = j_label j -> drive_from y i = Some q -> r_printed q = []).
    { clear -HQ. intros y i q EI H. unfold drive_from, drive_kernel in H. rewrite EI in H. destruct (drive_init y (j_label j) i) as [s|]; cbn [obind] in H; [|discriminate].
      destruct (drive_energy y (fst s)) as [e|]; cbn [obind] in H; [|discriminate]. destruct (drive_loop y (j_label j) _ _ _ _) as [l|]; cbn [obind] in H; [|discriminate].
      destruct (contains "(" (j_label j)); [|cbn [obind] in H; injection H as <-; reflexivity]. exfalso. unfold perturb in H. rewrite HQ in H.
      destruct (match slook "D3aa" (x_den y) with Some D3 => Some D3 | None => den_slow 3 (x_e y) (0%nat, Some (x_end y)) (x_end y, None) end); cbn [obind] in H; discriminate. }
    rewrite (Z x j r eq_refl E), (Z x' j' r' EL E'). reflexivity.
Qed.
Print Assumptions C68_drive_printed.
(** A concrete case: the orbitals of the instance of P_rot4, turned and reflected; both calculations return and print sixteen numbers. *)
Example C68_drive_printed_instance : exists thr r r', drive_from (s_setup s_fock (i_tei 4) "CCSD(qf)") (s_job "CCSD(qf)" thr) = Some r /\
  drive_from (s_setup s_fock' s_tei' "CCSD(qf)") (s_job "CCSD(qf)" thr) = Some r' /\ r_printed r' = r_printed r /\ length (r_printed r) = 16%nat.
Proof.
  destruct (some_threshold 2 2 (s_setup s_fock (i_tei 4) "CCSD(qf)") "CCSD(qf)" None 20 0 (Some (6%nat, None))
    (s_prepared _ _ _ (canonical_fock _ _ _ s_canonical) (i_tei_ok 4)) eq_refl I (fun _ => eq_refl) ltac:(lia)) as [thr [r E]].
  pose proof (C68_drive_instance "CCSD(qf)" thr eq_refl) as H. unfold s_job in *. rewrite E in H.
  destruct (drive_from (s_setup s_fock' _ _) _) as [r'|] eqn:E'; cbn [same_report] in H; [|contradiction].
  exists thr, r, r'. split; [exact E|]. split; [exact E'|].
  pose proof (s_prepared s_fock (i_tei 4) "CCSD(qf)" (canonical_fock _ _ _ s_canonical) (i_tei_ok 4)) as P.
  pose proof (s_prepared s_fock' s_tei' "CCSD(qf)" (canonical_fock _ _ _ s_canonical') s_tei_ok') as P'. split.
  - refine (C68_drive_printed 2 2 turn mirror _ _ (s_job "CCSD(qf)" thr) (s_job "CCSD(qf)" thr) r r' turn_ok mirror_ok P P' eq_refl (rot_tensor_ok 2 2 turn mirror [Al; Al] s_fock eq_refl)
      (rot_tensor_ok 2 2 turn mirror [Al; Al; Al; Al] (i_tei 4) eq_refl) _ eq_refl eq_refl eq_refl eq_refl eq_refl I _ E E'); [|discriminate].
    eapply C68_canonical_mixing; [exact turn_ok|exact mirror_ok|exact (rot_tensor_ok 2 2 turn mirror [Al; Al] s_fock eq_refl)|apply s_energies_canonical; exact s_canonical|apply s_energies_canonical; exact s_canonical'].
  - destruct (finished_qf 2 2 _ (s_job "CCSD(qf)" thr) r P eq_refl I eq_refl E) as [_ [D2 [a [b [c [u [v [w [_ [_ ->]]]]]]]]]]. reflexivity.
Qed.
