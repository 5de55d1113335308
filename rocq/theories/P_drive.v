(** C54-C58: the third driver (test.py). *)
From Coq Require Import String Ascii List Arith NArith ZArith QArith Qcanon Bool Lia Permutation.
From Coq Require Qcabs.
From Verif Require Import Sums Tensor Interp Numpy Poly SymExec Canon Spec SpecDriver Instances Setup Master Spin Check Tabs NF Formula.
From Verif Require Import Diis Kernel Denoms P_denoms SlowCC P_slow P_ccd P_ccsd P_wanti P_flip Fock P_fock Drive SpecDrive.
From Verif Require Code_tamps Code_cc_eqns Code_cc_energy Code_ccsdt_eqns Code_ccdq_eqns.
From Verif Require Import Asym P_triples P_qf_routes P_qf_routes14 RunMono.
Import ListNotations.
Open Scope string_scope.
Open Scope Qc_scope.

(** ** Denominators with the occupied axes first *)
(** They are denominators with the two kinds of orbitals exchanged and all energies negated. *)
Definition neg_eps (no nv : nat) (eps : nat -> Qc) (p : nat) : Qc := if Nat.ltb p nv then - eps (no + p)%nat else - eps (p - nv)%nat.
Lemma suml_opp (l : list nat) h : suml l (fun i => - h i) = - suml l h.
Proof. induction l as [|a l IH]; cbn [suml]; [ring|]. rewrite IH. ring. Qed.
Lemma suml_ext_in (l : list nat) h h' : (forall i, In i l -> h i = h' i) -> suml l h = suml l h'.
Proof. induction l as [|a l IH]; intros H; cbn [suml]; [reflexivity|]. rewrite H by (left; reflexivity). rewrite IH; [reflexivity|]. intros; apply H; right; assumption. Qed.
Lemma inr_repeat l n k : inr l (repeat n k) -> forall i, In i l -> (i < n)%nat.
Proof.
  revert k. induction l as [|a l IH]; intros k H i Hi; [destruct Hi|]. destruct k as [|k]; cbn [repeat] in H; inversion H; subst.
  destruct Hi as [<-|Hi]; [assumption|]. eapply IH; eassumption.
Qed.
Lemma neg_gap no nv eps virt occ : (forall a, In a virt -> (a < nv)%nat) -> gap nv (neg_eps no nv eps) occ virt = gap no eps virt occ.
Proof.
  intros H. unfold gap. rewrite (suml_ext_in virt (neg_eps no nv eps) (fun a => - eps (no + a)%nat)).
  - rewrite (suml_ext_in occ _ (fun i => - eps i)); [rewrite !suml_opp; ring|]. intros i _. unfold neg_eps.
    destruct (Nat.ltb_spec (nv + i) nv); [lia|]. replace (nv + i - nv)%nat with i by lia. reflexivity.
  - intros a Ha. unfold neg_eps. destruct (Nat.ltb_spec a nv) as [_|L]; [reflexivity|]. apply H in Ha. lia.
Qed.
Lemma turn_den k no nv eps D D' : is_denominator k no nv eps D -> swapped k D D' -> is_denominator k nv no (neg_eps no nv eps) D'.
Proof.
  intros [S1 HD] [S2 SW].
  assert (FS : forall (A B : list nat), length A = k -> (skipn k (A ++ B) = B /\ firstn k (A ++ B) = A)%list).
  { intros A B L. rewrite skipn_app, firstn_app, L, Nat.sub_diag, skipn_O, firstn_O, skipn_all2, firstn_all2, app_nil_r by lia. split; reflexivity. }
  destruct (FS (repeat nv k) (repeat no k) (repeat_length _ _)) as [FA FB].
  rewrite S1, FA, FB in S2. split; [exact S2|]. intros occ virt L I.
  assert (I' : inr (virt ++ occ) (repeat nv k ++ repeat no k)) by (rewrite S2 in I; eapply inr_turn; eassumption).
  assert (LV : length virt = k). { rewrite S2 in I. apply inr_len in I. rewrite !app_length, !repeat_length in I. lia. }
  rewrite (SW virt occ LV) by (rewrite S1; exact I'). rewrite HD by (exact LV || (rewrite S1; exact I')).
  rewrite neg_gap; [reflexivity|]. destruct (inr_parts virt occ (repeat nv k) (repeat no k) ltac:(rewrite repeat_length; exact LV) I') as [IV _].
  intros a Ha. eapply inr_repeat; eassumption.
Qed.
Lemma turn_gapped k no nv eps : gapped k no nv eps -> gapped k nv no (neg_eps no nv eps).
Proof. intros G occ virt L1 L2 H1 H2. rewrite neg_gap by exact H2. apply G; assumption. Qed.
Lemma den_nonzero k no nv eps D : is_denominator k no nv eps D -> gapped k no nv eps -> forall idx, inr idx (shape D) -> data D idx <> 0.
Proof.
  intros [S1 HD] G idx I. rewrite S1 in I. set (l1 := firstn k idx). set (l2 := skipn k idx).
  assert (E : idx = (l1 ++ l2)%list) by (symmetry; apply firstn_skipn).
  assert (LL : length idx = (k + k)%nat) by (apply inr_len in I; rewrite app_length, !repeat_length in I; exact I).
  assert (L1 : length l1 = k) by (unfold l1; rewrite firstn_length; lia). assert (L2 : length l2 = k) by (unfold l2; rewrite skipn_length; lia).
  clearbody l1 l2. subst idx. rewrite HD by (exact L1 || (rewrite S1; exact I)).
  destruct (inr_parts l1 l2 (repeat nv k) (repeat no k) ltac:(rewrite repeat_length; exact L1) I) as [IV IO].
  assert (NG : gap no eps l1 l2 <> 0) by (apply G; try assumption; intros; eapply inr_repeat; eassumption).
  intros Z. apply NG. transitivity (gap no eps l1 l2 * (gap no eps l1 l2 * / gap no eps l1 l2)); [rewrite Qcmult_inv_r by exact NG; ring|]. rewrite Z. ring.
Qed.

(** ** Dictionaries and labels *)
Lemma look_same {X} k (v : X) d : slook k (sset k v d) = Some v. Proof. apply slook_sset. Qed.
Lemma look_other {X} k k' (v : X) d : String.eqb k k' = false -> slook k (sset k' v d) = slook k d. Proof. apply slook_sset_ne. Qed.
Ltac lk := repeat (rewrite look_same || (rewrite look_other by reflexivity)).
Definition den_at (k : nat) (x : setup) (no : nat) := den_slow k (x_e x) (O, Some no) (no, None).
Lemma add_look (b : bool) (X : option tensor) key (d d' : dict) :
  (if b then do D <- X; Some (sset key D d) else Some d) = Some d' ->
  (forall k, String.eqb k key = false -> slook k d' = slook k d) /\ (b = true -> slook key d' = X) /\ (b = false -> d' = d).
Proof.
  destruct b; [|intros [= <-]; split; [reflexivity|split; [discriminate|reflexivity]]].
  destruct X as [t|]; cbn [obind]; [|discriminate]. intros [= <-]. split; [intros k Hk; apply look_other, Hk|]. split; [intros _; apply look_same|discriminate].
Qed.
Lemma denoms_look label e no d : drive_denoms label e no = Some d ->
  (contains "S" label = true -> slook "D1aa" d = den_slow 1 e (O, Some no) (no, None)) /\
  (contains "D" label = true -> slook "D2aa" d = den_slow 2 e (O, Some no) (no, None)) /\
  (contains "T" label = true -> slook "D3aa" d = den_slow 3 e (O, Some no) (no, None)) /\
  (contains "T" label = false -> slook "D3aa" d = None) /\
  (contains "Q" label = true -> slook "D4aa" d = den_slow 4 e (O, Some no) (no, None)).
Proof.
  unfold drive_denoms. intros H.
  match type of H with (do d <- ?X; _) = _ => destruct X as [d1|] eqn:E1; cbn [obind] in H; [|discriminate] end.
  match type of H with (do d <- ?X; _) = _ => destruct X as [d2|] eqn:E2; cbn [obind] in H; [|discriminate] end.
  match type of H with (do d <- ?X; _) = _ => destruct X as [d3|] eqn:E3; cbn [obind] in H; [|discriminate] end.
  apply add_look in E1, E2, E3, H.
  destruct E1 as [A1 [B1 C1]], E2 as [A2 [B2 C2]], E3 as [A3 [B3 C3]], H as [A4 [B4 C4]].
  split; [|split; [|split; [|split]]]; intros L.
  - rewrite A4, A3, A2 by reflexivity. auto.
  - rewrite A4, A3 by reflexivity. auto.
  - rewrite A4 by reflexivity. auto.
  - rewrite A4, (C3 L), A2, A1 by reflexivity. reflexivity.
  - apply B4. rewrite L, !orb_true_r. reflexivity.
Qed.

(** ** One pass *)
Section Pass.
  Variables no nv : nat.
  Variable label : string.
  Variable x : setup.
  Hypothesis P : prepared no nv label x.
  Let f := x_f x. Let g := x_g x. Let eps := energies_of x.
  Lemma Pf : is_fock (no + nv) f. Proof. apply P. Qed.
  Lemma Pg : is_tei (no + nv) g. Proof. apply P. Qed.
  Lemma Pno : x_no x = no. Proof. apply P. Qed.
  Lemma Pnv : x_nv x = nv. Proof. apply P. Qed.
  Lemma Pend : x_end x = no. Proof. apply P. Qed.
  (** an occupied-first denominator array of the set-up *)
  Definition den_ov (k : nat) (D : tensor) : Prop := is_denominator k nv no (neg_eps no nv eps) D.
  Lemma den_def k : (k <= 4)%nat -> exists D, den_at k x no = Some D /\ den_ov k D.
  Proof.
    intros Hk. destruct P as [_ [_ [_ [_ [_ [L _]]]]]]. destruct (C25_occupied_first k no nv (x_e x) Hk L) as [D [D' [E [HD SW]]]].
    exists D'. split; [exact E|]. eapply turn_den; eassumption.
  Qed.
  Definition keyed (k : nat) (key : string) : Prop := exists D, slook key (x_den x) = Some D /\ den_ov k D.
  Lemma key1 : contains "S" label = true -> keyed 1 "D1aa".
  Proof. intros L. destruct (den_def 1 ltac:(lia)) as [D [E H]]. exists D. split; [|exact H]. rewrite <- E. apply (denoms_look label _ _ _ (proj2 (proj2 (proj2 (proj2 (proj2 (proj2 P)))))) ), L. Qed.
  Lemma key2 : contains "D" label = true -> keyed 2 "D2aa".
  Proof. intros L. destruct (den_def 2 ltac:(lia)) as [D [E H]]. exists D. split; [|exact H]. rewrite <- E. apply (denoms_look label _ _ _ (proj2 (proj2 (proj2 (proj2 (proj2 (proj2 P)))))) ), L. Qed.
  Lemma key3 : contains "T" label = true -> keyed 3 "D3aa".
  Proof. intros L. destruct (den_def 3 ltac:(lia)) as [D [E H]]. exists D. split; [|exact H]. rewrite <- E. apply (denoms_look label _ _ _ (proj2 (proj2 (proj2 (proj2 (proj2 (proj2 P)))))) ), L. Qed.
  Lemma key4 : contains "Q" label = true -> keyed 4 "D4aa".
  Proof. intros L. destruct (den_def 4 ltac:(lia)) as [D [E H]]. exists D. split; [|exact H]. rewrite <- E. apply (denoms_look label _ _ _ (proj2 (proj2 (proj2 (proj2 (proj2 (proj2 P)))))) ), L. Qed.

  Definition moved (T R T' : tensor) : Prop := shape R = shape T /\ shape T' = shape T /\
    (all_gaps no nv eps -> forall occ virt, length occ = length virt -> inr (occ ++ virt) (shape T) ->
       data T' (occ ++ virt)%list = data T (occ ++ virt)%list + data R (occ ++ virt)%list / gap no eps virt occ).
  Lemma upd k key T R : (1 <= k <= 4)%nat -> keyed k key -> is_amp_ov k no nv T -> is_amp_ov k no nv R ->
    exists T', updated x key T R = Some T' /\ is_amp_ov k no nv T' /\ moved T R T'.
  Proof.
    intros Hk [D [ED HD]] HT HR. pose proof (den_sym nv no k _ D HD) as DS. unfold updated. rewrite ED. cbn [obind].
    destruct (sym_times_amp nv no k T D HT DS) as [X [EX AX]]. rewrite EX. cbn [obind].
    destruct (amp_plus nv no k R X HR AX) as [Y [EY AY]]. rewrite EY. cbn [obind].
    destruct (amp_times_sym nv no k Y D AY DS) as [N [EN AN]]. exists N. split; [exact EN|]. split; [exact AN|].
    destruct HT as [ST _], HR as [SR _], AN as [SN _]. split; [congruence|]. split; [congruence|]. intros G occ virt LL I.
    pose proof (den_nonzero _ _ _ _ _ HD (turn_gapped _ _ _ _ (G k Hk))) as NZ.
    apply tbin_inv in EX, EY, EN. destruct EX as [_ ->], EY as [_ ->], EN as [_ ->]. cbn [shape data trecip] in *.
    assert (I' : inr (occ ++ virt) (shape D)) by (rewrite (proj1 HD), <- ST; exact I). specialize (NZ _ I').
    assert (LO : length occ = k). { rewrite ST in I. apply inr_len in I. rewrite !app_length, !repeat_length in I. lia. }
    assert (ED' : data D (occ ++ virt)%list = / gap no eps virt occ).
    { rewrite (proj2 HD occ virt LO I'). rewrite neg_gap; [reflexivity|]. rewrite ST in I.
      destruct (inr_parts occ virt (repeat no k) (repeat nv k) ltac:(rewrite repeat_length; exact LO) I) as [_ IV]. intros a Ha. eapply inr_repeat; eassumption. }
    unfold Qcdiv. rewrite <- ED'.
    transitivity ((data D (occ ++ virt)%list * / data D (occ ++ virt)%list) * data T (occ ++ virt)%list + data R (occ ++ virt)%list * data D (occ ++ virt)%list); [ring|].
    rewrite Qcmult_inv_r by exact NZ. ring.
  Qed.

  Lemma call_of fn args R : returns 1 lib_tamps fn args R -> callt fn args = Some R.
  Proof. unfold returns, callt. intros H. change tamps_lib with lib_tamps. rewrite H. reflexivity. Qed.
  Lemma amp1 t : shape t = [no; nv] -> is_amp_ov 1 no nv t.
  Proof. intros H. split; [exact H|]. intros i Hi. lia. Qed.

  Lemma have key b k d : holds_amp key b k no nv d -> b = true -> exists t, slook key d = Some t /\ is_amp_ov k no nv t.
  Proof. intros H ->. exact H. Qed.
  Lemma keep key key' b k t d : String.eqb key key' = false -> holds_amp key b k no nv d -> holds_amp key b k no nv (sset key' t d).
  Proof. intros E. unfold holds_amp. rewrite look_other by exact E. tauto. Qed.
  Lemma put key b k t d : b = true -> is_amp_ov k no nv t -> holds_amp key b k no nv (sset key t d).
  Proof. intros -> H. exists t. split; [apply look_same|exact H]. Qed.
  Lemma sub s : contains s label = true -> forall c, contains c s = true -> contains c label = true.
  Proof. intros H c Hc. eapply contains_trans; eassumption. Qed.

  Lemma pass d : contains "D" label = true -> amplitudes no nv label d ->
    exists d' rs, drive_eqns x label d = Some d' /\ amplitudes no nv label d' /\ method_residuals no nv f g label d rs /\ updates no nv eps rs d d'.
  Proof.
    intros HD [A1 [A2 [A3 A4]]]. pose proof Pf as Hf. pose proof Pg as Hg. fold f g in Hf, Hg.
    assert (Sf : shape f = [no + nv; no + nv]%nat) by apply Hf. assert (Sg : shape g = [no + nv; no + nv; no + nv; no + nv]%nat) by apply Hg.
    unfold drive_eqns, method_residuals. rewrite Pno, Pnv, Pend. fold f g. change tamps_lib with lib_tamps.
    destruct (have _ _ _ _ A2 HD) as [T2 [E2 H2]]. pose proof (key2 HD) as K2.
    destruct (contains "CCSDT" label) eqn:L1; [|destruct (contains "CCSD" label) eqn:L2; [|destruct (contains "CCDQ" label) eqn:L3]].
    - pose proof (sub _ L1 "S" eq_refl) as HS. pose proof (sub _ L1 "T" eq_refl) as HT.
      destruct (have _ _ _ _ A1 HS) as [T1 [E1 H1]]. destruct (have _ _ _ _ A3 HT) as [T3 [E3 H3]].
      rewrite E1, E2, E3. cbn [obind].
      destruct (sdt_t1 no nv f g T1 T2 T3 (tzeros []) Sf Sg (proj1 H1) (proj1 H2) (proj1 H3)) as [R1 [C1 S1]].
      destruct (sdt_t2 no nv f g T1 T2 T3 (tzeros []) Sf Sg (proj1 H1) (proj1 H2) (proj1 H3)) as [R2 [C2 B2]].
      destruct (sdt_t3 no nv f g T1 T2 T3 (tzeros []) Sf Sg (proj1 H1) (proj1 H2) (proj1 H3)) as [R3 [C3 B3]].
      rewrite (call_of _ _ _ C1), (call_of _ _ _ C2), (call_of _ _ _ C3). cbn [obind].
      destruct (upd 1 "D1aa" T1 R1 ltac:(lia) (key1 HS) H1 (amp1 _ S1)) as [N1 [U1 [I1 F1]]].
      destruct (upd 2 "D2aa" T2 R2 ltac:(lia) K2 H2 B2) as [N2 [U2 [I2 F2]]].
      destruct (upd 3 "D3aa" T3 R3 ltac:(lia) (key3 HT) H3 B3) as [N3 [U3 [I3 F3]]].
      rewrite U1, U2, U3. cbn [obind]. eexists. exists [("t1aa", R1); ("t2aa", R2); ("t3aa", R3)]. split; [reflexivity|]. split; [|split].
      + split; [|split; [|split]]; repeat (apply keep; [reflexivity|]); try (apply put; assumption); assumption.
      + exists T1, T2, T3, R1, R2, R3. repeat (split; [reflexivity || assumption|]). reflexivity.
      + intros key. cbn [slook]. destruct (String.eqb key "t1aa") eqn:Q1; [|destruct (String.eqb key "t2aa") eqn:Q2; [|destruct (String.eqb key "t3aa") eqn:Q3]].
        * apply String.eqb_eq in Q1. subst key. exists T1, N1. lk. split; [exact E1|]. split; [reflexivity|]. exact F1.
        * apply String.eqb_eq in Q2. subst key. exists T2, N2. lk. split; [exact E2|]. split; [reflexivity|]. exact F2.
        * apply String.eqb_eq in Q3. subst key. exists T3, N3. lk. split; [exact E3|]. split; [reflexivity|]. exact F3.
        * rewrite !look_other by assumption. reflexivity.
    - pose proof (sub _ L2 "S" eq_refl) as HS. destruct (have _ _ _ _ A1 HS) as [T1 [E1 H1]].
      rewrite E1, E2. cbn [obind].
      destruct (C03_ccsdt_without_triples_is_ccsd no nv f g T1 T2 (tzeros [no; no; no; nv; nv; nv]) Hf Hg H1 H2 eq_refl (fun _ _ => eq_refl))
        as [R1 [R2 [_ [_ [C1 [C2 [_ [_ [B1 [B2 _]]]]]]]]]].
      rewrite (call_of _ _ _ C1), (call_of _ _ _ C2). cbn [obind].
      destruct (upd 1 "D1aa" T1 R1 ltac:(lia) (key1 HS) H1 B1) as [N1 [U1 [I1 F1]]].
      destruct (upd 2 "D2aa" T2 R2 ltac:(lia) K2 H2 B2) as [N2 [U2 [I2 F2]]].
      rewrite U1, U2. cbn [obind]. eexists. exists [("t1aa", R1); ("t2aa", R2)]. split; [reflexivity|]. split; [|split].
      + split; [|split; [|split]]; repeat (apply keep; [reflexivity|]); try (apply put; assumption); assumption.
      + exists T1, T2, R1, R2. repeat (split; [reflexivity || assumption|]). reflexivity.
      + intros key. cbn [slook]. destruct (String.eqb key "t1aa") eqn:Q1; [|destruct (String.eqb key "t2aa") eqn:Q2].
        * apply String.eqb_eq in Q1. subst key. exists T1, N1. lk. split; [exact E1|]. split; [reflexivity|]. exact F1.
        * apply String.eqb_eq in Q2. subst key. exists T2, N2. lk. split; [exact E2|]. split; [reflexivity|]. exact F2.
        * rewrite !look_other by assumption. reflexivity.
    - pose proof (sub _ L3 "Q" eq_refl) as HQ. destruct (have _ _ _ _ A4 HQ) as [T4 [E4 H4]].
      rewrite E2, E4. cbn [obind].
      destruct (dq_t2 no nv f g (tzeros []) T2 (tzeros []) T4 Sf Sg (proj1 H2) (proj1 H4)) as [R2 [C2 B2]].
      destruct (dq_t4 no nv f g (tzeros []) T2 (tzeros []) T4 Sf Sg (proj1 H2) (proj1 H4)) as [R4 [C4 B4]].
      rewrite (call_of _ _ _ C2), (call_of _ _ _ C4). cbn [obind].
      destruct (upd 2 "D2aa" T2 R2 ltac:(lia) K2 H2 B2) as [N2 [U2 [I2 F2]]].
      destruct (upd 4 "D4aa" T4 R4 ltac:(lia) (key4 HQ) H4 B4) as [N4 [U4 [I4 F4]]].
      rewrite U2, U4. cbn [obind]. eexists. exists [("t2aa", R2); ("t4aa", R4)]. split; [reflexivity|]. split; [|split].
      + split; [|split; [|split]]; repeat (apply keep; [reflexivity|]); try (apply put; assumption); assumption.
      + exists T2, T4, R2, R4. repeat (split; [reflexivity || assumption|]). reflexivity.
      + intros key. cbn [slook]. destruct (String.eqb key "t2aa") eqn:Q1; [|destruct (String.eqb key "t4aa") eqn:Q2].
        * apply String.eqb_eq in Q1. subst key. exists T2, N2. lk. split; [exact E2|]. split; [reflexivity|]. exact F2.
        * apply String.eqb_eq in Q2. subst key. exists T4, N4. lk. split; [exact E4|]. split; [reflexivity|]. exact F4.
        * rewrite !look_other by assumption. reflexivity.
    - rewrite HD, E2. cbn [obind].
      destruct (C03_ccsdt_without_triples_is_ccsd no nv f g (tzeros [no; nv]) T2 (tzeros [no; no; no; nv; nv; nv]) Hf Hg (amp1 (tzeros [no; nv]) eq_refl) H2 eq_refl (fun _ _ => eq_refl))
        as [_ [R2 [_ [_ [_ [C2 [_ [_ [_ [B2 _]]]]]]]]]].
      rewrite (call_of _ _ _ C2). cbn [obind].
      destruct (upd 2 "D2aa" T2 R2 ltac:(lia) K2 H2 B2) as [N2 [U2 [I2 F2]]].
      rewrite U2. cbn [obind]. eexists. exists [("t2aa", R2)]. split; [reflexivity|]. split; [|split].
      + split; [|split; [|split]]; repeat (apply keep; [reflexivity|]); try (apply put; assumption); assumption.
      + exists T2, R2. repeat (split; [reflexivity || assumption|]). reflexivity.
      + intros key. cbn [slook]. destruct (String.eqb key "t2aa") eqn:Q1.
        * apply String.eqb_eq in Q1. subst key. exists T2, N2. lk. split; [exact E2|]. split; [reflexivity|]. exact F2.
        * rewrite !look_other by assumption. reflexivity.
  Qed.
End Pass.

(** ** Energy, first guess *)
Section Start.
  Variables no nv : nat.
  Variable label : string.
  Variable x : setup.
  Hypothesis P : prepared no nv label x.
  Let f := x_f x. Let g := x_g x. Let eps := energies_of x.
  Definition d_tab (T1 T2 : tensor) : atomtab :=
    [(0%N, ([6;6]%N, f)); (1%N, ([6;6;6;6]%N, g)); (2%N, ([0;1]%N, T1)); (3%N, ([0;0;1;1]%N, T2))].
  Definition p_Edb : poly := Eval vm_compute in
    [mkterm "" "i" 1 [(0%N, "ii")]; mkterm "" "ij" (-1 # 2) [(1%N, "ijij")]; mkterm "" "ijab" (1 # 4) [(1%N, "ijab"); (3%N, "ijab")]].
  Definition p_Esd : poly := Eval vm_compute in
    (p_Edb ++ [mkterm "" "ia" 1 [(0%N, "ia"); (2%N, "ia")]; mkterm "" "ijab" (1 # 2) [(1%N, "ijab"); (2%N, "ia"); (2%N, "jb")]])%list.
  Lemma neg_half z : Q2Qc (-1 # 2) * z = - (Q2Qc (1 # 2) * z).
  Proof. replace (Q2Qc (-1 # 2)) with (- Q2Qc (1 # 2)) by (apply Qc_is_canon; reflexivity). ring. Qed.
  Lemma energy d : contains "D" label = true -> amplitudes no nv label d -> drive_energy x d = Some (cc_energy no nv f g d).
  Proof.
    intros HD [A1 [A2 _]]. pose proof (Pf no nv label x P) as Hf. pose proof (Pg no nv label x P) as Hg.
    destruct (have no nv _ _ _ _ A2 HD) as [T2 [E2 H2]]. unfold drive_energy, cc_energy. rewrite E2. cbn [obind].
    rewrite (Pend no nv label x P).
    unfold holds_amp in A1. destruct (contains "S" label) eqn:HS.
    - destruct A1 as [T1 [E1 H1]]. rewrite E1.
      assert (OK : Forall (atom_ok (so_range no nv) sy) (d_tab T1 T2)) by (unfold d_tab; oks).
      assert (V : so_vsim no nv (d_tab T1 T2) (SP [] p_Esd) (VT (arr0 (
         (Sum i < no, data f [i; i]) + Q2Qc (-1 # 2) * (Sum i < no, Sum j < no, data g [i; j; i; j]) +
         Q2Qc (1 # 4) * (Sum i < no, Sum j < no, Sum a < nv, Sum b < nv, data g [i; j; no + a; no + b]%nat * data T2 [i; j; a; b]) +
         (Sum i < no, Sum a < nv, data f [i; no + a]%nat * data T1 [i; a]) +
         Q2Qc (1 # 2) * (Sum i < no, Sum j < no, Sum a < nv, Sum b < nv, data g [i; j; no + a; no + b]%nat * data T1 [i; a] * data T1 [j; b]))))).
      { unfold d_tab, p_Esd. so_form. }
      destruct (so_reads no nv (d_tab T1 T2) 0 [] Code_cc_energy.spinorbitalCCSDE_T1
        [at_ 3 [0;0;1;1]%N; xG; xF; xo; xv; at_ 2 [0;1]%N] [VT T2; VT g; VT f; o_ no; v_ no; VT T1] [] _ _ OK ltac:(unfold xG, xF, xo, xv; vsims) V) as [E [RE BE]]; [chk_|].
      apply so_scalar in BE. destruct BE as [_ BE]. fold f g. rewrite (call0_returns _ _ _ RE). cbn [obind]. rewrite BE.
      unfold reference_energy, doubles_energy, singles_energy. rewrite neg_half. f_equal. ring.
    - rewrite A1. pose proof (amp1 no nv (tzeros [no; nv]) eq_refl) as H1. set (T1 := tzeros [no; nv]) in *.
      assert (OK : Forall (atom_ok (so_range no nv) sy) (d_tab T1 T2)) by (unfold d_tab; oks).
      assert (V : so_vsim no nv (d_tab T1 T2) (SP [] p_Edb) (VT (arr0 (
         (Sum i < no, data f [i; i]) + Q2Qc (-1 # 2) * (Sum i < no, Sum j < no, data g [i; j; i; j]) +
         Q2Qc (1 # 4) * (Sum i < no, Sum j < no, Sum a < nv, Sum b < nv, data g [i; j; no + a; no + b]%nat * data T2 [i; j; a; b]))))).
      { unfold d_tab, p_Edb. so_form. }
      destruct (so_reads no nv (d_tab T1 T2) 0 [] Code_cc_energy.spinorbitalCCSDE_noT1
        [at_ 3 [0;0;1;1]%N; xG; xF; xo; xv; SNone] [VT T2; VT g; VT f; o_ no; v_ no; VNone] [] _ _ OK ltac:(unfold xG, xF, xo, xv; vsims) V) as [E [RE BE]]; [chk_|].
      apply so_scalar in BE. destruct BE as [_ BE]. fold f g. rewrite (call0_returns _ _ _ RE). cbn [obind]. rewrite BE.
      unfold reference_energy, doubles_energy. rewrite neg_half. f_equal. ring.
  Qed.

  Lemma oovv_slice : exists w, woovv x = Some w /\ is_amp_ov 2 no nv w /\
    forall i j a b, (i < no)%nat -> (j < no)%nat -> (a < nv)%nat -> (b < nv)%nat -> data w [i; j; a; b] = data g [i; j; no + a; no + b]%nat.
  Proof.
    destruct (Pg no nv label x P) as [SG [AG _]]. fold g in SG, AG. unfold woovv. fold g. rewrite (Pend no nv label x P). unfold tslice. rewrite SG. cbn [length Nat.eqb map]. eexists. split; [reflexivity|].
    assert (L1 : slice_len 0 (Some no) (no + nv) = no) by (unfold slice_len, slice_stop, slice_start; lia).
    assert (L2 : slice_len no None (no + nv) = nv) by (unfold slice_len, slice_stop, slice_start; lia).
    assert (V : forall i j a b, data g (zipw Nat.add (zipw (fun s n => slice_start (fst s) n) [(0%nat, Some no); (0%nat, Some no); (no, None); (no, None)]
        [(no + nv)%nat; (no + nv)%nat; (no + nv)%nat; (no + nv)%nat]) [i; j; a; b]) = data g [i; j; no + a; no + b]%nat).
    { intros. unfold zipw. cbn [combine map fst snd]. unfold slice_start. rewrite Nat.min_0_l, (Nat.min_l no (no + nv)) by lia. reflexivity. }
    split; [split|].
    - cbn [shape]. unfold zipw. cbn [combine map fst snd]. rewrite L1, L2. reflexivity.
    - intros k Hk. assert (k = 0%nat) as -> by lia.
      destruct (AG 0%nat ltac:(lia)) as [B1 B2]. split; intros pre u w post HL I1 I2; cbn [shape data] in *.
      + destruct pre; [|discriminate]. unfold zipw in I1. cbn [combine map fst snd app] in I1. rewrite L1, L2 in I1.
        destruct post as [|a [|b [|]]]; try (apply inr_len in I1; discriminate). cbn [app]. rewrite !V.
        repeat match goal with H : inr _ _ |- _ => inversion H; subst; clear H | H : Forall2 _ (_ :: _) _ |- _ => inversion H; subst; clear H end.
        apply (B1 [] u w [(no + a)%nat; (no + b)%nat] eq_refl); rewrite SG; repeat constructor; lia.
      + unfold zipw in I1. cbn [combine map fst snd] in I1. rewrite L1, L2 in I1.
        destruct pre as [|i [|j [|]]]; try discriminate HL. destruct post as [|]; [|apply inr_len in I1; discriminate]. cbn [app] in *. rewrite !V.
        repeat match goal with H : inr _ _ |- _ => inversion H; subst; clear H | H : Forall2 _ (_ :: _) _ |- _ => inversion H; subst; clear H end.
        apply (B2 [i; j] (no + u)%nat (no + w)%nat [] eq_refl); rewrite SG; repeat constructor; lia.
    - intros i j a b _ _ _ _. cbn [data]. apply V.
  Qed.
  Lemma guess t2file : contains "D" label = true -> match t2file with Some t => is_amp_ov 2 no nv t | None => True end ->
    exists d, init_tamps x label t2file = Some d /\ amplitudes no nv label d /\ (t2file = None -> first_guess no nv eps g d) /\
      (forall t, t2file = Some t -> slook "t2aa" d = Some t).
  Proof.
    intros HD HF. destruct oovv_slice as [w [EW [AW VW]]]. destruct (key2 no nv label x P HD) as [D [ED KD]].
    destruct (amp_times_sym nv no 2 w D AW (den_sym nv no 2 _ D KD)) as [t [ET AT]].
    unfold init_tamps. rewrite ED, EW. cbn [obind]. rewrite ET. cbn [obind]. rewrite (Pno no nv label x P), (Pnv no nv label x P), HD.
    eexists. split; [reflexivity|].
    set (t2 := match t2file with Some t => t | None => t end).
    assert (A2 : is_amp_ov 2 no nv t2) by (unfold t2; destruct t2file; [exact HF|exact AT]).
    assert (Z1 : is_amp_ov 1 no nv (tzeros [no; nv])) by (apply amp1; reflexivity).
    pose proof (amp_zeros nv no 3 : is_amp_ov 3 no nv (tzeros [no; no; no; nv; nv; nv])) as Z3.
    pose proof (amp_zeros nv no 4 : is_amp_ov 4 no nv (tzeros [no; no; no; no; nv; nv; nv; nv])) as Z4.
    assert (HA : forall (b : bool) key t (d : dict), slook key (if b then sset key t d else d) = if b then Some t else slook key d)
      by (intros []; intros; [apply look_same|reflexivity]).
    assert (HB : forall (b : bool) key key' (t : tensor) (d : dict), String.eqb key key' = false -> slook key (if b then sset key' t d else d) = slook key d)
      by (intros []; intros; [apply look_other; assumption|reflexivity]).
    split.
    - split; [|split; [|split]]; unfold holds_amp; repeat (rewrite HA || (rewrite HB by reflexivity) || rewrite look_same || (rewrite look_other by reflexivity)); cbn [slook].
      + destruct (contains "S" label); [eauto|reflexivity].
      + rewrite HD. eauto.
      + destruct (contains "T" label); [eauto|reflexivity].
      + destruct (contains "Q" label); [eauto|reflexivity].
    - split; [|intros t' ->; rewrite !HB, look_same by reflexivity; reflexivity]. intros ->. unfold t2. split.
      + intros key T E N.
        assert (Q : forall (b : bool) key' (sh : list nat) (d : dict), slook key (if b then sset key' (tzeros sh) d else d) = Some T -> zero_tensor T \/ slook key d = Some T).
        { intros [] key' sh d; [|tauto]. destruct (String.eqb key key') eqn:Q.
          - apply String.eqb_eq in Q. subst key'. rewrite look_same. intros [= <-]. left. intros idx _. reflexivity.
          - rewrite look_other by exact Q. tauto. }
        apply Q in E. destruct E as [E|E]; [exact E|]. apply Q in E. destruct E as [E|E]; [exact E|].
        rewrite look_other in E by (apply String.eqb_neq; exact N). apply Q in E. destruct E as [E|E]; [exact E|discriminate].
      + exists t. rewrite !HB, look_same by reflexivity. split; [reflexivity|]. intros i j a b Hi Hj Ha Hb.
        apply tbin_inv in ET. destruct ET as [SE ->]. cbn [data]. rewrite VW by assumption. unfold Qcdiv. f_equal.
        pose proof (proj2 KD [i; j] [a; b] eq_refl ltac:(rewrite (proj1 KD); repeat constructor; assumption)) as K. cbn [app] in K. rewrite K.
        rewrite neg_gap; [reflexivity|]. intros c [<-|[<-|[]]]; assumption.
  Qed.
End Start.

(** ** The numbers printed for a label with (qf) *)
(** T3 is the antisymmetrised product of <||> and T2 of P_triples, occupied indices first (T2 also). *)
Definition approximate_triples (no nv : nat) (g T2 T3 : tensor) : Prop :=
  forall t2, swapped 2 t2 T2 -> exists N, antisymmetrised 3 (W_T2 no nv g t2) N /\ swapped 3 N T3.
Lemma approx_program no nv g t2 T2 T3 : is_tei (no + nv) g -> is_amp 2 no nv t2 -> swapped 2 t2 T2 ->
  returns 2 energy_lib pt_approx [VT g; VT T2; o_ no; v_ no] T3 -> exists N, antisymmetrised 3 (W_T2 no nv g t2) N /\ swapped 3 N T3.
Proof.
  intros Hg Ht SW HX. set (tab := [(1%N, ([6;6;6;6]%N, g)); (3%N, ([1;1;0;0]%N, t2))] : atomtab).
  assert (OK : Forall (atom_ok (so_range no nv) sy) tab) by (unfold tab; oks).
  assert (VW : so_vsim no nv tab (SP (vo_ 3) p_WT2) (VT (W_T2 no nv g t2))).
  { unfold vo_, p_WT2, W_T2, tab. cbn [repeat app]. so_form. }
  so_asym OK Code_tamps.antisym_T3 asym3 3%nat VW M3 AT ANT V3.
  assert (V2 : Forall2 (so_vsim no nv tab) [xG; swp 3 2 [0;0;1;1]%N; xo; xv] [VT g; VT T2; o_ no; v_ no]) by vsims.
  so_nf OK 2%nat energy_lib pt_approx [0;0;0;1;1;1]%N V2 R' HR' VR'.
  assert (T3 = R') as -> by (unfold returns in *; rewrite HX in HR'; injection HR' as <-; reflexivity).
  flip_ (so_vs_flip no nv tab) 3%nat VR' R'' SR'' VR''.
  assert (E3 : teq R'' M3). { eapply (so_vs_eq no nv tab OK (vo_ 3)); [exact VR''|exact V3|chk_]. }
  exists M3. split; [exact AT|]. destruct E3 as [E3 E3'], SR'' as [Q1 Q2]. split; [rewrite Q1, E3; reflexivity|].
  intros l1 l2 HL Hi. rewrite Q2; [|exact HL|rewrite E3; exact Hi]. apply E3'. rewrite E3. exact Hi.
Qed.
(** The number a function of cc_energy.py (with its library) computes from the integrals, T2, T3 and the doubles denominators *)
Definition qf_value (no : nat) (g T2 T3 D2 : tensor) (f : fn) (v : Qc) : Prop :=
  exists E, returns 2 lib_cc_energy f [VT g; VT T2; VT T3; o_ no; v_ no; VT D2] E /\ data E [] = v.
Definition qf_value2 (no : nat) (g T2 D2 : tensor) (f : fn) (v : Qc) : Prop :=
  exists E, returns 2 lib_cc_energy f [VT g; VT T2; o_ no; v_ no; VT D2] E /\ data E [] = v.
(** T3 and the six numbers belong to the amplitudes [d]: T3 is the one of [d] or, if there is none, the approximate triples. *)
Definition qf_inputs (no nv : nat) (g D2 : tensor) (eps : nat -> Qc) (d : dict) (a b c e110 e116 e : Qc) : Prop :=
  exists T2 T3, slook "t2aa" d = Some T2 /\ is_amp_ov 3 no nv T3 /\
    match slook "t3aa" d with Some t => T3 = t | None => approximate_triples no nv g T2 T3 end /\
    qf_value no g T2 T3 D2 Code_cc_energy.long_testQf5Order_L134 a /\
    b = Q2Qc (111111111 # 4000000000) * (Sum i < no, Sum j < no, Sum k < no, Sum a < nv, Sum b < nv, Sum c < nv,
          data T3 [i; j; k; a; b; c] * data T3 [i; j; k; a; b; c] * / gap no eps [a; b; c] [i; j; k]) /\
    qf_value no g T2 T3 D2 Code_cc_energy.long_testQf5Order_L149 c /\
    qf_value no g T2 T3 D2 Code_cc_energy.sixthOrderQf_wnT2T3_L110 e110 /\ qf_value no g T2 T3 D2 Code_cc_energy.sixthOrderQf_wnT2T3_L116 e116 /\
    qf_value2 no g T2 D2 Code_cc_energy.sixthOrderQf_wnT2cubed_L103 e.

Section Qf.
  Variables no nv : nat.
  Variable label : string.
  Variable x : setup.
  Hypothesis P : prepared no nv label x.
  Hypothesis HD : contains "D" label = true.
  Let g := x_g x.
  Lemma triples d T2 : amplitudes no nv label d -> slook "t2aa" d = Some T2 -> is_amp_ov 2 no nv T2 ->
    exists T3, match slook "t3aa" d with
               | Some T3 => Some T3
               | None => do r <- run 2 energy_lib pt_approx [VT g; VT T2; o_ no; v_ no]; asT r
               end = Some T3 /\ is_amp_ov 3 no nv T3 /\ (slook "t3aa" d = None -> approximate_triples no nv g T2 T3).
  Proof.
    intros [_ [_ [A3 _]]] E2 H2. unfold holds_amp in A3. destruct (contains "T" label).
    - destruct A3 as [T3 [-> H3]]. exists T3. split; [reflexivity|]. split; [exact H3|discriminate].
    - rewrite A3. pose proof (Pg no nv label x P) as Hg. set (tab := [(1%N, ([6;6;6;6]%N, g)); (3%N, ([0;0;1;1]%N, T2))] : atomtab).
      assert (OK : Forall (atom_ok (so_range no nv) sy) tab) by (unfold tab; oks).
      assert (V : Forall2 (so_vsim no nv tab) [SFull 1 [0;0;0;0]%N; at_ 3 [0;0;1;1]%N; SSl 0; SSl 1] [VT g; VT T2; o_ no; v_ no]) by (unfold tab; vsims).
      assert (O : outsp [0;0;0;1;1;1]%N (srun so_slm 2 energy_lib pt_approx [SFull 1 [0;0;0;0]%N; at_ 3 [0;0;1;1]%N; SSl 0; SSl 1]) = true) by (vm_cast_no_check (eq_refl true)).
      apply outsp_ok in O. destruct (so_run _ _ _ _ _ _ _ _ _ _ V O) as [X [HX [SX _]]].
      exists X. pose proof HX as HX'. unfold returns in HX'. rewrite HX'. split; [reflexivity|]. split; [split; [rewrite SX; apply (sh_ov no nv 3)|]|].
      + assert (HA : forall i, In i [0;1;3;4]%nat -> antisymmetric_in X i).
        { eapply (so_antis no nv _ OK); [exact V| |exact HX|].
          - instantiate (1 := [0;0;0;1;1;1]%N). cbn; lia.
          - chk_. }
        intros i Hi. assert (i = 0 \/ i = 1)%nat as [->| ->] by lia; split; apply HA; cbn; auto.
      + intros _ t2 SW. apply (approx_program no nv g t2 T2 X Hg (swapped_amp _ _ _ _ _ SW H2) SW HX).
  Qed.

  Lemma calle_of fn args E : returns 2 energy_lib fn args E -> calle fn args = Some (data E []).
  Proof. unfold returns, calle. intros ->. reflexivity. Qed.
  Definition p_brak : poly := Eval vm_compute in
    [mkterm "" "ijkabc" (111111111 # 4000000000) [(4%N, "ijkabc"); (4%N, "ijkabc"); (8%N, "ijkabc")]].
  Lemma brak T3 D3 : is_amp_ov 3 no nv T3 -> den_ov no nv x 3 D3 ->
    calle pt_brak [VT T3; VT D3] = Some (Q2Qc (111111111 # 4000000000) * (Sum i < no, Sum j < no, Sum k < no, Sum a < nv, Sum b < nv, Sum c < nv,
      data T3 [i; j; k; a; b; c] * data T3 [i; j; k; a; b; c] * / gap no (energies_of x) [a; b; c] [i; j; k])).
  Proof.
    intros H3 [S3 KD]. set (tab := [(4%N, ([0;0;0;1;1;1]%N, T3)); (8%N, ([0;0;0;1;1;1]%N, D3))] : atomtab).
    assert (SD : shape D3 = map (dim (so_range no nv)) [0;0;0;1;1;1]%N) by (rewrite S3; symmetry; apply (sh_ov no nv 3)).
    assert (OK : Forall (atom_ok (so_range no nv) sy) tab) by (unfold tab; oks; apply atom_ok_gen; [reflexivity|exact SD]).
    assert (V : so_vsim no nv tab (SP [] p_brak) (VT (arr0 (Q2Qc (111111111 # 4000000000) * (Sum i < no, Sum j < no, Sum k < no, Sum a < nv, Sum b < nv, Sum c < nv,
      data T3 [i; j; k; a; b; c] * data T3 [i; j; k; a; b; c] * data D3 [i; j; k; a; b; c]))))).
    { unfold tab, p_brak. so_form. }
    assert (VA : Forall2 (so_vsim no nv tab) [at_ 4 [0;0;0;1;1;1]%N; at_ 8 [0;0;0;1;1;1]%N] [VT T3; VT D3]).
    { constructor; [apply so_atom; [reflexivity|]; rewrite (proj1 H3); symmetry; apply (sh_ov no nv 3)|]. constructor; [apply so_atom; [reflexivity|exact SD]|constructor]. }
    destruct (so_reads no nv tab 2 energy_lib pt_brak _ _ [] _ _ OK VA V) as [E [RE BE]]; [chk_|].
    apply so_scalar in BE. destruct BE as [_ BE]. rewrite (calle_of _ _ _ RE), BE. f_equal. f_equal.
    apply suml_ext_in; intros i Hi; apply suml_ext_in; intros j Hj; apply suml_ext_in; intros k Hk; apply suml_ext_in; intros a Ha; apply suml_ext_in; intros b Hb;
      apply suml_ext_in; intros c Hc. apply in_seq in Hi, Hj, Hk, Ha, Hb, Hc. f_equal.
    pose proof (KD [i; j; k] [a; b; c] eq_refl ltac:(rewrite S3; repeat constructor; lia)) as K. cbn [app] in K. rewrite K, neg_gap; [reflexivity|].
    intros e [<-|[<-|[<-|[]]]]; lia.
  Qed.
End Qf.

(** What a "(qf)" label prints, in terms of six numbers, for amplitudes T2 and T3: *)
Definition qf_printout (a b c e110 e116 e : Qc) : list (string * Qc) :=
  let r := Q2Qc (24 * (41666667 # 1000000000)) in
  [("5th order energy:", a); ("5th order energy: (second)", Q2Qc 4 * a); ("[T] correction to CCSD:", b);
   ("t3 contribution to Qf:", c); ("Combined Qf correction:", c + a);
   ("WnT2^2 contribution to (Qf):", a); ("test WnT2^2 scaling faster:", a); ("test WnT3 scaling faster:", c);
   ("WnT3 contribution to (Qf):", r * c); ("total Qf:", r * c + a);
   ("WnT3 contribution to (Qf): (again)", Q2Qc 2 * r * c); ("WnT3 contribution to (Qf): (again, second)", r * c);
   ("WnT2T3 contribution to (Qf):", e110); ("WnT2T3 contribution to (Qf) faster T2 route:", e116);
   ("WnT2^3 contribution to (Qf):", e + a); ("WnT2^3 contribution to (Qf) faster T2 route:", e)].
Ltac srn OK VS f E H V := so_nf OK 2%nat energy_lib f (@nil space) VS E H V.
Lemma returns_eq d lib f args A B : returns d lib f args A -> returns d lib f args B -> A = B.
Proof. unfold returns. intros -> H. apply (f_equal (fun o => match o with Some (VT t) => t | _ => A end)) in H. exact H. Qed.
Lemma qf_lib f args E : returns 2 lib_cc_energy f args E -> returns 2 energy_lib f args E.
Proof.
  apply run_mono. intros k g. cbn [slook lib_cc_energy lib_tamps app energy_lib].
  repeat (destruct (String.eqb k _); [intros H; exact H|]). discriminate.
Qed.
Lemma qf_numbers no nv label x d : prepared no nv label x -> contains "D" label = true -> amplitudes no nv label d -> contains "(qf)" label = true ->
  exists D2 a b c e110 e116 e, slook "D2aa" (x_den x) = Some D2 /\ qf_inputs no nv (x_g x) D2 (energies_of x) d a b c e110 e116 e /\
    perturb x label d = Some (Some (qf_printout a b c e110 e116 e)).
Proof.
  intros P HD HA HQ. unfold perturb. rewrite (Pend no nv label x P).
  assert (K3 : exists D3, match slook "D3aa" (x_den x) with Some D3 => Some D3 | None => den_slow 3 (x_e x) (O, Some no) (no, None) end = Some D3 /\ den_ov no nv x 3 D3).
  { destruct (contains "T" label) eqn:HT.
    - destruct (key3 no nv label x P HT) as [D3 [-> H]]. eauto.
    - pose proof (denoms_look label _ _ _ (proj2 (proj2 (proj2 (proj2 (proj2 (proj2 P))))))) as [_ [_ [_ [N _]]]]. rewrite (N HT).
      exact (den_def no nv label x P 3 ltac:(lia)). }
  destruct K3 as [D3 [E3 K3]]. rewrite E3. cbn [obind]. rewrite HQ.
  destruct (have no nv _ _ _ _ (proj1 (proj2 HA)) HD) as [T2 [E2 H2]]. rewrite E2. cbn [obind].
  destruct (key2 no nv label x P HD) as [D2 [ED2 K2]]. rewrite ED2. cbn [obind].
  destruct (triples no nv label x P d T2 HA E2 H2) as [T3 [ET [H3 AP]]]. rewrite ET. cbn [obind].
  rewrite (brak no nv x T3 D3 H3 K3).
  pose proof (Pg no nv label x P) as HW. set (W := x_g x) in *. clearbody W.
  assert (SD : shape D2 = [no; no; nv; nv]) by apply K2. clear K2.
  pose proof (r_vs5 no nv W T2 T3 D2 HW H2 H3 SD) as VS.
  pose proof (r_vs6 no nv W T2 T3 D2 HW H2 SD) as VS6.
  pose proof (r_ok no nv W T2 T3 D2 HW H2 H3 SD) as OK.
  pose proof (r_eq no nv W T2 T3 D2 HW H2 H3 SD) as K. pose proof (r_rel no nv W T2 T3 D2 HW H2 H3 SD) as KR.
  srn OK VS6 pt_fifth F RF VF. srn OK VS pt_t3 C RC VC.
  srn OK VS Code_cc_energy.long_testQf5Order_L134 E134 R134 V134.
  srn OK VS Code_cc_energy.long_testQf5Order_L149 E149 R149 V149. srn OK VS Code_cc_energy.long_testQf5Order_L175 E175 R175 V175.
  assert (Q1 : data E134 [] = data F []) by (rewrite (K 1%Q _ _ _ _ V134 VF); [replace (Q2Qc 1) with 1 by (apply Qc_is_canon; reflexivity); ring|chk_]).
  assert (Q3 : data E149 [] = Q2Qc 2 * data C []) by (apply (K 2%Q _ _ _ _ V149 VC); chk_).
  assert (Q6 : data E175 [] = Q2Qc (2 * (24 * (41666667 # 1000000000))) * data E149 []) by (apply (K _ _ _ _ _ V175 V149); chk_).
  clear VF VC V134 V149 V175 OK VS VS6 K KR.
  destruct (C13_fast_route_is_T4_route no nv W T2 T3 D2 HW H2 H3 SD) as [F134 [E141 [F149 [E161 [E162 [E176 [S134 [R141 [S149 [R161 [R162 [R176 [Q2 [Q4 [Q7 [Q5 _]]]]]]]]]]]]]]]].
  destruct (C13_WnT2T3_routes no nv W T2 T3 D2 HW H2 H3 SD) as [E110 [E116 [_ [_ [R110 [R116 _]]]]]].
  destruct (C14_WnT2cubed_routes_differ_by_WnT2sqr no nv W T2 T3 D2 HW H2 H3 SD) as [E96 [E103 [G134 [R96 [R103 [T134 Q8]]]]]].
  pose proof (conj S134 (conj S149 (conj R110 (conj R116 R103)))) as KEEP.
  apply qf_lib in S134, R141, S149, R161, R162, R176, R110, R116, R96, R103, T134.
  pose proof (returns_eq _ _ _ _ _ _ S134 R134) as X1. pose proof (returns_eq _ _ _ _ _ _ S149 R149) as X2. pose proof (returns_eq _ _ _ _ _ _ T134 R134) as X3.
  subst F134 F149 G134. clear S134 S149 T134.
  exists D2, (data F []). eexists. exists (data E149 []), (data E110 []), (data E116 []), (data E103 []). split; [reflexivity|]. split.
  { destruct KEEP as [J1 [J2 [J3 [J4 J5]]]]. exists T2, T3. split; [exact E2|]. split; [exact H3|]. split.
    - destruct (slook "t3aa" d) as [t|] eqn:Ht; [|exact (AP eq_refl)]. apply (f_equal (fun o => match o with Some u => u | None => T3 end)) in ET. symmetry. exact ET.
    - split; [exists E134; split; [exact J1|exact Q1]|]. split; [reflexivity|]. split; [exists E149; split; [exact J2|reflexivity]|].
      split; [exists E110; split; [exact J3|reflexivity]|]. split; [exists E116; split; [exact J4|reflexivity]|]. exists E103. split; [exact J5|reflexivity]. }
  apply calle_of in RF, RC, R134, R141, R149, R161, R162, R175, R176, R110, R116, R96, R103.
  rewrite RF, RC, R134, R141, R149, R161, R162, R175, R176, R110, R116, R96, R103.
  cbn [obind]. rewrite Q8, Q5, Q7, Q6, Q4, <- Q2, Q1, Q3. unfold qf_printout. do 2 f_equal.
Qed.

(** ** Whole runs *)
Section Run.
  Variables no nv : nat.
  Variable x : setup.
  Variable j : job.
  Let label := j_label j.
  Hypothesis P : prepared no nv label x.
  Hypothesis HD : contains "D" label = true.
  Variable d0 : dict.
  Hypothesis A0 : amplitudes no nv label d0.
  Fixpoint orbit (n : nat) : dict := match n with O => d0 | Datatypes.S n => match drive_eqns x label (orbit n) with Some d => d | None => orbit n end end.
  Lemma orbit_ok n : amplitudes no nv label (orbit n).
  Proof.
    induction n as [|n IH]; cbn [orbit]; [exact A0|]. destruct (pass no nv label x P _ HD IH) as [d' [rs [-> [H _]]]]. exact H.
  Qed.
  Lemma orbit_step n : exists rs, drive_eqns x label (orbit n) = Some (orbit (Datatypes.S n)) /\
    method_residuals no nv (x_f x) (x_g x) label (orbit n) rs /\ updates no nv (energies_of x) rs (orbit n) (orbit (Datatypes.S n)).
  Proof.
    cbn [orbit]. destruct (pass no nv label x P _ HD (orbit_ok n)) as [d' [rs [E [_ [M U]]]]]. rewrite E. exists rs. auto.
  Qed.
  Let En (n : nat) := cc_energy no nv (x_f x) (x_g x) (orbit n).
  Variable thr : Qc.
  Lemma loop_hit : forall n m k, (n < m)%nat -> settled thr En (k + n) -> (forall i, (i < n)%nat -> ~ settled thr En (k + i)) ->
    drive_loop x label thr m (En k) (orbit k) = Some (En (Datatypes.S (k + n)), orbit (Datatypes.S (k + n))).
  Proof.
    induction n as [|n IH]; intros m k Hm HS HN; destruct m as [|m]; try lia; cbn [drive_loop]; destruct (orbit_step k) as [rs [-> _]]; cbn [obind];
      rewrite (energy no nv label x P _ HD (orbit_ok _)); cbn [obind]; fold (En (Datatypes.S k)).
    - rewrite Nat.add_0_r in HS |- *. unfold settled in HS. destruct (Qclt_le_dec _ thr) as [L|L]; [reflexivity|]. destruct (Qclt_not_le _ _ HS L).
    - destruct (Qclt_le_dec _ thr) as [L|L].
      + destruct (HN 0%nat ltac:(lia)). rewrite Nat.add_0_r. exact L.
      + rewrite (IH m (Datatypes.S k)); [f_equal; f_equal; [f_equal|f_equal]; lia|lia| |].
        * replace (Datatypes.S k + n)%nat with (k + Datatypes.S n)%nat by lia. exact HS.
        * intros i Hi. replace (Datatypes.S k + i)%nat with (k + Datatypes.S i)%nat by lia. apply HN. lia.
  Qed.
  Lemma loop_miss : forall m k, (forall i, (i < m)%nat -> ~ settled thr En (k + i)) -> drive_loop x label thr m (En k) (orbit k) = None.
  Proof.
    induction m as [|m IH]; intros k HN; cbn [drive_loop]; [reflexivity|]. destruct (orbit_step k) as [rs [-> _]]; cbn [obind];
      rewrite (energy no nv label x P _ HD (orbit_ok _)); cbn [obind]; fold (En (Datatypes.S k)).
    destruct (Qclt_le_dec _ thr) as [L|L].
    - destruct (HN 0%nat ltac:(lia)). rewrite Nat.add_0_r. exact L.
    - apply IH. intros i Hi. replace (Datatypes.S k + i)%nat with (k + Datatypes.S i)%nat by lia. apply HN. lia.
  Qed.
End Run.
Lemma vectorise_some keys (d : dict) : (forall k, In k keys -> exists t, slook k d = Some t) -> exists w, vectorise keys d = Some w.
Proof.
  intros H. unfold vectorise. assert (K : exists ts, omap (fun k => slook k d) keys = Some ts).
  { induction keys as [|k r IH]; cbn [omap]; [eauto|]. destruct (H k (or_introl eq_refl)) as [t ->]. cbn [obind].
    destruct IH as [ts ->]; [intros; apply H; right; assumption|]. cbn [obind]. eauto. }
  destruct K as [ts ->]. cbn [obind]. eauto.
Qed.
Lemma old_vec_some no nv label d : contains "D" label = true -> amplitudes no nv label d -> exists w, old_vec label d = Some w.
Proof.
  intros HD [A1 [A2 [A3 A4]]].
  assert (G : forall key b k, holds_amp key b k no nv d -> b = true -> exists t, slook key d = Some t) by (intros key b k H E; destruct (have _ _ _ _ _ _ H E) as [t [? _]]; eauto).
  unfold old_vec. destruct (contains "DQ" label) eqn:H1.
  { apply vectorise_some. intros k [<-|[<-|[]]]; [eapply G; [exact A2|exact HD]|eapply G; [exact A4|exact (sub label _ H1 "Q" eq_refl)]]. }
  destruct (contains "SDT" label) eqn:H2.
  { apply vectorise_some. intros k [<-|[<-|[<-|[]]]]; [eapply G; [exact A1|exact (sub label _ H2 "S" eq_refl)]|eapply G; [exact A2|exact HD]|eapply G; [exact A3|exact (sub label _ H2 "T" eq_refl)]]. }
  destruct (contains "SD" label) eqn:H3.
  { apply vectorise_some. intros k [<-|[<-|[]]]; [eapply G; [exact A1|exact (sub label _ H3 "S" eq_refl)]|eapply G; [exact A2|exact HD]]. }
  rewrite HD. apply vectorise_some. intros k [<-|[]]. eapply G; [exact A2|exact HD].
Qed.

(** C54.  `DriveCC(mf, mol, cc_info).kernel(cc_info)` on a set-up calculation with any spin-orbital label that has a D.
    There is a sequence of amplitudes, starting from the first guess (or from the T2 array of the file), every member antisymmetric, each
    obtained from the one before by adding residual / orbital-energy difference, such that: the run stops at the first step where the
    energy changes by less than stopping_eps, within max_iter steps, and reports the energy and the amplitudes after that step;
    if there is no such step it raises.  DIIS settings change nothing.  A label with "(" and not "(qf)" raises at the end;
    "(qf)" prints sixteen numbers made of six, with the amplitudes and energies as without it.  The sequence depends on the calculation,
    the label and the file only: neither on stopping_eps nor on max_iter nor on the DIIS settings. *)
Theorem C54_drive_run : forall no nv x label t2file, prepared no nv label x -> contains "D" label = true ->
  match t2file with Some t => is_amp_ov 2 no nv t | None => True end ->
  exists A : nat -> dict,
    (t2file = None -> first_guess no nv (energies_of x) (x_g x) (A 0%nat)) /\
    (forall t, t2file = Some t -> slook "t2aa" (A 0%nat) = Some t) /\
    (forall n, amplitudes no nv label (A n)) /\
    (forall n, exists rs, method_residuals no nv (x_f x) (x_g x) label (A n) rs /\ updates no nv (energies_of x) rs (A n) (A (Datatypes.S n))) /\
    let E n := cc_energy no nv (x_f x) (x_g x) (A n) in
    forall j, j_label j = label -> j_t2file j = t2file ->
    (forall n, (n < j_max_iter j)%nat -> settled (j_eps j) E n -> (forall m, (m < n)%nat -> ~ settled (j_eps j) E m) ->
      (contains "(" label = false ->
        drive_from x j = Some (mkResult (E 0%nat) (E (Datatypes.S n)) (x_nuc x + E (Datatypes.S n) - x_hf x) (A (Datatypes.S n)) [])) /\
      (contains "(qf)" label = true -> exists D2 a b c e110 e116 e,
        slook "D2aa" (x_den x) = Some D2 /\ qf_inputs no nv (x_g x) D2 (energies_of x) (A (Datatypes.S n)) a b c e110 e116 e /\
        drive_from x j = Some (mkResult (E 0%nat) (E (Datatypes.S n)) (x_nuc x + E (Datatypes.S n) - x_hf x) (A (Datatypes.S n)) (qf_printout a b c e110 e116 e))) /\
      (contains "(" label = true -> contains "(qf)" label = false -> drive_from x j = None)) /\
    ((forall n, (n < j_max_iter j)%nat -> ~ settled (j_eps j) E n) -> drive_from x j = None).
Proof.
  intros no nv x label t2file P HD HF. destruct (guess no nv label x P t2file HD HF) as [d0 [E0 [A0 [G0 F0]]]].
  set (j0 := mkJob label 0 0 0 None t2file). exists (orbit x j0 d0). split; [exact G0|]. split; [exact F0|]. split; [exact (orbit_ok no nv x j0 P HD d0 A0)|].
  split. { intros n. destruct (orbit_step no nv x j0 P HD d0 A0 n) as [rs [_ H]]. exists rs. exact H. }
  intros E j JL JF. subst label t2file. set (label := j_label j) in *.
  assert (EI : exists s, drive_init x label j = Some (d0, s)).
  { unfold drive_init. rewrite E0. cbn [obind]. destruct (j_diis j) as [[m st]|]; [|eauto].
    destruct (old_vec_some no nv label d0 HD A0) as [w ->]. cbn [obind]. eauto. }
  destruct EI as [s EI].
  assert (ED : drive_from x j = do r <- drive_loop x label (j_eps j) (j_max_iter j) (E 0%nat) d0;
    do pr <- (if contains "(" label then do p <- perturb x label (snd r); p else Some []);
    Some (mkResult (E 0%nat) (fst r) (x_nuc x + fst r - x_hf x)%Qc (snd r) pr)).
  { unfold drive_from. fold label. rewrite EI. cbn [obind fst]. unfold drive_kernel. rewrite (energy no nv label x P d0 HD A0). reflexivity. }
  split.
  - intros n Hn HS HN. pose proof (loop_hit no nv x j P HD d0 A0 (j_eps j) n (j_max_iter j) 0%nat Hn HS HN) as L.
    assert (L' : drive_loop x label (j_eps j) (j_max_iter j) (E 0%nat) d0 = Some (E (Datatypes.S n), orbit x j0 d0 (Datatypes.S n))) by exact L.
    rewrite L' in ED. clear L L'. cbn [obind fst snd Nat.add] in ED. rewrite ED. clear ED.
    pose proof (orbit_ok no nv x j0 P HD d0 A0 (Datatypes.S n)) as HA. fold label in HA.
    split; [|split].
    + intros ->. reflexivity.
    + intros HQ. rewrite (sub label _ HQ "(" eq_refl).
      destruct (qf_numbers no nv label x _ P HD HA HQ) as [D2 [a [b [c [e110 [e116 [e [H3 [U3 EP]]]]]]]]]. exists D2, a, b, c, e110, e116, e.
      split; [exact H3|]. split; [exact U3|]. rewrite EP. reflexivity.
    + intros HP HQ. rewrite HP. unfold perturb. destruct (match slook "D3aa" (x_den x) with Some D3 => Some D3 | None => _ end); [|reflexivity].
      cbn [obind]. rewrite HQ. reflexivity.
  - intros HN. pose proof (loop_miss no nv x j P HD d0 A0 (j_eps j) (j_max_iter j) 0%nat HN) as L.
    assert (L' : drive_loop x label (j_eps j) (j_max_iter j) (E 0%nat) d0 = None) by exact L. rewrite L' in ED. exact ED.
Qed.
Print Assumptions C54_drive_run.

