(** C72: the conversion to interleaved spin orbitals. *)
From Coq Require Import String Ascii List Arith ZArith QArith Qcanon Bool Lia Permutation.
From Verif Require Import Sums Tensor Interp Numpy Spec SpecDriver Ints SpinOrb P_ints P_ints2.
Import ListNotations.
Open Scope list_scope.
Open Scope Qc_scope.

(** ** Specification *)
(** Spin orbital 2p is spatial orbital p with spin alpha, 2p+1 the one with spin beta; as positions in the list of all alpha
    and then all beta orbitals: *)
Definition interleave (n : nat) : list nat := map (fun k => if Nat.even k then (k / 2)%nat else (n + k / 2)%nat) (seq 0 (2 * n)).
(** [f] is the closed-shell Fock matrix of the AO integrals [I], the one-electron integrals [h] and the lowest [no] columns of [C]. *)
Definition closed_shell_fock (n no : nat) (I h C f : tensor) : Prop :=
  shape f = [n; n] /\ forall a b, (a < n)%nat -> (b < n)%nat -> data f [a; b] = data h [a; b] +
    Sum i < no, Sum c < n, Sum d < n, data C [c; i] * data C [d; i] * ((1 + 1) * data I [a; b; c; d] - data I [a; c; d; b]).

(** ** Assignments *)
Lemma put_shape l : forall t, shape (fold_left put l t) = shape t.
Proof. induction l as [|w l IH]; intros t; [reflexivity|]. cbn [fold_left]. rewrite IH. reflexivity. Qed.
Lemma puts_hit l t idx v : In (idx, v) l -> (forall x, In (idx, x) l -> x = v) -> data (fold_left put l t) idx = v.
Proof.
  induction l as [|[j y] l IH] using rev_ind; intros HI HU; [destruct HI|]. rewrite fold_left_app. cbn [fold_left put data fst snd].
  destruct (list_eq_dec Nat.eq_dec idx j) as [->|N].
  - apply HU. apply in_or_app. right. left. reflexivity.
  - apply IH; [|intros x Hx; apply HU; apply in_or_app; left; exact Hx]. apply in_app_or in HI. destruct HI as [HI|[HI|[]]]; [exact HI|]. injection HI as E _. congruence.
Qed.
Lemma puts_miss l t idx : (forall x, ~ In (idx, x) l) -> data (fold_left put l t) idx = data t idx.
Proof.
  induction l as [|[j y] l IH] using rev_ind; intros HU; [reflexivity|]. rewrite fold_left_app. cbn [fold_left put data fst snd].
  destruct (list_eq_dec Nat.eq_dec idx j) as [->|N].
  - exfalso. apply (HU y). apply in_or_app. right. left. reflexivity.
  - apply IH. intros x Hx. apply (HU x). apply in_or_app. left. exact Hx.
Qed.
Lemma in_writes1 n oei idx x : In (idx, x) (writes1 n oei) <-> exists p q, (p < n)%nat /\ (q < n)%nat /\ x = data oei [p; q] /\
  (idx = [2 * p; 2 * q]%nat \/ idx = [2 * p + 1; 2 * q + 1]%nat).
Proof.
  unfold writes1. rewrite in_flat_map. split.
  - intros [p [Hp H]]. apply in_flat_map in H. destruct H as [q [Hq H]]. apply in_seq in Hp, Hq. exists p, q. split; [lia|]. split; [lia|].
    destruct H as [H|[H|[]]]; injection H as <- <-; auto.
  - intros [p [q [Hp [Hq [-> H]]]]]. exists p. split; [apply in_seq; lia|]. apply in_flat_map. exists q. split; [apply in_seq; lia|].
    destruct H as [->| ->]; [left|right; left]; reflexivity.
Qed.
Lemma in_writes2 n tei idx x : In (idx, x) (writes2 n tei) <-> exists p q r s, (p < n)%nat /\ (q < n)%nat /\ (r < n)%nat /\ (s < n)%nat /\ x = data tei [p; q; r; s] /\
  (idx = [2 * p; 2 * q + 1; 2 * r + 1; 2 * s]%nat \/ idx = [2 * p + 1; 2 * q; 2 * r; 2 * s + 1]%nat \/
   idx = [2 * p; 2 * q; 2 * r; 2 * s]%nat \/ idx = [2 * p + 1; 2 * q + 1; 2 * r + 1; 2 * s + 1]%nat).
Proof.
  unfold writes2. rewrite in_flat_map. split.
  - intros [p [Hp H]]. apply in_flat_map in H. destruct H as [q [Hq H]]. apply in_flat_map in H. destruct H as [r [Hr H]]. apply in_flat_map in H. destruct H as [s [Hs H]].
    apply in_seq in Hp, Hq, Hr, Hs. exists p, q, r, s. repeat (split; [lia|]).
    destruct H as [H|[H|[H|[H|[]]]]]; injection H as <- <-; auto 6.
  - intros [p [q [r [s [Hp [Hq [Hr [Hs [-> H]]]]]]]]]. exists p. split; [apply in_seq; lia|]. apply in_flat_map. exists q. split; [apply in_seq; lia|].
    apply in_flat_map. exists r. split; [apply in_seq; lia|]. apply in_flat_map. exists s. split; [apply in_seq; lia|].
    destruct H as [->|[->|[->| ->]]]; cbn [In]; auto 6.
Qed.
(** every number below 2n is 2p + b *)
Lemma halves n P : (P < 2 * n)%nat -> exists p b, (p < n)%nat /\ P = (2 * p + b)%nat /\ (b = 0 \/ b = 1)%nat /\ (P / 2 = p)%nat /\ (P mod 2 = b)%nat.
Proof.
  intros H. exists (P / 2)%nat, (P mod 2)%nat. pose proof (Nat.div_mod P 2 ltac:(lia)). pose proof (Nat.mod_upper_bound P 2 ltac:(lia)).
  split; [apply Nat.div_lt_upper_bound; lia|]. split; [lia|]. split; [lia|]. split; reflexivity.
Qed.
Lemma stei_spec n tei P Q R S : (P < 2 * n)%nat -> (Q < 2 * n)%nat -> (R < 2 * n)%nat -> (S < 2 * n)%nat ->
  data (fold_left put (writes2 n tei) (tzeros [2 * n; 2 * n; 2 * n; 2 * n]%nat)) [P; Q; R; S] =
  same (Nat.eqb (P mod 2) (S mod 2)) * same (Nat.eqb (Q mod 2) (R mod 2)) * data tei [P / 2; Q / 2; R / 2; S / 2]%nat.
Proof.
  intros HP HQ HR HS.
  destruct (halves n P HP) as [p [bp [Lp [EP [Bp [-> ->]]]]]]. destruct (halves n Q HQ) as [q [bq [Lq [EQ [Bq [-> ->]]]]]].
  destruct (halves n R HR) as [r [br [Lr [ER [Br [-> ->]]]]]]. destruct (halves n S HS) as [s [bs [Ls [ES [Bs [-> ->]]]]]].
  destruct (Nat.eq_dec bp bs) as [Eps|Nps]; [destruct (Nat.eq_dec bq br) as [Eqr|Nqr]|].
  - rewrite (puts_hit _ _ _ (data tei [p; q; r; s])).
    + rewrite Eps, Eqr, !Nat.eqb_refl. unfold same. ring.
    + apply in_writes2. exists p, q, r, s. repeat (split; [assumption|]). split; [reflexivity|]. rewrite EP, EQ, ER, ES. subst bs br.
      destruct Bp as [-> | ->], Bq as [-> | ->]; rewrite ?Nat.add_0_r; auto 6.
    + intros x H. apply in_writes2 in H. destruct H as [p' [q' [r' [s' [_ [_ [_ [_ [-> H]]]]]]]]].
      assert (E : p' = p /\ q' = q /\ r' = r /\ s' = s) by (destruct H as [H|[H|[H|H]]]; injection H as H1 H2 H3 H4; lia).
      destruct E as [-> [-> [-> ->]]]. reflexivity.
  - rewrite puts_miss.
    + cbn [tzeros data]. rewrite (proj2 (Nat.eqb_neq bq br) Nqr). unfold same. ring.
    + intros x H. apply in_writes2 in H. destruct H as [p' [q' [r' [s' [_ [_ [_ [_ [-> H]]]]]]]]]. destruct H as [H|[H|[H|H]]]; injection H as H1 H2 H3 H4; lia.
  - rewrite puts_miss.
    + cbn [tzeros data]. rewrite (proj2 (Nat.eqb_neq bp bs) Nps). unfold same. ring.
    + intros x H. apply in_writes2 in H. destruct H as [p' [q' [r' [s' [_ [_ [_ [_ [-> H]]]]]]]]]. destruct H as [H|[H|[H|H]]]; injection H as H1 H2 H3 H4; lia.
Qed.
Lemma soei_spec n oei P Q : (P < 2 * n)%nat -> (Q < 2 * n)%nat ->
  data (fold_left put (writes1 n oei) (tzeros [2 * n; 2 * n]%nat)) [P; Q] = same (Nat.eqb (P mod 2) (Q mod 2)) * data oei [P / 2; Q / 2]%nat.
Proof.
  intros HP HQ. destruct (halves n P HP) as [p [bp [Lp [EP [Bp [-> ->]]]]]]. destruct (halves n Q HQ) as [q [bq [Lq [EQ [Bq [-> ->]]]]]].
  destruct (Nat.eq_dec bp bq) as [E|N].
  - rewrite (puts_hit _ _ _ (data oei [p; q])).
    + rewrite E, Nat.eqb_refl. unfold same. ring.
    + apply in_writes1. exists p, q. repeat (split; [assumption|]). split; [reflexivity|]. rewrite EP, EQ. subst bq. destruct Bp as [-> | ->]; rewrite ?Nat.add_0_r; auto.
    + intros x H. apply in_writes1 in H. destruct H as [p' [q' [_ [_ [-> H]]]]].
      assert (E' : p' = p /\ q' = q) by (destruct H as [H|H]; injection H as H1 H2; lia). destruct E' as [-> ->]. reflexivity.
  - rewrite puts_miss.
    + cbn [tzeros data]. rewrite (proj2 (Nat.eqb_neq bp bq) N). unfold same. ring.
    + intros x H. apply in_writes1 in H. destruct H as [p' [q' [_ [_ [-> H]]]]]. destruct H as [H|H]; injection H as H1 H2; lia.
Qed.
(** ** The list [interleave] *)
Lemma il_nth n k : (k < 2 * n)%nat -> nth k (interleave n) O = if Nat.even k then (k / 2)%nat else (n + k / 2)%nat.
Proof.
  intros H. unfold interleave. rewrite (nth_indep _ O ((fun k => if Nat.even k then (k / 2)%nat else (n + k / 2)%nat) O)) by (rewrite map_length, seq_length; exact H).
  rewrite (map_nth (fun k => if Nat.even k then (k / 2)%nat else (n + k / 2)%nat)), seq_nth by exact H. reflexivity.
Qed.
Lemma even_mod k : Nat.even k = Nat.eqb (k mod 2) 0.
Proof.
  pose proof (Nat.div_mod k 2 ltac:(lia)) as E. pose proof (Nat.mod_upper_bound k 2 ltac:(lia)) as B. rewrite E at 1. rewrite Nat.even_add, Nat.even_mul. cbn [Nat.even orb].
  destruct (k mod 2)%nat as [|[|]]; [reflexivity|reflexivity|lia].
Qed.
Lemma il_spin n k : (k < 2 * n)%nat -> spin_of n (nth k (interleave n) O) = (if Nat.eqb (k mod 2) 0 then Up else Dn) /\ spat n (nth k (interleave n) O) = (k / 2)%nat.
Proof.
  intros H. rewrite (il_nth n k H), even_mod. destruct (halves n k H) as [p [b [Lp [_ [_ [-> ->]]]]]]. unfold spin_of, spat.
  destruct (Nat.eqb b 0).
  - rewrite (proj2 (Nat.ltb_lt p n) Lp). auto.
  - rewrite (proj2 (Nat.ltb_ge (n + p) n)) by lia. split; [reflexivity|lia].
Qed.
Lemma il_coef n C k : (k < 2 * n)%nat -> forall a, coef n C C (nth k (interleave n) O) a = data C [a; k / 2]%nat.
Proof. intros H a. unfold coef. rewrite (proj2 (il_spin n k H)). destruct (spin_of _ _); reflexivity. Qed.
Lemma il_same n k l : (k < 2 * n)%nat -> (l < 2 * n)%nat -> spin_eqb (spin_of n (nth k (interleave n) O)) (spin_of n (nth l (interleave n) O)) = Nat.eqb (k mod 2) (l mod 2).
Proof.
  intros Hk Hl. rewrite (proj1 (il_spin n k Hk)), (proj1 (il_spin n l Hl)). destruct (halves n k Hk) as [_ [b [_ [_ [B [_ ->]]]]]]. destruct (halves n l Hl) as [_ [b' [_ [_ [B' [_ ->]]]]]].
  destruct B as [-> | ->], B' as [-> | ->]; reflexivity.
Qed.
Lemma mo_int_ext n I x y z w x' y' z' w' : (forall a, x a = x' a) -> (forall a, y a = y' a) -> (forall a, z a = z' a) -> (forall a, w a = w' a) -> mo_int n I x y z w = mo_int n I x' y' z' w'.
Proof. intros H1 H2 H3 H4. unfold mo_int. apply suml_ext; intros a _. apply suml_ext; intros b _. apply suml_ext; intros c _. apply suml_ext; intros d _. rewrite H1, H2, H3, H4. reflexivity. Qed.
Lemma sum_pairs m F : (Sum k < (2 * m), F k) = Sum i < m, (F (2 * i)%nat + F (2 * i + 1)%nat).
Proof.
  induction m as [|m IH]; [reflexivity|]. replace (2 * S m)%nat with (S (S (2 * m))) by lia. rewrite !seq_S, !suml_app, IH. cbn [suml]. rewrite !Nat.add_0_l.
  replace (2 * m + 1)%nat with (S (2 * m)) by lia. ring.
Qed.
(** ** The conversion *)
Section Convert.
  Variables (n no : nat) (I h C : tensor) (eps : list Qc).
  Hypothesis HI : eri_symmetric n I.
  Hypothesis Hh : shape h = [n; n].
  Hypothesis HC : shape C = [n; n].
  Hypothesis Hno : (no <= n)%nat.
  Definition col (p : nat) : nat -> Qc := fun a => data C [a; p].
  Definition hmo (p q : nat) : Qc := Sum a < n, Sum b < n, data C [a; p] * data h [a; b] * data C [b; q].
  (** the closed-shell Fock matrix in the orbital basis *)
  Definition fmo (p q : nat) : Qc := hmo p q +
    Sum i < no, ((1 + 1) * mo_int n I (col p) (col q) (col i) (col i) - mo_int n I (col p) (col i) (col i) (col q)).
  Lemma conv : exists F G, convert_interleaved (2 * no) I h C eps = Some (F, G, flat_map (fun e => [e; e]) eps) /\
    shape F = [2 * n; 2 * n]%nat /\ shape G = [2 * n; 2 * n; 2 * n; 2 * n]%nat /\
    (forall P Q R S, (P < 2 * n)%nat -> (Q < 2 * n)%nat -> (R < 2 * n)%nat -> (S < 2 * n)%nat -> data G [P; Q; R; S] = so_integral n n I C C (interleave n) P Q R S) /\
    (forall P Q, (P < 2 * n)%nat -> (Q < 2 * n)%nat -> data F [P; Q] = same (Nat.eqb (P mod 2) (Q mod 2)) * fmo (P / 2) (Q / 2)).
  Proof using HI Hh HC Hno.
    unfold convert_interleaved. destruct (in_mo_spec h C n n Hh HC) as [H1 [-> [S1 V1]]]. cbn [obind].
    destruct (ao2mo_spec I C C C C n n n n n (proj1 HI) HC HC HC HC) as [g [-> [Sg Vg]]]. cbn [obind].
    assert (T : exists t, ttransp [0; 2; 3; 1]%nat g = Some t /\ shape t = [n; n; n; n] /\ forall p q r s, data t [p; q; r; s] = data g [p; s; q; r]).
    { unfold ttransp. rewrite Sg. cbn. rewrite ?Sg. cbn. eexists. split; [reflexivity|]. split; [reflexivity|]. reflexivity. }
    destruct T as [t [-> [St Vt]]]. cbn [obind]. unfold spinorb_from_spatial. rewrite S1, St, Nat.leb_refl. cbn [andb obind].
    pose proof (stei_spec n t) as VS. pose proof (soei_spec n H1) as VO.
    assert (SS : shape (fold_left put (writes2 n t) (tzeros [2 * n; 2 * n; 2 * n; 2 * n]%nat)) = [2 * n; 2 * n; 2 * n; 2 * n]%nat) by apply put_shape.
    assert (SO : shape (fold_left put (writes1 n H1) (tzeros [2 * n; 2 * n]%nat)) = [2 * n; 2 * n]%nat) by apply put_shape.
    set (stei := fold_left put (writes2 n t) _) in *. set (soei := fold_left put (writes1 n H1) _) in *. clearbody stei soei.
    assert (X1 : exists x, ttransp [0; 1; 3; 2]%nat stei = Some x /\ shape x = [2 * n; 2 * n; 2 * n; 2 * n]%nat /\ forall p q r s, data x [p; q; r; s] = data stei [p; q; s; r]).
    { unfold ttransp. rewrite SS. cbn -[Nat.mul]. rewrite ?SS. cbn -[Nat.mul]. eexists. split; [reflexivity|]. split; reflexivity. }
    destruct X1 as [x [-> [Sx Vx]]]. cbn [obind].
    assert (X2 : exists a, tbin Qcminus stei x = Some a /\ shape a = [2 * n; 2 * n; 2 * n; 2 * n]%nat /\ forall p q r s, data a [p; q; r; s] = data stei [p; q; r; s] - data stei [p; q; s; r]).
    { unfold tbin. rewrite SS, Sx. cbn [eqb_shape]. rewrite !Nat.eqb_refl. cbn [andb]. eexists. split; [reflexivity|]. split; [reflexivity|]. intros. cbn [data]. rewrite Vx. reflexivity. }
    destruct X2 as [a [-> [Sa Va]]]. cbn [obind].
    assert (X3 : exists y, ttransp [0; 1; 3; 2]%nat a = Some y /\ shape y = [2 * n; 2 * n; 2 * n; 2 * n]%nat /\ forall p q r s, data y [p; q; r; s] = data a [p; q; s; r]).
    { unfold ttransp. rewrite Sa. cbn -[Nat.mul]. rewrite ?Sa. cbn -[Nat.mul]. eexists. split; [reflexivity|]. split; reflexivity. }
    destruct X3 as [G [-> [SG VG]]]. cbn [obind].
    assert (X4 : exists pt, tslice [(0%nat, None); (0%nat, Some (2 * no)%nat); (0%nat, Some (2 * no)%nat); (0%nat, None)] a = Some pt /\ shape pt = [2 * n; 2 * no; 2 * no; 2 * n]%nat /\
       forall p q r s, data pt [p; q; r; s] = data a [p; q; r; s]).
    { unfold tslice. rewrite Sa. cbn [length Nat.eqb]. eexists. split; [reflexivity|]. unfold zipw, slice_len, slice_start. cbn [shape data combine map fst snd].
      unfold slice_stop. rewrite !Nat.min_0_l, !Nat.sub_0_r, Nat.min_l by lia. split; [reflexivity|intros; reflexivity]. }
    destruct X4 as [pt [-> [Sp Vp]]]. cbn [obind].
    assert (X5 : exists k, es "piiq->pq" [pt] = Some k /\ shape k = [2 * n; 2 * n]%nat /\ forall p q, data k [p; q] = Sum i < (2 * no), data pt [p; i; i; q]).
    { es_go. rewrite Sp. cbn -[suml seq Nat.mul]. rewrite ?Nat.eqb_refl. cbn -[suml seq Nat.mul]. eexists. split; [reflexivity|]. split; [reflexivity|].
      intros p q. cbn -[suml seq Nat.mul]. apply suml_ext. intros i _. ring. }
    destruct X5 as [k [-> [Sk Vk]]]. cbn [obind].
    assert (X6 : exists F, tbin Qcplus soei k = Some F /\ shape F = [2 * n; 2 * n]%nat /\ forall p q, data F [p; q] = data soei [p; q] + data k [p; q]).
    { unfold tbin. rewrite SO, Sk. cbn [eqb_shape]. rewrite !Nat.eqb_refl. cbn [andb]. eexists. split; [reflexivity|]. split; reflexivity. }
    destruct X6 as [F [-> [SF VF]]]. cbn [obind]. exists F, G. split; [reflexivity|]. split; [exact SF|]. split; [exact SG|]. split.
    - intros P Q R S HP HQ HR HS. rewrite VG, Va, !VS, !Vt, !Vg by assumption. unfold so_integral. rewrite !il_same by assumption.
      rewrite (mo_int_ext n I _ _ _ _ _ _ _ _ (il_coef n C P HP) (il_coef n C R HR) (il_coef n C Q HQ) (il_coef n C S HS)).
      rewrite (mo_int_ext n I _ _ _ _ _ _ _ _ (il_coef n C P HP) (il_coef n C S HS) (il_coef n C Q HQ) (il_coef n C R HR)). reflexivity.
    - intros P Q HP HQ. rewrite VF, VO, V1, Vk by assumption. fold (hmo (P / 2) (Q / 2)). rewrite sum_pairs.
      rewrite (suml_ext _ _ _ (fun i => same (Nat.eqb (P mod 2) (Q mod 2)) * ((1 + 1) * mo_int n I (col (P / 2)) (col (Q / 2)) (col i) (col i) - mo_int n I (col (P / 2)) (col i) (col i) (col (Q / 2))))).
      + rewrite suml_scale. unfold fmo. ring.
      + intros i Hi. apply in_seq in Hi. rewrite !Vp, !Va, !VS, !Vt, !Vg by lia.
        replace ((2 * i) / 2)%nat with i by (rewrite Nat.mul_comm, Nat.div_mul; lia). replace ((2 * i + 1) / 2)%nat with i by (rewrite (Nat.mul_comm 2 i), Nat.div_add_l by lia; cbn; lia).
        replace ((2 * i) mod 2)%nat with 0%nat by (rewrite Nat.mul_comm, Nat.mod_mul; lia). replace ((2 * i + 1) mod 2)%nat with 1%nat by (rewrite Nat.add_comm, (Nat.mul_comm 2 i), Nat.mod_add by lia; reflexivity).
        fold (col (P / 2)) (col (Q / 2)) (col i).
        destruct (halves n P HP) as [_ [b [_ [_ [B [_ ->]]]]]]. destruct (halves n Q HQ) as [_ [b' [_ [_ [B' [_ ->]]]]]].
        destruct B as [-> | ->], B' as [-> | ->]; cbn [Nat.eqb same]; ring.
  Qed.
  (** the AO Fock matrix in the orbital basis *)
  Lemma fmo_ao f p q : closed_shell_fock n no I h C f -> (Sum a < n, Sum b < n, data C [a; p] * data f [a; b] * data C [b; q]) = fmo p q.
  Proof using.
    clear Hno. intros [_ Hf]. unfold fmo, hmo.
    rewrite (suml_ext _ _ _ (fun a => (Sum b < n, data C [a; p] * data h [a; b] * data C [b; q]) +
      Sum b < n, Sum i < no, Sum c < n, Sum d < n, data C [a; p] * data C [b; q] * (data C [c; i] * data C [d; i] * ((1 + 1) * data I [a; b; c; d] - data I [a; c; d; b])))).
    2:{ intros a Ha. apply in_seq in Ha. rewrite <- suml_plus. apply suml_ext. intros b Hb. apply in_seq in Hb. rewrite (Hf a b) by lia.
        rewrite (suml_ext _ (seq 0 no) (fun i => Sum c < n, Sum d < n, data C [a; p] * data C [b; q] * (data C [c; i] * data C [d; i] * ((1 + 1) * data I [a; b; c; d] - data I [a; c; d; b])))
          (fun i => data C [a; p] * data C [b; q] * Sum c < n, Sum d < n, data C [c; i] * data C [d; i] * ((1 + 1) * data I [a; b; c; d] - data I [a; c; d; b]))).
        - rewrite suml_scale. ring.
        - intros i _. rewrite <- suml_scale. apply suml_ext. intros c _. rewrite <- suml_scale. reflexivity. }
    rewrite suml_plus. f_equal.
    rewrite (suml_ext _ _ _ (fun a => Sum i < no, Sum b < n, Sum c < n, Sum d < n, data C [a; p] * data C [b; q] * (data C [c; i] * data C [d; i] * ((1 + 1) * data I [a; b; c; d] - data I [a; c; d; b])))) by (intros a _; apply suml_swap).
    rewrite suml_swap. apply suml_ext. intros i _.
    change (sum4 n (fun a b c d => data C [a; p] * data C [b; q] * (data C [c; i] * data C [d; i] * ((1 + 1) * data I [a; b; c; d] - data I [a; c; d; b])))
      = (1 + 1) * sum4 n (fun a b c d => data I [a; b; c; d] * (col p a * (col q b * (col i c * col i d)))) - sum4 n (fun a b c d => data I [a; b; c; d] * (col p a * (col i b * (col i c * col q d))))).
    rewrite (sum4_34 n (fun a b c d => data I [a; b; c; d] * (col p a * (col i b * (col i c * col q d))))),
      (sum4_23 n (fun a b c d => data I [a; b; d; c] * (col p a * (col i b * (col i d * col q c))))).
    rewrite <- sum4_scale, <- sum4_sub. apply sum4_ext. intros a b c d _ _ _ _. unfold col. ring.
  Qed.
End Convert.

Lemma nth_double (eps : list Qc) P d : nth P (flat_map (fun e => [e; e]) eps) d = nth (P / 2) eps d.
Proof.
  revert P. induction eps as [|e eps IH]; intros P; [cbn [flat_map]; rewrite !nth_overflow by apply Nat.le_0_l; reflexivity|]. destruct P as [|[|P]]; [reflexivity|reflexivity|].
  cbn [flat_map app nth]. rewrite IH. replace (S (S P) / 2)%nat with (S (P / 2)); [reflexivity|]. replace (S (S P)) with (1 * 2 + P)%nat by lia. rewrite Nat.div_add_l by lia. reflexivity.
Qed.
Lemma length_double (eps : list Qc) : length (flat_map (fun e => [e; e]) eps) = (2 * length eps)%nat.
Proof. induction eps as [|e eps IH]; [reflexivity|]. cbn [flat_map app length]. rewrite IH. lia. Qed.
(** C72.  For all AO integrals with the eightfold symmetry of real orbitals, all orbitals and every number [no] of doubly occupied orbitals,
    the conversion to interleaved spin orbitals does not raise; its two-electron array holds the antisymmetrised integrals <PQ||RS> of
    the spin orbitals 2p (alpha) and 2p+1 (beta); its one-electron array is the closed-shell Fock matrix in the orbital basis for
    equal spins and zero for different spins; and every orbital energy is stored twice. *)
Theorem C72_interleaved_integrals : forall n no I h C f eps, eri_symmetric n I -> shape h = [n; n] -> shape C = [n; n] -> (no <= n)%nat -> length eps = n ->
  closed_shell_fock n no I h C f ->
  exists F G e, convert_interleaved (2 * no) I h C eps = Some (F, G, e) /\
    shape F = [2 * n; 2 * n]%nat /\ shape G = [2 * n; 2 * n; 2 * n; 2 * n]%nat /\ length e = (2 * n)%nat /\
    (forall P, nth P e 0 = nth (P / 2) eps 0) /\
    (forall P Q R S, (P < 2 * n)%nat -> (Q < 2 * n)%nat -> (R < 2 * n)%nat -> (S < 2 * n)%nat -> data G [P; Q; R; S] = so_integral n n I C C (interleave n) P Q R S) /\
    (forall P Q, (P < 2 * n)%nat -> (Q < 2 * n)%nat -> data F [P; Q] =
       if Nat.eqb (P mod 2) (Q mod 2) then Sum a < n, Sum b < n, data C [a; P / 2]%nat * data f [a; b] * data C [b; Q / 2]%nat else 0).
Proof.
  intros n no I h C f eps HI Hh HC Hno Le Hf. destruct (conv n no I h C eps HI Hh HC Hno) as [F [G [E [SF [SG [VG VF]]]]]].
  exists F, G, (flat_map (fun e => [e; e]) eps). split; [exact E|]. split; [exact SF|]. split; [exact SG|]. split; [rewrite length_double, Le; reflexivity|].
  split; [intros P; apply nth_double|]. split; [exact VG|]. intros P Q HP HQ. rewrite (VF P Q HP HQ), <- (fmo_ao n no I h C f _ _ Hf). destruct (Nat.eqb _ _); unfold same; ring.
Qed.
Print Assumptions C72_interleaved_integrals.
Lemma interleave_perm n : Permutation (interleave n) (seq 0 (2 * n)).
Proof.
  apply NoDup_Permutation_bis.
  - apply NoDup_nth with (d := O). intros i j Hi Hj E. unfold interleave in Hi, Hj. rewrite map_length, seq_length in Hi, Hj. rewrite !il_nth, !even_mod in E by assumption.
    destruct (halves n i Hi) as [p [b [Lp [Ei [B [Ep Eb]]]]]]. destruct (halves n j Hj) as [p' [b' [Lp' [Ej [B' [Ep' Eb']]]]]]. rewrite Ep, Eb, Ep', Eb' in E.
    destruct B as [-> | ->], B' as [-> | ->]; cbn [Nat.eqb] in E; lia.
  - unfold interleave. rewrite map_length. lia.
  - intros x Hx. unfold interleave in Hx. apply in_map_iff in Hx. destruct Hx as [k [<- Hk]]. apply in_seq in Hk. apply in_seq. rewrite even_mod.
    destruct (halves n k ltac:(lia)) as [p [b [Lp [_ [B [-> ->]]]]]]. destruct B as [-> | ->]; cbn [Nat.eqb]; lia.
Qed.
Lemma interleave_eps n eps k : length eps = n -> (k < 2 * n)%nat -> nth (nth k (interleave n) O) (eps ++ eps) 0 = nth (k / 2) eps 0.
Proof.
  intros L H. rewrite (il_nth n k H), even_mod. destruct (halves n k H) as [p [b [Lp [_ [B [-> ->]]]]]]. destruct B as [-> | ->]; cbn [Nat.eqb].
  - apply app_nth1. lia.
  - rewrite app_nth2 by lia. f_equal. lia.
Qed.
(** C72.  For canonical orbitals in order of their energies this is what the conversion that the drivers use stores, for one of the orders in
    which `argsort` may put the two spin orbitals of equal energy: the same two-electron integrals, the same orbital energies, and
    the same, diagonal, Fock matrix. *)
Theorem C72_same_as_driver : forall n no I h C f eps order, (0 < n)%nat -> eri_symmetric n I -> shape h = [n; n] -> (no <= n)%nat ->
  closed_shell_fock n no I h C f -> canonical n n f C eps -> (forall i j, (i < j)%nat -> (j < n)%nat -> nth i eps 0 <= nth j eps 0) ->
  is_argsort (eps ++ eps) (interleave n) /\
  (order (eps ++ eps) = interleave n -> exists F G e F' G', convert_interleaved (2 * no) I h C eps = Some (F, G, e) /\ convert_slow order I C C eps eps = Some (F', G', e) /\
    shape F = shape F' /\ shape G = shape G' /\
    (forall P Q, (P < 2 * n)%nat -> (Q < 2 * n)%nat -> data F [P; Q] = data F' [P; Q]) /\
    (forall P Q R S, (P < 2 * n)%nat -> (Q < 2 * n)%nat -> (R < 2 * n)%nat -> (S < 2 * n)%nat -> data G [P; Q; R; S] = data G' [P; Q; R; S])).
Proof.
  intros n no I h C f eps order N0 HI Hh Hno Hf [Sf [HC [Le Hcan]]] Hs. split.
  - split; [rewrite app_length, Le; replace (n + n)%nat with (2 * n)%nat by lia; apply interleave_perm|].
    intros i j Hij Hj. rewrite app_length, Le in Hj. rewrite !(interleave_eps n eps) by (try exact Le; lia).
    destruct (Nat.eq_dec (i / 2) (j / 2)) as [->|N]; [apply Qcle_refl|]. apply Hs.
    + pose proof (Nat.div_le_mono i j 2 ltac:(lia) ltac:(lia)). lia.
    + apply Nat.div_lt_upper_bound; lia.
  - intros Ho. destruct (C72_interleaved_integrals n no I h C f eps HI Hh HC Hno Le Hf) as [F [G [e [E [SF [SG [Lee [Ve [VG VF]]]]]]]]].
    destruct (C37_spin_orbital_integrals n n I C C eps eps order N0 HI HC HC Le Le) as [F' [G' [e' [E' [Ee [EF [IF [IG VG']]]]]]]]; [rewrite Ho; apply interleave_perm|].
    rewrite Ho in Ee, VG'.
    assert (EE : e = e').
    { apply (nth_ext _ _ 0 0); [rewrite Lee, Ee, map_length, (Permutation_length (interleave_perm n)), seq_length; reflexivity|]. intros P HP. rewrite Lee in HP. rewrite Ve, Ee.
      rewrite (nth_indep (map (fun k => nth k (eps ++ eps) 0) (interleave n)) 0 ((fun k => nth k (eps ++ eps) 0) O)) by (rewrite map_length, (Permutation_length (interleave_perm n)), seq_length; exact HP).
      rewrite (map_nth (fun k => nth k (eps ++ eps) 0)). symmetry. apply interleave_eps; assumption. }
    subst e'. exists F, G, e, F', G'. split; [exact E|]. split; [rewrite EE; exact E'|]. split; [rewrite SF; symmetry; apply IF|]. split; [rewrite SG; symmetry; apply IG|]. split.
    + intros P Q HP HQ. rewrite (VF P Q HP HQ), EF. unfold tdiag, arr2. cbn [data]. rewrite <- EE, Ve.
      destruct (halves n P HP) as [p [b [Lp [EP [B [-> ->]]]]]]. destruct (halves n Q HQ) as [q [b' [Lq [EQ [B' [-> ->]]]]]]. rewrite (Hcan p q Lp Lq).
      destruct (Nat.eqb_spec b b') as [Eb|Nb], (Nat.eqb_spec p q) as [Ep|Np], (Nat.eqb_spec P Q) as [EPQ|NPQ]; try reflexivity; exfalso; lia.
    + intros P Q R S HP HQ HR HS. rewrite (VG P Q R S HP HQ HR HS), (VG' P Q R S HP HQ HR HS). reflexivity.
Qed.
Print Assumptions C72_same_as_driver.

(** ** Concrete case: two orbitals, two electrons *)
Definition q_I : tensor := arr4 2 2 2 2 (fun p q r s => Q2Qc (Z.of_nat ((p + q + 1) * (r + s + 1)) # 1)).
Definition q_f : tensor := arr2 2 2 (fun p q => if Nat.eqb p q then (if Nat.eqb p 0 then Q2Qc (-3 # 1) else Q2Qc (1 # 1)) else 0).
Definition q_eps : list Qc := [Q2Qc (-3 # 1); Q2Qc (1 # 1)].
Definition q_h : tensor := arr2 2 2 (fun a b => data q_f [a; b] -
  Sum i < 1, Sum c < 2, Sum d < 2, data (teye 2) [c; i] * data (teye 2) [d; i] * ((1 + 1) * data q_I [a; b; c; d] - data q_I [a; c; d; b])).
Example q_I_ok : eri_symmetric 2 q_I.
Proof. split; [reflexivity|]. intros p q r s _ _ _ _. cbn [data q_I arr4]. repeat split; do 3 f_equal; lia. Qed.
Example q_fock_ok : closed_shell_fock 2 1 q_I q_h (teye 2) q_f.
Proof.
  split; [reflexivity|]. intros a b _ _.
  match goal with |- _ = _ + ?s => change (data q_h [a; b]) with (data q_f [a; b] - s); ring end.
Qed.
Example q_canonical : canonical 2 2 q_f (teye 2) q_eps.
Proof.
  split; [reflexivity|]. split; [reflexivity|]. split; [reflexivity|]. intros p q Hp Hq.
  destruct p as [|[|]]; [| |lia]; (destruct q as [|[|]]; [| |lia]); apply Qc_is_canon; vm_compute; reflexivity.
Qed.
Example q_sorted : forall i j, (i < j)%nat -> (j < 2)%nat -> nth i q_eps 0 <= nth j q_eps 0.
Proof. intros i j Hi Hj. assert (i = 0 /\ j = 1)%nat as [-> ->] by lia. vm_compute. discriminate. Qed.
Example C72_instance := C72_interleaved_integrals 2 1 q_I q_h (teye 2) q_f q_eps q_I_ok eq_refl eq_refl ltac:(lia) eq_refl q_fock_ok.
Example C72_driver_instance := proj2 (C72_same_as_driver 2 1 q_I q_h (teye 2) q_f q_eps (fun _ => interleave 2) ltac:(lia) q_I_ok eq_refl ltac:(lia) q_fock_ok q_canonical q_sorted) eq_refl.
