(** C38: reading amplitudes, integrals and orbital energies written by another program. *)
From Coq Require Import String Ascii List Arith ZArith QArith Qcanon Bool Lia Permutation Sorted.
From Coq Require DecimalString DecimalZ.
From Verif Require Import Sums Tensor Interp Numpy Spec Instances Diis Kernel Denoms SpecDriver P_denoms Fock Wick Xacc SpecXacc.
Import ListNotations.
Open Scope string_scope.

(** ** Splitting and stripping *)
Lemma sapp_nil s : s ++ "" = s. Proof. induction s as [|c s IH]; cbn [append]; [reflexivity|rewrite IH; reflexivity]. Qed.
Lemma sapp_assoc s t u : (s ++ t) ++ u = s ++ (t ++ u).
Proof. induction s as [|c s IH]; cbn [append]; [reflexivity|rewrite IH; reflexivity]. Qed.
Lemma chars_app P s t : chars P (s ++ t) <-> chars P s /\ chars P t.
Proof. induction s as [|c s IH]; cbn [append chars]; [tauto|rewrite IH; tauto]. Qed.
Lemma chars_impl (P Q : ascii -> Prop) s : (forall c, P c -> Q c) -> chars P s -> chars Q s.
Proof. intros H. induction s as [|c s IH]; cbn [chars]; [tauto|]. intros [A B]. split; [apply H, A|apply IH, B]. Qed.
Lemma blank_blank c : is_blank c -> blank c = true.
Proof. unfold is_blank, blank. cbn [In]. intros H. repeat destruct H as [H|H]; try contradiction; rewrite <- H; reflexivity. Qed.
Lemma visible_blank c : visible c -> blank c = false.
Proof.
  unfold visible, blank. intros H. apply orb_false_iff. split; apply andb_false_iff; right; apply Nat.leb_gt; lia.
Qed.
Lemma words_blanks pre s : chars is_blank pre -> split (pre ++ s) = split s.
Proof.
  induction pre as [|c pre IH]; [reflexivity|]. cbn [chars append]. intros [A B]. specialize (IH B). unfold split in *. cbn [words].
  destruct (words (pre ++ s)) as [w ws]. rewrite (blank_blank _ A). cbn [add_word]. exact IH.
Qed.
Lemma words_word w s : chars visible w -> words (w ++ s) = (w ++ fst (words s), snd (words s)).
Proof.
  induction w as [|c w IH]; cbn [chars append].
  - intros _. destruct (words s); reflexivity.
  - intros [A B]. cbn [words]. rewrite (IH B), (visible_blank _ A). reflexivity.
Qed.
Lemma split_blank c s : is_blank c -> split (String c s) = split s.
Proof. intros H. exact (words_blanks (String c "") s (conj H I)). Qed.
Lemma split_spaced line ws : spaced line ws -> split line = ws.
Proof.
  induction 1 as [s H|pre w H [W1 W2]|pre w c s ws H [W1 W2] Hc Hs IH].
  - rewrite <- (sapp_nil s). rewrite (words_blanks s "" H). reflexivity.
  - rewrite (words_blanks pre w H), <- (sapp_nil w). unfold split. rewrite (words_word w "" W2). cbn [words fst snd].
    rewrite sapp_nil. destruct w; [congruence|reflexivity].
  - rewrite (words_blanks pre _ H). unfold split at 1. rewrite (words_word w (String c s) W2).
    pose proof (split_blank c s Hc) as K. rewrite IH in K. unfold split in K. cbn [words] in K |- *.
    destruct (words s) as [w' ws']. rewrite (blank_blank _ Hc) in K |- *. cbn [fst snd add_word] in K |- *. rewrite sapp_nil.
    destruct w; [congruence|]. cbn [add_word]. rewrite K. reflexivity.
Qed.

Definition off (p : ascii -> bool) (s : string) : Prop := chars (fun c => p c = false) s.
Lemma lstrip_off p s : off p s -> lstrip p s = s.
Proof. destruct s as [|c s]; [reflexivity|]. intros [A B]. cbn [lstrip]. rewrite A. reflexivity. Qed.
Lemma rstrip_off p s : off p s -> rstrip p s = s.
Proof. induction s as [|c s IH]; [reflexivity|]. intros [A B]. cbn [rstrip]. rewrite (IH B), A. destruct s; reflexivity. Qed.
Lemma strip_off p s : off p s -> strip p s = s.
Proof. intros H. unfold strip. rewrite (lstrip_off p s H). apply rstrip_off, H. Qed.
Lemma rstrip_end p c s : off p s -> p c = true -> rstrip p (s ++ String c "") = s.
Proof.
  intros H Hc. induction s as [|d s IH]; cbn [append rstrip].
  - rewrite Hc. reflexivity.
  - destruct H as [A B]. rewrite (IH B), A. destruct s; reflexivity.
Qed.
Lemma strip_end p c s : off p s -> p c = true -> strip p (s ++ String c "") = s.
Proof.
  intros H Hc. unfold strip. destruct s as [|d s].
  - cbn [append lstrip]. rewrite Hc. reflexivity.
  - cbn [append lstrip]. destruct H as [A B]. rewrite A. apply (rstrip_end p c (String d s)); [split; assumption|exact Hc].
Qed.
Lemma strip_start p c s : off p s -> p c = true -> strip p (String c s) = s.
Proof. intros H Hc. unfold strip. cbn [lstrip]. rewrite Hc. rewrite (lstrip_off p s H). apply rstrip_off, H. Qed.

(** ** Numerals *)
Definition digit (c : ascii) : Prop := (48 <= nat_of_ascii c <= 57)%nat.
Lemma digits_uint d : chars digit (DecimalString.NilEmpty.string_of_uint d).
Proof. induction d; cbn [DecimalString.NilEmpty.string_of_uint chars]; [exact I|..]; (split; [unfold digit; cbn; lia|assumption]). Qed.
Lemma dec_shape n : exists d, Z.to_int (Z.of_nat n) = Decimal.Pos d /\ d <> Decimal.Nil.
Proof.
  destruct (Z.to_int (Z.of_nat n)) as [d|d] eqn:E.
  - exists d. split; [reflexivity|]. intros ->. destruct n; [discriminate E|].
    pose proof (DecimalZ.of_to (Z.of_nat (S n))) as H. rewrite E in H. discriminate H.
  - destruct n; discriminate E.
Qed.
Lemma dec_digits n : chars digit (dec n).
Proof.
  unfold dec. destruct (dec_shape n) as [d [-> H]]. cbn [DecimalString.NilZero.string_of_int].
  unfold DecimalString.NilZero.string_of_uint. destruct d; [congruence|..]; apply digits_uint.
Qed.
Lemma dec_int n : int_of (dec n) = Some (Z.of_nat n).
Proof.
  unfold int_of, dec. rewrite DecimalString.NilZero.isi.
  - cbn [option_map]. rewrite DecimalZ.of_to. reflexivity.
  - destruct (dec_shape n) as [d [-> H]]. congruence.
  - destruct (dec_shape n) as [d [-> H]]. discriminate.
Qed.
Lemma off_eqb c (s : string) : chars (fun x => x <> c) s -> off (Ascii.eqb c) s.
Proof. apply chars_impl. intros x H. apply Ascii.eqb_neq. congruence. Qed.
Lemma dec_off c n : ~ digit c -> off (Ascii.eqb c) (dec n).
Proof. intros H. apply off_eqb. eapply chars_impl; [|apply dec_digits]. intros x Hx E. subst x. exact (H Hx). Qed.
Lemma hat_int n : int_of (strip_c "^" (dec n ++ "^")) = Some (Z.of_nat n).
Proof. unfold strip_c. rewrite (strip_end _ "^" (dec n)); [apply dec_int|apply dec_off; unfold digit; cbn; lia|reflexivity]. Qed.
Lemma bare_int n : int_of (strip_c "^" (dec n)) = Some (Z.of_nat n).
Proof. unfold strip_c. rewrite strip_off; [apply dec_int|apply dec_off; unfold digit; cbn; lia]. Qed.
Lemma dec_no_bar n : String.eqb (dec n) "|" = false.
Proof.
  apply String.eqb_neq. intros E. pose proof (dec_digits n) as H. rewrite E in H. destruct H as [H _]. unfold digit in H. cbn in H. lia.
Qed.
Lemma hat_no_bar n : String.eqb (dec n ++ "^") "|" = false.
Proof.
  apply String.eqb_neq. pose proof (dec_digits n) as H. destruct (dec n) as [|c s]; [discriminate|].
  destruct H as [H _]. cbn [append]. intros E. injection E as -> _. unfold digit in H. cbn in H. lia.
Qed.

(** ** Indices *)
Lemma np_index_ok n i : (i < n)%nat -> np_index n (Z.of_nat i) = Some i.
Proof.
  intros H. unfold np_index. replace (Z.leb 0 (Z.of_nat i) && Z.ltb (Z.of_nat i) (Z.of_nat n))%bool with true
    by (symmetry; apply andb_true_iff; split; [apply Z.leb_le|apply Z.ltb_lt]; lia). rewrite Nat2Z.id. reflexivity.
Qed.
Lemma np_indices_ok sh idx : inr idx sh -> np_indices sh (map Z.of_nat idx) = Some idx.
Proof.
  intros H. induction H as [|i n idx sh Hi _ IH]; [reflexivity|]. cbn [map np_indices]. rewrite (np_index_ok n i Hi). cbn [obind].
  rewrite IH. reflexivity.
Qed.
Lemma put_ok t idx x : inr idx (shape t) -> put (map Z.of_nat idx) x t = Some (tput idx x t).
Proof. intros H. unfold put. rewrite (np_indices_ok _ _ H). reflexivity. Qed.
Lemma put4 t n m a b i j x : shape t = [n; n; m; m] -> (a < n)%nat -> (b < n)%nat -> (i < m)%nat -> (j < m)%nat ->
  put [Z.of_nat a; Z.of_nat b; Z.of_nat i; Z.of_nat j] x t = Some (tput [a; b; i; j] x t).
Proof. intros Sh A B C D. apply (put_ok t [a; b; i; j]). rewrite Sh. repeat constructor; assumption. Qed.
Lemma put2 t n m a i x : shape t = [n; m] -> (a < n)%nat -> (i < m)%nat -> put [Z.of_nat a; Z.of_nat i] x t = Some (tput [a; i] x t).
Proof. intros Sh A B. apply (put_ok t [a; i]). rewrite Sh. repeat constructor; assumption. Qed.

(** ** One amplitude line *)
Definition wr2 (a b i j : nat) (x : Qc) (t : tensor) : tensor :=
  tput [b; a; j; i] x (tput [a; b; j; i] (- (1) * x)%Qc (tput [b; a; i; j] (- (1) * x)%Qc (tput [a; b; i; j] x t))).
Definition wr (no : nat) (e : entry) (t : tensor * tensor) : tensor * tensor :=
  match e with
  | Double p q r s x => (fst t, wr2 (p - no) (q - no) r s x (snd t))
  | Single p r x => (tput [p - no; r]%nat x (fst t), snd t)
  end.
Definition sized (no nv : nat) (t : tensor * tensor) : Prop := shape (fst t) = [nv; no] /\ shape (snd t) = [nv; nv; no; no].
Lemma wr_sized no nv e t : sized no nv t -> sized no nv (wr no e t).
Proof. intros [A B]. destruct e; split; assumption. Qed.

Lemma last_of_app {A} (l : list A) x : last_of (l ++ [x]) = Some x.
Proof. unfold last_of. rewrite rev_app_distr. reflexivity. Qed.
Lemma bar_visible : visible "|". Proof. unfold visible. cbn. lia. Qed.
Lemma operators_entry fl0 e rest : fl0 = tt ->
  operators 4 (map Some (operators_of e) ++ Some "|" :: rest) =
  Some (match e with
        | Double p q r s _ => [Z.of_nat p; Z.of_nat q; Z.of_nat r; Z.of_nat s]
        | Single p r _ => [Z.of_nat p; Z.of_nat r] end).
Proof.
  intros _. destruct e; cbn [operators_of map app operators];
    rewrite !hat_no_bar, !hat_int; cbn [obind]; rewrite ?hat_no_bar, ?hat_int, !dec_no_bar, ?bare_int; cbn [obind];
    rewrite ?dec_no_bar, ?bare_int; cbn [obind]; reflexivity.
Qed.
Lemma removelast_app1 {A} (l : list A) x : removelast (l ++ [x]) = l.
Proof. apply removelast_last. Qed.

Lemma amp_line_ok fl no nv e line t : amp_text fl e line -> proper no nv e -> sized no nv t ->
  amp_line fl no line t = Some (wr no e t).
Proof.
  intros [txt [[[W1 W2] [NB F]] H]] HP [S1 S2].
  assert (X : exists w r, split line = (operators_of e ++ r ++ [w])%list /\ strip_c "|" w = txt /\
            (exists r', (map Some r ++ [Some "|"; None])%list = Some "|" :: r')).
  { destruct H as [H|H]; apply split_spaced in H.
    - exists txt, ["|"]. split; [exact H|]. split; [apply strip_off, off_eqb, NB|]. eexists. reflexivity.
    - exists ("|" ++ txt), []. split; [exact H|]. split; [|eexists; reflexivity].
      apply (strip_start (Ascii.eqb "|") "|" txt); [apply off_eqb, NB|reflexivity]. }
  destruct X as [w [r [E [EW [r' ER]]]]]. unfold amp_line. rewrite E, app_assoc, last_of_app. cbn [obind]. rewrite EW, F. cbn [obind].
  rewrite removelast_app1, map_app, <- app_assoc, ER, (operators_entry tt e r' eq_refl). cbn [obind].
  destruct e as [p q i j x|p i x]; cbn [proper value_of] in *.
  - destruct HP as [P1 [P2 [P3 [P4 [P5 P6]]]]].
    replace (Z.of_nat p - Z.of_nat no)%Z with (Z.of_nat (p - no)) by lia.
    replace (Z.of_nat q - Z.of_nat no)%Z with (Z.of_nat (q - no)) by lia.
    assert (A : (p - no < nv)%nat) by lia. assert (B : (q - no < nv)%nat) by lia.
    rewrite (put4 _ nv no) by assumption. cbn [obind].
    rewrite (put4 _ nv no) by assumption. cbn [obind].
    rewrite (put4 _ nv no) by assumption. cbn [obind].
    rewrite (put4 _ nv no) by assumption. cbn [obind]. reflexivity.
  - destruct HP as [P1 P2].
    replace (Z.of_nat p - Z.of_nat no)%Z with (Z.of_nat (p - no)) by lia.
    rewrite (put2 _ nv no) by (assumption || lia). reflexivity.
Qed.
Lemma amp_lines_ok fl no nv es lines : Forall2 (amp_text fl) es lines -> Forall (proper no nv) es -> forall t, sized no nv t ->
  amp_lines fl no true lines t = Some (fold_left (fun t e => wr no e t) es t).
Proof.
  induction 1 as [|e l es lines He _ IH]; intros HP t Ht; [reflexivity|]. inversion HP; subst. cbn [amp_lines fold_left orb].
  rewrite (amp_line_ok fl no nv e l t) by assumption. cbn [obind]. apply IH; [assumption|apply wr_sized, Ht].
Qed.
Lemma amp_file_ok fl no nv es file : amp_file fl es file -> Forall (proper no nv) es ->
  read_tamps fl no nv file = Some (fold_left (fun t e => wr no e t) es (tzeros [nv; no], tzeros [nv; nv; no; no])).
Proof.
  intros [pre [hd [lines [-> [H1 [H2 H3]]]]]] HP. unfold read_tamps.
  set (t0 := (tzeros [nv; no], tzeros [nv; nv; no; no])). induction H1 as [|l pre Hl _ IH]; cbn [app amp_lines obind orb].
  - rewrite H2. apply (amp_lines_ok fl no nv es lines H3 HP). split; reflexivity.
  - rewrite Hl. exact IH.
Qed.

(** ** What the writes leave in the arrays *)
Lemma tput_at idx x t j : data (tput idx x t) j = if list_eq_dec Nat.eq_dec j idx then x else data t j.
Proof. reflexivity. Qed.
Lemma tput_same idx x t : data (tput idx x t) idx = x.
Proof. rewrite tput_at. destruct (list_eq_dec Nat.eq_dec idx idx); [reflexivity|contradiction]. Qed.
Lemma tput_other idx x t j : j <> idx -> data (tput idx x t) j = data t j.
Proof. intros H. rewrite tput_at. destruct (list_eq_dec Nat.eq_dec j idx); [contradiction|reflexivity]. Qed.
Lemma m1 x : (- (1) * x = - x)%Qc. Proof. ring. Qed.
Lemma wr2_images a b i j x t : a <> b -> i <> j ->
  data (wr2 a b i j x t) [a; b; i; j] = x /\ data (wr2 a b i j x t) [b; a; i; j] = (- x)%Qc /\
  data (wr2 a b i j x t) [a; b; j; i] = (- x)%Qc /\ data (wr2 a b i j x t) [b; a; j; i] = x.
Proof.
  intros A B. unfold wr2. repeat split; rewrite <- ?m1.
  - rewrite !tput_other by congruence. apply tput_same.
  - rewrite !tput_other by congruence. apply tput_same.
  - rewrite tput_other by congruence. apply tput_same.
  - apply tput_same.
Qed.
Lemma wr2_other a b i j x t c d k l : ~ ((c = a /\ d = b \/ c = b /\ d = a) /\ (k = i /\ l = j \/ k = j /\ l = i)) ->
  data (wr2 a b i j x t) [c; d; k; l] = data t [c; d; k; l].
Proof. intros H. unfold wr2. rewrite !tput_other; [reflexivity|..]; intros E; injection E as -> -> -> ->; apply H; tauto. Qed.

Lemma pair_dec (c d a b : nat) : (c = a /\ d = b \/ c = b /\ d = a) \/ ~ (c = a /\ d = b \/ c = b /\ d = a).
Proof. destruct (Nat.eq_dec c a), (Nat.eq_dec d b), (Nat.eq_dec c b), (Nat.eq_dec d a); tauto. Qed.
Definition anti4 (t : tensor) : Prop :=
  forall a b i j, data t [a; b; i; j] = (- data t [b; a; i; j])%Qc /\ data t [a; b; i; j] = (- data t [a; b; j; i])%Qc.
Lemma wr2_anti a b i j x t : a <> b -> i <> j -> anti4 t -> anti4 (wr2 a b i j x t).
Proof.
  intros A B H c d k l. destruct (wr2_images a b i j x t A B) as [W1 [W2 [W3 W4]]].
  assert (D : ((c = a /\ d = b \/ c = b /\ d = a) /\ (k = i /\ l = j \/ k = j /\ l = i)) \/
              ~ ((c = a /\ d = b \/ c = b /\ d = a) /\ (k = i /\ l = j \/ k = j /\ l = i))).
  { pose proof (pair_dec c d a b). pose proof (pair_dec k l i j). tauto. }
  destruct D as [D|D].
  - destruct D as [[[-> ->]|[-> ->]] [[-> ->]|[-> ->]]]; rewrite ?W1, ?W2, ?W3, ?W4; split; ring.
  - rewrite !wr2_other by tauto. apply H.
Qed.
Lemma anti4_amp no nv t : shape t = [nv; nv; no; no] -> anti4 t -> is_amp 2 no nv t.
Proof.
  intros Sh H. split; [exact Sh|]. intros i Hi. assert (i = 0)%nat by lia. subst i. split.
  - intros pre x y post Le. destruct pre; [|discriminate Le]. cbn [app]. rewrite Sh. intros I1 _.
    inversion I1 as [|? ? ? ? _ I2]; subst. inversion I2 as [|? ? ? ? _ I3]; subst. inversion I3 as [|? ? ? ? _ I4]; subst.
    inversion I4 as [|? ? ? ? _ I5]; subst. inversion I5; subst. apply H.
  - intros pre x y post Le. cbn [Nat.add] in Le. destruct pre as [|c [|d [|e pre]]]; try discriminate Le. cbn [app]. rewrite Sh. intros I1 _.
    inversion I1 as [|? ? ? ? _ I2]; subst. inversion I2 as [|? ? ? ? _ I3]; subst. inversion I3 as [|? ? ? ? _ I4]; subst.
    inversion I4 as [|? ? ? ? _ I5]; subst. inversion I5; subst. apply H.
Qed.
Lemma amp1 no nv t : shape t = [nv; no] -> is_amp 1 no nv t.
Proof. intros Sh. split; [exact Sh|]. intros i Hi. lia. Qed.

Definition runs (no : nat) (es : list entry) (t : tensor * tensor) : tensor * tensor := fold_left (fun t e => wr no e t) es t.
Lemma runs_sized no nv es : forall t, sized no nv t -> sized no nv (runs no es t).
Proof. induction es as [|e es IH]; intros t H; [exact H|]. apply IH, wr_sized, H. Qed.
Lemma runs_anti no nv es : Forall (proper no nv) es -> forall t, anti4 (snd t) -> anti4 (snd (runs no es t)).
Proof.
  induction 1 as [|e es He _ IH]; intros t H; [exact H|]. apply IH. destruct e as [p q r s x|p r x]; [|exact H].
  cbn [proper wr snd] in *. apply wr2_anti; [lia|lia|exact H].
Qed.
Lemma runs_other2 no nv es a b i j : Forall (proper no nv) es ->
  (forall e, In e es -> ~ about2 (no + a) (no + b) i j e) ->
  forall t, data (snd (runs no es t)) [a; b; i; j] = data (snd t) [a; b; i; j].
Proof.
  induction 1 as [|e es He _ IH]; intros H t; [reflexivity|]. change (runs no (e :: es) t) with (runs no es (wr no e t)).
  rewrite IH by (intros e' He'; apply H; right; exact He').
  destruct e as [p q r s x|p r x]; [|reflexivity]. cbn [wr snd proper] in *. apply wr2_other. intros K.
  apply (H _ (or_introl eq_refl)). cbn [about2]. destruct K as [K1 K2]. split; [|exact K2].
  destruct K1 as [[-> ->]|[-> ->]]; [left|right]; split; lia.
Qed.
Lemma runs_other1 no nv es a i : Forall (proper no nv) es -> (forall e, In e es -> ~ about1 (no + a) i e) ->
  forall t, data (fst (runs no es t)) [a; i] = data (fst t) [a; i].
Proof.
  induction 1 as [|e es He _ IH]; intros H t; [reflexivity|]. change (runs no (e :: es) t) with (runs no es (wr no e t)).
  rewrite IH by (intros e' He'; apply H; right; exact He').
  destruct e as [p q r s x|p r x]; [reflexivity|]. cbn [wr fst proper] in *. apply tput_other. intros E. injection E as -> ->.
  apply (H _ (or_introl eq_refl)). cbn [about1]. split; [lia|reflexivity].
Qed.

(** C38, amplitudes.  The doubles array is antisymmetric; all four index orders of an entry hold its value with the right
    sign (the last entry counts if there are several about the same orbitals); everything else is zero. *)
Theorem C38_amplitudes : forall fl no nv es file,
  amp_file fl es file -> Forall (proper no nv) es ->
  exists t1 t2, read_tamps fl no nv file = Some (t1, t2) /\
    is_amp 1 no nv t1 /\ is_amp 2 no nv t2 /\
    (forall p q r s x, last_about (about2 p q r s) (Double p q r s x) es ->
       data t2 [p - no; q - no; r; s]%nat = x /\ data t2 [q - no; p - no; r; s]%nat = (- x)%Qc /\
       data t2 [p - no; q - no; s; r]%nat = (- x)%Qc /\ data t2 [q - no; p - no; s; r]%nat = x) /\
    (forall a b i j, (forall e, In e es -> ~ about2 (no + a) (no + b) i j e) -> data t2 [a; b; i; j] = 0%Qc) /\
    (forall p r x, last_about (about1 p r) (Single p r x) es -> data t1 [p - no; r]%nat = x) /\
    (forall a i, (forall e, In e es -> ~ about1 (no + a) i e) -> data t1 [a; i] = 0%Qc).
Proof.
  intros fl no nv es file HF HP. rewrite (amp_file_ok fl no nv es file HF HP).
  set (z := (tzeros [nv; no], tzeros [nv; nv; no; no])). change (fold_left (fun t e => wr no e t) es z) with (runs no es z).
  assert (SZ : sized no nv z) by (split; reflexivity).
  assert (AZ : anti4 (snd z)) by (intros a b i j; cbn; split; apply Qc_is_canon; reflexivity).
  exists (fst (runs no es z)), (snd (runs no es z)). split; [destruct (runs no es z); reflexivity|].
  destruct (runs_sized no nv es z SZ) as [S1 S2].
  split; [apply amp1, S1|]. split; [apply anti4_amp; [exact S2|apply (runs_anti no nv es HP), AZ]|]. split; [|split; [|split]].
  - intros p q r s x [bef [aft [-> [_ HA]]]]. apply Forall_app in HP. destruct HP as [_ HP]. inversion HP as [|? ? P0 PA]; subst.
    unfold runs. rewrite fold_left_app. cbn [fold_left]. set (t := fold_left _ bef z). fold (runs no aft (wr no (Double p q r s x) t)).
    cbn [proper] in P0. destruct P0 as [Q1 [Q2 [Q3 [Q4 [Q5 Q6]]]]].
    destruct (wr2_images (p - no) (q - no) r s x (snd t) ltac:(lia) ltac:(lia)) as [W1 [W2 [W3 W4]]].
    repeat split; (rewrite (runs_other2 no nv aft _ _ _ _ PA); [cbn [wr snd]; assumption|]);
      intros e He; specialize (HA e He); replace (no + (p - no))%nat with p by lia; replace (no + (q - no))%nat with q by lia;
      intros K; apply HA; destruct e; cbn [about2] in *; tauto.
  - intros a b i j H. rewrite (runs_other2 no nv es _ _ _ _ HP H). reflexivity.
  - intros p r x [bef [aft [-> [_ HA]]]]. apply Forall_app in HP. destruct HP as [_ HP]. inversion HP as [|? ? P0 PA]; subst.
    unfold runs. rewrite fold_left_app. cbn [fold_left]. set (t := fold_left _ bef z). fold (runs no aft (wr no (Single p r x) t)).
    cbn [proper] in P0. rewrite (runs_other1 no nv aft _ _ PA).
    + cbn [wr fst]. apply tput_same.
    + intros e He. replace (no + (p - no))%nat with p by lia. apply HA, He.
  - intros a i H. rewrite (runs_other1 no nv es _ _ HP H). reflexivity.
Qed.
Print Assumptions C38_amplitudes.

(** A concrete file: two doubles lines (one with the bar glued to the number, one with tabs) and a singles line. *)
Definition nl : string := String (ascii_of_nat 10) "".
Definition tab : string := String (ascii_of_nat 9) "".
Definition ex_fl (s : string) : option Qc :=
  if String.eqb s "0.5" then Some (Q2Qc (1 # 2)) else if String.eqb s "-2.5e-1" then Some (Q2Qc (-1 # 4))
  else if String.eqb s "7.0" then Some (Q2Qc 7) else None.
Definition ex_file : list string :=
  [("[ 1.0e-2 ]" ++ nl); ("+++++++++" ++ nl); ("2^ 3^ 1 0 |0.5" ++ nl); ("4^ 2^ 0 1" ++ tab ++ "| -2.5e-1" ++ nl); ("4^ 1 " ++ tab ++ "| 7.0" ++ nl)].
Definition ex_entries : list entry := [Double 2 3 1 0 (Q2Qc (1 # 2)); Double 4 2 0 1 (Q2Qc (-1 # 4)); Single 4 1 (Q2Qc 7)].
Ltac vis := split; [discriminate|cbn; unfold visible; cbn; repeat (split; try lia)].
Ltac bl := unfold is_blank; cbn; tauto.
Lemma ex_amp_file : amp_file ex_fl ex_entries ex_file.
Proof.
  exists [("[ 1.0e-2 ]" ++ nl)], ("+++++++++" ++ nl). eexists. split; [reflexivity|]. split; [repeat constructor|]. split; [reflexivity|].
  repeat constructor.
  - exists "0.5". split; [split; [vis|split; [cbn; repeat (split; [discriminate|]); exact I|reflexivity]]|]. right.
    change (operators_of (Double 2 3 1 0 (Q2Qc (1 # 2))) ++ [append "|" "0.5"])%list with ["2^"; "3^"; "1"; "0"; "|0.5"]. cbn [append nl]. 
    refine (sp_more "" "2^" " " _ _ I ltac:(vis) ltac:(bl) _).
    refine (sp_more "" "3^" " " _ _ I ltac:(vis) ltac:(bl) _).
    refine (sp_more "" "1" " " _ _ I ltac:(vis) ltac:(bl) _).
    refine (sp_more "" "0" " " _ _ I ltac:(vis) ltac:(bl) _).
    refine (sp_more "" "|0.5" (ascii_of_nat 10) "" _ I ltac:(vis) ltac:(bl) _).
    apply sp_end. exact I.
  - exists "-2.5e-1". split; [split; [vis|split; [cbn; repeat (split; [discriminate|]); exact I|reflexivity]]|]. left.
    change (operators_of (Double 4 2 0 1 (Q2Qc (-1 # 4))) ++ ["|"; "-2.5e-1"])%list with ["4^"; "2^"; "0"; "1"; "|"; "-2.5e-1"].
    refine (sp_more "" "4^" " " _ _ I ltac:(vis) ltac:(bl) _).
    refine (sp_more "" "2^" " " _ _ I ltac:(vis) ltac:(bl) _).
    refine (sp_more "" "0" " " _ _ I ltac:(vis) ltac:(bl) _).
    refine (sp_more "" "1" (ascii_of_nat 9) _ _ I ltac:(vis) ltac:(bl) _).
    refine (sp_more "" "|" " " _ _ I ltac:(vis) ltac:(bl) _).
    refine (sp_more "" "-2.5e-1" (ascii_of_nat 10) "" _ I ltac:(vis) ltac:(bl) _).
    apply sp_end. exact I.
  - exists "7.0". split; [split; [vis|split; [cbn; repeat (split; [discriminate|]); exact I|reflexivity]]|]. left.
    change (operators_of (Single 4 1 (Q2Qc 7)) ++ ["|"; "7.0"])%list with ["4^"; "1"; "|"; "7.0"].
    refine (sp_more "" "4^" " " _ _ I ltac:(vis) ltac:(bl) _).
    refine (sp_more "" "1" " " _ _ I ltac:(vis) ltac:(bl) _).
    refine (sp_more (tab) "|" " " _ _ _ ltac:(vis) ltac:(bl) _); [unfold tab, is_blank; cbn; tauto|].
    refine (sp_more "" "7.0" (ascii_of_nat 10) "" _ I ltac:(vis) ltac:(bl) _).
    apply sp_end. exact I.
Qed.
Lemma ex_proper : Forall (proper 2 3) ex_entries.
Proof. repeat constructor; cbn; lia. Qed.
Example C38_amplitudes_instance := C38_amplitudes ex_fl 2 3 ex_entries ex_file ex_amp_file ex_proper.

(** ** Entries the format does not forbid *)
(** C38, refuted without the hypothesis that the orbitals of an entry are distinct: a doubles entry with a repeated virtual
    orbital, which should count as zero, leaves an array that is not antisymmetric. *)
Theorem C38_repeated_orbital_refuted : forall fl no nv p r s x line,
  (no <= p < no + nv)%nat -> (r < no)%nat -> (s < no)%nat -> r <> s -> x <> 0%Qc -> amp_text fl (Double p p r s x) line ->
  exists t1 t2, read_tamps fl no nv ["+++++"; line] = Some (t1, t2) /\
    data t2 [p - no; p - no; r; s]%nat = (- x)%Qc /\ ~ antisymmetric 2 t2.
Proof.
  intros fl no nv p r s x line P1 P3 P4 P6 HX [txt [[[W1 W2] [NB F]] H]].
  set (e := Double p p r s x).
  assert (X : exists w q, split line = (operators_of e ++ q ++ [w])%list /\ strip_c "|" w = txt /\
            (exists r', (map Some q ++ [Some "|"; None])%list = Some "|" :: r')).
  { destruct H as [H|H]; apply split_spaced in H.
    - exists txt, ["|"]. split; [exact H|]. split; [apply strip_off, off_eqb, NB|]. eexists. reflexivity.
    - exists ("|" ++ txt), []. split; [exact H|]. split; [|eexists; reflexivity].
      apply (strip_start (Ascii.eqb "|") "|" txt); [apply off_eqb, NB|reflexivity]. }
  destruct X as [w [q [E [EW [r' ER]]]]].
  set (a := (p - no)%nat). set (z := tzeros [nv; nv; no; no]).
  assert (A : (a < nv)%nat) by (unfold a; lia).
  exists (tzeros [nv; no]), (wr2 a a r s x z). split; [|split].
  - unfold read_tamps. cbn [amp_lines obind orb prefix]. cbn [prefix "&&" "||"].
    unfold amp_line. rewrite E, app_assoc, last_of_app. cbn [obind]. rewrite EW. cbn [value_of] in F. rewrite F. cbn [obind].
    rewrite removelast_app1, map_app, <- app_assoc, ER, (operators_entry tt e r' eq_refl). cbn [obind e fst snd].
    replace (Z.of_nat p - Z.of_nat no)%Z with (Z.of_nat a) by (unfold a; lia). fold z.
    rewrite !(put4 _ nv no) by (assumption || reflexivity). cbn [obind].
    rewrite !(put4 _ nv no) by (assumption || reflexivity). cbn [obind].
    rewrite !(put4 _ nv no) by (assumption || reflexivity). cbn [obind].
    rewrite !(put4 _ nv no) by (assumption || reflexivity). reflexivity.
  - assert (V : data (wr2 a a r s x z) [a; a; r; s] = (- x)%Qc).
    { unfold wr2. rewrite <- (m1 x). rewrite !tput_other by congruence. apply tput_same. }
    exact V.
  - assert (V : data (wr2 a a r s x z) [a; a; r; s] = (- x)%Qc).
    { unfold wr2. rewrite <- (m1 x). rewrite !tput_other by congruence. apply tput_same. }
    intros K. destruct (K 0%nat ltac:(lia)) as [K1 _]. specialize (K1 [] a a [r; s] eq_refl). cbn [app] in K1.
    assert (I1 : inr [a; a; r; s] (shape (wr2 a a r s x z))) by (repeat constructor; assumption).
    specialize (K1 I1 I1). rewrite V in K1. apply HX. apply Qc_self_opp in K1. rewrite <- (Qcopp_involutive x), K1. reflexivity.
Qed.
Print Assumptions C38_repeated_orbital_refuted.

(** C38: indices are not checked.  A line that has an occupied orbital p where a virtual one belongs is not rejected (if p is
    not too small): it is read as if it said p + (number of virtual orbitals), because negative indices count from the end. *)
Lemma np_index_wrap n z : (- Z.of_nat n <= z < 0)%Z -> np_index n z = np_index n (z + Z.of_nat n).
Proof.
  intros H. unfold np_index.
  replace (Z.leb 0 z && Z.ltb z (Z.of_nat n))%bool with false by (symmetry; apply andb_false_iff; left; apply Z.leb_gt; lia).
  replace (Z.leb (- Z.of_nat n) z && Z.ltb z 0)%bool with true by (symmetry; apply andb_true_iff; split; [apply Z.leb_le|apply Z.ltb_lt]; lia).
  replace (Z.leb 0 (z + Z.of_nat n) && Z.ltb (z + Z.of_nat n) (Z.of_nat n))%bool with true
    by (symmetry; apply andb_true_iff; split; [apply Z.leb_le|apply Z.ltb_lt]; lia). reflexivity.
Qed.
Theorem C38_occupied_in_virtual_place_refuted : forall fl no nv p q r s x line line',
  (p < no)%nat -> (no <= p + nv)%nat -> proper no nv (Double (p + nv) q r s x) ->
  amp_text fl (Double p q r s x) line -> amp_text fl (Double (p + nv) q r s x) line' ->
  exists t1 t2, read_tamps fl no nv ["+++++"; line] = Some (t1, t2) /\ read_tamps fl no nv ["+++++"; line'] = Some (t1, t2) /\
    data t2 [p + nv - no; q - no; r; s]%nat = x.
Proof.
  intros fl no nv p q r s x line line' Hp Hn HP H H'.
  assert (H2 : read_tamps fl no nv ["+++++"; line'] =
     Some (wr no (Double (p + nv) q r s x) (tzeros [nv; no], tzeros [nv; nv; no; no]))).
  { unfold read_tamps. cbn [amp_lines obind orb prefix]. rewrite (amp_line_ok fl no nv (Double (p + nv) q r s x)) by (assumption || (split; reflexivity)). reflexivity. }
  eexists _, _. split; [|split; [exact H2|]].
  - destruct H as [txt [[[W1 W2] [NB F]] H]]. set (e := Double p q r s x) in *.
    assert (X : exists w z, split line = (operators_of e ++ z ++ [w])%list /\ strip_c "|" w = txt /\
            (exists r', (map Some z ++ [Some "|"; None])%list = Some "|" :: r')).
    { destruct H as [H|H]; apply split_spaced in H.
      - exists txt, ["|"]. split; [exact H|]. split; [apply strip_off, off_eqb, NB|]. eexists. reflexivity.
      - exists ("|" ++ txt), []. split; [exact H|]. split; [|eexists; reflexivity].
        apply (strip_start (Ascii.eqb "|") "|" txt); [apply off_eqb, NB|reflexivity]. }
    destruct X as [w [z [E [EW [r' ER]]]]]. destruct HP as [P1 [P2 [P3 [P4 [P5 P6]]]]].
    unfold read_tamps. cbn [amp_lines obind orb prefix].
    unfold amp_line. rewrite E, app_assoc, last_of_app. cbn [obind]. rewrite EW. cbn [value_of e] in F. rewrite F. cbn [obind].
    rewrite removelast_app1, map_app, <- app_assoc, ER, (operators_entry tt e r' eq_refl). cbn [obind e fst snd wr].
    set (a := (p + nv - no)%nat). set (b := (q - no)%nat).
    replace (Z.of_nat q - Z.of_nat no)%Z with (Z.of_nat b) by (unfold b; lia).
    assert (A : (a < nv)%nat) by (unfold a; lia). assert (B : (b < nv)%nat) by (unfold b; lia).
    assert (PA : forall y t i, shape t = [nv; nv; no; no] -> (i < no)%nat -> forall j, (j < no)%nat ->
      put [(Z.of_nat p - Z.of_nat no)%Z; Z.of_nat b; Z.of_nat i; Z.of_nat j] y t = Some (tput [a; b; i; j] y t)).
    { intros y t i Sh Hi j Hj. rewrite <- (put4 t nv no a b i j y Sh A B Hi Hj). unfold put. rewrite Sh. cbn [np_indices].
      rewrite (np_index_wrap nv) by lia. replace (Z.of_nat p - Z.of_nat no + Z.of_nat nv)%Z with (Z.of_nat a) by (unfold a; lia). reflexivity. }
    assert (PB : forall y t i, shape t = [nv; nv; no; no] -> (i < no)%nat -> forall j, (j < no)%nat ->
      put [Z.of_nat b; (Z.of_nat p - Z.of_nat no)%Z; Z.of_nat i; Z.of_nat j] y t = Some (tput [b; a; i; j] y t)).
    { intros y t i Sh Hi j Hj. rewrite <- (put4 t nv no b a i j y Sh B A Hi Hj). unfold put. rewrite Sh. cbn [np_indices].
      rewrite (np_index_wrap nv (Z.of_nat p - Z.of_nat no)) by lia.
      replace (Z.of_nat p - Z.of_nat no + Z.of_nat nv)%Z with (Z.of_nat a) by (unfold a; lia). reflexivity. }
    rewrite PA by (assumption || reflexivity). cbn [obind]. rewrite PB by (assumption || reflexivity). cbn [obind].
    rewrite PA by (assumption || reflexivity). cbn [obind]. rewrite PB by (assumption || reflexivity). reflexivity.
  - cbn [wr snd]. destruct HP as [P1 [P2 [P3 [P4 [P5 P6]]]]]. apply wr2_images; lia.
Qed.
Print Assumptions C38_occupied_in_virtual_place_refuted.
Example C38_repeated_instance : exists line, amp_text ex_fl (Double 2 2 1 0 (Q2Qc (1 # 2))) line.
Proof.
  exists "2^ 2^ 1 0 |0.5", "0.5". split; [split; [vis|split; [cbn; repeat (split; [discriminate|]); exact I|reflexivity]]|]. right.
  change (operators_of (Double 2 2 1 0 (Q2Qc (1 # 2))) ++ [append "|" "0.5"])%list with ["2^"; "2^"; "1"; "0"; "|0.5"].
  refine (sp_more "" "2^" " " _ _ I ltac:(vis) ltac:(bl) _). refine (sp_more "" "2^" " " _ _ I ltac:(vis) ltac:(bl) _).
  refine (sp_more "" "1" " " _ _ I ltac:(vis) ltac:(bl) _). refine (sp_more "" "0" " " _ _ I ltac:(vis) ltac:(bl) _).
  refine (sp_last "" "|0.5" I ltac:(vis)).
Qed.
Example C38_occupied_instance : exists line line',
  amp_text ex_fl (Double 1 2 1 0 (Q2Qc (1 # 2))) line /\ amp_text ex_fl (Double (1 + 3) 2 1 0 (Q2Qc (1 # 2))) line' /\
  proper 2 3 (Double (1 + 3) 2 1 0 (Q2Qc (1 # 2))).
Proof.
  exists "1^ 2^ 1 0 |0.5", "4^ 2^ 1 0 |0.5". split; [|split; [|cbn; lia]];
  (exists "0.5"; split; [split; [vis|split; [cbn; repeat (split; [discriminate|]); exact I|reflexivity]]|]; right).
  - change (operators_of (Double 1 2 1 0 (Q2Qc (1 # 2))) ++ [append "|" "0.5"])%list with ["1^"; "2^"; "1"; "0"; "|0.5"].
    refine (sp_more "" "1^" " " _ _ I ltac:(vis) ltac:(bl) _). refine (sp_more "" "2^" " " _ _ I ltac:(vis) ltac:(bl) _).
    refine (sp_more "" "1" " " _ _ I ltac:(vis) ltac:(bl) _). refine (sp_more "" "0" " " _ _ I ltac:(vis) ltac:(bl) _).
    refine (sp_last "" "|0.5" I ltac:(vis)).
  - change (operators_of (Double (1 + 3) 2 1 0 (Q2Qc (1 # 2))) ++ [append "|" "0.5"])%list with ["4^"; "2^"; "1"; "0"; "|0.5"].
    refine (sp_more "" "4^" " " _ _ I ltac:(vis) ltac:(bl) _). refine (sp_more "" "2^" " " _ _ I ltac:(vis) ltac:(bl) _).
    refine (sp_more "" "1" " " _ _ I ltac:(vis) ltac:(bl) _). refine (sp_more "" "0" " " _ _ I ltac:(vis) ltac:(bl) _).
    refine (sp_last "" "|0.5" I ltac:(vis)).
Qed.

(** ** Integrals *)
Definition wri (e : integral) (g : tensor) : tensor := tput (int_at e) (Q2Qc 4 * i_x e)%Qc g.
Definition int_ok (N : nat) (e : integral) : Prop := (i_p e < N /\ i_q e < N /\ i_r e < N /\ i_s e < N)%nat.
Lemma tei_line_ok fl N e line g : int_text fl e line -> int_ok N e -> shape g = [N; N; N; N] ->
  tei_line fl line g = Some (wri e g).
Proof.
  intros [txt [[_ [_ F]] H]] [A [B [C D]]] Sh. apply split_spaced in H. unfold tei_line. rewrite H.
  change [dec (i_p e) ++ "^"; dec (i_q e) ++ "^"; dec (i_r e); dec (i_s e); "|"; txt]
    with (app [dec (i_p e) ++ "^"; dec (i_q e) ++ "^"; dec (i_r e); dec (i_s e); "|"] [txt]) at 1.
  rewrite last_of_app. cbn [obind]. rewrite F. cbn [obind].
  pose proof (operators_entry tt (Double (i_p e) (i_q e) (i_r e) (i_s e) (i_x e)) [Some txt] eq_refl) as O.
  cbn [operators_of map app] in O. cbn [map]. rewrite O. cbn [obind]. apply (put4 g N N); assumption.
Qed.
Definition runi (es : list integral) (g : tensor) : tensor := fold_left (fun g e => wri e g) es g.
Lemma tei_file_ok fl N es file : int_file fl es file -> Forall (int_ok N) es -> forall g, shape g = [N; N; N; N] ->
  tei_lines fl file g = Some (runi es g).
Proof.
  induction 1 as [|e l es file He _ IH]; intros HP g Sh; [reflexivity|]. inversion HP; subst. cbn [tei_lines].
  rewrite (tei_line_ok fl N e l g) by assumption. cbn [obind]. apply IH; [assumption|exact Sh].
Qed.
Lemma runi_shape es : forall g, shape (runi es g) = shape g.
Proof. induction es as [|e es IH]; intros g; [reflexivity|]. apply (IH (wri e g)). Qed.
Lemma runi_other es idx : (forall e, In e es -> int_at e <> idx) -> forall g, data (runi es g) idx = data g idx.
Proof.
  induction es as [|e es IH]; intros H g; [reflexivity|]. change (runi (e :: es) g) with (runi es (wri e g)).
  rewrite IH by (intros e' He'; apply H; right; exact He'). apply tput_other. intros E. exact (H e (or_introl eq_refl) (eq_sym E)).
Qed.

(** C38, integrals.  The array holds four times the value of the (last) entry at the four indices of the entry, in the order of
    the file, and zero where the file has no entry.  (No permutational images are filled in.) *)
Theorem C38_integrals : forall fl N es file,
  int_file fl es file -> Forall (int_ok N) es ->
  exists g, read_tei fl N file = Some g /\ shape g = [N; N; N; N] /\
    (forall e, last_about (fun e' => int_at e' = int_at e) e es -> data g (int_at e) = Q2Qc 4 * i_x e)%Qc /\
    (forall idx, (forall e, In e es -> int_at e <> idx) -> data g idx = 0%Qc).
Proof.
  intros fl N es file HF HP. unfold read_tei. exists (runi es (tzeros [N; N; N; N])). split; [|split; [|split]].
  - apply (tei_file_ok fl N es file HF HP). reflexivity.
  - rewrite runi_shape. reflexivity.
  - intros e [bef [aft [-> [_ HA]]]]. unfold runi. rewrite fold_left_app. cbn [fold_left].
    set (t := fold_left _ bef _). fold (runi aft (wri e t)). rewrite (runi_other aft _ HA). apply tput_same.
  - intros idx H. rewrite (runi_other es idx H). reflexivity.
Qed.
Print Assumptions C38_integrals.

(** ** Sums over arrays that were written to *)
Open Scope Qc_scope.
Definition sum4 (n1 n2 n3 n4 : nat) (F : nat -> nat -> nat -> nat -> Qc) : Qc :=
  Sum a < n1, Sum b < n2, Sum i < n3, Sum j < n4, F a b i j.
Lemma sum4_ext n1 n2 n3 n4 F G : (forall a b i j, F a b i j = G a b i j) -> sum4 n1 n2 n3 n4 F = sum4 n1 n2 n3 n4 G.
Proof. intros H. apply suml_ext; intros a _. apply suml_ext; intros b _. apply suml_ext; intros i _. apply suml_ext; intros j _. apply H. Qed.
Lemma sum4_plus n1 n2 n3 n4 F G : sum4 n1 n2 n3 n4 (fun a b i j => F a b i j + G a b i j) = sum4 n1 n2 n3 n4 F + sum4 n1 n2 n3 n4 G.
Proof.
  unfold sum4. rewrite <- suml_plus. apply suml_ext; intros a _. rewrite <- suml_plus. apply suml_ext; intros b _.
  rewrite <- suml_plus. apply suml_ext; intros i _. apply suml_plus.
Qed.
Lemma sum4_opp n1 n2 n3 n4 F : sum4 n1 n2 n3 n4 (fun a b i j => - F a b i j) = - sum4 n1 n2 n3 n4 F.
Proof.
  unfold sum4. rewrite <- suml_opp. apply suml_ext; intros a _. rewrite <- suml_opp. apply suml_ext; intros b _.
  rewrite <- suml_opp. apply suml_ext; intros i _. apply suml_opp.
Qed.
Lemma sum4_one n1 n2 n3 n4 p q r s F : (p < n1)%nat -> (q < n2)%nat -> (r < n3)%nat -> (s < n4)%nat ->
  (forall a b i j, [a; b; i; j] <> [p; q; r; s] -> F a b i j = 0) -> sum4 n1 n2 n3 n4 F = F p q r s.
Proof.
  intros Hp Hq Hr Hs H. unfold sum4.
  rewrite (suml_seq_delta n1 p); [|exact Hp|].
  rewrite (suml_seq_delta n2 q); [|exact Hq|].
  rewrite (suml_seq_delta n3 r); [|exact Hr|].
  apply (suml_seq_delta n4 s (fun j => F p q r j) Hs).
  - intros j Hj. apply H. congruence.
  - intros i Hi. apply suml_zero. intros j _. apply H. congruence.
  - intros b Hb. apply suml_zero. intros i _. apply suml_zero. intros j _. apply H. congruence.
  - intros a Ha. apply suml_zero. intros b _. apply suml_zero. intros i _. apply suml_zero. intros j _. apply H. congruence.
Qed.
Lemma sum4_tput n1 n2 n3 n4 p q r s x t F : (p < n1)%nat -> (q < n2)%nat -> (r < n3)%nat -> (s < n4)%nat ->
  sum4 n1 n2 n3 n4 (fun a b i j => data (tput [p; q; r; s] x t) [a; b; i; j] * F a b i j) =
  sum4 n1 n2 n3 n4 (fun a b i j => data t [a; b; i; j] * F a b i j) + (x - data t [p; q; r; s]) * F p q r s.
Proof.
  intros Hp Hq Hr Hs.
  rewrite (sum4_ext _ _ _ _ _ (fun a b i j => data t [a; b; i; j] * F a b i j +
    (data (tput [p; q; r; s] x t) [a; b; i; j] - data t [a; b; i; j]) * F a b i j)) by (intros; ring).
  rewrite sum4_plus. f_equal.
  rewrite (sum4_one n1 n2 n3 n4 p q r s) by (try assumption; intros a b i j E; rewrite (tput_other _ _ _ _ E); ring).
  rewrite tput_same. reflexivity.
Qed.

Lemma sum4_zero n1 n2 n3 n4 sh F : sum4 n1 n2 n3 n4 (fun a b i j => data (tzeros sh) [a; b; i; j] * F a b i j) = 0.
Proof.
  apply suml_zero. intros a _. apply suml_zero. intros b _. apply suml_zero. intros i _. apply suml_zero. intros j _.
  cbn [data tzeros]. ring.
Qed.

(** ** The operators *)
Lemma ann_ann n r s psi : ann r (ann s psi) n = - ann s (ann r psi) n.
Proof.
  pose proof (anticommutator false false n r s psi) as H. cbn [xorb andb] in H.
  change (ann r (ann s psi) n + ann s (ann r psi) n = 0) in H.
  transitivity (ann r (ann s psi) n + ann s (ann r psi) n - ann s (ann r psi) n); [ring|rewrite H; ring].
Qed.
Lemma cre_cre n p q psi : cre p (cre q psi) n = - cre q (cre p psi) n.
Proof.
  pose proof (anticommutator true true n p q psi) as H. cbn [xorb andb] in H.
  change (cre p (cre q psi) n + cre q (cre p psi) n = 0) in H.
  transitivity (cre p (cre q psi) n + cre q (cre p psi) n - cre q (cre p psi) n); [ring|rewrite H; ring].
Qed.
Lemma cre_opp n p (psi phi : ket) : (forall m, psi m = - phi m) -> cre p psi n = - cre p phi n.
Proof.
  intros H. unfold cre. rewrite (ferm_ext true n p psi (fun m => - (1) * phi m)) by (intros m; rewrite H; ring).
  rewrite ferm_scale. ring.
Qed.
Lemma op4_rs n p q r s psi : cre p (cre q (ann r (ann s psi))) n = - cre p (cre q (ann s (ann r psi))) n.
Proof. apply cre_opp. intros m. apply cre_opp. intros k. apply ann_ann. Qed.
Lemma op4_pq n p q r s psi : cre p (cre q (ann r (ann s psi))) n = - cre q (cre p (ann r (ann s psi))) n.
Proof. apply cre_cre. Qed.

Lemma runi_sum N es F : Forall (int_ok N) es -> NoDup (map int_at es) -> forall g, (forall e, In e es -> data g (int_at e) = 0) ->
  sum4 N N N N (fun p q r s => data (runi es g) [p; q; r; s] * F p q r s) =
  sum4 N N N N (fun p q r s => data g [p; q; r; s] * F p q r s) + suml es (fun e => Q2Qc 4 * i_x e * F (i_p e) (i_q e) (i_r e) (i_s e)).
Proof.
  induction 1 as [|e es He _ IH]; intros ND g Hg; cbn [suml].
  - change (runi [] g) with g. ring.
  - inversion ND as [|? ? N1 N2]; subst. change (runi (e :: es) g) with (runi es (wri e g)).
    rewrite (IH N2).
    + destruct He as [A [B [C D]]]. unfold wri. unfold int_at at 1.
      rewrite (sum4_tput N N N N (i_p e) (i_q e) (i_r e) (i_s e)) by assumption.
      specialize (Hg e (or_introl eq_refl)). unfold int_at in Hg. rewrite Hg. ring.
    + intros e' He'. unfold wri. rewrite tput_other; [apply Hg; right; exact He'|].
      intros E. apply N1. rewrite <- E. apply (in_map int_at), He'.
Qed.
(** C38, the sign of the integrals (found wrong): read as operators, the lines of a file without repetitions add up to MINUS the
    two-electron Hamiltonian of the array: in `p^ q^ r s` the annihilation operators stand in the opposite order from
    1/4 sum <pq||rs> p^ q^ s r. *)
Theorem C38_integral_sign_refuted : forall fl N es file,
  int_file fl es file -> Forall (int_ok N) es -> NoDup (map int_at es) ->
  exists g, read_tei fl N file = Some g /\ forall psi n, integral_op es psi n = - two_electron N g psi n.
Proof.
  intros fl N es file HF HP ND. unfold read_tei. exists (runi es (tzeros [N; N; N; N])). split.
  - apply (tei_file_ok fl N es file HF HP). reflexivity.
  - intros psi n. unfold two_electron, integral_op.
    change (Sum p < N, Sum q < N, Sum r < N, Sum s < N,
      data (runi es (tzeros [N; N; N; N])) [p; q; r; s] * cre p (cre q (ann s (ann r psi))) n)
      with (sum4 N N N N (fun p q r s => data (runi es (tzeros [N; N; N; N])) [p; q; r; s] * cre p (cre q (ann s (ann r psi))) n)).
    rewrite (runi_sum N es _ HP ND (tzeros [N; N; N; N])) by reflexivity.
    rewrite sum4_zero, Qcplus_0_l, <- suml_scale, <- suml_opp. apply suml_ext. intros e _. rewrite op4_rs.
    replace (Q2Qc 4) with (Q2Qc (4 # 1)) by reflexivity.
    transitivity (- (Q2Qc (1 # 4) * Q2Qc (4 # 1)) * (i_x e * cre (i_p e) (cre (i_q e) (ann (i_s e) (ann (i_r e) psi))) n)); [|ring].
    rewrite <- Q2Qc_mult. replace (Q2Qc ((1 # 4) * (4 # 1))) with 1 by (apply Qc_is_canon; reflexivity). ring.
Qed.
Print Assumptions C38_integral_sign_refuted.

Lemma wr2_sum no nv a b i j x t F : (a < nv)%nat -> (b < nv)%nat -> (i < no)%nat -> (j < no)%nat -> a <> b -> i <> j ->
  (forall a b i j, F b a i j = - F a b i j) -> (forall a b i j, F a b j i = - F a b i j) ->
  anti4 t -> data t [a; b; i; j] = 0 ->
  sum4 nv nv no no (fun c d k l => data (wr2 a b i j x t) [c; d; k; l] * F c d k l) =
  sum4 nv nv no no (fun c d k l => data t [c; d; k; l] * F c d k l) + Q2Qc 4 * x * F a b i j.
Proof.
  intros A B C D Nab Nij F1 F2 AT Z.
  assert (Z1 : data t [b; a; i; j] = 0) by (rewrite (proj1 (AT b a i j)), Z; ring).
  assert (Z2 : data t [a; b; j; i] = 0) by (rewrite (proj2 (AT a b j i)), Z; ring).
  assert (Z3 : data t [b; a; j; i] = 0) by (rewrite (proj2 (AT b a j i)), Z1; ring).
  unfold wr2. rewrite !sum4_tput by assumption. rewrite !tput_other by congruence. rewrite Z, Z1, Z2, Z3.
  rewrite (F2 b a i j), (F1 a b i j), (F2 a b i j).
  replace (Q2Qc 4) with (1 + 1 + 1 + 1) by (apply Qc_is_canon; reflexivity). ring.
Qed.
Definition dbl (F : nat -> nat -> nat -> nat -> Qc) (no : nat) (e : entry) : Qc :=
  match e with Double p q r s x => x * F (p - no)%nat (q - no)%nat r s | Single _ _ _ => 0 end.
Definition fresh (no : nat) (t : tensor * tensor) (e : entry) : Prop :=
  match e with Double p q r s _ => data (snd t) [p - no; q - no; r; s]%nat = 0 | Single p r _ => data (fst t) [p - no; r]%nat = 0 end.
Lemma about2_sym p q r s p' q' r' s' x x' : about2 p q r s (Double p' q' r' s' x') -> about2 p' q' r' s' (Double p q r s x).
Proof. cbn. intuition congruence. Qed.
Lemma fresh_wr no nv e e' t : proper no nv e -> proper no nv e' -> ~ same_orbitals e e' -> fresh no t e' -> fresh no (wr no e t) e'.
Proof.
  intros P P' H Fr. destruct e as [p q r s x|p r x], e' as [p' q' r' s' x'|p' r' x']; cbn [fresh wr fst snd same_orbitals proper] in *; try exact Fr.
  - rewrite wr2_other; [exact Fr|]. intros K. apply H. cbn [about2]. destruct K as [K1 K2]. split.
    + destruct K1 as [[K1 K3]|[K1 K3]]; [left|right]; split; lia.
    + destruct K2 as [[K2 K4]|[K2 K4]]; [left|right]; split; congruence.
  - rewrite tput_other; [exact Fr|]. intros E. injection E as E1 E2. apply H. cbn [about1]. split; lia.
Qed.
Lemma runs_sum2 no nv es F : (forall a b i j, F b a i j = - F a b i j) -> (forall a b i j, F a b j i = - F a b i j) ->
  Forall (proper no nv) es -> ForallOrdPairs (fun e e' => ~ same_orbitals e e') es ->
  forall t, anti4 (snd t) -> (forall e, In e es -> fresh no t e) ->
  sum4 nv nv no no (fun c d k l => data (snd (runs no es t)) [c; d; k; l] * F c d k l) =
  sum4 nv nv no no (fun c d k l => data (snd t) [c; d; k; l] * F c d k l) + Q2Qc 4 * suml es (dbl F no).
Proof.
  intros F1 F2. induction es as [|e es IH]; intros HP HD t AT Hf; cbn [suml].
  - change (runs no [] t) with t. ring.
  - change (runs no (e :: es) t) with (runs no es (wr no e t)).
    inversion HP as [|? ? P0 PR]; subst. inversion HD as [|? ? D0 DR]; subst.
    rewrite (IH PR DR).
    + destruct e as [p q r s x|p r x]; cbn [wr snd dbl]; [|ring]. cbn [proper] in P0.
      rewrite (wr2_sum no nv) by (try assumption; try lia; exact (Hf _ (or_introl eq_refl))). ring.
    + destruct e as [p q r s x|p r x]; [|exact AT]. cbn [proper wr snd] in *. apply wr2_anti; [lia|lia|exact AT].
    + intros e' He'. apply (fresh_wr no nv); [exact P0| | |apply Hf; right; exact He'].
      * rewrite Forall_forall in PR. apply PR, He'.
      * rewrite Forall_forall in D0. apply D0, He'.
Qed.
Definition sum2 (n m : nat) (F : nat -> nat -> Qc) : Qc := Sum a < n, Sum i < m, F a i.
Lemma sum2_tput n m p r x t F : (p < n)%nat -> (r < m)%nat ->
  sum2 n m (fun a i => data (tput [p; r] x t) [a; i] * F a i) = sum2 n m (fun a i => data t [a; i] * F a i) + (x - data t [p; r]) * F p r.
Proof.
  intros Hp Hr. transitivity (sum2 n m (fun a i => data t [a; i] * F a i + (data (tput [p; r] x t) [a; i] - data t [a; i]) * F a i)).
  { apply suml_ext; intros a _. apply suml_ext; intros i _. ring. }
  unfold sum2. rewrite <- (suml_ext _ _ (fun a => (Sum i < m, data t [a; i] * F a i) + (Sum i < m, (data (tput [p; r] x t) [a; i] - data t [a; i]) * F a i)))
    by (intros a _; rewrite <- suml_plus; reflexivity).
  rewrite suml_plus. f_equal. rewrite (suml_seq_delta n p); [|exact Hp|].
  - rewrite (suml_seq_delta m r); [rewrite tput_same; reflexivity|exact Hr|].
    intros i Hi. rewrite tput_other by congruence. ring.
  - intros a Ha. apply suml_zero. intros i _. rewrite tput_other by congruence. ring.
Qed.
Definition sgl (F : nat -> nat -> Qc) (no : nat) (e : entry) : Qc :=
  match e with Single p r x => x * F (p - no)%nat r | Double _ _ _ _ _ => 0 end.
Lemma runs_sum1 no nv es F : Forall (proper no nv) es -> ForallOrdPairs (fun e e' => ~ same_orbitals e e') es ->
  forall t, (forall e, In e es -> fresh no t e) ->
  sum2 nv no (fun a i => data (fst (runs no es t)) [a; i] * F a i) = sum2 nv no (fun a i => data (fst t) [a; i] * F a i) + suml es (sgl F no).
Proof.
  induction es as [|e es IH]; intros HP HD t Hf; cbn [suml].
  - change (runs no [] t) with t. ring.
  - change (runs no (e :: es) t) with (runs no es (wr no e t)).
    inversion HP as [|? ? P0 PR]; subst. inversion HD as [|? ? D0 DR]; subst.
    rewrite (IH PR DR).
    + destruct e as [p q r s x|p r x]; cbn [wr fst sgl]; [ring|]. cbn [proper] in P0.
      rewrite (sum2_tput nv no) by lia. pose proof (Hf _ (or_introl eq_refl)) as Z. cbn [fresh] in Z. rewrite Z. ring.
    + intros e' He'. apply (fresh_wr no nv); [exact P0| | |apply Hf; right; exact He'].
      * rewrite Forall_forall in PR. apply PR, He'.
      * rewrite Forall_forall in D0. apply D0, He'.
Qed.

(** C38, the sign of the doubles (found wrong): read as operators, the lines of a file without repetitions add up to
    T1 - T2, with T1 and T2 the cluster operators of the arrays: singles keep their sign, doubles change it. *)
Theorem C38_doubles_sign_refuted : forall fl no nv es file,
  amp_file fl es file -> Forall (proper no nv) es -> ForallOrdPairs (fun e e' => ~ same_orbitals e e') es ->
  exists t1 t2, read_tamps fl no nv file = Some (t1, t2) /\
    forall psi n, file_op es psi n = T1op no nv t1 psi n - T2op no nv t2 psi n.
Proof.
  intros fl no nv es file HF HP HD. rewrite (amp_file_ok fl no nv es file HF HP).
  set (z := (tzeros [nv; no], tzeros [nv; nv; no; no])). change (fold_left (fun t e => wr no e t) es z) with (runs no es z).
  assert (AZ : anti4 (snd z)) by (intros a b i j; cbn; split; apply Qc_is_canon; reflexivity).
  assert (FZ : forall e, In e es -> fresh no z e) by (intros e _; destruct e; reflexivity).
  exists (fst (runs no es z)), (snd (runs no es z)). split; [destruct (runs no es z); reflexivity|]. intros psi n.
  unfold T1op, T2op.
  change (Sum a < nv, Sum i < no, data (fst (runs no es z)) [a; i] * cre (no + a) (ann i psi) n)
    with (sum2 nv no (fun a i => data (fst (runs no es z)) [a; i] * cre (no + a) (ann i psi) n)).
  change (Sum a < nv, Sum b < nv, Sum i < no, Sum j < no, data (snd (runs no es z)) [a; b; i; j] * cre (no + a) (cre (no + b) (ann j (ann i psi))) n)
    with (sum4 nv nv no no (fun a b i j => data (snd (runs no es z)) [a; b; i; j] * cre (no + a) (cre (no + b) (ann j (ann i psi))) n)).
  rewrite (runs_sum1 no nv es _ HP HD z FZ).
  rewrite (runs_sum2 no nv es (fun a b i j => cre (no + a) (cre (no + b) (ann j (ann i psi))) n)); try assumption.
  2:{ intros a b i j. apply op4_pq. }
  2:{ intros a b i j. apply op4_rs. }
  cbn [snd z]. rewrite sum4_zero. unfold sum2. cbn [fst z].
  rewrite (suml_zero _ (seq 0 nv)) by (intros a _; apply suml_zero; intros i _; cbn [data tzeros]; ring).
  rewrite !Qcplus_0_l, Qcmult_assoc. replace (Q2Qc (1 # 4) * Q2Qc 4) with 1 by (apply Qc_is_canon; reflexivity). rewrite Qcmult_1_l.
  unfold file_op, Qcminus. rewrite <- suml_opp, <- suml_plus. apply suml_ext. intros e He.
  rewrite Forall_forall in HP. specialize (HP e He).
  destruct e as [p q r s x|p r x]; cbn [entry_op sgl dbl proper] in *.
  - replace (no + (p - no))%nat with p by lia. replace (no + (q - no))%nat with q by lia. rewrite op4_rs. ring.
  - replace (no + (p - no))%nat with p by lia. ring.
Qed.
Print Assumptions C38_doubles_sign_refuted.
Lemma ex_distinct : ForallOrdPairs (fun e e' => ~ same_orbitals e e') ex_entries.
Proof. repeat constructor; cbn; intuition congruence. Qed.
Example C38_doubles_sign_instance := C38_doubles_sign_refuted ex_fl 2 3 ex_entries ex_file ex_amp_file ex_proper ex_distinct.
Definition ex_ints : list integral := [Int 0 2 0 2 (Q2Qc (-1 # 4)); Int 0 2 2 0 (Q2Qc (1 # 2))].
Definition ex_int_file : list string := [("0^ 2^ 0 2" ++ tab ++ "|" ++ tab ++ "-2.5e-1" ++ nl)%string; ("0^ 2^ 2 0" ++ tab ++ "|" ++ tab ++ "0.5" ++ nl)%string].
Lemma ex_int_file_ok : int_file ex_fl ex_ints ex_int_file.
Proof.
  repeat constructor.
  - exists "-2.5e-1"%string. split; [split; [vis|split; [cbn; repeat (split; [discriminate|]); exact I|reflexivity]]|].
    change (spaced ("0^ 2^ 0 2" ++ tab ++ "|" ++ tab ++ "-2.5e-1" ++ nl) ["0^"; "2^"; "0"; "2"; "|"; "-2.5e-1"])%string.
    refine (sp_more "" "0^" " " _ _ I ltac:(vis) ltac:(bl) _). refine (sp_more "" "2^" " " _ _ I ltac:(vis) ltac:(bl) _).
    refine (sp_more "" "0" " " _ _ I ltac:(vis) ltac:(bl) _). refine (sp_more "" "2" (ascii_of_nat 9) _ _ I ltac:(vis) ltac:(bl) _).
    refine (sp_more "" "|" (ascii_of_nat 9) _ _ I ltac:(vis) ltac:(bl) _).
    refine (sp_more "" "-2.5e-1" (ascii_of_nat 10) "" _ I ltac:(vis) ltac:(bl) _). apply sp_end. exact I.
  - exists "0.5"%string. split; [split; [vis|split; [cbn; repeat (split; [discriminate|]); exact I|reflexivity]]|].
    change (spaced ("0^ 2^ 2 0" ++ tab ++ "|" ++ tab ++ "0.5" ++ nl) ["0^"; "2^"; "2"; "0"; "|"; "0.5"])%string.
    refine (sp_more "" "0^" " " _ _ I ltac:(vis) ltac:(bl) _). refine (sp_more "" "2^" " " _ _ I ltac:(vis) ltac:(bl) _).
    refine (sp_more "" "2" " " _ _ I ltac:(vis) ltac:(bl) _). refine (sp_more "" "0" (ascii_of_nat 9) _ _ I ltac:(vis) ltac:(bl) _).
    refine (sp_more "" "|" (ascii_of_nat 9) _ _ I ltac:(vis) ltac:(bl) _).
    refine (sp_more "" "0.5" (ascii_of_nat 10) "" _ I ltac:(vis) ltac:(bl) _). apply sp_end. exact I.
Qed.
Lemma ex_ints_ok : Forall (int_ok 5) ex_ints. Proof. repeat constructor. Qed.
Example C38_integrals_instance := C38_integrals ex_fl 5 ex_ints ex_int_file ex_int_file_ok ex_ints_ok.
Lemma ex_ints_nodup : NoDup (map int_at ex_ints).
Proof. constructor; [cbn; intros [E|[]]; discriminate E|]. constructor; [intros []|constructor]. Qed.
Example C38_integral_sign_instance := C38_integral_sign_refuted ex_fl 5 ex_ints ex_int_file ex_int_file_ok ex_ints_ok ex_ints_nodup.

(** ** The file with the orbital energies *)
Close Scope Qc_scope.
Lemma words_rstrip s : words (rstrip blank s) = words s.
Proof.
  induction s as [|c s IH]; [reflexivity|]. cbn [rstrip]. destruct (rstrip blank s) as [|d r] eqn:E.
  - cbn [words] in IH |- *. rewrite <- IH. destruct (blank c) eqn:B; cbn [words add_word]; [reflexivity|rewrite B; reflexivity].
  - change (words (String c (String d r))) with (let (w, ws) := words (String d r) in if blank c then ("", add_word w ws) else (String c w, ws)).
    rewrite IH. reflexivity.
Qed.
Lemma split_lstrip s : split (lstrip blank s) = split s.
Proof.
  induction s as [|c s IH]; [reflexivity|]. cbn [lstrip]. destruct (blank c) eqn:B; [|reflexivity]. rewrite IH. unfold split. cbn [words].
  destruct (words s) as [w ws]. rewrite B. reflexivity.
Qed.
Lemma split_strip s : split (strip blank s) = split s.
Proof. unfold strip, split at 1. rewrite words_rstrip. apply split_lstrip. Qed.
Lemma ends_in_last w l : ends_in w l -> last_of (split (strip blank l)) = Some w.
Proof. intros [ws H]. rewrite split_strip, (split_spaced _ _ H). apply last_of_app. Qed.

Lemma split_at_free d w s : off (Ascii.eqb d) w -> split_at d (w ++ s) = (w ++ fst (split_at d s), snd (split_at d s)).
Proof.
  induction w as [|c w IH]; cbn [append].
  - intros _. destruct (split_at d s); reflexivity.
  - intros [A B]. cbn [split_at]. rewrite (IH B). rewrite Ascii.eqb_sym in A. rewrite A. reflexivity.
Qed.
Lemma split_on_comma d w s : off (Ascii.eqb d) w -> split_on d (w ++ String d s) = w :: split_on d s.
Proof.
  intros H. unfold split_on. rewrite (split_at_free d w _ H). cbn [split_at]. destruct (split_at d s) as [u us].
  rewrite Ascii.eqb_refl. cbn [fst snd]. rewrite sapp_nil. reflexivity.
Qed.
Lemma split_on_end d w : off (Ascii.eqb d) w -> split_on d w = [w].
Proof. intros H. unfold split_on. rewrite <- (sapp_nil w), (split_at_free d w "" H). cbn [split_at fst snd]. rewrite !sapp_nil. reflexivity. Qed.
Section Energies.
Variable fl : string -> option Qc.
Let element (e : string) : option Qc := fl (strip_c "]" (strip_c "[" e)).
Lemma element_plain w x : number_in fl w x -> element w = Some x.
Proof.
  intros [_ [C F]]. unfold element, strip_c. rewrite (strip_off (Ascii.eqb "[")), (strip_off (Ascii.eqb "]")); [exact F|..];
    apply off_eqb; (eapply chars_impl; [|exact C]); cbn beta; tauto.
Qed.
Lemma element_last w x : number_in fl w x -> element (w ++ "]") = Some x.
Proof.
  intros [_ [C F]]. unfold element, strip_c. rewrite (strip_off (Ascii.eqb "[") (w ++ "]")).
  - rewrite (strip_end (Ascii.eqb "]") "]" w); [exact F| |reflexivity]. apply off_eqb. eapply chars_impl; [|exact C]. cbn beta. tauto.
  - apply off_eqb. apply chars_app. split; [|split; [discriminate|exact I]]. eapply chars_impl; [|exact C]. cbn beta. tauto.
Qed.
Lemma element_bracket w : element (String "[" w) = element w.
Proof. reflexivity. Qed.
Lemma commas_off w x : number_in fl w x -> off (Ascii.eqb ",") w.
Proof. intros [_ [C _]]. apply off_eqb. eapply chars_impl; [|exact C]. cbn beta. tauto. Qed.
Lemma energies_ok txts es : Forall2 (number_in fl) txts es -> txts <> [] ->
  omap element (split_on "," (listed txts ++ "]")) = Some es.
Proof.
  induction 1 as [|w x txts es H HR IH]; [congruence|]. intros _. destruct HR as [|w' x' txts es H' HR].
  - cbn [listed]. rewrite split_on_end.
    + cbn [omap]. rewrite (element_last w x H). reflexivity.
    + apply chars_app. split; [exact (commas_off w x H)|split; [reflexivity|exact I]].
  - change (listed (w :: w' :: txts)) with (w ++ "," ++ listed (w' :: txts)). rewrite !sapp_assoc. cbn [append].
    rewrite (split_on_comma "," w _ (commas_off w x H)). cbn [omap]. rewrite (element_plain w x H), IH by discriminate. reflexivity.
Qed.
Lemma bracket_energies txts es : Forall2 (number_in fl) txts es -> txts <> [] ->
  omap element (split_on "," ("[" ++ listed txts ++ "]")) = Some es.
Proof.
  intros H N. rewrite <- (energies_ok txts es H N). unfold split_on. cbn [append split_at].
  destruct (split_at "," (listed txts ++ "]")) as [u us]. cbn [Ascii.eqb Bool.eqb omap]. rewrite element_bracket. reflexivity.
Qed.
End Energies.
Lemma natural_double n : natural (2 * Z.of_nat n) = Some (2 * n)%nat.
Proof. unfold natural. replace (Z.leb 0 (2 * Z.of_nat n)) with true by (symmetry; apply Z.leb_le; lia). f_equal. lia. Qed.
Lemma read_bkgrd_ok fl no nv es file : system_file fl no nv es file -> read_bkgrd fl file = Some ((2 * no)%nat, (2 * nv)%nat, es).
Proof.
  intros [l0 [l1 [l2 [l3 [rest [txts [-> [H1 [H2 [N [H3 H4]]]]]]]]]]]. unfold read_bkgrd. cbn [nth_error obind].
  rewrite (ends_in_last _ _ H1), (ends_in_last _ _ H2), (ends_in_last _ _ H3). cbn [obind]. rewrite !dec_int. cbn [obind].
  rewrite !natural_double. cbn [obind]. rewrite (bracket_energies fl txts es H4 N). reflexivity.
Qed.

(** sorting *)
Lemma insert_perm x l : Permutation (insert_q x l) (x :: l).
Proof.
  induction l as [|y l IH]; [reflexivity|]. cbn [insert_q]. destruct (Qclt_le_dec y x); [|reflexivity].
  rewrite IH. apply perm_swap.
Qed.
Lemma sort_perm l : Permutation (np_sort l) l.
Proof. induction l as [|x l IH]; [reflexivity|]. cbn [np_sort fold_right]. fold (np_sort l). rewrite insert_perm, IH. reflexivity. Qed.
Lemma insert_sorted x l : StronglySorted Qcle l -> StronglySorted Qcle (insert_q x l).
Proof.
  induction 1 as [|y l H IH HF]; cbn [insert_q]; [repeat constructor|]. destruct (Qclt_le_dec y x) as [L|L].
  - constructor; [exact IH|]. rewrite Forall_forall in *. intros z Hz. apply (Permutation_in z (insert_perm x l)) in Hz.
    destruct Hz as [<-|Hz]; [apply Qclt_le_weak, L|apply HF, Hz].
  - constructor; [constructor; assumption|]. constructor; [exact L|]. rewrite Forall_forall in *. intros z Hz.
    eapply Qcle_trans; [exact L|apply HF, Hz].
Qed.
Lemma sort_sorted l : StronglySorted Qcle (np_sort l).
Proof. induction l as [|x l IH]; [constructor|]. apply insert_sorted, IH. Qed.
Lemma sorted_unique l : forall m, StronglySorted Qcle l -> StronglySorted Qcle m -> Permutation l m -> l = m.
Proof.
  induction l as [|x l IH]; intros m S1 S2 P.
  - apply Permutation_nil in P. symmetry. exact P.
  - destruct m as [|y m]; [apply Permutation_sym, Permutation_nil in P; discriminate P|].
    inversion S1 as [|? ? A1 F1]; subst. inversion S2 as [|? ? A2 F2]; subst. rewrite Forall_forall in F1, F2.
    assert (E : x = y).
    { apply Qcle_antisym.
      - assert (I : In y (x :: l)) by (apply (Permutation_in y (Permutation_sym P)); left; reflexivity).
        destruct I as [<-|I]; [apply Qcle_refl|apply F1, I].
      - assert (I : In x (y :: m)) by (apply (Permutation_in x P); left; reflexivity).
        destruct I as [<-|I]; [apply Qcle_refl|apply F2, I]. }
    subst y. f_equal. apply IH; [assumption..|apply (Permutation_cons_inv P)].
Qed.
Definition twice (l : list Qc) : list Qc := flat_map (fun x => [x; x]) l.
Lemma twice_perm l : Permutation (l ++ l) (twice l).
Proof.
  induction l as [|x l IH]; [reflexivity|]. cbn [twice flat_map app]. fold (twice l). apply perm_skip.
  rewrite <- Permutation_middle. apply perm_skip, IH.
Qed.
Lemma twice_sorted l : StronglySorted Qcle l -> StronglySorted Qcle (twice l).
Proof.
  induction 1 as [|x l H IH HF]; [constructor|]. cbn [twice flat_map app]. fold (twice l).
  assert (F : Forall (Qcle x) (twice l)).
  { rewrite Forall_forall in *. intros z Hz. apply in_flat_map in Hz. destruct Hz as [y [Hy Hz]]. specialize (HF y Hy).
    destruct Hz as [<-|[<-|[]]]; exact HF. }
  constructor; [constructor; assumption|]. constructor; [apply Qcle_refl|exact F].
Qed.
Lemma twice_nth l : forall p, nth p (twice l) 0%Qc = nth (p / 2) l 0%Qc.
Proof.
  induction l as [|x l IH]; intros p.
  - change (twice []) with (@nil Qc). destruct p, (_ / 2); reflexivity.
  - cbn [twice flat_map app]. fold (twice l). destruct p as [|[|p]]; [reflexivity|reflexivity|].
    cbn [nth]. rewrite IH. replace (Datatypes.S (Datatypes.S p) / 2)%nat with (Datatypes.S (p / 2)); [reflexivity|].
    replace (Datatypes.S (Datatypes.S p)) with (1 * 2 + p)%nat by lia. rewrite Nat.div_add_l by lia. reflexivity.
Qed.
Lemma twice_length l : length (twice l) = (2 * length l)%nat.
Proof. induction l as [|x l IH]; [reflexivity|]. cbn [twice flat_map app length]. fold (twice l). rewrite IH. lia. Qed.
Lemma sort_twice l : StronglySorted Qcle l -> np_sort (l ++ l) = twice l.
Proof.
  intros H. apply sorted_unique; [apply sort_sorted|apply twice_sorted, H|]. rewrite sort_perm. apply twice_perm.
Qed.
Lemma is_den_ext k no nv e e' D : (forall p, e p = e' p) -> is_denominator k no nv e D -> is_denominator k no nv e' D.
Proof.
  intros H [A B]. split; [exact A|]. intros virt occ L I. rewrite (B virt occ L I). unfold gap.
  rewrite (suml_ext _ occ e e') by (intros x _; apply H). rewrite (suml_ext _ virt _ (fun a => e' (no + a)%nat)) by (intros x _; apply H). reflexivity.
Qed.

(** C38, the whole object: a system file with increasing orbital energies, an amplitude file and an integral file that fit
    give an object with the numbers of spin orbitals, arrays as described by C38_amplitudes and C38_integrals, and
    orbital-energy denominators in which spin orbital p has the energy of spatial orbital p/2. *)
Theorem C38_system : forall fl no nv energies bkgrd es tamps is tei,
  system_file fl no nv energies bkgrd -> length energies = (no + nv)%nat -> StronglySorted Qcle energies ->
  amp_file fl es tamps -> Forall (proper (2 * no) (2 * nv)) es ->
  int_file fl is tei -> Forall (int_ok (2 * no + 2 * nv)) is ->
  exists x, run_xacc fl bkgrd tamps tei = Some x /\
    x_nocc x = (2 * no)%nat /\ x_nvirt x = (2 * nv)%nat /\ x_energies x = energies /\
    read_tamps fl (2 * no) (2 * nv) tamps = Some (x_t1 x, x_t2 x) /\
    read_tei fl (2 * no + 2 * nv) tei = Some (x_tei x) /\
    let e := fun p => nth (p / 2) energies 0%Qc in
    is_denominator 1 (2 * no) (2 * nv) e (x_d1 x) /\
    is_denominator 2 (2 * no) (2 * nv) e (x_d2 x) /\
    is_denominator 3 (2 * no) (2 * nv) e (x_d3 x).
Proof.
  intros fl no nv energies bkgrd es tamps is tei HB HL HS HA PA HI PI.
  destruct (C38_amplitudes fl (2 * no) (2 * nv) es tamps HA PA) as [t1 [t2 [ET _]]].
  destruct (C38_integrals fl (2 * no + 2 * nv) is tei HI PI) as [g [EG _]].
  unfold run_xacc. rewrite (read_bkgrd_ok fl no nv energies bkgrd HB). cbn [obind fst snd]. rewrite ET. cbn [obind fst snd].
  rewrite EG. cbn [obind].
  eexists. split; [reflexivity|]. cbn [x_nocc x_nvirt x_energies x_t1 x_t2 x_tei x_d1 x_d2 x_d3].
  split; [reflexivity|]. split; [reflexivity|]. split; [reflexivity|]. split; [reflexivity|]. split; [reflexivity|].
  rewrite (sort_twice energies HS). set (e := fun p => nth (p / 2) energies 0%Qc).
  assert (D : forall k, is_denominator k (2 * no) (2 * nv) e (den k (twice energies) (0%nat, Some (2 * no)%nat) ((2 * no)%nat, None))).
  { intros k. apply (is_den_ext k _ _ (fun p => nth p (twice energies) 0%Qc)); [intros p; apply twice_nth|].
    apply den_ok. rewrite twice_length. lia. }
  repeat split; apply D.
Qed.
Print Assumptions C38_system.

Definition ex_energies : list Qc := [Q2Qc (-1 # 4); Q2Qc (1 # 2); Q2Qc 7].
Definition ex_system : list string :=
  ["Number of spatial orbitals: 3" ++ nl; "occupied orbitals: 1" ++ nl; "virtual orbitals: 2" ++ nl; "energies: [-2.5e-1,0.5,7.0]" ++ nl].
Lemma ex_system_ok : system_file ex_fl 1 2 ex_energies ex_system.
Proof.
  do 4 eexists. exists [], ["-2.5e-1"; "0.5"; "7.0"]. split; [reflexivity|]. split; [|split; [|split; [discriminate|split]]].
  - exists ["occupied"; "orbitals:"].
    refine (sp_more "" "occupied" " " _ _ I ltac:(vis) ltac:(bl) _). refine (sp_more "" "orbitals:" " " _ _ I ltac:(vis) ltac:(bl) _).
    refine (sp_more "" "1" (ascii_of_nat 10) "" _ I ltac:(vis) ltac:(bl) _). apply sp_end. exact I.
  - exists ["virtual"; "orbitals:"].
    refine (sp_more "" "virtual" " " _ _ I ltac:(vis) ltac:(bl) _). refine (sp_more "" "orbitals:" " " _ _ I ltac:(vis) ltac:(bl) _).
    refine (sp_more "" "2" (ascii_of_nat 10) "" _ I ltac:(vis) ltac:(bl) _). apply sp_end. exact I.
  - exists ["energies:"]. refine (sp_more "" "energies:" " " _ _ I ltac:(vis) ltac:(bl) _).
    refine (sp_more "" "[-2.5e-1,0.5,7.0]" (ascii_of_nat 10) "" _ I ltac:(vis) ltac:(bl) _). apply sp_end. exact I.
  - repeat constructor; try discriminate; cbn; unfold visible; cbn; try lia.
Qed.
Lemma ex_energies_sorted : StronglySorted Qcle ex_energies.
Proof. repeat constructor; unfold Qcle; cbn; unfold Qle; cbn; lia. Qed.
Lemma ex_proper4 : Forall (proper (2 * 1) (2 * 2)) ex_entries.
Proof. repeat constructor; cbn; lia. Qed.
Lemma ex_ints6 : Forall (int_ok (2 * 1 + 2 * 2)) ex_ints. Proof. repeat constructor. Qed.
Example C38_system_instance := C38_system ex_fl 1 2 ex_energies ex_system ex_entries ex_file ex_ints ex_int_file
  ex_system_ok eq_refl ex_energies_sorted ex_amp_file ex_proper4 ex_int_file_ok ex_ints6.
