(** C37 and C51: the integrals handed to the two routes. *)
From Coq Require Import String Ascii List Arith ZArith QArith Qcanon Bool Lia Permutation.
From Verif Require Import Sums Tensor Interp Numpy Spec SpecDriver Ints.
Import ListNotations.
Open Scope Qc_scope.

(** *** What the einsum calls compute *)
Ltac es_go := unfold es; match goal with |- context [parse_spec ?s] => let r := eval vm_compute in (parse_spec s) in change (parse_spec s) with r end;
  unfold einsum; cbn [map].
Lemma es4 A C a b c d e : shape A = [a; b; c; d]%nat -> shape C = [d; e]%nat -> exists R, es "pqrs, sS -> pqrS" [A; C] = Some R /\
  shape R = [a; b; c; e]%nat /\ forall p q r s, data R [p; q; r; s]%nat = Sum x < d, data A [p; q; r; x] * data C [x; s].
Proof.
  intros HA HC. es_go. rewrite HA, HC. cbn -[suml seq]. rewrite Nat.eqb_refl. cbn -[suml seq].
  eexists. split; [reflexivity|]. split; [reflexivity|]. intros p q r s. cbn -[suml seq]. apply suml_ext. intros x _. ring.
Qed.
Lemma es3 A C a b c d e : shape A = [a; b; c; d]%nat -> shape C = [c; e]%nat -> exists R, es "pqrS, rR -> pqRS" [A; C] = Some R /\
  shape R = [a; b; e; d]%nat /\ forall p q r s, data R [p; q; r; s]%nat = Sum x < c, data A [p; q; x; s] * data C [x; r].
Proof.
  intros HA HC. es_go. rewrite HA, HC. cbn -[suml seq]. rewrite Nat.eqb_refl. cbn -[suml seq].
  eexists. split; [reflexivity|]. split; [reflexivity|]. intros p q r s. cbn -[suml seq]. apply suml_ext. intros x _. ring.
Qed.
Lemma es2 A C a b c d e : shape A = [a; b; c; d]%nat -> shape C = [b; e]%nat -> exists R, es "pqRS, qQ -> pQRS" [A; C] = Some R /\
  shape R = [a; e; c; d]%nat /\ forall p q r s, data R [p; q; r; s]%nat = Sum x < b, data A [p; x; r; s] * data C [x; q].
Proof.
  intros HA HC. es_go. rewrite HA, HC. cbn -[suml seq]. rewrite Nat.eqb_refl. cbn -[suml seq].
  eexists. split; [reflexivity|]. split; [reflexivity|]. intros p q r s. cbn -[suml seq]. apply suml_ext. intros x _. ring.
Qed.
Lemma es1 A C a b c d e : shape A = [a; b; c; d]%nat -> shape C = [a; e]%nat -> exists R, es "pQRS, pP -> PQRS" [A; C] = Some R /\
  shape R = [e; b; c; d]%nat /\ forall p q r s, data R [p; q; r; s]%nat = Sum x < a, data A [x; q; r; s] * data C [x; p].
Proof.
  intros HA HC. es_go. rewrite HA, HC. cbn -[suml seq]. rewrite Nat.eqb_refl. cbn -[suml seq].
  eexists. split; [reflexivity|]. split; [reflexivity|]. intros p q r s. cbn -[suml seq]. apply suml_ext. intros x _. ring.
Qed.

(** *** Four nested sums *)
Definition sum4 (n : nat) (F : nat -> nat -> nat -> nat -> Qc) : Qc := Sum a < n, Sum b < n, Sum c < n, Sum d < n, F a b c d.
Lemma sum4_ext n F G : (forall a b c d, (a < n)%nat -> (b < n)%nat -> (c < n)%nat -> (d < n)%nat -> F a b c d = G a b c d) -> sum4 n F = sum4 n G.
Proof.
  intros H. unfold sum4. apply suml_ext. intros a Ha. apply suml_ext. intros b Hb. apply suml_ext. intros c Hc. apply suml_ext. intros d Hd.
  apply in_seq in Ha, Hb, Hc, Hd. apply H; lia.
Qed.
Lemma sum4_12 n F : sum4 n F = sum4 n (fun a b c d => F b a c d).
Proof. unfold sum4. apply suml_swap. Qed.
Lemma sum4_23 n F : sum4 n F = sum4 n (fun a b c d => F a c b d).
Proof. unfold sum4. apply suml_ext. intros a _. apply suml_swap. Qed.
Lemma sum4_34 n F : sum4 n F = sum4 n (fun a b c d => F a b d c).
Proof. unfold sum4. apply suml_ext. intros a _. apply suml_ext. intros b _. apply suml_swap. Qed.
Lemma sum4_rev n F : sum4 n (fun a b c d => F d c b a) = sum4 n F.
Proof.
  rewrite (sum4_12 n F), (sum4_23 n (fun a b c d => F b a c d)), (sum4_12 n (fun a b c d => F c a b d)),
    (sum4_34 n (fun a b c d => F c b a d)), (sum4_23 n (fun a b c d => F d b a c)), (sum4_12 n (fun a b c d => F d c a b)).
  apply sum4_ext. intros; reflexivity.
Qed.
Lemma sum4_sub n F G : sum4 n (fun a b c d => F a b c d - G a b c d) = sum4 n F - sum4 n G.
Proof.
  unfold sum4, Qcminus. rewrite <- suml_opp, <- suml_plus. apply suml_ext. intros a _. rewrite <- suml_opp, <- suml_plus. apply suml_ext. intros b _.
  rewrite <- suml_opp, <- suml_plus. apply suml_ext. intros c _. rewrite <- suml_opp, <- suml_plus. reflexivity.
Qed.
Lemma sum4_scale n k F : sum4 n (fun a b c d => k * F a b c d) = k * sum4 n F.
Proof.
  unfold sum4. rewrite <- suml_scale. apply suml_ext. intros a _. rewrite <- suml_scale. apply suml_ext. intros b _.
  rewrite <- suml_scale. apply suml_ext. intros c _. rewrite <- suml_scale. reflexivity.
Qed.

(** The integral (xy|zw) of four orbitals given by their coefficients. *)
Definition mo_int (n : nat) (I : tensor) (x y z w : nat -> Qc) : Qc :=
  Sum a < n, Sum b < n, Sum c < n, Sum d < n, data I [a; b; c; d] * (x a * (y b * (z c * w d))).
Definition eri_symmetric (n : nat) (I : tensor) : Prop :=
  shape I = [n; n; n; n] /\ forall p q r s, (p < n)%nat -> (q < n)%nat -> (r < n)%nat -> (s < n)%nat ->
    data I [p; q; r; s] = data I [q; p; r; s] /\ data I [p; q; r; s] = data I [p; q; s; r] /\ data I [p; q; r; s] = data I [r; s; p; q].
Lemma mo_int_fold n I x y z w : mo_int n I x y z w = sum4 n (fun a b c d => data I [a; b; c; d] * (x a * (y b * (z c * w d)))).
Proof. reflexivity. Qed.
Section Sym.
  Variables (n : nat) (I : tensor).
  Hypothesis HI : eri_symmetric n I.
  Lemma mo_bra x y z w : mo_int n I x y z w = mo_int n I y x z w.
  Proof.
    rewrite !mo_int_fold, sum4_12. apply sum4_ext. intros a b c d Ha Hb Hc Hd. rewrite (proj1 (proj2 HI b a c d Hb Ha Hc Hd)). ring.
  Qed.
  Lemma mo_ket x y z w : mo_int n I x y z w = mo_int n I x y w z.
  Proof.
    rewrite !mo_int_fold, sum4_34. apply sum4_ext. intros a b c d Ha Hb Hc Hd. rewrite (proj1 (proj2 (proj2 HI a b d c Ha Hb Hd Hc))). ring.
  Qed.
  Lemma mo_pair x y z w : mo_int n I x y z w = mo_int n I z w x y.
  Proof.
    rewrite !mo_int_fold, sum4_23, sum4_12, sum4_34, sum4_23. apply sum4_ext. intros a b c d Ha Hb Hc Hd.
    rewrite (proj2 (proj2 (proj2 HI c d a b Hc Hd Ha Hb))). ring.
  Qed.
End Sym.

Lemma ao2mo_spec I c1 c2 c3 c4 n m1 m2 m3 m4 : shape I = [n; n; n; n] -> shape c1 = [n; m1] -> shape c2 = [n; m2] -> shape c3 = [n; m3] -> shape c4 = [n; m4] ->
  exists R, ao2mo I c1 c2 c3 c4 = Some R /\ shape R = [m1; m2; m3; m4] /\
  forall i j k l, data R [i; j; k; l] = mo_int n I (fun a => data c1 [a; i]) (fun a => data c2 [a; j]) (fun a => data c3 [a; k]) (fun a => data c4 [a; l]).
Proof.
  intros HI H1 H2 H3 H4. unfold ao2mo. es_go. rewrite HI, H1, H2, H3, H4. cbn -[suml seq]. repeat (rewrite Nat.eqb_refl; cbn -[suml seq]).
  eexists. split; [reflexivity|]. split; [reflexivity|]. intros i j k l. cbn -[suml seq].
  etransitivity; [|etransitivity; [apply (sum4_rev n (fun p q r s => data I [p; q; r; s] * (data c1 [p; i] * (data c2 [q; j] * (data c3 [r; k] * data c4 [s; l])))))|reflexivity]].
  apply sum4_ext. intros. ring.
Qed.
Lemma gmo_spec A C N M : shape A = [N; N; N; N] -> shape C = [N; M] -> exists R, gmo_of A C = Some R /\ shape R = [M; M; M; M] /\
  forall p q r s, data R [p; q; r; s] = sum4 N (fun a b c d => data A [a; b; c; d] * (data C [a; p] * (data C [b; q] * (data C [c; r] * data C [d; s])))).
Proof.
  intros HA HC. unfold gmo_of. destruct (es4 A C _ _ _ _ _ HA HC) as [R1 [E1 [S1 V1]]]. rewrite E1. cbn [obind].
  destruct (es3 R1 C _ _ _ _ _ S1 HC) as [R2 [E2 [S2 V2]]]. rewrite E2. cbn [obind].
  destruct (es2 R2 C _ _ _ _ _ S2 HC) as [R3 [E3 [S3 V3]]]. rewrite E3. cbn [obind].
  destruct (es1 R3 C _ _ _ _ _ S3 HC) as [R4 [E4 [S4 V4]]]. exists R4. split; [exact E4|]. split; [exact S4|].
  intros p q r s. rewrite V4. unfold sum4. apply suml_ext. intros a _. rewrite V3, <- suml_scale_r. apply suml_ext. intros b _.
  rewrite V2, <- !suml_scale_r. apply suml_ext. intros c _. rewrite V1, <- !suml_scale_r. apply suml_ext. intros d _. ring.
Qed.

(** *** The spin-blocked, antisymmetrised AO integrals *)
Definition same (b : bool) : Qc := if b then 1 else 0.
Lemma gao_spec I n : (0 < n)%nat -> shape I = [n; n; n; n] -> exists G, gao_of I = Some G /\ shape G = [2 * n; 2 * n; 2 * n; 2 * n]%nat /\
  forall A B C D, (A < 2 * n)%nat -> (B < 2 * n)%nat -> (C < 2 * n)%nat -> (D < 2 * n)%nat -> data G [A; B; C; D] =
    same (Nat.eqb (A / n) (C / n)) * same (Nat.eqb (B / n) (D / n)) * data I [D mod n; B mod n; C mod n; A mod n] -
    same (Nat.eqb (A / n) (D / n)) * same (Nat.eqb (B / n) (C / n)) * data I [C mod n; B mod n; D mod n; A mod n].
Proof.
  intros N0 HI. unfold gao_of, spin_block_tei, tT, tkron. cbn [shape data]. rewrite HI. cbn -[Nat.mul Nat.div Nat.modulo].
  rewrite !Nat.mul_1_l. unfold tbin. cbn [shape eqb_shape]. rewrite !Nat.eqb_refl. cbn [andb].
  eexists. split; [reflexivity|]. cbn [shape data nth]. split; [reflexivity|].
  intros A B C D HA HB HC HD. unfold same. rewrite !Nat.mod_mod by lia. rewrite !(Nat.mod_small _ (2 * n)) by lia.
  rewrite (Nat.eqb_sym (A / n) (C / n)), (Nat.eqb_sym (A / n) (D / n)). ring.
Qed.

(** *** Columns of the coefficient matrix: spin orbital j < m is alpha orbital j, spin orbital m + p is beta orbital p *)
Definition spin_of (m j : nat) : spin := if Nat.ltb j m then Up else Dn.
Definition spat (m j : nat) : nat := if Nat.ltb j m then j else (j - m)%nat.
Definition of_spin {X} (s : spin) (x y : X) : X := match s with Up => x | Dn => y end.
Definition spin_eqb (s s' : spin) : bool := match s, s' with Up, Up | Dn, Dn => true | _, _ => false end.
(** coefficients of spin orbital j *)
Definition coef (m : nat) (Ca Cb : tensor) (j : nat) : nat -> Qc := fun a => data (of_spin (spin_of m j) Ca Cb) [a; spat m j].

Lemma sum_two n F : suml (seq 0 (2 * n)) F = suml (seq 0 n) F + suml (seq 0 n) (fun a => F (n + a)%nat).
Proof.
  replace (2 * n)%nat with (n + n)%nat by lia. rewrite seq_app, suml_app. f_equal. cbn [plus]. rewrite <- (suml_map _ _ (fun a => (n + a)%nat)). f_equal.
  clear F. revert n. assert (G : forall l k, seq k l = map (fun a => (k + a)%nat) (seq 0 l)); [|intros n; apply G].
  induction l as [|l IH]; intros k; cbn [seq map]; [reflexivity|]. rewrite Nat.add_0_r. f_equal. rewrite IH, <- seq_shift, map_map. apply map_ext. intros; lia.
Qed.
Section Columns.
  Variables (n m : nat) (Ca Cb C : tensor).
  Hypothesis HCa : shape Ca = [n; m].
  Hypothesis HCb : shape Cb = [n; m].
  Variable p : list nat.
  Hypothesis Hp : forall k, In k p -> (k < 2 * m)%nat.
  Hypothesis HC : (do X <- block_diag Ca Cb; take_cols p X) = Some C.
  Lemma C_shape : shape C = [2 * n; length p]%nat.
  Proof.
    unfold block_diag in HC. rewrite HCa, HCb, Nat.eqb_refl in HC. cbn [obind] in HC. unfold take_cols in HC. cbn [shape arr2] in HC.
    destruct (forallb _ _); [|discriminate]. injection HC as <-. cbn [shape arr2]. f_equal. lia.
  Qed.
  Lemma C_sum F k : (k < length p)%nat ->
    suml (seq 0 (2 * n)) (fun a => F a * data C [a; k]) =
    suml (seq 0 n) (fun a => F (of_spin (spin_of m (nth k p O)) 0 n + a)%nat * coef m Ca Cb (nth k p O) a).
  Proof.
    intros Hk. assert (Hj : (nth k p O < 2 * m)%nat) by (apply Hp, nth_In, Hk).
    unfold block_diag in HC. rewrite HCa, HCb, Nat.eqb_refl in HC. cbn [obind] in HC. unfold take_cols in HC. cbn [shape arr2] in HC.
    destruct (forallb _ _); [|discriminate]. injection HC as <-. cbn [data arr2].
    set (j := nth k p O) in *. rewrite sum_two. unfold coef, spin_of, spat. destruct (Nat.ltb_spec j m) as [L|L]; cbn [of_spin].
    - rewrite (suml_zero _ _ (fun a => F (n + a)%nat * _)).
      + rewrite Qcplus_0_r. apply suml_ext. intros a Ha. apply in_seq in Ha. destruct (Nat.ltb_spec a n); [reflexivity|lia].
      + intros a _. destruct (Nat.ltb_spec (n + a) n); [lia|]. ring.
    - rewrite (suml_zero _ _ (fun a => F a * _)).
      + rewrite Qcplus_0_l. apply suml_ext. intros a Ha. apply in_seq in Ha. destruct (Nat.ltb_spec (n + a) n); [lia|]. replace (n + a - n)%nat with a by lia. reflexivity.
      + intros a Ha. apply in_seq in Ha. destruct (Nat.ltb_spec a n); [|lia]. ring.
  Qed.
  Lemma C_sum4 F P Q R S : (P < length p)%nat -> (Q < length p)%nat -> (R < length p)%nat -> (S < length p)%nat ->
    let o k := of_spin (spin_of m (nth k p O)) 0%nat n in let c k := coef m Ca Cb (nth k p O) in
    sum4 (2 * n) (fun a b c d => F a b c d * (data C [a; P] * (data C [b; Q] * (data C [c; R] * data C [d; S])))) =
    sum4 n (fun x y z w => F (o P + x)%nat (o Q + y)%nat (o R + z)%nat (o S + w)%nat * (c P x * (c Q y * (c R z * c S w)))).
  Proof.
    intros HP HQ HR HS o c. unfold sum4.
    etransitivity; [apply suml_ext; intros a _; etransitivity; [|apply (Qcmult_comm (data C [a; P]))]|].
    - etransitivity; [|apply suml_scale with (c := data C [a; P])
        (F := fun b => suml (seq 0 (2 * n)) (fun c => suml (seq 0 (2 * n)) (fun d => F a b c d * (data C [b; Q] * (data C [c; R] * data C [d; S])))))].
      apply suml_ext; intros b _. rewrite <- suml_scale. apply suml_ext; intros c' _. rewrite <- suml_scale. apply suml_ext; intros d _. ring.
    - etransitivity; [apply (C_sum (fun a => suml (seq 0 (2 * n)) (fun b => suml (seq 0 (2 * n)) (fun c => suml (seq 0 (2 * n)) (fun d => F a b c d * (data C [b; Q] * (data C [c; R] * data C [d; S]))))))  P HP)|].
      apply suml_ext. intros x _. fold (o P) (c P). set (A := (o P + x)%nat).
      transitivity (suml (seq 0 n) (fun y => suml (seq 0 (2 * n)) (fun c' => suml (seq 0 (2 * n)) (fun d => F A (o Q + y)%nat c' d * (data C [c'; R] * data C [d; S]))) * c Q y) * c P x).
      { f_equal. etransitivity; [|apply (C_sum (fun b => suml (seq 0 (2 * n)) (fun c' => suml (seq 0 (2 * n)) (fun d => F A b c' d * (data C [c'; R] * data C [d; S])))) Q HQ)].
        apply suml_ext; intros b _. rewrite <- suml_scale_r. apply suml_ext; intros c' _. rewrite <- suml_scale_r. apply suml_ext; intros d _. ring. }
      rewrite <- suml_scale_r. apply suml_ext. intros y _. set (B := (o Q + y)%nat).
      transitivity (suml (seq 0 n) (fun z => suml (seq 0 (2 * n)) (fun d => F A B (o R + z)%nat d * data C [d; S]) * c R z) * c Q y * c P x).
      { f_equal. f_equal. etransitivity; [|apply (C_sum (fun c' => suml (seq 0 (2 * n)) (fun d => F A B c' d * data C [d; S])) R HR)].
        apply suml_ext; intros c' _. rewrite <- suml_scale_r. apply suml_ext; intros d _. ring. }
      rewrite <- !suml_scale_r. apply suml_ext. intros z _. rewrite (C_sum (fun d => F A B (o R + z)%nat d) S HS). rewrite <- !suml_scale_r.
      apply suml_ext. intros w _. unfold o, c. ring.
  Qed.
End Columns.

(** C37.  For all AO integrals with the eightfold symmetry of real orbitals, all alpha and beta coefficient matrices and
    whatever order the orbital energies are sorted in: the conversion does not raise; the Fock matrix is the diagonal of
    sorted energies; the two-electron array is antisymmetric and Hermitian, and its entry for the spin orbitals P,Q,R,S
    is (PR|QS) for equal spins of P,R and of Q,S minus (PS|QR) for equal spins of P,S and of Q,R. *)
Definition so_integral (n m : nat) (I Ca Cb : tensor) (p : list nat) (P Q R S : nat) : Qc :=
  let s k := spin_of m (nth k p O) in let c k := coef m Ca Cb (nth k p O) in
  same (spin_eqb (s P) (s R)) * same (spin_eqb (s Q) (s S)) * mo_int n I (c P) (c R) (c Q) (c S) -
  same (spin_eqb (s P) (s S)) * same (spin_eqb (s Q) (s R)) * mo_int n I (c P) (c S) (c Q) (c R).

Lemma div_off n s a : (a < n)%nat -> ((of_spin s 0 n + a) / n = of_spin s 0 1)%nat /\ ((of_spin s 0 n + a) mod n = a)%nat /\ (of_spin s 0 n + a < 2 * n)%nat.
Proof.
  intros H. destruct s; cbn [of_spin plus].
  - rewrite Nat.div_small, Nat.mod_small by lia. repeat split; lia.
  - replace (n + a)%nat with (a + 1 * n)%nat by lia. rewrite Nat.div_add, Nat.mod_add, Nat.div_small, Nat.mod_small by lia. repeat split; lia.
Qed.
Lemma spin_eqb_num s s' : Nat.eqb (of_spin s 0%nat 1%nat) (of_spin s' 0%nat 1%nat) = spin_eqb s s'.
Proof. destruct s, s'; reflexivity. Qed.

Lemma Forall2_len {A B} (R : A -> B -> Prop) l l' : Forall2 R l l' -> length l = length l'.
Proof. induction 1; cbn; congruence. Qed.
Section Conversion.
  Variables (n m : nat) (I Ca Cb : tensor) (eps_a eps_b : list Qc) (order : list Qc -> list nat).
  Hypothesis N0 : (0 < n)%nat.
  Hypothesis HI : eri_symmetric n I.
  Hypothesis HCa : shape Ca = [n; m].
  Hypothesis HCb : shape Cb = [n; m].
  Hypothesis Ha : length eps_a = m.
  Hypothesis Hb : length eps_b = m.
  Notation eps := (eps_a ++ eps_b)%list.
  Notation p := (order eps).
  Variable N : nat.
  Hypothesis p_len : length p = N.
  Hypothesis p_lt : forall k, In k p -> (k < 2 * m)%nat.
  Notation G_ := (so_integral n m I Ca Cb p).
  Lemma G_anti_ket P Q R S : G_ P Q R S = - G_ P Q S R.
  Proof. unfold so_integral. ring. Qed.
  Lemma G_anti_bra P Q R S : G_ P Q R S = - G_ Q P R S.
  Proof.
    unfold so_integral. cbv zeta. rewrite (mo_pair n I HI (coef m Ca Cb (nth Q p O)) (coef m Ca Cb (nth R p O))), (mo_pair n I HI (coef m Ca Cb (nth Q p O)) (coef m Ca Cb (nth S p O))). ring.
  Qed.
  Lemma spin_eqb_sym s s' : spin_eqb s s' = spin_eqb s' s. Proof. destruct s, s'; reflexivity. Qed.
  Lemma G_herm P Q R S : G_ P Q R S = G_ R S P Q.
  Proof.
    unfold so_integral. cbv zeta. set (sP := spin_of m (nth P p O)). set (sQ := spin_of m (nth Q p O)). set (sR := spin_of m (nth R p O)). set (sS := spin_of m (nth S p O)). set (cP := coef m Ca Cb (nth P p O)). set (cQ := coef m Ca Cb (nth Q p O)). set (cR := coef m Ca Cb (nth R p O)). set (cS := coef m Ca Cb (nth S p O)).
    rewrite (spin_eqb_sym sR sP), (spin_eqb_sym sS sQ), (spin_eqb_sym sR sQ), (spin_eqb_sym sS sP).
    rewrite (mo_bra n I HI cR cP), (mo_ket n I HI cP cR cS cQ).
    rewrite (mo_pair n I HI cR cQ cS cP), (mo_bra n I HI cS cP), (mo_ket n I HI cP cS cR cQ). ring.
  Qed.
  Lemma conversion : exists F G e,
    convert_slow order I Ca Cb eps_a eps_b = Some (F, G, e) /\
    e = map (fun k => nth k eps 0) p /\ F = tdiag e /\ is_fock N F /\ is_tei N G /\
    forall P Q R S, (P < N)%nat -> (Q < N)%nat -> (R < N)%nat -> (S < N)%nat ->
      data G [P; Q; R; S] = so_integral n m I Ca Cb p P Q R S.
  Proof.
    assert (XC : exists C, (do X <- block_diag Ca Cb; take_cols p X) = Some C).
    { unfold block_diag. rewrite HCa, HCb, Nat.eqb_refl. cbn [obind]. unfold take_cols. cbn [shape arr2].
      rewrite (proj2 (forallb_forall _ _)); [eauto|]. intros k Hk. apply Nat.ltb_lt. pose proof (p_lt k Hk). lia. }
    destruct XC as [C HC]. pose proof (C_shape n m Ca Cb C HCa HCb p HC) as SC. rewrite p_len in SC.
    destruct (gao_spec I n N0 (proj1 HI)) as [gao [EG [SG VG]]].
    destruct (gmo_spec gao C _ _ SG SC) as [G [EM [SM VM]]].
    exists (tdiag (map (fun k => nth k eps 0) p)), G, (map (fun k => nth k eps 0) p).
    assert (V : forall P Q R S, (P < N)%nat -> (Q < N)%nat -> (R < N)%nat -> (S < N)%nat -> data G [P; Q; R; S] = G_ P Q R S).
    { intros P Q R S HP HQ HR HS. rewrite VM.
      rewrite (C_sum4 n m Ca Cb C HCa HCb p p_lt HC (fun a b c d => data gao [a; b; c; d]) P Q R S) by (rewrite p_len; assumption).
      unfold so_integral. cbv zeta. set (sP := spin_of m (nth P p O)). set (sQ := spin_of m (nth Q p O)). set (sR := spin_of m (nth R p O)). set (sS := spin_of m (nth S p O)). set (cP := coef m Ca Cb (nth P p O)). set (cQ := coef m Ca Cb (nth Q p O)). set (cR := coef m Ca Cb (nth R p O)). set (cS := coef m Ca Cb (nth S p O)).
      rewrite !mo_int_fold, <- !sum4_scale.
      rewrite (sum4_23 n (fun a b c0 d => _ * (data I [a; b; c0; d] * (cP a * (cR b * _))))).
      rewrite (sum4_23 n (fun a b c0 d => _ * (data I [a; b; c0; d] * (cP a * (cS b * _))))).
      rewrite (sum4_34 n (fun a b c0 d => _ * (data I [a; c0; b; d] * (cP a * (cS c0 * _))))).
      rewrite <- sum4_sub. apply sum4_ext. intros x y z w Hx Hy Hz Hw.
      destruct (div_off n sP x Hx) as [D1 [M1 L1]], (div_off n sQ y Hy) as [D2 [M2 L2]], (div_off n sR z Hz) as [D3 [M3 L3]], (div_off n sS w Hw) as [D4 [M4 L4]].
      rewrite VG by assumption. rewrite D1, D2, D3, D4, M1, M2, M3, M4, !spin_eqb_num.
      destruct HI as [_ Y].
      assert (Y1 : data I [w; y; z; x] = data I [x; z; y; w]).
      { destruct (Y w y z x Hw Hy Hz Hx) as [A1 [A2 A3]]. rewrite A3. destruct (Y z x w y Hz Hx Hw Hy) as [B1 [B2 B3]]. rewrite B1. apply (Y x z w y); assumption. }
      assert (Y2 : data I [z; y; w; x] = data I [x; w; y; z]).
      { destruct (Y z y w x Hz Hy Hw Hx) as [A1 [A2 A3]]. rewrite A3. destruct (Y w x z y Hw Hx Hz Hy) as [B1 [B2 B3]]. rewrite B1. apply (Y x w z y); assumption. }
      rewrite Y1, Y2. ring. }
    split; [|split; [reflexivity|split; [reflexivity|split; [|split; [|exact V]]]]].
    - unfold convert_slow. destruct (block_diag Ca Cb) as [X|]; cbn [obind] in HC |- *; [|discriminate]. rewrite EG. cbn [obind]. rewrite HC. cbn [obind]. rewrite EM. reflexivity.
    - split; [cbn [shape tdiag arr2]; rewrite map_length, p_len; reflexivity|].
      intros l1 l2 H1 H2 _. destruct l1 as [|i [|]]; try discriminate. destruct l2 as [|j [|]]; try discriminate. cbn [tdiag arr2 data app].
      rewrite (Nat.eqb_sym j i). destruct (Nat.eqb_spec i j) as [->|]; reflexivity.
    - assert (IN : forall P Q R S, inr [P; Q; R; S] (shape G) -> (P < N)%nat /\ (Q < N)%nat /\ (R < N)%nat /\ (S < N)%nat).
      { intros P Q R S H. rewrite SM in H. inversion H as [|? ? ? ? A1 B1]; inversion B1 as [|? ? ? ? A2 B2]; inversion B2 as [|? ? ? ? A3 B3]; inversion B3 as [|? ? ? ? A4 B4]. auto. }
      split; [exact SM|]. split.
      + intros i Hi. assert (i = 0)%nat as -> by lia. split; intros pre x y post HL I1 I2.
        * destruct pre; [|discriminate]. cbn [app] in *. pose proof I1 as L. rewrite SM in L. apply Forall2_len in L. cbn in L.
          destruct post as [|z [|w [|]]]; try discriminate. destruct (IN _ _ _ _ I1) as [? [? [? ?]]]. rewrite !V by assumption. apply G_anti_bra.
        * destruct pre as [|z [|w [|]]]; try discriminate. cbn [app] in *. pose proof I1 as L. rewrite SM in L. apply Forall2_len in L. cbn in L.
          destruct post; [|discriminate]. destruct (IN _ _ _ _ I1) as [? [? [? ?]]]. rewrite !V by assumption. apply G_anti_ket.
      + intros l1 l2 L1 L2 I1. destruct l1 as [|a [|b [|]]]; try discriminate. destruct l2 as [|c [|d [|]]]; try discriminate. cbn [app] in *.
        destruct (IN _ _ _ _ I1) as [? [? [? ?]]]. rewrite !V by assumption. apply G_herm.
  Qed.
End Conversion.
(** C37 *)
Theorem C37_spin_orbital_integrals n m I Ca Cb eps_a eps_b order : (0 < n)%nat -> eri_symmetric n I -> shape Ca = [n; m] -> shape Cb = [n; m] ->
  length eps_a = m -> length eps_b = m -> let eps := (eps_a ++ eps_b)%list in let p := order eps in
  Permutation p (seq 0 (2 * m)) ->
  exists F G e,
    convert_slow order I Ca Cb eps_a eps_b = Some (F, G, e) /\
    e = map (fun k => nth k eps 0) p /\ F = tdiag e /\ is_fock (2 * m) F /\ is_tei (2 * m) G /\
    forall P Q R S, (P < 2 * m)%nat -> (Q < 2 * m)%nat -> (R < 2 * m)%nat -> (S < 2 * m)%nat ->
      data G [P; Q; R; S] = so_integral n m I Ca Cb p P Q R S.
Proof.
  intros N0 HI HCa HCb Ha Hb eps p Hp. apply (conversion n m I Ca Cb eps_a eps_b order N0 HI HCa HCb Ha Hb (2 * m)%nat).
  - apply Permutation_length in Hp. rewrite seq_length in Hp. exact Hp.
  - intros k H. apply (Permutation_in _ Hp) in H. apply in_seq in H. lia.
Qed.
Print Assumptions C37_spin_orbital_integrals.
