(** Finite sums over lists with values in the exact rationals [Qc].
    Library file: it models no particular source line. *)
From Coq Require Import List Arith ZArith QArith Qcanon Lia Permutation.
Import ListNotations.
Open Scope Qc_scope.

Fixpoint suml {A} (l : list A) (F : A -> Qc) : Qc :=
  match l with
  | [] => 0
  | x :: r => F x + suml r F
  end.

Lemma suml_ext A (l : list A) F G :
  (forall x, In x l -> F x = G x) -> suml l F = suml l G.
Proof.
  induction l as [|x l IH]; cbn [suml]; intros H; [reflexivity|].
  rewrite H by (left; reflexivity). rewrite IH; [reflexivity|].
  intros y Hy; apply H; right; exact Hy.
Qed.

Lemma suml_zero A (l : list A) F : (forall x, In x l -> F x = 0) -> suml l F = 0.
Proof.
  induction l as [|x l IH]; cbn [suml]; intros H; [reflexivity|].
  rewrite H by (left; reflexivity). rewrite IH; [ring|].
  intros y Hy; apply H; right; exact Hy.
Qed.

Lemma suml_app A (l1 l2 : list A) F : suml (l1 ++ l2) F = suml l1 F + suml l2 F.
Proof. induction l1 as [|x l IH]; cbn [app suml]; [ring|]. rewrite IH; ring. Qed.

Lemma suml_plus A (l : list A) F G : suml l (fun x => F x + G x) = suml l F + suml l G.
Proof. induction l as [|x l IH]; cbn [suml]; [ring|]. rewrite IH; ring. Qed.

Lemma suml_scale A (l : list A) c F : suml l (fun x => c * F x) = c * suml l F.
Proof. induction l as [|x l IH]; cbn [suml]; [ring|]. rewrite IH; ring. Qed.

Lemma suml_scale_r A (l : list A) c F : suml l (fun x => F x * c) = suml l F * c.
Proof. induction l as [|x l IH]; cbn [suml]; [ring|]. rewrite IH; ring. Qed.

Lemma suml_opp A (l : list A) F : suml l (fun x => - F x) = - suml l F.
Proof. induction l as [|x l IH]; cbn [suml]; [ring|]. rewrite IH; ring. Qed.

Lemma suml_map A B (f : A -> B) l F : suml (map f l) F = suml l (fun x => F (f x)).
Proof. induction l as [|x l IH]; cbn [map suml]; [reflexivity|]. rewrite IH; reflexivity. Qed.

Lemma suml_flat_map A B (f : A -> list B) l F :
  suml (flat_map f l) F = suml l (fun x => suml (f x) F).
Proof.
  induction l as [|x l IH]; cbn [flat_map suml]; [reflexivity|].
  rewrite suml_app, IH; reflexivity.
Qed.

Lemma suml_perm A (l1 l2 : list A) F : Permutation l1 l2 -> suml l1 F = suml l2 F.
Proof.
  induction 1 as [|x l l' H IH|x y l|l l' l'' H1 IH1 H2 IH2]; cbn [suml].
  - reflexivity.
  - rewrite IH; reflexivity.
  - ring.
  - rewrite IH1, IH2; reflexivity.
Qed.

Lemma suml_swap A B (l1 : list A) (l2 : list B) F :
  suml l1 (fun x => suml l2 (fun y => F x y)) = suml l2 (fun y => suml l1 (fun x => F x y)).
Proof.
  induction l1 as [|x l1 IH]; cbn [suml].
  - symmetry; apply suml_zero; reflexivity.
  - rewrite IH, <- suml_plus; reflexivity.
Qed.

Lemma suml_seq_shift n k F :
  suml (seq (S k) n) F = suml (seq k n) (fun x => F (S x)).
Proof. rewrite <- seq_shift, suml_map; reflexivity. Qed.

(** Summing a list through its positions. *)
Lemma suml_nth A (R : list A) (d : A) F :
  suml (seq 0 (length R)) (fun i => F (nth i R d)) = suml R F.
Proof.
  induction R as [|x R IH]; cbn [length seq suml nth]; [reflexivity|].
  rewrite suml_seq_shift. cbn [nth]. rewrite IH; reflexivity.
Qed.

Lemma suml_seq_delta n k F : (k < n)%nat ->
  (forall i, i <> k -> F i = 0) -> suml (seq 0 n) F = F k.
Proof.
  intros Hk HF.
  rewrite (suml_perm _ (seq 0 n) (k :: (seq 0 k ++ seq (S k) (n - S k)))).
  2:{ replace n with (k + S (n - S k))%nat at 1 by lia.
      rewrite seq_app. cbn [seq Nat.add].
      apply Permutation_sym, Permutation_middle. }
  cbn [suml]. rewrite suml_app.
  rewrite !suml_zero; [ring| |];
    intros i Hi; apply HF; apply in_seq in Hi; lia.
Qed.

(** Embedding of [Q] coefficients. *)
Lemma Q2Qc_plus a b : Q2Qc (a + b) = Q2Qc a + Q2Qc b.
Proof. apply Qc_is_canon. cbn [this Q2Qc Qcplus Qcmult Qcopp]. rewrite !Qred_correct. reflexivity. Qed.
Lemma Q2Qc_mult a b : Q2Qc (a * b) = Q2Qc a * Q2Qc b.
Proof. apply Qc_is_canon. cbn [this Q2Qc Qcplus Qcmult Qcopp]. rewrite !Qred_correct. reflexivity. Qed.
Lemma Q2Qc_opp a : Q2Qc (- a) = - Q2Qc a.
Proof. apply Qc_is_canon. cbn [this Q2Qc Qcplus Qcmult Qcopp]. rewrite !Qred_correct. reflexivity. Qed.
Lemma Q2Qc_red a : Q2Qc (Qred a) = Q2Qc a.
Proof. apply Qc_is_canon. cbn [this Q2Qc Qcplus Qcmult Qcopp]. rewrite !Qred_correct. reflexivity. Qed.
Lemma Q2Qc_0 : Q2Qc 0 = 0. Proof. reflexivity. Qed.
Lemma Q2Qc_1 : Q2Qc 1 = 1. Proof. reflexivity. Qed.
Lemma Q2Qc_num0 q : Qnum q = 0%Z -> Q2Qc q = 0.
Proof.
  intros H. apply Qc_is_canon. cbn [this Q2Qc Qcplus Qcmult Qcopp]. rewrite Qred_correct.
  unfold Qeq. rewrite H. reflexivity.
Qed.

Lemma Qc_self_opp (x : Qc) : x = - x -> x = 0.
Proof.
  intros H. assert (E : (1 + 1) * x = 0) by (replace ((1+1)*x) with (x + x) by ring;
    rewrite H at 2; ring).
  apply Qcmult_integral in E. destruct E as [E|E]; [|exact E].
  discriminate E.
Qed.

Lemma some_inj {A} (a b : A) : Some a = Some b -> a = b.
Proof. congruence. Qed.
