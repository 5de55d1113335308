(** Every array has a bound on its entries (used to instantiate the error-bound theorems). *)
From Coq Require Import List Arith NArith ZArith QArith Qcanon Lia.
From Coq Require Qcabs.
From Verif Require Import Sums Tensor Spec Bound.
Import ListNotations.
Open Scope Qc_scope.

Lemma bound_fun sh : forall d : list nat -> Qc, exists M, 1 <= M /\ forall idx, inr idx sh -> Qcabs.Qcabs (d idx) <= M.
Proof.
  induction sh as [|n sh IH]; intros d.
  - exists (1 + Qcabs.Qcabs (d [])). split.
    + rewrite <- (Qcplus_0_r 1) at 1. apply Qcplus_le_compat; [apply Qcle_refl|apply Qcabs.Qcabs_nonneg].
    + intros idx H. inversion H; subst. rewrite <- (Qcplus_0_l (Qcabs.Qcabs _)) at 1.
      apply Qcplus_le_compat; [apply Qcle_0_1|apply Qcle_refl].
  - assert (G : forall m, exists M, 1 <= M /\ forall i idx, (i < m)%nat -> inr idx sh -> Qcabs.Qcabs (d (i :: idx)) <= M).
    { induction m as [|m [M1 [A1 A2]]]; [exists 1; split; [apply Qcle_refl|intros; lia]|].
      destruct (IH (fun idx => d (m :: idx))) as [M2 [B1 B2]].
      assert (P1 : 0 <= M1) by (eapply Qcle_trans; [apply Qcle_0_1|exact A1]).
      assert (P2 : 0 <= M2) by (eapply Qcle_trans; [apply Qcle_0_1|exact B1]).
      exists (M1 + M2). split.
      - rewrite <- (Qcplus_0_r 1) at 1. apply Qcplus_le_compat; assumption.
      - intros i idx Hi Hx. destruct (Nat.eq_dec i m) as [->|E].
        + rewrite <- (Qcplus_0_l (Qcabs.Qcabs _)) at 1. apply Qcplus_le_compat; [exact P1|apply B2, Hx].
        + rewrite <- (Qcplus_0_r (Qcabs.Qcabs _)) at 1. apply Qcplus_le_compat; [apply A2; [lia|exact Hx]|exact P2]. }
    destruct (G n) as [M [H1 H2]]. exists M. split; [exact H1|]. intros idx H. inversion H; subst. apply H2; assumption.
Qed.
Lemma bounded_mono M M' t : M <= M' -> bounded M t -> bounded M' t.
Proof. intros H B idx Hi. eapply Qcle_trans; [apply B, Hi|exact H]. Qed.
Lemma bounded_all ts : exists M, 1 <= M /\ Forall (bounded M) ts.
Proof.
  induction ts as [|t ts [M1 [A1 A2]]]; [exists 1; split; [apply Qcle_refl|constructor]|].
  destruct (bound_fun (shape t) (data t)) as [M2 [B1 B2]].
  assert (P1 : 0 <= M1) by (eapply Qcle_trans; [apply Qcle_0_1|exact A1]).
  assert (P2 : 0 <= M2) by (eapply Qcle_trans; [apply Qcle_0_1|exact B1]).
  exists (M1 + M2). split.
  - rewrite <- (Qcplus_0_r 1) at 1. apply Qcplus_le_compat; assumption.
  - constructor.
    + apply (bounded_mono M2); [|exact B2]. rewrite <- (Qcplus_0_l M2) at 1. apply Qcplus_le_compat; [exact P1|apply Qcle_refl].
    + eapply Forall_impl; [|exact A2]. intros x. apply bounded_mono. rewrite <- (Qcplus_0_r M1) at 1.
      apply Qcplus_le_compat; [apply Qcle_refl|exact P2].
Qed.
