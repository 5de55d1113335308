(** A run that succeeds with one table of callees succeeds with the same value with any larger one. *)
From Coq Require Import List String ZArith QArith Qcanon.
From Verif Require Import Tensor Numpy Interp SymExec.
Import ListNotations.

Section Mono.
  Variables c1 c2 : string -> list value -> option value.
  Hypothesis HC : forall f vs r, c1 f vs = Some r -> c2 f vs = Some r.
  Lemma tbinv_mono g a b a' b' r : (forall x, a = Some x -> a' = Some x) -> (forall x, b = Some x -> b' = Some x) ->
    tbinv g a b = Some r -> tbinv g a' b' = Some r.
  Proof. unfold tbinv. destruct a as [va|]; [|discriminate]. destruct b as [vb|]; [|discriminate]. intros Ha Hb. rewrite (Ha _ eq_refl), (Hb _ eq_refl); auto. Qed.
  Lemma evals_mono env es : Forall (fun e => forall r, eval c1 env e = Some r -> eval c2 env e = Some r) es ->
    forall r, evals c1 env es = Some r -> evals c2 env es = Some r.
  Proof.
    induction 1 as [|e es H _ IH]; cbn; [auto|]. intros r. destruct (eval c1 env e) eqn:E; [|discriminate]. cbn. rewrite (H _ eq_refl). cbn.
    destruct (evals c1 env es) eqn:E'; [|discriminate]. rewrite (IH _ eq_refl). auto.
  Qed.
  Ltac go IH := cbn [eval]; match goal with |- context [obind (eval c1 ?env ?e) _] => destruct (eval c1 env e) eqn:?E; [|discriminate]; rewrite (IH _ eq_refl); auto end.
  Lemma eval_mono env e : forall r, eval c1 env e = Some r -> eval c2 env e = Some r.
  Proof.
    induction e using expr_ind2; intros r0.
    - auto.
    - go IHe.
    - go IHe.
    - go IHe.
    - change (obind (evals c1 env es) (fun vs => obind (omap asT vs) (fun ts => let (ins, out) := parse_spec s in obind (einsum ins out ts) (fun r => Some (VT r)))) = Some r0 ->
        obind (evals c2 env es) (fun vs => obind (omap asT vs) (fun ts => let (ins, out) := parse_spec s in obind (einsum ins out ts) (fun r => Some (VT r)))) = Some r0).
      destruct (evals c1 env es) eqn:E; [|discriminate]. rewrite (evals_mono _ _ H _ E). auto.
    - go IHe.
    - apply tbinv_mono; assumption.
    - apply tbinv_mono; assumption.
    - apply tbinv_mono; assumption.
    - auto.
    - auto.
    - go IHe.
    - change (obind (evals c1 env es) (fun vs => obind (omap asInt vs) (fun ns => Some (VT (tzeros ns)))) = Some r0 ->
        obind (evals c2 env es) (fun vs => obind (omap asInt vs) (fun ns => Some (VT (tzeros ns)))) = Some r0).
      destruct (evals c1 env es) eqn:E; [|discriminate]. rewrite (evals_mono _ _ H _ E). auto.
    - change (obind (evals c1 env es) (fun vs => c1 f vs) = Some r0 -> obind (evals c2 env es) (fun vs => c2 f vs) = Some r0).
      destruct (evals c1 env es) eqn:E; [|discriminate]. rewrite (evals_mono _ _ H _ E). apply HC.
  Qed.
  Lemma step_mono env s : forall r, step c1 env s = Some r -> step c2 env s = Some r.
  Proof.
    destruct s as [x e|b x e]; cbn [step]; intros r.
    - destruct (eval c1 env e) eqn:E; [|discriminate]. rewrite (eval_mono _ _ _ E). auto.
    - destruct (tbinv _ _ (eval c1 env e)) eqn:E; [|discriminate].
      rewrite (tbinv_mono _ _ _ (slook x env) (eval c2 env e) _ (fun _ h => h) (eval_mono env e) E). auto.
  Qed.
  Lemma steps_mono ss : forall env r, steps c1 env ss = Some r -> steps c2 env ss = Some r.
  Proof.
    induction ss as [|s ss IH]; cbn [steps]; [auto|]. intros env r. destruct (step c1 env s) eqn:E; [|discriminate].
    rewrite (step_mono _ _ _ E). apply IH.
  Qed.
  Lemma run_with_mono f args r : run_with c1 f args = Some r -> run_with c2 f args = Some r.
  Proof.
    unfold run_with. destruct (bind_params _ _) as [env|]; [|discriminate]. cbn [obind].
    destruct (steps c1 env _) eqn:E; [|discriminate]. rewrite (steps_mono _ _ _ E). cbn [obind]. apply eval_mono.
  Qed.
End Mono.

Lemma run_mono lib lib' : (forall k f, slook k lib = Some f -> slook k lib' = Some f) ->
  forall d f args r, run d lib f args = Some r -> run d lib' f args = Some r.
Proof.
  intros H. induction d as [|d IH]; intros f args r; apply run_with_mono; [auto|].
  intros g vs r'. destruct (slook g lib) as [h|] eqn:E; [|discriminate]. rewrite (H _ _ E). cbn [obind]. apply IH.
Qed.

(** A run without callees is a run with any table, at any depth. *)
Lemma run_up d lib f args r : run 0 [] f args = Some r -> run d lib f args = Some r.
Proof. destruct d; apply run_with_mono; [auto|]. discriminate. Qed.
