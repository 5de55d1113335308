(** Symbolic tensor polynomials: sums of products of tensor entries with summed ("dummy") indices,
    their meaning, renaming and products.  Proof machinery; it models no particular source line. *)
From Coq Require Import String Ascii List Arith NArith ZArith QArith Qcanon Bool Lia Permutation.
From Verif Require Import Sums.
Import ListNotations.
Open Scope Qc_scope.

Notation var := N (only parsing).
Notation space := N (only parsing).
(** A variable carries its index space in its high bits. *)
Definition spc (v : var) : space := N.shiftr v 6.
Definition mkv (s : space) (i : N) : var := (s * 64 + i)%N.
Definition idv (v : var) : N := N.land v 63.

Definition fac := (N * list var)%type.
Record term := T { tc : Q; td : list var; tf : list fac }.
Definition poly := list term.

Definition memv (v : var) (l : list var) : bool := existsb (N.eqb v) l.
Fixpoint nodupv (l : list var) : bool :=
  match l with [] => true | x :: r => (negb (memv x r) && nodupv r)%bool end.
Definition fvars (fs : list fac) : list var := flat_map (@snd N (list var)) fs.

Lemma memv_In v l : memv v l = true <-> In v l.
Proof.
  unfold memv. rewrite existsb_exists. split.
  - intros [x [Hx E]]. apply N.eqb_eq in E. subst; exact Hx.
  - intros H. exists v. split; [exact H|apply N.eqb_refl].
Qed.
Lemma memv_false v l : memv v l = false <-> ~ In v l.
Proof.
  split.
  - intros H I. apply memv_In in I. congruence.
  - intros H. destruct (memv v l) eqn:E; [|reflexivity]. apply memv_In in E; contradiction.
Qed.
Lemma nodupv_NoDup l : nodupv l = true <-> NoDup l.
Proof.
  induction l as [|x l IH]; cbn [nodupv].
  - split; [constructor|reflexivity].
  - rewrite andb_true_iff, negb_true_iff, memv_false, IH. split.
    + intros [H1 H2]; constructor; assumption.
    + intros H; inversion H; auto.
Qed.

Section Sem.
  (** Orbitals of a space, in array order, and the value of every tensor atom. *)
  Variable range : space -> list nat.
  Variable A : N -> list nat -> Qc.

  Definition env := var -> nat.
  Definition upd (e : env) (v : var) (x : nat) : env := fun w => if N.eqb w v then x else e w.

  Lemma upd_same e v x : upd e v x v = x.
  Proof. unfold upd. rewrite N.eqb_refl. reflexivity. Qed.
  Lemma upd_other e v w x : w <> v -> upd e v x w = e w.
  Proof. unfold upd. intros H. apply N.eqb_neq in H. rewrite H. reflexivity. Qed.

  Definition evalF (e : env) (f : fac) : Qc := A (fst f) (map e (snd f)).
  Fixpoint evalFs (fs : list fac) (e : env) : Qc :=
    match fs with [] => 1 | f :: r => evalF e f * evalFs r e end.
  Fixpoint sumD (ds : list var) (F : env -> Qc) (e : env) : Qc :=
    match ds with
    | [] => F e
    | d :: r => suml (range (spc d)) (fun x => sumD r F (upd e d x))
    end.
  Definition evalT (e : env) (t : term) : Qc := Q2Qc (tc t) * sumD (td t) (evalFs (tf t)) e.
  Definition evalP (e : env) (p : poly) : Qc := suml p (evalT e).

  Lemma evalP_app e p q : evalP e (p ++ q) = evalP e p + evalP e q.
  Proof. apply suml_app. Qed.
  Lemma evalP_cons e t q : evalP e (t :: q) = evalT e t + evalP e q.
  Proof. reflexivity. Qed.
  Lemma evalP_nil e : evalP e [] = 0.
  Proof. reflexivity. Qed.

  Lemma evalFs_app f1 f2 e : evalFs (f1 ++ f2) e = evalFs f1 e * evalFs f2 e.
  Proof. induction f1 as [|f r IH]; cbn [app evalFs]; [ring|rewrite IH; ring]. Qed.

  Lemma evalFs_agree fs e1 e2 :
    (forall v, In v (fvars fs) -> e1 v = e2 v) -> evalFs fs e1 = evalFs fs e2.
  Proof.
    induction fs as [|[n vs] r IH]; cbn [evalFs]; intros H; [reflexivity|].
    rewrite IH.
    2:{ intros v Hv. apply H. unfold fvars; cbn. apply in_or_app; right; exact Hv. }
    unfold evalF; cbn. rewrite (map_ext_in e1 e2); [reflexivity|].
    intros v Hv; apply H. unfold fvars; cbn. apply in_or_app; left; exact Hv.
  Qed.

  Lemma sumD_ext ds F G : forall e, (forall e', F e' = G e') -> sumD ds F e = sumD ds G e.
  Proof.
    induction ds as [|d r IH]; cbn [sumD]; intros e H; [apply H|].
    apply suml_ext; intros x _; apply IH, H.
  Qed.

  Lemma sumD_agree ds fs : forall e1 e2,
    (forall v, In v (fvars fs) -> ~ In v ds -> e1 v = e2 v) ->
    sumD ds (evalFs fs) e1 = sumD ds (evalFs fs) e2.
  Proof.
    induction ds as [|d r IH]; cbn [sumD]; intros e1 e2 H.
    - apply evalFs_agree. intros v Hv; apply H; [exact Hv|intros []].
    - apply suml_ext; intros x _. apply IH. intros v Hv Hn.
      unfold upd. destruct (N.eqb_spec v d) as [E|E]; [reflexivity|].
      apply H; [exact Hv|]. intros [I|I]; [congruence|contradiction].
  Qed.

  Lemma evalT_agree t e1 e2 :
    (forall v, In v (fvars (tf t)) -> ~ In v (td t) -> e1 v = e2 v) -> evalT e1 t = evalT e2 t.
  Proof. intros H. unfold evalT. f_equal. apply sumD_agree, H. Qed.

  (** *** Renaming *)
  Definition ren_fac (rho : var -> var) (f : fac) : fac := (fst f, map rho (snd f)).
  Definition ren_ok (rho : var -> var) (ds : list var) (fs : list fac) : bool :=
    let ds' := map rho ds in
    (nodupv ds' && forallb (fun d => N.eqb (spc (rho d)) (spc d)) ds &&
     forallb (fun v => memv v ds || negb (memv (rho v) ds'))%bool (fvars fs))%bool.

  Lemma NoDup_map_inj {X Y} (f : X -> Y) l x y :
    NoDup (map f l) -> In x l -> In y l -> f x = f y -> x = y.
  Proof.
    induction l as [|z l IH]; cbn; intros ND Hx Hy E; [contradiction|].
    inversion ND as [|? ? Hn ND']; subst.
    destruct Hx as [Hx|Hx], Hy as [Hy|Hy]; subst.
    - reflexivity.
    - exfalso; apply Hn. rewrite E. apply in_map, Hy.
    - exfalso; apply Hn. rewrite <- E. apply in_map, Hx.
    - apply IH; assumption.
  Qed.

  Lemma sumD_ren_aux rho fs : forall ds e e',
    NoDup (map rho ds) ->
    (forall d, In d ds -> spc (rho d) = spc d) ->
    (forall v d, In v (fvars fs) -> In d ds -> v <> d -> rho v <> rho d) ->
    (forall v, In v (fvars fs) -> ~ In v ds -> e' (rho v) = e v) ->
    sumD (map rho ds) (evalFs (map (ren_fac rho) fs)) e' = sumD ds (evalFs fs) e.
  Proof.
    induction ds as [|d r IH]; cbn [map sumD]; intros e e' ND Hs Hi He.
    - clear ND Hs Hi. induction fs as [|[n vs] r IH]; cbn [map evalFs]; [reflexivity|].
      rewrite IH.
      2:{ intros v Hv Hn. apply He; [|exact Hn]. unfold fvars; cbn.
          apply in_or_app; right; exact Hv. }
      f_equal. unfold evalF, ren_fac; cbn. f_equal. rewrite map_map.
      apply map_ext_in. intros v Hv. apply He; [|intros []].
      unfold fvars; cbn. apply in_or_app; left; exact Hv.
    - inversion ND as [|? ? Hn ND']; subst.
      rewrite Hs by (left; reflexivity). apply suml_ext; intros x _.
      apply IH.
      + exact ND'.
      + intros d' Hd'; apply Hs; right; exact Hd'.
      + intros v d' Hv Hd'. apply Hi; [exact Hv|right; exact Hd'].
      + intros v Hv Hnr. destruct (N.eq_dec v d) as [E|E].
        * subst. rewrite !upd_same. reflexivity.
        * rewrite !upd_other; [|exact E|apply Hi; [exact Hv|left; reflexivity|exact E]].
          apply He; [exact Hv|]. intros [I|I]; [congruence|contradiction].
  Qed.

  Lemma sumD_ren rho ds fs e e' :
    ren_ok rho ds fs = true ->
    (forall v, In v (fvars fs) -> ~ In v ds -> e' (rho v) = e v) ->
    sumD (map rho ds) (evalFs (map (ren_fac rho) fs)) e' = sumD ds (evalFs fs) e.
  Proof.
    unfold ren_ok. rewrite !andb_true_iff, !forallb_forall.
    intros [[H1 H2] H3] He. apply nodupv_NoDup in H1.
    apply sumD_ren_aux; [exact H1| | |exact He].
    - intros d Hd. apply N.eqb_eq, H2, Hd.
    - intros v d Hv Hd Hne E. specialize (H3 v Hv). apply orb_true_iff in H3.
      destruct H3 as [H3|H3].
      + apply memv_In in H3. apply Hne. eapply NoDup_map_inj; eassumption.
      + rewrite negb_true_iff, memv_false in H3. apply H3. rewrite E. apply in_map, Hd.
  Qed.

  Definition ren_term (rho : var -> var) (t : term) : option term :=
    if ren_ok rho (td t) (tf t)
    then Some (T (tc t) (map rho (td t)) (map (ren_fac rho) (tf t)))
    else None.

  Lemma ren_term_sound rho t t' e e' :
    ren_term rho t = Some t' ->
    (forall v, In v (fvars (tf t)) -> ~ In v (td t) -> e' (rho v) = e v) ->
    evalT e' t' = evalT e t.
  Proof.
    unfold ren_term. destruct (ren_ok rho (td t) (tf t)) eqn:E; [|discriminate].
    intros [= <-] H. unfold evalT; cbn [tc td tf]. f_equal. apply sumD_ren; assumption.
  Qed.

  (** *** Products *)
  Lemma sumD_app d1 d2 F : forall e, sumD (d1 ++ d2) F e = sumD d1 (sumD d2 F) e.
  Proof.
    induction d1 as [|d r IH]; cbn [app sumD]; intros e; [reflexivity|].
    apply suml_ext; intros x _; apply IH.
  Qed.

  Lemma sumD_scale_l ds F G : (forall e d x, In d ds -> F (upd e d x) = F e) ->
    forall e, sumD ds (fun e => F e * G e) e = F e * sumD ds G e.
  Proof.
    induction ds as [|d r IH]; cbn [sumD]; intros H e; [reflexivity|].
    rewrite <- suml_scale. apply suml_ext; intros x _.
    rewrite IH.
    - rewrite H by (left; reflexivity). reflexivity.
    - intros e' d' x' Hd'; apply H; right; exact Hd'.
  Qed.
  Lemma sumD_scale_r ds F G : (forall e d x, In d ds -> G (upd e d x) = G e) ->
    forall e, sumD ds (fun e => F e * G e) e = sumD ds F e * G e.
  Proof.
    intros H e. rewrite (sumD_ext ds _ (fun e => G e * F e)) by (intros; ring).
    rewrite sumD_scale_l by exact H. ring.
  Qed.
  Lemma sumD_const ds c F : forall e, sumD ds (fun e => c * F e) e = c * sumD ds F e.
  Proof. intros e. exact (sumD_scale_l ds (fun _ => c) F (fun _ _ _ _ => eq_refl) e). Qed.
  Lemma sumD_plus ds F G : forall e, sumD ds (fun e => F e + G e) e = sumD ds F e + sumD ds G e.
  Proof.
    induction ds as [|d r IH]; cbn [sumD]; intros e; [reflexivity|].
    rewrite <- suml_plus. apply suml_ext; intros x _; apply IH.
  Qed.
  Lemma sumD_zero ds : forall e, sumD ds (fun _ => 0) e = 0.
  Proof.
    induction ds as [|d r IH]; cbn [sumD]; intros e; [reflexivity|].
    apply suml_zero; intros x _; apply IH.
  Qed.

  Definition disj (l1 l2 : list var) : bool := forallb (fun v => negb (memv v l2)) l1.
  Lemma disj_spec l1 l2 v : disj l1 l2 = true -> In v l1 -> ~ In v l2.
  Proof.
    unfold disj. rewrite forallb_forall. intros H Hv. specialize (H v Hv).
    rewrite negb_true_iff, memv_false in H. exact H.
  Qed.

  Definition tmul (t1 t2 : term) : option term :=
    if (disj (td t2) (fvars (tf t1)) && disj (td t1) (fvars (tf t2)))%bool
    then Some (T (Qred (tc t1 * tc t2)) (td t1 ++ td t2) (tf t1 ++ tf t2))
    else None.

  Lemma tmul_sound t1 t2 t e : tmul t1 t2 = Some t -> evalT e t = evalT e t1 * evalT e t2.
  Proof.
    unfold tmul. destruct (disj (td t2) _) eqn:D1; [|discriminate].
    destruct (disj (td t1) _) eqn:D2; [|discriminate]. cbn [andb]. intros HH; apply some_inj in HH; subst t.
    unfold evalT; cbn [tc td tf]. rewrite Q2Qc_red, Q2Qc_mult, sumD_app.
    rewrite (sumD_ext (td t1) _
      (fun e => evalFs (tf t1) e * sumD (td t2) (evalFs (tf t2)) e)).
    2:{ intros e'. rewrite (sumD_ext (td t2) _ (fun e => evalFs (tf t1) e * evalFs (tf t2) e))
          by (intros; apply evalFs_app).
        apply sumD_scale_l. intros e'' d x Hd. apply evalFs_agree.
        intros v Hv. apply upd_other. intros ->.
        exact (disj_spec _ _ _ D1 Hd Hv). }
    rewrite sumD_scale_r.
    2:{ intros e' d x Hd. apply sumD_agree. intros v Hv Hn. apply upd_other. intros ->.
        exact (disj_spec _ _ _ D2 Hd Hv). }
    ring.
  Qed.

  Fixpoint omapl {X Y} (f : X -> option Y) (l : list X) : option (list Y) :=
    match l with
    | [] => Some []
    | x :: r => match f x with
                | Some y => match omapl f r with Some ys => Some (y :: ys) | None => None end
                | None => None
                end
    end.

  Lemma omapl_sum {X} (f : X -> option term) (F : X -> Qc) l p e :
    omapl f l = Some p -> (forall x t, In x l -> f x = Some t -> evalT e t = F x) ->
    evalP e p = suml l F.
  Proof.
    revert p. induction l as [|x l IH]; cbn [omapl]; intros p.
    - intros [= <-] _. reflexivity.
    - destruct (f x) as [t|] eqn:Ex; [|discriminate].
      destruct (omapl f l) as [ys|] eqn:El; [|discriminate].
      intros [= <-] H. rewrite evalP_cons. cbn [suml]. f_equal.
      + apply H; [left; reflexivity|exact Ex].
      + apply IH; [reflexivity|]. intros y t' Hy; apply H; right; exact Hy.
  Qed.

  (** Product of two polynomials. *)
  Fixpoint pmul (p q : poly) : option poly :=
    match p with
    | [] => Some []
    | t :: r => match omapl (tmul t) q, pmul r q with
                | Some a, Some b => Some (a ++ b)
                | _, _ => None
                end
    end.
  Lemma pmul_sound p q r e : pmul p q = Some r -> evalP e r = evalP e p * evalP e q.
  Proof.
    revert r; induction p as [|t p IH]; cbn [pmul]; intros r.
    - intros [= <-]. cbn. ring.
    - destruct (omapl (tmul t) q) as [a|] eqn:Ea; [|discriminate].
      destruct (pmul p q) as [b|] eqn:Eb; [|discriminate].
      intros [= <-]. rewrite evalP_app, evalP_cons, (IH b eq_refl).
      rewrite (omapl_sum (tmul t) (fun u => evalT e t * evalT e u) q a e Ea).
      + rewrite suml_scale. unfold evalP. ring.
      + intros x u _ H. apply tmul_sound, H.
  Qed.

  Definition pscale (c : Q) (p : poly) : poly :=
    map (fun t => T (Qred (c * tc t)) (td t) (tf t)) p.
  Lemma pscale_sound c p e : evalP e (pscale c p) = Q2Qc c * evalP e p.
  Proof.
    unfold evalP, pscale. rewrite suml_map, <- suml_scale. apply suml_ext; intros t _.
    unfold evalT; cbn [tc td tf]. rewrite Q2Qc_red, Q2Qc_mult. ring.
  Qed.

  Definition psub (p q : poly) : poly := pscale (-1) q ++ p.
  Lemma psub_sound p q e : evalP e (psub p q) = evalP e p - evalP e q.
  Proof.
    unfold psub. rewrite evalP_app, pscale_sound.
    replace (Q2Qc (-1)) with (- (1)) by reflexivity. ring.
  Qed.

  (** Prefixing summation variables. *)
  Definition psum (ds : list var) (p : poly) : poly := map (fun t => T (tc t) (ds ++ td t) (tf t)) p.
  Lemma psum_sound ds p : forall e, evalP e (psum ds p) = sumD ds (fun e => evalP e p) e.
  Proof.
    induction p as [|t p IH]; intros e.
    - cbn. symmetry. apply sumD_zero.
    - unfold psum in *. cbn [map]. rewrite evalP_cons, IH.
      rewrite (sumD_ext ds (fun e => evalP e (t :: p)) (fun e => evalT e t + evalP e p))
        by reflexivity.
      rewrite sumD_plus. f_equal. unfold evalT; cbn [tc td tf].
      rewrite sumD_app, sumD_const. reflexivity.
  Qed.
End Sem.
