(** Wick's theorem for the operators of [Fock], and its symbolic version: vacuum expectation values of operator strings with
    summed indices as tensor polynomials.  Proof machinery; it models no particular source line. *)
From Coq Require Import String Ascii List Arith NArith ZArith QArith Qcanon Bool Lia Permutation.
From Verif Require Import Sums Tensor Interp Poly Canon Spec Setup Master Fock.
Import ListNotations.
Open Scope Qc_scope.

Definition fop (d : bool) (p : nat) : Fock.op := fun psi n => ferm d p n psi.
Definition sb (b : bool) : Qc := if b then - (1) else 1.
Lemma sb_sq b : sb b * sb b = 1. Proof. destruct b; reflexivity. Qed.

Lemma ferm_ext d n : forall p psi phi, (forall m, psi m = phi m) -> ferm d p n psi = ferm d p n phi.
Proof.
  induction n as [|b r IH]; intros p psi phi H; [reflexivity|]. destruct p as [|q]; cbn [ferm].
  - destruct (Bool.eqb b d); [apply H|reflexivity].
  - f_equal. apply IH. intros m. apply H.
Qed.
Lemma ferm_scale d n : forall p c psi, ferm d p n (fun m => c * psi m) = c * ferm d p n psi.
Proof.
  induction n as [|b r IH]; intros p c psi; cbn [ferm]; [ring|]. destruct p as [|q].
  - destruct (Bool.eqb b d); ring.
  - rewrite IH. ring.
Qed.
Lemma ferm_plus d n : forall p psi phi, ferm d p n (fun m => psi m + phi m) = ferm d p n psi + ferm d p n phi.
Proof.
  induction n as [|b r IH]; intros p psi phi; cbn [ferm]; [ring|]. destruct p as [|q].
  - destruct (Bool.eqb b d); ring.
  - rewrite IH. ring.
Qed.
Lemma ferm_zero d n p : ferm d p n (fun _ => 0) = 0.
Proof. rewrite (ferm_ext d n p _ (fun m => 0 * 0)) by (intros; ring). rewrite ferm_scale. ring. Qed.
Lemma ferm_suml {X} d n p (l : list X) (F : X -> ket) : ferm d p n (fun m => suml l (fun x => F x m)) = suml l (fun x => ferm d p n (F x)).
Proof.
  induction l as [|x l IH]; cbn [suml]; [apply ferm_zero|]. rewrite <- IH. apply (ferm_plus d n p (F x)).
Qed.

(** The canonical anticommutation relations. *)
Theorem anticommutator d d' n : forall p q psi,
  ferm d p n (fop d' q psi) + ferm d' q n (fop d p psi) =
  if (xorb d d' && Nat.eqb p q && Nat.ltb p (length n))%bool then psi n else 0.
Proof.
  induction n as [|b r IH]; intros p q psi.
  - cbn. rewrite andb_false_r. ring.
  - destruct p as [|p], q as [|q]; cbn [ferm Nat.eqb length].
    + unfold fop. cbn [ferm]. destruct b, d, d'; cbn; ring.
    + rewrite andb_false_r. cbn [andb]. unfold fop at 1. cbn [ferm].
      rewrite (ferm_ext d' r q (fun m => fop d 0 psi (b :: m)) (fun m => (if Bool.eqb b d then 1 else 0) * psi (negb d :: m))).
      * rewrite ferm_scale. destruct b, d; cbn; ring.
      * intros m. unfold fop. cbn [ferm]. destruct (Bool.eqb b d); ring.
    + rewrite andb_false_r. cbn [andb]. unfold fop at 2. cbn [ferm].
      rewrite (ferm_ext d r p (fun m => fop d' 0 psi (b :: m)) (fun m => (if Bool.eqb b d' then 1 else 0) * psi (negb d' :: m))).
      * rewrite ferm_scale. destruct b, d'; cbn; ring.
      * intros m. unfold fop. cbn [ferm]. destruct (Bool.eqb b d'); ring.
    + change (S p <? S (length r))%nat with (p <? length r)%nat.
      rewrite (ferm_ext d r p (fun m => fop d' (S q) psi (b :: m)) (fun m => sb b * fop d' q (fun k => psi (b :: k)) m)) by reflexivity.
      rewrite (ferm_ext d' r q (fun m => fop d (S p) psi (b :: m)) (fun m => sb b * fop d p (fun k => psi (b :: k)) m)) by reflexivity.
      rewrite !ferm_scale. specialize (IH p q (fun k => psi (b :: k))). change (if b then - (1) else 1) with (sb b).
      transitivity (sb b * sb b * (ferm d p r (fop d' q (fun k => psi (b :: k))) + ferm d' q r (fop d p (fun k => psi (b :: k))))); [ring|].
      rewrite IH, sb_sq. ring.
Qed.

(** What kills the reference. *)
Lemma ferm_kill d n : forall p psi, nth p n (negb d) = negb d -> ferm d p n psi = 0.
Proof.
  induction n as [|b r IH]; intros p psi H; [reflexivity|]. destruct p as [|q]; cbn [ferm nth] in *.
  - subst b. destruct d; reflexivity.
  - rewrite IH by exact H. ring.
Qed.
Lemma same_det_eq n : forall m, same_det n m = true -> n = m.
Proof.
  induction n as [|b n IH]; intros [|c m] H; try discriminate; [reflexivity|]. cbn in H. apply andb_true_iff in H. destruct H as [H1 H2].
  apply eqb_prop in H1. subst. f_equal. apply IH, H2.
Qed.
Lemma same_det_refl n : same_det n n = true.
Proof. induction n as [|b n IH]; [reflexivity|]. cbn. rewrite IH. destruct b; reflexivity. Qed.
(** only determinants with orbital p in the other state contribute *)
Lemma ferm_support d n : forall p psi, (forall m, length m = length n -> nth p m d = negb d -> psi m = 0) -> ferm d p n psi = 0.
Proof.
  induction n as [|b r IH]; intros p psi H; [reflexivity|]. destruct p as [|q]; cbn [ferm].
  - destruct (Bool.eqb_spec b d); [|reflexivity]. apply H; reflexivity.
  - rewrite IH; [ring|]. intros m L E. apply H; [cbn; congruence|exact E].
Qed.
Lemma ref_len no nv : length (ref no nv) = (no + nv)%nat.
Proof. unfold ref. rewrite app_length, !repeat_length. reflexivity. Qed.
Lemma ref_nth no nv p b : (p < no + nv)%nat -> nth p (ref no nv) b = Nat.ltb p no.
Proof.
  intros H. unfold ref. assert (R : forall (x : bool) k j d, (j < k)%nat -> nth j (repeat x k) d = x).
  { intros x k. induction k as [|k IH]; intros j d L; [lia|]. destruct j; cbn; [reflexivity|apply IH; lia]. }
  destruct (Nat.ltb_spec p no).
  - rewrite app_nth1 by (rewrite repeat_length; lia). apply R; assumption.
  - rewrite app_nth2 by (rewrite repeat_length; lia). rewrite repeat_length. apply R. lia.
Qed.
Lemma kill_right no nv d p n : (p < no + nv)%nat -> Nat.ltb p no = d -> ferm d p n (Phi no nv) = 0.
Proof.
  intros Hp H. apply ferm_support. intros m _ E. unfold Phi. destruct (same_det m (ref no nv)) eqn:S; [|reflexivity].
  apply same_det_eq in S. subst m. rewrite ref_nth in E by exact Hp. rewrite H in E. destruct d; discriminate.
Qed.
Lemma kill_left no nv d p psi : (p < no + nv)%nat -> Nat.ltb p no = negb d -> ferm d p (ref no nv) psi = 0.
Proof. intros Hp H. apply ferm_kill. rewrite ref_nth by exact Hp. exact H. Qed.

(** Strings of operators. *)
Definition sops := list (bool * nat).
Definition act (ops : sops) (psi : ket) : ket := fold_right (fun o phi => fop (fst o) (snd o) phi) psi ops.
Lemma act_ext ops psi phi : (forall m, psi m = phi m) -> forall n, act ops psi n = act ops phi n.
Proof.
  intros H. induction ops as [|o ops IH]; intros n; cbn [act fold_right]; [apply H|]. apply ferm_ext. exact IH.
Qed.
Lemma act_scale ops c psi n : act ops (fun m => c * psi m) n = c * act ops psi n.
Proof.
  revert n. induction ops as [|o ops IH]; intros n; cbn [act fold_right]; [reflexivity|]. unfold fop.
  rewrite <- ferm_scale. apply ferm_ext. exact IH.
Qed.
Lemma act_suml {X} ops (l : list X) F n : act ops (fun m => suml l (fun x => F x m)) n = suml l (fun x => act ops (F x) n).
Proof.
  revert n. induction ops as [|o ops IH]; intros n; cbn [act fold_right]; [reflexivity|]. unfold fop.
  rewrite <- ferm_suml. apply ferm_ext. exact IH.
Qed.
Lemma act_app a b psi : act (a ++ b)%list psi = act a (act b psi).
Proof. apply fold_right_app. Qed.

(** all ways of taking one element out of a list, with the parity of its position *)
Fixpoint picks {X} (l : list X) : list (bool * X * list X) :=
  match l with
  | [] => []
  | x :: r => (true, x, r) :: map (fun t => (negb (fst (fst t)), snd (fst t), x :: snd t)) (picks r)
  end.
Definition antic (N : nat) (x y : bool * nat) : Qc :=
  if (xorb (fst x) (fst y) && Nat.eqb (snd x) (snd y) && Nat.ltb (snd x) N)%bool then 1 else 0.
(** an operator moved through a string *)
Lemma move_right x psi N : (forall n, fop (fst x) (snd x) psi n = 0) -> forall ys n, length n = N ->
  fop (fst x) (snd x) (act ys psi) n = suml (picks ys) (fun t => sgn (fst (fst t)) * antic N x (snd (fst t)) * act (snd t) psi n).
Proof.
  intros HK. 
  assert (LEN : forall d p n (f g : ket), (forall m, length m = length n -> f m = g m) -> ferm d p n f = ferm d p n g).
  { intros d p n. revert p. induction n as [|b r IH]; intros p f g H; [reflexivity|]. destruct p as [|q]; cbn [ferm].
    - destruct (Bool.eqb b d); [apply H; reflexivity|reflexivity].
    - f_equal. apply IH. intros m L. apply H. cbn. congruence. }
  induction ys as [|y ys IH]; intros n L; [apply HK|].
  change (act (y :: ys) psi) with (fop (fst y) (snd y) (act ys psi)).
  pose proof (anticommutator (fst x) (fst y) n (snd x) (snd y) (act ys psi)) as AC.
  cbn [picks suml fst snd]. rewrite suml_map. cbn [fst snd sgn].
  change (fop (fst x) (snd x) (fop (fst y) (snd y) (act ys psi)) n) with (ferm (fst x) (snd x) n (fop (fst y) (snd y) (act ys psi))).
  transitivity ((if (xorb (fst x) (fst y) && Nat.eqb (snd x) (snd y) && Nat.ltb (snd x) (length n))%bool then act ys psi n else 0) - ferm (fst y) (snd y) n (fop (fst x) (snd x) (act ys psi))).
  { rewrite <- AC. ring. }
  rewrite (LEN (fst y) (snd y) n _ (fun m => suml (picks ys) (fun t => sgn (fst (fst t)) * antic N x (snd (fst t)) * act (snd t) psi m))).
  2:{ intros m Lm. apply IH. congruence. }
  rewrite ferm_suml. unfold Qcminus. f_equal.
  - unfold antic. rewrite <- L. destruct (_ && _)%bool; ring.
  - rewrite <- suml_opp. apply suml_ext. intros t _. rewrite ferm_scale.
    change (ferm (fst y) (snd y) n (act (snd t) psi)) with (act (y :: snd t) psi n). destruct (fst (fst t)); cbn [negb sgn]; ring.
Qed.

(** ** The symbolic version *)
Section Sym.
  Variables no nv : nat.
  Notation range := (so_range no nv).
  Variable A : N -> list nat -> Qc.
  (** Kronecker delta as a tensor atom *)
  Definition dlt : N := 60%N.
  Definition A' (n : N) (l : list nat) : Qc :=
    if N.eqb n dlt then match l with [x; y] => if Nat.eqb x y then 1 else 0 | _ => 0 end else A n l.
  Definition vop := (bool * var)%type.
  Definition ov (s : space) : bool := (N.eqb s 0 || N.eqb s 1)%bool.
  Definition inst (e : env) (o : vop) : bool * nat := (fst o, e (snd o)).
  Definition typed (e : env) (ops : list vop) : Prop := forall o, In o ops -> ov (spc (snd o)) = true /\ In (e (snd o)) (range (spc (snd o))).
  (** true: annihilates the reference; false: its adjoint does *)
  Definition killer (o : vop) : bool := if fst o then N.eqb (spc (snd o)) 0 else N.eqb (spc (snd o)) 1.
  Definition compat (x y : vop) : bool := (xorb (fst x) (fst y) && N.eqb (spc (snd x)) (spc (snd y)))%bool.
  Fixpoint wick (fuel : nat) (l : list vop) : list (bool * list fac) :=
    match l, fuel with
    | [], _ => [(true, [])]
    | x :: r, S k =>
        if killer x then
          flat_map (fun t => if compat x (snd (fst t)) then
             map (fun w => (Bool.eqb (fst (fst t)) (fst w), (dlt, [snd x; snd (snd (fst t))]) :: snd w)) (wick k (snd t)) else []) (picks r)
        else []
    | _, O => []
    end.
  Definition vev (e : env) (ops : list vop) : Qc := act (map (inst e) ops) (Phi no nv) (ref no nv).

  Lemma typed_lt e (o : vop) : ov (spc (snd o)) = true -> In (e (snd o)) (range (spc (snd o))) ->
    (e (snd o) < no + nv)%nat /\ Nat.ltb (e (snd o)) no = N.eqb (spc (snd o)) 0.
  Proof.
    unfold ov. rewrite orb_true_iff, !N.eqb_eq. intros [E|E] H; rewrite E in *; cbn in H; apply in_seq in H.
    - split; [lia|]. apply Nat.ltb_lt. lia.
    - split; [lia|]. apply Nat.ltb_ge. lia.
  Qed.
  Lemma picks_in {X} (l : list X) t : In t (picks l) -> In (snd (fst t)) l /\ (forall x, In x (snd t) -> In x l) /\ length l = S (length (snd t)).
  Proof.
    revert t. induction l as [|x r IH]; intros t H; [destruct H|]. cbn [picks] in H. destruct H as [<-|H].
    - cbn. auto.
    - apply in_map_iff in H. destruct H as [u [<- Hu]]. destruct (IH u Hu) as [H1 [H2 H3]]. cbn. split; [auto|]. split; [|congruence].
      intros y [->|Hy]; auto.
  Qed.
  Lemma picks_map {X Y} (f : X -> Y) l : picks (map f l) = map (fun t => (fst (fst t), f (snd (fst t)), map f (snd t))) (picks l).
  Proof.
    induction l as [|x r IH]; cbn [map picks]; [reflexivity|]. rewrite IH, !map_map. reflexivity.
  Qed.
  Lemma mul4 (a b c d : Qc) : a * b * (c * d) = a * c * (b * d). Proof. ring. Qed.
  Lemma sgn_eqb a b : sgn (Bool.eqb a b) = sgn a * sgn b. Proof. destruct a, b; cbn; ring. Qed.
  Lemma wick_sound e : forall fuel ops, (length ops <= fuel)%nat -> typed e ops ->
    vev e ops = suml (wick fuel ops) (fun w => sgn (fst w) * evalFs A' (snd w) e).
  Proof.
    induction fuel as [|fuel IH]; intros ops HL HT.
    - destruct ops; [|cbn in HL; lia]. cbn. unfold vev. cbn. unfold Phi. rewrite same_det_refl. ring.
    - destruct ops as [|x r]; [cbn; unfold vev; cbn; unfold Phi; rewrite same_det_refl; ring|]. cbn [wick].
      destruct (HT x (or_introl eq_refl)) as [O1 R1]. destruct (typed_lt e x O1 R1) as [LT ISO].
      unfold vev. cbn [map]. change (act (inst e x :: map (inst e) r) (Phi no nv)) with (fop (fst x) (e (snd x)) (act (map (inst e) r) (Phi no nv))).
      destruct (killer x) eqn:KX.
      + rewrite (move_right (inst e x) (Phi no nv) (no + nv)).
        * rewrite picks_map, suml_map, suml_flat_map. apply suml_ext. intros t Ht. cbn [fst snd].
          destruct (picks_in r t Ht) as [P1 [P2 P3]]. destruct (HT _ (or_intror P1)) as [O2 R2]. destruct (typed_lt e _ O2 R2) as [LT2 ISO2].
          destruct (compat x (snd (fst t))) eqn:CX.
          -- rewrite suml_map. unfold compat in CX. apply andb_true_iff in CX. destruct CX as [CX _].
             change (act (map (inst e) (snd t)) (Phi no nv) (ref no nv)) with (vev e (snd t)). rewrite IH.
             ++ rewrite <- suml_scale. apply suml_ext. intros w _. cbn [fst snd evalFs]. rewrite sgn_eqb. unfold evalF. cbn [fst snd map]. unfold A' at 2. rewrite N.eqb_refl.
                unfold antic, inst. cbn [fst snd]. rewrite CX, (proj2 (Nat.ltb_lt _ _) LT), andb_true_r. cbn [andb]. apply mul4.
             ++ cbn in HL. lia.
             ++ intros o Ho. apply HT. right. apply P2, Ho.
          -- cbn [suml]. replace (antic (no + nv) (inst e x) (inst e (snd (fst t)))) with 0; [ring|].
             unfold antic, inst. cbn [fst snd]. unfold compat in CX.
             destruct (xorb (fst x) (fst (snd (fst t)))); [|reflexivity]. cbn [andb] in *.
             destruct (Nat.eqb_spec (e (snd x)) (e (snd (snd (fst t))))) as [EQ|]; [|reflexivity]. exfalso.
             rewrite EQ in ISO. rewrite ISO in ISO2. apply N.eqb_neq in CX. apply CX.
             unfold ov in O1, O2. destruct (N.eqb_spec (spc (snd x)) 0), (N.eqb_spec (spc (snd (snd (fst t)))) 0); cbn in *; try discriminate; try congruence.
             apply N.eqb_eq in O1, O2. congruence.
        * intros n. cbn [inst fst snd]. apply kill_right; [exact LT|]. rewrite ISO. unfold killer in KX.
          destruct (fst x); [exact KX|]. apply N.eqb_eq in KX. rewrite KX. reflexivity.
        * apply ref_len.
      + cbn [suml]. apply kill_left; [exact LT|]. rewrite ISO. unfold killer in KX. destruct (fst x); cbn [negb]; [exact KX|].
        unfold ov in O1. rewrite KX, orb_false_r in O1. exact O1.
  Qed.

  (** *** Summed indices *)
  Record oterm := OT { oc : Q; od : list var; ofs : list fac; oo : list vop }.
  Definition oact (e : env) (t : oterm) (psi : ket) (n : det) : Qc :=
    Q2Qc (oc t) * sumD range (od t) (fun e' => evalFs A (ofs t) e' * act (map (inst e') (oo t)) psi n) e.
  Definition ovars (t : oterm) : list var := (fvars (ofs t) ++ map snd (oo t))%list.
  Definition omul (t1 t2 : oterm) : oterm := OT (Qred (oc t1 * oc t2)) (od t1 ++ od t2) (ofs t1 ++ ofs t2) (oo t1 ++ oo t2).
  Definition odisj (t1 t2 : oterm) : bool := (disj (od t1) (ovars t2) && disj (od t2) (ovars t1))%bool.

  Lemma inst_agree e1 e2 (ops : list vop) : (forall v, In v (map snd ops) -> e1 v = e2 v) -> map (inst e1) ops = map (inst e2) ops.
  Proof.
    intros H. apply map_ext_in. intros o Ho. unfold inst. rewrite H; [reflexivity|]. apply in_map, Ho.
  Qed.
  Lemma act_sumD ops ds (F : env -> ket) n : forall e,
    act ops (fun m => sumD range ds (fun e' => F e' m) e) n = sumD range ds (fun e' => act ops (F e') n) e.
  Proof.
    induction ds as [|d ds IH]; intros e; cbn [sumD]; [reflexivity|].
    rewrite (act_suml ops (range (spc d)) (fun x m => sumD range ds (fun e' => F e' m) (upd e d x)) n).
    apply suml_ext. intros x _. apply IH.
  Qed.
  (** agreement off the summed variables, for any integrand that only reads some variables *)
  Lemma sumD_agree_gen (F : env -> Qc) (vs : list var) : (forall e1 e2, (forall v, In v vs -> e1 v = e2 v) -> F e1 = F e2) ->
    forall ds e1 e2, (forall v, In v vs -> ~ In v ds -> e1 v = e2 v) -> sumD range ds F e1 = sumD range ds F e2.
  Proof.
    intros HF. induction ds as [|d ds IH]; intros e1 e2 H; cbn [sumD].
    - apply HF. intros v Hv. apply H; [exact Hv|intros []].
    - apply suml_ext. intros x _. apply IH. intros v Hv Hn. unfold upd. destruct (N.eqb_spec v d); [reflexivity|].
      apply H; [exact Hv|]. intros [E|E]; [congruence|contradiction].
  Qed.
  Lemma sumD_ext_in ds F G : forall e,
    (forall e', (forall v, ~ In v ds -> e' v = e v) -> (forall v, In v ds -> In (e' v) (range (spc v))) -> F e' = G e') ->
    sumD range ds F e = sumD range ds G e.
  Proof.
    induction ds as [|d ds IH]; intros e H; cbn [sumD].
    - apply H; [reflexivity|intros v []].
    - apply suml_ext. intros x Hx. apply IH. intros e' H1 H2. apply H.
      + intros v Hv. rewrite H1; [apply upd_other; intros ->; apply Hv; left; reflexivity|]. intros K. apply Hv. right. exact K.
      + intros v Hv. destruct (in_dec N.eq_dec v ds) as [K|K]; [apply H2, K|]. destruct Hv as [<-|Hv]; [|contradiction].
        rewrite H1 by exact K. rewrite upd_same. exact Hx.
  Qed.
  Lemma oact_ext e t psi phi n : (forall m, psi m = phi m) -> oact e t psi n = oact e t phi n.
  Proof. intros H. unfold oact. f_equal. apply sumD_ext. intros e'. f_equal. apply act_ext, H. Qed.
  Lemma act_inst_agree ops psi n e1 e2 : (forall v, In v (map snd ops) -> e1 v = e2 v) ->
    act (map (inst e1) ops) psi n = act (map (inst e2) ops) psi n.
  Proof. intros H. rewrite (inst_agree e1 e2); [reflexivity|exact H]. Qed.
  Lemma oact_agree t psi n e1 e2 : (forall v, In v (ovars t) -> ~ In v (od t) -> e1 v = e2 v) -> oact e1 t psi n = oact e2 t psi n.
  Proof.
    intros H. unfold oact. f_equal. apply (sumD_agree_gen _ (ovars t)); [|exact H].
    intros a b K. unfold ovars in K. f_equal.
    - apply evalFs_agree. intros v Hv. apply K, in_or_app. left. exact Hv.
    - apply act_inst_agree. intros v Hv. apply K, in_or_app. right. exact Hv.
  Qed.
  Lemma oact_omul e t1 t2 psi n : odisj t1 t2 = true ->
    oact e t1 (oact e t2 psi) n = oact e (omul t1 t2) psi n.
  Proof.
    unfold odisj. rewrite andb_true_iff. intros [D1 D2]. unfold oact at 1 3. cbn [omul oc od ofs oo].
    rewrite Q2Qc_red, Q2Qc_mult, sumD_app.
    transitivity (Q2Qc (oc t1) * sumD range (od t1) (fun e' => Q2Qc (oc t2) * sumD range (od t2) (fun e'' => evalFs A (ofs t1 ++ ofs t2)%list e'' * act (map (inst e'') (oo t1 ++ oo t2)%list) psi n) e') e).
    2:{ rewrite sumD_const. ring. }
    f_equal. apply sumD_ext_in. intros e' H1 _.
    rewrite (act_ext _ (oact e t2 psi) (oact e' t2 psi)).
    2:{ intros m. apply oact_agree. intros v Hv _. symmetry. apply H1. intros K. exact (disj_spec _ _ _ D1 K Hv). }
    unfold oact. rewrite act_scale, act_sumD.
    transitivity (Q2Qc (oc t2) * (evalFs A (ofs t1) e' * sumD range (od t2) (fun e'' => act (map (inst e') (oo t1)) (fun m => evalFs A (ofs t2) e'' * act (map (inst e'') (oo t2)) psi m) n) e')); [ring|].
    f_equal. rewrite <- sumD_const. apply sumD_ext_in. intros e'' H2 _.
    rewrite act_scale, evalFs_app, map_app, act_app.
    rewrite (evalFs_agree A (ofs t1) e' e''), (inst_agree e' e'' (oo t1)).
    - ring.
    - intros v Hv. symmetry. apply H2. intros K. apply (disj_spec _ _ _ D2 K). apply in_or_app. right. exact Hv.
    - intros v Hv. symmetry. apply H2. intros K. apply (disj_spec _ _ _ D2 K). apply in_or_app. left. exact Hv.
  Qed.

  (** sums of operator terms and products of such sums *)
  Definition osem (e : env) (ts : list oterm) (psi : ket) (n : det) : Qc := suml ts (fun t => oact e t psi n).
  Definition omuls (a b : list oterm) : list oterm := flat_map (fun t => map (omul t) b) a.
  Definition odisjs (a b : list oterm) : bool := forallb (fun t => forallb (odisj t) b) a.
  Lemma oact_osem e t ts psi n : forallb (odisj t) ts = true -> oact e t (osem e ts psi) n = suml ts (fun u => oact e (omul t u) psi n).
  Proof.
    intros H. unfold osem, oact at 1.
    rewrite (sumD_ext range _ _ (fun e' => suml ts (fun u => evalFs A (ofs t) e' * act (map (inst e') (oo t)) (oact e u psi) n))).
    2:{ intros e'. rewrite act_suml, suml_scale. reflexivity. }
    assert (SW : forall ds F e, sumD range ds (fun e' => suml ts (fun u => F u e')) e = suml ts (fun u => sumD range ds (F u) e)).
    { clear. intros ds F. induction ds as [|d ds IH]; intros e; cbn [sumD]; [reflexivity|].
      rewrite suml_swap. apply suml_ext. intros x _. apply IH. }
    rewrite SW, <- suml_scale. apply suml_ext. intros u Hu. rewrite forallb_forall in H. apply oact_omul, H, Hu.
  Qed.
  Lemma osem_omuls e a b psi n : odisjs a b = true -> osem e a (osem e b psi) n = osem e (omuls a b) psi n.
  Proof.
    intros H. unfold omuls. unfold osem at 1 3. rewrite suml_flat_map. apply suml_ext. intros t Ht. unfold odisjs in H. rewrite forallb_forall in H.
    rewrite suml_map. apply oact_osem, H, Ht.
  Qed.
  Lemma osem_ext e a psi phi n : (forall m, psi m = phi m) -> osem e a psi n = osem e a phi n.
  Proof. intros H. apply suml_ext. intros t _. apply oact_ext, H. Qed.

  (** unbalanced strings have no contraction *)
  Definition charge (s : space) (ops : list vop) : Z :=
    fold_right (fun (o : vop) (z : Z) => (if N.eqb (spc (snd o)) s then if fst o then 1 else -1 else 0) + z)%Z 0%Z ops.
  Definition och (s : space) (o : vop) : Z := if N.eqb (spc (snd o)) s then if fst o then 1%Z else (-1)%Z else 0%Z.
  Lemma charge_cons s o l : charge s (o :: l) = (och s o + charge s l)%Z. Proof. reflexivity. Qed.
  Lemma charge_picks s l : forall t, In t (picks l) -> charge s l = (och s (snd (fst t)) + charge s (snd t))%Z.
  Proof.
    induction l as [|x r IH]; intros t H; [destruct H|]. cbn [picks] in H. destruct H as [<-|H].
    - apply charge_cons.
    - apply in_map_iff in H. destruct H as [u [<- Hu]]. specialize (IH u Hu). cbn [fst snd]. rewrite !charge_cons. lia.
  Qed.
  Lemma wick_charge s fuel : forall ops w, In w (wick fuel ops) -> charge s ops = 0%Z.
  Proof.
    induction fuel as [|fuel IH]; intros [|x r] w H; try reflexivity; cbn [wick] in H; [destruct H|].
    destruct (killer x); [|destruct H]. apply in_flat_map in H. destruct H as [t [Ht H]].
    destruct (compat x (snd (fst t))) eqn:C; [|destruct H]. apply in_map_iff in H. destruct H as [u [_ Hu]].
    pose proof (charge_picks s r t Ht) as E. specialize (IH _ _ Hu). rewrite charge_cons, E, IH. 
    unfold compat in C. apply andb_true_iff in C. destruct C as [C1 C2]. apply N.eqb_eq in C2. unfold och. rewrite C2.
    destruct (N.eqb (spc (snd (snd (fst t)))) s), (fst x), (fst (snd (fst t))); try discriminate; reflexivity.
  Qed.
  Definition bal (ops : list vop) : bool := (Z.eqb (charge 0 ops) 0 && Z.eqb (charge 1 ops) 0)%bool.
  Definition wicks (ops : list vop) : list (bool * list fac) := if bal ops then wick (length ops) ops else [].
  Lemma wicks_sound e ops : typed e ops -> vev e ops = suml (wicks ops) (fun w => sgn (fst w) * evalFs A' (snd w) e).
  Proof.
    intros H. rewrite (wick_sound e (length ops)) by (auto). unfold wicks, bal.
    destruct (Z.eqb_spec (charge 0 ops) 0) as [E0|E0]; [destruct (Z.eqb_spec (charge 1 ops) 0) as [E1|E1]|]; cbn [andb]; try reflexivity;
      (destruct (wick (length ops) ops) as [|w l] eqn:W; [reflexivity|]; exfalso).
    - apply E1, (wick_charge 1 (length ops) ops w). rewrite W. left. reflexivity.
    - apply E0, (wick_charge 0 (length ops) ops w). rewrite W. left. reflexivity.
  Qed.

  (** the vacuum expectation value of an operator term, with Kronecker deltas *)
  Definition wterms (t : oterm) : poly :=
    map (fun w : bool * list fac => T (Qred (oc t * (if fst w then 1%Q else (-1)%Q))) (od t) (snd w ++ ofs t)) (wicks (oo t)).
  Definition nodlt (fs : list fac) : bool := forallb (fun f => negb (N.eqb (fst f) dlt)) fs.
  Lemma nodlt_eval fs e : nodlt fs = true -> evalFs A' fs e = evalFs A fs e.
  Proof.
    induction fs as [|f fs IH]; intros H; [reflexivity|]. cbn [nodlt forallb] in H. apply andb_true_iff in H. destruct H as [H1 H2].
    cbn [evalFs]. rewrite IH by exact H2. f_equal. unfold evalF, A'. destruct (N.eqb (fst f) dlt); [discriminate|reflexivity].
  Qed.
  Definition okops (xs : list var) (t : oterm) : bool :=
    (nodlt (ofs t) && forallb (fun o => ov (spc (snd o)) && (memv (snd o) (od t) || memv (snd o) xs))%bool (oo t))%bool.
  Lemma wterms_sound xs e t : okops xs t = true -> (forall v, In v xs -> In (e v) (range (spc v))) ->
    oact e t (Phi no nv) (ref no nv) = evalP range A' e (wterms t).
  Proof.
    unfold okops. rewrite andb_true_iff. intros [H1 H2] Hx. rewrite forallb_forall in H2. unfold oact, wterms, evalP. rewrite suml_map.
    transitivity (Q2Qc (oc t) * sumD range (od t) (fun e' => suml (wicks (oo t)) (fun w => sgn (fst w) * evalFs A' (snd w ++ ofs t)%list e')) e).
    - f_equal. apply sumD_ext_in. intros e' He1 He2. change (act (map (inst e') (oo t)) (Phi no nv) (ref no nv)) with (vev e' (oo t)).
      rewrite wicks_sound.
      + rewrite <- suml_scale. apply suml_ext. intros w _. rewrite evalFs_app, (nodlt_eval (ofs t)) by exact H1. ring.
      + intros o Ho. specialize (H2 o Ho). apply andb_true_iff in H2. destruct H2 as [K1 K2]. split; [exact K1|].
        destruct (in_dec N.eq_dec (snd o) (od t)) as [I|I]; [apply He2, I|]. rewrite He1 by exact I.
        apply orb_true_iff in K2. destruct K2 as [K2|K2]; apply memv_In in K2; [contradiction|apply Hx, K2].
    - assert (SW : forall ws ds F e, sumD range ds (fun e' => suml ws (fun u => F u e')) e = suml ws (fun u : bool * list fac => sumD range ds (F u) e)).
      { clear. intros ws ds F. induction ds as [|d ds IH]; intros e; cbn [sumD]; [reflexivity|].
        rewrite suml_swap. apply suml_ext. intros x _. apply IH. }
      rewrite SW, <- suml_scale. apply suml_ext. intros w _. unfold evalT. cbn [tc td tf]. rewrite sumD_const, Q2Qc_red, Q2Qc_mult.
      destruct (fst w); cbn [sgn]; [change (Q2Qc 1) with 1|change (Q2Qc (-1)) with (- (1))]; ring.
  Qed.

  (** *** Removing the deltas *)
  Definition substv (y x v : var) : var := if N.eqb v y then x else v.
  Fixpoint split_dlt (fs : list fac) : option (var * var * list fac) :=
    match fs with
    | [] => None
    | f :: r =>
        match N.eqb (fst f) dlt, snd f with
        | true, [x; y] => Some (x, y, r)
        | _, _ => match split_dlt r with Some (x, y, r') => Some (x, y, f :: r') | None => None end
        end
    end.
  Lemma split_dlt_perm fs x y r : split_dlt fs = Some (x, y, r) -> Permutation fs ((dlt, [x; y]) :: r).
  Proof.
    revert r. induction fs as [|f fs IH]; intros r H; [discriminate|]. cbn [split_dlt] in H.
    assert (K : match split_dlt fs with Some (x, y, r') => Some (x, y, f :: r') | None => None end = Some (x, y, r) -> Permutation (f :: fs) ((dlt, [x; y]) :: r)).
    { destruct (split_dlt fs) as [[[x' y'] r']|]; [|discriminate]. intros [= -> -> <-]. rewrite (IH r' eq_refl). apply perm_swap. }
    destruct (N.eqb_spec (fst f) dlt) as [E|E]; [|exact (K H)].
    destruct f as [n l]. cbn [fst snd] in *. subst n. destruct l as [|a [|b [|c l]]]; try exact (K H). injection H as -> -> ->. reflexivity.
  Qed.
  Definition remv (y : var) (ds : list var) : list var := filter (fun v => negb (N.eqb v y)) ds.
  Definition estep (xs : list var) (t : term) : option term :=
    match split_dlt (tf t) with
    | None => None
    | Some (x, y, r) =>
        let ok a b := (memv b (td t) && negb (N.eqb a b) && N.eqb (spc a) (spc b) && nodupv (td t) && (memv a (td t) || memv a xs))%bool in
        if ok x y then Some (T (tc t) (remv y (td t)) (map (ren_fac (substv y x)) r))
        else if ok y x then Some (T (tc t) (remv x (td t)) (map (ren_fac (substv x y)) r))
        else None
    end.
  Lemma remv_perm y ds : NoDup ds -> In y ds -> Permutation ds (remv y ds ++ [y])%list.
  Proof.
    induction ds as [|d ds IH]; intros ND H; [destruct H|]. inversion ND as [|? ? N1 N2]; subst. cbn [remv filter].
    destruct (N.eqb_spec d y) as [->|E]; cbn [negb].
    - change (filter (fun v => negb (N.eqb v y)) ds) with (remv y ds). replace (remv y ds) with ds; [apply Permutation_cons_append|].
      unfold remv. clear IH H ND N2. induction ds as [|d ds IH]; [reflexivity|]. cbn [filter]. destruct (N.eqb_spec d y) as [->|E]; [exfalso; apply N1; left; reflexivity|]. cbn [negb]. f_equal. apply IH. intros K. apply N1. right. exact K.
    - destruct H as [H|H]; [contradiction|]. cbn [app]. apply perm_skip, IH; assumption.
  Qed.
  Lemma in_remv v y ds : In v (remv y ds) <-> In v ds /\ v <> y.
  Proof. unfold remv. rewrite filter_In, negb_true_iff, N.eqb_neq. reflexivity. Qed.
  Lemma ren_eval (B : N -> list nat -> Qc) y x fs e : evalFs B fs (upd e y (e x)) = evalFs B (map (ren_fac (substv y x)) fs) e.
  Proof.
    induction fs as [|f fs IH]; [reflexivity|]. cbn [map evalFs]. rewrite IH. f_equal. unfold evalF, ren_fac. cbn [fst snd]. f_equal.
    rewrite map_map. apply map_ext. intros v. unfold upd, substv. destruct (N.eqb v y); reflexivity.
  Qed.
  Lemma estep_core xs e x y r ds : NoDup ds -> In y ds -> x <> y -> spc x = spc y -> (In x ds \/ In x xs) ->
    (forall v, In v xs -> In (e v) (range (spc v))) ->
    sumD range ds (evalFs A' ((dlt, [x; y]) :: r)) e = sumD range (remv y ds) (evalFs A' (map (ren_fac (substv y x)) r)) e /\
    sumD range ds (evalFs A' ((dlt, [y; x]) :: r)) e = sumD range (remv y ds) (evalFs A' (map (ren_fac (substv y x)) r)) e.
  Proof.
    intros ND Hy NE SP Hxd Hx.
    assert (SYM : forall e', evalF A' e' (dlt, [y; x]) = evalF A' e' (dlt, [x; y])).
    { intros e'. unfold evalF, A'. cbn. rewrite Nat.eqb_sym. reflexivity. }
    assert (K : sumD range ds (evalFs A' ((dlt, [x; y]) :: r)) e = sumD range (remv y ds) (evalFs A' (map (ren_fac (substv y x)) r)) e).
    { rewrite (sumD_perm range A' _ ds (remv y ds ++ [y])%list) by (try apply remv_perm; assumption).
      rewrite sumD_app. apply sumD_ext_in. intros e' H1 H2. cbn [sumD].
      assert (RX : In (e' x) (range (spc y))).
      { rewrite <- SP. destruct (in_dec N.eq_dec x (remv y ds)) as [I|I]; [apply H2, I|]. rewrite H1 by exact I.
        destruct Hxd as [Hd|Hd]; [|apply Hx, Hd]. exfalso. apply I, in_remv. auto. }
      rewrite <- ren_eval. cbn [evalFs].
      rewrite (suml_ext _ _ (fun z => evalF A' (upd e' y z) (dlt, [x; y]) * evalFs A' r (upd e' y z)) (fun z => if Nat.eqb (e' x) z then evalFs A' r (upd e' y z) else 0)).
      2:{ intros z _. unfold evalF, A' at 1. cbn [fst snd map]. rewrite N.eqb_refl, upd_same, (upd_other _ _ _ _ NE). destruct (Nat.eqb (e' x) z); ring. }
      assert (DL : forall l F, NoDup l -> In (e' x) l -> suml l (fun z => if Nat.eqb (e' x) z then F z else 0) = F (e' x)).
      { clear. intros l F ND. induction ND as [|z l N1 N2 IH]; intros H; [destruct H|]. cbn [suml].
        destruct (Nat.eqb_spec (e' x) z) as [E|E].
        - subst z. rewrite suml_zero; [ring|]. intros z Hz. destruct (Nat.eqb_spec (e' x) z) as [E|E]; [subst; contradiction|reflexivity].
        - destruct H as [H|H]; [congruence|]. rewrite IH by exact H. ring. }
      apply (DL _ (fun z => evalFs A' r (upd e' y z))); [|exact RX]. apply so_nodup. }
    split; [exact K|]. rewrite <- K. apply sumD_ext. intros e'. cbn [evalFs]. rewrite SYM. reflexivity.
  Qed.
  Lemma estep_sound xs e t t' : estep xs t = Some t' -> (forall v, In v xs -> In (e v) (range (spc v))) ->
    evalT range A' e t = evalT range A' e t'.
  Proof.
    unfold estep. destruct (split_dlt (tf t)) as [[[x y] r]|] eqn:SD; [|discriminate]. apply split_dlt_perm in SD.
    assert (P : sumD range (td t) (evalFs A' (tf t)) e = sumD range (td t) (evalFs A' ((dlt, [x; y]) :: r)) e).
    { apply sumD_ext. intros e'. apply evalFs_perm, SD. }
    intros H Hx. destruct (memv y (td t) && negb (N.eqb x y) && N.eqb (spc x) (spc y) && nodupv (td t) && (memv x (td t) || memv x xs))%bool eqn:O1.
    - injection H as <-. unfold evalT. cbn [tc td tf]. f_equal. rewrite P.
      rewrite !andb_true_iff, negb_true_iff, N.eqb_neq, N.eqb_eq, nodupv_NoDup, orb_true_iff, !memv_In in O1.
      destruct O1 as [[[[K1 K2] K3] K4] K5]. exact (proj1 (estep_core xs e x y r (td t) K4 K1 K2 K3 K5 Hx)).
    - destruct (memv x (td t) && negb (N.eqb y x) && N.eqb (spc y) (spc x) && nodupv (td t) && (memv y (td t) || memv y xs))%bool eqn:O2; [|discriminate].
      injection H as <-. unfold evalT. cbn [tc td tf]. f_equal. rewrite P.
      rewrite !andb_true_iff, negb_true_iff, N.eqb_neq, N.eqb_eq, nodupv_NoDup, orb_true_iff, !memv_In in O2.
      destruct O2 as [[[[K1 K2] K3] K4] K5]. exact (proj2 (estep_core xs e y x r (td t) K4 K1 K2 K3 K5 Hx)).
  Qed.
  Fixpoint elim (fuel : nat) (xs : list var) (t : term) : term :=
    match fuel with O => t | S k => match estep xs t with Some t' => elim k xs t' | None => t end end.
  Lemma elim_sound fuel xs e : (forall v, In v xs -> In (e v) (range (spc v))) -> forall t, evalT range A' e t = evalT range A' e (elim fuel xs t).
  Proof.
    intros Hx. induction fuel as [|k IH]; intros t; [reflexivity|]. cbn [elim]. destruct (estep xs t) as [t'|] eqn:E; [|reflexivity].
    rewrite (estep_sound xs e t t' E Hx). apply IH.
  Qed.
  Definition vpoly (xs : list var) (ts : list oterm) : poly :=
    flat_map (fun t => map (fun u => elim (length (oo t)) xs u) (wterms t)) ts.
  Definition vok (xs : list var) (ts : list oterm) : bool :=
    (forallb (okops xs) ts && forallb (fun t => nodlt (tf t)) (vpoly xs ts))%bool.
  (** vacuum expectation value = ordinary tensor polynomial *)
  Theorem vpoly_sound xs e ts : vok xs ts = true -> (forall v, In v xs -> In (e v) (range (spc v))) ->
    osem e ts (Phi no nv) (ref no nv) = evalP range A e (vpoly xs ts).
  Proof.
    unfold vok. rewrite andb_true_iff, !forallb_forall. intros [H1 H2] Hx.
    transitivity (evalP range A' e (vpoly xs ts)).
    - unfold vpoly, osem, evalP. rewrite suml_flat_map. apply suml_ext. intros t Ht. rewrite (wterms_sound xs e t (H1 t Ht) Hx), suml_map.
      apply suml_ext. intros u _. apply elim_sound, Hx.
    - apply suml_ext. intros t Ht. unfold evalT. f_equal. apply sumD_ext. intros e'. apply nodlt_eval, H2, Ht.
  Qed.
End Sym.
