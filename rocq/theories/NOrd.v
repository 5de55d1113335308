(** Normal ordering on the reference: a string of operators acting on |Phi> as a sum of strings of quasi-particle creators, and the
    matrix elements of such strings as an antisymmetrised tensor polynomial.
    Proof machinery; it models no particular source line. *)
From Coq Require Import List Arith NArith ZArith QArith Qcanon Bool Lia Permutation.
From Verif Require Import Sums Tensor Interp Poly SymExec Canon Spec Setup Master Spin Check Tabs Antisym Fock Wick CCState Dress.
Import ListNotations.
Open Scope Qc_scope.

(** ** Environments with some variables overwritten *)
Fixpoint envl (vs : list var) (xs : list nat) (e : env) : env :=
  match vs, xs with v :: vs, x :: xs => upd (envl vs xs e) v x | _, _ => e end.
Lemma envl_map vs : forall xs e, NoDup vs -> length vs = length xs -> map (envl vs xs e) vs = xs.
Proof.
  induction vs as [|v vs IH]; intros [|x xs] e ND L; try discriminate; [reflexivity|]. inversion ND; subst. cbn [envl map]. rewrite upd_same. f_equal.
  transitivity (map (envl vs xs e) vs); [|apply IH; [assumption|cbn in L; lia]]. apply map_ext_in. intros w Hw. apply upd_other. intros ->. contradiction.
Qed.
Lemma envl_out vs : forall xs e w, ~ In w vs -> envl vs xs e w = e w.
Proof.
  induction vs as [|v vs IH]; intros [|x xs] e w H; try reflexivity. cbn [envl]. rewrite upd_other by (intros ->; apply H; left; reflexivity).
  apply IH. intros I. apply H. right. exact I.
Qed.
Lemma envl_cong vs : forall xs e1 e2 w, (~ In w vs -> e1 w = e2 w) -> length vs = length xs -> envl vs xs e1 w = envl vs xs e2 w.
Proof.
  induction vs as [|v vs IH]; intros [|x xs] e1 e2 w H L; try discriminate; [apply H; intros []|]. cbn [envl]. unfold upd.
  destruct (N.eqb_spec w v) as [->|NE]; [reflexivity|]. apply IH; [|cbn in L; lia]. intros I. apply H. intros [E|E]; [congruence|contradiction].
Qed.

(** ** Sorting, for comparing finite lists up to order *)
Section Sort.
  Context {X : Type}.
  Variable leb : X -> X -> bool.
  Fixpoint ins (x : X) (l : list X) : list X := match l with [] => [x] | y :: r => if leb x y then x :: l else y :: ins x r end.
  Definition isort (l : list X) : list X := fold_right ins [] l.
  Lemma ins_perm x l : Permutation (x :: l) (ins x l).
  Proof.
    induction l as [|y r IH]; cbn [ins]; [reflexivity|]. destruct (leb x y); [reflexivity|]. rewrite perm_swap. apply perm_skip, IH.
  Qed.
  Lemma isort_perm l : Permutation l (isort l).
  Proof. induction l as [|x l IH]; [reflexivity|]. cbn [isort fold_right]. rewrite <- ins_perm. apply perm_skip, IH. Qed.
End Sort.
Lemma suml_perm {X} (l l' : list X) F : Permutation l l' -> suml l F = suml l' F.
Proof. induction 1; cbn [suml]; [reflexivity|rewrite IHPermutation; reflexivity|ring|congruence]. Qed.
Definition fac_le (f h : fac) : bool := N.leb (hd 0%N (snd f)) (hd 0%N (snd h)).
Fixpoint lex (a b : list var) : bool :=
  match a, b with x :: a, y :: b => if N.eqb x y then lex a b else N.leb x y | [], _ => true | _, _ => false end.
Definition item := (bool * list fac)%type.
Definition item_le (a b : item) : bool := lex (fvars (snd a)) (fvars (snd b)).
Definition nitem (w : item) : item := (fst w, isort fac_le (snd w)).
Definition item_dec (a b : list item) : {a = b} + {a <> b}.
Proof. apply list_eq_dec. decide equality; [|apply bool_dec]. apply list_eq_dec. decide equality; [apply list_eq_dec|]; apply N.eq_dec. Defined.
Definition same_items (a b : list item) : bool :=
  if item_dec (isort item_le (map nitem a)) (isort item_le (map nitem b)) then true else false.
Lemma same_items_sum (C : N -> list nat -> Qc) a b e : same_items a b = true ->
  suml a (fun w => sgn (fst w) * evalFs C (snd w) e) = suml b (fun w => sgn (fst w) * evalFs C (snd w) e).
Proof.
  unfold same_items. destruct (item_dec _ _) as [E|]; [|discriminate]. intros _.
  assert (K : forall l : list item, suml l (fun w => sgn (fst w) * evalFs C (snd w) e) = suml (isort item_le (map nitem l)) (fun w => sgn (fst w) * evalFs C (snd w) e)).
  { intros l. rewrite <- (suml_perm _ _ _ (isort_perm item_le (map nitem l))), suml_map. apply suml_ext. intros w _. cbn [nitem fst snd].
    f_equal. apply evalFs_perm, isort_perm. }
  rewrite K, E, <- K. reflexivity.
Qed.

(** ** Matrix elements of a string of m particle and m hole creators *)
Definition dl (v w : var) : fac := (dlt, [v; w]).
Definition xi (m : nat) : list var := map (fun k => mkv 0 (N.of_nat k)) (seq 0 m).
Definition xa (m : nat) : list var := map (fun k => mkv 1 (N.of_nat (m + k))) (seq 0 m).
Definition ptp (m : nat) : list var := map (fun k => mkv 1 (N.of_nat (56 + k))) (seq 0 m).
Definition htp (m : nat) : list var := map (fun k => mkv 0 (N.of_nat (56 + k))) (seq 0 m).
(** <Phi_ij..^ab..|  as a string, occupied indices first *)
Definition Dov (m : nat) : list vop := (map (pair true) (xi m) ++ map (pair false) (rev (xa m)))%list.
Definition tpl (m : nat) : list vop := (map (pair true) (ptp m) ++ map (pair false) (rev (htp m)))%list.
Definition dfs (l1 l2 hs ps : list var) : list fac := (zipw dl l1 hs ++ zipw dl l2 ps)%list.
Definition perm_items (m : nat) : list item :=
  flat_map (fun p => map (fun q => (Bool.eqb (fst p) (fst q), dfs (snd p) (snd q) (htp m) (ptp m))) (signed_perms (xa m))) (signed_perms (xi m)).
Definition tpl_ok (m : nat) : bool :=
  (same_items (wicks (Dov m ++ tpl m)) (perm_items m) && nodupv (xi m ++ xa m) && nodupv (ptp m ++ htp m) && disj (ptp m ++ htp m) (xi m ++ xa m) &&
   forallb (fun v => N.eqb (spc v) 0) (xi m ++ htp m) && forallb (fun v => N.eqb (spc v) 1) (xa m ++ ptp m))%bool.

Lemma mul5 (a b c d f : Qc) : a * b * (c * d * f) = a * c * (b * d) * f. Proof. ring. Qed.
Section Str.
  Variables no nv : nat.
  Notation range := (so_range no nv).
  Variable A : N -> list nat -> Qc.
  Notation B := (A' A).

  Lemma zipw_len {X Y Z} (f : X -> Y -> Z) l1 l2 : length l1 = length l2 -> length (zipw f l1 l2) = length l1.
  Proof. intros H. unfold zipw. rewrite map_length, combine_length. lia. Qed.
  Lemma dl_eval e1 e2 l1 l2 m1 m2 : map e1 l1 = map e2 l2 -> map e1 m1 = map e2 m2 -> evalFs B (zipw dl l1 m1) e1 = evalFs B (zipw dl l2 m2) e2.
  Proof.
    revert l2 m1 m2. induction l1 as [|x l1 IH]; intros [|y l2] m1 m2 H1 H2; try discriminate; [reflexivity|].
    destruct m1 as [|u m1], m2 as [|w m2]; try discriminate; [reflexivity|]. cbn [map] in *. injection H1 as E1 H1. injection H2 as E2 H2.
    unfold zipw. cbn [combine map evalFs fst snd]. fold (zipw dl l1 m1). fold (zipw dl l2 m2). rewrite (IH l2 m1 m2 H1 H2). f_equal.
    unfold evalF, dl. cbn [fst snd map]. rewrite E1, E2. reflexivity.
  Qed.
  Lemma perm_in {X} (l : list X) p : In p (signed_perms l) -> Permutation l (snd p).
  Proof. destruct p as [b p]. apply signed_perms_perm. Qed.

  Lemma tpl_sound m e ps hs : tpl_ok m = true -> length ps = m -> length hs = m ->
    (forall v, In v (xi m ++ xa m) -> In (e v) (range (spc v))) ->
    (forall v, In v ps -> spc v = 1%N /\ In (e v) (range 1%N)) -> (forall v, In v hs -> spc v = 0%N /\ In (e v) (range 0%N)) ->
    vev no nv e (Dov m ++ map (pair true) ps ++ map (pair false) hs)%list =
    suml (signed_perms (xi m)) (fun p => suml (signed_perms (xa m)) (fun q => sgn (fst p) * sgn (fst q) * evalFs B (dfs (snd p) (snd q) (rev hs) ps) e)).
  Proof.
    unfold tpl_ok. rewrite !andb_true_iff, !nodupv_NoDup, !forallb_forall. intros [[[[[SI NX] NT] DJ] S0] S1] LP LH HX HP HH.
    set (e0 := envl (ptp m ++ htp m) (map e (ps ++ rev hs)) e).
    assert (LT : length (ptp m ++ htp m) = length (map e (ps ++ rev hs))).
    { rewrite map_length, !app_length, rev_length. unfold ptp, htp. rewrite !map_length, !seq_length. lia. }
    assert (E0 : map e0 (ptp m ++ htp m) = map e (ps ++ rev hs)) by (apply envl_map; assumption).
    rewrite !map_app in E0.
    assert (LP' : length (map e0 (ptp m)) = length (map e ps)) by (unfold ptp; rewrite !map_length, seq_length; lia).
    assert (EP : map e0 (ptp m) = map e ps /\ map e0 (htp m) = map e (rev hs)).
    { clear -E0 LP'. revert LP' E0. generalize (map e0 (ptp m)) (map e ps) (map e0 (htp m)) (map e (rev hs)). induction l as [|x l IH]; intros [|y k] a b L E; try discriminate; [split; [reflexivity|exact E]|].
      cbn in E. injection E as -> E. cbn in L. destruct (IH k a b ltac:(lia) E). subst. auto. }
    destruct EP as [EP EH].
    assert (EX : forall v, In v (xi m ++ xa m) -> e0 v = e v) by (intros v Hv; apply envl_out; intros I; exact (disj_spec _ _ _ DJ I Hv)).
    transitivity (vev no nv e0 (Dov m ++ tpl m)%list).
    - unfold vev. replace (map (inst e0) (Dov m ++ tpl m)) with (map (inst e) (Dov m ++ map (pair true) ps ++ map (pair false) hs)); [reflexivity|].
      assert (MP : forall e b (l : list var), map (inst e) (map (pair b) l) = map (pair b) (map e l)) by (intros; rewrite !map_map; reflexivity).
      unfold Dov, tpl. rewrite !map_app, !MP, EP, !map_rev, EH, !map_rev, rev_involutive.
      rewrite (map_ext_in e0 e (xi m)), (map_ext_in e0 e (xa m)); [reflexivity| |]; intros v Hv; apply EX, in_or_app; [right|left]; exact Hv.
    - rewrite (wicks_sound no nv A).
      + etransitivity; [exact (same_items_sum B _ _ e0 SI)|]. unfold perm_items. rewrite suml_flat_map. apply suml_ext. intros p Hp. rewrite suml_map. apply suml_ext. intros q Hq.
        cbn [fst snd]. rewrite Wick.sgn_eqb. f_equal. unfold dfs. rewrite !evalFs_app. f_equal; apply dl_eval; try assumption.
        * apply map_ext_in. intros v Hv. apply EX, in_or_app. left. apply (Permutation_in v (Permutation_sym (perm_in _ _ Hp)) Hv).
        * apply map_ext_in. intros v Hv. apply EX, in_or_app. right. apply (Permutation_in v (Permutation_sym (perm_in _ _ Hq)) Hv).
      + assert (OVs : forall v s, N.eqb (spc v) s = true -> ov s = true -> In (e0 v) (range s) -> ov (spc v) = true /\ In (e0 v) (range (spc v))).
        { intros v s E K I. apply N.eqb_eq in E. rewrite E. split; assumption. }
        assert (IM : forall vs ws s, map e0 vs = map e ws -> (forall v, In v ws -> In (e v) (range s)) -> forall v, In v vs -> In (e0 v) (range s)).
        { intros vs ws s E K v Hv. apply (in_map e0) in Hv. rewrite E in Hv. apply in_map_iff in Hv. destruct Hv as [w [<- Hw]]. apply K, Hw. }
        intros o Ho. unfold Dov, tpl in Ho. rewrite !in_app_iff, !in_map_iff in Ho.
        destruct Ho as [[[v [<- Hv]]|[v [<- Hv]]]|[[v [<- Hv]]|[v [<- Hv]]]]; cbn [snd].
        * apply (OVs v 0%N); [apply S0, in_or_app; left; exact Hv|reflexivity|]. assert (I : In v (xi m ++ xa m)) by (apply in_or_app; left; exact Hv).
          rewrite (EX v I). specialize (HX v I). assert (E : spc v = 0%N) by (apply N.eqb_eq, S0, in_or_app; left; exact Hv). rewrite E in HX. exact HX.
        * apply in_rev in Hv. apply (OVs v 1%N); [apply S1, in_or_app; left; exact Hv|reflexivity|]. assert (I : In v (xi m ++ xa m)) by (apply in_or_app; right; exact Hv).
          rewrite (EX v I). specialize (HX v I). assert (E : spc v = 1%N) by (apply N.eqb_eq, S1, in_or_app; left; exact Hv). rewrite E in HX. exact HX.
        * apply (OVs v 1%N); [apply S1, in_or_app; right; exact Hv|reflexivity|]. apply (IM _ _ 1%N EP); [|exact Hv]. intros w Hw. apply HP, Hw.
        * apply in_rev in Hv. apply (OVs v 0%N); [apply S0, in_or_app; right; exact Hv|reflexivity|]. apply (IM _ _ 0%N EH); [|exact Hv].
          intros w Hw. apply in_rev in Hw. apply HH, Hw.
  Qed.

  (** *** Normal ordering *)
  Fixpoint nord (fuel : nat) (l : list vop) : list (bool * list fac * list vop) :=
    match l, fuel with
    | [], _ => [(true, [], [])]
    | x :: r, S k =>
        if killer x then
          flat_map (fun t : bool * vop * list vop => if compat x (snd (fst t)) then
             map (fun w => (Bool.eqb (fst (fst t)) (fst (fst w)), (dlt, [snd x; snd (snd (fst t))]) :: snd (fst w), snd w)) (nord k (snd t)) else []) (picks r)
        else map (fun w => (fst w, x :: snd w)) (nord k r)
    | _, O => []
    end.
  Lemma nord_in fuel : forall ops w, In w (nord fuel ops) -> forall o, In o (snd w) -> In o ops /\ killer o = false.
  Proof.
    induction fuel as [|k IH]; intros [|x r] w H o Ho; cbn [nord] in H; try (destruct H as [<-|[]]; destruct Ho); [destruct H|].
    destruct (killer x) eqn:KX.
    - apply in_flat_map in H. destruct H as [t [Ht H]]. destruct (compat x (snd (fst t))); [|destruct H]. apply in_map_iff in H. destruct H as [u [<- Hu]].
      destruct (IH _ _ Hu o Ho) as [I1 I2]. split; [|exact I2]. right. destruct (picks_in _ _ Ht) as [_ [P2 _]]. apply P2, I1.
    - apply in_map_iff in H. destruct H as [u [<- Hu]]. destruct Ho as [<-|Ho]; [split; [left; reflexivity|exact KX]|].
      destruct (IH _ _ Hu o Ho) as [I1 I2]. split; [right; exact I1|exact I2].
  Qed.
  Lemma nord_sound e fuel : forall ops, (length ops <= fuel)%nat -> typed no nv e ops -> eqN (no + nv)
    (act (map (inst e) ops) (Phi no nv)) (fun n => suml (nord fuel ops) (fun w => sgn (fst (fst w)) * evalFs B (snd (fst w)) e * act (map (inst e) (snd w)) (Phi no nv) n)).
  Proof.
    induction fuel as [|k IH]; intros ops HL HT n Hn.
    - destruct ops; [|cbn in HL; lia]. cbn. ring.
    - destruct ops as [|x r]; [cbn; ring|]. cbn [nord]. destruct (HT x (or_introl eq_refl)) as [O1 R1]. destruct (typed_lt no nv e x O1 R1) as [LT ISO].
      cbn [map]. change (act (inst e x :: map (inst e) r) (Phi no nv)) with (fop (fst (inst e x)) (snd (inst e x)) (act (map (inst e) r) (Phi no nv))).
      destruct (killer x) eqn:KX.
      + rewrite (move_right (inst e x) (Phi no nv) (no + nv)) by
          first [exact Hn|(intros n'; apply kill_right; [exact LT|]; cbn [inst fst snd]; rewrite ISO; unfold killer in KX; destruct (fst x); [exact KX|apply N.eqb_eq in KX; rewrite KX; reflexivity])].
        rewrite picks_map, suml_map, suml_flat_map. apply suml_ext. intros t Ht. cbn [fst snd].
        destruct (picks_in r t Ht) as [P1 [P2 P3]]. destruct (HT _ (or_intror P1)) as [O2 R2].
        rewrite (antic_compat no nv A e x (snd (fst t)) O1 R1 O2 R2). destruct (compat x (snd (fst t))); [|cbn [suml]; ring].
        rewrite suml_map. rewrite (IH (snd t)) by first [exact Hn|(cbn in HL; lia)|(intros o Ho; apply HT; right; apply P2, Ho)]. rewrite <- suml_scale. apply suml_ext. intros w _.
        cbn [fst snd evalFs]. rewrite Wick.sgn_eqb. apply mul5.
      + rewrite suml_map. unfold fop.
        rewrite (ferm_cong _ n _ O _ (fun m => suml (nord k r) (fun w => sgn (fst (fst w)) * evalFs B (snd (fst w)) e * act (map (inst e) (snd w)) (Phi no nv) m))).
        2:{ intros m Lm _. apply IH; [cbn in HL; lia| |congruence]. intros o Ho. apply HT. right. exact Ho. }
        rewrite (ferm_suml _ n _ (nord k r) (fun w m => sgn (fst (fst w)) * evalFs B (snd (fst w)) e * act (map (inst e) (snd w)) (Phi no nv) m)). apply suml_ext. intros w _.
        rewrite ferm_scale. reflexivity.
  Qed.

  (** *** Particles to the left, holes to the right *)
  Fixpoint std (l : list vop) : bool * list var * list var :=
    match l with
    | [] => (true, [], [])
    | x :: r => let '(s, ps, hs) := std r in
        if fst x then (s, snd x :: ps, hs) else (Bool.eqb s (Nat.even (length ps)), ps, snd x :: hs)
    end.
  Lemma std_in l : forall v, (In v (snd (fst (std l))) -> In (true, v) l) /\ (In v (snd (std l)) -> In (false, v) l).
  Proof.
    induction l as [|[b w] r IH]; intros v; [split; intros []|]. cbn [std fst snd]. destruct (std r) as [[s ps] hs]. cbn [fst snd] in IH. destruct (IH v) as [I1 I2].
    destruct b; cbn [fst snd]; (split; intros H; [try (destruct H as [->|H]; [left; reflexivity|])|try (destruct H as [->|H]; [left; reflexivity|])]); right; auto.
  Qed.
  Lemma std_sound e psi l : Forall (fun o => crt no (inst e o)) l -> forall n,
    act (map (inst e) l) psi n = sgn (fst (fst (std l))) * act (map (inst e) (map (pair true) (snd (fst (std l))) ++ map (pair false) (snd (std l)))) psi n.
  Proof.
    induction l as [|[b w] r IH]; intros HF n; [cbn; ring|]. inversion HF as [|? ? Hx HF']; subst. specialize (IH HF').
    pose proof (std_in r) as SI. cbn [std fst snd]. destruct (std r) as [[s ps] hs]. cbn [fst snd] in *.
    cbn [map]. change (act (inst e (b, w) :: map (inst e) r) psi n) with (fop b (e w) (act (map (inst e) r) psi) n).
    unfold fop. rewrite (ferm_ext _ _ _ _ _ IH), ferm_scale. destruct b; cbn [fst snd].
    - cbn [map app]. reflexivity.
    - rewrite Wick.sgn_eqb, map_app, act_app. rewrite map_app. cbn [map]. 
      change (ferm false (e w) n (act (map (inst e) (map (pair true) ps)) (act (map (inst e) (map (pair false) hs)) psi))) with
        (act (inst e (false, w) :: map (inst e) (map (pair true) ps)) (act (map (inst e) (map (pair false) hs)) psi) n).
      rewrite (crt_pass no).
      + rewrite act_app, !map_length. rewrite act_app. cbn [map].
        change (act [inst e (false, w)] (act (map (inst e) (map (pair false) hs)) psi)) with (act (inst e (false, w) :: map (inst e) (map (pair false) hs)) psi).
        rewrite <- Nat.negb_even. destruct (Nat.even (length ps)); cbn [negb sb sgn]; apply Qcmult_assoc.
      + exact Hx.
      + apply Forall_forall. intros y Hy. apply in_map_iff in Hy. destruct Hy as [o [<- Ho]]. apply in_map_iff in Ho. destruct Ho as [v [<- Hv]].
        rewrite Forall_forall in HF'. apply HF', SI, Hv.
  Qed.

  (** *** Matrix elements of an operator sum *)
  Definition wfs (m : nat) (y : oterm) (w : bool * list fac * list vop) : list fac :=
    (dfs (xi m) (xa m) (rev (snd (std (snd w)))) (snd (fst (std (snd w)))) ++ snd (fst w) ++ ofs y)%list.
  Definition wsg (w : bool * list fac * list vop) : bool := Bool.eqb (fst (fst w)) (fst (fst (std (snd w)))).
  Definition cts (m : nat) (y : oterm) : list term :=
    if bal (Dov m ++ oo y) then map (fun w => T (Qred (oc y * (if wsg w then 1%Q else (-1)%Q))) (od y) (wfs m y w)) (nord (length (oo y)) (oo y)) else [].
  Definition cts_ok (m : nat) (y : oterm) : bool :=
    (allsum y && disj (xi m ++ xa m) (od y) &&
     (if bal (Dov m ++ oo y) then
        forallb (fun w => Nat.eqb (length (snd (fst (std (snd w))))) m && Nat.eqb (length (snd (std (snd w)))) m &&
          disj (xi m ++ xa m) (fvars (snd (fst w) ++ ofs y)))%bool (nord (length (oo y)) (oo y)) else true))%bool.
  Definition ren (m : nat) (p q : list var) (e : env) : env := envl (xi m ++ xa m) (map e (p ++ q)) e.
  Lemma ren_upd xs l e d x v : ~ In d xs -> (forall w, In w l -> In w xs) -> length xs = length l ->
    envl xs (map (upd e d x) l) (upd e d x) v = upd (envl xs (map e l) e) d x v.
  Proof.
    intros Hd Hl HL. replace (map (upd e d x) l) with (map e l).
    2:{ apply map_ext_in. intros w Hw. symmetry. apply upd_other. intros ->. apply Hd, Hl, Hw. }
    unfold upd at 2. destruct (N.eqb_spec v d) as [->|NE]; [rewrite envl_out by exact Hd; apply upd_same|].
    apply envl_cong; [|rewrite map_length; exact HL]. intros _. apply upd_other, NE.
  Qed.
  Lemma sumD_ren fs xs l ds : (forall w, In w l -> In w xs) -> length xs = length l -> disj xs ds = true -> forall e,
    sumD range ds (fun e' => evalFs B fs (envl xs (map e' l) e')) e = sumD range ds (evalFs B fs) (envl xs (map e l) e).
  Proof.
    intros Hl HL. induction ds as [|d ds IH]; intros DJ e; cbn [sumD]; [reflexivity|].
    assert (Hd : ~ In d xs) by (intros I; apply (disj_spec _ _ d DJ I); left; reflexivity).
    assert (DJ' : disj xs ds = true).
    { unfold disj in *. rewrite forallb_forall in *. intros v Hv. specialize (DJ v Hv). rewrite negb_true_iff, memv_false in *. intros I. apply DJ. right. exact I. }
    apply suml_ext. intros x _. rewrite IH by exact DJ'. apply sumD_agree. intros v _ _. apply ren_upd; assumption.
  Qed.
  Lemma xlen m : length (xi m) = m /\ length (xa m) = m.
  Proof. unfold xi, xa. rewrite !map_length, seq_length. auto. Qed.
  Lemma sumD_suml {X} (ws : list X) ds F : forall e, sumD range ds (fun e' => suml ws (fun u => F u e')) e = suml ws (fun u => sumD range ds (F u) e).
  Proof. induction ds as [|d ds IH]; intros e; cbn [sumD]; [reflexivity|]. rewrite suml_swap. apply suml_ext. intros x _. apply IH. Qed.
  Section Term.
    Variable m : nat.
    Hypothesis TP : tpl_ok m = true.
    Lemma ren_vals e p q : length p = m -> length q = m -> map (ren m p q e) (xi m) = map e p /\ map (ren m p q e) (xa m) = map e q.
    Proof using TP.
      intros Lp Lq. unfold tpl_ok in TP. rewrite !andb_true_iff, !nodupv_NoDup in TP. destruct TP as [[[[[_ NX] _] _] _] _]. destruct (xlen m) as [L1 L2].
      pose proof (envl_map (xi m ++ xa m) (map e (p ++ q)) e NX ltac:(rewrite map_length, !app_length; lia)) as E. fold (ren m p q e) in E. rewrite !map_app in E.
      assert (LE : length (map (ren m p q e) (xi m)) = length (map e p)) by (rewrite !map_length; lia).
      revert LE E. generalize (map (ren m p q e) (xi m)) (map e p) (map (ren m p q e) (xa m)) (map e q). clear. induction l as [|x l IH]; intros [|y k] a b L E; try discriminate; [split; [reflexivity|exact E]|].
      cbn in E. injection E as -> E. cbn in L. destruct (IH k a b ltac:(lia) E). subst. auto.
    Qed.
    Lemma perm_len {X} (l : list X) p : In p (signed_perms l) -> length (snd p) = length l.
    Proof using. intros H. symmetry. apply Permutation_length, perm_in, H. Qed.
    Lemma vev_sum y e : cts_ok m y = true -> bal (Dov m ++ oo y) = true -> (forall v, In v (xi m ++ xa m) -> In (e v) (range (spc v))) ->
      (forall v, In v (od y) -> In (e v) (range (spc v))) ->
      evalFs B (ofs y) e * vev no nv e (Dov m ++ oo y)%list =
      suml (signed_perms (xi m)) (fun p => suml (signed_perms (xa m)) (fun q => sgn (fst p) * sgn (fst q) *
        suml (nord (length (oo y)) (oo y)) (fun w => sgn (wsg w) * evalFs B (wfs m y w) (ren m (snd p) (snd q) e)))).
    Proof using TP.
      unfold cts_ok. intros OK BL HX HD. rewrite BL, !andb_true_iff in OK. destruct OK as [[OA OD] OW].
      unfold allsum in OA. rewrite forallb_forall in OA.
      assert (TY : typed no nv e (oo y)).
      { intros o Ho. specialize (OA o Ho). apply andb_true_iff in OA. destruct OA as [I1 I2]. split; [exact I1|]. apply HD, memv_In, I2. }
      unfold vev. rewrite map_app, act_app.
      rewrite (eqN_act no (no + nv) _ _ _ (nord_sound e (length (oo y)) (oo y) (le_n _) TY) (ref no nv) (ref_len no nv)).
      rewrite (act_suml _ (nord (length (oo y)) (oo y)) (fun w n => sgn (fst (fst w)) * evalFs B (snd (fst w)) e * act (map (inst e) (snd w)) (Phi no nv) n)).
      rewrite <- suml_scale.
      rewrite (suml_ext _ (signed_perms (xi m)) _ (fun p => suml (nord (length (oo y)) (oo y)) (fun w => suml (signed_perms (xa m)) (fun q => sgn (fst p) * sgn (fst q) * (sgn (wsg w) * evalFs B (wfs m y w) (ren m (snd p) (snd q) e)))))).
      2:{ intros p _. rewrite suml_swap. apply suml_ext. intros q _. rewrite <- suml_scale. reflexivity. }
      rewrite suml_swap. apply suml_ext. intros w Hw. rewrite act_scale, <- act_app, <- map_app.
      rewrite forallb_forall in OW. specialize (OW w Hw). rewrite !andb_true_iff, !Nat.eqb_eq in OW. destruct OW as [[LP LH] DJ].
      assert (CR : Forall (fun o => crt no (inst e o)) (snd w)).
      { apply Forall_forall. intros o Ho. destruct (nord_in _ _ _ Hw o Ho) as [I1 I2]. specialize (OA o I1). apply andb_true_iff in OA. destruct OA as [K1 K2].
        apply (isc_crt no nv); [unfold isc; rewrite K1, I2; reflexivity|]. apply HD, memv_In, K2. }
      rewrite map_app, act_app. rewrite (act_ext _ _ _ (std_sound e (Phi no nv) (snd w) CR)), act_scale, <- act_app, <- map_app.
      change (act (map (inst e) (Dov m ++ (map (pair true) (snd (fst (std (snd w)))) ++ map (pair false) (snd (std (snd w)))))%list) (Phi no nv) (ref no nv)) with
        (vev no nv e (Dov m ++ map (pair true) (snd (fst (std (snd w)))) ++ map (pair false) (snd (std (snd w))))%list).
      assert (PS : forall v, In v (snd (fst (std (snd w)))) -> spc v = 1%N /\ In (e v) (range 1%N) /\ In v (od y)).
      { intros v Hv. apply std_in in Hv. destruct (nord_in _ _ _ Hw _ Hv) as [I1 I2]. specialize (OA _ I1). cbn [snd] in OA. apply andb_true_iff in OA. destruct OA as [K1 K2].
        unfold killer in I2. cbn [fst snd] in I2. unfold ov in K1. rewrite I2 in K1. cbn [orb] in K1. apply N.eqb_eq in K1. apply memv_In in K2. rewrite <- K1 at 2. auto. }
      assert (HS : forall v, In v (snd (std (snd w))) -> spc v = 0%N /\ In (e v) (range 0%N) /\ In v (od y)).
      { intros v Hv. apply std_in in Hv. destruct (nord_in _ _ _ Hw _ Hv) as [I1 I2]. specialize (OA _ I1). cbn [snd] in OA. apply andb_true_iff in OA. destruct OA as [K1 K2].
        unfold killer in I2. cbn [fst snd] in I2. unfold ov in K1. rewrite I2, orb_false_r in K1. apply N.eqb_eq in K1. apply memv_In in K2. rewrite <- K1 at 2. auto. }
      rewrite (tpl_sound m e _ _ TP LP LH HX) by (intros v Hv; first [destruct (PS v Hv) as [? [? ?]]|destruct (HS v Hv) as [? [? ?]]]; auto).
      rewrite <- !suml_scale. apply suml_ext. intros p Hp. rewrite <- !suml_scale. apply suml_ext. intros q Hq.
      destruct (xlen m) as [X1 X2]. destruct (ren_vals e (snd p) (snd q)) as [R1 R2]; [rewrite (perm_len _ _ Hp); exact X1|rewrite (perm_len _ _ Hq); exact X2|].
      assert (OUT : forall v, In v (od y) -> ren m (snd p) (snd q) e v = e v) by (intros v Hv; apply envl_out; intros I; exact (disj_spec _ _ _ OD I Hv)).
      unfold wfs, wsg. rewrite !evalFs_app, Wick.sgn_eqb.
      replace (evalFs B (dfs (xi m) (xa m) (rev (snd (std (snd w)))) (snd (fst (std (snd w))))) (ren m (snd p) (snd q) e)) with
        (evalFs B (dfs (snd p) (snd q) (rev (snd (std (snd w)))) (snd (fst (std (snd w))))) e).
      - rewrite (evalFs_agree B (snd (fst w)) (ren m (snd p) (snd q) e) e), (evalFs_agree B (ofs y) (ren m (snd p) (snd q) e) e); [ring| |];
          intros v Hv; apply envl_out; intros I; apply (disj_spec _ _ v DJ I); unfold fvars in *; rewrite flat_map_app; apply in_or_app; [right|left]; exact Hv.
      - unfold dfs. rewrite !evalFs_app. f_equal; apply dl_eval; try (symmetry; assumption); symmetry; apply map_ext_in; intros v Hv; apply OUT; [apply in_rev in Hv; apply HS, Hv|apply PS, Hv].
    Qed.
    Lemma elem_term y e : cts_ok m y = true -> (forall v, In v (xi m ++ xa m) -> In (e v) (range (spc v))) ->
      act (map (inst e) (Dov m)) (oact no nv B e y (Phi no nv)) (ref no nv) =
      suml (signed_perms (xi m)) (fun p => suml (signed_perms (xa m)) (fun q => sgn (fst p) * sgn (fst q) * evalP range B (ren m (snd p) (snd q) e) (cts m y))).
    Proof using TP.
      intros OK HX. pose proof OK as OK'. unfold cts_ok in OK'. rewrite !andb_true_iff in OK'. destruct OK' as [[OA OD] _].
      unfold oact. rewrite act_scale, act_sumD.
      assert (ST : forall e', (forall v, ~ In v (od y) -> e' v = e v) -> act (map (inst e) (Dov m)) (fun n => evalFs B (ofs y) e' * act (map (inst e') (oo y)) (Phi no nv) n) (ref no nv) = evalFs B (ofs y) e' * vev no nv e' (Dov m ++ oo y)%list).
      { intros e' He. rewrite act_scale. unfold vev. rewrite map_app, act_app. f_equal. apply act_inst_agree. intros v Hv. symmetry. apply He. intros I.
        apply (disj_spec _ _ v OD); [|exact I]. unfold Dov in Hv. rewrite map_app, !map_map in Hv. cbn [snd] in Hv. rewrite !map_id, in_app_iff, <- in_rev in Hv. apply in_or_app. exact Hv. }
      assert (HX' : forall e', (forall v, ~ In v (od y) -> e' v = e v) -> forall v, In v (xi m ++ xa m) -> In (e' v) (range (spc v))).
      { intros e' He v Hv. rewrite He; [apply HX, Hv|]. intros I. exact (disj_spec _ _ _ OD Hv I). }
      destruct (bal (Dov m ++ oo y)) eqn:BL.
      - rewrite (sumD_ext_in no nv (od y) _ (fun e' => suml (signed_perms (xi m)) (fun p => suml (signed_perms (xa m)) (fun q => sgn (fst p) * sgn (fst q) *
          suml (nord (length (oo y)) (oo y)) (fun w => sgn (wsg w) * evalFs B (wfs m y w) (ren m (snd p) (snd q) e')))))).
        2:{ intros e' He1 He2. rewrite ST by exact He1. apply vev_sum; [exact OK|exact BL|apply HX', He1|exact He2]. }
        rewrite sumD_suml, <- suml_scale. apply suml_ext. intros p Hp. rewrite sumD_suml, <- suml_scale. apply suml_ext. intros q Hq.
        rewrite sumD_const, sumD_suml. unfold cts. rewrite BL. unfold evalP. rewrite suml_map.
        rewrite (suml_ext _ (nord (length (oo y)) (oo y)) (fun x => evalT range B _ _) (fun w => Q2Qc (oc y) * (sumD range (od y) (fun e' => sgn (wsg w) * evalFs B (wfs m y w) (ren m (snd p) (snd q) e')) e))).
        + rewrite suml_scale. ring.
        + intros w _. unfold evalT. cbn [tc td tf]. rewrite sumD_const. unfold ren. rewrite (sumD_ren (wfs m y w) (xi m ++ xa m) (snd p ++ snd q) (od y)).
          * rewrite Q2Qc_red, Q2Qc_mult. destruct (wsg w); cbn [sgn]; [change (Q2Qc 1) with 1|change (Q2Qc (-1)) with (- (1))]; ring.
          * intros v Hv. apply in_app_or in Hv. apply in_or_app. destruct Hv as [Hv|Hv]; [left; exact (Permutation_in v (Permutation_sym (perm_in _ _ Hp)) Hv)|right; exact (Permutation_in v (Permutation_sym (perm_in _ _ Hq)) Hv)].
          * rewrite !app_length, (perm_len _ _ Hp), (perm_len _ _ Hq). reflexivity.
          * exact OD.
      - unfold cts. rewrite BL. rewrite (sumD_ext_in no nv (od y) _ (fun _ => 0)).
        + rewrite sumD_zero. rewrite suml_zero; [ring|]. intros p _. apply suml_zero. intros q _. unfold evalP. cbn [suml]. ring.
        + intros e' He1 He2. rewrite ST by exact He1. rewrite (wicks_sound no nv A).
          * unfold wicks. rewrite BL. cbn [suml]. ring.
          * intros o Ho. apply in_app_or in Ho. destruct Ho as [Ho|Ho].
            -- unfold tpl_ok in TP. rewrite !andb_true_iff, !forallb_forall in TP. destruct TP as [[_ S0] S1].
               unfold Dov in Ho. rewrite in_app_iff, !in_map_iff in Ho. destruct Ho as [[v [<- Hv]]|[v [<- Hv]]]; cbn [snd].
               ++ split; [|apply HX'; [exact He1|apply in_or_app; left; exact Hv]]. rewrite (proj1 (N.eqb_eq _ _) (S0 v (in_or_app _ _ _ (or_introl Hv)))). reflexivity.
               ++ apply in_rev in Hv. split; [|apply HX'; [exact He1|apply in_or_app; right; exact Hv]]. rewrite (proj1 (N.eqb_eq _ _) (S1 v (in_or_app _ _ _ (or_introl Hv)))). reflexivity.
            -- unfold allsum in OA. rewrite forallb_forall in OA. specialize (OA o Ho). apply andb_true_iff in OA. destruct OA as [I1 I2]. split; [exact I1|]. apply He2, memv_In, I2.
    Qed.
    Definition ctsum (ys : list oterm) : poly := flat_map (fun y => map (fun t => elim (length (tf t)) (xi m ++ xa m) t) (cts m y)) ys.
    Definition ctsum_ok (ys : list oterm) : bool := (forallb (cts_ok m) ys && forallb (fun t => nodlt (tf t)) (ctsum ys))%bool.
    (** the matrix elements of a sum of operator terms acting on the reference *)
    Theorem elem_sum ys e : ctsum_ok ys = true -> (forall v, In v (xi m ++ xa m) -> In (e v) (range (spc v))) ->
      act (map (inst e) (Dov m)) (osem no nv B e ys (Phi no nv)) (ref no nv) =
      suml (signed_perms (xi m)) (fun p => suml (signed_perms (xa m)) (fun q => sgn (fst p) * sgn (fst q) * evalP range A (ren m (snd p) (snd q) e) (ctsum ys))).
    Proof using TP.
      unfold ctsum_ok. rewrite andb_true_iff, !forallb_forall. intros [O1 O2] HX. unfold osem.
      rewrite (act_suml _ ys (fun y n => oact no nv B e y (Phi no nv) n)).
      etransitivity; [apply (suml_ext _ ys _ _ (fun y Hy => elem_term y e (O1 y Hy) HX))|]. rewrite suml_swap. apply suml_ext. intros p Hp. rewrite suml_swap. apply suml_ext. intros q Hq.
      rewrite suml_scale. f_equal.
      assert (HR : forall v, In v (xi m ++ xa m) -> In (ren m (snd p) (snd q) e v) (range (spc v))).
      { destruct (xlen m) as [X1 X2]. destruct (ren_vals e (snd p) (snd q)) as [R1 R2]; [rewrite (perm_len _ _ Hp); exact X1|rewrite (perm_len _ _ Hq); exact X2|].
        assert (TP' := TP). unfold tpl_ok in TP'. rewrite !andb_true_iff, !forallb_forall in TP'. destruct TP' as [[_ S0] S1].
        intros v Hv. apply in_app_or in Hv. destruct Hv as [Hv|Hv].
        - assert (I : In (ren m (snd p) (snd q) e v) (map e (snd p))) by (rewrite <- R1; apply in_map, Hv). apply in_map_iff in I. destruct I as [u [<- Hu]].
          apply (Permutation_in u (Permutation_sym (perm_in _ _ Hp))) in Hu. rewrite (proj1 (N.eqb_eq _ _) (S0 v (in_or_app _ _ _ (or_introl Hv)))).
          rewrite <- (proj1 (N.eqb_eq _ _) (S0 u (in_or_app _ _ _ (or_introl Hu)))). apply HX, in_or_app. left. exact Hu.
        - assert (I : In (ren m (snd p) (snd q) e v) (map e (snd q))) by (rewrite <- R2; apply in_map, Hv). apply in_map_iff in I. destruct I as [u [<- Hu]].
          apply (Permutation_in u (Permutation_sym (perm_in _ _ Hq))) in Hu. rewrite (proj1 (N.eqb_eq _ _) (S1 v (in_or_app _ _ _ (or_introl Hv)))).
          rewrite <- (proj1 (N.eqb_eq _ _) (S1 u (in_or_app _ _ _ (or_introl Hu)))). apply HX, in_or_app. right. exact Hu. }
      transitivity (evalP range B (ren m (snd p) (snd q) e) (ctsum ys)).
      - unfold ctsum, evalP. rewrite suml_flat_map. apply suml_ext. intros y _. rewrite suml_map. apply suml_ext. intros t _. apply elim_sound, HR.
      - apply suml_ext. intros t Ht. unfold evalT. f_equal. apply sumD_ext. intros e'. apply nodlt_eval, O2, Ht.
    Qed.
  End Term.
End Str.
