(** Commutators of operators with a cluster operator, term by term.  Proof machinery; it models no particular source line. *)
From Coq Require Import Ascii List Arith NArith ZArith QArith Qcanon Bool Lia Permutation.
From Verif Require Import Sums Tensor Interp Poly SymExec Canon Spec Setup Master Fock Wick CCState Dress.
Import ListNotations.
Open Scope Qc_scope.

Section Commut.
  Variables no nv : nat.
  Notation range := (so_range no nv).
  Variable A : N -> list nat -> Qc.
  Notation B := (A' A).
  Notation osem := (osem no nv B).
  Notation oact := (oact no nv B).
  Notation eqN := (eqN (no + nv)).
  Variable ts : nat -> list oterm.
  Hypothesis TC : forall c, (c < 10)%nat -> forallb cterm (ts c) = true.
  Variable Top : Fock.op.
  Hypothesis HT : forall e c psi n, (c < 10)%nat -> Top psi n = osem e (ts c) psi n.

  Definition lw (xs : list vop) : list oterm := [OT 1 [] [] xs].
  Lemma lw_sem e xs psi n : osem e (lw xs) psi n = act (map (inst e) xs) psi n.
  Proof using. unfold Wick.osem, Wick.oact. cbn [lw suml oc od ofs oo sumD evalFs]. change (Q2Qc 1) with 1. ring. Qed.
  (** [x1 .. xn, T] *)
  Fixpoint ads (c : nat) (xs : list vop) : list oterm :=
    match xs with [] => [] | x :: r => (omuls (contr ts c x) (lw r) ++ omuls (lw [x]) (ads c r))%list end.
  Fixpoint ads_ok (c : nat) (xs : list vop) : bool :=
    match xs with [] => true | x :: r => (fresh ts x c && odisjs (contr ts c x) (lw r) && odisjs (lw [x]) (ads c r) && ads_ok c r)%bool end.
  Lemma string_comm e c : (c < 10)%nat -> forall xs psi, typed no nv e xs -> ads_ok c xs = true ->
    eqN (act (map (inst e) xs) (Top psi)) (fun n => Top (act (map (inst e) xs) psi) n + osem e (ads c xs) psi n).
  Proof using HT TC.
    intros HC. induction xs as [|x r IH]; intros psi HX OK n Hn.
    - cbn [map ads Wick.act fold_right]. unfold Wick.osem. cbn [suml]. ring.
    - cbn [ads_ok] in OK. rewrite !andb_true_iff in OK. destruct OK as [[[O1 O2] O3] O4].
      assert (HX1 : typed no nv e [x]) by (intros o [<-|[]]; apply HX; left; reflexivity).
      specialize (IH psi (fun o Ho => HX o (or_intror Ho)) O4).
      cbn [map ads]. change (act (inst e x :: map (inst e) r) (Top psi) n) with (fop (fst x) (e (snd x)) (act (map (inst e) r) (Top psi)) n).
      change (act (inst e x :: map (inst e) r) psi) with (fop (fst x) (e (snd x)) (act (map (inst e) r) psi)).
      unfold fop at 1. rewrite (ferm_cong (fst x) n (e (snd x)) O _ (fun m => Top (act (map (inst e) r) psi) m + osem e (ads c r) psi m)).
      2:{ intros m Lm _. apply IH. unfold Dress.eqN in *. congruence. }
      rewrite (ferm_plus (fst x) n (e (snd x)) (Top (act (map (inst e) r) psi)) (osem e (ads c r) psi)).
      change (ferm (fst x) (e (snd x)) n (Top (act (map (inst e) r) psi))) with (fop (fst x) (e (snd x)) (Top (act (map (inst e) r) psi)) n).
      rewrite (letter_top no nv A ts TC Top HT e c x (act (map (inst e) r) psi) HC HX1 O1 n Hn), <- Qcplus_assoc. f_equal.
      transitivity (osem e (omuls (contr ts c x) (lw r)) psi n + osem e (omuls (lw [x]) (ads c r)) psi n).
      + rewrite <- (osem_omuls no nv B e _ _ psi n O2), <- (osem_omuls no nv B e _ _ psi n O3). f_equal.
        * apply osem_ext. intros m. symmetry. apply lw_sem.
        * symmetry. apply lw_sem.
      + unfold Wick.osem. rewrite suml_app. reflexivity.
  Qed.
  Definition adh (c : nat) (hs : list oterm) : list oterm := flat_map (fun h => map (bindh h) (ads c (oo h))) hs.
  Definition adh_ok (c : nat) (hs : list oterm) : bool :=
    forallb (fun h => allsum h && ads_ok c (oo h) && forallb (fun y => disj (od y) (fvars (ofs h))) (ads c (oo h)))%bool hs.
  Lemma bindh_sum e h ys psi n : forallb (fun y => disj (od y) (fvars (ofs h))) ys = true ->
    suml (map (bindh h) ys) (fun t => oact e t psi n) = Q2Qc (oc h) * sumD range (od h) (fun e' => evalFs B (ofs h) e' * osem e' ys psi n) e.
  Proof using.
    intros H2. rewrite forallb_forall in H2.
    rewrite (sumD_ext range _ _ (fun e' => suml ys (fun y => evalFs B (ofs h) e' * oact e' y psi n))).
    2:{ intros e'. unfold Wick.osem. rewrite suml_scale. reflexivity. }
    assert (SW : forall (ws : list oterm) ds F e, sumD range ds (fun e' => suml ws (fun u => F u e')) e = suml ws (fun u => sumD range ds (F u) e)).
    { clear. intros ws ds F. induction ds as [|d ds IH]; intros e; cbn [sumD]; [reflexivity|]. rewrite suml_swap. apply suml_ext. intros x _. apply IH. }
    rewrite SW, <- suml_scale, suml_map. apply suml_ext. intros y Hy. specialize (H2 y Hy). unfold Wick.oact. cbn [bindh oc od ofs oo].
    rewrite Q2Qc_red, Q2Qc_mult, sumD_app, <- Qcmult_assoc. f_equal. rewrite <- sumD_const. apply sumD_ext. intros e'.
    transitivity (Q2Qc (oc y) * (evalFs B (ofs h) e' * sumD range (od y) (fun e'' => evalFs B (ofs y) e'' * act (map (inst e'') (oo y)) psi n) e')); [|ring].
    f_equal. rewrite <- sumD_const. apply sumD_ext_in. intros e'' He1 _. rewrite evalFs_app, (evalFs_agree B (ofs h) e'' e'); [ring|].
    intros v Hv. apply He1. intros I. exact (disj_spec _ _ _ H2 I Hv).
  Qed.
  Lemma comm_osem c hs e psi : (c < 10)%nat -> adh_ok c hs = true ->
    eqN (osem e hs (Top psi)) (fun n => Top (osem e hs psi) n + osem e (adh c hs) psi n).
  Proof using HT TC.
    intros HC H n Hn. pose proof (top_lin no nv A ts Top HT) as TL. unfold Wick.osem at 1.
    rewrite (proj1 TL (osem e hs psi) (fun m => suml hs (fun h => oact e h psi m))) by (intros m; reflexivity).
    rewrite (lin_suml _ TL hs (fun h m => oact e h psi m)). unfold adh. unfold Wick.osem. rewrite suml_flat_map, <- suml_plus. apply suml_ext. intros h Hh.
    unfold adh_ok in H. rewrite forallb_forall in H. specialize (H h Hh). rewrite !andb_true_iff in H. destruct H as [[HA H1] H2].
    rewrite (bindh_sum e h _ psi n H2). unfold Wick.oact at 1 2.
    rewrite (lin_scale _ TL), (lin_sumD _ TL range (od h) (fun e' m => evalFs B (ofs h) e' * act (map (inst e') (oo h)) psi m)), <- Qcmult_plus_distr_r. f_equal.
    assert (PL : forall ds F G e, sumD range ds F e + sumD range ds G e = sumD range ds (fun e' => F e' + G e') e).
    { clear. intros ds F G. induction ds as [|d ds IH]; intros e; cbn [sumD]; [reflexivity|]. rewrite <- suml_plus. apply suml_ext. intros x _. apply IH. }
    rewrite PL. apply sumD_ext_in. intros e' _ He'. rewrite (lin_scale _ TL), <- Qcmult_plus_distr_r. f_equal. apply (string_comm e' c HC); [|exact H1|exact Hn].
    intros o Ho. unfold allsum in HA. rewrite forallb_forall in HA. specialize (HA o Ho). apply andb_true_iff in HA. destruct HA as [I1 I2]. split; [exact I1|]. apply He', memv_In, I2.
  Qed.
  (** [X] is the operator of the terms [hs] *)
  Definition is_op (X : Fock.op) (hs : list oterm) : Prop := forall e psi, eqN (X psi) (osem e hs psi).
  Theorem comm_is_op c X hs : (c < 10)%nat -> adh_ok c hs = true -> is_op X hs -> is_op (comm X Top) (adh c hs).
  Proof using HT TC.
    intros HC OK HX e psi n Hn. unfold comm. rewrite (HX e (Top psi) n Hn), (comm_osem c hs e psi HC OK n Hn).
    rewrite (eqN_X no (no + nv) Top (top_agr no nv A ts TC Top HT) _ _ (HX e psi) n Hn). ring.
  Qed.
  Lemma scale_is_op q X hs : is_op X hs -> is_op (oscale q X) (map (fun t => OT (Qred (q * oc t)) (od t) (ofs t) (oo t)) hs).
  Proof using.
    intros HX e psi n Hn. unfold oscale. rewrite (HX e psi n Hn). unfold Wick.osem. rewrite suml_map, <- suml_scale. apply suml_ext. intros t _.
    unfold Wick.oact. cbn [oc od ofs oo]. rewrite Q2Qc_red, Q2Qc_mult. ring.
  Qed.
  Lemma plus_is_op X Y hs ks : is_op X hs -> is_op Y ks -> is_op (oplus X Y) (hs ++ ks)%list.
  Proof using.
    intros HX HY e psi n Hn. unfold oplus. rewrite (HX e psi n Hn), (HY e psi n Hn). unfold Wick.osem. rewrite suml_app. reflexivity.
  Qed.
  Lemma is_op_elem X hs e D : is_op X hs -> act (map (inst e) D) (X (Phi no nv)) (ref no nv) = act (map (inst e) D) (osem e hs (Phi no nv)) (ref no nv).
  Proof using. intros HX. apply (eqN_act no (no + nv) _ _ _ (HX e (Phi no nv))). apply ref_len. Qed.
End Commut.

(** ** De-excitation letters anticommute *)
Definition dex (no : nat) (o : bool * nat) : Prop := Nat.ltb (snd o) no = fst o.
Lemma dex_swap no x y psi n : dex no x -> dex no y ->
  fop (fst x) (snd x) (fop (fst y) (snd y) psi) n = - fop (fst y) (snd y) (fop (fst x) (snd x) psi) n.
Proof.
  intros Hx Hy. pose proof (anticommutator (fst x) (fst y) n (snd x) (snd y) psi) as E.
  replace (xorb (fst x) (fst y) && Nat.eqb (snd x) (snd y) && Nat.ltb (snd x) (List.length n))%bool with false in E.
  - change (ferm (fst x) (snd x) n (fop (fst y) (snd y) psi)) with (fop (fst x) (snd x) (fop (fst y) (snd y) psi) n) in E.
    change (ferm (fst y) (snd y) n (fop (fst x) (snd x) psi)) with (fop (fst y) (snd y) (fop (fst x) (snd x) psi) n) in E.
    transitivity (fop (fst x) (snd x) (fop (fst y) (snd y) psi) n + fop (fst y) (snd y) (fop (fst x) (snd x) psi) n - fop (fst y) (snd y) (fop (fst x) (snd x) psi) n); [ring|].
    rewrite E. ring.
  - unfold dex in *. destruct (Nat.eqb_spec (snd x) (snd y)) as [EQ|]; [|rewrite andb_false_r; reflexivity]. rewrite EQ in Hx. rewrite <- Hx, <- Hy.
    destruct (Nat.ltb (snd y) no); reflexivity.
Qed.
Lemma dex_pass no x w psi : dex no x -> Forall (dex no) w -> forall n,
  act (x :: w) psi n = sb (Nat.odd (List.length w)) * act (w ++ [x]) psi n.
Proof.
  intros Hx HW. induction HW as [|y w Hy HW IH]; intros n; [cbn; ring|].
  change (act (x :: y :: w) psi n) with (fop (fst x) (snd x) (fop (fst y) (snd y) (act w psi)) n). rewrite (dex_swap no) by assumption.
  change (fop (fst y) (snd y) (fop (fst x) (snd x) (act w psi)) n) with (ferm (fst y) (snd y) n (act (x :: w) psi)).
  rewrite (ferm_ext _ _ _ _ (fun m => sb (Nat.odd (List.length w)) * act (w ++ [x]) psi m)) by exact IH. rewrite ferm_scale.
  change (ferm (fst y) (snd y) n (act (w ++ [x]) psi)) with (act ((y :: w) ++ [x]) psi n).
  change (List.length (y :: w)) with (S (List.length w)). rewrite Nat.odd_succ, <- Nat.negb_odd. destruct (Nat.odd (List.length w)); cbn [negb sb]; ring.
Qed.
Lemma dex_comm no u w psi : Forall (dex no) u -> Forall (dex no) w -> Nat.even (List.length w) = true -> forall n,
  act u (act w psi) n = act w (act u psi) n.
Proof.
  intros HU HW EV. induction HU as [|x u Hx HU IH]; intros n; [reflexivity|].
  change (act (x :: u) (act w psi) n) with (ferm (fst x) (snd x) n (act u (act w psi))). rewrite (ferm_ext _ _ _ _ (act w (act u psi))) by exact IH.
  change (ferm (fst x) (snd x) n (act w (act u psi))) with (act (x :: w) (act u psi) n). rewrite (dex_pass no) by assumption.
  rewrite <- Nat.negb_even, EV. cbn [negb sb]. rewrite act_app. change (act [x] (act u psi)) with (act (x :: u) psi). ring.
Qed.
