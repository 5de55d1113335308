(** From matrix elements of operator sums to arrays, and equality of antisymmetrised arrays by one polynomial identity.
    Proof machinery; it models no source line. *)
From Coq Require Import List Arith NArith ZArith QArith Qcanon Bool Lia Permutation.
From Verif Require Import Sums Tensor Interp Poly SymExec Canon Spec Setup Master Spin Check Tabs NF Antisym Fock Wick CCState Dress NOrd Proj.
Import ListNotations.
Open Scope Qc_scope.

Definition ovs (m : nat) : list space := (repeat 0%N m ++ repeat 1%N m)%list.
Fixpoint same_vars (a b : list var) : bool :=
  match a, b with [], [] => true | x :: a, y :: b => (N.eqb x y && same_vars a b)%bool | _, _ => false end.
Lemma same_vars_eq a : forall b, same_vars a b = true -> a = b.
Proof. induction a as [|x a IH]; intros [|y b] H; try discriminate; [reflexivity|]. cbn in H. apply andb_true_iff in H. destruct H as [H1 H2]. apply N.eqb_eq in H1. subst. f_equal. apply IH, H2. Qed.
Definition lay_ok (m : nat) : bool :=
  (same_vars (xvs (ovs m)) (xi m ++ xa m) && good (ovs m) && nodupv (xi m ++ xa m) && forallb (fun v => N.eqb (spc v) 0) (xi m) && forallb (fun v => N.eqb (spc v) 1) (xa m))%bool.

Section Cart.
  Variable range : space -> list nat.
  Fixpoint cart (vs : list var) : list (list nat) :=
    match vs with [] => [[]] | v :: vs => flat_map (fun x => map (cons x) (cart vs)) (range (spc v)) end.
  Lemma sumD_cart vs : NoDup vs -> forall F e, (forall e1 e2, (forall v, e1 v = e2 v) -> F e1 = F e2) ->
    sumD range vs F e = suml (cart vs) (fun l => F (envl vs l e)).
  Proof.
    induction vs as [|v vs IH]; intros ND F e HF; [cbn [sumD cart suml envl]; ring|]. inversion ND as [|? ? NI ND']; subst.
    cbn [sumD cart]. rewrite suml_flat_map. apply suml_ext. intros x _. rewrite suml_map, (IH ND') by exact HF.
    assert (HL : forall vs l, In l (cart vs) -> length l = length vs).
    { clear. induction vs as [|v vs IH]; intros l H; [destruct H as [<-|[]]; reflexivity|]. cbn [cart] in H. apply in_flat_map in H. destruct H as [x [_ H]].
      apply in_map_iff in H. destruct H as [l' [<- H]]. cbn [length]. f_equal. apply IH, H. }
    apply suml_ext. intros l Hl. apply HF. intros w. cbn [envl]. unfold upd at 2. destruct (N.eqb_spec w v) as [->|NE].
    - rewrite envl_out by exact NI. apply upd_same.
    - apply envl_cong; [intros _; apply upd_other, NE|]. symmetry. apply HL, Hl.
  Qed.
  Lemma cart_app a b F : suml (cart (a ++ b)) F = suml (cart a) (fun l1 => suml (cart b) (fun l2 => F (l1 ++ l2)%list)).
  Proof.
    revert F. induction a as [|v a IH]; intros F; cbn [app cart]; [cbn [suml]; rewrite Qcplus_0_r; reflexivity|].
    rewrite !suml_flat_map. apply suml_ext. intros x _. rewrite !suml_map. apply (IH (fun l => F (x :: l))).
  Qed.
  Lemma cart_tup s vs : (forall v, In v vs -> spc v = s) -> cart vs = tup (range s) (length vs).
  Proof.
    induction vs as [|v vs IH]; intros H; [reflexivity|]. cbn [cart tup length]. rewrite (H v) by (left; reflexivity).
    rewrite IH by (intros w Hw; apply H; right; exact Hw). reflexivity.
  Qed.
End Cart.

Section Link.
  Variables no nv m : nat.
  Hypothesis LAY : lay_ok m = true.
  Notation range := (so_range no nv).
  Notation xs := (xi m ++ xa m)%list.
  Notation sps := (ovs m).
  Lemma lay : xvs sps = xs /\ good sps = true /\ NoDup xs /\ (forall v, In v (xi m) -> spc v = 0%N) /\ (forall v, In v (xa m) -> spc v = 1%N).
  Proof.
    unfold lay_ok in LAY. rewrite !andb_true_iff, nodupv_NoDup, !forallb_forall in LAY. destruct LAY as [[[[H1 H2] H3] H4] H5].
    split; [apply same_vars_eq, H1|]. split; [exact H2|]. split; [exact H3|]. split; intros v Hv; apply N.eqb_eq; auto.
  Qed.
  Lemma orbs_ov l1 l2 : In l1 (tup (seq 0 no) m) -> In l2 (tup (seq 0 nv) m) -> orbs range sps (l1 ++ l2)%list = (l1 ++ map (Nat.add no) l2)%list.
  Proof using.
    intros H1 H2. pose proof (tup_len _ _ _ H1) as L1. pose proof (tup_len _ _ _ H2) as L2. unfold ovs. rewrite orbs_app2 by (rewrite repeat_length; lia).
    rewrite !orbs_repeat by assumption. f_equal.
    - transitivity (map (fun x => x) l1); [|apply map_id]. apply map_ext_in. intros x Hx. apply (tup_in _ _ _ H1), in_seq in Hx. change (range 0%N) with (seq 0 no). rewrite seq_nth by lia. reflexivity.
    - apply map_ext_in. intros x Hx. apply (tup_in _ _ _ H2), in_seq in Hx. change (range 1%N) with (seq no nv). rewrite seq_nth by lia. reflexivity.
  Qed.
  Lemma seq_map : seq no nv = map (Nat.add no) (seq 0 nv).
  Proof using. rewrite <- (Nat.add_0_r no) at 1. generalize 0%nat. induction nv as [|k IH]; intros s; [reflexivity|]. cbn [seq map]. f_equal. rewrite <- (IH (S s)). f_equal. lia. Qed.
  Lemma sumD_tup F e : (forall e1 e2, (forall v, e1 v = e2 v) -> F e1 = F e2) ->
    sumD range xs F e = suml (tup (seq 0 no) m) (fun l1 => suml (tup (seq 0 nv) m) (fun l2 => F (envl xs (orbs range sps (l1 ++ l2)%list) e))).
  Proof.
    destruct lay as [E1 [E2 [ND [S0 S1]]]]. destruct (xlen m) as [X1 X2].
    intros HF. rewrite (sumD_cart range xs ND F e HF), cart_app, (cart_tup range 0%N _ S0), (cart_tup range 1%N _ S1), X1, X2.
    change (range 0%N) with (seq 0 no). change (range 1%N) with (seq no nv). apply suml_ext. intros l1 H1. rewrite seq_map, tup_map. apply suml_ext. intros l2 H2.
    rewrite orbs_ov by assumption. reflexivity.
  Qed.

  (** contraction of a polynomial with the atom n *)
  Definition dotp (n : N) (p : poly) : poly := map (fun t => T (tc t) (xs ++ td t) ((n, xs) :: tf t)) p.
  Definition dotp_ok (p : poly) : bool := forallb (fun t => disj xs (td t)) p.
  Lemma dotp_eval A n p e : dotp_ok p = true -> evalP range A e (dotp n p) = sumD range xs (fun e' => A n (map e' xs) * evalP range A e' p) e.
  Proof using.
    unfold dotp_ok. rewrite forallb_forall. intros H. unfold evalP, dotp. rewrite suml_map.
    rewrite (sumD_ext range xs _ (fun e' => suml p (fun t => A n (map e' xs) * evalT range A e' t))) by (intros e'; rewrite <- suml_scale; reflexivity).
    rewrite sumD_suml. apply suml_ext. intros t Ht. specialize (H t Ht). unfold evalT at 1. cbn [tc td tf]. rewrite sumD_app, <- sumD_const. apply sumD_ext. intros e'.
    unfold evalT. cbn [evalFs]. unfold evalF. cbn [fst snd].
    rewrite (sumD_scale_l range (td t) (fun e => A n (map e xs)) (evalFs A (tf t))); [ring|].
    intros e'' d x Hd. f_equal. apply map_ext_in. intros v Hv. apply upd_other. intros ->. exact (disj_spec _ _ _ H Hv Hd).
  Qed.
  Lemma evalP_ext A p e1 e2 : (forall v, e1 v = e2 v) -> evalP range A e1 p = evalP range A e2 p.
  Proof using. intros H. unfold evalP. apply suml_ext. intros t _. apply evalT_agree. intros v _ _. apply H. Qed.
  Lemma evalP_closed A p e1 e2 : forallb (closed_term xs) p = true -> map e1 xs = map e2 xs -> evalP range A e1 p = evalP range A e2 p.
  Proof using.
    rewrite forallb_forall. intros H E. unfold evalP. apply suml_ext. intros t Ht. apply evalT_agree. intros v Hv ND. specialize (H t Ht).
    unfold closed_term in H. rewrite forallb_forall in H. specialize (H v Hv). apply orb_true_iff in H.
    assert (I : In v xs) by (destruct H as [H|H]; apply memv_In in H; [try contradiction; exact H|try contradiction; exact H]).
    revert E I. clear. generalize xs. induction l as [|x l IH]; intros E I; [destruct I|]. cbn [map] in E. injection E as E0 E. destruct I as [<-|I]; [exact E0|apply IH; assumption].
  Qed.
  Section Tab.
    Variable atoms : atomtab.
    Notation A := (Aof range atoms).
    Lemma dot_poly n L X p e : nlook n atoms = Some (sps, L) -> tsim range A sps p X -> dotp_ok p = true ->
      dot m no nv L X = evalP range A e (dotp n p).
    Proof.
      intros HL [HS HT] HD. destruct lay as [E1 [E2 [ND [S0 S1]]]]. rewrite (dotp_eval A n p e HD).
      rewrite sumD_tup by (intros e1 e2 HE; f_equal; [f_equal; apply map_ext; exact HE|apply evalP_ext, HE]).
      unfold dot. apply suml_ext. intros l1 H1. apply suml_ext. intros l2 H2.
      assert (HI : inr (l1 ++ l2) (map (dim range) sps)) by (unfold ovs; rewrite sh_ov; apply tup_sh; assumption).
      assert (AG : map (envl xs (orbs range sps (l1 ++ l2)%list) e) xs = orbs range sps (l1 ++ l2)%list).
      { apply envl_map; [exact ND|]. rewrite <- E1, xvs_length, (orbs_len range _ _ HI). reflexivity. }
      rewrite AG, (Aof_orbs range atoms (so_nodup no nv) n sps L (l1 ++ l2) HL HI). f_equal.
      apply HT; [rewrite HS; exact HI|]. unfold eagree. rewrite E1. exact AG.
    Qed.
  End Tab.
  Definition noat (n : N) (p : poly) : bool := forallb (fun t => forallb (fun f => negb (N.eqb (fst f) n)) (tf t)) p.
  Lemma noat_eval n x atoms p e : noat n p = true -> evalP range (Aof range ((n, x) :: atoms)) e p = evalP range (Aof range atoms) e p.
  Proof using.
    unfold noat. rewrite forallb_forall. intros H. unfold evalP. apply suml_ext. intros t Ht. specialize (H t Ht). rewrite forallb_forall in H. unfold evalT. f_equal.
    apply sumD_ext. intros e'. induction (tf t) as [|f fs IH]; [reflexivity|]. cbn [evalFs]. rewrite IH by (intros f' Hf; apply H; right; exact Hf). f_equal.
    unfold evalF, Aof. cbn [nlook]. specialize (H f (or_introl eq_refl)). apply negb_true_iff in H. rewrite H. reflexivity.
  Qed.
  Definition proj_ok (n : N) (p : poly) : bool := (noat n p && dotp_ok p)%bool.

  (** the antisymmetrisations of two arrays agree if their contractions with an antisymmetric array have equal polynomials *)
  Theorem so_proj n tab pU pC U C R S : (0 < m)%nat -> sy n = SD [m; m] true false -> Forall (atom_ok range sy) tab ->
    so_vsim no nv tab (SP sps pU) (VT U) -> so_vsim no nv tab (SP sps pC) (VT C) -> antisymmetrised m U R -> antisymmetrised m C S ->
    proj_ok n pU = true -> proj_ok n pC = true -> so_chk [] (Some (SP [] (dotp n pU))) (Some (SP [] (dotp n pC))) -> teq R S.
  Proof.
    intros Hm Hs OK VU VC AR AS OU OC CK. inversion VU as [? ? ? TU| | | | |]; subst. inversion VC as [? ? ? TC| | | | |]; subst.
    unfold proj_ok in *. rewrite !andb_true_iff in *. destruct OU as [NU DU], OC as [NC DC].
    apply (same_antis m no nv U C); try assumption.
    - rewrite (proj1 TU). apply sh_ov.
    - rewrite (proj1 TC). apply sh_ov.
    - intros L SL AL. set (tL := (n, (sps, L)) :: tab).
      assert (OKL : Forall (atom_ok range sy) tL).
      { constructor; [|exact OK]. apply atom_ok_amp; [exact Hs|exact Hm|rewrite sh_ov; exact SL|exact AL]. }
      assert (NL : nlook n tL = Some (sps, L)) by (cbn [tL nlook]; rewrite N.eqb_refl; reflexivity).
      assert (W : forall p X, noat n p = true -> tsim range (Aof range tab) sps p X -> tsim range (Aof range tL) sps p X).
      { intros p X HN [T1 T2]. split; [exact T1|]. intros idx e HI HA. rewrite (T2 idx e HI HA). symmetry. apply noat_eval, HN. }
      assert (V : forall p X, noat n p = true -> dotp_ok p = true -> tsim range (Aof range tab) sps p X ->
        so_vsim no nv tL (SP [] (dotp n p)) (VT (mkT [] (fun _ => dot m no nv L X)))).
      { intros p X HN HD HT. constructor. split; [reflexivity|]. intros idx e _ _. apply dot_poly; [exact NL|apply W; assumption|exact HD]. }
      destruct (so_vs_eq no nv tL OKL [] _ _ _ _ (V pU U NU DU TU) (V pC C NC DC TC) CK) as [_ E]. exact (E [] (Forall2_nil _)).
  Qed.

  (** the array behind matrix elements given as signed sums over permuted labels *)
  Definition carr (atoms : atomtab) (p : poly) : tensor := mkT (map (dim range) sps) (fun idx => evalP range (Aof range atoms) (env_of sps (orbs range sps idx)) p).
  Lemma carr_vsim atoms p : forallb (closed_term xs) p = true -> so_vsim no nv atoms (SP sps p) (VT (carr atoms p)).
  Proof.
    intros HC. destruct lay as [E1 [E2 _]]. constructor. split; [reflexivity|]. intros idx e HI HA. cbn [carr data shape] in *. apply evalP_closed; [exact HC|].
    rewrite <- E1. unfold eagree in HA. rewrite HA. apply agree_env; [|exact HI]. unfold good in E2. apply andb_true_iff in E2. apply E2.
  Qed.
  Lemma carr_antis atoms p S F : tpl_ok m = true -> forallb (closed_term xs) p = true -> shape S = (repeat no m ++ repeat nv m)%list ->
    (forall l1 l2 e, In l1 (tup (seq 0 no) m) -> In l2 (tup (seq 0 nv) m) -> map e (xi m) = l1 -> map e (xa m) = map (Nat.add no) l2 -> data S (l1 ++ l2)%list = F e) ->
    (forall e, (forall v, In v xs -> In (e v) (range (spc v))) ->
      F e = suml (signed_perms (xi m)) (fun a => suml (signed_perms (xa m)) (fun b => sgn (fst a) * sgn (fst b) * evalP range (Aof range atoms) (ren m (snd a) (snd b) e) p))) ->
    antisymmetrised m (carr atoms p) S.
  Proof.
    intros TP HC HS HD HF. destruct lay as [E1 [E2 [ND [S0 S1]]]]. split; [rewrite HS; cbn [carr shape]; symmetry; apply sh_ov|].
    intros l1 l2 L1 HI. cbn [carr shape] in HI.
    assert (HI' : inr (l1 ++ l2) (repeat no m ++ repeat nv m)) by (rewrite <- sh_ov; exact HI).
    assert (IN : In l1 (tup (seq 0 no) m) /\ In l2 (tup (seq 0 nv) m)).
    { unfold inr in HI'. apply Forall2_app_inv_r in HI'. destruct HI' as [a [b [H1 [H2 E]]]].
      assert (LA : length a = m) by (apply Forall2_len in H1; rewrite repeat_length in H1; exact H1).
      assert (l1 = a /\ l2 = b) as [-> ->].
      { clear -E L1 LA. revert a m L1 LA E. induction l1 as [|x l1 IH]; intros [|y a] k LA LB E; cbn in *; subst; try discriminate; [auto|]. injection E as -> E.
        destruct (IH a _ eq_refl ltac:(congruence) E). subst. auto. }
      split; apply inr_tup; assumption. }
    destruct IN as [I1 I2].
    set (e := env_of sps (orbs range sps (l1 ++ l2)%list)).
    assert (AG : eagree range sps (l1 ++ l2) e) by (apply agree_env; [unfold good in E2; apply andb_true_iff in E2; apply E2|exact HI]).
    unfold eagree in AG. rewrite orbs_ov, E1, map_app in AG by assumption.
    assert (EE : map e (xi m) = l1 /\ map e (xa m) = map (Nat.add no) l2).
    { destruct (xlen m) as [X1 _]. assert (LL : length (map e (xi m)) = length l1) by (rewrite map_length; lia).
      revert LL AG. generalize (map e (xi m)) (map e (xa m)) (map (Nat.add no) l2). clear. revert l1. intros l1 l. revert l1.
      induction l as [|x l IH]; intros [|y k] a b L E; try discriminate; [auto|]. cbn in E. injection E as -> E. cbn in L. destruct (IH k a b ltac:(lia) E). subst. auto. }
    destruct EE as [EI EA]. rewrite (HD l1 l2 e I1 I2 EI EA).
    rewrite HF.
    2:{ intros v Hv. apply in_app_or in Hv. destruct Hv as [Hv|Hv].
        - rewrite (S0 v Hv). change (range 0%N) with (seq 0 no). apply (tup_in _ _ _ I1). rewrite <- EI. apply in_map, Hv.
        - rewrite (S1 v Hv). change (range 1%N) with (seq no nv). rewrite seq_map. assert (I : In (e v) (map (Nat.add no) l2)) by (rewrite <- EA; apply in_map, Hv).
          apply in_map_iff in I. destruct I as [x [<- Hx]]. apply in_map, (tup_in _ _ _ I2), Hx. }
    transitivity (suml (signed_perms l1) (fun a => suml (signed_perms (map (Nat.add no) l2)) (fun b => sgn (fst a) * sgn (fst b) *
      evalP range (Aof range atoms) (envl xs (snd a ++ snd b)%list e) p))).
    { rewrite <- EI at 1. rewrite signed_perms_map, suml_map. apply suml_ext. intros a _. rewrite <- EA. rewrite signed_perms_map, suml_map. apply suml_ext. intros b _.
      cbn [pm fst snd]. unfold ren. rewrite map_app. reflexivity. }
    apply suml_ext. intros [b1 a] Ha. rewrite signed_perms_map, suml_map. apply suml_ext. intros [b2 b] Hb. cbn [pm fst snd]. f_equal. cbn [carr data].
    apply evalP_closed; [exact HC|]. pose proof (perm_tup m _ _ _ _ I1 Ha) as J1. pose proof (perm_tup m _ _ _ _ I2 Hb) as J2.
    assert (HJ : inr (a ++ b) (map (dim range) sps)) by (unfold ovs; rewrite sh_ov; apply tup_sh; assumption).
    rewrite <- (orbs_ov a b J1 J2). rewrite envl_map; [|exact ND|rewrite <- E1, xvs_length, (orbs_len range _ _ HJ); reflexivity].
    rewrite <- E1. symmetry. apply agree_env; [unfold good in E2; apply andb_true_iff in E2; apply E2|exact HJ].
  Qed.
End Link.
