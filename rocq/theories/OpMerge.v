(** Lists of operator terms that are equal as operators, or equal when acting on the reference determinant: a string of excitation letters is
    read as an antisymmetric array, so that two lists can be compared as tensor polynomials.  Proof machinery; it models no source line. *)
From Coq Require Import Ascii List Arith NArith ZArith QArith Qcanon Bool Lia Permutation.
From Verif Require Import Sums Tensor Interp Poly SymExec Canon Spec Setup Master Check Fock Wick CCState Dress Commut NOrd.
Import ListNotations.
Open Scope Qc_scope.

Definition oat : N := 52%N.
Definition symm (kh kp : nat) (n : N) : symd := if N.eqb n oat then SD [kh; kp] true false else sy n.

Lemma act_swap no u x y w psi n : crt no x -> crt no y -> act (u ++ x :: y :: w) psi n = - act (u ++ y :: x :: w) psi n.
Proof.
  intros Hx Hy. rewrite !act_app. transitivity (act u (fun m => - (1) * act (y :: x :: w) psi m) n).
  - apply act_ext. intros m. change (act (x :: y :: w) psi m) with (fop (fst x) (snd x) (fop (fst y) (snd y) (act w psi)) m).
    rewrite (crt_swap no) by assumption. change (act (y :: x :: w) psi m) with (fop (fst y) (snd y) (fop (fst x) (snd x) (act w psi)) m). ring.
  - rewrite act_scale. ring.
Qed.

Lemma evalFs_agree_at (A1 A2 : N -> list nat -> Qc) fs e : (forall f, In f fs -> forall l, A1 (fst f) l = A2 (fst f) l) -> evalFs A1 fs e = evalFs A2 fs e.
Proof.
  induction fs as [|f fs IH]; intros H; [reflexivity|]. cbn [evalFs]. rewrite IH by (intros g Hg; apply H; right; exact Hg). f_equal. apply H. left. reflexivity.
Qed.

Section Merge.
  Variables no nv : nat.
  Notation range := (so_range no nv).
  Variable tab : atomtab.
  Hypothesis OK : Forall (atom_ok range sy) tab.
  Notation A := (Aof range tab).
  Notation B := (A' A).
  Notation osem := (Wick.osem no nv B).
  Notation oact := (Wick.oact no nv B).
  Notation eqN := (Dress.eqN (no + nv)).
  Variables kh kp : nat.

  Section Atom.
    Variable psi : ket.
    Variable m : det.
    Definition Oa (l : list nat) : Qc :=
      if (forallb (fun x => Nat.ltb x no) (firstn kh l) && forallb (fun x => negb (Nat.ltb x no)) (skipn kh l))%bool
      then act (map (pair true) (skipn kh l) ++ map (pair false) (firstn kh l)) psi m else 0.
    Definition Am (n : N) (l : list nat) : Qc := if N.eqb n oat then Oa l else A n l.
    Lemma Oa_swap_h pre x y post : (S (length pre) < kh)%nat -> Oa (pre ++ x :: y :: post) = - Oa (pre ++ y :: x :: post).
    Proof using.
      intros H. set (i := length pre) in *. set (k := (kh - i - 2)%nat). assert (EK : (kh - i)%nat = Datatypes.S (Datatypes.S k)) by (unfold k; lia).
      assert (F : forall a b, firstn kh (pre ++ a :: b :: post) = (pre ++ a :: b :: firstn k post)%list /\ skipn kh (pre ++ a :: b :: post) = skipn k post).
      { intros a b. rewrite firstn_app, skipn_app. fold i. rewrite EK. cbn [firstn skipn].
        rewrite firstn_all2, skipn_all2 by (fold i; lia). split; reflexivity. }
      unfold Oa. destruct (F x y) as [-> ->]. destruct (F y x) as [-> ->]. rewrite !forallb_app. cbn [forallb].
      destruct (forallb (fun z => Nat.ltb z no) pre); cbn [andb]; [|ring].
      destruct (Nat.ltb x no) eqn:Hx, (Nat.ltb y no) eqn:Hy; cbn [andb]; try ring.
      destruct (forallb (fun z => Nat.ltb z no) _); cbn [andb]; [|ring]. destruct (forallb _ _); [|ring].
      rewrite !map_app. cbn [map]. rewrite !app_assoc. apply (act_swap no); unfold crt; cbn [fst snd negb]; assumption.
    Qed.
    Lemma Oa_swap_p pre x y post : (kh <= length pre)%nat -> Oa (pre ++ x :: y :: post) = - Oa (pre ++ y :: x :: post).
    Proof using.
      intros H.
      assert (F : forall a b, firstn kh (pre ++ a :: b :: post) = firstn kh pre /\ skipn kh (pre ++ a :: b :: post) = (skipn kh pre ++ a :: b :: post)%list).
      { intros a b. rewrite firstn_app, skipn_app. replace (kh - length pre)%nat with O by lia. cbn [firstn skipn]. rewrite app_nil_r. split; reflexivity. }
      unfold Oa. destruct (F x y) as [-> ->]. destruct (F y x) as [-> ->]. rewrite !forallb_app. cbn [forallb].
      destruct (forallb (fun z => Nat.ltb z no) _); cbn [andb]; [|ring]. destruct (forallb _ (skipn kh pre)); cbn [andb]; [|ring].
      destruct (Nat.ltb x no) eqn:Hx, (Nat.ltb y no) eqn:Hy; cbn [negb andb]; try ring. destruct (forallb _ post); [|ring].
      rewrite !map_app. cbn [map]. rewrite <- !app_assoc. cbn [app]. apply (act_swap no); unfold crt; cbn [fst snd negb]; assumption.
    Qed.
    Lemma Am_blk n : blocks_ok (symm kh kp) Am n 0 (blk (symm kh kp n)).
    Proof using OK.
      unfold symm. destruct (N.eqb_spec n oat) as [->|NE].
      - cbn [blk blocks_ok]. split; [|split; [|exact I]]; intros i H1 H2 pre x y post HL; unfold Am, symm; rewrite N.eqb_refl; cbn [anti Canon.sg].
        + rewrite Oa_swap_h by lia. ring.
        + rewrite Oa_swap_p by lia. ring.
      - pose proof (ctx_blk range tab sy OK n) as HB. revert HB. generalize 0%nat. induction (blk (sy n)) as [|b bl IH]; intros s HB; [exact I|].
        cbn [blocks_ok] in *. destruct HB as [H1 H2]. split; [|apply IH, H2]. intros i I1 I2 pre x y post HL. unfold Am, symm.
        apply N.eqb_neq in NE. rewrite NE. apply (H1 i I1 I2 pre x y post HL).
    Qed.
    Lemma Am_herm n : herm_ok (symm kh kp) Am n.
    Proof using OK.
      unfold herm_ok, symm. destruct (N.eqb_spec n oat) as [->|NE]; [discriminate|]. intros H.
      pose proof (ctx_herm range tab sy (sy_herm tab) OK n H) as HH. destruct (blk (sy n)) as [|b [|b' [|]]]; try exact HH. destruct HH as [E HH]. split; [exact E|].
      intros l1 l2 L1 L2. unfold Am. apply N.eqb_neq in NE. rewrite NE. apply HH; assumption.
    Qed.
    Lemma Am_len n : herm (symm kh kp n) = true -> len_ok (symm kh kp) Am n.
    Proof using OK.
      unfold len_ok, symm. destruct (N.eqb_spec n oat) as [->|NE]; [discriminate|]. intros H l HL. unfold Am. apply N.eqb_neq in NE. rewrite NE.
      apply (ctx_len range tab sy OK n H l HL).
    Qed.
  End Atom.

  Definition mterm (y : oterm) : term :=
    T (Qred (oc y * (if fst (fst (std (oo y))) then 1%Q else (-1)%Q))) (od y) ((oat, snd (std (oo y)) ++ snd (fst (std (oo y))))%list :: ofs y).
  Definition mpoly (xs : list var) (hs : list oterm) : poly := map (fun y => elim (length (ofs y)) xs (mterm y)) hs.
  Definition mok1 (xs : list var) (y : oterm) : bool :=
    (forallb (fun o => isc o && (memv (snd o) (od y) || memv (snd o) xs))%bool (oo y) && Nat.eqb (length (snd (std (oo y)))) kh &&
     forallb (fun f => negb (N.eqb (fst f) oat)) (ofs y))%bool.
  Definition mok (xs : list var) (hs : list oterm) : bool := (forallb (mok1 xs) hs && forallb (fun t => nodlt (tf t)) (mpoly xs hs))%bool.
  Lemma mterm_sound xs y e psi m : mok1 xs y = true -> (forall v, In v xs -> In (e v) (range (spc v))) ->
    oact e y psi m = evalT range (A' (Am psi m)) e (mterm y).
  Proof using.
    unfold mok1. rewrite !andb_true_iff, !forallb_forall, Nat.eqb_eq. intros [[H1 H2] H3] Hx. unfold Wick.oact, evalT, mterm. cbn [tc td tf].
    rewrite Q2Qc_red, Q2Qc_mult, <- Qcmult_assoc. f_equal. rewrite <- sumD_const. apply sumD_ext_in. intros e' E1 E2.
    assert (TY : forall o, In o (oo y) -> isc o = true /\ In (e' (snd o)) (range (spc (snd o)))).
    { intros o Ho. specialize (H1 o Ho). rewrite andb_true_iff, orb_true_iff, !memv_In in H1. destruct H1 as [I1 I2]. split; [exact I1|].
      destruct (in_dec N.eq_dec (snd o) (od y)) as [D|D]; [apply E2, D|]. rewrite E1 by exact D. destruct I2 as [I2|I2]; [contradiction|apply Hx, I2]. }
    assert (CR : Forall (fun o => crt no (inst e' o)) (oo y)).
    { apply Forall_forall. intros o Ho. destruct (TY o Ho). apply (isc_crt no nv); assumption. }
    assert (EA : evalF (A' (Am psi m)) e' (oat, snd (std (oo y)) ++ snd (fst (std (oo y))))%list =
      act (map (inst e') (map (pair true) (snd (fst (std (oo y)))) ++ map (pair false) (snd (std (oo y))))) psi m).
    { unfold evalF. cbn [fst snd]. change (A' (Am psi m) oat) with (Oa psi m). unfold Oa.
      rewrite map_app, firstn_app, skipn_app, !map_length, H2, Nat.sub_diag, firstn_all2, skipn_all2 by (rewrite map_length; lia). cbn [firstn skipn]. rewrite app_nil_r. cbn [app].
      pose proof (std_in (oo y)) as SI. rewrite Forall_forall in CR.
      rewrite (proj2 (forallb_forall (fun x => Nat.ltb x no) _)), (proj2 (forallb_forall (fun x => negb (Nat.ltb x no)) _)).
      - cbn [andb]. rewrite map_app, !map_map. reflexivity.
      - intros x Hx'. apply in_map_iff in Hx'. destruct Hx' as [v [<- Hv]]. apply SI in Hv. specialize (CR _ Hv). unfold crt in CR. cbn [inst fst snd negb] in CR. rewrite CR. reflexivity.
      - intros x Hx'. apply in_map_iff in Hx'. destruct Hx' as [v [<- Hv]]. apply SI in Hv. specialize (CR _ Hv). unfold crt in CR. cbn [inst fst snd negb] in CR. exact CR. }
    rewrite (std_sound no e' psi (oo y) CR m). cbn [evalFs]. rewrite EA.
    rewrite (evalFs_agree_at (A' (Am psi m)) B (ofs y) e').
    - destruct (fst (fst (std (oo y)))); cbn [sgn]; [change (Q2Qc 1) with 1|change (Q2Qc (-1)) with (- (1))]; ring.
    - intros f Hf l. specialize (H3 f Hf). apply negb_true_iff in H3. unfold A', Am. rewrite H3. reflexivity.
  Qed.
  Lemma mpoly_sound xs hs e psi m : mok xs hs = true -> (forall v, In v xs -> In (e v) (range (spc v))) ->
    osem e hs psi m = evalP range (Am psi m) e (mpoly xs hs).
  Proof using.
    unfold mok. rewrite andb_true_iff, !forallb_forall. intros [H1 H2] Hx. transitivity (evalP range (A' (Am psi m)) e (mpoly xs hs)).
    - unfold mpoly, Wick.osem, evalP. rewrite suml_map. apply suml_ext. intros y Hy. rewrite (mterm_sound xs y e psi m (H1 y Hy) Hx). apply elim_sound, Hx.
    - apply suml_ext. intros t Ht. unfold evalT. f_equal. apply sumD_ext. intros e'. apply nodlt_eval, H2, Ht.
  Qed.
  Definition mhints (xs : list var) (hs ks : list oterm) : hints := find_hints (symm kh kp) nosplit nokill (psub (mpoly xs hs) (mpoly xs ks)).
  Definition mchk (h : hints) (xs : list var) (hs ks : list oterm) : bool :=
    (mok xs hs && mok xs ks && peq (symm kh kp) nosplit nokill h xs (mpoly xs hs) (mpoly xs ks))%bool.
  (** the two lists are the same operator *)
  Theorem merge_sound h xs hs ks e psi m : mchk h xs hs ks = true -> (forall v, In v xs -> In (e v) (range (spc v))) -> osem e hs psi m = osem e ks psi m.
  Proof using OK.
    unfold mchk. rewrite !andb_true_iff. intros [[H1 H2] H3] Hx. rewrite (mpoly_sound xs hs), (mpoly_sound xs ks) by assumption.
    eapply peq_sound; [ | | | | |exact H3|exact Hx]; [apply Am_blk|apply Am_herm|apply Am_len|discriminate|discriminate].
  Qed.
End Merge.

Section OnPhi.
  Variables no nv : nat.
  Notation range := (so_range no nv).
  Variable A : N -> list nat -> Qc.
  Notation B := (A' A).
  Notation osem := (Wick.osem no nv B).
  Notation oact := (Wick.oact no nv B).
  Notation eqN := (Dress.eqN (no + nv)).
  (** equal when acting on the reference determinant *)
  Definition phi_eq (xs : list var) (hs ks : list oterm) : Prop :=
    forall e, (forall v, In v xs -> In (e v) (range (spc v))) -> eqN (osem e hs (Phi no nv)) (osem e ks (Phi no nv)).
  Lemma phi_tr xs a b c : phi_eq xs a b -> phi_eq xs b c -> phi_eq xs a c.
  Proof using. intros H K e He n Hn. rewrite (H e He n Hn). apply K; assumption. Qed.
  Definition nord1 (y : oterm) : list oterm :=
    map (fun w : bool * list fac * list vop => OT (Qred (oc y * (if fst (fst w) then 1%Q else (-1)%Q))) (od y) (snd (fst w) ++ ofs y) (snd w)) (nord (length (oo y)) (oo y)).
  Definition nordl (hs : list oterm) : list oterm := flat_map nord1 hs.
  Definition nok (xs : list var) (hs : list oterm) : bool :=
    forallb (fun y => forallb (fun o : vop => ov (spc (snd o)) && (memv (snd o) (od y) || memv (snd o) xs))%bool (oo y)) hs.
  Lemma phi_nord xs hs : nok xs hs = true -> phi_eq xs hs (nordl hs).
  Proof using.
    unfold nok. rewrite forallb_forall. intros H e Hx n Hn. unfold Wick.osem, nordl. rewrite suml_flat_map. apply suml_ext. intros y Hy.
    unfold nord1. rewrite suml_map. specialize (H y Hy). rewrite forallb_forall in H. unfold Wick.oact at 1.
    rewrite (sumD_ext_in no nv (od y) _ (fun e' => suml (nord (length (oo y)) (oo y)) (fun w => sgn (fst (fst w)) * (evalFs B (snd (fst w) ++ ofs y) e' * act (map (inst e') (snd w)) (Phi no nv) n)))).
    - rewrite sumD_suml, <- suml_scale. apply suml_ext. intros w _. unfold Wick.oact. cbn [oc od ofs oo]. rewrite sumD_const, Q2Qc_red, Q2Qc_mult.
      destruct (fst (fst w)); cbn [sgn]; [change (Q2Qc 1) with 1|change (Q2Qc (-1)) with (- (1))]; ring.
    - intros e' E1 E2.
      assert (TY : typed no nv e' (oo y)).
      { intros o Ho. specialize (H o Ho). rewrite andb_true_iff, orb_true_iff, !memv_In in H. destruct H as [I1 I2]. split; [exact I1|].
        destruct (in_dec N.eq_dec (snd o) (od y)) as [D|D]; [apply E2, D|]. rewrite E1 by exact D. destruct I2 as [I2|I2]; [contradiction|apply Hx, I2]. }
      rewrite (nord_sound no nv A e' (length (oo y)) (oo y) (le_n _) TY n Hn), <- suml_scale. apply suml_ext. intros w _. rewrite evalFs_app. ring.
  Qed.
  (** a letter on the left *)
  Definition ocons (x : vop) (y : oterm) : oterm := OT (oc y) (od y) (ofs y) (x :: oo y).
  Lemma ocons_sem x hs e psi n : forallb (fun y => negb (memv (snd x) (od y))) hs = true -> osem e (map (ocons x) hs) psi n = act [inst e x] (osem e hs psi) n.
  Proof using.
    rewrite forallb_forall. intros H. unfold Wick.osem. rewrite suml_map. rewrite (act_suml [inst e x] hs (fun y m => oact e y psi m)). apply suml_ext. intros y Hy.
    specialize (H y Hy). apply negb_true_iff, memv_false in H. unfold Wick.oact. cbn [ocons oc od ofs oo]. rewrite act_scale. f_equal. rewrite act_sumD.
    apply sumD_ext_in. intros e' E1 _. rewrite act_scale. f_equal. cbn [map]. change (act (inst e' x :: map (inst e') (oo y)) psi n) with (act [inst e' x] (act (map (inst e') (oo y)) psi) n).
    unfold inst at 1. rewrite E1 by exact H. reflexivity.
  Qed.
  Lemma phi_cons xs x hs ks : forallb (fun y => negb (memv (snd x) (od y))) (hs ++ ks) = true -> phi_eq xs hs ks -> phi_eq xs (map (ocons x) hs) (map (ocons x) ks).
  Proof using.
    rewrite forallb_app, andb_true_iff. intros [H1 H2] H e He n Hn. rewrite !ocons_sem by assumption. apply (eqN_act no (no + nv) _ _ _ (H e He) n Hn).
  Qed.
  (** summing over the letters *)
  Lemma phi_bind h hs ks : forallb (fun y => disj (od y) (fvars (ofs h))) (hs ++ ks) = true -> phi_eq (od h) hs ks -> phi_eq [] (map (bindh h) hs) (map (bindh h) ks).
  Proof using.
    rewrite forallb_app, andb_true_iff. intros [H1 H2] H e He n Hn. unfold Wick.osem. rewrite !(bindh_sum no nv A e h) by assumption. f_equal. apply sumD_ext_in. intros e' _ E2. f_equal.
    apply (H e' E2 n Hn).
  Qed.
  Lemma phi_app xs a b c d : phi_eq xs a b -> phi_eq xs c d -> phi_eq xs (a ++ c) (b ++ d).
  Proof using. intros H K e He n Hn. unfold Wick.osem. rewrite !suml_app. f_equal; [apply H|apply K]; assumption. Qed.
End OnPhi.
