(** Orbital rotations of symbolic tensor polynomials: a polynomial in which every summed index occurs exactly twice and every free index
    once is rotated when its atoms are.  Proof machinery; it models no particular source line. *)
From Coq Require Import String Ascii List Arith NArith ZArith QArith Qcanon Bool Lia Permutation.
From Verif Require Import Sums Tensor Interp Poly SymExec Canon Spec SpecFrag SpecRot Setup Master Spin Check Tabs Frag.
From Coq Require Import List.
Import ListNotations.
Open Scope Qc_scope.

(** *** Slots: the occurrences of variables *)
Notation slot := (N * bool)%type.
Definition seqb (s t : slot) : bool := (N.eqb (fst s) (fst t) && Bool.eqb (snd s) (snd t))%bool.
Lemma seqb_spec s t : reflect (s = t) (seqb s t).
Proof.
  unfold seqb. destruct s as [v b], t as [w c]; cbn [fst snd]. destruct (N.eqb_spec v w); cbn [andb]; [|constructor; congruence].
  destruct (Bool.eqb_spec b c); constructor; congruence.
Qed.
Definition senv := slot -> nat.
Definition supd (e : senv) (s : slot) (x : nat) : senv := fun t => if seqb t s then x else e t.
Definition lift (e : env) : senv := fun s => e (fst s).
Lemma supd_same e s x : supd e s x s = x. Proof. unfold supd. destruct (seqb_spec s s); congruence. Qed.
Lemma supd_other e s x t : t <> s -> supd e s x t = e t. Proof. unfold supd. destruct (seqb_spec t s); congruence. Qed.
Definition ext (F : senv -> Qc) : Prop := forall e e', (forall s, e s = e' s) -> F e = F e'.
Definition indep (F : senv -> Qc) (l : list slot) : Prop := forall e s x, In s l -> F (supd e s x) = F e.
Definition sfac := (N * list slot)%type.
Fixpoint mark_l (seen vs : list var) : list slot := match vs with [] => [] | v :: r => (v, memv v seen) :: mark_l (v :: seen) r end.
Fixpoint mark_fs (seen : list var) (fs : list fac) : list sfac := match fs with [] => [] | f :: r => (fst f, mark_l seen (snd f)) :: mark_fs (snd f ++ seen) r end.
Definition sslots (fs : list sfac) : list slot := flat_map (@snd N (list slot)) fs.
Lemma mark_l_fst vs : forall seen, map fst (mark_l seen vs) = vs.
Proof. induction vs as [|v r IH]; intros seen; cbn [mark_l map]; [reflexivity|]. f_equal. apply IH. Qed.
Definition mems (s : slot) (l : list slot) : bool := existsb (seqb s) l.
Lemma mems_In s l : mems s l = true <-> In s l.
Proof.
  unfold mems. rewrite existsb_exists. split.
  - intros [x [H E]]. destruct (seqb_spec s x); [subst; exact H|discriminate].
  - intros H. exists s. split; [exact H|]. destruct (seqb_spec s s); congruence.
Qed.
Fixpoint nodups (l : list slot) : bool := match l with [] => true | s :: r => (negb (mems s r) && nodups r)%bool end.
Lemma nodups_NoDup l : nodups l = true -> NoDup l.
Proof.
  induction l as [|s r IH]; cbn [nodups]; intros H; [constructor|]. apply andb_true_iff in H. destruct H as [H1 H2]. constructor; [|apply IH, H2].
  intros I. apply mems_In in I. rewrite I in H1. discriminate.
Qed.

Definition okS (s : space) : bool := (N.eqb s 0 || N.eqb s 1)%bool.
Definition dsl (ds : list var) : list slot := flat_map (fun d => [(d, false); (d, true)]) ds.
Definition xsl (xs : list var) : list slot := map (fun x => (x, false)) xs.
Definition rotterm (xs : list var) (t : term) : bool :=
  let sl := sslots (mark_fs [] (tf t)) in
  (nodups sl && forallb (fun s => okS (spc (fst s))) sl && nodupv (td t) &&
   forallb (fun d => mems (d, true) sl && mems (d, false) sl)%bool (td t) &&
   forallb (fun x => mems (x, false) sl && negb (mems (x, true) sl) && negb (memv x (td t)))%bool xs &&
   forallb (fun s => memv (fst s) (td t) || memv (fst s) xs)%bool sl)%bool.
Definition rotpoly (sps : list space) (p : poly) : bool := forallb (rotterm (xvs sps)) p.

Section Abs.
  Variable range : space -> list nat.
  Hypothesis range_nodup : forall s, NoDup (range s).
  Variable U : nat -> nat -> Qc.
  Hypothesis orth : forall s y z, okS s = true -> In y (range s) -> In z (range s) -> suml (range s) (fun x => U x y * U x z) = if Nat.eqb y z then 1 else 0.
  Variables A A' : N -> list nat -> Qc.
  Fixpoint rotl (ss : list space) (F : list nat -> Qc) (idx : list nat) : Qc :=
    match ss, idx with
    | s :: r, i :: l => suml (range s) (fun x => U i x * rotl r (fun q => F (x :: q)) l)
    | _, _ => F []
    end.
  Hypothesis HA : forall n ss idx, forallb okS ss = true -> Forall2 (fun x s => In x (range s)) idx ss -> A' n idx = rotl ss (A n) idx.

  Definition sp (s : slot) : space := spc (fst s).
  Definition Rs (s : slot) (F : senv -> Qc) (e : senv) : Qc := suml (range (sp s)) (fun x => U (e s) x * F (supd e s x)).
  Fixpoint Rots (l : list slot) (F : senv -> Qc) : senv -> Qc := match l with [] => F | s :: r => Rs s (Rots r F) end.
  Lemma supd_ext e e' s x : (forall t, e t = e' t) -> forall t, supd e s x t = supd e' s x t.
  Proof. intros H t. unfold supd. destruct (seqb t s); auto. Qed.
  Lemma supd_comm e s x t y : s <> t -> forall r, supd (supd e s x) t y r = supd (supd e t y) s x r.
  Proof. intros H r. unfold supd. destruct (seqb_spec r t), (seqb_spec r s); congruence. Qed.
  Lemma supd_twice e s x y : forall r, supd (supd e s x) s y r = supd e s y r.
  Proof. intros r. unfold supd. destruct (seqb r s); reflexivity. Qed.
  Lemma ext_Rs s F : ext F -> ext (Rs s F).
  Proof. intros HF e e' H. unfold Rs. apply suml_ext. intros x _. rewrite H. f_equal. apply HF, supd_ext, H. Qed.
  Lemma ext_Rots l F : ext F -> ext (Rots l F).
  Proof. intros HF. induction l as [|s r IH]; cbn [Rots]; [exact HF|]. apply ext_Rs, IH. Qed.
  Lemma Rs_ext s F G : (forall e, F e = G e) -> forall e, Rs s F e = Rs s G e.
  Proof. intros H e. unfold Rs. apply suml_ext. intros x _. rewrite H. reflexivity. Qed.
  Lemma Rots_ext l F G : (forall e, F e = G e) -> forall e, Rots l F e = Rots l G e.
  Proof. intros H. induction l as [|s r IH]; cbn [Rots]; [exact H|]. apply Rs_ext, IH. Qed.
  Lemma Rs_comm s t F : s <> t -> ext F -> forall e, Rs s (Rs t F) e = Rs t (Rs s F) e.
  Proof.
    intros N HF e. unfold Rs.
    transitivity (suml (range (sp s)) (fun x => suml (range (sp t)) (fun y => U (e s) x * (U (e t) y * F (supd (supd e s x) t y))))).
    { apply suml_ext. intros x _. rewrite <- suml_scale. apply suml_ext. intros y _. rewrite supd_other by congruence. reflexivity. }
    rewrite suml_swap. apply suml_ext. intros y _. rewrite <- suml_scale. apply suml_ext. intros x _. rewrite (supd_other e t y s) by congruence.
    rewrite (HF _ _ (supd_comm e s x t y N)). ring.
  Qed.
  Lemma Rots_perm l l' : Permutation l l' -> NoDup l -> forall F, ext F -> forall e, Rots l F e = Rots l' F e.
  Proof.
    induction 1 as [|s l l' H IH|s t l|l l1 l2 H1 IH1 H2 IH2]; intros ND F HF e; cbn [Rots].
    - reflexivity.
    - apply Rs_ext. intros e0. apply IH; [inversion ND; assumption|exact HF].
    - apply Rs_comm; [|apply ext_Rots, HF]. inversion ND as [|? ? X]; subst. intros ->. apply X. left. reflexivity.
    - rewrite IH1 by assumption. apply IH2; [eapply Permutation_NoDup; eassumption|exact HF].
  Qed.
  Lemma Rots_app l1 l2 F e : Rots (l1 ++ l2) F e = Rots l1 (Rots l2 F) e.
  Proof. revert e. induction l1 as [|s r IH]; intros e; cbn [app Rots]; [reflexivity|]. apply Rs_ext, IH. Qed.
  Lemma Rots_mul_r l F H e : indep H l -> Rots l (fun e => F e * H e) e = Rots l F e * H e.
  Proof.
    intros HI. revert e. induction l as [|s r IH]; intros e; cbn [Rots]; [reflexivity|]. unfold Rs. rewrite <- suml_scale_r. apply suml_ext. intros x _.
    rewrite IH by (intros e0 t y It; apply HI; right; exact It). rewrite (HI e s x) by (left; reflexivity). ring.
  Qed.
  Lemma Rots_mul_l l F H e : indep F l -> Rots l (fun e => F e * H e) e = F e * Rots l H e.
  Proof.
    intros HI. rewrite (Rots_ext l (fun e => F e * H e) (fun e => H e * F e)) by (intros; ring). rewrite Rots_mul_r by exact HI. ring.
  Qed.
  Lemma Rots_upd l s x G : ~ In s l -> ext G -> forall e, Rots l G (supd e s x) = Rots l (fun e => G (supd e s x)) e.
  Proof.
    intros N HG. induction l as [|t r IH]; intros e; cbn [Rots]; [reflexivity|]. unfold Rs. apply suml_ext. intros y _.
    rewrite supd_other by (intros ->; apply N; left; reflexivity). f_equal.
    rewrite <- IH by (intros I; apply N; right; exact I). apply (ext_Rots r G HG). apply supd_comm. intros ->. apply N. left. reflexivity.
  Qed.
  Lemma map_supd_notin l s x e : ~ In s l -> map (supd e s x) l = map e l.
  Proof. intros N. apply map_ext_in. intros t It. apply supd_other. intros ->. contradiction. Qed.
  Lemma ext_map (F : list nat -> Qc) l : ext (fun e => F (map e l)).
  Proof. intros e e' H. f_equal. apply map_ext. exact H. Qed.
  Lemma rotl_Rots sl : NoDup sl -> forall F e, rotl (map sp sl) F (map e sl) = Rots sl (fun e => F (map e sl)) e.
  Proof.
    induction sl as [|s r IH]; intros ND F e; cbn [map rotl Rots]; [reflexivity|]. inversion ND as [|? ? N ND']; subst. unfold Rs. apply suml_ext. intros x _. f_equal.
    rewrite (IH ND' (fun q => F (x :: q)) e). rewrite (Rots_upd r s x (fun e => F (e s :: map e r)) N (ext_map F (s :: r))). apply Rots_ext. intros e0.
    rewrite supd_same, map_supd_notin by exact N. reflexivity.
  Qed.

  (** *** Products *)
  Fixpoint sevalFs (B : N -> list nat -> Qc) (fs : list sfac) (e : senv) : Qc :=
    match fs with [] => 1 | f :: r => B (fst f) (map e (snd f)) * sevalFs B r e end.
  Definition inrange (l : list slot) (e : senv) : Prop := forall s, In s l -> In (e s) (range (sp s)).
  Lemma ext_sevalFs B fs : ext (sevalFs B fs).
  Proof. intros e e' H. induction fs as [|f r IH]; cbn [sevalFs]; [reflexivity|]. rewrite IH, (map_ext e e' H). reflexivity. Qed.
  Lemma sevalFs_agree B fs e e' : (forall s, In s (sslots fs) -> e s = e' s) -> sevalFs B fs e = sevalFs B fs e'.
  Proof.
    induction fs as [|f r IH]; cbn [sevalFs]; intros H; [reflexivity|]. cbn [sslots flat_map] in H. rewrite IH by (intros s Is; apply H, in_or_app; right; exact Is).
    rewrite (map_ext_in e e') by (intros s Is; apply H, in_or_app; left; exact Is). reflexivity.
  Qed.
  Lemma nodup_app_disj {X} (a b : list X) : NoDup (a ++ b) -> NoDup a /\ NoDup b /\ forall x, In x a -> In x b -> False.
  Proof.
    induction a as [|x a IH]; cbn [app]; intros H; [repeat split; [constructor|exact H|intros ? []]|]. inversion H as [|? ? N ND]; subst. destruct (IH ND) as [H1 [H2 H3]].
    split; [constructor; [intros I; apply N, in_or_app; left; exact I|exact H1]|]. split; [exact H2|]. intros y [->|Iy] Iy'; [apply N, in_or_app; right; exact Iy'|eapply H3; eassumption].
  Qed.
  Lemma prod_rot fs : forall e, NoDup (sslots fs) -> forallb (fun s => okS (spc (fst s))) (sslots fs) = true -> inrange (sslots fs) e ->
    sevalFs A' fs e = Rots (sslots fs) (sevalFs A fs) e.
  Proof.
    induction fs as [|[n sl] r IH]; intros e ND OK IR; cbn [sevalFs sslots flat_map Rots]; [reflexivity|]. cbn [sslots flat_map snd fst] in *.
    destruct (nodup_app_disj _ _ ND) as [N1 [N2 DJ]]. rewrite forallb_app, andb_true_iff in OK. destruct OK as [O1 O2].
    fold (sslots r) in *. rewrite Rots_app.
    rewrite (Rots_ext sl (Rots (sslots r) (fun e0 => A n (map e0 sl) * sevalFs A r e0)) (fun e0 => A n (map e0 sl) * Rots (sslots r) (sevalFs A r) e0)).
    2:{ intros e0. apply Rots_mul_l. intros e1 s x Is. rewrite map_supd_notin; [reflexivity|]. intros I. eapply DJ; eassumption. }
    rewrite Rots_mul_r.
    2:{ intros e1 s x Is. rewrite Rots_upd; [|intros I; eapply DJ; eassumption|apply ext_sevalFs]. apply Rots_ext. intros e2. apply sevalFs_agree.
        intros t It. apply supd_other. intros ->. eapply DJ; eassumption. }
    rewrite IH; [|exact N2|exact O2|intros s Is; apply IR, in_or_app; right; exact Is]. f_equal.
    rewrite <- (rotl_Rots sl N1 (A n) e). apply HA.
    - rewrite forallb_forall in *. intros s Hs. apply in_map_iff in Hs. destruct Hs as [t [<- It]]. apply (O1 t It).
    - clear -IR. assert (IR' : inrange sl e) by (intros s Is; apply IR, in_or_app; left; exact Is). clear IR.
      induction sl as [|s r' IH]; cbn [map]; [constructor|]. constructor; [apply IR'; left; reflexivity|]. apply IH. intros t It. apply IR'. right. exact It.
  Qed.

  (** *** Contractions *)
  Definition Cs (d : var) (F : senv -> Qc) (e : senv) : Qc := suml (range (spc d)) (fun x => F (supd (supd e (d, false) x) (d, true) x)).
  Fixpoint Csl (ds : list var) (F : senv -> Qc) : senv -> Qc := match ds with [] => F | d :: r => Cs d (Csl r F) end.
  Lemma ext_Cs d F : ext F -> ext (Cs d F).
  Proof. intros HF e e' H. unfold Cs. apply suml_ext. intros x _. apply HF, supd_ext, supd_ext, H. Qed.
  Lemma ext_Csl ds F : ext F -> ext (Csl ds F).
  Proof. intros HF. induction ds as [|d r IH]; cbn [Csl]; [exact HF|]. apply ext_Cs, IH. Qed.
  Lemma Cs_ext d F G : (forall e, F e = G e) -> forall e, Cs d F e = Cs d G e.
  Proof. intros H e. unfold Cs. apply suml_ext. intros x _. apply H. Qed.
  Lemma Csl_ext ds F G : (forall e, F e = G e) -> forall e, Csl ds F e = Csl ds G e.
  Proof. intros H. induction ds as [|d r IH]; cbn [Csl]; [exact H|]. apply Cs_ext, IH. Qed.
  Lemma Cs_Rs d s F : s <> (d, false) -> s <> (d, true) -> ext F -> forall e, Cs d (Rs s F) e = Rs s (Cs d F) e.
  Proof.
    intros N1 N2 HF e. unfold Cs, Rs.
    transitivity (suml (range (spc d)) (fun x => suml (range (sp s)) (fun y => U (e s) y * F (supd (supd (supd e s y) (d, false) x) (d, true) x)))).
    { apply suml_ext. intros x _. apply suml_ext. intros y _. rewrite !supd_other by congruence. f_equal. apply HF. intros t. unfold supd.
      destruct (seqb_spec t s), (seqb_spec t (d, true)), (seqb_spec t (d, false)); congruence. }
    rewrite suml_swap. apply suml_ext. intros y _. rewrite suml_scale. reflexivity.
  Qed.
  Lemma Csl_Rs ds s F : ~ In (fst s) ds -> ext F -> forall e, Csl ds (Rs s F) e = Rs s (Csl ds F) e.
  Proof.
    intros N HF. induction ds as [|d r IH]; intros e; cbn [Csl]; [reflexivity|].
    rewrite (Cs_ext d _ _ (IH (fun I => N (or_intror I)))). apply Cs_Rs; [intros ->; apply N; left; reflexivity|intros ->; apply N; left; reflexivity|apply ext_Csl, HF].
  Qed.
  Lemma Csl_Rots ds l F : (forall s, In s l -> ~ In (fst s) ds) -> ext F -> forall e, Csl ds (Rots l F) e = Rots l (Csl ds F) e.
  Proof.
    intros N HF. induction l as [|s r IH]; intros e; cbn [Rots]; [reflexivity|].
    rewrite Csl_Rs; [|apply N; left; reflexivity|apply ext_Rots, HF]. apply Rs_ext. apply IH. intros t It. apply N. right. exact It.
  Qed.
  Lemma suml_delta (l : list nat) y (G : nat -> Qc) : NoDup l -> In y l -> suml l (fun z => (if Nat.eqb y z then 1 else 0) * G z) = G y.
  Proof.
    induction l as [|z l IH]; intros ND I; [destruct I|]. inversion ND as [|? ? N ND']; subst. cbn [suml]. destruct I as [->|I].
    - rewrite Nat.eqb_refl, suml_zero; [ring|]. intros w Iw. destruct (Nat.eqb_spec y w); [subst; contradiction|ring].
    - rewrite IH by assumption. destruct (Nat.eqb_spec y z); [subst; contradiction|ring].
  Qed.
  Lemma Cs_orth d F : okS (spc d) = true -> ext F -> forall e, Cs d (Rs (d, false) (Rs (d, true) F)) e = Cs d F e.
  Proof.
    intros HO HF e. unfold Cs, Rs. change (sp (d, false)) with (spc d). change (sp (d, true)) with (spc d). set (R := range (spc d)).
    assert (N : (d, false) <> (d, true)) by discriminate.
    transitivity (suml R (fun x => suml R (fun y => suml R (fun z => U x y * U x z * F (supd (supd e (d, false) y) (d, true) z))))).
    { apply suml_ext. intros x _. apply suml_ext. intros y _. rewrite <- suml_scale. apply suml_ext. intros z _.
      rewrite (supd_other _ (d, true) x (d, false)) by exact N. rewrite supd_same, (supd_other _ (d, false) y (d, true)) by congruence. rewrite supd_same.
      rewrite Qcmult_assoc. f_equal. apply HF. intros t. unfold supd. destruct (seqb t (d, true)), (seqb t (d, false)); reflexivity. }
    rewrite suml_swap. apply suml_ext. intros y Iy. rewrite suml_swap.
    transitivity (suml R (fun z => (if Nat.eqb y z then 1 else 0) * F (supd (supd e (d, false) y) (d, true) z))).
    { apply suml_ext. intros z Iz. rewrite suml_scale_r. f_equal. apply (orth (spc d) y z HO Iy Iz). }
    apply (suml_delta R y (fun z => F (supd (supd e (d, false) y) (d, true) z))); [apply range_nodup|exact Iy].
  Qed.
  Lemma Csl_orth ds F : NoDup ds -> (forall d, In d ds -> okS (spc d) = true) -> ext F -> forall e, Csl ds (Rots (dsl ds) F) e = Csl ds F e.
  Proof.
    intros ND HO HF. induction ds as [|d r IH]; intros e; cbn [dsl flat_map Csl app Rots]; [reflexivity|]. inversion ND as [|? ? N ND']; subst. fold (dsl r).
    pose proof (ext_Rots (dsl r) F HF) as E1.
    rewrite (Cs_ext d _ (Rs (d, false) (Rs (d, true) (Csl r F)))).
    - apply Cs_orth; [apply HO; left; reflexivity|apply ext_Csl, HF].
    - intros e0. rewrite Csl_Rs; [|exact N|apply ext_Rs, E1]. apply Rs_ext. intros e1. rewrite Csl_Rs; [|exact N|exact E1]. apply Rs_ext. intros e2.
      apply IH; [exact ND'|]. intros d' Id'. apply HO. right. exact Id'.
  Qed.
  Lemma Csl_in ds l F G : (forall e, inrange l e -> F e = G e) -> forall e, (forall s, In s l -> In (fst s) ds \/ In (e s) (range (sp s))) -> Csl ds F e = Csl ds G e.
  Proof.
    intros H. induction ds as [|d r IH]; intros e HI; cbn [Csl].
    - apply H. intros s Is. destruct (HI s Is) as [[]|X]; exact X.
    - unfold Cs. apply suml_ext. intros x Ix. apply IH. intros s Is. destruct (N.eq_dec (fst s) d) as [E|E].
      + right. unfold supd. destruct s as [v b]; cbn [fst] in E; subst v. unfold sp; cbn [fst]. destruct (seqb_spec (d, b) (d, true)); [exact Ix|]. destruct (seqb_spec (d, b) (d, false)); [exact Ix|]. destruct b; congruence.
      + destruct (HI s Is) as [[X|X]|X]; [congruence|left; exact X|]. right. rewrite !supd_other by (intros ->; apply E; reflexivity). exact X.
  Qed.
  Lemma Csl_agree B fs ds : forall e e', (forall s, In s (sslots fs) -> ~ In (fst s) ds -> e s = e' s) -> Csl ds (sevalFs B fs) e = Csl ds (sevalFs B fs) e'.
  Proof.
    induction ds as [|d r IH]; intros e e' H; cbn [Csl].
    - apply sevalFs_agree. intros s Is. apply H; [exact Is|intros []].
    - unfold Cs. apply suml_ext. intros x _. apply IH. intros s Is Ns. unfold supd. destruct (seqb_spec s (d, true)); [reflexivity|]. destruct (seqb_spec s (d, false)); [reflexivity|].
      apply H; [exact Is|]. intros [->|I]; [|exact (Ns I)]. destruct s as [v []]; cbn [fst] in *; congruence.
  Qed.
  Lemma seval_mark B fs : forall seen e, sevalFs B (mark_fs seen fs) (lift e) = evalFs B fs e.
  Proof.
    induction fs as [|f r IH]; intros seen e; cbn [mark_fs sevalFs evalFs]; [reflexivity|]. rewrite IH. cbn [fst snd]. f_equal. unfold evalF. f_equal.
    rewrite <- (mark_l_fst (snd f) seen) at 2. rewrite map_map. apply map_ext. intros s. reflexivity.
  Qed.
  Lemma sumD_Csl B fs ds : forall e, sumD range ds (evalFs B fs) e = Csl ds (sevalFs B (mark_fs [] fs)) (lift e).
  Proof.
    induction ds as [|d r IH]; intros e; cbn [sumD Csl]; [symmetry; apply seval_mark|]. unfold Cs. apply suml_ext. intros x _. rewrite IH. apply ext_Csl; [apply ext_sevalFs|].
    intros [v b]. unfold lift, upd, supd, seqb. cbn [fst snd]. destruct (N.eqb_spec v d); [|rewrite ?andb_false_l; reflexivity]. destruct b; reflexivity.
  Qed.

  (** an environment with given values of the free variables *)
  Fixpoint xenv (xs : list var) (l : list nat) : env :=
    match xs, l with x :: r, i :: q => upd (xenv r q) x i | _, _ => fun _ => O end.
  Lemma xenv_map xs : NoDup xs -> forall (f : var -> nat) x, In x xs -> xenv xs (map f xs) x = f x.
  Proof.
    induction xs as [|y r IH]; intros ND f x Ix; [destruct Ix|]. inversion ND as [|? ? N ND']; subst. cbn [map xenv]. unfold upd. destruct (N.eqb_spec x y); [subst; reflexivity|].
    destruct Ix as [->|Ix]; [congruence|]. apply IH; assumption.
  Qed.
  Lemma term_rot xs t e : NoDup xs -> rotterm xs t = true -> (forall x, In x xs -> In (e x) (range (spc x))) ->
    evalT range A' e t = rotl (map spc xs) (fun l => evalT range A (xenv xs l) t) (map e xs).
  Proof.
    unfold rotterm. rewrite !andb_true_iff. intros NX [[[[[H1 H2] H3] H4] H5] H6] IR. set (sfs := mark_fs [] (tf t)) in *. set (sl := sslots sfs) in *.
    apply nodups_NoDup in H1. apply nodupv_NoDup in H3. rewrite forallb_forall in H4, H5, H6.
    assert (DX : forall x, In x xs -> ~ In x (td t)).
    { intros x Ix Id. pose proof (H5 x Ix) as X. rewrite !andb_true_iff in X. destruct X as [_ X]. apply memv_In in Id. rewrite Id in X. discriminate. }
    assert (PM : Permutation sl (dsl (td t) ++ xsl xs)).
    { apply NoDup_Permutation; [exact H1| |].
      - assert (ND1 : NoDup (dsl (td t))).
        { clear -H3. induction (td t) as [|d r IH]; cbn [dsl flat_map app]; [constructor|]. inversion H3 as [|? ? N ND]; subst.
          assert (Z : forall b, ~ In (d, b) (dsl r)). { intros b I. unfold dsl in I. apply in_flat_map in I. destruct I as [d' [I1 [I2|[I2|[]]]]]; injection I2 as <- _; contradiction. }
          constructor; [intros [X|X]; [discriminate|exact (Z _ X)]|]. constructor; [apply Z|apply IH, ND]. }
        assert (ND2 : NoDup (xsl xs)) by (apply FinFun.Injective_map_NoDup; [intros a b X; injection X; auto|exact NX]).
        clear -ND1 ND2 DX. assert (Z : forall s, In s (dsl (td t)) -> In s (xsl xs) -> False).
        { intros s I1 I2. unfold dsl in I1. apply in_flat_map in I1. destruct I1 as [d [Id Is]]. unfold xsl in I2. apply in_map_iff in I2. destruct I2 as [x [<- Ix]].
          assert (x = d) as -> by (destruct Is as [X|[X|[]]]; congruence). exact (DX d Ix Id). }
        revert ND1 Z. generalize (dsl (td t)) as a. induction a as [|s a IH]; cbn [app]; intros ND1 Z; [exact ND2|]. inversion ND1 as [|? ? N ND]; subst. constructor.
        + intros I. apply in_app_or in I. destruct I as [I|I]; [contradiction|]. apply (Z s); [left; reflexivity|exact I].
        + apply IH; [exact ND|]. intros u Iu. apply Z. right. exact Iu.
      - intros [v b]. split.
        + intros I. pose proof (H6 _ I) as X. cbn [fst] in X. apply orb_true_iff in X. destruct X as [X|X]; apply memv_In in X; apply in_or_app.
          * left. unfold dsl. apply in_flat_map. exists v. split; [exact X|]. destruct b; cbn; auto.
          * right. pose proof (H5 v X) as Y. rewrite !andb_true_iff in Y. destruct Y as [[_ Y] _]. destruct b; [|apply (in_map (fun x => (x, false))), X]. apply mems_In in I. rewrite I in Y. discriminate.
        + intros I. apply in_app_or in I. destruct I as [I|I].
          * unfold dsl in I. apply in_flat_map in I. destruct I as [d [Id Is]]. pose proof (H4 d Id) as Y. rewrite andb_true_iff in Y. destruct Y as [Y1 Y2].
            apply mems_In in Y1, Y2. destruct Is as [Is|[Is|[]]]; injection Is as <- <-; assumption.
          * unfold xsl in I. apply in_map_iff in I. destruct I as [x [E Ix]]. injection E as <- <-. pose proof (H5 x Ix) as Y. rewrite !andb_true_iff in Y. apply mems_In, Y. }
    assert (HX : forall s, In s (xsl xs) -> ~ In (fst s) (td t)).
    { intros s Is. unfold xsl in Is. apply in_map_iff in Is. destruct Is as [x [<- Ix]]. apply DX, Ix. }
    pose proof (ext_sevalFs A sfs) as EX.
    assert (MP : map spc xs = map sp (xsl xs)) by (unfold xsl; rewrite map_map; reflexivity).
    assert (ME : map e xs = map (lift e) (xsl xs)) by (unfold xsl; rewrite map_map; reflexivity).
    assert (NDX : NoDup (xsl xs)) by (apply FinFun.Injective_map_NoDup; [intros a b X; injection X; auto|exact NX]).
    rewrite MP, ME, (rotl_Rots (xsl xs) NDX). unfold evalT at 1. rewrite sumD_Csl. fold sfs.
    transitivity (Q2Qc (tc t) * Rots (xsl xs) (Csl (td t) (sevalFs A sfs)) (lift e)).
    - f_equal. transitivity (Csl (td t) (Rots (dsl (td t)) (Rots (xsl xs) (sevalFs A sfs))) (lift e)).
      + apply (Csl_in (td t) sl).
        * intros e0 IR0. rewrite (prod_rot sfs e0 H1 H2 IR0). fold sl. rewrite (Rots_perm _ _ PM H1 _ EX). apply Rots_app.
        * intros s Is. pose proof (H6 s Is) as X. apply orb_true_iff in X. destruct X as [X|X]; apply memv_In in X; [left; exact X|right]. apply IR, X.
      + rewrite Csl_orth; [apply Csl_Rots; assumption|exact H3| |apply ext_Rots, EX].
        intros d Id. pose proof (H4 d Id) as Y. rewrite andb_true_iff in Y. destruct Y as [Y _]. apply mems_In in Y. rewrite forallb_forall in H2. exact (H2 _ Y).
    - rewrite <- (Rots_mul_l (xsl xs) (fun _ => Q2Qc (tc t)) (Csl (td t) (sevalFs A sfs)) (lift e)) by (intros ? ? ? _; reflexivity). apply Rots_ext. intros e0. unfold evalT. f_equal. rewrite sumD_Csl. apply Csl_agree. fold sfs.
      intros s Is Ns. pose proof (H6 s Is) as X. apply orb_true_iff in X. destruct X as [X|X]; apply memv_In in X; [contradiction|].
      unfold lift. assert (E : map e0 (xsl xs) = map (fun x => e0 (x, false)) xs) by (unfold xsl; rewrite map_map; reflexivity). rewrite E, (xenv_map xs NX _ _ X).
      pose proof (H5 (fst s) X) as Y. rewrite !andb_true_iff in Y. destruct Y as [[_ Y] _]. destruct s as [v []]; [|reflexivity]. cbn [fst] in Y. apply mems_In in Is. fold sl in Is. rewrite Is in Y. discriminate.
  Qed.
  Lemma rotl_plus ss : forall F G idx, rotl ss (fun l => F l + G l) idx = rotl ss F idx + rotl ss G idx.
  Proof.
    induction ss as [|s r IH]; intros F G idx; cbn [rotl]; [reflexivity|]. destruct idx as [|i q]; [reflexivity|]. rewrite <- suml_plus. apply suml_ext. intros x _.
    rewrite (IH (fun q => F (x :: q)) (fun q => G (x :: q))). ring.
  Qed.
  Lemma rotl_zero ss : forall F idx, (forall l, Forall2 (fun x s => In x (range s)) l (firstn (length idx) ss) -> F l = 0) -> length ss = length idx -> rotl ss F idx = 0.
  Proof.
    induction ss as [|s r IH]; intros F [|i q] H L; try discriminate; cbn [rotl].
    - apply H. constructor.
    - apply suml_zero. intros x Ix. rewrite IH; [ring| |cbn in L; lia]. intros l Hl. apply H. cbn [length firstn]. constructor; assumption.
  Qed.
  Lemma rotl_ext ss : forall F G idx, (forall l, Forall2 (fun x s => In x (range s)) l ss -> F l = G l) -> length ss = length idx -> rotl ss F idx = rotl ss G idx.
  Proof.
    induction ss as [|s r IH]; intros F G [|i q] H L; try discriminate; cbn [rotl].
    - apply H. constructor.
    - apply suml_ext. intros x Ix. f_equal. apply IH; [|cbn in L; lia]. intros l Hl. apply H. constructor; assumption.
  Qed.
  Lemma poly_rot sps p e : nodupv (xvs sps) = true -> rotpoly sps p = true -> (forall x, In x (xvs sps) -> In (e x) (range (spc x))) ->
    evalP range A' e p = rotl (map spc (xvs sps)) (fun l => evalP range A (xenv (xvs sps) l) p) (map e (xvs sps)).
  Proof.
    intros ND H IR. apply nodupv_NoDup in ND. unfold rotpoly in H. rewrite forallb_forall in H. unfold evalP. induction p as [|t p IH]; cbn [suml].
    - symmetry. apply rotl_zero; [reflexivity|rewrite !map_length; reflexivity].
    - rewrite rotl_plus, <- IH by (intros u Iu; apply H; right; exact Iu). f_equal. apply term_rot; [exact ND|apply H; left; reflexivity|exact IR].
  Qed.
End Abs.
