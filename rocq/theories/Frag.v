(** The environment for a system of two fragments: an array of the whole system together with its fragment parts.
    Proof machinery; it models no particular source line. *)
From Coq Require Import String Ascii List Arith NArith ZArith QArith Qcanon Bool Lia Permutation.
From Verif Require Import Sums Tensor Interp Poly SymExec Canon Spec SpecFrag Setup Master Spin Check Tabs.
Import ListNotations.
Open Scope Qc_scope.

(** spaces: 0 occ, 1 vir, 2 occ A, 3 occ B, 4 vir A, 5 vir B, 6 all *)
Definition fr_range (no nv : nat) (M : fragmap) (s : space) : list nat :=
  match s with
  | 0%N => seq 0 no
  | 1%N => seq no nv
  | 2%N => focc M FA
  | 3%N => focc M FB
  | 4%N => map (Nat.add no) (fvir M FA)
  | 5%N => map (Nat.add no) (fvir M FB)
  | 6%N => seq 0 (no + nv)
  | _ => []
  end.
Definition fr_slc (no : nat) (M : fragmap) (k : N) : nat * option nat :=
  match k with
  | 0%N => (O, Some no) | 1%N => (no, None)
  | 2%N => (O, Some (fno M FA)) | 3%N => (fno M FA, None)
  | 4%N => (O, Some (fno M FB)) | _ => (fno M FB, None)
  end.
Definition fr_slm (a k : N) : option space :=
  match a, k with
  | 0%N, 0%N => Some 0%N | 0%N, 1%N => Some 1%N
  | 1%N, 2%N => Some 2%N | 1%N, 3%N => Some 4%N
  | 2%N, 4%N => Some 3%N | 2%N, 5%N => Some 5%N
  | _, _ => None
  end.
Definition fr_adim (no nv : nat) (M : fragmap) (a : N) : nat :=
  match a with 0%N => (no + nv)%nat | 1%N => (fno M FA + fnv M FA)%nat | _ => (fno M FB + fnv M FB)%nat end.
Definition fr_phi (no : nat) (M : fragmap) (a : N) (x : nat) : nat :=
  match a with 0%N => x | 1%N => korb M no FA Al x | _ => korb M no FB Al x end.
Definition fr_split := sp_split.
Definition fr_of (s : space) : option frag :=
  match s with 2%N | 4%N => Some FA | 3%N | 5%N => Some FB | _ => None end.
Definition hasA (l : list space) : bool := existsb (fun s => match fr_of s with Some FA => true | _ => false end) l.
Definition hasB (l : list space) : bool := existsb (fun s => match fr_of s with Some FB => true | _ => false end) l.
(** an atom that couples the fragments *)
Definition fr_bad (n : N) (l : list space) : bool := (N.leb n 7 && hasA l && hasB l)%bool.

Definition ksp (k : kind) : space := match k with Oc => 0%N | Vi => 1%N | Al => 6%N end.
Definition fsp (x : frag) (k : kind) : space :=
  match k, x with Oc, FA => 2%N | Oc, FB => 3%N | Vi, FA => 4%N | Vi, FB => 5%N | Al, _ => 6%N end.
Definition fax (x : frag) : N := match x with FA => 1%N | FB => 2%N end.
Definition noAl (k : kind) : bool := match k with Al => false | _ => true end.

Section FR.
  Variables no nv : nat.
  Variable M : fragmap.
  Hypothesis HM : frag_ok no nv M.
  Variable atoms : atomtab.
  Let range := fr_range no nv M.

  Lemma fo_nodup : NoDup (focc M FA ++ focc M FB).
  Proof. eapply Permutation_NoDup; [symmetry; apply HM|apply seq_NoDup]. Qed.
  Lemma fv_nodup : NoDup (fvir M FA ++ fvir M FB).
  Proof. eapply Permutation_NoDup; [symmetry; apply HM|apply seq_NoDup]. Qed.
  Lemma fo_lt x i : In i (focc M x) -> (i < no)%nat.
  Proof.
    intros H. assert (In i (seq 0 no)) as Hi.
    { eapply Permutation_in; [apply HM|]. apply in_or_app. destruct x; auto. }
    apply in_seq in Hi. lia.
  Qed.
  Lemma fv_lt x i : In i (fvir M x) -> (i < nv)%nat.
  Proof.
    intros H. assert (In i (seq 0 nv)) as Hi.
    { eapply Permutation_in; [apply HM|]. apply in_or_app. destruct x; auto. }
    apply in_seq in Hi. lia.
  Qed.
  Lemma fr_nodup s : NoDup (fr_range no nv M s).
  Proof.
    assert (I : forall x y, (no + x = no + y)%nat -> x = y) by (intros; lia).
    pose proof (nodup_app_l _ _ fo_nodup). pose proof (nodup_app_r _ _ fo_nodup).
    pose proof (nodup_app_l _ _ fv_nodup). pose proof (nodup_app_r _ _ fv_nodup).
    unfold fr_range.
    destruct s as [|p]; [apply seq_NoDup|].
    repeat (try destruct p as [p|p|]; try apply NoDup_nil; try apply seq_NoDup; try assumption;
            try (apply inj_nodup; [exact I|assumption])).
  Qed.
  Lemma fr_slices_ok : slices_ok range (fr_slc no M) fr_slm (fr_adim no nv M) (fr_phi no M).
  Proof.
    intros a k s. unfold fr_slm.
    destruct a as [|[?|[?|?|]|]]; try discriminate; destruct k as [|[[?|[?|?|]|]|[?|[?|?|]|]|]]; try discriminate; intros H;
      apply some_inj in H; subst;
      unfold dim, range; cbn [fr_slc fst snd fr_range fr_adim]; unfold slice_len, slice_start, slice_stop, fr_phi, korb, fno, fnv;
      rewrite ?seq_length, ?map_length; (split; [lia|]); intros m Hm;
      try (rewrite seq_nth by lia; lia);
      match goal with |- context [Nat.ltb ?a ?b] => destruct (Nat.ltb_spec a b); try lia end;
      try (f_equal; lia); rewrite nth_map_add by exact Hm; f_equal; f_equal; lia.
  Qed.
  Lemma fr_split_ok s l : fr_split s = Some l -> Permutation (range s) (flat_map range l).
  Proof.
    unfold fr_split, sp_split. destruct s as [|[]]; try discriminate; intros H; apply some_inj in H; subst;
      unfold range; cbn [flat_map fr_range]; rewrite app_nil_r.
    - symmetry. apply HM.
    - rewrite <- map_app. symmetry. transitivity (map (Nat.add no) (seq 0 nv)).
      + apply Permutation_map. apply HM.
      + assert (G : forall a b c, map (Nat.add a) (seq b c) = seq (a + b) c).
        { clear. intros a b c; revert b; induction c as [|c IH]; intros b; cbn; [reflexivity|]. f_equal.
          rewrite IH. f_equal. lia. }
        rewrite G, Nat.add_0_r. reflexivity.
  Qed.

  (** fragment of an absolute orbital *)
  Definition inside (x : frag) (p : nat) : Prop := belongs M no x Al p.
  Lemma fr_of_spec s x p : fr_of s = Some x -> In p (range s) -> inside x p.
  Proof.
    unfold fr_of, inside, belongs. intros Hs Hp.
    destruct s as [|q]; [discriminate|].
    repeat (try destruct q as [q|q|]; try discriminate); apply some_inj in Hs; subst; unfold range in Hp; cbn [fr_range] in Hp.
    - apply in_map_iff in Hp. destruct Hp as [y [<- Hy]]. destruct (Nat.ltb_spec (no + y) no); [lia|].
      replace (no + y - no)%nat with y by lia. exact Hy.
    - pose proof (fo_lt _ _ Hp). destruct (Nat.ltb_spec p no); [exact Hp|lia].
    - apply in_map_iff in Hp. destruct Hp as [y [<- Hy]]. destruct (Nat.ltb_spec (no + y) no); [lia|].
      replace (no + y - no)%nat with y by lia. exact Hy.
    - pose proof (fo_lt _ _ Hp). destruct (Nat.ltb_spec p no); [exact Hp|lia].
  Qed.
  (** relative and absolute indices *)
  Lemma inside_belongs x k p : In p (range (ksp k)) -> inside x p -> belongs M no x k (index_of p (range (ksp k))).
  Proof.
    unfold inside, range. destruct k; cbn [ksp fr_range belongs]; intros Hp Hx; rewrite index_of_seq by exact Hp; apply in_seq in Hp.
    - destruct (Nat.ltb_spec p no); [|lia]. rewrite Nat.sub_0_r. exact Hx.
    - destruct (Nat.ltb_spec p no); [lia|]. exact Hx.
    - rewrite Nat.sub_0_r. exact Hx.
  Qed.
  Lemma has_spec x (ss : list space) xs : existsb (fun s => match fr_of s with Some FA => match x with FA => true | _ => false end
      | Some FB => match x with FB => true | _ => false end | _ => false end) ss = true ->
    Forall2 (fun p s => In p (range s)) xs ss -> exists j p, nth_error xs j = Some p /\ inside x p.
  Proof.
    intros H HF. induction HF as [|p s xs ss Hp HF IH]; cbn [existsb] in H; [discriminate|].
    apply orb_true_iff in H. destruct H as [H|H].
    - exists O, p. split; [reflexivity|]. eapply fr_of_spec; [|exact Hp]. destruct (fr_of s) as [[]|], x; try discriminate; reflexivity.
    - destruct (IH H) as [j [q [H1 H2]]]. exists (S j), q. auto.
  Qed.
  Lemma touches_rel x ks xs : Forall2 (fun s p => In p (range s)) (map ksp ks) xs -> (exists j p, nth_error xs j = Some p /\ inside x p) ->
    touches M no x ks (rel range (map ksp ks) xs).
  Proof.
    intros HF [j [p [H1 H2]]]. revert xs HF j H1. induction ks as [|k ks IH]; intros xs HF j H1; inversion HF as [|s0 p0 ss0 xs0 F1 F2]; subst.
    - destruct j; discriminate.
    - unfold rel. cbn [map]. rewrite zipw_cons. destruct j as [|j]; cbn in H1.
      + apply some_inj in H1. subst. exists O, k. eexists. split; [reflexivity|]. split; [reflexivity|]. apply inside_belongs; assumption.
      + destruct (IH _ F2 j H1) as [j' [k' [p' [T1 [T2 T3]]]]]. exists (S j'), k', p'. auto.
  Qed.

  Definition separated (a : N * (list space * tensor)) : Prop :=
    let '(n, (sps, t)) := a in (n <= 7)%N -> exists ks, sps = map ksp ks /\ shape t = map (dim range) sps /\ separate M no ks t.
  Hypothesis Hsep : Forall separated atoms.
  Lemma fr_kill_ok n ss xs : fr_bad n ss = true -> Forall2 (fun x s => In x (range s)) xs ss -> Aof range atoms n xs = 0.
  Proof.
    unfold fr_bad. rewrite !andb_true_iff. intros [[Hn HA] HB] HF. apply N.leb_le in Hn.
    unfold Aof. destruct (nlook n atoms) as [[sps t]|] eqn:EL; [|reflexivity].
    destruct (inrb range sps xs) eqn:EI; [|reflexivity]. apply inrb_spec in EI.
    pose proof (nlook_In _ _ _ EL) as HIn. rewrite Forall_forall in Hsep.
    destruct (Hsep _ HIn Hn) as [ks [-> [Hs Hz]]].
    apply Hz.
    - rewrite Hs. apply rel_inr. exact EI.
    - apply touches_rel; [exact EI|]. eapply has_spec; [|exact HF]. exact HA.
    - apply touches_rel; [exact EI|]. eapply has_spec; [|exact HF]. exact HB.
  Qed.

  Definition fr_vsim : sval -> value -> Prop :=
    vsim (fr_range no nv M) (Aof (fr_range no nv M) atoms) (fr_slc no M) (fr_adim no nv M) (fr_phi no M).
  Definition fr_tsim := tsim (fr_range no nv M) (Aof (fr_range no nv M) atoms).

  Lemma fr_atom n sps t : nlook n atoms = Some (sps, t) -> shape t = map (dim range) sps -> fr_vsim (at_ n sps) (VT t).
  Proof. intros H1 H2. constructor. apply tsim_atom; [apply fr_nodup|exact H1|exact H2]. Qed.
  Lemma fr_full n k t : nlook n atoms = Some (repeat 6%N k, t) -> shape t = repeat (no + nv)%nat k ->
    fr_vsim (SFull n (repeat 0%N k)) (VT t).
  Proof.
    intros HL Hs. constructor. split; [rewrite Hs, map_repeat; reflexivity|].
    intros idx Hi. rewrite Hs in Hi.
    assert (L : length idx = k) by (apply Forall2_len in Hi; rewrite repeat_length in Hi; exact Hi).
    rewrite <- (Aof_orbs range atoms fr_nodup n _ t idx HL).
    - f_equal. clear HL Hs. revert idx Hi L. induction k as [|k IH]; intros [|x idx] Hi L; try discriminate; [reflexivity|].
      cbn [repeat]. unfold orbs. rewrite !zipw_cons. unfold fr_phi at 1. unfold range; cbn [fr_range].
      inversion Hi; subst. rewrite seq_nth by assumption. cbn [Nat.add]. f_equal. apply IH; [assumption|]. cbn in L; lia.
    - rewrite map_repeat. unfold dim, range, fr_range. rewrite seq_length. exact Hi.
  Qed.
  Lemma korb_lt x k p : (p < ksize (fno M x) (fnv M x) k)%nat -> (korb M no x k p < ksize no nv k)%nat.
  Proof.
    destruct k; cbn [ksize korb]; unfold fno, fnv; intros H.
    - eapply fo_lt, nth_In, H. - eapply fv_lt, nth_In, H.
    - destruct (Nat.ltb_spec p (length (focc M x))) as [L|L].
      + pose proof (fo_lt x _ (nth_In (focc M x) O L)). lia.
      + pose proof (fv_lt x _ (nth_In (fvir M x) O (n := (p - length (focc M x))%nat) ltac:(lia))). lia.
  Qed.
  Lemma dim_ksp k : dim range (ksp k) = ksize no nv k.
  Proof. unfold dim, range. destruct k; cbn [ksp fr_range ksize]; apply seq_length. Qed.
  Lemma dim_fsp x k : noAl k = true -> dim range (fsp x k) = ksize (fno M x) (fnv M x) k.
  Proof. unfold dim, range. destruct k, x; cbn [noAl fsp fr_range ksize]; try discriminate; rewrite ?map_length; reflexivity. Qed.
  Lemma korb_abs x k p : noAl k = true -> (p < ksize (fno M x) (fnv M x) k)%nat ->
    nth (korb M no x k p) (range (ksp k)) O = nth p (range (fsp x k)) O.
  Proof.
    intros Hk Hp. pose proof (korb_lt x k p Hp) as HL. unfold range.
    destruct k; try discriminate; cbn [ksp fr_range ksize korb] in *; rewrite seq_nth by exact HL;
      destruct x; cbn [fsp fr_range]; unfold fno, fnv in Hp; rewrite ?nth_map_add by exact Hp; reflexivity.
  Qed.
  Lemma kidx x ks idx : forallb noAl ks = true -> inr idx (map (ksize (fno M x) (fnv M x)) ks) ->
    inr (zipw (korb M no x) ks idx) (map (ksize no nv) ks) /\
    orbs range (map ksp ks) (zipw (korb M no x) ks idx) = orbs range (map (fsp x) ks) idx.
  Proof.
    revert idx. induction ks as [|k ks IH]; intros idx Hk Hi; inversion Hi as [|p m idx' ms Hp Hi']; subst; [split; [constructor|reflexivity]|].
    cbn [forallb] in Hk. apply andb_true_iff in Hk. destruct Hk as [Hk Hks]. destruct (IH _ Hks Hi') as [I1 I2]. rewrite zipw_cons. cbn [map]. split.
    - constructor; [apply korb_lt, Hp|exact I1].
    - unfold orbs in *. rewrite !zipw_cons. f_equal; [apply korb_abs; assumption|exact I2].
  Qed.
  Lemma map_dim_fsp x ks : forallb noAl ks = true -> map (dim range) (map (fsp x) ks) = map (ksize (fno M x) (fnv M x)) ks.
  Proof.
    intros H. induction ks as [|k ks IH]; [reflexivity|]. cbn [forallb] in H. apply andb_true_iff in H. destruct H as [H1 H2].
    cbn [map]. rewrite dim_fsp, IH by assumption. reflexivity.
  Qed.
  Lemma map_dim_ksp ks : map (dim range) (map ksp ks) = map (ksize no nv) ks.
  Proof. rewrite map_map. apply map_ext. intros; apply dim_ksp. Qed.
  (** the part of a stored array *)
  Lemma fr_part n x ks t b : nlook n atoms = Some (map ksp ks, t) -> forallb noAl ks = true -> part M no x ks t b -> fr_vsim (at_ n (map (fsp x) ks)) (VT b).
  Proof.
    intros HL Hk [Hb Hd]. constructor. split; [rewrite Hb; symmetry; apply map_dim_fsp, Hk|]. intros idx e Hi Hag.
    rewrite (Hd idx Hi). rewrite Hb in Hi. destruct (kidx x ks idx Hk Hi) as [I E].
    unfold evalP, evalT; cbn [suml tc td tf sumD evalFs]. unfold evalF; cbn [fst snd].
    unfold eagree in Hag. rewrite Hag. change (fr_range no nv M) with range. rewrite <- E.
    rewrite <- map_dim_ksp in I. rewrite (Aof_orbs range atoms fr_nodup n _ t _ HL I). ring.
  Qed.
  Lemma zipw_repeat {X Y Z} (f : X -> Y -> Z) a : forall k l, length l = k -> zipw f (repeat a k) l = map (f a) l.
  Proof. induction k as [|k IH]; intros [|y l] L; try discriminate; [reflexivity|]. cbn [repeat map]. rewrite zipw_cons. f_equal. apply IH. cbn in L; lia. Qed.
  Lemma fr_pfull n k x t b : nlook n atoms = Some (repeat 6%N k, t) -> part M no x (repeat Al k) t b -> fr_vsim (SFull n (repeat (fax x) k)) (VT b).
  Proof.
    intros HL [Hb Hd]. constructor. split.
    - rewrite Hb, !map_repeat. destruct x; reflexivity.
    - intros idx Hi. rewrite (Hd idx Hi). rewrite Hb, map_repeat in Hi.
      assert (L : length idx = k) by (apply Forall2_len in Hi; rewrite repeat_length in Hi; exact Hi).
      assert (Hi2 : inr (zipw (korb M no x) (repeat Al k) idx) (repeat (no + nv)%nat k)).
      { clear HL Hb Hd. revert idx Hi L. induction k as [|k IH]; intros [|p idx] Hi L; try discriminate; [constructor|].
        inversion Hi; subst. cbn [repeat]. rewrite zipw_cons. constructor; [apply (korb_lt x Al); assumption|]. apply IH; [assumption|cbn in L; lia]. }
      rewrite <- (Aof_orbs range atoms fr_nodup n _ t _ HL).
      + f_equal. clear -Hi Hi2 L. revert idx Hi Hi2 L. induction k as [|k IH]; intros [|p idx] Hi Hi2 L; try discriminate; [reflexivity|].
        cbn [repeat] in *. unfold orbs. rewrite !zipw_cons in *.
        inversion Hi2; subst. inversion Hi; subst. f_equal.
        * unfold range; cbn [fr_range]. rewrite seq_nth by assumption. destruct x; reflexivity.
        * apply IH; [assumption|assumption|cbn in L; lia].
      + rewrite map_repeat. unfold dim, range, fr_range. rewrite seq_length. exact Hi2.
  Qed.
  Definition fo_ (x : frag) : sval := SSl (match x with FA => 2 | FB => 4 end)%N.
  Definition fv_ (x : frag) : sval := SSl (match x with FA => 3 | FB => 5 end)%N.
  Lemma fr_o : fr_vsim (SSl 0) (o_ no). Proof. exact (vs_Sl _ _ (fr_slc no M) _ _ 0%N). Qed.
  Lemma fr_v : fr_vsim (SSl 1) (v_ no). Proof. exact (vs_Sl _ _ (fr_slc no M) _ _ 1%N). Qed.
  Lemma fr_fo x : fr_vsim (fo_ x) (o_ (fno M x)).
  Proof. destruct x; [exact (vs_Sl _ _ (fr_slc no M) _ _ 2%N)|exact (vs_Sl _ _ (fr_slc no M) _ _ 4%N)]. Qed.
  Lemma fr_fv x : fr_vsim (fv_ x) (v_ (fno M x)).
  Proof. destruct x; [exact (vs_Sl _ _ (fr_slc no M) _ _ 3%N)|exact (vs_Sl _ _ (fr_slc no M) _ _ 5%N)]. Qed.
  Lemma fr_dim s n : dim range s = n -> fr_vsim (SDim s) (VInt n).
  Proof. intros <-. apply (vs_Dim (fr_range no nv M) _ (fr_slc no M) (fr_adim no nv M) (fr_phi no M) s). Qed.
  Lemma fr_none : fr_vsim SNone VNone. Proof. apply vs_None. Qed.

  Lemma fr_run d lib f svs vs sps p : Forall2 fr_vsim svs vs -> srun fr_slm d lib f svs = Some (SP sps p) ->
    exists R, returns d lib f vs R /\ fr_tsim sps p R.
  Proof.
    intros H1 H2. destruct (srun_sound _ _ _ _ _ _ fr_slices_ok d lib f svs vs _ H1 H2) as [v [Hv Hs]].
    inversion Hs; subst. eexists; split; [exact Hv|assumption].
  Qed.
  Hypothesis Hat : Forall (atom_ok range sy) atoms.
  Lemma fr_evalP h sps p q : peq sy fr_split fr_bad h (xvs sps) p q = true ->
    forall e, (forall v, In v (xvs sps) -> In (e v) (range (spc v))) ->
    evalP range (Aof range atoms) e p = evalP range (Aof range atoms) e q.
  Proof.
    intros Hp e He. eapply peq_sound; [ | | | | |exact Hp|exact He].
    - apply ctx_blk; exact Hat.
    - apply ctx_herm; [apply sy_herm|exact Hat].
    - apply ctx_len; exact Hat.
    - exact fr_split_ok.
    - exact fr_kill_ok.
  Qed.

  (** the result on a fragment is the part of the result on the whole system *)
  Definition prtb (h : hints) (x : frag) (ks : list kind) (X Y : option sval) : bool :=
    let q := map (fsp x) ks in
    (forallb noAl ks && outsp (map ksp ks) X && outsp q Y && good q && outsp q (retype q X) &&
     peq sy fr_split fr_bad h (xvs q) (getp Y) (getp (retype q X)))%bool.
  Definition prt x ks X Y : Prop := okh (fun h => prtb h x ks X Y).
  Lemma prt_ok x ks X Y R B : prt x ks X Y -> fr_tsim (map ksp ks) (getp X) R -> fr_tsim (map (fsp x) ks) (getp Y) B -> part M no x ks R B.
  Proof.
    intros [h H] TR TB. unfold prtb in H. rewrite !andb_true_iff in H. destruct H as [[[[[Hk OX] OY] Hg] O3] Hp]. apply outsp_ok in OX, OY, O3.
    pose proof TB as [Hsb _]. pose proof TR as [HsR _]. unfold good in Hg. apply andb_true_iff in Hg. destruct Hg as [HN HX].
    split; [rewrite Hsb; apply map_dim_fsp, Hk|]. intros idx Hi. rewrite Hsb in Hi. change (fr_range no nv M) with range in Hi, HsR, TB, TR |- *.
    pose proof Hi as Hi'. rewrite map_dim_fsp in Hi' by exact Hk. destruct (kidx x ks idx Hk Hi') as [I E].
    rewrite (tsim_data _ _ _ _ _ _ HN TB) by (rewrite Hsb; exact Hi).
    rewrite OX in O3 at 1. rewrite (block_tsim range _ _ _ _ _ _ idx (zipw (korb M no x) ks idx) O3 HN TR Hi).
    - apply (fr_evalP h (map (fsp x) ks) _ _ Hp). intros v Hv.
      eapply inr_in; [exact Hi|apply agree_env; assumption|exact Hv|exact HX].
    - rewrite HsR, map_dim_ksp. exact I.
    - exact E.
  Qed.

  (** entries of the result that couple the fragments vanish *)
  Definition seppat (q : list space) (X : option sval) : bool :=
    (good q && outsp q (retype q X) && peq sy fr_split fr_bad [] (xvs q) (getp (retype q X)) [])%bool.
  Fixpoint patterns (ks : list kind) : list (list frag) :=
    match ks with [] => [[]] | _ :: r => flat_map (fun p => [FA :: p; FB :: p]) (patterns r) end.
  Definition isA (x : frag) := match x with FA => true | FB => false end.
  Definition mixed (p : list frag) : bool := (existsb isA p && existsb (fun x => negb (isA x)) p)%bool.
  Definition sepchk (ks : list kind) (X : option sval) : bool :=
    (forallb noAl ks && outsp (map ksp ks) X && forallb (fun p => negb (mixed p) || seppat (zipw fsp p ks) X) (patterns ks))%bool.
  (** the fragments of an index list, and the indices inside them *)
  Lemma which k i : noAl k = true -> (i < ksize no nv k)%nat -> exists x p, (p < ksize (fno M x) (fnv M x) k)%nat /\ korb M no x k p = i /\ belongs M no x k i.
  Proof.
    assert (G : forall l1 l2 n, Permutation (l1 ++ l2) (seq 0 n) -> (i < n)%nat -> In i l1 \/ In i l2).
    { intros l1 l2 n P H. apply in_app_or. eapply Permutation_in; [symmetry; exact P|]. apply in_seq. lia. }
    destruct k; cbn [noAl ksize korb belongs]; try discriminate; intros _ Hi; unfold fno, fnv.
    - destruct (G _ _ _ (proj1 HM) Hi) as [I|I]; destruct (In_nth _ _ O I) as [p [H1 H2]]; [exists FA, p|exists FB, p]; auto.
    - destruct (G _ _ _ (proj2 HM) Hi) as [I|I]; destruct (In_nth _ _ O I) as [p [H1 H2]]; [exists FA, p|exists FB, p]; auto.
  Qed.
  Lemma only_one k x y i : noAl k = true -> belongs M no x k i -> belongs M no y k i -> x = y.
  Proof.
    destruct k; cbn [noAl belongs]; try discriminate; intros _ H1 H2; destruct x, y; try reflexivity; exfalso.
    - exact (nodup_app_disj _ _ _ fo_nodup H1 H2). - exact (nodup_app_disj _ _ _ fo_nodup H2 H1).
    - exact (nodup_app_disj _ _ _ fv_nodup H1 H2). - exact (nodup_app_disj _ _ _ fv_nodup H2 H1).
  Qed.
  Lemma decode ks idx : forallb noAl ks = true -> inr idx (map (ksize no nv) ks) ->
    exists pat jdx, In pat (patterns ks) /\ length pat = length ks /\ inr jdx (map (dim range) (zipw fsp pat ks)) /\
      orbs range (map ksp ks) idx = orbs range (zipw fsp pat ks) jdx /\
      (touches M no FA ks idx -> existsb isA pat = true) /\ (touches M no FB ks idx -> existsb (fun x => negb (isA x)) pat = true).
  Proof.
    revert idx. induction ks as [|k ks IH]; intros idx Hk Hi; inversion Hi as [|i m idx' ms Hp Hi']; subst.
    - exists [], []. split; [left; reflexivity|]. split; [reflexivity|]. split; [constructor|]. split; [reflexivity|].
      split; intros [j [? [? [H _]]]]; destruct j; discriminate.
    - cbn [forallb] in Hk. apply andb_true_iff in Hk. destruct Hk as [Hk Hks]. destruct (IH _ Hks Hi') as [pat [jdx [P1 [P2 [P3 [P4 [P5 P6]]]]]]].
      destruct (which k i Hk Hp) as [x [p [Q1 [Q2 Q3]]]]. exists (x :: pat), (p :: jdx).
      split; [|split; [|split; [|split; [|split]]]].
      + cbn [patterns]. apply in_flat_map. exists pat. split; [exact P1|]. destruct x; cbn; auto.
      + cbn [length]. lia.
      + rewrite zipw_cons. cbn [map]. constructor; [rewrite dim_fsp by exact Hk; exact Q1|exact P3].
      + rewrite zipw_cons. cbn [map]. unfold orbs in *. rewrite !zipw_cons. f_equal; [|exact P4]. rewrite <- Q2. apply korb_abs; assumption.
      + intros [j [k' [p' [T1 [T2 T3]]]]]. cbn [existsb]. destruct j as [|j]; cbn in T1, T2.
        * apply some_inj in T1, T2. subst k' p'. rewrite (only_one k FA x i Hk T3 Q3) at 1 || idtac. rewrite <- (only_one k FA x i Hk T3 Q3). reflexivity.
        * rewrite P5, orb_true_r; [reflexivity|]. exists j, k', p'. auto.
      + intros [j [k' [p' [T1 [T2 T3]]]]]. cbn [existsb]. destruct j as [|j]; cbn in T1, T2.
        * apply some_inj in T1, T2. subst k' p'. rewrite <- (only_one k FB x i Hk T3 Q3). reflexivity.
        * rewrite P6, orb_true_r; [reflexivity|]. exists j, k', p'. auto.
  Qed.
  Lemma sepchk_ok ks X R : sepchk ks X = true -> fr_tsim (map ksp ks) (getp X) R -> separate M no ks R.
  Proof.
    unfold sepchk. rewrite !andb_true_iff. intros [[Hk OX] HF] TR idx Hi TA TB. apply outsp_ok in OX.
    pose proof TR as [HsR _]. change (fr_range no nv M) with range in HsR, TR. rewrite HsR, map_dim_ksp in Hi.
    destruct (decode ks idx Hk Hi) as [pat [jdx [P1 [P2 [P3 [P4 [P5 P6]]]]]]].
    rewrite forallb_forall in HF. specialize (HF pat P1). unfold mixed in HF. rewrite (P5 TA), (P6 TB) in HF. cbn [andb negb Datatypes.orb] in HF.
    unfold seppat in HF. rewrite !andb_true_iff in HF. destruct HF as [[Hg O3] Hp]. apply outsp_ok in O3.
    unfold good in Hg. apply andb_true_iff in Hg. destruct Hg as [HN HX].
    rewrite OX in O3 at 1. rewrite (block_tsim range _ _ _ _ _ _ jdx idx O3 HN TR P3).
    - rewrite (fr_evalP [] (zipw fsp pat ks) _ _ Hp); [reflexivity|]. intros v Hv.
      eapply inr_in; [exact P3|apply agree_env; assumption|exact Hv|exact HX].
    - rewrite HsR, map_dim_ksp. exact Hi.
    - exact P4.
  Qed.

  (** a number that is the sum of the fragment numbers *)
  Definition sumb (h : hints) (X A B : option sval) : bool :=
    (outsp [] X && outsp [] A && outsp [] B && peq sy fr_split fr_bad h [] (getp X) (getp A ++ getp B)%list)%bool.
  Definition sumchk X A B : Prop := okh (fun h => sumb h X A B).
  Lemma sum_ok X A B E EA EB : sumchk X A B -> fr_tsim [] (getp X) E -> fr_tsim [] (getp A) EA -> fr_tsim [] (getp B) EB -> data E [] = data EA [] + data EB [].
  Proof.
    intros [h H] T0 T1 T2. unfold sumb in H. rewrite !andb_true_iff in H. destruct H as [_ Hp].
    rewrite (tsim_data range _ [] _ _ [] eq_refl T0), (tsim_data range _ [] _ _ [] eq_refl T1), (tsim_data range _ [] _ _ [] eq_refl T2)
      by (match goal with |- inr [] (shape ?t) => match goal with H : fr_tsim [] _ t |- _ => rewrite (proj1 H); constructor end end).
    rewrite (fr_evalP h [] _ _ Hp) by (intros v []). apply evalP_app.
  Qed.
End FR.
Definition fr_hints (x y : poly) : hints := find_hints sy fr_split fr_bad (psub x y).
Ltac frchk :=
  lazymatch goal with
  | |- prt ?x ?ks ?X ?Y => let h := eval vm_compute in (fr_hints (getp Y) (getp (retype (map (fsp x) ks) X))) in with_hints h
  | |- sumchk ?X ?A ?B => let h := eval vm_compute in (fr_hints (getp X) (getp A ++ getp B)%list) in with_hints h
  | |- _ = true => vm_cast_no_check (@eq_refl bool true)
  end.
