(** The environment for spin-blocked programs: a spin-orbital calculation with 2*no occupied and 2*nv virtual
    spin orbitals together with its spin blocks.  Proof machinery; it models no particular source line. *)
From Coq Require Import String Ascii List Arith NArith ZArith QArith Qcanon Bool Lia Permutation.
From Verif Require Import Sums Tensor Interp Poly SymExec Canon Spec Setup Master.
Import ListNotations.
Open Scope Qc_scope.

(** spaces: 0 occ, 1 vir, 2 occ alpha, 3 occ beta, 4 vir alpha, 5 vir beta, 6 all *)
Definition sp_range (no nv : nat) (S : spinmap) (s : space) : list nat :=
  match s with
  | 0%N => seq 0 (2 * no)
  | 1%N => seq (2 * no) (2 * nv)
  | 2%N => occ S Up
  | 3%N => occ S Dn
  | 4%N => map (Nat.add (2 * no)) (vir S Up)
  | 5%N => map (Nat.add (2 * no)) (vir S Dn)
  | 6%N => seq 0 (2 * no + 2 * nv)
  | _ => []
  end.
(** slice objects 0,1: occupied/virtual spin orbitals; 2,3: occupied/virtual spatial orbitals *)
Definition sp_slc (no : nat) (k : N) : nat * option nat :=
  match k with
  | 0%N => (O, Some (2 * no)%nat)
  | 1%N => ((2 * no)%nat, None)
  | 2%N => (O, Some no)
  | _ => (no, None)
  end.
Definition sp_slm (a k : N) : option space :=
  match a, k with
  | 0%N, 0%N => Some 0%N | 0%N, 1%N => Some 1%N
  | 1%N, 2%N => Some 2%N | 1%N, 3%N => Some 4%N
  | 2%N, 2%N => Some 3%N | 2%N, 3%N => Some 5%N
  | _, _ => None
  end.
Definition sp_adim (no nv : nat) (a : N) : nat :=
  match a with 0%N => (2 * no + 2 * nv)%nat | _ => (no + nv)%nat end.
Definition sp_phi (no : nat) (S : spinmap) (a : N) (x : nat) : nat :=
  match a with 0%N => x | 1%N => orb S no Up x | _ => orb S no Dn x end.
Definition sp_split (s : space) : option (list space) :=
  match s with 0%N => Some [2; 3]%N | 1%N => Some [4; 5]%N | _ => None end.
Definition sp_spin (s : space) : option bool :=
  match s with 2%N | 4%N => Some true | 3%N | 5%N => Some false | _ => None end.
Fixpoint sp_cnt (l : list space) : option nat :=
  match l with
  | [] => Some O
  | s :: r => match sp_spin s, sp_cnt r with
              | Some b, Some n => Some (if b then S n else n) | _, _ => None end
  end.
(** spin-forbidden: different numbers of alpha indices in the two halves *)
Definition sp_bad (n : N) (l : list space) : bool :=
  let h := Nat.div (length l) 2 in
  (N.leb n 7 && Nat.even (length l) &&
   match sp_cnt (firstn h l), sp_cnt (skipn h l) with Some a, Some b => negb (Nat.eqb a b) | _, _ => false end)%bool.

Section SP.
  Variables no nv : nat.
  Variable S : spinmap.
  Hypothesis HS : spin_ok no nv S.
  Variable atoms : atomtab.
  Let range := sp_range no nv S.

  Lemma occ_len s : length (occ S s) = no. Proof. apply HS. Qed.
  Lemma vir_len s : length (vir S s) = nv. Proof. apply HS. Qed.
  Lemma occ_nodup : NoDup (occ S Up ++ occ S Dn).
  Proof. eapply Permutation_NoDup; [symmetry; apply HS|apply seq_NoDup]. Qed.
  Lemma vir_nodup : NoDup (vir S Up ++ vir S Dn).
  Proof. eapply Permutation_NoDup; [symmetry; apply HS|apply seq_NoDup]. Qed.
  Lemma nodup_app_l {X} (a b : list X) : NoDup (a ++ b) -> NoDup a.
  Proof.
    induction a as [|x a IH]; cbn; intros H; [constructor|]. inversion H; subst. constructor; [|apply IH; assumption].
    intros I. apply H2. apply in_or_app; left; exact I.
  Qed.
  Lemma nodup_app_r {X} (a b : list X) : NoDup (a ++ b) -> NoDup b.
  Proof. induction a as [|x a IH]; cbn; intros H; [exact H|]. inversion H; subst. apply IH; assumption. Qed.
  Lemma nodup_app_disj {X} (a b : list X) x : NoDup (a ++ b) -> In x a -> In x b -> False.
  Proof.
    induction a as [|y a IH]; cbn; intros H Ha Hb; [exact Ha|]. inversion H; subst.
    destruct Ha as [<-|Ha]; [apply H2, in_or_app; right; exact Hb|]. exact (IH H3 Ha Hb).
  Qed.
  Lemma occ_lt s i : In i (occ S s) -> (i < 2 * no)%nat.
  Proof.
    intros H. destruct HS as [_ [_ [P _]]].
    assert (In i (seq 0 (2 * no))) as Hi.
    { eapply Permutation_in; [exact P|]. apply in_or_app. destruct s; auto. }
    apply in_seq in Hi. lia.
  Qed.
  Lemma vir_lt s i : In i (vir S s) -> (i < 2 * nv)%nat.
  Proof.
    intros H. destruct HS as [_ [_ [_ P]]].
    assert (In i (seq 0 (2 * nv))) as Hi.
    { eapply Permutation_in; [exact P|]. apply in_or_app. destruct s; auto. }
    apply in_seq in Hi. lia.
  Qed.
  Lemma inj_nodup {X Y} (f : X -> Y) l : (forall x y, f x = f y -> x = y) -> NoDup l -> NoDup (map f l).
  Proof. intros Hf H. apply FinFun.Injective_map_NoDup; assumption. Qed.

  Lemma sp_nodup s : NoDup (sp_range no nv S s).
  Proof.
    assert (I : forall x y, (2 * no + x = 2 * no + y)%nat -> x = y) by (intros; lia).
    pose proof (nodup_app_l _ _ occ_nodup). pose proof (nodup_app_r _ _ occ_nodup).
    pose proof (nodup_app_l _ _ vir_nodup). pose proof (nodup_app_r _ _ vir_nodup).
    unfold sp_range.
    destruct s as [|p]; [apply seq_NoDup|].
    repeat (try destruct p as [p|p|]; try apply NoDup_nil; try apply seq_NoDup; try assumption;
            try (apply inj_nodup; [exact I|assumption])).
  Qed.

  Lemma nth_map_add c l m : (m < length l)%nat -> nth m (map (Nat.add c) l) O = (c + nth m l O)%nat.
  Proof.
    revert m; induction l as [|x l IH]; intros [|m] H; cbn in *; try lia. apply IH. lia.
  Qed.

  Lemma sp_slices_ok : slices_ok range (sp_slc no) sp_slm (sp_adim no nv) (sp_phi no S).
  Proof.
    intros a k s. unfold sp_slm.
    destruct a as [|[?|[?|?|]|]]; try discriminate; destruct k as [|[[?|?|]|[?|?|]|]]; try discriminate; intros H;
      apply some_inj in H; subst;
      unfold dim, range; cbn [sp_slc fst snd sp_range sp_adim]; unfold slice_len, slice_start, slice_stop, sp_phi;
      rewrite ?seq_length, ?map_length, ?occ_len, ?vir_len; (split; [lia|]); intros m Hm.
    - rewrite seq_nth by lia. lia.
    - rewrite seq_nth by lia. lia.
    - unfold orb. destruct (Nat.ltb_spec (Nat.min no (no + nv) + m) no); [lia|].
      rewrite nth_map_add by (rewrite vir_len; exact Hm). f_equal. f_equal. lia.
    - unfold orb. destruct (Nat.ltb_spec (Nat.min 0 (no + nv) + m) no); [f_equal; lia|lia].
    - unfold orb. destruct (Nat.ltb_spec (Nat.min no (no + nv) + m) no); [lia|].
      rewrite nth_map_add by (rewrite vir_len; exact Hm). f_equal. f_equal. lia.
    - unfold orb. destruct (Nat.ltb_spec (Nat.min 0 (no + nv) + m) no); [f_equal; lia|lia].
  Qed.

  Lemma sp_split_ok s l : sp_split s = Some l -> Permutation (range s) (flat_map range l).
  Proof.
    unfold sp_split. destruct s as [|[]]; try discriminate; intros H; apply some_inj in H; subst;
      cbn [flat_map range sp_range]; unfold range; cbn [sp_range]; rewrite app_nil_r.
    - symmetry. apply HS.
    - rewrite <- map_app. symmetry. transitivity (map (Nat.add (2 * no)) (seq 0 (2 * nv))).
      + apply Permutation_map. apply HS.
      + rewrite <- (Nat.add_0_r (2 * no)) at 2.
        assert (G : forall a b c, map (Nat.add a) (seq b c) = seq (a + b) c).
        { clear. intros a b c; revert b; induction c as [|c IH]; intros b; cbn; [reflexivity|]. f_equal.
          rewrite IH. f_equal. lia. }
        rewrite G. reflexivity.
  Qed.

  (** spin of an absolute orbital *)
  Lemma isup_occ_spec s i : In i (occ S s) -> isup_occ S i = match s with Up => true | Dn => false end.
  Proof.
    intros H. unfold isup_occ. destruct s.
    - apply existsb_exists. exists i. split; [exact H|apply Nat.eqb_refl].
    - apply not_true_iff_false. intros E. apply existsb_exists in E. destruct E as [j [Hj E]].
      apply Nat.eqb_eq in E. subst j. eapply nodup_app_disj; [apply occ_nodup|exact Hj|exact H].
  Qed.
  Lemma isup_vir_spec s i : In i (vir S s) -> isup_vir S i = match s with Up => true | Dn => false end.
  Proof.
    intros H. unfold isup_vir. destruct s.
    - apply existsb_exists. exists i. split; [exact H|apply Nat.eqb_refl].
    - apply not_true_iff_false. intros E. apply existsb_exists in E. destruct E as [j [Hj E]].
      apply Nat.eqb_eq in E. subst j. eapply nodup_app_disj; [apply vir_nodup|exact Hj|exact H].
  Qed.
  Lemma isup_spec s b x : sp_spin s = Some b -> In x (range s) -> isup S no x = b.
  Proof.
    unfold sp_spin. intros Hs Hx. unfold isup.
    destruct s as [|p]; [discriminate|].
    repeat (try destruct p as [p|p|]; try discriminate); apply some_inj in Hs; subst;
      unfold range in Hx; cbn [sp_range] in Hx.
    - apply in_map_iff in Hx. destruct Hx as [y [<- Hy]].
      destruct (Nat.ltb_spec (2 * no + y) (2 * no)); [lia|].
      replace (2 * no + y - 2 * no)%nat with y by lia. exact (isup_vir_spec Dn y Hy).
    - pose proof (occ_lt _ _ Hx). destruct (Nat.ltb_spec x (2 * no)); [|lia]. exact (isup_occ_spec Dn x Hx).
    - apply in_map_iff in Hx. destruct Hx as [y [<- Hy]].
      destruct (Nat.ltb_spec (2 * no + y) (2 * no)); [lia|].
      replace (2 * no + y - 2 * no)%nat with y by lia. exact (isup_vir_spec Up y Hy).
    - pose proof (occ_lt _ _ Hx). destruct (Nat.ltb_spec x (2 * no)); [|lia]. exact (isup_occ_spec Up x Hx).
  Qed.
  Lemma sp_cnt_spec ss xs n : sp_cnt ss = Some n -> Forall2 (fun x s => In x (range s)) xs ss ->
    count (isup S no) xs = n.
  Proof.
    intros H HF. revert n H. induction HF as [|x s xs ss Hx HF IH]; intros n H; cbn [sp_cnt] in H.
    - apply some_inj in H. subst. reflexivity.
    - destruct (sp_spin s) as [b|] eqn:Es; [|discriminate].
      destruct (sp_cnt ss) as [m|]; [|discriminate]. apply some_inj in H. subst n.
      unfold count. cbn [filter]. rewrite (isup_spec _ _ _ Es Hx). specialize (IH m eq_refl). unfold count in IH.
      destruct b; cbn [length]; lia.
  Qed.

  (** every stored atom conserves spin *)
  Definition conserving (a : N * (list space * tensor)) : Prop :=
    let '(n, (sps, t)) := a in
    (n <= 7)%N ->
    exists k, length sps = (k + k)%nat /\
    forall l1 l2, length l1 = k -> length l2 = k ->
      Forall2 (fun s x => In x (range s)) sps (l1 ++ l2) ->
      count (isup S no) l1 <> count (isup S no) l2 -> data t (rel range sps (l1 ++ l2)) = 0.
  Hypothesis Hcons : Forall conserving atoms.

  Lemma sp_kill_ok n ss xs : sp_bad n ss = true -> Forall2 (fun x s => In x (range s)) xs ss ->
    Aof range atoms n xs = 0.
  Proof.
    unfold sp_bad. rewrite !andb_true_iff. intros [[Hn Hev] Hb] HF. apply N.leb_le in Hn.
    unfold Aof. destruct (nlook n atoms) as [[sps t]|] eqn:EL; [|reflexivity].
    destruct (inrb range sps xs) eqn:EI; [|reflexivity]. apply inrb_spec in EI.
    pose proof (nlook_In _ _ _ EL) as HIn. rewrite Forall_forall in Hcons.
    destruct (Hcons _ HIn Hn) as [k [Hk Hz]].
    assert (Lx : length xs = (k + k)%nat) by (rewrite <- Hk; symmetry; eapply Forall2_len; exact EI).
    assert (Ls : length ss = (k + k)%nat) by (rewrite <- Lx; symmetry; eapply Forall2_len; exact HF).
    rewrite Ls in Hb. replace (k + k)%nat with (k * 2)%nat in Hb by lia. rewrite Nat.div_mul in Hb by lia.
    destruct (sp_cnt (firstn k ss)) as [a|] eqn:E1; [|discriminate].
    destruct (sp_cnt (skipn k ss)) as [b|] eqn:E2; [|discriminate].
    apply negb_true_iff, Nat.eqb_neq in Hb.
    rewrite <- (firstn_skipn k xs) in HF, EI |- *. rewrite <- (firstn_skipn k ss) in HF.
    apply Forall2_app_inv_l in HF. destruct HF as [a' [b' [F1 [F2 EE]]]].
    assert (L1 : length (firstn k xs) = k) by (rewrite firstn_length; lia).
    assert (L2 : length (skipn k xs) = k) by (rewrite skipn_length; lia).
    assert (Ea : a' = firstn k ss /\ b' = skipn k ss).
    { pose proof (Forall2_len _ _ _ F1) as La. rewrite L1 in La.
      assert (Lf : length (firstn k ss) = k) by (rewrite firstn_length; lia).
      clear -EE La Lf. revert a' EE La Lf. generalize (firstn k ss) as u. generalize (skipn k ss) as w.
      revert k. intros k w u. revert k. induction u as [|z u IH]; intros k [|y a'] EE La Lf; cbn in *; try lia.
      - split; [reflexivity|symmetry; exact EE].
      - injection EE as <- EE. destruct k as [|k]; [lia|]. destruct (IH k a' EE ltac:(lia) ltac:(lia)). subst. auto. }
    destruct Ea as [-> ->].
    apply Hz; [exact L1|exact L2|exact EI|].
    rewrite (sp_cnt_spec _ _ _ E1 F1), (sp_cnt_spec _ _ _ E2 F2). exact Hb.
  Qed.

  Definition sp_vsim : sval -> value -> Prop :=
    vsim (sp_range no nv S) (Aof (sp_range no nv S) atoms) (sp_slc no) (sp_adim no nv) (sp_phi no S).
  Definition sp_tsim := tsim (sp_range no nv S) (Aof (sp_range no nv S) atoms).

  Lemma sp_atom n sps t : nlook n atoms = Some (sps, t) -> shape t = map (dim range) sps ->
    sp_vsim (at_ n sps) (VT t).
  Proof. intros H1 H2. constructor. apply tsim_atom; [apply sp_nodup|exact H1|exact H2]. Qed.
  Lemma sp_zero sps t : shape t = map (dim range) sps -> zero_tensor t -> sp_vsim (zr sps) (VT t).
  Proof. intros H1 H2. constructor. apply tsim_zero; assumption. Qed.

  Lemma sp_full n k t : nlook n atoms = Some (repeat 6%N k, t) -> shape t = repeat (2 * no + 2 * nv)%nat k ->
    sp_vsim (SFull n (repeat 0%N k)) (VT t).
  Proof.
    intros HL Hs. constructor. split; [rewrite Hs, map_repeat; reflexivity|].
    intros idx Hi. rewrite Hs in Hi.
    assert (L : length idx = k) by (apply Forall2_len in Hi; rewrite repeat_length in Hi; exact Hi).
    rewrite <- (Aof_orbs range atoms sp_nodup n _ t idx HL).
    - f_equal. clear HL Hs. revert idx Hi L. induction k as [|k IH]; intros [|x idx] Hi L; try discriminate; [reflexivity|].
      cbn [repeat]. unfold orbs. rewrite !zipw_cons. unfold sp_phi at 1. unfold range; cbn [sp_range].
      inversion Hi; subst. rewrite seq_nth by assumption. cbn [Nat.add]. f_equal. apply IH; [assumption|]. cbn in L; lia.
    - rewrite map_repeat. unfold dim, range, sp_range. rewrite seq_length. exact Hi.
  Qed.

  (** Blocks. *)
  Definition axof (s : spin) : N := match s with Up => 1%N | Dn => 2%N end.
  Definition ocof (s : spin) : space := match s with Up => 2%N | Dn => 3%N end.
  Definition viof (s : spin) : space := match s with Up => 4%N | Dn => 5%N end.

  Lemma orb_lt s x : (x < no + nv)%nat -> (orb S no s x < 2 * no + 2 * nv)%nat.
  Proof.
    intros Hx. unfold orb. destruct (Nat.ltb_spec x no) as [H|H].
    - assert (In (nth x (occ S s) O) (occ S s)) by (apply nth_In; rewrite occ_len; exact H).
      pose proof (occ_lt _ _ H0). lia.
    - assert (In (nth (x - no) (vir S s) O) (vir S s)) by (apply nth_In; rewrite vir_len; lia).
      pose proof (vir_lt _ _ H0). lia.
  Qed.
  Lemma dim_oc s : dim range (ocof s) = no.
  Proof. unfold dim, range. destruct s; cbn; apply occ_len. Qed.
  Lemma dim_vi s : dim range (viof s) = nv.
  Proof. unfold dim, range. destruct s; cbn; rewrite map_length; apply vir_len. Qed.
  Lemma dimO : dim range 0%N = (2 * no)%nat.
  Proof. unfold dim, range; cbn [sp_range]. apply seq_length. Qed.
  Lemma dimV : dim range 1%N = (2 * nv)%nat.
  Proof. unfold dim, range; cbn [sp_range]. apply seq_length. Qed.
  Lemma dimP : dim range 6%N = (2 * no + 2 * nv)%nat.
  Proof. unfold dim, range; cbn [sp_range]. apply seq_length. Qed.

  Lemma sp_bfull n ss t b : nlook n atoms = Some (repeat 6%N (length ss), t) ->
    shape t = repeat (2 * no + 2 * nv)%nat (length ss) ->
    block_full S no nv ss t b -> sp_vsim (SFull n (map axof ss)) (VT b).
  Proof.
    intros HL Hs [Hb Hd]. constructor. split.
    - rewrite Hb. clear. induction ss as [|s ss IH]; cbn [map length repeat]; [reflexivity|]. f_equal; [|exact IH].
      destruct s; reflexivity.
    - intros idx Hi. rewrite (Hd idx Hi). rewrite Hb in Hi.
      assert (L : length idx = length ss) by (apply Forall2_len in Hi; rewrite repeat_length in Hi; exact Hi).
      assert (Hi2 : inr (zipw (orb S no) ss idx) (repeat (2 * no + 2 * nv)%nat (length ss))).
      { clear -Hi L HS. revert idx Hi L. induction ss as [|s ss IH]; intros [|x idx] Hi L; try discriminate; [constructor|].
        inversion Hi; subst. rewrite zipw_cons. cbn [length repeat]. constructor; [apply orb_lt; assumption|].
        apply IH; [assumption|cbn in L; lia]. }
      rewrite <- (Aof_orbs range atoms sp_nodup n _ t _ HL).
      + f_equal. clear -Hi Hi2 L. revert idx Hi Hi2 L. induction ss as [|s ss IH]; intros [|x idx] Hi Hi2 L; try discriminate; [reflexivity|].
        cbn [length repeat map]. rewrite zipw_cons in Hi2 |- *. unfold orbs. rewrite !zipw_cons.
        inversion Hi2; subst. inversion Hi; subst. f_equal.
        * unfold range; cbn [sp_range]. rewrite seq_nth by assumption. destruct s; reflexivity.
        * apply IH; [assumption|assumption|cbn in L; lia].
      + rewrite map_repeat, dimP. exact Hi2.
  Qed.

  Lemma orbs_app a b (m1 m2 : list nat) : length a = length m1 ->
    orbs range (a ++ b) (m1 ++ m2) = (orbs range a m1 ++ orbs range b m2)%list.
  Proof.
    revert a. induction m1 as [|x m1 IH]; intros [|y a] L; try discriminate; [reflexivity|].
    cbn [app]. unfold orbs. rewrite !zipw_cons. cbn [app]. f_equal. apply IH. cbn in L; lia.
  Qed.

  Definition bsp (ss : list spin) : list space := (map viof ss ++ map ocof ss)%list.
  Definition bsp_ov (ss : list spin) : list space := (map ocof ss ++ map viof ss)%list.
  Lemma map_dim_vi ss : map (dim range) (map viof ss) = repeat nv (length ss).
  Proof. induction ss; cbn [map length repeat]; [reflexivity|]. rewrite dim_vi. f_equal; exact IHss. Qed.
  Lemma map_dim_oc ss : map (dim range) (map ocof ss) = repeat no (length ss).
  Proof. induction ss; cbn [map length repeat]; [reflexivity|]. rewrite dim_oc. f_equal; exact IHss. Qed.
  Lemma map_dim_bsp ss : map (dim range) (bsp ss) = (repeat nv (length ss) ++ repeat no (length ss))%list.
  Proof. unfold bsp. rewrite map_app, map_dim_vi, map_dim_oc. reflexivity. Qed.
  Lemma map_dim_bsp_ov ss : map (dim range) (bsp_ov ss) = (repeat no (length ss) ++ repeat nv (length ss))%list.
  Proof. unfold bsp_ov. rewrite map_app, map_dim_vi, map_dim_oc. reflexivity. Qed.

  Lemma orbs_vi ss l : inr l (repeat nv (length ss)) ->
    inr (zipw (fun s a => nth a (vir S s) O) ss l) (repeat (2 * nv)%nat (length ss)) /\
    orbs range (repeat 1%N (length ss)) (zipw (fun s a => nth a (vir S s) O) ss l) = orbs range (map viof ss) l.
  Proof.
    revert l. induction ss as [|s ss IH]; intros l H; inversion H; subst; [split; [constructor|reflexivity]|].
    destruct (IH _ H4) as [I1 I2]. rewrite zipw_cons. cbn [length repeat map].
    assert (Hv : In (nth x (vir S s) O) (vir S s)) by (apply nth_In; rewrite vir_len; assumption).
    pose proof (vir_lt _ _ Hv) as Hlt. split; [constructor; assumption|].
    unfold orbs in *. rewrite !zipw_cons. f_equal; [|exact I2].
    unfold range; cbn [sp_range]. rewrite seq_nth by exact Hlt.
    destruct s; cbn [viof sp_range]; rewrite nth_map_add by (rewrite vir_len; assumption); reflexivity.
  Qed.
  Lemma orbs_oc ss l : inr l (repeat no (length ss)) ->
    inr (zipw (fun s a => nth a (occ S s) O) ss l) (repeat (2 * no)%nat (length ss)) /\
    orbs range (repeat 0%N (length ss)) (zipw (fun s a => nth a (occ S s) O) ss l) = orbs range (map ocof ss) l.
  Proof.
    revert l. induction ss as [|s ss IH]; intros l H; inversion H; subst; [split; [constructor|reflexivity]|].
    destruct (IH _ H4) as [I1 I2]. rewrite zipw_cons. cbn [length repeat map].
    assert (Hv : In (nth x (occ S s) O) (occ S s)) by (apply nth_In; rewrite occ_len; assumption).
    pose proof (occ_lt _ _ Hv) as Hlt. split; [constructor; assumption|].
    unfold orbs in *. rewrite !zipw_cons. f_equal; [|exact I2].
    unfold range; cbn [sp_range]. rewrite seq_nth by exact Hlt. destruct s; reflexivity.
  Qed.

  Lemma zipw_length {X Y Z} (f : X -> Y -> Z) a b : length a = length b -> length (zipw f a b) = length a.
  Proof. intros H. unfold zipw. rewrite map_length, combine_length. lia. Qed.

  (** index map of an amplitude block *)
  Definition bidx (ss : list spin) (idx : list nat) : list nat :=
    (zipw (fun s a => nth a (vir S s) O) ss (firstn (length ss) idx) ++
     zipw (fun s i => nth i (occ S s) O) ss (skipn (length ss) idx))%list.
  Definition bidx_ov (ss : list spin) (idx : list nat) : list nat :=
    (zipw (fun s i => nth i (occ S s) O) ss (firstn (length ss) idx) ++
     zipw (fun s a => nth a (vir S s) O) ss (skipn (length ss) idx))%list.
  Lemma fs_app {X} (l1 l2 : list X) k : length l1 = k -> firstn k (l1 ++ l2) = l1 /\ skipn k (l1 ++ l2) = l2.
  Proof.
    intros <-. rewrite firstn_app, skipn_app, Nat.sub_diag, firstn_all, skipn_all.
    cbn [firstn skipn app]. rewrite app_nil_r. split; reflexivity.
  Qed.
  Lemma bidx_app ss l1 l2 : length l1 = length ss -> bidx ss (l1 ++ l2) =
    (zipw (fun s a => nth a (vir S s) O) ss l1 ++ zipw (fun s i => nth i (occ S s) O) ss l2)%list.
  Proof. intros L. unfold bidx. destruct (fs_app l1 l2 _ L) as [-> ->]. reflexivity. Qed.
  Lemma bidx_ov_app ss l1 l2 : length l1 = length ss -> bidx_ov ss (l1 ++ l2) =
    (zipw (fun s i => nth i (occ S s) O) ss l1 ++ zipw (fun s a => nth a (vir S s) O) ss l2)%list.
  Proof. intros L. unfold bidx_ov. destruct (fs_app l1 l2 _ L) as [-> ->]. reflexivity. Qed.
  Lemma bidx_ok ss idx : inr idx (map (dim range) (bsp ss)) ->
    inr (bidx ss idx) (map (dim range) (repeat 1%N (length ss) ++ repeat 0%N (length ss))) /\
    orbs range (repeat 1%N (length ss) ++ repeat 0%N (length ss)) (bidx ss idx) = orbs range (bsp ss) idx.
  Proof.
    rewrite map_dim_bsp. intros Hi. unfold inr in Hi. apply Forall2_app_inv_r in Hi.
    destruct Hi as [l1 [l2 [H1 [H2 ->]]]].
    assert (L1 : length l1 = length ss) by (apply Forall2_len in H1; rewrite repeat_length in H1; exact H1).
    assert (L2 : length l2 = length ss) by (apply Forall2_len in H2; rewrite repeat_length in H2; exact H2).
    rewrite bidx_app by exact L1.
    destruct (orbs_vi ss l1 H1) as [I1 E1]. destruct (orbs_oc ss l2 H2) as [I2 E2]. split.
    - rewrite map_app, !map_repeat, dimO, dimV. apply Forall2_app; assumption.
    - unfold bsp. rewrite !orbs_app, E1, E2; [reflexivity|rewrite map_length; lia|].
      rewrite repeat_length, zipw_length; lia.
  Qed.
  Lemma bidx_ov_ok ss idx : inr idx (map (dim range) (bsp_ov ss)) ->
    inr (bidx_ov ss idx) (map (dim range) (repeat 0%N (length ss) ++ repeat 1%N (length ss))) /\
    orbs range (repeat 0%N (length ss) ++ repeat 1%N (length ss)) (bidx_ov ss idx) = orbs range (bsp_ov ss) idx.
  Proof.
    rewrite map_dim_bsp_ov. intros Hi. unfold inr in Hi. apply Forall2_app_inv_r in Hi.
    destruct Hi as [l1 [l2 [H1 [H2 ->]]]].
    assert (L1 : length l1 = length ss) by (apply Forall2_len in H1; rewrite repeat_length in H1; exact H1).
    assert (L2 : length l2 = length ss) by (apply Forall2_len in H2; rewrite repeat_length in H2; exact H2).
    rewrite bidx_ov_app by exact L1.
    destruct (orbs_oc ss l1 H1) as [I1 E1]. destruct (orbs_vi ss l2 H2) as [I2 E2]. split.
    - rewrite map_app, !map_repeat, dimO, dimV. apply Forall2_app; assumption.
    - unfold bsp_ov. rewrite !orbs_app, E1, E2; [reflexivity|rewrite map_length; lia|].
      rewrite repeat_length, zipw_length; lia.
  Qed.

  Lemma block_data ss t b idx : block_amp S no nv ss t b -> inr idx (shape b) -> data b idx = data t (bidx ss idx).
  Proof.
    intros [Hb Hd] Hi. unfold bidx. rewrite <- (firstn_skipn (length ss) idx) at 1. apply Hd.
    - apply Forall2_len in Hi. rewrite Hb, app_length, !repeat_length in Hi. rewrite firstn_length. lia.
    - rewrite firstn_skipn. exact Hi.
  Qed.
  Lemma block_ov_data ss t b idx : block_amp_ov S no nv ss t b -> inr idx (shape b) -> data b idx = data t (bidx_ov ss idx).
  Proof.
    intros [Hb Hd] Hi. unfold bidx_ov. rewrite <- (firstn_skipn (length ss) idx) at 1. apply Hd.
    - apply Forall2_len in Hi. rewrite Hb, app_length, !repeat_length in Hi. rewrite firstn_length. lia.
    - rewrite firstn_skipn. exact Hi.
  Qed.

  (** a stored amplitude block *)
  Lemma sp_bamp n ss t b :
    nlook n atoms = Some ((repeat 1%N (length ss) ++ repeat 0%N (length ss))%list, t) ->
    block_amp S no nv ss t b -> sp_vsim (at_ n (bsp ss)) (VT b).
  Proof.
    intros HL Hbl. constructor. pose proof Hbl as [Hb _].
    split; [rewrite Hb, map_dim_bsp; reflexivity|]. intros idx e Hi Hag.
    rewrite (block_data ss t b idx Hbl Hi). rewrite Hb, <- map_dim_bsp in Hi.
    destruct (bidx_ok ss idx Hi) as [I E].
    unfold evalP, evalT; cbn [suml tc td tf sumD evalFs]. unfold evalF; cbn [fst snd].
    unfold eagree in Hag. rewrite Hag. change (sp_range no nv S) with range. rewrite <- E.
    rewrite (Aof_orbs range atoms sp_nodup n _ t _ HL I). ring.
  Qed.
  Lemma sp_bamp_ov n ss t b :
    nlook n atoms = Some ((repeat 0%N (length ss) ++ repeat 1%N (length ss))%list, t) ->
    block_amp_ov S no nv ss t b -> sp_vsim (at_ n (bsp_ov ss)) (VT b).
  Proof.
    intros HL Hbl. constructor. pose proof Hbl as [Hb _].
    split; [rewrite Hb, map_dim_bsp_ov; reflexivity|]. intros idx e Hi Hag.
    rewrite (block_ov_data ss t b idx Hbl Hi). rewrite Hb, <- map_dim_bsp_ov in Hi.
    destruct (bidx_ov_ok ss idx Hi) as [I E].
    unfold evalP, evalT; cbn [suml tc td tf sumD evalFs]. unfold evalF; cbn [fst snd].
    unfold eagree in Hag. rewrite Hag. change (sp_range no nv S) with range. rewrite <- E.
    rewrite (Aof_orbs range atoms sp_nodup n _ t _ HL I). ring.
  Qed.

  Lemma sp_sl0 : sp_vsim (SSl 0) (VSl 0 (Some (2 * no)%nat)). Proof. exact (vs_Sl _ _ (sp_slc no) _ _ 0%N). Qed.
  Lemma sp_sl1 : sp_vsim (SSl 1) (VSl (2 * no) None). Proof. exact (vs_Sl _ _ (sp_slc no) _ _ 1%N). Qed.
  Lemma sp_sl2 : sp_vsim (SSl 2) (VSl 0 (Some no)). Proof. exact (vs_Sl _ _ (sp_slc no) _ _ 2%N). Qed.
  Lemma sp_sl3 : sp_vsim (SSl 3) (VSl no None). Proof. exact (vs_Sl _ _ (sp_slc no) _ _ 3%N). Qed.
  Lemma sp_none : sp_vsim SNone VNone. Proof. apply vs_None. Qed.

  Lemma sp_run d lib f svs vs sps p : Forall2 sp_vsim svs vs ->
    srun sp_slm d lib f svs = Some (SP sps p) ->
    exists R, returns d lib f vs R /\ sp_tsim sps p R.
  Proof.
    intros H1 H2. destruct (srun_sound _ _ _ _ _ _ sp_slices_ok d lib f svs vs _ H1 H2) as [v [Hv Hs]].
    inversion Hs; subst. eexists; split; [exact Hv|assumption].
  Qed.

  Hypothesis Hat : Forall (atom_ok range sy) atoms.
  Lemma sp_evalP h sps p q : peq sy sp_split sp_bad h (xvs sps) p q = true ->
    forall e, (forall v, In v (xvs sps) -> In (e v) (range (spc v))) ->
    evalP range (Aof range atoms) e p = evalP range (Aof range atoms) e q.
  Proof.
    intros Hp e He. eapply peq_sound; [ | | | | |exact Hp|exact He].
    - apply ctx_blk; exact Hat.
    - apply ctx_herm; [apply sy_herm|exact Hat].
    - apply ctx_len; exact Hat.
    - exact sp_split_ok.
    - exact sp_kill_ok.
  Qed.
  Lemma sp_peq h sps p q t t' : good sps = true -> peq sy sp_split sp_bad h (xvs sps) p q = true ->
    sp_tsim sps p t -> sp_tsim sps q t' -> teq t t'.
  Proof.
    intros Hg Hp Ht Ht'. eapply tsim_eq; [exact Hg|exact Ht|exact Ht'|]. apply (sp_evalP h); exact Hp.
  Qed.

  (** the block of a spin-orbital result *)
  Lemma sp_block_result h ss p p' q R B :
    good (bsp ss) = true ->
    retype (bsp ss) (Some (SP (repeat 1%N (length ss) ++ repeat 0%N (length ss)) p)) = Some (SP (bsp ss) p') ->
    peq sy sp_split sp_bad h (xvs (bsp ss)) q p' = true ->
    sp_tsim (repeat 1%N (length ss) ++ repeat 0%N (length ss)) p R ->
    sp_tsim (bsp ss) q B -> block_amp S no nv ss R B.
  Proof.
    intros Hg HR Hp HtR HtB. pose proof HtB as [Hsb _]. pose proof HtR as [HsR _].
    unfold good in Hg. apply andb_true_iff in Hg. destruct Hg as [HN HX].
    split; [rewrite Hsb; apply map_dim_bsp|].
    intros l1 l2 L1 Hi. rewrite Hsb in Hi. change (sp_range no nv S) with range in Hi, HsR, HtB, HtR |- *.
    destruct (bidx_ok ss _ Hi) as [I E].
    rewrite (tsim_data _ _ _ _ _ _ HN HtB) by (rewrite Hsb; exact Hi).
    rewrite <- bidx_app by exact L1.
    rewrite (block_tsim range _ _ _ _ _ _ (l1 ++ l2) (bidx ss (l1 ++ l2)) HR HN HtR Hi).
    - apply (sp_evalP h (bsp ss) q p' Hp). intros v Hv.
      eapply inr_in; [exact Hi|apply agree_env; assumption|exact Hv|exact HX].
    - rewrite HsR. exact I.
    - exact E.
  Qed.
End SP.

(** Conservation of spin by the stored arrays, from the predicates of [Spec]. *)
Lemma index_of_seq a n x : In x (seq a n) -> index_of x (seq a n) = (x - a)%nat.
Proof.
  intros H. apply in_seq in H.
  replace x with (nth (x - a) (seq a n) O) at 1 by (rewrite seq_nth by lia; lia).
  apply index_of_nth; [apply seq_NoDup|rewrite seq_length; lia].
Qed.

Section Cons.
  Variables no nv : nat.
  Variable S : spinmap.
  Let range := sp_range no nv S.

  Lemma rel_full k : forall l, Forall2 (fun s x => In x (range s)) (repeat 6%N k) l -> rel range (repeat 6%N k) l = l.
  Proof.
    induction k as [|k IH]; intros l H; inversion H; subst; [reflexivity|].
    unfold rel. cbn [repeat]. rewrite zipw_cons. f_equal; [|apply IH; assumption].
    unfold range; cbn [sp_range]. rewrite index_of_seq by assumption. lia.
  Qed.
  Lemma rel_occ k : forall l, Forall2 (fun s x => In x (range s)) (repeat 0%N k) l ->
    rel range (repeat 0%N k) l = l /\ count (isup S no) l = count (isup_occ S) l.
  Proof.
    induction k as [|k IH]; intros l H; inversion H as [|s0 x0 sps0 l0 Hx HF]; subst; [split; reflexivity|].
    destruct (IH _ HF) as [E1 E2]. split.
    - unfold rel. cbn [repeat]. rewrite zipw_cons. f_equal; [|exact E1].
      unfold range; cbn [sp_range]. rewrite index_of_seq by assumption. lia.
    - unfold count in *. cbn [filter]. unfold isup at 1.
      unfold range in Hx; cbn [sp_range] in Hx. apply in_seq in Hx.
      destruct (Nat.ltb_spec x0 (2 * no)); [|lia].
      destruct (isup_occ S x0); cbn [length]; rewrite ?E2; reflexivity.
  Qed.
  Lemma rel_vir k : forall l, Forall2 (fun s x => In x (range s)) (repeat 1%N k) l ->
    rel range (repeat 1%N k) l = map (fun x => (x - 2 * no)%nat) l /\
    count (isup S no) l = count (isup_vir S) (map (fun x => (x - 2 * no)%nat) l).
  Proof.
    induction k as [|k IH]; intros l H; inversion H as [|s0 x0 sps0 l0 Hx HF]; subst; [split; reflexivity|].
    destruct (IH _ HF) as [E1 E2]. split.
    - unfold rel. cbn [repeat]. rewrite zipw_cons. cbn [map]. f_equal; [|exact E1].
      unfold range; cbn [sp_range]. rewrite index_of_seq by assumption. reflexivity.
    - unfold count in *. cbn [filter map]. unfold isup at 1.
      unfold range in Hx; cbn [sp_range] in Hx. apply in_seq in Hx.
      destruct (Nat.ltb_spec x0 (2 * no)); [lia|].
      destruct (isup_vir S (x0 - 2 * no)); cbn [length]; rewrite ?E2; reflexivity.
  Qed.

  Lemma F2_split k s1 s2 (l1 l2 : list nat) : length l1 = k ->
    Forall2 (fun s x => In x (range s)) (repeat s1 k ++ repeat s2 k) (l1 ++ l2) ->
    Forall2 (fun s x => In x (range s)) (repeat s1 k) l1 /\ Forall2 (fun s x => In x (range s)) (repeat s2 k) l2.
  Proof.
    intros L H. apply inrb_spec in H. rewrite inrb_app in H by (rewrite repeat_length; lia).
    apply andb_true_iff in H. destruct H. split; apply inrb_spec; assumption.
  Qed.

  Lemma cons_full n k t : shape t = repeat (2 * no + 2 * nv)%nat (k + k) ->
    spin_conserving S no k t -> conserving no nv S (n, (repeat 6%N (k + k), t)).
  Proof.
    intros Hs Hc _. exists k. split; [apply repeat_length|]. intros l1 l2 L1 L2 HF Hne.
    rewrite rel_full by exact HF. apply Hc; [exact L1|exact L2| |exact Hne].
    rewrite Hs. pose proof (rel_inr range _ _ HF) as Hr. rewrite rel_full in Hr by exact HF.
    rewrite map_repeat in Hr. unfold dim, range in Hr. cbn [sp_range] in Hr. rewrite seq_length in Hr. exact Hr.
  Qed.
  Lemma cons_amp n k t : shape t = (repeat (2 * nv)%nat k ++ repeat (2 * no)%nat k)%list ->
    spin_conserving_amp S k t -> conserving no nv S (n, ((repeat 1%N k ++ repeat 0%N k)%list, t)).
  Proof.
    intros Hs Hc _. exists k. split; [rewrite app_length, !repeat_length; reflexivity|].
    intros l1 l2 L1 L2 HF Hne. pose proof (rel_inr range _ _ HF) as Hr.
    destruct (F2_split k _ _ _ _ L1 HF) as [F1 F2].
    change (sp_range no nv S) with range.
    rewrite rel_app in Hr |- * by (rewrite repeat_length; lia).
    destruct (rel_vir _ _ F1) as [E1 C1]. destruct (rel_occ _ _ F2) as [E2 C2]. rewrite E1, E2 in *.
    apply Hc; [rewrite map_length; exact L1|exact L2| |congruence].
    rewrite Hs. rewrite map_app, !map_repeat in Hr. unfold dim, range in Hr. cbn [sp_range] in Hr.
    rewrite !seq_length in Hr. exact Hr.
  Qed.
  Lemma cons_amp_ov n k t : shape t = (repeat (2 * no)%nat k ++ repeat (2 * nv)%nat k)%list ->
    spin_conserving_amp_ov S k t -> conserving no nv S (n, ((repeat 0%N k ++ repeat 1%N k)%list, t)).
  Proof.
    intros Hs Hc _. exists k. split; [rewrite app_length, !repeat_length; reflexivity|].
    intros l1 l2 L1 L2 HF Hne. pose proof (rel_inr range _ _ HF) as Hr.
    destruct (F2_split k _ _ _ _ L1 HF) as [F1 F2].
    change (sp_range no nv S) with range.
    rewrite rel_app in Hr |- * by (rewrite repeat_length; lia).
    destruct (rel_occ _ _ F1) as [E1 C1]. destruct (rel_vir _ _ F2) as [E2 C2]. rewrite E1, E2 in *.
    apply Hc; [exact L1|rewrite map_length; exact L2| |congruence].
    rewrite Hs. rewrite map_app, !map_repeat in Hr. unfold dim, range in Hr. cbn [sp_range] in Hr.
    rewrite !seq_length in Hr. exact Hr.
  Qed.
  Lemma cons_gen n sps t : (7 < n)%N -> conserving no nv S (n, (sps, t)).
  Proof. intros H Hn. exfalso. lia. Qed.
End Cons.
