(** From arrays to symbolic atoms: the environment in which the symbolic executor runs, and the
    lemmas that discharge its hypotheses from the plain predicates of [Spec].
    Proof machinery; it models no particular source line. *)
From Coq Require Import String Ascii List Arith NArith ZArith QArith Qcanon Bool Lia Permutation.
From Verif Require Import Sums Tensor Interp Poly SymExec Canon Spec.
Import ListNotations.
Open Scope Qc_scope.

Definition atomtab := list (N * (list space * tensor)).
Fixpoint nlook {X} (n : N) (m : list (N * X)) : option X :=
  match m with [] => None | (k, x) :: r => if N.eqb n k then Some x else nlook n r end.

Section Ctx.
  Variable range : space -> list nat.
  Variable atoms : atomtab.
  Hypothesis range_nodup : forall s, NoDup (range s).

  Definition inrb (sps : list space) (l : list nat) : bool :=
    (Nat.eqb (length sps) (length l) &&
     forallb (fun p => existsb (Nat.eqb (snd p)) (range (fst p))) (combine sps l))%bool.
  Definition rel (sps : list space) (l : list nat) : list nat :=
    zipw (fun s x => index_of x (range s)) sps l.
  Definition Aof (n : N) (l : list nat) : Qc :=
    match nlook n atoms with
    | Some (sps, t) => if inrb sps l then data t (rel sps l) else 0
    | None => 0
    end.

  Notation dim := (dim range).
  Notation orbs := (orbs range).

  Lemma inrb_spec sps l : inrb sps l = true <-> Forall2 (fun s x => In x (range s)) sps l.
  Proof.
    unfold inrb. rewrite andb_true_iff. split.
    - intros [HL HF]. apply Nat.eqb_eq in HL. revert l HL HF.
      induction sps as [|s r IH]; intros [|x l] HL HF; try discriminate; constructor.
      + cbn in HF. apply andb_true_iff in HF. destruct HF as [H _].
        apply existsb_exists in H. destruct H as [y [Hy E]]. apply Nat.eqb_eq in E. subst; exact Hy.
      + apply IH; [cbn in HL; lia|]. cbn in HF. apply andb_true_iff in HF. tauto.
    - intros H. split.
      + apply Nat.eqb_eq. eapply Forall2_len; exact H.
      + induction H as [|s x r l Hx H IH]; cbn; [reflexivity|]. rewrite IH, andb_true_r.
        apply existsb_exists. exists x. split; [exact Hx|apply Nat.eqb_refl].
  Qed.

  Lemma index_of_nth i l d : NoDup l -> (i < length l)%nat -> index_of (nth i l d) l = i.
  Proof.
    revert i; induction l as [|x l IH]; intros i ND Hi; cbn in *; [lia|].
    inversion ND as [|? ? Hn ND']; subst. destruct i as [|i].
    - rewrite Nat.eqb_refl. reflexivity.
    - destruct (Nat.eqb_spec (nth i l d) x) as [E|E].
      + exfalso. apply Hn. rewrite <- E. apply nth_In. lia.
      + f_equal. apply IH; [exact ND'|lia].
  Qed.

  Lemma orbs_in sps idx : inr idx (map dim sps) -> Forall2 (fun s x => In x (range s)) sps (orbs sps idx).
  Proof.
    unfold inr, SymExec.orbs. revert idx; induction sps as [|s r IH]; intros idx H;
      inversion H; subst; [constructor|].
    rewrite zipw_cons. constructor; [apply nth_In; assumption|]. apply IH; assumption.
  Qed.
  Lemma rel_orbs sps idx : inr idx (map dim sps) -> rel sps (orbs sps idx) = idx.
  Proof.
    unfold inr, rel, SymExec.orbs. revert idx; induction sps as [|s r IH]; intros idx H;
      inversion H; subst; [reflexivity|].
    rewrite !zipw_cons. f_equal; [apply index_of_nth; [apply range_nodup|assumption]|].
    apply IH; assumption.
  Qed.
  Lemma rel_inr sps l : Forall2 (fun s x => In x (range s)) sps l -> inr (rel sps l) (map dim sps).
  Proof.
    unfold inr, rel. induction 1 as [|s x sps l Hx H IH]; [constructor|].
    rewrite zipw_cons. cbn [map]. constructor; [apply index_of_lt; exact Hx|exact IH].
  Qed.

  Lemma Aof_orbs n sps t idx : nlook n atoms = Some (sps, t) -> inr idx (map dim sps) ->
    Aof n (orbs sps idx) = data t idx.
  Proof.
    intros H Hi. unfold Aof. rewrite H.
    rewrite (proj2 (inrb_spec _ _)) by (apply orbs_in; exact Hi). rewrite rel_orbs by exact Hi. reflexivity.
  Qed.

  (** A stored array seen as a symbolic atom. *)
  Lemma tsim_atom n sps t : nlook n atoms = Some (sps, t) -> shape t = map dim sps ->
    tsim range Aof sps [T 1 [] [(n, xvs sps)]] t.
  Proof.
    intros H Hsh. split; [exact Hsh|]. intros idx e Hi Hag. rewrite Hsh in Hi.
    unfold evalP, evalT; cbn [suml tc td tf sumD evalFs]. unfold evalF; cbn [fst snd].
    unfold eagree in Hag. rewrite Hag, (Aof_orbs _ _ _ _ H Hi). ring.
  Qed.
  (** A zero array. *)
  Lemma tsim_zero sps t : shape t = map dim sps -> zero_tensor t -> tsim range Aof sps [] t.
  Proof. intros Hsh H. split; [exact Hsh|]. intros idx e Hi _. rewrite H by exact Hi. reflexivity. Qed.

  (** Symmetry of an atom from symmetry of the stored array. *)
  Fixpoint uniform (bl : list nat) (sps : list space) : bool :=
    match bl with
    | [] => match sps with [] => true | _ => false end
    | b :: r => match firstn b sps with
                | [] => false
                | s :: l => (Nat.eqb (length (s :: l)) b && forallb (N.eqb s) l)%bool
                end && uniform r (skipn b sps)
    end.
  Fixpoint tblocks (an : bool) (t : tensor) (pos : nat) (bl : list nat) : Prop :=
    match bl with
    | [] => True
    | b :: r => (forall i, (pos <= i)%nat -> (S i < pos + b)%nat ->
                   if an then antisymmetric_in t i else symmetric_in t i)
                /\ tblocks an t (pos + b) r
    end.

  Lemma rel_app s1 s2 l1 l2 : length s1 = length l1 ->
    rel (s1 ++ s2) (l1 ++ l2) = (rel s1 l1 ++ rel s2 l2)%list.
  Proof.
    unfold rel. revert l1; induction s1 as [|s r IH]; intros [|x l1] H; try discriminate; [reflexivity|].
    cbn [app]. rewrite !zipw_cons. cbn [app]. f_equal. apply IH. cbn in H; lia.
  Qed.
  Lemma inrb_app s1 s2 l1 l2 : length s1 = length l1 ->
    inrb (s1 ++ s2) (l1 ++ l2) = (inrb s1 l1 && inrb s2 l2)%bool.
  Proof.
    intros HL. apply eq_iff_eq_true. rewrite andb_true_iff, !inrb_spec. split.
    - intros H. apply Forall2_app_inv_l in H. destruct H as [a [b [H1 [H2 E]]]].
      assert (La : length a = length l1) by (rewrite <- HL; symmetry; eapply Forall2_len; exact H1).
      assert (a = l1 /\ b = l2) as [-> ->].
      { clear -E La. revert l1 E La. induction a as [|x a IH]; intros [|y l1] E La; try discriminate.
        - split; [reflexivity|]. symmetry; exact E.
        - cbn in E. injection E as -> E. cbn in La. destruct (IH l1 E ltac:(lia)). subst. auto. }
      split; assumption.
    - intros [H1 H2]. apply Forall2_app; assumption.
  Qed.

  Section Atom.
    Variable n : N.
    Variable sps : list space.
    Variable t : tensor.
    Hypothesis Hlook : nlook n atoms = Some (sps, t).
    Hypothesis Hsh : shape t = map dim sps.

    Lemma A_swap (an : bool) i (s : space) :
      nth_error sps i = Some s -> nth_error sps (S i) = Some s ->
      (if an then antisymmetric_in t i else symmetric_in t i) ->
      forall pre x y post, length pre = i ->
        Aof n (pre ++ x :: y :: post) = sg an * Aof n (pre ++ y :: x :: post).
    Proof.
      intros N1 N2 Ht pre x y post HL. unfold Aof. rewrite Hlook.
      destruct (nth_error_split _ _ N1) as [s1 [s2 [Es L1]]].
      assert (s2 <> [] /\ hd 0%N s2 = s) as [Hne Hhd].
      { rewrite Es in N2. rewrite nth_error_app2 in N2 by lia. rewrite L1 in N2.
        replace (S i - i)%nat with 1%nat in N2 by lia. cbn in N2. destruct s2 as [|z s2]; [discriminate|].
        apply some_inj in N2. subst. split; [discriminate|reflexivity]. }
      destruct s2 as [|z s2]; [congruence|]. cbn in Hhd. subst z.
      assert (LP : length s1 = length pre) by lia.
      rewrite Es, !inrb_app by exact LP.
      assert (Esw : inrb (s :: s :: s2) (x :: y :: post) = inrb (s :: s :: s2) (y :: x :: post)).
      { unfold inrb. cbn [combine forallb length fst snd].
        rewrite !andb_assoc. f_equal. rewrite <- !andb_assoc. f_equal. apply andb_comm. }
      rewrite Esw. destruct (inrb s1 pre) eqn:E1; cbn [andb]; [|ring].
      destruct (inrb (s :: s :: s2) (y :: x :: post)) eqn:E2; [|ring].
      rewrite !rel_app by exact LP.
      assert (R1 : inr (rel s1 pre ++ rel (s :: s :: s2) (x :: y :: post)) (shape t)).
      { rewrite Hsh, Es, <- rel_app by exact LP. apply rel_inr, inrb_spec. rewrite inrb_app, E1, Esw by exact LP.
        reflexivity. }
      assert (R2 : inr (rel s1 pre ++ rel (s :: s :: s2) (y :: x :: post)) (shape t)).
      { rewrite Hsh, Es, <- rel_app by exact LP. apply rel_inr, inrb_spec. rewrite inrb_app, E1, E2 by exact LP.
        reflexivity. }
      unfold rel at 2 4. unfold rel at 2 in R1. unfold rel at 2 in R2.
      rewrite !zipw_cons in *.
      assert (L2 : length (rel s1 pre) = i).
      { unfold rel, zipw. rewrite map_length, combine_length. lia. }
      destruct an; cbn [sg].
      - rewrite (Ht _ _ _ _ L2 R1 R2). ring.
      - rewrite (Ht _ _ _ _ L2 R1 R2). ring.
    Qed.

    Lemma uniform_nth bl : forall sps0 i pos, uniform bl sps0 = true ->
      (exists b bl1 bl2, bl = (bl1 ++ b :: bl2)%list /\
         (pos + fold_right Nat.add O bl1 <= i)%nat /\ (S i < pos + fold_right Nat.add O bl1 + b)%nat) ->
      exists s, nth_error sps0 (i - pos) = Some s /\ nth_error sps0 (S i - pos) = Some s.
    Proof.
      induction bl as [|b0 bl IH]; intros sps0 i pos HU [b [bl1 [bl2 [E [H1 H2]]]]].
      - destruct bl1; discriminate.
      - cbn [uniform] in HU. apply andb_true_iff in HU. destruct HU as [HU1 HU2].
        destruct bl1 as [|b1 bl1]; cbn in E; injection E as -> E.
        + cbn in H1, H2. destruct (firstn b sps0) as [|s l] eqn:Ef; [discriminate|].
          apply andb_true_iff in HU1. destruct HU1 as [HL HA]. apply Nat.eqb_eq in HL.
          rewrite forallb_forall in HA.
          assert (HAll : forall k, (k < b)%nat -> nth_error sps0 k = Some s).
          { intros k Hk. rewrite <- (firstn_skipn b sps0), Ef.
            rewrite nth_error_app1 by lia.
            destruct k as [|k]; [reflexivity|]. cbn [nth_error].
            destruct (nth_error l k) as [z|] eqn:Ez.
            - apply nth_error_In in Ez. apply HA in Ez. apply N.eqb_eq in Ez. congruence.
            - apply nth_error_None in Ez. cbn in HL. lia. }
          exists s. split; apply HAll; lia.
        + cbn in H1, H2.
          destruct (IH (skipn b1 sps0) i (pos + b1)%nat HU2) as [s [S1 S2]].
          { exists b, bl1, bl2. split; [exact E|]. lia. }
          assert (SK : forall k, nth_error (skipn b1 sps0) k = nth_error sps0 (b1 + k)).
          { clear. revert sps0. induction b1 as [|b1 IH]; intros [|s sps0] k; cbn; try reflexivity.
            - destruct k; reflexivity.
            - apply IH. }
          rewrite SK in S1, S2. exists s.
          replace (i - pos)%nat with (b1 + (i - (pos + b1)))%nat by lia.
          replace (S i - pos)%nat with (b1 + (S i - (pos + b1)))%nat by lia.
          split; assumption.
    Qed.

    Variable sym : N -> symd.
    Hypothesis Huni : uniform (blk (sym n)) sps = true.

    Lemma atom_blocks : tblocks (anti (sym n)) t 0 (blk (sym n)) -> blocks_ok sym Aof n 0 (blk (sym n)).
    Proof.
      intros HT.
      assert (G : forall bl bl0, blk (sym n) = (bl0 ++ bl)%list ->
        tblocks (anti (sym n)) t (fold_right Nat.add O bl0) bl ->
        blocks_ok sym Aof n (fold_right Nat.add O bl0) bl).
      { induction bl as [|b bl IH]; intros bl0 E H; cbn [blocks_ok tblocks] in *; [exact I|].
        destruct H as [H1 H2]. split.
        - intros i Hi1 Hi2 pre x y post HL.
          destruct (uniform_nth _ _ i 0 Huni) as [s [S1 S2]].
          { exists b, bl0, bl. split; [exact E|]. lia. }
          rewrite Nat.sub_0_r in S1, S2. eapply A_swap; [exact S1|exact S2| |exact HL].
          apply H1; assumption.
        - replace (fold_right Nat.add 0 bl0 + b)%nat with (fold_right Nat.add O (bl0 ++ [b]))%nat.
          2:{ rewrite fold_right_app. cbn. clear. induction bl0 as [|c bl0 IH]; cbn; lia. }
          apply IH; [rewrite E, <- app_assoc; reflexivity|].
          replace (fold_right Nat.add 0 (bl0 ++ [b]))%nat with (fold_right Nat.add O bl0 + b)%nat; [exact H2|].
          rewrite fold_right_app. cbn. clear. induction bl0 as [|c bl0 IH]; cbn; lia. }
      apply (G (blk (sym n)) []); [reflexivity|exact HT].
    Qed.

    Lemma atom_len : length sps = fold_right Nat.add O (blk (sym n)) -> len_ok sym Aof n.
    Proof.
      intros HL l Hl. unfold Aof. rewrite Hlook. destruct (inrb sps l) eqn:E; [|reflexivity].
      exfalso. apply Hl. rewrite <- HL. apply inrb_spec in E. symmetry. eapply Forall2_len; exact E.
    Qed.

    Lemma atom_herm b : herm (sym n) = true -> blk (sym n) = [b; b] -> firstn b sps = skipn b sps ->
      hermitian b t -> herm_ok sym Aof n.
    Proof.
      intros Hh Hb Hs Ht _. rewrite Hb. split; [reflexivity|]. intros l1 l2 L1 L2.
      unfold Aof. rewrite Hlook. pose proof Huni as HU. rewrite Hb in HU. cbn [uniform] in HU.
      rewrite !andb_true_iff in HU. destruct HU as [HU1 [HU2 HU3]].
      assert (LF : length (firstn b sps) = b).
      { destruct (firstn b sps) as [|z l]; [discriminate|]. apply andb_true_iff in HU1.
        destruct HU1 as [HU1 _]. apply Nat.eqb_eq in HU1. exact HU1. }
      set (h := firstn b sps) in *.
      assert (Es : sps = (h ++ h)%list).
      { rewrite <- (firstn_skipn b sps). rewrite <- Hs. reflexivity. }
      rewrite Es, !inrb_app by lia. rewrite (andb_comm (inrb h l2)).
      destruct (inrb h l1 && inrb h l2)%bool eqn:E; [|reflexivity].
      rewrite !rel_app by lia.
      assert (LR : forall l, length l = b -> length (rel h l) = b).
      { intros l Hl. unfold rel, zipw. rewrite map_length, combine_length. lia. }
      apply Ht; [apply LR, L1|apply LR, L2|].
      rewrite Hsh, Es, <- rel_app by lia. apply rel_inr, inrb_spec. rewrite inrb_app by lia. exact E.
    Qed.
  End Atom.

  Lemma noatom_blocks sym n : nlook n atoms = None -> blocks_ok sym Aof n 0 (blk (sym n)).
  Proof.
    intros H. generalize 0%nat. induction (blk (sym n)) as [|b bl IH]; intros pos; cbn; [exact I|].
    split; [|apply IH]. intros i _ _ pre x y post _. unfold Aof. rewrite H. ring.
  Qed.

  (** What has to be known about every stored atom. *)
  Definition atom_ok (sym : N -> symd) (a : N * (list space * tensor)) : Prop :=
    let '(n, (sps, t)) := a in
    shape t = map dim sps /\
    (blk (sym n) = [] \/
     (uniform (blk (sym n)) sps = true /\
      length sps = fold_right Nat.add O (blk (sym n)) /\
      tblocks (anti (sym n)) t 0 (blk (sym n)))) /\
    (herm (sym n) = true ->
       exists b, blk (sym n) = [b; b] /\ firstn b sps = skipn b sps /\ hermitian b t).

  Variable sym : N -> symd.
  Hypothesis Hsym0 : forall n, nlook n atoms = None -> herm (sym n) = true ->
     exists b, blk (sym n) = [b; b].
  Hypothesis Hatoms : Forall (atom_ok sym) atoms.

  Lemma nlook_In {X} n (m : list (N * X)) x : nlook n m = Some x -> In (n, x) m.
  Proof.
    induction m as [|[k y] r IH]; cbn; [discriminate|].
    destruct (N.eqb_spec n k) as [E|E]; [intros H; apply some_inj in H; subst; left; reflexivity|].
    intros H; right; apply IH, H.
  Qed.

  Lemma ctx_blk : forall n, blocks_ok sym Aof n 0 (blk (sym n)).
  Proof.
    intros n. destruct (nlook n atoms) as [[sps t]|] eqn:E; [|apply noatom_blocks; exact E].
    pose proof (nlook_In _ _ _ E) as HIn. rewrite Forall_forall in Hatoms.
    destruct (Hatoms _ HIn) as [H1 [H2 H3]]. destruct H2 as [H2|[H2 [H4 H5]]].
    - rewrite H2. exact I.
    - eapply atom_blocks; eassumption.
  Qed.
  Lemma ctx_len : forall n, herm (sym n) = true -> len_ok sym Aof n.
  Proof.
    intros n Hh. destruct (nlook n atoms) as [[sps t]|] eqn:E.
    - pose proof (nlook_In _ _ _ E) as HIn. rewrite Forall_forall in Hatoms.
      destruct (Hatoms _ HIn) as [H1 [H2 H3]]. destruct (H3 Hh) as [b [Hb _]].
      destruct H2 as [H2|[H2 [H4 H5]]]; [congruence|]. eapply atom_len; eassumption.
    - intros l _. unfold Aof. rewrite E. reflexivity.
  Qed.
  Lemma ctx_herm : forall n, herm_ok sym Aof n.
  Proof.
    intros n Hh. destruct (nlook n atoms) as [[sps t]|] eqn:E.
    - pose proof (nlook_In _ _ _ E) as HIn. rewrite Forall_forall in Hatoms.
      destruct (Hatoms _ HIn) as [H1 [H2 H3]]. destruct (H3 Hh) as [b [Hb [Hs Ht]]].
      destruct H2 as [H2|[H2 [H4 H5]]]; [congruence|].
      exact (atom_herm n sps t E H1 sym H2 b Hh Hb Hs Ht Hh).
    - destruct (Hsym0 n E Hh) as [b Hb]. rewrite Hb. split; [reflexivity|]. intros l1 l2 _ _.
      unfold Aof. rewrite E. reflexivity.
  Qed.
End Ctx.

Lemma inr_in range sps idx e : inr idx (map (dim range) sps) -> eagree range sps idx e ->
  forall v, In v (xvs sps) -> forallb (fun i => N.eqb (spc (mkv (nth i sps 0%N) (N.of_nat i))) (nth i sps 0%N))
      (seq 0 (length sps)) = true -> In (e v) (range (spc v)).
Proof.
  unfold inr, eagree, orbs, xvs. intros Hi Hag v Hv Hs.
  assert (G : forall sps idx k, Forall2 lt idx (map (dim range) sps) ->
     map e (xvs_from (N.of_nat k) sps) = zipw (fun s x => nth x (range s) 0%nat) sps idx ->
     forallb (fun i => N.eqb (spc (mkv (nth i sps 0%N) (N.of_nat (k + i)))) (nth i sps 0%N))
        (seq 0 (length sps)) = true ->
     In v (xvs_from (N.of_nat k) sps) -> In (e v) (range (spc v))).
  { clear. induction sps as [|s r IH]; intros idx k Hi Hm Hs Hv; [destruct Hv|].
    inversion Hi as [|x n idx' sh Hx Hi']; subst. cbn [xvs_from map] in Hm. rewrite zipw_cons in Hm.
    injection Hm as Hm1 Hm2. cbn [length seq forallb nth] in Hs. apply andb_true_iff in Hs.
    destruct Hs as [Hs1 Hs2]. apply N.eqb_eq in Hs1. rewrite Nat.add_0_r in Hs1.
    cbn [xvs_from] in Hv. destruct Hv as [Hv|Hv].
    - subst v. rewrite Hs1, Hm1. apply nth_In. exact Hx.
    - replace (N.of_nat k + 1)%N with (N.of_nat (S k)) in * by lia.
      apply (IH idx' (S k)); try assumption.
      rewrite forallb_forall in *. intros i Hin. specialize (Hs2 (S i)).
      cbn [nth] in Hs2. rewrite <- Nat.add_succ_comm in Hs2. apply Hs2.
      apply in_seq. apply in_seq in Hin. lia. }
  apply (G sps idx 0%nat); try assumption.
Qed.

Definition xs_ok (sps : list space) : bool :=
  forallb (fun i => N.eqb (spc (mkv (nth i sps 0%N) (N.of_nat i))) (nth i sps 0%N)) (seq 0 (length sps)).
