(** Boolean checks evaluated by [vm_compute] and what they imply about the executed programs.
    Proof machinery; it models no particular source line. *)
From Coq Require Import String Ascii List Arith NArith ZArith QArith Qcanon Bool Lia Permutation.
From Verif Require Import Sums Tensor Interp Poly SymExec Canon Spec Setup Master Spin.
Import ListNotations.
Open Scope Qc_scope.

Definition getp (x : option sval) : poly := match x with Some (SP _ p) => p | _ => [] end.
Definition outsp (sps : list space) (x : option sval) : bool :=
  match x with Some (SP s _) => eqb_sps s sps | _ => false end.
Lemma outsp_ok sps x : outsp sps x = true -> x = Some (SP sps (getp x)).
Proof.
  destruct x as [[s p| | | | |]|]; cbn; try discriminate. intros H. apply eqb_sps_eq in H. subst. reflexivity.
Qed.

(** symbolic transposition and negation of a result *)
Definition strp (p : list nat) (x : option sval) : option sval :=
  match x with Some (SP s q) => stransp p (SP s q) | _ => None end.
Definition sneg (x : option sval) : option sval :=
  match x with Some (SP s q) => Some (SP s (pscale (-1 # 1) q)) | _ => None end.
Definition sadd (x y : option sval) : option sval :=
  match x, y with
  | Some (SP s p), Some (SP s' q) => if eqb_sps s s' then Some (SP s (p ++ q)%list) else None
  | _, _ => None
  end.

Definition chk (spl : space -> option (list space)) (kil : N -> list space -> bool)
    (h : hints) (sps : list space) (x y : option sval) : bool :=
  (outsp sps x && outsp sps y && good sps && peq sy spl kil h (xvs sps) (getp x) (getp y))%bool.
(** the check succeeds for some hints (which hints is irrelevant for soundness) *)
Definition okh (c : hints -> bool) : Prop := exists h, c h = true.
Definition so_chkb := chk nosplit nokill.
Definition sp_chkb := chk sp_split sp_bad.
Definition so_chk sps x y : Prop := okh (fun h => so_chkb h sps x y).
Definition sp_chk sps x y : Prop := okh (fun h => sp_chkb h sps x y).
Definition so_hints (x y : option sval) : hints := find_hints sy nosplit nokill (psub (getp x) (getp y)).
Definition sp_hints (x y : option sval) : hints := find_hints sy sp_split sp_bad (psub (getp x) (getp y)).

Section T.
  Variable range : space -> list nat.
  Variable A : N -> list nat -> Qc.
  Lemma strp_sound p sps q t x' sps' q' : strp p (Some (SP sps q)) = x' -> x' = Some (SP sps' q') ->
    tsim range A sps q t -> exists t', ttransp p t = Some t' /\ tsim range A sps' q' t'.
  Proof.
    intros E1 E2 Ht. subst x'. cbn [strp] in E2.
    destruct (stransp_sound range A (fun _ => (O, None)) (fun _ => O) (fun _ x => x) p sps q _ t E2 Ht)
      as [t' [H1 H2]]. exists t'. split; [exact H1|]. inversion H2; subst. assumption.
  Qed.
  Lemma sneg_sound sps q t : tsim range A sps q t -> tsim range A sps (pscale (-1 # 1) q) (tscale (-(1)) t).
  Proof.
    intros [Hs Hd]. split; [exact Hs|]. intros idx e Hi Hag. cbn [data tscale]. rewrite pscale_sound.
    rewrite (Hd idx e Hi Hag). f_equal.
  Qed.
End T.

(** reading the transposition used to compare occupied-first and virtual-first arrays *)
Definition flip (k : nat) : list nat := (seq k k ++ seq 0 k)%list.

Lemma inr_len idx sh : inr idx sh -> length idx = length sh.
Proof. apply Forall2_len. Qed.

Ltac dlist l H :=
  lazymatch type of H with
  | length l = S _ => let x := fresh "x" in let r := fresh "r" in
      destruct l as [|x r]; [discriminate H|]; cbn [length] in H; apply Nat.succ_inj in H; dlist r H
  | length l = O => destruct l as [|]; [clear H|discriminate H]
  | _ => idtac
  end.

Lemma flip_swapped k t t' R : (k <= 4)%nat -> ttransp (flip k) t = Some t' -> length (shape t) = (k + k)%nat ->
  teq R t' -> swapped k R t.
Proof.
  intros Hk HT HL [Hs Hd].
  assert (HX : shape t' = map (fun j => nth j (shape t) O) (flip k) /\
     forall idx, data t' idx = data t (map (fun i => nth (index_of i (flip k)) idx O) (seq 0 (length (flip k))))).
  { unfold ttransp in HT. destruct (_ && _)%bool; [|discriminate]. apply some_inj in HT. subst t'. split; reflexivity. }
  destruct HX as [HX1 HX2]. clear HT. unfold swapped. rewrite Hs. split.
  - rewrite HX1. revert HL. generalize (shape t) as sh. intros sh HL. clear -Hk HL.
    do 5 (try destruct k as [|k]); try lia; cbn [Nat.add] in HL; dlist sh HL; reflexivity.
  - intros l1 l2 L1 Hi. rewrite Hs in Hd. rewrite (Hd _ Hi), HX2. f_equal.
    assert (L2 : length l2 = k).
    { apply inr_len in Hi. rewrite HX1, map_length, app_length in Hi. unfold flip in Hi.
      rewrite app_length, !seq_length in Hi. lia. }
    clear -Hk L1 L2. do 5 (try destruct k as [|k]); try lia; dlist l1 L1; dlist l2 L2; reflexivity.
Qed.

(** reading antisymmetry off a transposition *)
Definition swp_at (n i : nat) : list nat := (seq 0 i ++ [S i; i] ++ seq (2 + i) (n - i - 2))%list.
Lemma swp_antisym n i t t' : (n <= 8)%nat -> (S i < n)%nat -> length (shape t) = n -> ttransp (swp_at n i) t = Some t' ->
  teq t (tscale (-(1)) t') -> antisymmetric_in t i.
Proof.
  intros Hn Hi HL HT [Hs Hd].
  assert (HX : forall idx, data t' idx = data t (map (fun j => nth (index_of j (swp_at n i)) idx O) (seq 0 (length (swp_at n i))))).
  { unfold ttransp in HT. destruct (_ && _)%bool; [|discriminate]. apply some_inj in HT. subst t'. reflexivity. }
  intros pre x y post LP H1 H2. rewrite (Hd _ H1). cbn [tscale data]. rewrite HX.
  replace (map (fun j => nth (index_of j (swp_at n i)) (pre ++ x :: y :: post) O) (seq 0 (length (swp_at n i))))
    with (pre ++ y :: x :: post)%list; [ring|].
  apply inr_len in H1. rewrite HL, app_length in H1. cbn [length] in H1.
  assert (L2 : length post = (n - i - 2)%nat) by lia.
  clear -Hn Hi LP L2. 
  do 9 (try destruct n as [|n]); try lia; do 8 (try destruct i as [|i]); try lia;
    cbn in L2; dlist pre LP; dlist post L2; reflexivity.
Qed.

Section SOC.
  Variables no nv : nat.
  Variable atoms : atomtab.
  Hypothesis Hat : Forall (atom_ok (so_range no nv) sy) atoms.
  Notation vs := (so_vsim no nv atoms).

  Theorem so_compare d1 l1 f1 a1 v1 d2 l2 f2 a2 v2 sps : Forall2 vs a1 v1 -> Forall2 vs a2 v2 ->
    so_chk sps (srun so_slm d1 l1 f1 a1) (srun so_slm d2 l2 f2 a2) ->
    exists R1 R2, returns d1 l1 f1 v1 R1 /\ returns d2 l2 f2 v2 R2 /\
      shape R1 = map (dim (so_range no nv)) sps /\ teq R1 R2.
  Proof.
    intros H1 H2 [h Hc]. unfold so_chkb, chk in Hc. rewrite !andb_true_iff in Hc. destruct Hc as [[[O1 O2] Hg] Hp].
    apply outsp_ok in O1, O2.
    destruct (so_run _ _ _ _ _ _ _ _ _ _ H1 O1) as [R1 [A1 T1]].
    destruct (so_run _ _ _ _ _ _ _ _ _ _ H2 O2) as [R2 [A2 T2]].
    exists R1, R2. repeat split; try assumption.
    - apply T1.
    - apply (so_peq no nv atoms Hat _ _ _ _ _ _ Hg Hp T1 T2).
    - apply (so_peq no nv atoms Hat _ _ _ _ _ _ Hg Hp T1 T2).
  Qed.

  (** the second program returns the occupied-first layout *)
  Definition flipchk (k : nat) (sps sps2 : list space) (x y : option sval) : Prop :=
    okh (fun h => outsp sps2 y && so_chkb h sps x (strp (flip k) y))%bool.
  Theorem so_compare_flip k d1 l1 f1 a1 v1 d2 l2 f2 a2 v2 sps sps2 R1 : (k <= 4)%nat -> length sps2 = (k + k)%nat ->
    returns d1 l1 f1 v1 R1 ->
    Forall2 vs a1 v1 -> Forall2 vs a2 v2 ->
    flipchk k sps sps2 (srun so_slm d1 l1 f1 a1) (srun so_slm d2 l2 f2 a2) ->
    exists R2, returns d2 l2 f2 v2 R2 /\
      shape R1 = map (dim (so_range no nv)) sps /\ swapped k R1 R2.
  Proof.
    intros Hk HL HR1 H1 H2 [h HC]. unfold so_chkb, chk in HC. rewrite !andb_true_iff in HC. destruct HC as [O2 [[[O1 O2'] Hg] Hp]].
    apply outsp_ok in O1, O2, O2'.
    destruct (so_run _ _ _ _ _ _ _ _ _ _ H1 O1) as [R1' [A1 T1]].
    destruct (so_run _ _ _ _ _ _ _ _ _ _ H2 O2) as [R2 [A2 T2]].
    assert (R1' = R1) as -> by (unfold returns in *; congruence).
    rewrite O2 in O2'. cbn [getp] in O2'.
    destruct (strp_sound _ _ _ _ _ _ _ _ _ eq_refl O2' T2) as [R2' [HT T2']].
    exists R2. split; [exact A2|]. split; [apply T1|].
    rewrite O2 in Hp. cbn [getp] in Hp.
    eapply flip_swapped; [exact Hk|exact HT| |eapply (so_peq no nv atoms Hat); [exact Hg|exact Hp|exact T1|exact T2']].
    destruct T2 as [-> _]. rewrite map_length. exact HL.
  Qed.

  (** a result is antisymmetric *)
  Definition antis (sps : list space) (i : nat) (x : option sval) : Prop :=
    so_chk sps x (sneg (strp (swp_at (length sps) i) x)).
  Theorem so_antis d l f a v sps is R : Forall2 vs a v -> (length sps <= 8)%nat ->
    returns d l f v R ->
    Forall (fun i => (S i < length sps)%nat /\ antis sps i (srun so_slm d l f a)) is ->
    forall i, In i is -> antisymmetric_in R i.
  Proof.
    intros H1 HL HR HC i Hi. rewrite Forall_forall in HC. specialize (HC i Hi).
    destruct HC as [Hlt [h HC]]. unfold so_chkb, chk in HC. rewrite !andb_true_iff in HC. destruct HC as [[[O1 O2] Hg] Hp].
    apply outsp_ok in O1.
    destruct (so_run _ _ _ _ _ _ _ _ _ _ H1 O1) as [R' [A1 T1]].
    assert (R' = R) as -> by (unfold returns in *; congruence). clear HR.
    set (x := srun so_slm d l f a) in *. set (y := strp (swp_at (length sps) i) x) in *.
    destruct y as [[s q| | | | |]|] eqn:Ey; cbn [sneg outsp] in O2; try discriminate.
    apply eqb_sps_eq in O2. subst s.
    unfold y in Ey. rewrite O1 in Ey.
    destruct (strp_sound _ _ _ _ _ _ _ _ _ eq_refl Ey T1) as [R2 [HT T2]].
    pose proof (sneg_sound _ _ _ _ _ T2) as T3. cbn [sneg getp] in Hp.
    eapply (swp_antisym (length sps)); [exact HL|exact Hlt| |exact HT|].
    - destruct T1 as [-> _]. apply map_length.
    - eapply (so_peq no nv atoms Hat); [exact Hg|exact Hp|exact T1|exact T3].
  Qed.
End SOC.

Section SPC.
  Variables no nv : nat.
  Variable S : spinmap.
  Hypothesis HS : spin_ok no nv S.
  Variable atoms : atomtab.
  Hypothesis Hat : Forall (atom_ok (sp_range no nv S) sy) atoms.
  Hypothesis Hcons : Forall (conserving no nv S) atoms.
  Notation vs := (sp_vsim no nv S atoms).

  Theorem sp_compare d1 l1 f1 a1 v1 d2 l2 f2 a2 v2 sps : Forall2 vs a1 v1 -> Forall2 vs a2 v2 ->
    sp_chk sps (srun sp_slm d1 l1 f1 a1) (srun sp_slm d2 l2 f2 a2) ->
    exists R1 R2, returns d1 l1 f1 v1 R1 /\ returns d2 l2 f2 v2 R2 /\
      shape R1 = map (dim (sp_range no nv S)) sps /\ teq R1 R2.
  Proof.
    intros H1 H2 [h Hc]. unfold sp_chkb, chk in Hc. rewrite !andb_true_iff in Hc. destruct Hc as [[[O1 O2] Hg] Hp].
    apply outsp_ok in O1, O2.
    destruct (sp_run _ _ _ HS _ _ _ _ _ _ _ _ H1 O1) as [R1 [A1 T1]].
    destruct (sp_run _ _ _ HS _ _ _ _ _ _ _ _ H2 O2) as [R2 [A2 T2]].
    assert (E : teq R1 R2) by exact (sp_peq no nv S HS atoms Hcons Hat _ _ _ _ _ _ Hg Hp T1 T2).
    exists R1, R2. repeat split; try assumption; try apply E. apply T1.
  Qed.

  (** the second program returns a spin block of the (virtual-first) array returned by the first *)
  Definition blkchk (ss : list spin) (x y : option sval) : Prop :=
    okh (fun h => outsp (repeat 1%N (length ss) ++ repeat 0%N (length ss)) x && sp_chkb h (bsp ss) y (retype (bsp ss) x))%bool.
  Theorem sp_compare_block ss d1 l1 f1 a1 v1 d2 l2 f2 a2 v2 R : Forall2 vs a1 v1 -> Forall2 vs a2 v2 ->
    returns d1 l1 f1 v1 R ->
    blkchk ss (srun sp_slm d1 l1 f1 a1) (srun sp_slm d2 l2 f2 a2) ->
    exists B, returns d2 l2 f2 v2 B /\ block_amp S no nv ss R B.
  Proof.
    intros H1 H2 HR [h Hc]. unfold sp_chkb, chk in Hc. rewrite !andb_true_iff in Hc.
    destruct Hc as [O1 [[[O2 O3] Hg] Hp]]. apply outsp_ok in O1, O2, O3.
    destruct (sp_run _ _ _ HS _ _ _ _ _ _ _ _ H1 O1) as [R' [A1 T1]].
    destruct (sp_run _ _ _ HS _ _ _ _ _ _ _ _ H2 O2) as [B [A2 T2]].
    assert (R' = R) as -> by (unfold returns in *; congruence).
    exists B. split; [exact A2|].
    eapply (sp_block_result no nv S HS atoms Hcons Hat);
      [exact Hg| |exact Hp|exact T1|exact T2].
    rewrite <- O3. f_equal. symmetry. exact O1.
  Qed.
End SPC.

(** Solve a check: find hints with the virtual machine, then evaluate the check with them. *)
Ltac with_hints h := exists h; vm_cast_no_check (@eq_refl bool true).
Ltac chk_ :=
  lazymatch goal with
  | |- so_chk _ ?x ?y => let h := eval vm_compute in (so_hints x y) in with_hints h
  | |- sp_chk _ ?x ?y => let h := eval vm_compute in (sp_hints x y) in with_hints h
  | |- antis ?sps ?i ?x => let h := eval vm_compute in (so_hints x (sneg (strp (swp_at (length sps) i) x))) in with_hints h
  | |- flipchk ?k _ _ ?x ?y => let h := eval vm_compute in (so_hints x (strp (flip k) y)) in with_hints h
  | |- blkchk ?ss ?x ?y => let h := eval vm_compute in (sp_hints y (retype (bsp ss) x)) in with_hints h
  | |- Forall _ [] => apply Forall_nil
  | |- Forall _ _ => apply Forall_cons; [split; [cbn; lia|chk_]|chk_]
  | |- _ = true => vm_cast_no_check (@eq_refl bool true)
  end.
