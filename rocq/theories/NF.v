(** Executing a program once and keeping only the normal form of its result.
    Proof machinery; it models no particular source line. *)
From Coq Require Import String Ascii List Arith NArith ZArith QArith Qcanon Bool Lia Permutation.
From Verif Require Import Sums Tensor Interp Poly SymExec Canon Spec Setup Master Spin Check Tabs.
Import ListNotations.
Open Scope Qc_scope.

Definition nfo (spl : space -> option (list space)) (kil : N -> list space -> bool)
    (h : hints) (sps : list space) (x : option sval) : option poly :=
  if (outsp sps x && good sps && forallb (closed_term (xvs sps)) (getp x))%bool
  then Some (norm sy spl kil h (getp x)) else None.
Definition nfp (o : option poly) : poly := match o with Some p => p | None => [] end.

Lemma tsim_norm range A spl kil h sps p R :
  (forall e, (forall t, In t p -> wt range e t) -> evalP range A e (norm sy spl kil h p) = evalP range A e p) ->
  good sps = true -> forallb (closed_term (xvs sps)) p = true ->
  tsim range A sps p R -> tsim range A sps (norm sy spl kil h p) R.
Proof.
  intros HN Hg HC [HS HD]. split; [exact HS|]. intros idx e Hi Ha. rewrite HN; [apply HD; assumption|].
  apply (closed_wt range (xvs sps)); [exact HC|]. intros v Hv.
  unfold good in Hg. apply andb_true_iff in Hg. destruct Hg as [_ HX]. rewrite HS in Hi.
  eapply inr_in; [exact Hi|exact Ha|exact Hv|exact HX].
Qed.

Section SO.
  Variables no nv : nat.
  Variable atoms : atomtab.
  Hypothesis Hat : Forall (atom_ok (so_range no nv) sy) atoms.
  Notation vs := (so_vsim no nv atoms).
  Lemma so_norm_ok h e p : (forall t, In t p -> wt (so_range no nv) e t) ->
    evalP (so_range no nv) (Aof (so_range no nv) atoms) e (norm sy nosplit nokill h p) =
    evalP (so_range no nv) (Aof (so_range no nv) atoms) e p.
  Proof.
    apply norm_sound.
    - apply ctx_blk; exact Hat.
    - apply ctx_herm; [apply sy_herm|exact Hat].
    - apply ctx_len; exact Hat.
    - discriminate.
    - discriminate.
  Qed.
  (** a program returns an array with the given normal form *)
  Theorem so_nform d l f a v sps nf : Forall2 vs a v ->
    (exists h, nfo nosplit nokill h sps (srun so_slm d l f a) = Some nf) ->
    exists R, returns d l f v R /\ vs (SP sps nf) (VT R).
  Proof.
    intros H1 [h Hn]. unfold nfo in Hn.
    destruct (outsp sps _ && good sps && forallb _ _)%bool eqn:E; [|discriminate].
    rewrite !andb_true_iff in E. destruct E as [[O1 Hg] HC]. apply outsp_ok in O1. apply some_inj in Hn. subst nf.
    destruct (so_run _ _ _ _ _ _ _ _ _ _ H1 O1) as [R [A1 T1]]. exists R. split; [exact A1|].
    constructor. apply tsim_norm; try assumption. intros e. apply so_norm_ok.
  Qed.
  Theorem so_vs_eq sps p q R1 R2 : vs (SP sps p) (VT R1) -> vs (SP sps q) (VT R2) ->
    so_chk sps (Some (SP sps p)) (Some (SP sps q)) -> teq R1 R2.
  Proof.
    intros V1 V2 [h HC]. unfold so_chkb, chk in HC. rewrite !andb_true_iff in HC. destruct HC as [[_ Hg] Hp].
    inversion V1; subst. inversion V2; subst. cbn [getp] in Hp. eapply (so_peq no nv atoms Hat); eassumption.
  Qed.
  Lemma so_vs_shape sps p R : vs (SP sps p) (VT R) -> shape R = map (dim (so_range no nv)) sps.
  Proof. intros V. inversion V; subst. match goal with H : tsim _ _ _ _ _ |- _ => apply H end. Qed.
  (** the same array with the two halves of its indices exchanged *)
  Theorem so_vs_flip k sps sps' p q Rw : (k <= 4)%nat -> length sps = (k + k)%nat -> vs (SP sps p) (VT Rw) ->
    strp (flip k) (Some (SP sps p)) = Some (SP sps' q) ->
    exists R, swapped k R Rw /\ vs (SP sps' q) (VT R).
  Proof.
    intros Hk HL V E. inversion V as [? ? ? T1| | | | |]; subst.
    destruct (strp_sound _ _ _ _ _ _ _ _ _ eq_refl E T1) as [R [HT TR]].
    exists R. split; [|constructor; exact TR].
    eapply flip_swapped; [exact Hk|exact HT| |split; [reflexivity|intros; reflexivity]].
    destruct T1 as [-> _]. rewrite map_length. exact HL.
  Qed.
  (** linear combination *)
  Theorem so_vs_lin sps c p q R1 R2 : vs (SP sps p) (VT R1) -> vs (SP sps q) (VT R2) ->
    vs (SP sps (pscale c p ++ q)%list) (VT (mkT (shape R1) (fun i => Q2Qc c * data R1 i + data R2 i))).
  Proof.
    intros V1 V2. inversion V1 as [? ? ? T1| | | | |]; subst. inversion V2 as [? ? ? T2| | | | |]; subst.
    destruct T1 as [S1 D1], T2 as [S2 D2]. constructor. split; [exact S1|]. intros idx e Hi Ha. cbn [data shape] in *.
    rewrite evalP_app, pscale_sound. rewrite (D1 idx e Hi Ha), (D2 idx e); [reflexivity| |exact Ha].
    rewrite S2, <- S1. exact Hi.
  Qed.
End SO.

Section SP.
  Variables no nv : nat.
  Variable S : spinmap.
  Hypothesis HS : spin_ok no nv S.
  Variable atoms : atomtab.
  Hypothesis Hat : Forall (atom_ok (sp_range no nv S) sy) atoms.
  Hypothesis Hcons : Forall (conserving no nv S) atoms.
  Notation vs := (sp_vsim no nv S atoms).
  Lemma sp_norm_ok h e p : (forall t, In t p -> wt (sp_range no nv S) e t) ->
    evalP (sp_range no nv S) (Aof (sp_range no nv S) atoms) e (norm sy sp_split sp_bad h p) =
    evalP (sp_range no nv S) (Aof (sp_range no nv S) atoms) e p.
  Proof.
    apply norm_sound.
    - apply ctx_blk; exact Hat.
    - apply ctx_herm; [apply sy_herm|exact Hat].
    - apply ctx_len; exact Hat.
    - apply sp_split_ok; assumption.
    - apply sp_kill_ok; assumption.
  Qed.
  (** the result keeps its spin-orbital form (no splitting into spin cases) *)
  Lemma sp_norm_ok0 h e p : (forall t, In t p -> wt (sp_range no nv S) e t) ->
    evalP (sp_range no nv S) (Aof (sp_range no nv S) atoms) e (norm sy nosplit nokill h p) =
    evalP (sp_range no nv S) (Aof (sp_range no nv S) atoms) e p.
  Proof.
    apply norm_sound.
    - apply ctx_blk; exact Hat.
    - apply ctx_herm; [apply sy_herm|exact Hat].
    - apply ctx_len; exact Hat.
    - discriminate.
    - discriminate.
  Qed.
  Theorem sp_nform d l f a v sps nf : Forall2 vs a v ->
    (exists h, nfo nosplit nokill h sps (srun sp_slm d l f a) = Some nf) ->
    exists R, returns d l f v R /\ vs (SP sps nf) (VT R).
  Proof.
    intros H1 [h Hn]. unfold nfo in Hn.
    destruct (outsp sps _ && good sps && forallb _ _)%bool eqn:E; [|discriminate].
    rewrite !andb_true_iff in E. destruct E as [[O1 Hg] HC]. apply outsp_ok in O1. apply some_inj in Hn. subst nf.
    destruct (sp_run _ _ _ HS _ _ _ _ _ _ _ _ H1 O1) as [R [A1 T1]]. exists R. split; [exact A1|].
    constructor. apply tsim_norm; try assumption. intros e. apply sp_norm_ok0.
  Qed.
  Theorem sp_vs_eq sps p q R1 R2 : vs (SP sps p) (VT R1) -> vs (SP sps q) (VT R2) ->
    sp_chk sps (Some (SP sps p)) (Some (SP sps q)) -> teq R1 R2.
  Proof.
    intros V1 V2 [h HC]. unfold sp_chkb, chk in HC. rewrite !andb_true_iff in HC. destruct HC as [[_ Hg] Hp].
    inversion V1; subst. inversion V2; subst. cbn [getp] in Hp. eapply (sp_peq no nv S HS atoms Hcons Hat); eassumption.
  Qed.
  Lemma sp_vs_shape sps p R : vs (SP sps p) (VT R) -> shape R = map (dim (sp_range no nv S)) sps.
  Proof. intros V. inversion V; subst. match goal with H : tsim _ _ _ _ _ |- _ => apply H end. Qed.
  Theorem sp_vs_flip k sps sps' p q Rw : (k <= 4)%nat -> length sps = (k + k)%nat -> vs (SP sps p) (VT Rw) ->
    strp (flip k) (Some (SP sps p)) = Some (SP sps' q) ->
    exists R, swapped k R Rw /\ vs (SP sps' q) (VT R).
  Proof.
    intros Hk HL V E. inversion V as [? ? ? T1| | | | |]; subst.
    destruct (strp_sound _ _ _ _ _ _ _ _ _ eq_refl E T1) as [R [HT TR]].
    exists R. split; [|constructor; exact TR].
    eapply flip_swapped; [exact Hk|exact HT| |split; [reflexivity|intros; reflexivity]].
    destruct T1 as [-> _]. rewrite map_length. exact HL.
  Qed.
  (** a program returns a spin block of an array with known polynomial *)
  Theorem sp_vs_blk ss p R d l f a v :
    vs (SP (repeat 1%N (length ss) ++ repeat 0%N (length ss)) p) (VT R) ->
    Forall2 vs a v ->
    blkchk ss (Some (SP (repeat 1%N (length ss) ++ repeat 0%N (length ss)) p)) (srun sp_slm d l f a) ->
    exists B, returns d l f v B /\ block_amp S no nv ss R B.
  Proof.
    intros V H2 HC. inversion V; subst. eapply (sp_blk no nv S HS atoms Hat Hcons ss (Some (SP _ p)) R); eassumption.
  Qed.
End SP.

(** [so_nf H R HR VR d l f sps VS]: run f once and obtain its result R with its normal form. *)
Ltac nf_run slm nform d l f sps VS R HR VR :=
  let a := lazymatch type of VS with Forall2 _ ?a _ => a end in
  let h := eval vm_compute in (find_hints sy nosplit nokill (getp (srun slm d l f a))) in
  let nf := eval vm_compute in (nfp (nfo nosplit nokill h sps (srun slm d l f a))) in
  destruct (nform d l f _ _ sps nf VS) as [R [HR VR]];
  [exists h; vm_cast_no_check (@eq_refl (option poly) (Some nf))|].
Ltac so_nf OK d l f sps VS R HR VR := nf_run so_slm (so_nform _ _ _ OK) d l f sps VS R HR VR.
Ltac sp_nf HS OK d l f sps VS R HR VR := nf_run sp_slm (sp_nform _ _ _ HS _ OK) d l f sps VS R HR VR.

(** [flip_ thm k V R SW VR]: the halves-exchanged array of V. *)
Ltac flip_ thm k V R SW VR :=
  lazymatch type of V with _ (SP ?sps ?p) _ =>
    let r := eval vm_compute in (strp (flip k) (Some (SP sps p))) in
    lazymatch r with Some (SP ?s' ?q) =>
      destruct (thm k sps s' p q _ ltac:(lia) eq_refl V) as [R [SW VR]];
      [vm_cast_no_check (@eq_refl (option sval) r)|]
    end
  end.
