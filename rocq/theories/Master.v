(** Comparing two symbolically executed programs; the two environments used by the property proofs.
    Proof machinery; it models no particular source line. *)
From Coq Require Import String Ascii List Arith NArith ZArith QArith Qcanon Bool Lia Permutation.
From Verif Require Import Sums Tensor Interp Poly SymExec Canon Spec Setup.
Import ListNotations.
Open Scope Qc_scope.

Definition env_of (sps : list space) (l : list nat) : env :=
  fun v => match nlook v (combine (xvs sps) l) with Some x => x | None => O end.

Lemma map_env_of sps l : NoDup (xvs sps) -> length l = length sps -> map (env_of sps l) (xvs sps) = l.
Proof.
  unfold env_of. rewrite <- (xvs_length sps). generalize (xvs sps) as ks. clear sps.
  intros ks; revert l. induction ks as [|k ks IH]; intros [|x l] ND L; cbn in *; try discriminate; [reflexivity|].
  inversion ND as [|? ? Hn ND']; subst. rewrite N.eqb_refl. f_equal.
  etransitivity; [|apply (IH l); [exact ND'|lia]].
  apply map_ext_in. intros v Hv. destruct (N.eqb_spec v k) as [E|E]; [subst; contradiction|]. reflexivity.
Qed.

Definition nodupx (sps : list space) : bool := nodupv (xvs sps).
Definition good (sps : list space) : bool := (nodupx sps && xs_ok sps)%bool.

(** Retype the external indices of a polynomial. *)
Definition retype (q : list space) (v : option sval) : option sval :=
  match v with
  | Some (SP s p) =>
      if (nodupx s && Nat.eqb (length s) (length q))%bool then
        match relabel (combine (xvs s) (xvs q)) 16 p with Some p' => Some (SP q p') | None => None end
      else None
  | _ => None
  end.

Section Compare.
  Variable range : space -> list nat.
  Variable A : N -> list nat -> Qc.

  Notation dim := (dim range).
  Notation orbs := (orbs range).
  Notation tsim := (tsim range A).

  Lemma orbs_len sps idx : inr idx (map dim sps) -> length (orbs sps idx) = length sps.
  Proof.
    intros H. apply Forall2_len in H. rewrite map_length in H.
    unfold SymExec.orbs, zipw. rewrite map_length, combine_length. lia.
  Qed.
  Lemma agree_env sps idx : nodupx sps = true -> inr idx (map dim sps) ->
    eagree range sps idx (env_of sps (orbs sps idx)).
  Proof.
    intros HN Hi. unfold eagree. apply map_env_of; [apply nodupv_NoDup; exact HN|apply orbs_len; exact Hi].
  Qed.

  (** The value of an entry. *)
  Lemma tsim_data sps p t idx : nodupx sps = true -> tsim sps p t -> inr idx (shape t) ->
    data t idx = evalP range A (env_of sps (orbs sps idx)) p.
  Proof.
    intros HN [Hsh H] Hi. apply H; [exact Hi|]. apply agree_env; [exact HN|]. rewrite <- Hsh. exact Hi.
  Qed.

  (** Two results with the same type whose polynomials agree are equal arrays. *)
  Lemma tsim_eq sps p q t t' : good sps = true -> tsim sps p t -> tsim sps q t' ->
    (forall e, (forall v, In v (xvs sps) -> In (e v) (range (spc v))) ->
       evalP range A e p = evalP range A e q) ->
    teq t t'.
  Proof.
    unfold good. rewrite andb_true_iff. intros [HN HX] Ht Ht' H.
    pose proof Ht as [Hs _]. pose proof Ht' as [Hs' _].
    split; [rewrite Hs, Hs'; reflexivity|]. intros idx Hi.
    rewrite (tsim_data _ _ _ _ HN Ht Hi). rewrite (tsim_data _ _ _ _ HN Ht') by (rewrite Hs', <- Hs; exact Hi).
    apply H. intros v Hv. rewrite Hs in Hi.
    eapply inr_in; [exact Hi|apply agree_env; assumption|exact Hv|exact HX].
  Qed.

  (** A block of an array: external spaces q inside the spaces s. *)
  Lemma tsim_block s p t q p' b g :
    retype q (Some (SP s p)) = Some (SP q p') ->
    nodupx q = true -> tsim s p t ->
    shape b = map dim q ->
    (forall idx, inr idx (shape b) -> inr (g idx) (shape t) /\ orbs s (g idx) = orbs q idx) ->
    (forall idx, inr idx (shape b) -> data b idx = data t (g idx)) ->
    tsim q p' b.
  Proof.
    unfold retype. intros HR HNq [Hs Ht] Hb Hg Hd. split; [exact Hb|]. intros idx e Hi Hag.
    destruct (nodupx s) eqn:HN; [|discriminate]. apply nodupv_NoDup in HN.
    destruct (Nat.eqb_spec (length s) (length q)) as [EL|]; [|discriminate]. cbn [andb] in HR.
    destruct (relabel _ 16 p) as [p1|] eqn:E; [|discriminate]. injection HR as ->.
    destruct (Hg _ Hi) as [Hi' Ho]. rewrite (Hd _ Hi).
    rewrite (Ht _ (fun v => e (vext (combine (xvs s) (xvs q)) v)) Hi').
    - symmetry. eapply relabel_sound; [exact E|]. reflexivity.
    - unfold eagree in *. rewrite <- (map_map (vext _) e), map_vext, Hag, Ho; try reflexivity; try exact HN.
      rewrite !xvs_length. exact EL.
  Qed.

  Lemma block_tsim s p t q p' idx idx' :
    retype q (Some (SP s p)) = Some (SP q p') -> nodupx q = true -> tsim s p t ->
    inr idx (map dim q) -> inr idx' (shape t) -> orbs s idx' = orbs q idx ->
    data t idx' = evalP range A (env_of q (orbs q idx)) p'.
  Proof.
    unfold retype. intros HR HNq [Hs Ht] Hi Hi' Ho.
    destruct (nodupx s) eqn:HN; [|discriminate]. apply nodupv_NoDup in HN.
    destruct (Nat.eqb_spec (length s) (length q)) as [EL|]; [|discriminate]. cbn [andb] in HR.
    destruct (relabel _ 16 p) as [p1|] eqn:E; [|discriminate]. injection HR as ->.
    rewrite (Ht _ (fun v => env_of q (orbs q idx) (vext (combine (xvs s) (xvs q)) v)) Hi').
    - symmetry. eapply relabel_sound; [exact E|]. reflexivity.
    - unfold eagree. rewrite <- (map_map (vext _)), map_vext; try exact HN.
      + rewrite map_env_of; [symmetry; exact Ho|apply nodupv_NoDup; exact HNq|apply orbs_len; exact Hi].
      + rewrite !xvs_length. exact EL.
  Qed.
End Compare.

(** Atom numbers and their symmetries. *)
Definition sy (n : N) : symd :=
  match n with
  | 0%N => SD [1;1]%nat true true          (* Fock matrix *)
  | 1%N => SD [2;2]%nat true true          (* two-electron integrals *)
  | 2%N => SD [1;1]%nat true false         (* T1 *)
  | 3%N | 6%N => SD [2;2]%nat true false   (* T2, L2 *)
  | 4%N => SD [3;3]%nat true false         (* T3 *)
  | 5%N => SD [4;4]%nat true false         (* T4 *)
  | 7%N => SD [1;1]%nat true false         (* L1 *)
  | 50%N => SD [3;3]%nat true false        (* arbitrary antisymmetric arrays *)
  | 51%N => SD [4;4]%nat true false
  | _ => SD [] false false                 (* no symmetry *)
  end.

Definition at_ (n : N) (sps : list space) : sval := SP sps [T 1 [] [(n, xvs sps)]].
(** the atom n with its two halves exchanged *)
Definition swp (n : N) (k : nat) (sps : list space) : sval :=
  let x := xvs sps in SP sps [T 1 [] [(n, skipn k x ++ firstn k x)%list]].
Definition zr (sps : list space) : sval := SP sps [].

Definition nosplit (s : space) : option (list space) := None.
Definition nokill (n : N) (l : list space) : bool := false.

Lemma antisym_tblocks k t : antisymmetric k t -> tblocks true t 0 [k; k].
Proof.
  intros H. cbn. repeat split.
  - intros i _ Hi. apply H. lia.
  - intros i H1 H2. replace i with (k + (i - k))%nat by lia. apply H. lia.
Qed.

Lemma repeat_uniform k (s : space) r : (0 < k)%nat ->
  firstn k (repeat s k ++ r) = repeat s k /\ skipn k (repeat s k ++ r) = r.
Proof.
  intros _. rewrite firstn_app, skipn_app, repeat_length, Nat.sub_diag.
  rewrite firstn_all2 by (rewrite repeat_length; lia).
  rewrite skipn_all2 by (rewrite repeat_length; lia). cbn. rewrite app_nil_r. split; reflexivity.
Qed.

Lemma map_repeat {X Y} (f : X -> Y) x k : map f (repeat x k) = repeat (f x) k.
Proof. induction k; cbn; [reflexivity|]. f_equal; exact IHk. Qed.

Lemma atom_ok_amp range n k s1 s2 t : sy n = SD [k;k] true false -> (0 < k)%nat ->
  shape t = map (dim range) (repeat s1 k ++ repeat s2 k) -> antisymmetric k t ->
  atom_ok range sy (n, ((repeat s1 k ++ repeat s2 k)%list, t)).
Proof.
  intros Hs Hk Hsh Ha. unfold atom_ok. rewrite Hs; cbn [blk anti herm]. split; [exact Hsh|].
  split; [right|discriminate]. split; [|split].
  - cbn [uniform]. destruct (repeat_uniform k s1 (repeat s2 k) Hk) as [-> ->].
    rewrite firstn_all2 by (rewrite repeat_length; lia).
    rewrite skipn_all2 by (rewrite repeat_length; lia).
    assert (G : forall s : space, match repeat s k with
       | [] => false | s0 :: l => (Nat.eqb (length (s0 :: l)) k && forallb (N.eqb s0) l)%bool end = true).
    { intros s. destruct k as [|k]; [lia|]. cbn [repeat length]. rewrite repeat_length, Nat.eqb_refl. cbn [andb].
      apply forallb_forall. intros x Hx. apply repeat_spec in Hx. subst. apply N.eqb_refl. }
    rewrite !G. reflexivity.
  - rewrite app_length, !repeat_length. cbn. lia.
  - apply antisym_tblocks; exact Ha.
Qed.
Lemma atom_ok_gen range n sps t : sy n = SD [] false false -> shape t = map (dim range) sps ->
  atom_ok range sy (n, (sps, t)).
Proof.
  intros Hs Hsh. unfold atom_ok. rewrite Hs. split; [exact Hsh|]. split; [left; reflexivity|discriminate].
Qed.
Lemma atom_ok_fock range n s f : length (range s) = n -> is_fock n f -> atom_ok range sy (0%N, ([s; s], f)).
Proof.
  intros Hd [Hsh Hh]. split; [|split].
  - rewrite Hsh. cbn. unfold dim. rewrite Hd. reflexivity.
  - right. cbn. repeat split; intros; lia.
  - intros _. exists 1%nat. repeat split. exact Hh.
Qed.
Lemma atom_ok_tei range n s g : length (range s) = n -> is_tei n g -> atom_ok range sy (1%N, ([s; s; s; s], g)).
Proof.
  intros Hd [Hsh [Ha Hh]]. split; [|split].
  - rewrite Hsh. cbn. unfold dim. rewrite Hd. reflexivity.
  - right. split; [cbn; rewrite !N.eqb_refl; reflexivity|]. split; [reflexivity|]. apply (antisym_tblocks 2 g Ha).
  - intros _. exists 2%nat. repeat split. exact Hh.
Qed.
Lemma sy_herm (atoms : atomtab) : forall n, nlook n atoms = None -> herm (sy n) = true ->
  exists b, blk (sy n) = [b; b].
Proof.
  intros n _. destruct n as [|p]; [intros _; exists 1%nat; reflexivity|].
  repeat (try destruct p as [p|p|]; cbn; try discriminate; try (intros _; eexists; reflexivity)).
Qed.

(** ** Spin-orbital environment: no occupied, nv virtual spin orbitals. *)
Definition so_range (no nv : nat) (s : space) : list nat :=
  match s with
  | 0%N => seq 0 no
  | 1%N => seq no nv
  | 6%N => seq 0 (no + nv)
  | _ => []
  end.
Definition so_slc (no : nat) (k : N) : nat * option nat :=
  match k with 0%N => (O, Some no) | _ => (no, None) end.
Definition so_slm (a k : N) : option space :=
  match a, k with 0%N, 0%N => Some 0%N | 0%N, 1%N => Some 1%N | _, _ => None end.
Definition so_phi (a : N) (x : nat) : nat := x.

Definition sO : value -> value := fun x => x.

Lemma so_nodup no nv s : NoDup (so_range no nv s).
Proof.
  unfold so_range. destruct s as [|[p|[p|p|]|]]; try apply NoDup_nil; try apply seq_NoDup.
  destruct p; try apply NoDup_nil; apply seq_NoDup.
Qed.
Lemma so_slices_ok no nv : slices_ok (so_range no nv) (so_slc no) so_slm (fun _ => (no + nv)%nat) so_phi.
Proof.
  intros a k s. unfold so_slm. destruct a; [|discriminate].
  destruct k as [|[]]; try discriminate; intros H; apply some_inj in H; subst;
    cbn [so_slc fst snd dim so_range]; unfold slice_len, slice_start, slice_stop, dim, so_phi; cbn [so_range];
    rewrite seq_length; (split; [lia|]); intros m Hm; rewrite seq_nth by lia; lia.
Qed.

Section SO.
  Variables no nv : nat.
  Variable atoms : atomtab.
  Let range := so_range no nv.
  Let A := Aof range atoms.
  Definition so_vsim : sval -> value -> Prop :=
    vsim (so_range no nv) (Aof (so_range no nv) atoms) (so_slc no) (fun _ => (no + nv)%nat) so_phi.
  Definition so_tsim := tsim (so_range no nv) (Aof (so_range no nv) atoms).

  Lemma so_full n k t : nlook n atoms = Some (repeat 6%N k, t) -> shape t = repeat (no + nv)%nat k ->
    so_vsim (SFull n (repeat 0%N k)) (VT t).
  Proof.
    intros HL Hs. constructor. split; [rewrite Hs, map_repeat; reflexivity|].
    intros idx Hi. rewrite Hs in Hi.
    assert (L : length idx = k) by (apply Forall2_len in Hi; rewrite repeat_length in Hi; exact Hi).
    rewrite <- (Aof_orbs range atoms (so_nodup no nv) n _ t idx HL).
    - f_equal. clear HL Hs. revert idx Hi L. induction k as [|k IH]; intros [|x idx] Hi L; try discriminate; [reflexivity|].
      cbn [repeat]. unfold orbs. rewrite !zipw_cons. unfold so_phi at 1. cbn [so_range range].
      inversion Hi; subst. rewrite seq_nth by assumption. cbn. f_equal. apply IH; [assumption|]. cbn in L; lia.
    - rewrite map_repeat. unfold dim, range, so_range. rewrite seq_length. exact Hi.
  Qed.
  Lemma so_atom n sps t : nlook n atoms = Some (sps, t) -> shape t = map (dim range) sps ->
    so_vsim (at_ n sps) (VT t).
  Proof. intros H1 H2. constructor. apply tsim_atom; [apply so_nodup|exact H1|exact H2]. Qed.
  Lemma so_zero sps t : shape t = map (dim range) sps -> zero_tensor t -> so_vsim (zr sps) (VT t).
  Proof. intros H1 H2. constructor. apply tsim_zero; assumption. Qed.
  Lemma so_swap n k s1 s2 t t' : nlook n atoms = Some ((repeat s1 k ++ repeat s2 k)%list, t) ->
    shape t = map (dim range) (repeat s1 k ++ repeat s2 k) -> swapped k t t' ->
    so_vsim (swp n k (repeat s2 k ++ repeat s1 k)) (VT t').
  Proof.
    intros HL Hs [Hs' Hd]. constructor.
    assert (Es' : shape t' = map (dim range) (repeat s2 k ++ repeat s1 k)).
    { rewrite Hs', Hs, !map_app, !map_repeat. rewrite skipn_app, firstn_app, !repeat_length, Nat.sub_diag.
      rewrite skipn_all2, firstn_all2 by (rewrite repeat_length; lia). cbn [skipn firstn app]. rewrite app_nil_r.
      reflexivity. }
    split; [exact Es'|]. intros idx e Hi Hag.
    unfold evalP, evalT; cbn [suml tc td tf sumD evalFs]. unfold evalF; cbn [fst snd].
    pose proof Hag as Hag'. unfold eagree in Hag'. rewrite map_app, <- firstn_map, <- skipn_map, Hag'.
    rewrite Es', map_app in Hi. unfold inr in Hi. apply Forall2_app_inv_r in Hi.
    destruct Hi as [l2 [l1 [H2 [H1 E]]]]. subst idx.
    assert (L2 : length l2 = k) by (apply Forall2_len in H2; rewrite map_length, repeat_length in H2; exact H2).
    assert (L1 : length l1 = k) by (apply Forall2_len in H1; rewrite map_length, repeat_length in H1; exact H1).
    assert (Hin : inr (l1 ++ l2) (shape t)).
    { rewrite Hs, map_app. apply Forall2_app; assumption. }
    rewrite (Hd l1 l2 L1 Hin).
    assert (EO : forall a b (m1 m2 : list nat), length a = length m1 ->
       orbs range (a ++ b) (m1 ++ m2) = (orbs range a m1 ++ orbs range b m2)%list).
    { clear. intros a b m1; revert a. induction m1 as [|x m1 IH]; intros [|y a] m2 L; try discriminate; [reflexivity|].
      cbn [app]. unfold orbs. rewrite !zipw_cons. cbn [app]. f_equal. apply IH. cbn in L; lia. }
    rewrite EO by (rewrite repeat_length; lia).
    assert (LO : forall s m, length m = k -> length (orbs range (repeat s k) m) = k).
    { intros s m L. unfold orbs, zipw. rewrite map_length, combine_length, repeat_length. lia. }
    rewrite skipn_app, firstn_app, !LO, Nat.sub_diag by assumption.
    rewrite skipn_all2, firstn_all2 by (rewrite LO by assumption; lia). cbn [skipn firstn app]. rewrite app_nil_r.
    rewrite <- EO by (rewrite repeat_length; lia). rewrite Hs in Hin.
    pose proof (Aof_orbs range atoms (so_nodup no nv) n _ t _ HL Hin) as HA. unfold range in *. rewrite HA. ring.
  Qed.
  Lemma so_sl0 : so_vsim (SSl 0) (VSl 0 (Some no)). Proof. exact (vs_Sl _ _ (so_slc no) _ _ 0%N). Qed.
  Lemma so_sl1 : so_vsim (SSl 1) (VSl no None). Proof. exact (vs_Sl _ _ (so_slc no) _ _ 1%N). Qed.
  Lemma so_none : so_vsim SNone VNone. Proof. apply vs_None. Qed.
  Lemma so_dimO : so_vsim (SDim 0) (VInt no).
  Proof.
    unfold so_vsim. assert (E : dim (so_range no nv) 0%N = no) by (unfold dim; cbn; apply seq_length).
    pose proof (vs_Dim (so_range no nv) (Aof (so_range no nv) atoms) (so_slc no) (fun _ => (no + nv)%nat) so_phi 0%N) as H.
    rewrite E in H. exact H.
  Qed.
  Lemma so_dimV : so_vsim (SDim 1) (VInt nv).
  Proof.
    unfold so_vsim. assert (E : dim (so_range no nv) 1%N = nv) by (unfold dim; cbn; apply seq_length).
    pose proof (vs_Dim (so_range no nv) (Aof (so_range no nv) atoms) (so_slc no) (fun _ => (no + nv)%nat) so_phi 1%N) as H.
    rewrite E in H. exact H.
  Qed.

  Lemma so_run d lib f svs vs sps p : Forall2 so_vsim svs vs ->
    srun so_slm d lib f svs = Some (SP sps p) ->
    exists R, returns d lib f vs R /\ so_tsim sps p R.
  Proof.
    intros H1 H2. destruct (srun_sound _ _ _ _ _ _ (so_slices_ok no nv) d lib f svs vs _ H1 H2) as [v [Hv Hs]].
    inversion Hs; subst. eexists; split; [exact Hv|assumption].
  Qed.

  Hypothesis Hat : Forall (atom_ok range sy) atoms.
  Lemma so_peq h sps p q t t' : good sps = true -> peq sy nosplit nokill h (xvs sps) p q = true ->
    so_tsim sps p t -> so_tsim sps q t' -> teq t t'.
  Proof.
    intros Hg Hp Ht Ht'. eapply tsim_eq; [exact Hg|exact Ht|exact Ht'|].
    intros e He. eapply peq_sound; [ | | | | |exact Hp|exact He].
    - apply ctx_blk; exact Hat.
    - apply ctx_herm; [apply sy_herm|exact Hat].
    - apply ctx_len; exact Hat.
    - discriminate.
    - discriminate.
  Qed.
End SO.
