(** Atom tables and tactics shared by the property files.  Proof machinery except for [lib_tamps]. *)
From Coq Require Import String Ascii List Arith NArith ZArith QArith Qcanon Bool Lia Permutation.
From Verif Require Import Sums Tensor Interp Poly SymExec Canon Spec Setup Master Spin Check.
From Verif Require Code_tamps.
Import ListNotations.
Open Scope string_scope.

(** `import tamps` as seen from cc_eqns.py, ccsdt_eqns.py, ccdq_eqns.py, build_qf_correction.py. *)
Definition lib_tamps : list (string * fn) :=
  [("tamps.antisym_T2", Code_tamps.antisym_T2); ("tamps.antisym_T3", Code_tamps.antisym_T3);
   ("tamps.antisym_T4", Code_tamps.antisym_T4)].

(** atom tables *)
Section Tabs.
  Variables no nv : nat.
  Local Notation rg := (so_range no nv).
  Lemma dO : dim rg 0%N = no. Proof. unfold dim; cbn; apply seq_length. Qed.
  Lemma dV : dim rg 1%N = nv. Proof. unfold dim; cbn; apply seq_length. Qed.
  Lemma dP : dim rg 6%N = (no + nv)%nat. Proof. unfold dim; cbn; apply seq_length. Qed.
  Lemma lenP : length (rg 6%N) = (no + nv)%nat. Proof. apply dP. Qed.
  Lemma sh_vo k : map (dim rg) (repeat 1%N k ++ repeat 0%N k) = (repeat nv k ++ repeat no k)%list.
  Proof. rewrite map_app, !map_repeat, dO, dV. reflexivity. Qed.
  Lemma sh_ov k : map (dim rg) (repeat 0%N k ++ repeat 1%N k) = (repeat no k ++ repeat nv k)%list.
  Proof. rewrite map_app, !map_repeat, dO, dV. reflexivity. Qed.

  Lemma ok_amp n k t : sy n = SD [k; k] true false -> (0 < k)%nat -> is_amp k no nv t ->
    atom_ok rg sy (n, ((repeat 1%N k ++ repeat 0%N k)%list, t)).
  Proof. intros H1 H2 [H3 H4]. apply atom_ok_amp; try assumption. rewrite sh_vo. exact H3. Qed.
  Lemma ok_amp_ov n k t : sy n = SD [k; k] true false -> (0 < k)%nat -> is_amp_ov k no nv t ->
    atom_ok rg sy (n, ((repeat 0%N k ++ repeat 1%N k)%list, t)).
  Proof. intros H1 H2 [H3 H4]. apply atom_ok_amp; try assumption. rewrite sh_ov. exact H3. Qed.
  Lemma ok_fock f : is_fock (no + nv) f -> atom_ok rg sy (0%N, ([6; 6]%N, f)).
  Proof. apply atom_ok_fock, lenP. Qed.
  Lemma ok_tei g : is_tei (no + nv) g -> atom_ok rg sy (1%N, ([6; 6; 6; 6]%N, g)).
  Proof. apply atom_ok_tei, lenP. Qed.

  Variable atoms : atomtab.
  Local Notation vs := (so_vsim no nv atoms).
  Lemma v_fock f : nlook 0%N atoms = Some ([6; 6]%N, f) -> is_fock (no + nv) f -> vs (SFull 0 [0; 0]%N) (VT f).
  Proof. intros H1 [H2 _]. apply (so_full no nv atoms 0%N 2 f); assumption. Qed.
  Lemma v_tei g : nlook 1%N atoms = Some ([6; 6; 6; 6]%N, g) -> is_tei (no + nv) g ->
    vs (SFull 1 [0; 0; 0; 0]%N) (VT g).
  Proof. intros H1 [H2 _]. apply (so_full no nv atoms 1%N 4 g); assumption. Qed.
  Lemma v_amp n k t : nlook n atoms = Some ((repeat 1%N k ++ repeat 0%N k)%list, t) -> is_amp k no nv t ->
    vs (at_ n (repeat 1%N k ++ repeat 0%N k)) (VT t).
  Proof. intros H1 [H2 _]. apply so_atom; [exact H1|]. rewrite sh_vo. exact H2. Qed.
  Lemma v_amp_ov n k t : nlook n atoms = Some ((repeat 0%N k ++ repeat 1%N k)%list, t) -> is_amp_ov k no nv t ->
    vs (at_ n (repeat 0%N k ++ repeat 1%N k)) (VT t).
  Proof. intros H1 [H2 _]. apply so_atom; [exact H1|]. rewrite sh_ov. exact H2. Qed.
  Lemma v_swap n k t t' : nlook n atoms = Some ((repeat 1%N k ++ repeat 0%N k)%list, t) -> is_amp k no nv t ->
    swapped k t t' -> vs (swp n k (repeat 0%N k ++ repeat 1%N k)) (VT t').
  Proof. intros H1 [H2 _] H3. eapply so_swap; [exact H1| |exact H3]. rewrite sh_vo. exact H2. Qed.
  Lemma v_zero_ov k t : shape t = (repeat no k ++ repeat nv k)%list -> zero_tensor t ->
    vs (zr (repeat 0%N k ++ repeat 1%N k)) (VT t).
  Proof. intros H1 H2. apply so_zero; [rewrite sh_ov; exact H1|exact H2]. Qed.
  Lemma v_zero_vo k t : shape t = (repeat nv k ++ repeat no k)%list -> zero_tensor t ->
    vs (zr (repeat 1%N k ++ repeat 0%N k)) (VT t).
  Proof. intros H1 H2. apply so_zero; [rewrite sh_vo; exact H1|exact H2]. Qed.
  Lemma v_o : vs (SSl 0) (o_ no). Proof. apply so_sl0. Qed.
  Lemma v_v : vs (SSl 1) (v_ no). Proof. apply so_sl1. Qed.
End Tabs.

Ltac vsims := repeat first
  [ apply Forall2_nil | apply Forall2_cons
  | apply v_o | apply v_v | apply so_none | apply so_dimO | apply so_dimV
  | (apply v_fock; [reflexivity|assumption]) | (apply v_tei; [reflexivity|assumption])
  | (eapply (v_amp _ _ _ _ 1); [reflexivity|assumption]) | (eapply (v_amp _ _ _ _ 2); [reflexivity|assumption])
  | (eapply (v_amp _ _ _ _ 3); [reflexivity|assumption]) | (eapply (v_amp _ _ _ _ 4); [reflexivity|assumption])
  | (eapply (v_amp_ov _ _ _ _ 1); [reflexivity|assumption]) | (eapply (v_amp_ov _ _ _ _ 2); [reflexivity|assumption])
  | (eapply (v_amp_ov _ _ _ _ 3); [reflexivity|assumption]) | (eapply (v_amp_ov _ _ _ _ 4); [reflexivity|assumption])
  | (eapply (v_swap _ _ _ _ 1); [reflexivity|eassumption|assumption])
  | (eapply (v_swap _ _ _ _ 2); [reflexivity|eassumption|assumption])
  | (eapply (v_swap _ _ _ _ 3); [reflexivity|eassumption|assumption])
  | (eapply (v_swap _ _ _ _ 4); [reflexivity|eassumption|assumption])
  | (eapply (v_zero_ov _ _ _ 1); [eassumption|assumption]) | (eapply (v_zero_ov _ _ _ 2); [eassumption|assumption])
  | (eapply (v_zero_ov _ _ _ 3); [eassumption|assumption]) | (eapply (v_zero_ov _ _ _ 4); [eassumption|assumption]) ].
Ltac oks := repeat first
  [ apply Forall_nil | apply Forall_cons
  | (apply ok_fock; assumption) | (apply ok_tei; assumption)
  | (apply (ok_amp _ _ _ 1); [reflexivity|lia|assumption]) | (apply (ok_amp _ _ _ 2); [reflexivity|lia|assumption])
  | (apply (ok_amp _ _ _ 3); [reflexivity|lia|assumption]) | (apply (ok_amp _ _ _ 4); [reflexivity|lia|assumption])
  | (apply (ok_amp_ov _ _ _ 1); [reflexivity|lia|assumption]) | (apply (ok_amp_ov _ _ _ 2); [reflexivity|lia|assumption])
  | (apply (ok_amp_ov _ _ _ 3); [reflexivity|lia|assumption]) | (apply (ok_amp_ov _ _ _ 4); [reflexivity|lia|assumption]) ].


(** An array with its halves exchanged, in any environment. *)
Lemma gen_swap (range : space -> list nat) (nd : forall s, NoDup (range s)) atoms n k s1 s2 t t' :
  nlook n atoms = Some ((repeat s1 k ++ repeat s2 k)%list, t) ->
  shape t = map (dim range) (repeat s1 k ++ repeat s2 k) -> swapped k t t' ->
  tsim range (Aof range atoms) (repeat s2 k ++ repeat s1 k)
    [T 1 [] [(n, skipn k (xvs (repeat s2 k ++ repeat s1 k)) ++ firstn k (xvs (repeat s2 k ++ repeat s1 k)))%list]] t'.
Proof.
  intros HL Hs [Hs' Hd].
  assert (Es' : shape t' = map (dim range) (repeat s2 k ++ repeat s1 k)).
  { rewrite Hs', Hs, !map_app, !map_repeat. rewrite skipn_app, firstn_app, !repeat_length, Nat.sub_diag.
    rewrite skipn_all2, firstn_all2 by (rewrite repeat_length; lia). cbn [skipn firstn app]. rewrite app_nil_r.
    reflexivity. }
  split; [exact Es'|]. intros idx e Hi Hag.
  unfold evalP, evalT; cbn [suml tc td tf sumD evalFs]. unfold evalF; cbn [fst snd].
  pose proof Hag as Hag'. unfold eagree in Hag'. rewrite map_app, <- firstn_map, <- skipn_map, Hag'.
  rewrite Es', map_app in Hi. unfold inr in Hi. apply Forall2_app_inv_r in Hi.
  destruct Hi as [l2 [l1 [H2 [H1 E]]]]. subst idx.
  assert (L2 : length l2 = k) by (apply Forall2_len in H2; rewrite map_length, repeat_length in H2; exact H2).
  assert (L1 : length l1 = k) by (apply Forall2_len in H1; rewrite map_length, repeat_length in H1; exact H1).
  assert (Hin : inr (l1 ++ l2) (shape t)).
  { rewrite Hs, map_app. apply Forall2_app; assumption. }
  rewrite (Hd l1 l2 L1 Hin).
  assert (EO : forall a b (m1 m2 : list nat), length a = length m1 ->
     orbs range (a ++ b) (m1 ++ m2) = (orbs range a m1 ++ orbs range b m2)%list).
  { clear. intros a b m1; revert a. induction m1 as [|x m1 IH]; intros [|y a] m2 L; try discriminate; [reflexivity|].
    cbn [app]. unfold orbs. rewrite !zipw_cons. cbn [app]. f_equal. apply IH. cbn in L; lia. }
  rewrite EO by (rewrite repeat_length; lia).
  assert (LO : forall s m, length m = k -> length (orbs range (repeat s k) m) = k).
  { intros s m L. unfold orbs, zipw. rewrite map_length, combine_length, repeat_length. lia. }
  rewrite skipn_app, firstn_app, !LO, Nat.sub_diag by assumption.
  rewrite skipn_all2, firstn_all2 by (rewrite LO by assumption; lia). cbn [skipn firstn app]. rewrite app_nil_r.
  rewrite <- EO by (rewrite repeat_length; lia). rewrite Hs in Hin.
  rewrite (Aof_orbs range atoms nd n _ t _ HL Hin). ring.
Qed.

(** ** Executing one program *)
Lemma so_exec no nv atoms d l f a v sps : Forall2 (so_vsim no nv atoms) a v ->
  outsp sps (srun so_slm d l f a) = true ->
  exists R, returns d l f v R /\ so_tsim no nv atoms sps (getp (srun so_slm d l f a)) R /\
    so_vsim no nv atoms (SP sps (getp (srun so_slm d l f a))) (VT R).
Proof.
  intros H1 H2. apply outsp_ok in H2. destruct (so_run _ _ _ _ _ _ _ _ _ _ H1 H2) as [R [A1 T1]].
  exists R. split; [exact A1|]. split; [exact T1|]. constructor. exact T1.
Qed.
Lemma sp_exec no nv S (HS : spin_ok no nv S) atoms d l f a v sps : Forall2 (sp_vsim no nv S atoms) a v ->
  outsp sps (srun sp_slm d l f a) = true ->
  exists R, returns d l f v R /\ sp_tsim no nv S atoms sps (getp (srun sp_slm d l f a)) R /\
    sp_vsim no nv S atoms (SP sps (getp (srun sp_slm d l f a))) (VT R).
Proof.
  intros H1 H2. apply outsp_ok in H2. destruct (sp_run _ _ _ HS _ _ _ _ _ _ _ _ H1 H2) as [R [A1 T1]].
  exists R. split; [exact A1|]. split; [exact T1|]. constructor. exact T1.
Qed.

(** ** Spin tables *)
Section SpinTabs.
  Variables no nv : nat.
  Variable S : spinmap.
  Hypothesis HS : spin_ok no nv S.
  Local Notation rg := (sp_range no nv S).

  Lemma sp_lenP : length (rg 6%N) = (2 * no + 2 * nv)%nat. Proof. cbn [sp_range]. apply seq_length. Qed.
  Lemma sp_sh_vo k : map (dim rg) (repeat 1%N k ++ repeat 0%N k) = (repeat (2 * nv)%nat k ++ repeat (2 * no)%nat k)%list.
  Proof. rewrite map_app, !map_repeat, (dimO no nv S), (dimV no nv S). reflexivity. Qed.
  Lemma sp_sh_ov k : map (dim rg) (repeat 0%N k ++ repeat 1%N k) = (repeat (2 * no)%nat k ++ repeat (2 * nv)%nat k)%list.
  Proof. rewrite map_app, !map_repeat, (dimO no nv S), (dimV no nv S). reflexivity. Qed.

  Lemma spok_amp n k t : sy n = SD [k; k] true false -> (0 < k)%nat -> spin_amp S k no nv t ->
    atom_ok rg sy (n, ((repeat 1%N k ++ repeat 0%N k)%list, t)).
  Proof. intros H1 H2 [[H3 H4] _]. apply atom_ok_amp; try assumption. rewrite sp_sh_vo. exact H3. Qed.
  Lemma spok_amp_ov n k t : sy n = SD [k; k] true false -> (0 < k)%nat -> spin_amp_ov S k no nv t ->
    atom_ok rg sy (n, ((repeat 0%N k ++ repeat 1%N k)%list, t)).
  Proof. intros H1 H2 [[H3 H4] _]. apply atom_ok_amp; try assumption. rewrite sp_sh_ov. exact H3. Qed.
  Lemma spok_fock f : is_fock (2 * no + 2 * nv) f -> atom_ok rg sy (0%N, ([6; 6]%N, f)).
  Proof. apply atom_ok_fock, sp_lenP. Qed.
  Lemma spok_tei g : is_tei (2 * no + 2 * nv) g -> atom_ok rg sy (1%N, ([6; 6; 6; 6]%N, g)).
  Proof. apply atom_ok_tei, sp_lenP. Qed.

  Lemma spc_amp n k t : spin_amp S k no nv t -> conserving no nv S (n, ((repeat 1%N k ++ repeat 0%N k)%list, t)).
  Proof. intros [[H1 _] H2]. apply cons_amp; assumption. Qed.
  Lemma spc_amp_ov n k t : spin_amp_ov S k no nv t -> conserving no nv S (n, ((repeat 0%N k ++ repeat 1%N k)%list, t)).
  Proof. intros [[H1 _] H2]. apply cons_amp_ov; assumption. Qed.
  Lemma spc_fock f : is_fock (2 * no + 2 * nv) f -> spin_conserving S no 1 f -> conserving no nv S (0%N, ([6; 6]%N, f)).
  Proof. intros [H1 _] H2. apply (cons_full no nv S 0%N 1 f); assumption. Qed.
  Lemma spc_tei g : is_tei (2 * no + 2 * nv) g -> spin_conserving S no 2 g ->
    conserving no nv S (1%N, ([6; 6; 6; 6]%N, g)).
  Proof. intros [H1 _] H2. apply (cons_full no nv S 1%N 2 g); assumption. Qed.

  Variable atoms : atomtab.
  Local Notation vs := (sp_vsim no nv S atoms).
  Lemma spv_fock f : nlook 0%N atoms = Some ([6; 6]%N, f) -> is_fock (2 * no + 2 * nv) f -> vs (SFull 0 [0; 0]%N) (VT f).
  Proof. intros H1 [H2 _]. apply (sp_full no nv S HS atoms 0%N 2 f); assumption. Qed.
  Lemma spv_tei g : nlook 1%N atoms = Some ([6; 6; 6; 6]%N, g) -> is_tei (2 * no + 2 * nv) g ->
    vs (SFull 1 [0; 0; 0; 0]%N) (VT g).
  Proof. intros H1 [H2 _]. apply (sp_full no nv S HS atoms 1%N 4 g); assumption. Qed.
  Lemma spv_amp n k t : nlook n atoms = Some ((repeat 1%N k ++ repeat 0%N k)%list, t) -> spin_amp S k no nv t ->
    vs (at_ n (repeat 1%N k ++ repeat 0%N k)) (VT t).
  Proof. intros H1 [[H2 _] _]. apply sp_atom; [exact HS|exact H1|]. rewrite sp_sh_vo. exact H2. Qed.
  Lemma spv_amp_ov n k t : nlook n atoms = Some ((repeat 0%N k ++ repeat 1%N k)%list, t) -> spin_amp_ov S k no nv t ->
    vs (at_ n (repeat 0%N k ++ repeat 1%N k)) (VT t).
  Proof. intros H1 [[H2 _] _]. apply sp_atom; [exact HS|exact H1|]. rewrite sp_sh_ov. exact H2. Qed.
  Lemma spv_swap n k t t' : nlook n atoms = Some ((repeat 1%N k ++ repeat 0%N k)%list, t) -> spin_amp S k no nv t ->
    swapped k t t' -> vs (swp n k (repeat 0%N k ++ repeat 1%N k)) (VT t').
  Proof.
    intros H1 [[H2 _] _] H3. constructor. eapply gen_swap; [apply sp_nodup, HS|exact H1| |exact H3].
    rewrite sp_sh_vo. exact H2.
  Qed.
  Lemma spv_o : vs (SSl 0) (o_ (2 * no)). Proof. apply sp_sl0. Qed.
  Lemma spv_v : vs (SSl 1) (v_ (2 * no)). Proof. apply sp_sl1. Qed.
  Lemma spv_oa : vs (SSl 2) (o_ no). Proof. apply sp_sl2. Qed.
  Lemma spv_va : vs (SSl 3) (v_ no). Proof. apply sp_sl3. Qed.
  Lemma spv_dimO : vs (SDim 0) (VInt (2 * no)).
  Proof.
    pose proof (vs_Dim rg (Aof rg atoms) (sp_slc no) (sp_adim no nv) (sp_phi no S) 0%N) as H.
    rewrite (dimO no nv S) in H. exact H.
  Qed.
  Lemma spv_dimV : vs (SDim 1) (VInt (2 * nv)).
  Proof.
    pose proof (vs_Dim rg (Aof rg atoms) (sp_slc no) (sp_adim no nv) (sp_phi no S) 1%N) as H.
    rewrite (dimV no nv S) in H. exact H.
  Qed.
  Lemma spv_bf n k ss t b : length ss = k -> nlook n atoms = Some (repeat 6%N k, t) ->
    shape t = repeat (2 * no + 2 * nv)%nat k ->
    block_full S no nv ss t b -> vs (SFull n (map axof ss)) (VT b).
  Proof. intros <-. apply sp_bfull, HS. Qed.
  Lemma spv_ba n k ss t b : length ss = k ->
    nlook n atoms = Some ((repeat 1%N k ++ repeat 0%N k)%list, t) ->
    block_amp S no nv ss t b -> vs (at_ n (bsp ss)) (VT b).
  Proof. intros <-. apply sp_bamp, HS. Qed.
  Lemma spv_ba_ov n k ss t b : length ss = k ->
    nlook n atoms = Some ((repeat 0%N k ++ repeat 1%N k)%list, t) ->
    block_amp_ov S no nv ss t b -> vs (at_ n (bsp_ov ss)) (VT b).
  Proof. intros <-. apply sp_bamp_ov, HS. Qed.
  Lemma spv_none : vs SNone VNone. Proof. apply sp_none. Qed.
  Lemma spv_dict l d : dsim rg (Aof rg atoms) (sp_slc no) (sp_adim no nv) (sp_phi no S) l d -> vs (SDict l) (VDict d).
  Proof. apply vs_Dict. Qed.
  Lemma spd_nil : dsim rg (Aof rg atoms) (sp_slc no) (sp_adim no nv) (sp_phi no S) [] [].
  Proof. constructor. Qed.
  Lemma spd_cons k s v l d : vs s v -> dsim rg (Aof rg atoms) (sp_slc no) (sp_adim no nv) (sp_phi no S) l d ->
    dsim rg (Aof rg atoms) (sp_slc no) (sp_adim no nv) (sp_phi no S) ((k, s) :: l) ((k, v) :: d).
  Proof. intros; constructor; assumption. Qed.

  Hypothesis Hat : Forall (atom_ok rg sy) atoms.
  Hypothesis Hcons : Forall (conserving no nv S) atoms.
  (** execution of an occupied-first program, seen virtual-first *)
  Theorem sp_flip k d l f a v : (k <= 4)%nat -> Forall2 vs a v ->
    (let x := srun sp_slm d l f a in
     outsp (repeat 0%N k ++ repeat 1%N k) x && outsp (repeat 1%N k ++ repeat 0%N k) (strp (flip k) x))%bool = true ->
    exists Rw R, returns d l f v Rw /\ swapped k R Rw /\
      sp_tsim no nv S atoms (repeat 1%N k ++ repeat 0%N k) (getp (strp (flip k) (srun sp_slm d l f a))) R.
  Proof.
    intros Hk H1. cbv zeta. rewrite !andb_true_iff. intros [O1 O2]. apply outsp_ok in O1, O2.
    destruct (sp_run _ _ _ HS _ _ _ _ _ _ _ _ H1 O1) as [Rw [A1 T1]].
    pose proof O2 as O2'. rewrite O1 in O2'.
    destruct (strp_sound _ _ _ _ _ _ _ _ _ eq_refl O2' T1) as [R [HT TR]].
    exists Rw, R. split; [exact A1|]. split.
    - eapply flip_swapped; [exact Hk|exact HT| |split; [reflexivity|intros; reflexivity]].
      destruct T1 as [-> _]. rewrite map_length, app_length, !repeat_length. reflexivity.
    - rewrite O1. exact TR.
  Qed.
  (** a program that returns a spin block of an array with known polynomial *)
  Theorem sp_blk ss X R d l f a v :
    sp_tsim no nv S atoms (repeat 1%N (length ss) ++ repeat 0%N (length ss)) (getp X) R ->
    Forall2 vs a v -> blkchk ss X (srun sp_slm d l f a) ->
    exists B, returns d l f v B /\ block_amp S no nv ss R B.
  Proof.
    intros TR H2 [h HC]. unfold sp_chkb, chk in HC. rewrite !andb_true_iff in HC.
    destruct HC as [O1 [[[O2 O3] Hg] Hp]]. apply outsp_ok in O1, O2, O3.
    destruct (sp_run _ _ _ HS _ _ _ _ _ _ _ _ H2 O2) as [B [A2 T2]].
    exists B. split; [exact A2|].
    eapply (sp_block_result no nv S HS atoms Hcons Hat); [exact Hg| |exact Hp|exact TR|exact T2].
    rewrite <- O3. f_equal. symmetry. exact O1.
  Qed.
End SpinTabs.

Ltac spsims HS := repeat first
  [ apply Forall2_nil | apply Forall2_cons
  | apply spv_o | apply spv_v | apply spv_oa | apply spv_va | apply spv_none | apply spv_dimO | apply spv_dimV
  | apply spv_dict | apply spd_nil | apply spd_cons
  | (apply spv_fock; [assumption|reflexivity|assumption]) | (apply spv_tei; [assumption|reflexivity|assumption])
  | (eapply (spv_amp _ _ _ HS _ _ 1); [reflexivity|assumption]) | (eapply (spv_amp _ _ _ HS _ _ 2); [reflexivity|assumption])
  | (eapply (spv_amp _ _ _ HS _ _ 3); [reflexivity|assumption]) | (eapply (spv_amp _ _ _ HS _ _ 4); [reflexivity|assumption])
  | (eapply (spv_amp_ov _ _ _ HS _ _ 1); [reflexivity|assumption]) | (eapply (spv_amp_ov _ _ _ HS _ _ 2); [reflexivity|assumption])
  | (eapply (spv_amp_ov _ _ _ HS _ _ 3); [reflexivity|assumption]) | (eapply (spv_amp_ov _ _ _ HS _ _ 4); [reflexivity|assumption])
  | (eapply (spv_swap _ _ _ HS _ _ 1); [reflexivity|eassumption|assumption])
  | (eapply (spv_swap _ _ _ HS _ _ 2); [reflexivity|eassumption|assumption])
  | (eapply (spv_swap _ _ _ HS _ _ 3); [reflexivity|eassumption|assumption])
  | (eapply (spv_swap _ _ _ HS _ _ 4); [reflexivity|eassumption|assumption]) ].

(** Symbolic arguments. *)
Definition xf_aa := SFull 0 (map axof [Up; Up]).
Definition xf_bb := SFull 0 (map axof [Dn; Dn]).
Definition xg_aaaa := SFull 1 (map axof [Up; Up; Up; Up]).
Definition xg_bbbb := SFull 1 (map axof [Dn; Dn; Dn; Dn]).
Definition xg_abab := SFull 1 (map axof [Up; Dn; Up; Dn]).
Definition xF := SFull 0 [0; 0]%N.
Definition xG := SFull 1 [0; 0; 0; 0]%N.
Definition xb (n : N) (ss : list spin) := at_ n (bsp ss).
Definition xbo (n : N) (ss : list spin) := at_ n (bsp_ov ss).
Definition xo := SSl 0. Definition xv := SSl 1. Definition xoa := SSl 2. Definition xva := SSl 3.

Ltac unx := unfold xf_aa, xf_bb, xg_aaaa, xg_bbbb, xg_abab, xF, xG, xb, xbo, xo, xv, xoa, xva.
Ltac bsims HS := unx; repeat first
  [ progress (spsims HS)
  | (eapply (spv_bf _ _ _ HS _ 0%N 2); [reflexivity|reflexivity| |eassumption];
     match goal with H : is_fock _ _ |- _ => exact (proj1 H) end)
  | (eapply (spv_bf _ _ _ HS _ 1%N 4); [reflexivity|reflexivity| |eassumption];
     match goal with H : is_tei _ _ |- _ => exact (proj1 H) end)
  | (eapply (spv_ba _ _ _ HS _ _ 1); [reflexivity|reflexivity|eassumption])
  | (eapply (spv_ba _ _ _ HS _ _ 2); [reflexivity|reflexivity|eassumption])
  | (eapply (spv_ba _ _ _ HS _ _ 3); [reflexivity|reflexivity|eassumption])
  | (eapply (spv_ba _ _ _ HS _ _ 4); [reflexivity|reflexivity|eassumption])
  | (eapply (spv_ba_ov _ _ _ HS _ _ 2); [reflexivity|reflexivity|eassumption]) ].
Ltac spoks := repeat first
  [ apply Forall_nil | apply Forall_cons
  | (apply spok_fock; assumption) | (apply spok_tei; assumption)
  | (apply (spok_amp _ _ _ _ 1); [reflexivity|lia|assumption]) | (apply (spok_amp _ _ _ _ 2); [reflexivity|lia|assumption])
  | (apply (spok_amp _ _ _ _ 3); [reflexivity|lia|assumption]) | (apply (spok_amp _ _ _ _ 4); [reflexivity|lia|assumption])
  | (apply (spok_amp_ov _ _ _ _ 1); [reflexivity|lia|assumption]) | (apply (spok_amp_ov _ _ _ _ 2); [reflexivity|lia|assumption])].
Ltac spcons := repeat first
  [ apply Forall_nil | apply Forall_cons
  | (apply spc_fock; assumption) | (apply spc_tei; assumption)
  | (apply (spc_amp _ _ _ _ 1); assumption) | (apply (spc_amp _ _ _ _ 2); assumption)
  | (apply (spc_amp _ _ _ _ 3); assumption) | (apply (spc_amp _ _ _ _ 4); assumption)
  | (apply (spc_amp_ov _ _ _ _ 1); assumption) | (apply (spc_amp_ov _ _ _ _ 2); assumption)].

