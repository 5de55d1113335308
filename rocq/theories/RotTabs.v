(** Orbital rotations of the routines: from the syntactic check of [Rot] to arrays.  Proof machinery; it models no particular source line. *)
From Coq Require Import String Ascii List Arith NArith ZArith QArith Qcanon Bool Lia Permutation.
From Verif Require Import Sums Tensor Interp Poly SymExec Canon Spec SpecFrag SpecRot Setup Master Spin Check Tabs Frag P_wanti Rot.
From Coq Require Import List.
Import ListNotations.
Open Scope list_scope.
Open Scope Qc_scope.

Definition rotchk (ks : list kind) (r : option sval) : bool :=
  (outsp (map ksp ks) r && good (map ksp ks) && forallb noAl ks && rotpoly (map ksp ks) (getp r))%bool.
Ltac rtchk := vm_cast_no_check (eq_refl true).

Section Tab.
  Variables no nv : nat.
  Variables Uo Uv : nat -> nat -> Qc.
  Hypothesis Ho : orthogonal no Uo.
  Hypothesis Hv : orthogonal nv Uv.
  Local Notation rg := (so_range no nv).
  Local Notation ra := (rot_at no nv Uo Uv).
  Local Notation rotd := (rotated no nv Uo Uv).
  Definition Uabs : nat -> nat -> Qc := rmat no Uo Uv Al.
  Local Notation rl := (rotl rg Uabs).
  Lemma okS_cases s : okS s = true -> s = 0%N \/ s = 1%N.
  Proof. unfold okS. rewrite orb_true_iff, !N.eqb_eq. auto. Qed.
  Lemma suml_off a n (F : nat -> Qc) : suml (seq a n) F = suml (seq 0 n) (fun i => F (a + i)%nat).
  Proof.
    revert F. induction a as [|a IH]; intros F; [reflexivity|]. rewrite suml_seq_shift, IH. apply suml_ext. intros i _. reflexivity.
  Qed.
  Lemma lt_t a : (a < no)%nat -> (a <? no)%nat = true. Proof. apply Nat.ltb_lt. Qed.
  Lemma lt_f a : (no <= a)%nat -> (a <? no)%nat = false. Proof. apply Nat.ltb_ge. Qed.
  Lemma Uabs_orth s y z : okS s = true -> In y (rg s) -> In z (rg s) -> suml (rg s) (fun x => Uabs x y * Uabs x z) = if Nat.eqb y z then 1 else 0.
  Proof.
    intros O Iy Iz. destruct (okS_cases s O); subst s; cbn [so_range] in *; apply in_seq in Iy, Iz; unfold Uabs; cbn [rmat].
    - rewrite <- (Ho y z) by lia. apply suml_ext. intros x Ix. apply in_seq in Ix. rewrite !lt_t by lia. reflexivity.
    - rewrite (suml_off no nv). transitivity (suml (seq 0 nv) (fun k => Uv k (y - no)%nat * Uv k (z - no)%nat)).
      + apply suml_ext. intros x Ix. rewrite !lt_f by lia. replace (no + x - no)%nat with x by lia. reflexivity.
      + rewrite Hv by lia. destruct (Nat.eqb_spec (y - no) (z - no)), (Nat.eqb_spec y z); try reflexivity; lia.
  Qed.
  Lemma ax_sum k s x (G : nat -> Qc) : okS s = true -> In x (rg s) -> In x (rg (ksp k)) ->
    (Sum j < ksize no nv k, rmat no Uo Uv k (index_of x (rg (ksp k))) j * G j) = suml (rg s) (fun y => Uabs x y * G (index_of y (rg (ksp k)))).
  Proof.
    intros O Ix Jx. destruct (okS_cases s O); subst s.
    - destruct k; cbn [so_range ksp ksize] in *; apply in_seq in Ix.
      + apply suml_ext. intros y Iy. rewrite !index_of_seq, !Nat.sub_0_r by (apply in_seq; apply in_seq in Iy; lia). apply in_seq in Iy.
        unfold Uabs; cbn [rmat]. rewrite !lt_t by lia. reflexivity.
      + apply in_seq in Jx. lia.
      + rewrite seq_app, suml_app. rewrite (suml_zero _ (seq (0 + no) nv)).
        * rewrite Qcplus_0_r. apply suml_ext. intros y Iy. apply in_seq in Iy. rewrite <- seq_app, !index_of_seq, !Nat.sub_0_r by (apply in_seq; lia). reflexivity.
        * intros y Iy. apply in_seq in Iy. rewrite <- seq_app, index_of_seq, Nat.sub_0_r by (apply in_seq; lia). cbn [rmat]. rewrite lt_t, lt_f by lia. ring.
    - destruct k; cbn [so_range ksp ksize] in *; apply in_seq in Ix.
      + apply in_seq in Jx. lia.
      + rewrite (suml_off no nv). apply suml_ext. intros y Iy. apply in_seq in Iy. rewrite !index_of_seq by (apply in_seq; lia). unfold Uabs; cbn [rmat]. rewrite !lt_f by lia.
        replace (no + y - no)%nat with y by lia. reflexivity.
      + rewrite seq_app, suml_app. rewrite (suml_zero _ (seq 0 no)).
        * rewrite Qcplus_0_l. cbn [Nat.add]. apply suml_ext. intros y Iy. apply in_seq in Iy. rewrite <- seq_app, !index_of_seq, !Nat.sub_0_r by (apply in_seq; lia). reflexivity.
        * intros y Iy. apply in_seq in Iy. rewrite <- seq_app, index_of_seq, Nat.sub_0_r by (apply in_seq; lia). cbn [rmat]. rewrite (lt_f x), (lt_t y) by lia. ring.
  Qed.
  Lemma rot_rotl ks : forall ss l F, forallb okS ss = true -> Forall2 (fun x s => In x (rg s)) l ss -> Forall2 (fun s x => In x (rg s)) (map ksp ks) l ->
    ra ks F (rel rg (map ksp ks) l) = rl ss (fun q => F (rel rg (map ksp ks) q)) l.
  Proof.
    induction ks as [|k ks IH]; intros ss l F O I1 I2.
    - cbn [map] in I2. inversion I2; subst. inversion I1; subst. reflexivity.
    - cbn [map] in I2. inversion I2 as [|? x ? l' J1 J2]; subst. inversion I1 as [|? s ? ss' J3 J4]; subst.
      cbn [map forallb] in *. apply andb_true_iff in O. destruct O as [O1 O2]. unfold rel at 1. rewrite zipw_cons. cbn [rot_at rotl].
      rewrite (ax_sum k s x _ O1 J3 J1). apply suml_ext. intros y Iy. f_equal.
      change (zipw _ (map ksp ks) l') with (rel rg (map ksp ks) l'). rewrite (IH _ _ _ O2 J4 J2).
      apply rotl_ext; [|symmetry; eapply Forall2_len; exact J4]. intros q _. unfold rel. rewrite zipw_cons. reflexivity.
  Qed.
  Lemma same_class s k x y : okS s = true -> In x (rg s) -> In y (rg s) -> In x (rg (ksp k)) -> In y (rg (ksp k)).
  Proof.
    intros O. destruct (okS_cases s O); subst s; destruct k; cbn [so_range ksp]; rewrite !in_seq; lia.
  Qed.
  Lemma same_classes ks : forall ss l m, forallb okS ss = true -> Forall2 (fun x s => In x (rg s)) l ss -> Forall2 (fun x s => In x (rg s)) m ss ->
    Forall2 (fun s x => In x (rg s)) (map ksp ks) l -> Forall2 (fun s x => In x (rg s)) (map ksp ks) m.
  Proof.
    induction ks as [|k ks IH]; intros ss l m O I1 I2 I3; cbn [map] in *.
    - inversion I3; subst. inversion I1; subst. inversion I2; subst. constructor.
    - inversion I3 as [|? x ? l' J1 J2]; subst. inversion I1 as [|? s ? ss' J3 J4]; subst. inversion I2 as [|y ? m' ? J5 J6]; subst.
      cbn [forallb] in *. apply andb_true_iff in O. destruct O as [O1 O2]. constructor; [exact (same_class s k x y O1 J3 J5 J1)|]. exact (IH ss' l' m' O2 J4 J6 J2).
  Qed.

  (** *** Atom tables *)
  Definition rtab (a b : N * (list space * tensor)) : Prop :=
    fst a = fst b /\ exists ks, fst (snd a) = map ksp ks /\ fst (snd b) = map ksp ks /\ rotd ks (snd (snd a)) (snd (snd b)).
  Variables atoms atoms' : atomtab.
  Hypothesis Hat : Forall2 rtab atoms atoms'.
  Lemma nlook_rot n : (nlook n atoms = None /\ nlook n atoms' = None) \/
    exists ks t t', nlook n atoms = Some (map ksp ks, t) /\ nlook n atoms' = Some (map ksp ks, t') /\ rotd ks t t'.
  Proof.
    induction Hat as [|[a [sa ta]] [b [sb tb]] la lb H HF IH]; [left; split; reflexivity|]. destruct H as [E [ks [K1 [K2 R]]]]. cbn [fst snd] in *. subst. cbn [nlook].
    destruct (N.eqb n b); [|exact (IH HF)]. right. exists ks, ta, tb. auto.
  Qed.
  Lemma map_dim_so ks : map (dim rg) (map ksp ks) = map (ksize no nv) ks.
  Proof. rewrite map_map. apply map_ext. intros k. unfold dim. destruct k; cbn [ksp so_range ksize]; apply seq_length. Qed.
  Lemma HA_so n ss idx : forallb okS ss = true -> Forall2 (fun x s => In x (rg s)) idx ss -> Aof rg atoms' n idx = rl ss (Aof rg atoms n) idx.
  Proof.
    intros O I. unfold Aof. pose proof (Forall2_len _ _ _ I) as L.
    assert (Z : forall F, (forall q, Forall2 (fun x s => In x (rg s)) q ss -> F q = 0) -> rl ss F idx = 0).
    { intros F HF. apply rotl_zero; [|auto]. rewrite L, firstn_all. exact HF. }
    destruct (nlook_rot n) as [[H1 H2]|[ks [t [t' [H1 [H2 [S1 [S2 R]]]]]]]]; rewrite H1, H2; [symmetry; apply Z; reflexivity|].
    destruct (inrb rg (map ksp ks) idx) eqn:E.
    - apply inrb_spec in E. rewrite R by (rewrite S2, <- map_dim_so; apply rel_inr, E). rewrite (rot_rotl ks ss idx _ O I E).
      apply rotl_ext; [|auto]. intros q Hq. rewrite (proj2 (inrb_spec _ _ _)); [reflexivity|]. eapply same_classes; [exact O|exact I|exact Hq|exact E].
    - symmetry. apply Z. intros q Hq. destruct (inrb rg (map ksp ks) q) eqn:E'; [|reflexivity]. exfalso.
      apply inrb_spec in E'. enough (inrb rg (map ksp ks) idx = true) by congruence. apply inrb_spec. eapply same_classes; [exact O|exact Hq|exact I|exact E'].
  Qed.
  Lemma xenv_spaces sps : xs_ok sps = true -> map spc (xvs sps) = sps.
  Proof.
    unfold xs_ok, xvs. intros H. assert (G : forall l k, forallb (fun i => N.eqb (spc (mkv (nth i l 0%N) (N.of_nat (k + i)))) (nth i l 0%N)) (seq 0 (length l)) = true ->
      map spc (xvs_from (N.of_nat k) l) = l).
    { clear. induction l as [|s l IH]; intros k H; [reflexivity|]. cbn [length seq forallb] in H. apply andb_true_iff in H. destruct H as [H1 H2]. cbn [xvs_from map]. f_equal.
      - cbn [nth] in H1. rewrite Nat.add_0_r in H1. apply N.eqb_eq. exact H1.
      - replace (N.of_nat k + 1)%N with (N.of_nat (Datatypes.S k)) by lia. apply IH. rewrite forallb_forall in *. intros i Hi. specialize (H2 (Datatypes.S i)).
        cbn [nth] in H2. rewrite <- Nat.add_succ_comm in H2. apply H2. apply in_seq. apply in_seq in Hi. lia. }
    apply (G sps O H).
  Qed.
  Lemma rot_ok ks p R R' : good (map ksp ks) = true -> forallb noAl ks = true -> rotpoly (map ksp ks) p = true ->
    so_tsim no nv atoms (map ksp ks) p R -> so_tsim no nv atoms' (map ksp ks) p R' -> rotd ks R R'.
  Proof.
    intros G K P [S1 T1] [S2 T2]. set (sps := map ksp ks) in *. unfold good in G. apply andb_true_iff in G. destruct G as [GN GX].
    split; [rewrite S1; apply map_dim_so|]. split; [rewrite S2; apply map_dim_so|]. intros idx Hi.
    pose proof Hi as Hi'. rewrite S2 in Hi'. pose proof (agree_env rg sps idx GN Hi') as AG.
    rewrite (T2 idx _ Hi AG). rewrite (poly_rot rg (so_nodup no nv) Uabs Uabs_orth (Aof rg atoms) (Aof rg atoms') HA_so sps p _ GN P).
    2:{ intros x Ix. eapply inr_in; [exact Hi'|exact AG|exact Ix|exact GX]. }
    unfold eagree in AG. rewrite AG, (xenv_spaces sps GX).
    pose proof (orbs_in rg sps idx Hi') as OI.
    assert (OI' : Forall2 (fun x s => In x (rg s)) (orbs rg sps idx) sps) by (clear -OI; induction OI; constructor; assumption).
    assert (OK : forallb okS sps = true). { unfold sps. clear -K. induction ks as [|k r IH]; [reflexivity|]. cbn [map forallb] in *. apply andb_true_iff in K. destruct K as [K1 K2]. rewrite IH by exact K2. destruct k; [reflexivity|reflexivity|discriminate]. }
    transitivity (ra ks (data R) (rel rg sps (orbs rg sps idx))); [|rewrite (rel_orbs rg (so_nodup no nv) sps idx Hi'); reflexivity].
    pose proof (rot_rotl ks sps (orbs rg sps idx) (data R) OK OI' OI) as RR. fold sps in RR. rewrite RR. clear RR. apply rotl_ext; [|symmetry; eapply Forall2_len; exact OI'].
    intros l Hl. symmetry. assert (HL : Forall2 (fun s x => In x (rg s)) sps l) by (clear -Hl; induction Hl; constructor; assumption).
    apply T1; [rewrite S1; apply rel_inr, HL|]. unfold eagree.
    assert (EL : orbs rg sps (rel rg sps l) = l).
    { clear -HL. unfold orbs, rel. induction HL as [|s x ss l Hx H IH]; [reflexivity|]. rewrite !zipw_cons. f_equal; [|exact IH]. apply nth_index_of; exact Hx. }
    rewrite EL. pose proof (Forall2_len _ _ _ HL) as LL. apply nodupv_NoDup in GN. clear -GN LL. rewrite <- (xvs_length sps) in LL. revert l LL. generalize dependent (xvs sps).
    induction l as [|x xs IH]; intros GN [|i l] LL; try discriminate; [reflexivity|]. inversion GN as [|? ? N1 N2]; subst. cbn [xenv map]. unfold upd at 1. rewrite N.eqb_refl. f_equal.
    etransitivity; [|apply (IH N2 l); cbn in LL; lia]. apply map_ext_in. intros y Iy. unfold upd. destruct (N.eqb_spec y x); [subst; contradiction|reflexivity].
  Qed.
  Lemma rot_residual d l f ks a v v' : Forall2 (so_vsim no nv atoms) a v -> Forall2 (so_vsim no nv atoms') a v' -> rotchk ks (srun so_slm d l f a) = true ->
    exists R R', returns d l f v R /\ returns d l f v' R' /\ rotd ks R R'.
  Proof.
    unfold rotchk. rewrite !andb_true_iff. intros V V' [[[O G] K] P].
    destruct (so_exec _ _ _ _ _ _ _ _ _ V O) as [R [E [T _]]], (so_exec _ _ _ _ _ _ _ _ _ V' O) as [R' [E' [T' _]]].
    exists R, R'. split; [exact E|]. split; [exact E'|]. eapply rot_ok; eassumption.
  Qed.
End Tab.

Section Vs.
  Variables no nv : nat.
  Variables Uo Uv : nat -> nat -> Qc.
  Local Notation rotd := (rotated no nv Uo Uv).
  Lemma rv_full atoms n k t t' : nlook n atoms = Some (repeat 6%N k, t) -> rotd (repeat Al k) t t' -> so_vsim no nv atoms (SFull n (repeat 0%N k)) (VT t).
  Proof. intros H [S _]. apply so_full; [exact H|]. rewrite S, map_repeat. reflexivity. Qed.
  Lemma rv_full' atoms n k t t' : nlook n atoms = Some (repeat 6%N k, t') -> rotd (repeat Al k) t t' -> so_vsim no nv atoms (SFull n (repeat 0%N k)) (VT t').
  Proof. intros H [_ [S _]]. apply so_full; [exact H|]. rewrite S, map_repeat. reflexivity. Qed.
  Lemma rv_at atoms n ks t t' : nlook n atoms = Some (map ksp ks, t) -> rotd ks t t' -> so_vsim no nv atoms (at_ n (map ksp ks)) (VT t).
  Proof. intros H [S _]. apply so_atom; [exact H|]. rewrite S. symmetry. apply map_dim_so. Qed.
  Lemma rv_at' atoms n ks t t' : nlook n atoms = Some (map ksp ks, t') -> rotd ks t t' -> so_vsim no nv atoms (at_ n (map ksp ks)) (VT t').
  Proof. intros H [_ [S _]]. apply so_atom; [exact H|]. rewrite S. symmetry. apply map_dim_so. Qed.
  Lemma rt_cons n ks t t' : rotd ks t t' -> rtab no nv Uo Uv (n, (map ksp ks, t)) (n, (map ksp ks, t')).
  Proof. intros H. split; [reflexivity|]. exists ks. auto. Qed.
End Vs.
(** the first argument list of tables of rotated arrays *)
Ltac rtabs := repeat first [ apply Forall2_nil | apply Forall2_cons | eassumption
  | match goal with H : rotated _ _ _ _ ?ks ?t ?t' |- rtab _ _ _ _ (?n, (_, ?t)) (?n, (_, ?t')) => exact (rt_cons _ _ _ _ n ks t t' H) end ].
Ltac rvs := repeat first
  [ apply Forall2_nil | apply Forall2_cons | apply so_sl0 | apply so_sl1 | apply so_none | apply so_dimO | apply so_dimV
  | match goal with
    | H : rotated _ _ _ _ [Al; Al] ?t _ |- so_vsim _ _ _ (SFull ?n _) (VT ?t) => refine (rv_full _ _ _ _ _ n 2 t _ _ H); reflexivity
    | H : rotated _ _ _ _ [Al; Al; Al; Al] ?t _ |- so_vsim _ _ _ (SFull ?n _) (VT ?t) => refine (rv_full _ _ _ _ _ n 4 t _ _ H); reflexivity
    | H : rotated _ _ _ _ [Al; Al] _ ?t |- so_vsim _ _ _ (SFull ?n _) (VT ?t) => refine (rv_full' _ _ _ _ _ n 2 _ t _ H); reflexivity
    | H : rotated _ _ _ _ [Al; Al; Al; Al] _ ?t |- so_vsim _ _ _ (SFull ?n _) (VT ?t) => refine (rv_full' _ _ _ _ _ n 4 _ t _ H); reflexivity
    | H : rotated _ _ _ _ ?ks ?t _ |- so_vsim _ _ _ (at_ ?n _) (VT ?t) => refine (rv_at _ _ _ _ _ n ks t _ _ H); reflexivity
    | H : rotated _ _ _ _ ?ks _ ?t |- so_vsim _ _ _ (at_ ?n _) (VT ?t) => refine (rv_at' _ _ _ _ _ n ks _ t _ H); reflexivity
    end ].

(** A routine that ends with an antisymmetriser. *)
Section End_.
  Variables no nv : nat.
  Variables Uo Uv : nat -> nat -> Qc.
  Hypothesis Ho : orthogonal no Uo.
  Hypothesis Hv : orthogonal nv Uv.
  Local Notation rotd := (rotated no nv Uo Uv).
  Lemma rot_anti d lib g k X X' : rotd (ov_kinds k) X X' -> rotchk (ov_kinds k) (srun so_slm d lib g [at_ 8 (map ksp (ov_kinds k)); SNone; SNone]) = true ->
    exists R R', returns d lib g [VT X; VNone; VNone] R /\ returns d lib g [VT X'; VNone; VNone] R' /\ rotd (ov_kinds k) R R'.
  Proof.
    intros H C. set (tab := [(8%N, (map ksp (ov_kinds k), X))] : atomtab). set (tab' := [(8%N, (map ksp (ov_kinds k), X'))] : atomtab).
    refine (rot_residual no nv Uo Uv Ho Hv tab tab' _ d lib g (ov_kinds k) _ _ _ _ _ C).
    - repeat constructor. exists (ov_kinds k). cbn [fst snd]. auto.
    - constructor; [eapply rv_at; [reflexivity|exact H]|]. repeat constructor.
    - constructor; [eapply rv_at'; [reflexivity|exact H]|]. repeat constructor.
  Qed.
  Lemma rot_anti_dims d lib g k X X' : rotd (ov_kinds k) X X' -> rotchk (ov_kinds k) (srun so_slm d lib g [at_ 8 (map ksp (ov_kinds k)); SDim 0; SDim 1]) = true ->
    exists R R', returns d lib g [VT X; VInt no; VInt nv] R /\ returns d lib g [VT X'; VInt no; VInt nv] R' /\ rotd (ov_kinds k) R R'.
  Proof.
    intros H C. set (tab := [(8%N, (map ksp (ov_kinds k), X))] : atomtab). set (tab' := [(8%N, (map ksp (ov_kinds k), X'))] : atomtab).
    refine (rot_residual no nv Uo Uv Ho Hv tab tab' _ d lib g (ov_kinds k) _ _ _ _ _ C).
    - repeat constructor. exists (ov_kinds k). cbn [fst snd]. auto.
    - constructor; [eapply rv_at; [reflexivity|exact H]|]. rvs.
    - constructor; [eapply rv_at'; [reflexivity|exact H]|]. rvs.
  Qed.
  Variables atoms atoms' : atomtab.
  Hypothesis Hat : Forall2 (rtab no nv Uo Uv) atoms atoms'.
  Lemma rot_end f nm g k a v v' : Forall2 (so_vsim no nv atoms) a v -> Forall2 (so_vsim no nv atoms') a v' ->
    ends_with nm f = true -> slook nm lib_tamps = Some g ->
    rotchk (ov_kinds k) (srun so_slm 1 lib_tamps (before f) a) = true ->
    rotchk (ov_kinds k) (srun so_slm 0 lib_tamps g [at_ 8 (map ksp (ov_kinds k)); SNone; SNone]) = true ->
    exists R R', returns 1 lib_tamps f v R /\ returns 1 lib_tamps f v' R' /\ rotd (ov_kinds k) R R'.
  Proof.
    intros V V' E L C C2. destruct (rot_residual no nv Uo Uv Ho Hv atoms atoms' Hat _ _ _ _ _ _ _ V V' C) as [X [X' [E1 [E2 RX]]]].
    destruct (rot_anti 0 lib_tamps g k X X' RX C2) as [R [R' [R1 [R2 RR]]]]. exists R, R'.
    split; [unfold returns; rewrite (ends nm lib_tamps g f v X E L E1); exact R1|].
    split; [unfold returns; rewrite (ends nm lib_tamps g f v' X' E L E2); exact R2|exact RR].
  Qed.
End End_.

(** The arrays in the new orbitals exist. *)
Definition rot_tensor (no nv : nat) (Uo Uv : nat -> nat -> Qc) (ks : list kind) (t : tensor) : tensor :=
  mkT (map (ksize no nv) ks) (fun idx => rot_at no nv Uo Uv ks (data t) idx).
Lemma rot_tensor_ok no nv Uo Uv ks t : shape t = map (ksize no nv) ks -> rotated no nv Uo Uv ks t (rot_tensor no nv Uo Uv ks t).
Proof. intros H. split; [exact H|]. split; reflexivity. Qed.
Lemma rot_at_zero no nv Uo Uv ks : forall F idx, length idx = length ks -> (forall l, inr l (map (ksize no nv) ks) -> F l = 0) -> rot_at no nv Uo Uv ks F idx = 0.
Proof.
  induction ks as [|k ks IH]; intros F [|i idx] L H; try discriminate; cbn [rot_at]; [apply H; constructor|].
  apply suml_zero. intros j Hj. apply in_seq in Hj. rewrite IH; [ring|cbn in L; lia|]. intros l Hl. apply H. constructor; [lia|exact Hl].
Qed.
Lemma rotated_zero no nv Uo Uv ks t t' : rotated no nv Uo Uv ks t t' -> zero_tensor t -> zero_tensor t'.
Proof.
  intros [S1 [S2 R]] Z idx Hi. rewrite R by exact Hi. apply rot_at_zero.
  - rewrite S2 in Hi. apply Forall2_len in Hi. rewrite map_length in Hi. exact Hi.
  - intros l Hl. apply Z. rewrite S1. exact Hl.
Qed.

(** ** The transformed arrays have the symmetries of the original ones *)
Section Sym.
  Variables no nv : nat.
  Variables Uo Uv : nat -> nat -> Qc.
  Local Notation ra := (rot_at no nv Uo Uv).
  Local Notation sz := (map (ksize no nv)).
  Lemma ra_ext ks : forall F G idx, length idx = length ks -> (forall l, inr l (sz ks) -> F l = G l) -> ra ks F idx = ra ks G idx.
  Proof.
    induction ks as [|k ks IH]; intros F G [|i idx] L H; try discriminate; cbn [rot_at]; [apply H; constructor|].
    apply suml_ext. intros j Hj. apply in_seq in Hj. f_equal. apply IH; [cbn in L; lia|]. intros l Hl. apply H. constructor; [lia|exact Hl].
  Qed.
  Lemma ra_opp ks : forall F idx, ra ks (fun l => - F l) idx = - ra ks F idx.
  Proof.
    induction ks as [|k ks IH]; intros F [|i idx]; cbn [rot_at]; try reflexivity. rewrite <- suml_opp. apply suml_ext. intros j _. rewrite (IH (fun r => F (j :: r))). ring.
  Qed.
  Lemma ra_sum ks {X} (l : list X) (c : X -> Qc) : forall G idx, ra ks (fun b => suml l (fun j => c j * G j b)) idx = suml l (fun j => c j * ra ks (G j) idx).
  Proof.
    induction ks as [|k ks IH]; intros G [|i idx]; cbn [rot_at]; try reflexivity.
    transitivity (suml (seq 0 (ksize no nv k)) (fun y => suml l (fun j => c j * (rmat no Uo Uv k i y * ra ks (fun r => G j (y :: r)) idx)))).
    - apply suml_ext. intros y _. rewrite (IH (fun j r => G j (y :: r))), <- suml_scale. apply suml_ext. intros j _. ring.
    - rewrite suml_swap. apply suml_ext. intros j _. rewrite suml_scale. reflexivity.
  Qed.
  Lemma ra_app ks1 : forall ks2 F l1 l2, length l1 = length ks1 -> ra (ks1 ++ ks2) F (l1 ++ l2) = ra ks1 (fun a => ra ks2 (fun b => F (a ++ b)) l2) l1.
  Proof.
    induction ks1 as [|k ks1 IH]; intros ks2 F [|i l1] l2 L; try discriminate; cbn [app rot_at]; [reflexivity|].
    apply suml_ext. intros j _. f_equal. rewrite (IH ks2 (fun r => F (j :: r))) by (cbn in L; lia). reflexivity.
  Qed.
  Lemma ra_comm ks1 : forall ks2 F l1 l2, length l1 = length ks1 -> length l2 = length ks2 ->
    ra ks1 (fun a => ra ks2 (fun b => F a b) l2) l1 = ra ks2 (fun b => ra ks1 (fun a => F a b) l1) l2.
  Proof.
    induction ks1 as [|k ks1 IH]; intros ks2 F [|i l1] l2 L1 L2; try discriminate; cbn [rot_at]; [reflexivity|].
    rewrite ra_sum. apply suml_ext. intros j _. f_equal. rewrite (IH ks2 (fun a => F (j :: a))) by (cbn in L1; lia). reflexivity.
  Qed.
  Lemma ra_antis K pre : forall ks x y post F, nth_error ks (length pre) = Some K -> nth_error ks (Datatypes.S (length pre)) = Some K ->
    length (pre ++ x :: y :: post) = length ks ->
    (forall p a b q, length p = length pre -> inr (p ++ a :: b :: q) (sz ks) -> inr (p ++ b :: a :: q) (sz ks) -> F (p ++ a :: b :: q) = - F (p ++ b :: a :: q)) ->
    ra ks F (pre ++ x :: y :: post) = - ra ks F (pre ++ y :: x :: post).
  Proof.
    induction pre as [|z pre IH]; intros [|k ks] x y post F N1 N2 L H; try discriminate; cbn [length nth_error app] in *.
    - destruct ks as [|k' ks]; [discriminate|]. cbn [nth_error] in N2. injection N1 as ->. injection N2 as ->. cbn [rot_at].
      transitivity (Sum j < ksize no nv K, Sum j' < ksize no nv K, rmat no Uo Uv K x j * rmat no Uo Uv K y j' * ra ks (fun r => F (j :: j' :: r)) post).
      { apply suml_ext. intros j _. rewrite <- suml_scale. apply suml_ext. intros j' _. ring. }
      rewrite suml_swap, <- suml_opp. apply suml_ext. intros j Hj. apply in_seq in Hj.
      replace (- (rmat no Uo Uv K y j * (Sum j0 < ksize no nv K, rmat no Uo Uv K x j0 * ra ks (fun r => F (j :: j0 :: r)) post)))
         with ((- rmat no Uo Uv K y j) * (Sum j0 < ksize no nv K, rmat no Uo Uv K x j0 * ra ks (fun r => F (j :: j0 :: r)) post)) by ring.
      rewrite <- suml_scale. apply suml_ext. intros j' Hj'. apply in_seq in Hj'.
      rewrite (ra_ext ks (fun r => F (j' :: j :: r)) (fun r => - F (j :: j' :: r))).
      + rewrite (ra_opp ks (fun r => F (j :: j' :: r))). ring.
      + cbn [length] in L. lia.
      + intros l Hl. apply (H [] j' j l eq_refl); cbn [app map]; repeat constructor; try lia; exact Hl.
    - cbn [rot_at]. rewrite <- suml_opp. apply suml_ext. intros j Hj. apply in_seq in Hj. rewrite (IH ks x y post (fun r => F (j :: r)) N1 N2); [ring|lia|].
      intros p a b q Lp I1 I2. apply (H (j :: p) a b q); cbn [length app map]; [lia| |]; constructor; try lia; assumption.
  Qed.
  Lemma rot_antis_in ks t t' i K : rotated no nv Uo Uv ks t t' -> nth_error ks i = Some K -> nth_error ks (Datatypes.S i) = Some K -> antisymmetric_in t i -> antisymmetric_in t' i.
  Proof.
    intros [S1 [S2 R]] N1 N2 A pre x y post L I1 I2. rewrite (R _ I1), (R _ I2). subst i. eapply ra_antis; try eassumption.
    - rewrite S2 in I1. apply Forall2_len in I1. rewrite map_length in I1. exact I1.
    - intros p a b q Lp J1 J2. apply A; [exact Lp| |]; rewrite S1; assumption.
  Qed.
  Lemma two_nth (K1 K2 : kind) k i : (Datatypes.S i < k)%nat -> nth_error (repeat K1 k ++ repeat K2 k) i = Some K1 /\ nth_error (repeat K1 k ++ repeat K2 k) (Datatypes.S i) = Some K1 /\
    nth_error (repeat K1 k ++ repeat K2 k) (k + i) = Some K2 /\ nth_error (repeat K1 k ++ repeat K2 k) (Datatypes.S (k + i)) = Some K2.
  Proof.
    intros H. assert (R : forall (K : kind) n j, (j < n)%nat -> nth_error (repeat K n) j = Some K).
    { clear. intros K n. induction n as [|n IH]; intros [|j] Hj; try lia; [reflexivity|]. cbn. apply IH. lia. }
    rewrite !nth_error_app1 by (rewrite repeat_length; lia). rewrite !nth_error_app2 by (rewrite repeat_length; lia). rewrite !repeat_length.
    replace (k + i - k)%nat with i by lia. replace (Datatypes.S (k + i) - k)%nat with (Datatypes.S i) by lia. rewrite !R by lia. auto.
  Qed.
  Lemma rot_antis K1 K2 k t t' : rotated no nv Uo Uv (repeat K1 k ++ repeat K2 k) t t' -> antisymmetric k t -> antisymmetric k t'.
  Proof.
    intros R A i Hi. destruct (A i Hi) as [A1 A2], (two_nth K1 K2 k i Hi) as [N1 [N2 [N3 N4]]]. split; eapply rot_antis_in; eassumption.
  Qed.
  Lemma rot_herm K k t t' : rotated no nv Uo Uv (repeat K k ++ repeat K k) t t' -> hermitian k t -> hermitian k t'.
  Proof.
    intros [S1 [S2 R]] H l1 l2 L1 L2 I.
    assert (I' : inr (l2 ++ l1) (shape t')).
    { rewrite S2, map_app in I |- *. apply Forall2_app_inv_r in I. destruct I as [a [b [I1 [I2 E]]]].
      assert (length a = k) by (apply Forall2_len in I1; rewrite map_length, repeat_length in I1; exact I1).
      assert (a = l1 /\ b = l2) as [-> ->]. { apply app_inj_tail_iff || idtac. clear -E H0 L1. revert l1 L1 E H0. generalize k. induction a as [|x a IH]; intros n [|y l1] L1 E La; cbn in *; subst n; try discriminate; [split; [reflexivity|symmetry; exact E]|].
        injection E as -> E. destruct (IH (length a) l1) as [-> ->]; try lia; auto. }
      apply Forall2_app; assumption. }
    rewrite (R _ I), (R _ I').
    rewrite !ra_app by (rewrite repeat_length; assumption). rewrite ra_comm by (rewrite repeat_length; assumption).
    apply ra_ext; [rewrite repeat_length; assumption|]. intros b Hb. apply ra_ext; [rewrite repeat_length; assumption|]. intros a Ha.
    apply H; [apply Forall2_len in Ha; rewrite map_length, repeat_length in Ha; exact Ha|apply Forall2_len in Hb; rewrite map_length, repeat_length in Hb; exact Hb|].
    rewrite S1, map_app. apply Forall2_app; assumption.
  Qed.
  Lemma rot_fock f f' : rotated no nv Uo Uv [Al; Al] f f' -> is_fock (no + nv) f -> is_fock (no + nv) f'.
  Proof. intros R [S H]. split; [apply R|]. apply (rot_herm Al 1 f f' R H). Qed.
  Lemma rot_tei g g' : rotated no nv Uo Uv [Al; Al; Al; Al] g g' -> is_tei (no + nv) g -> is_tei (no + nv) g'.
  Proof. intros R [S [A H]]. split; [apply R|]. split; [exact (rot_antis Al Al 2 g g' R A)|exact (rot_herm Al 2 g g' R H)]. Qed.
  Lemma rot_amp k t t' : rotated no nv Uo Uv (vo_kinds k) t t' -> is_amp k no nv t -> is_amp k no nv t'.
  Proof.
    intros R [S A]. split; [|exact (rot_antis Vi Oc k t t' R A)]. destruct R as [_ [S' _]]. rewrite S'. unfold vo_kinds. rewrite map_app, !map_repeat. reflexivity.
  Qed.
  Lemma rot_amp_ov k t t' : rotated no nv Uo Uv (ov_kinds k) t t' -> is_amp_ov k no nv t -> is_amp_ov k no nv t'.
  Proof.
    intros R [S A]. split; [|exact (rot_antis Oc Vi k t t' R A)]. destruct R as [_ [S' _]]. rewrite S'. unfold ov_kinds. rewrite map_app, !map_repeat. reflexivity.
  Qed.
End Sym.
