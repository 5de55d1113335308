(** C68: a spin-orbital calculation in rotated orbitals goes through the same steps as the calculation in the original
    orbitals and ends alike, when the rotation only mixes orbitals of equal orbital energy. *)
From Coq Require Import String Ascii List Arith NArith ZArith QArith Qcanon Bool Lia Permutation.
From Verif Require Import Sums Tensor Interp Numpy Poly SymExec Canon Spec SpecFrag SpecRot Instances Setup Master Spin Check Tabs NF Antisym P_antisym Frag P_wanti Rot RotTabs P_rot P_rot2.
From Verif Require Import Diis Kernel SlowCC Cut P_xcc SpecDriver P_ccsd P_slow P_slow3 P_xcc2 P_frag2 Linear P_driver RelRun.
From Verif Require Code_t2residEqnsSlow Code_t2energySlow Code_drive_ucc4.
From Coq Require Import List.
Import ListNotations.
Open Scope string_scope.
Open Scope list_scope.
Open Scope Qc_scope.

(** *** Specification *)
(** Orbitals of different energy are not mixed: [eps] are the energies of the old orbitals, [eps'] those of the new ones. *)
Definition mixes_equal_energies (no nv : nat) (Uo Uv : nat -> nat -> Qc) (eps eps' : nat -> Qc) : Prop :=
  forall i j, (i < no + nv)%nat -> (j < no + nv)%nat -> rmat no Uo Uv Al i j <> 0 -> eps' i = eps j.
(** the array that a calculation keeps under the name [k] has this many occupied and virtual indices *)
Definition amp_rank (k : string) : nat := if k =? "t1aa" then 1 else if k =? "t3aa" then 3 else 2.
(** Both calculations stop in the same way: they return the same energies, and the amplitudes of the second are those of the first
    in the new orbitals; or both exit; or both raise. *)
Definition same_end (no nv : nat) (Uo Uv : nat -> nat -> Qc) (x y : outcome) : Prop :=
  match x, y with
  | Returned d e co, Returned d' e' co' => e' = e /\ co' = co /\
      forall k, match slook k d, slook k d' with
                | Some t, Some t' => rotated no nv Uo Uv (vo_kinds (amp_rank k)) t t'
                | None, None => True
                | _, _ => False
                end
  | SysExit, SysExit => True
  | Raised, Raised => True
  | _, _ => False
  end.

(** *** Linear combinations, products with denominators *)
Lemma sum_all_idx no nv ks : forall F, suml (all_idx (map (ksize no nv) ks)) F = sumks no nv ks F.
Proof.
  induction ks as [|k ks IH]; intros F; cbn [map all_idx sumks]; [cbn; ring|].
  rewrite suml_flat_map. apply suml_ext. intros i _. rewrite suml_map. apply IH.
Qed.
Section Arith.
  Variables no nv : nat.
  Variables Uo Uv : nat -> nat -> Qc.
  Local Notation rotd := (rotated no nv Uo Uv).
  Local Notation ra := (rot_at no nv Uo Uv).
  Local Notation sz := (map (ksize no nv)).
  Lemma ra_lin ks a b F G idx : ra ks (fun l => a * F l + b * G l) idx = a * ra ks F idx + b * ra ks G idx.
  Proof.
    revert F G idx. induction ks as [|k ks IH]; intros F G [|i idx]; cbn [rot_at]; try ring. rewrite <- !suml_scale, <- suml_plus. apply suml_ext. intros j _.
    rewrite (IH (fun r => F (j :: r)) (fun r => G (j :: r))). ring.
  Qed.
  Lemma rot_lin ks a b X X' Y Y' : rotd ks X X' -> rotd ks Y Y' -> rotd ks (tlin (sz ks) a b X Y) (tlin (sz ks) a b X' Y').
  Proof.
    intros [S1 [S2 RX]] [S3 [S4 RY]]. split; [reflexivity|]. split; [reflexivity|]. intros idx I. unfold tlin in *. cbn [shape data] in *.
    rewrite ra_lin, RX, RY by (rewrite ?S2, ?S4; exact I). reflexivity.
  Qed.
  Lemma rot_ext ks X X' Y Y' : rotd ks X X' -> shape Y = sz ks -> shape Y' = sz ks -> (forall l, inr l (sz ks) -> data Y l = data X l) -> (forall l, inr l (sz ks) -> data Y' l = data X' l) -> rotd ks Y Y'.
  Proof.
    intros [S1 [S2 RX]] S3 S4 E1 E2. split; [exact S3|]. split; [exact S4|]. intros idx I. rewrite S4 in I. rewrite E2, RX by (rewrite ?S2; exact I).
    apply ra_ext; [apply Forall2_len in I; rewrite map_length in I; exact I|]. intros l Hl. symmetry. apply E1, Hl.
  Qed.
  Lemma rot_plus ks X X' Y Y' : rotd ks X X' -> rotd ks Y Y' -> orel (rotd ks) (tbin Qcplus X Y) (tbin Qcplus X' Y').
  Proof.
    intros RX RY. pose proof (rot_lin ks 1 1 X X' Y Y' RX RY) as H. destruct RX as [S1 [S2 _]], RY as [S3 [S4 _]]. rewrite !tbin_ok by congruence. cbn [orel].
    eapply rot_ext; [exact H|exact S1|exact S2|..]; intros l _; cbn [data tlin]; ring.
  Qed.
  Lemma rot_minus ks X X' Y Y' : rotd ks X X' -> rotd ks Y Y' -> orel (rotd ks) (tbin Qcminus X Y) (tbin Qcminus X' Y').
  Proof.
    intros RX RY. pose proof (rot_lin ks 1 (- (1)) X X' Y Y' RX RY) as H. destruct RX as [S1 [S2 _]], RY as [S3 [S4 _]]. rewrite !tbin_ok by congruence. cbn [orel].
    eapply rot_ext; [exact H|exact S1|exact S2|..]; intros l _; cbn [data tlin]; ring.
  Qed.
  Lemma rot_scale ks x X X' : rotd ks X X' -> rotd ks (tscale x X) (tscale x X').
  Proof.
    intros RX. pose proof (rot_lin ks x 0 X X' X X' RX RX) as H. destruct RX as [S1 [S2 _]].
    eapply rot_ext; [exact H|exact S1|exact S2|..]; intros l _; cbn [data tlin tscale]; ring.
  Qed.
  (** a factor that is the same for all orbitals that mix *)
  Fixpoint linked (ks : list kind) (idx l : list nat) : Prop :=
    match ks, idx, l with
    | k :: ks', i :: idx', j :: l' => rmat no Uo Uv k i j <> 0 /\ linked ks' idx' l'
    | [], [], [] => True
    | _, _, _ => False
    end.
  Lemma ra_weight ks : forall F w w' idx, inr idx (sz ks) -> (forall l, inr l (sz ks) -> linked ks idx l -> w l = w') -> ra ks (fun l => F l * w l) idx = ra ks F idx * w'.
  Proof.
    induction ks as [|k ks IH]; intros F w w' idx I H; inversion I as [|i d idx' ds Hi I']; subst; cbn [rot_at].
    - rewrite (H []); [reflexivity|constructor|exact Logic.I].
    - rewrite (Qcmult_comm (suml _ _)), <- suml_scale. apply suml_ext. intros j Hj. apply in_seq in Hj.
      destruct (Qc_eq_dec (rmat no Uo Uv k i j) 0) as [Z|N]; [rewrite Z; ring|].
      rewrite (IH (fun r => F (j :: r)) (fun r => w (j :: r)) w' idx' I'); [ring|]. intros l Hl HL. apply H; [constructor; [lia|exact Hl]|]. cbn [linked]. auto.
  Qed.
  Variables eps eps' : nat -> Qc.
  Hypothesis HM : mixes_equal_energies no nv Uo Uv eps eps'.
  Lemma mix_o i j : (i < no)%nat -> (j < no)%nat -> rmat no Uo Uv Oc i j <> 0 -> eps' i = eps j.
  Proof.
    intros Hi Hj N. apply HM; [lia|lia|]. cbn [rmat] in *. destruct (Nat.ltb_spec i no); [|lia]. destruct (Nat.ltb_spec j no); [exact N|lia].
  Qed.
  Lemma mix_v i j : (i < nv)%nat -> (j < nv)%nat -> rmat no Uo Uv Vi i j <> 0 -> eps' (no + i)%nat = eps (no + j)%nat.
  Proof.
    intros Hi Hj N. apply HM; [lia|lia|]. cbn [rmat] in *. destruct (Nat.ltb_spec (no + i) no); [lia|]. destruct (Nat.ltb_spec (no + j) no); [lia|].
    replace (no + i - no)%nat with i by lia. replace (no + j - no)%nat with j by lia. exact N.
  Qed.
  Lemma linked_sum K (e e' : nat -> Qc) n : (forall i j, (i < ksize no nv K)%nat -> (j < ksize no nv K)%nat -> rmat no Uo Uv K i j <> 0 -> e' i = e j) ->
    forall idx l, inr idx (sz (repeat K n)) -> inr l (sz (repeat K n)) -> linked (repeat K n) idx l -> suml idx e' = suml l e.
  Proof.
    intros H. induction n as [|n IH]; intros idx l I J L; cbn [repeat map] in *.
    - inversion I; inversion J; subst. reflexivity.
    - inversion I as [|i ? idx' ? Hi I']; inversion J as [|j ? m ? Hj J']; subst. cbn [linked] in L. destruct L as [N L]. cbn [suml]. rewrite (H i j Hi Hj N), (IH idx' m I' J' L). reflexivity.
  Qed.
  Lemma linked_app ks1 : forall ks2 a b c d, length a = length ks1 -> length c = length ks1 -> linked (ks1 ++ ks2) (a ++ b) (c ++ d) -> linked ks1 a c /\ linked ks2 b d.
  Proof.
    induction ks1 as [|k ks1 IH]; intros ks2 [|x a] b [|y c] d L1 L2 H; try discriminate; cbn [app linked] in *; [auto|]. destruct H as [N H].
    destruct (IH ks2 a b c d) as [A B]; try (cbn in *; lia); auto.
  Qed.
  Lemma den_linked k D D' idx l : is_denominator k no nv eps D -> is_denominator k no nv eps' D' -> inr idx (sz (vo_kinds k)) -> inr l (sz (vo_kinds k)) -> linked (vo_kinds k) idx l -> data D l = data D' idx.
  Proof.
    intros [S1 E1] [S2 E2] I J L.
    assert (SZ : sz (vo_kinds k) = repeat nv k ++ repeat no k) by (unfold vo_kinds; rewrite map_app, !map_repeat; reflexivity).
    assert (Sp : forall x, inr x (sz (vo_kinds k)) -> exists a b, x = a ++ b /\ length a = k /\ inr a (sz (repeat Vi k)) /\ inr b (sz (repeat Oc k))).
    { intros x H. unfold vo_kinds in H. rewrite map_app in H. apply Forall2_app_inv_r in H. destruct H as [a [b [Ha [Hb ->]]]]. exists a, b. repeat split; try assumption.
      apply Forall2_len in Ha. rewrite Ha, map_length, repeat_length. reflexivity. }
    destruct (Sp _ I) as [a [b [-> [La [Ia Ib]]]]], (Sp _ J) as [a2 [b2 [-> [La2 [Ja Jb]]]]].
    rewrite E1 by (try assumption; rewrite S1, <- SZ; exact J). rewrite E2 by (try assumption; rewrite S2, <- SZ; exact I).
    unfold vo_kinds in L. destruct (linked_app (repeat Vi k) (repeat Oc k) a b a2 b2) as [LA LB]; [rewrite repeat_length; exact La|rewrite repeat_length; exact La2|exact L|].
    f_equal. unfold gap. rewrite (linked_sum Oc eps eps' k mix_o b b2 Ib Jb LB).
    rewrite (linked_sum Vi (fun a => eps (no + a)%nat) (fun a => eps' (no + a)%nat) k mix_v a a2 Ia Ja LA). reflexivity.
  Qed.
  Lemma rot_den (phi : Qc -> Qc) k D D' X X' : is_denominator k no nv eps D -> is_denominator k no nv eps' D' -> rotd (vo_kinds k) X X' ->
    rotd (vo_kinds k) (mkT (sz (vo_kinds k)) (fun i => data X i * phi (data D i))) (mkT (sz (vo_kinds k)) (fun i => data X' i * phi (data D' i))).
  Proof.
    intros HD HD' [S1 [S2 RX]]. split; [reflexivity|]. split; [reflexivity|]. intros idx I. cbn [shape data] in *.
    rewrite (ra_weight (vo_kinds k) (data X) (fun i => phi (data D i)) (phi (data D' idx)) idx I); [rewrite RX by (rewrite S2; exact I); reflexivity|].
    intros l Hl L. f_equal. eapply den_linked; eassumption.
  Qed.
  Lemma den_shape k e D : is_denominator k no nv e D -> shape D = sz (vo_kinds k).
  Proof. intros [S _]. unfold vo_kinds. rewrite S, map_app, !map_repeat. reflexivity. Qed.
  Lemma rot_times k D D' X X' : is_denominator k no nv eps D -> is_denominator k no nv eps' D' -> rotd (vo_kinds k) X X' -> orel (rotd (vo_kinds k)) (tbin Qcmult X D) (tbin Qcmult X' D').
  Proof.
    intros HD HD' R. pose proof (rot_den (fun x => x) k D D' X X' HD HD' R) as H. destruct R as [S1 [S2 _]]. rewrite !tbin_ok by (rewrite ?(den_shape _ _ _ HD), ?(den_shape _ _ _ HD'); congruence). cbn [orel].
    rewrite S1, S2. exact H.
  Qed.
  Lemma rot_over k D D' X X' : is_denominator k no nv eps D -> is_denominator k no nv eps' D' -> rotd (vo_kinds k) X X' -> orel (rotd (vo_kinds k)) (tbin Qcmult (trecip D) X) (tbin Qcmult (trecip D') X').
  Proof.
    intros HD HD' R. pose proof (rot_den Qcinv k D D' X X' HD HD' R) as H. destruct R as [S1 [S2 _]].
    rewrite !tbin_ok by (cbn [shape trecip]; rewrite ?(den_shape _ _ _ HD), ?(den_shape _ _ _ HD'); congruence). cbn [orel].
    eapply rot_ext; [exact H|cbn [shape trecip]; apply (den_shape _ _ _ HD)|cbn [shape trecip]; apply (den_shape _ _ _ HD')|..]; intros l _; cbn [data trecip]; ring.
  Qed.
End Arith.

(** *** The relation between the amplitudes of the two runs *)
Lemma amp_lin no nv k a b t u : is_amp k no nv t -> is_amp k no nv u -> is_amp k no nv (tlin (map (ksize no nv) (vo_kinds k)) a b t u).
Proof.
  assert (SZ : map (ksize no nv) (vo_kinds k) = repeat nv k ++ repeat no k) by (unfold vo_kinds; rewrite map_app, !map_repeat; reflexivity). rewrite SZ.
  intros [S1 A1] [S2 A2]. split; [reflexivity|]. intros i Hi. destruct (A1 i Hi) as [B1 B2], (A2 i Hi) as [C1 C2].
  split; intros pre x y post L I J; cbn [tlin shape data] in *; [rewrite (B1 pre x y post L), (C1 pre x y post L)|rewrite (B2 pre x y post L), (C2 pre x y post L)]; try ring; rewrite ?S1, ?S2; assumption.
Qed.
Lemma amp_teq no nv k t u : is_amp k no nv t -> teq u t -> is_amp k no nv u.
Proof.
  intros [S1 A1] [E1 E2]. split; [congruence|]. intros i Hi. destruct (A1 i Hi) as [B1 B2].
  split; intros pre x y post L I J; rewrite !E2 by assumption; [apply (B1 pre x y post L)|apply (B2 pre x y post L)]; rewrite <- E1; assumption.
Qed.
Section Runs.
  Variables no nv : nat.
  Variables Uo Uv : nat -> nat -> Qc.
  Hypothesis Ho : orthogonal no Uo.
  Hypothesis Hv : orthogonal nv Uv.
  Local Notation rotd := (rotated no nv Uo Uv).
  Local Notation sz := (map (ksize no nv)).
  Variable anti : bool.
  Variable K : string -> nat.
  Definition rsh (k : string) : list nat := sz (vo_kinds (K k)).
  Definition rP (k : string) (t t' : tensor) : Prop := (anti = true -> K k = 2%nat /\ is_amp 2 no nv t) /\ rotd (vo_kinds (K k)) t t'.
  Lemma rP_sh k t t' : rP k t t' -> shape t = rsh k /\ shape t' = rsh k.
  Proof. intros [_ [S1 [S2 _]]]. auto. Qed.
  Lemma rP_teq k t t' u u' : rP k t t' -> teq u t -> teq u' t' -> rP k u u'.
  Proof.
    intros [A R] E E'. split; [intros X; destruct (A X) as [A1 A2]; split; [exact A1|eapply amp_teq; [exact A2|exact E]]|]. pose proof R as [S1 [S2 _]]. destruct E as [E1 E2], E' as [E3 E4].
    eapply rot_ext; [exact R|congruence|congruence|..]; intros l Hl; [apply E2|apply E4]; rewrite ?E1, ?E3, ?S1, ?S2; exact Hl.
  Qed.
  Lemma rP_lin k a b t t' u u' : rP k t t' -> rP k u u' -> rP k (tlin (rsh k) a b t u) (tlin (rsh k) a b t' u').
  Proof. intros [A R] [B Q]. split; [intros X|apply rot_lin; assumption]. destruct (A X) as [A1 A2], (B X) as [_ B2]. split; [exact A1|]. unfold rsh. rewrite A1. apply amp_lin; assumption. Qed.
  Lemma noAl_vo n : forallb noAl (vo_kinds n) = true.
  Proof. apply forallb_forall. intros x H. unfold vo_kinds in H. apply in_app_iff in H. destruct H as [H|H]; apply repeat_spec in H; subst; reflexivity. Qed.
  Lemma rP_dot k t t' u u' : rP k t t' -> rP k u u' -> tdot (rsh k) t u = tdot (rsh k) t' u'.
  Proof using Ho Hv.
    intros [_ [S1 [S2 R]]] [_ [S3 [S4 Q]]]. unfold tdot, rsh. rewrite !sum_all_idx. symmetry. rewrite <- (sk_inner no nv Uo Uv Ho Hv (vo_kinds (K k)) (noAl_vo _) (data t) (data u)).
    apply sk_ext. intros l Hl. rewrite R, Q by (rewrite ?S2, ?S4; exact Hl). reflexivity.
  Qed.
  Definition rL (_ _ : dict) : Prop := True.
  Lemma ttransp_runs a b i j t : shape t = [a; b; i; j] -> exists u, ttransp [2; 3; 0; 1]%nat t = Some u.
  Proof. intros S. unfold ttransp. rewrite S. cbn [length Nat.eqb is_permb seq forallb existsb orb andb]. eexists; reflexivity. Qed.
  Hypothesis K2 : K "t2aa" = 2%nat /\ K "t2bb" = 2%nat /\ K "t2ab" = 2%nat.
  Lemma rP_four k t t' : K k = 2%nat -> rP k t t' -> shape t = [nv; nv; no; no] /\ shape t' = [nv; nv; no; no].
  Proof using. intros E H. destruct (rP_sh _ _ _ H) as [S1 S2]. rewrite S1, S2. unfold rsh. rewrite E. auto. Qed.
  Lemma rP_l2 d d' : drel rP d d' -> orel rL (l2_of d) (l2_of d').
  Proof using K2.
    intros H. destruct K2 as [Ka [Kb Kc]]. unfold l2_of. pose proof (H "t2aa") as A. pose proof (H "t2bb") as B. pose proof (H "t2ab") as C.
    destruct (slook "t2aa" d) as [aa|], (slook "t2aa" d') as [aa'|]; cbn [orel obind] in *; try contradiction; [|exact I].
    destruct (slook "t2bb" d) as [bb|], (slook "t2bb" d') as [bb'|]; cbn [orel obind] in *; try contradiction; [|exact I].
    destruct (slook "t2ab" d) as [ab|], (slook "t2ab" d') as [ab'|]; cbn [orel obind] in *; try contradiction; [|exact I].
    destruct (rP_four _ _ _ Ka A) as [S1 S2], (rP_four _ _ _ Kb B) as [S3 S4], (rP_four _ _ _ Kc C) as [S5 S6].
    destruct (ttransp_runs _ _ _ _ _ S1) as [x1 ->], (ttransp_runs _ _ _ _ _ S2) as [x2 ->], (ttransp_runs _ _ _ _ _ S3) as [x3 ->], (ttransp_runs _ _ _ _ _ S4) as [x4 ->],
      (ttransp_runs _ _ _ _ _ S5) as [x5 ->], (ttransp_runs _ _ _ _ _ S6) as [x6 ->]. exact I.
  Qed.
  Lemma rP_print d d' : drel rP d d' -> printable d = printable d'.
  Proof using K2.
    intros H. destruct K2 as [Ka _]. unfold printable. pose proof (H "t2aa") as A.
    destruct (slook "t2aa" d) as [aa|], (slook "t2aa" d') as [aa'|]; cbn [orel] in *; try contradiction; [|reflexivity]. destruct (rP_four _ _ _ Ka A) as [S1 S2]. rewrite S1, S2. reflexivity.
  Qed.

  Variables f f' g g' D1 D1' D2 D2' D3 D3' : tensor.
  Variables eps eps' : nat -> Qc.
  Hypothesis Rf : rotd [Al; Al] f f'.
  Hypothesis Rg : rotd [Al; Al; Al; Al] g g'.
  Hypothesis HM : mixes_equal_energies no nv Uo Uv eps eps'.
  Hypothesis HD2 : is_denominator 2 no nv eps D2.
  Hypothesis HD2' : is_denominator 2 no nv eps' D2'.
  Hypothesis Hg : is_tei (no + nv) g.
  Let Hg' : is_tei (no + nv) g' := rot_tei no nv Uo Uv g g' Rg Hg.
  (** the first guess *)
  Lemma rot_vvoo : exists gs gs', tslice [(no, None); (no, None); (0%nat, Some no); (0%nat, Some no)] g = Some gs /\
    tslice [(no, None); (no, None); (0%nat, Some no); (0%nat, Some no)] g' = Some gs' /\ rotd (vo_kinds 2) gs gs'.
  Proof using Ho Hv Rg.
    assert (OK : Forall2 (rtab no nv Uo Uv) [(1%N, ([6;6;6;6]%N, g))] [(1%N, ([6;6;6;6]%N, g'))]) by rtabs.
    assert (V : Forall2 (so_vsim no nv [(1%N, ([6;6;6;6]%N, g))]) [SFull 1 [0;0;0;0]%N; SSl 0; SSl 1] [VT g; o_ no; v_ no]) by rvs.
    assert (V' : Forall2 (so_vsim no nv [(1%N, ([6;6;6;6]%N, g'))]) [SFull 1 [0;0;0;0]%N; SSl 0; SSl 1] [VT g'; o_ no; v_ no]) by rvs.
    assert (C : rotchk (vo_kinds 2) (srun so_slm 0 [] vvoo [SFull 1 [0;0;0;0]%N; SSl 0; SSl 1]) = true) by rtchk.
    destruct (rot_residual no nv Uo Uv Ho Hv _ _ OK _ _ _ _ _ _ _ V V' C) as [R [R' [H1 [H2 H]]]]. exists R, R'.
    assert (E : forall g R, returns 0 [] vvoo [VT g; o_ no; v_ no] R -> tslice [(no, None); (no, None); (0%nat, Some no); (0%nat, Some no)] g = Some R).
    { clear. intros g R HR. apply call0_returns in HR.
      assert (E : call0 vvoo [VT g; o_ no; v_ no] = do v <- (do t <- tslice [(no, None); (no, None); (0%nat, Some no); (0%nat, Some no)] g; Some (VT t)); asT v) by reflexivity.
      rewrite E in HR. destruct (tslice _ g); cbn in HR; [exact HR|discriminate]. }
    split; [apply E, H1|]. split; [apply E, H2|exact H].
  Qed.
  Lemma rP_guess d d' : drel rP d d' -> orel (drel rP) (mp_guess no g D2 d) (mp_guess no g' D2' d').
  Proof using All.
    intros H. unfold mp_guess. destruct rot_vvoo as [gs [gs' [E1 [E2 R]]]]. destruct (guess_amp no nv g D2 eps Hg HD2) as [gs0 [t [E3 [E4 A]]]].
    rewrite E1 in E3. injection E3 as <-. rewrite E1, E2. cbn [obind].
    pose proof (rot_times no nv Uo Uv eps eps' HM 2 D2 D2' gs gs' HD2 HD2' R) as RT. rewrite E4 in *. destruct (tbin Qcmult gs' D2') as [t'|]; cbn [orel obind] in *; [|contradiction].
    apply drel_sset; [exact H|]. unfold rP. rewrite (proj1 K2). auto.
  Qed.
  (** the initial amplitudes *)
  Lemma rP_zeros k : (anti = true -> K k = 2%nat) -> rP k (tzeros (rsh k)) (tzeros (rsh k)).
  Proof using.
    intros H. split; [intros X|apply zeros_rotated]. specialize (H X). split; [exact H|]. unfold rsh, vo_kinds. rewrite H, map_app, !map_repeat. apply amp_zeros.
  Qed.
End Runs.

(** *** CCD, LCCD, XCCD *)
Section CaseA.
  Variables no nv : nat.
  Variables Uo Uv : nat -> nat -> Qc.
  Hypothesis Ho : orthogonal no Uo.
  Hypothesis Hv : orthogonal nv Uv.
  Local Notation rotd := (rotated no nv Uo Uv).
  Variables f f' g g' D1 D1' D2 D2' D3 D3' : tensor.
  Variables eps eps' : nat -> Qc.
  Hypothesis Hf : is_fock (no + nv) f.
  Hypothesis Hg : is_tei (no + nv) g.
  Hypothesis Rf : rotd [Al; Al] f f'.
  Hypothesis Rg : rotd [Al; Al; Al; Al] g g'.
  Hypothesis HM : mixes_equal_energies no nv Uo Uv eps eps'.
  Hypothesis HD2 : is_denominator 2 no nv eps D2.
  Hypothesis HD2' : is_denominator 2 no nv eps' D2'.
  Let Hg' : is_tei (no + nv) g' := rot_tei no nv Uo Uv g g' Rg Hg.
  Let Hf' : is_fock (no + nv) f' := rot_fock no nv Uo Uv f f' Rf Hf.
  Variable c : calc.
  Hypothesis NU : contains "UCC(4)" (cc_type c) = false.
  Local Notation PA := (rP no nv Uo Uv true amp_rank).
  Local Notation WT := (fun _ _ : disk => True).
  Lemma pa_amp d d' : drel PA d d' -> gooddict (P_amp no nv) d.
  Proof using. intros H k t E. pose proof (H k) as X. rewrite E in X. destruct (slook k d') as [t'|]; cbn [orel] in X; [|contradiction]. destruct X as [A _]. exact (proj2 (A eq_refl)). Qed.
  Lemma orel_weak {A B} (R Q : A -> B -> Prop) x y : (forall a b, R a b -> Q a b) -> orel R x y -> orel Q x y.
  Proof using. intros H. destruct x, y; cbn; auto. Qed.
  Lemma both_den : shape D2 = [nv; nv; no; no] /\ shape D2' = [nv; nv; no; no].
  Proof using HD2 HD2'. split; [exact (proj1 HD2)|exact (proj1 HD2')]. Qed.
  Lemma xcc_rel t t' n m : is_amp 2 no nv t -> rotd (vo_kinds 2) t t' -> (m <= 9)%nat -> n = (m + 1 - 5)%nat ->
    (forall fz w w', orel (fun x y => fst x = fst y) (xcc_energies no nv g D2 fz t (seq 5 n) w) (xcc_energies no nv g' D2' fz t' (seq 5 n) w')) /\
    (forall r r' w w', rotd (vo_kinds 2) r r' -> orel (fun x y => rotd (vo_kinds 2) (fst x) (fst y)) (xcc_resids no nv g (seq 5 n) t r w) (xcc_resids no nv g' (seq 5 n) t' r' w')).
  Proof using All.
    intros A R Hm En. pose proof (rot_amp no nv Uo Uv 2 t t' R A) as A'. destruct both_den as [DS DS'].
    destruct (rot_bases no nv Uo Uv g g' t t' Ho Hv Hg A Rg R) as [B [B' [P [P' [HB [HB' RB]]]]]].
    assert (Bd : (5 + n <= 10)%nat) by lia. split.
    - intros fz w w'. destruct (one_from no nv g D2 t Hg DS A B P HB fz n 5 w ltac:(lia) Bd (or_introl eq_refl)) as [[w1 E1] _].
      destruct (one_from no nv g' D2' t' Hg' DS' A' B' P' HB' fz n 5 w' ltac:(lia) Bd (or_introl eq_refl)) as [[w2 E2] _]. rewrite E1, E2. cbn [orel fst].
      apply map_ext_in. intros k Hk. apply in_seq in Hk. specialize (RB k ltac:(lia)). symmetry.
      destruct fz; [|exact (quarter_rot no nv Uo Uv Ho Hv t t' (B k) (B' k) R RB)].
      pose proof (rot_vvoo no nv Uo Uv Ho Hv g g' Rg) as [gs [gs' [S1 [S2 RS]]]].
      pose proof (rot_den no nv Uo Uv eps eps' HM (fun x => x) 2 D2 D2' gs gs' HD2 HD2' RS) as RD.
      pose proof (quarter_rot no nv Uo Uv Ho Hv _ _ (B k) (B' k) RD RB) as Q. cbn [data] in Q.
      assert (SV : forall g gs, is_tei (no + nv) g -> tslice [(no, None); (no, None); (0%nat, Some no); (0%nat, Some no)] g = Some gs ->
        forall a b i j, (a < nv)%nat -> (b < nv)%nat -> (i < no)%nat -> (j < no)%nat -> data gs [a; b; i; j] = data g [no + a; no + b; i; j]%nat).
      { clear. intros g gs [Sg _] E a b i j Ha Hb Hi Hj. unfold tslice in E. rewrite Sg in E. cbn [length Nat.eqb] in E. injection E as <-. unfold zipw. cbn [data map combine fst snd].
        unfold slice_start. rewrite Nat.min_l, Nat.min_0_l by lia. reflexivity. }
      etransitivity; [|etransitivity; [exact Q|]]; unfold quarter; f_equal; apply suml_ext; intros a Ha; apply suml_ext; intros b Hb; apply suml_ext; intros i Hi; apply suml_ext; intros j Hj;
        apply in_seq in Ha, Hb, Hi, Hj; unfold cap; [rewrite (SV g' gs' Hg' S2) by lia|rewrite (SV g gs Hg S1) by lia]; reflexivity.
    - intros r r' w w' RR. destruct (one_from no nv g D2 t Hg DS A B P HB false n 5 w ltac:(lia) Bd (or_introl eq_refl)) as [_ X1].
      destruct (one_from no nv g' D2' t' Hg' DS' A' B' P' HB' false n 5 w' ltac:(lia) Bd (or_introl eq_refl)) as [_ X2].
      destruct (X1 r (proj1 RR)) as [q [w1 [E1 [S1 V1]]]], (X2 r' (proj1 (proj2 RR))) as [q' [w2 [E2 [S2 V2]]]]. rewrite E1, E2. cbn [orel fst].
      pose proof (rotated_sum no nv Uo Uv (vo_kinds 2) r r' (seq 5 n) B B' RR) as Q.
      eapply rot_ext; [apply Q; intros k Hk; apply in_seq in Hk; apply RB; lia|exact S1|exact S2|..]; intros l _; cbn [data]; [apply V1|apply V2].
  Qed.
  Lemma pa_energy d d' w w' : drel PA d d' -> orel (fun x y => fst x = fst y /\ True) (t2energy_slow no nv f g D2 c d w) (t2energy_slow no nv f' g' D2' c d' w').
  Proof using All.
    intros H. unfold t2energy_slow. pose proof (H "t2aa") as X. destruct (slook "t2aa" d) as [t|], (slook "t2aa" d') as [t'|]; cbn [orel obind] in *; try contradiction; [|exact I].
    destruct X as [A R]. destruct (A eq_refl) as [_ A']. clear A. rename A' into A.
    destruct (C67_ccd_rotation no nv Uo Uv f f' g g' t t' Ho Hv Rf Rg R) as [_ [_ [E [E' [E1 [E2 [_ [_ EE]]]]]]]].
    unfold ccd_energy. rewrite (call0_returns _ _ _ E1), (call0_returns _ _ _ E2). cbn [obind]. destruct (xccd_flag c); [|cbn [orel fst]; auto].
    destruct (extract_integer (cc_type c)) as [l|] eqn:El; [|exact I]. cbn [obind]. destruct (extract_orders _ _ El) as [m [Hm ->]].
    apply (orel_bind _ _ _ _ _ _ (proj1 (xcc_rel t t' _ m A R Hm eq_refl) false w w')). intros [a1 a2] [b1 b2] Ex. cbn [fst snd orel] in *. rewrite Ex, EE. auto.
  Qed.
  Lemma pa_pert d d' w w' : drel PA d d' -> orel (fun x y => fst x = fst y /\ True) (t2pert_slow no nv g D2 c d w) (t2pert_slow no nv g' D2' c d' w').
  Proof using All.
    intros H. unfold t2pert_slow. pose proof (H "t2aa") as X. destruct (slook "t2aa" d) as [t|], (slook "t2aa" d') as [t'|]; cbn [orel obind] in *; try contradiction; [|exact I].
    destruct X as [A R]. destruct (A eq_refl) as [_ A']. clear A. rename A' into A.
    destruct (extract_integer (cc_type c)) as [l|] eqn:El; [|exact I]. cbn [obind]. destruct (extract_orders _ _ El) as [m [Hm ->]].
    apply (orel_bind _ _ _ _ _ _ (proj1 (xcc_rel t t' _ m A R Hm eq_refl) true w w')). intros [a1 a2] [b1 b2] Ex. cbn [fst snd orel] in *. rewrite Ex. auto.
  Qed.
  Lemma pa_resid rf d d' l l' w w' : resid_call c = Some rf -> drel PA d d' ->
    orel (fun x y => drel PA (fst x) (fst y) /\ True) (slow_resid no nv f g D1 D2 D3 c rf d l w) (slow_resid no nv f' g' D1' D2' D3' c rf d' l' w').
  Proof using All.
    intros Erf H. destruct rf; try exact I; cbn [slow_resid].
    2:{ exfalso. unfold resid_call in Erf. rewrite NU in Erf. repeat match type of Erf with context [if ?b then _ else _] => destruct b end; discriminate. }
    assert (G : orel (fun x y => exists u r u' r', fst x = [("t2aa", u); ("t2bb", tscale 0 r); ("t2ab", tscale 0 r)] /\ fst y = [("t2aa", u'); ("t2bb", tscale 0 r'); ("t2ab", tscale 0 r')] /\
        rotd (vo_kinds 2) u u' /\ rotd (vo_kinds 2) r r') (t2resid_slow no nv f g D2 c d w) (t2resid_slow no nv f' g' D2' c d' w')).
    { unfold t2resid_slow. pose proof (H "t2aa") as X. destruct (slook "t2aa" d) as [t|], (slook "t2aa" d') as [t'|]; cbn [orel obind] in *; try contradiction; [|exact I].
      destruct X as [A R]. destruct (A eq_refl) as [_ A']. clear A. rename A' into A.
      destruct (C67_ccd_rotation no nv Uo Uv f f' g g' t t' Ho Hv Rf Rg R) as [[r0 [r0' [H1 [H2 R0]]]] [[o0 [o0' [H3 [H4 O0]]]] _]].
      destruct (ccd_amp no nv f g t Hf Hg A) as [q [Q1 A0]]. pose proof (rot_amp no nv Uo Uv 2 t t' R A) as A'. destruct (ccd_amp no nv f' g' t' Hf' Hg' A') as [q' [Q1' A0']].
      rewrite (call0_returns _ _ _ H1) in Q1. rewrite (call0_returns _ _ _ H2) in Q1'. injection Q1 as <-. injection Q1' as <-.
      rewrite (call0_returns _ _ _ H1), (call0_returns _ _ _ H2). cbn [obind].
      destruct (string_dec (cc_type c) "pCCD") as [EP|NP].
      { rewrite EP. change ("pCCD" =? "LCCD") with false. change (contains "X" "pCCD") with false. change ("pCCD" =? "pCCD") with true. cbn [obind fst snd].
        pose proof (den_sym no nv 2 eps D2 HD2) as DS. pose proof (den_sym no nv 2 eps' D2' HD2') as DS'.
        pose proof (rot_over no nv Uo Uv eps eps' HM 2 D2 D2' t t' HD2 HD2' R) as RX.
        destruct (sym_times_amp no nv 2 t D2 A DS) as [x [Ex Ax]], (sym_times_amp no nv 2 t' D2' A' DS') as [x' [Ex' Ax']]. rewrite Ex, Ex' in *. cbn [orel obind] in *.
        pose proof (rot_plus no nv Uo Uv (vo_kinds 2) r0 r0' x x' R0 RX) as R3.
        destruct (amp_plus no nv 2 r0 x A0 Ax) as [r3 [E3 A3]], (amp_plus no nv 2 r0' x' A0' Ax') as [r3' [E3' A3']]. rewrite E3, E3' in *. cbn [orel obind] in *.
        destruct (amp_times_sym no nv 2 r3 D2 A3 DS) as [n [En An]], (amp_times_sym no nv 2 r3' D2' A3' DS') as [n' [En' An']]. rewrite En, En'. cbn [orel obind fst].
        exists (pair_part no nv n), (pair_part no nv n), (pair_part no nv n'), (pair_part no nv n'). split; [reflexivity|]. split; [reflexivity|].
        enough (RZ : rotd (vo_kinds 2) (pair_part no nv n) (pair_part no nv n')) by (split; exact RZ).
        destruct (pair_part_zero no nv n "t2aa" An) as [Z1 Z2], (pair_part_zero no nv n' "t2aa" An') as [Z1' Z2'].
        apply (rot_ext no nv Uo Uv _ _ _ _ _ (rot_scale no nv Uo Uv (vo_kinds 2) 0 r3 r3' R3)); [exact Z1|exact Z1'|..]; intros ix Hl; cbn [tscale data];
          [rewrite Z2 by (rewrite Z1; exact Hl)|rewrite Z2' by (rewrite Z1'; exact Hl)]; ring. }
      apply (orel_bind (rotd (vo_kinds 2))).
      { destruct (cc_type c =? "LCCD"); [|exact R0]. rewrite (call0_returns _ _ _ H3), (call0_returns _ _ _ H4). cbn [obind]. apply rot_minus; assumption. }
      intros r1 r1' R1. apply (orel_bind (fun x y => rotd (vo_kinds 2) (fst x) (fst y))).
      { destruct (contains "X" (cc_type c)); [|exact R1]. destruct (extract_integer (cc_type c)) as [ls|] eqn:El; [|exact I]. cbn [obind]. destruct (extract_orders _ _ El) as [m [Hm ->]].
        apply (proj2 (xcc_rel t t' _ m A R Hm eq_refl)). exact R1. }
      intros [r2 w2] [r2' w2'] R2. cbn [fst snd] in *.
      apply (orel_bind _ _ _ _ _ _ (rot_over no nv Uo Uv eps eps' HM 2 D2 D2' t t' HD2 HD2' R)). intros x x' Rx.
      apply (orel_bind _ _ _ _ _ _ (rot_plus no nv Uo Uv (vo_kinds 2) r2 r2' x x' R2 Rx)). intros r3 r3' R3.
      apply (orel_bind _ _ _ _ _ _ (rot_times no nv Uo Uv eps eps' HM 2 D2 D2' r3 r3' HD2 HD2' R3)). intros n n' Rn.
      apply String.eqb_neq in NP. rewrite NP. cbn [orel fst]. exists n, r3, n', r3'. auto. }
    assert (KP : forall d1 w1, t2resid_slow no nv f g D2 c d w = Some (d1, w1) -> gooddict (P_amp no nv) d1).
    { intros d1 w1 E1. pose proof (pa_amp d d' H) as GD. destruct (slook "t2aa" d) as [t|] eqn:Et; [|unfold t2resid_slow in E1; rewrite Et in E1; discriminate].
      destruct (extract_integer (cc_type c)) as [ls|] eqn:El.
      - destruct (resid_ok no nv f g D2 eps c Hf Hg HD2 d w t GD Et) as [d2 [w2 [u [E [Gd _]]]]]; [eauto|]. rewrite E in E1. injection E1 as <- <-. exact Gd.
      - destruct (contains "X" (cc_type c)) eqn:CX.
        + exfalso. unfold t2resid_slow in E1. rewrite Et, CX, El in E1. cbn [obind] in E1. clear -E1.
          repeat match type of E1 with (do _ <- ?x; _) = _ => destruct x; cbn [obind] in E1; try discriminate end.
        + destruct (resid_ok no nv f g D2 eps c Hf Hg HD2 d w t GD Et) as [d2 [w2 [u [E [Gd _]]]]]; [rewrite CX; discriminate|]. rewrite E in E1. injection E1 as <- <-. exact Gd. }
    destruct (t2resid_slow no nv f g D2 c d w) as [[e1 w1]|], (t2resid_slow no nv f' g' D2' c d' w') as [[e2 w2]|]; cbn [orel fst] in *; try contradiction; [|exact I].
    split; [|exact I]. destruct G as [u [r [u' [r' [-> [-> [RU RR]]]]]]]. specialize (KP _ _ eq_refl).
    assert (RS : rotd (vo_kinds 2) (tscale 0 r) (tscale 0 r')) by (apply rot_scale; exact RR).
    assert (PI : forall k t t', slook k [("t2aa", u); ("t2bb", tscale 0 r); ("t2ab", tscale 0 r)] = Some t -> amp_rank k = 2%nat -> rotd (vo_kinds 2) t t' -> PA k t t').
    { intros k t t' E1 E2 E3. split; [intros _; split; [exact E2|apply (KP k t E1)]|rewrite E2; exact E3]. }
    intros k. destruct (string_dec k "t2aa") as [->|N1]; [apply (PI "t2aa"); [reflexivity|reflexivity|exact RU]|].
    destruct (string_dec k "t2bb") as [->|N2]; [apply (PI "t2bb"); [reflexivity|reflexivity|exact RS]|].
    destruct (string_dec k "t2ab") as [->|N3]; [apply (PI "t2ab"); [reflexivity|reflexivity|exact RS]|].
    apply String.eqb_neq in N1, N2, N3. cbn [slook]. rewrite N1, N2, N3. exact I.
  Qed.
  Lemma init_three k ss : slow_init no nv c = ss -> orel (PA k) (slook k ss) (slook k ss).
  Proof using NU.
    intros <-. unfold slow_init. rewrite NU. pose proof (rP_zeros no nv Uo Uv true amp_rank) as Z.
    replace (match diis_size c with Some _ => [] | None => [] end) with (@nil (string * tensor)) by (destruct (diis_size c); reflexivity). cbn [app slook].
    destruct (string_dec k "t2aa") as [->|N1]; [exact (Z "t2aa" (fun _ => eq_refl))|]. destruct (string_dec k "t2bb") as [->|N2]; [exact (Z "t2bb" (fun _ => eq_refl))|].
    destruct (string_dec k "t2ab") as [->|N3]; [exact (Z "t2ab" (fun _ => eq_refl))|]. apply String.eqb_neq in N1, N2, N3. rewrite N1, N2, N3. exact I.
  Qed.
  Lemma empty_vrel keys : size [nv; nv; no; no] = 0%nat -> (forall k, In k keys -> amp_rank k = 2%nat) -> vrel PA keys [] [].
  Proof using.
    intros Z. induction keys as [|k keys IH]; intros R; [constructor|]. assert (E : amp_rank k = 2%nat) by (apply R; left; reflexivity).
    specialize (IH (fun j Hj => R j (or_intror Hj))).
    assert (F : flatten (tzeros (rsh no nv amp_rank k)) = []) by (apply length_zero_iff_nil; rewrite flatten_length; unfold rsh; rewrite E; exact Z).
    pose proof (vr_cons PA k keys _ _ _ _ (rP_zeros no nv Uo Uv true amp_rank k (fun _ => E)) IH) as V. rewrite F in V. exact V.
  Qed.
  Lemma case_a solve w w' : same_end no nv Uo Uv (slow_kernel no nv f g D1 D2 D3 c solve w) (slow_kernel no nv f' g' D1' D2' D3' c solve w').
  Proof using All.
    assert (DR : drel PA (slow_init no nv c) (slow_init no nv c)) by (intros k; apply init_three; reflexivity).
    assert (KK : amp_rank "t2aa" = 2%nat /\ amp_rank "t2bb" = 2%nat /\ amp_rank "t2ab" = 2%nat) by (repeat split; reflexivity).
    pose proof (kernel_rel (rsh no nv amp_rank) PA (rP_sh no nv Uo Uv true amp_rank) (rP_teq no nv Uo Uv true amp_rank) (rP_lin no nv Uo Uv true amp_rank) (rP_dot no nv Uo Uv Ho Hv true amp_rank)
      disk disk WT solve (slow_resid no nv f g D1 D2 D3 c) (slow_resid no nv f' g' D1' D2' D3' c) (slow_energy no nv f g D2 c) (slow_energy no nv f' g' D2' c)
      (slow_pert no nv g D2 c) (slow_pert no nv g' D2' c) (mp_guess no g D2) (mp_guess no g' D2') c rL) as KR.
    specialize (KR (rP_l2 no nv Uo Uv true amp_rank KK)).
    specialize (KR (fun rf d d' l l' w w' Erf H _ _ => pa_resid rf d d' l l' w w' Erf H)).
    assert (HE : forall ef d d' w w', energy_call c = Some ef -> drel PA d d' -> True -> orel (fun x y => fst x = fst y /\ True) (slow_energy no nv f g D2 c ef d w) (slow_energy no nv f' g' D2' c ef d' w')).
    { intros ef d d' u u' Eef H _. destruct ef; try exact I; cbn [slow_energy]; [apply pa_energy; exact H|].
      exfalso. unfold energy_call in Eef. rewrite NU in Eef. repeat match type of Eef with context [if ?b then _ else _] => destruct b end; discriminate. }
    specialize (KR HE).
    specialize (KR (fun ef d d' l l' u u' (_ : ef = E_t2energySlow \/ (cc_label c =? "ccdTypeSlow") = false) H _ _ =>
      match ef as x return orel (fun x y => fst x = fst y /\ True) (slow_pert no nv g D2 c x d l u) (slow_pert no nv g' D2' c x d' l' u') with E_t2energySlow => pa_pert d d' u u' H | _ => I end)).
    specialize (KR (rP_guess no nv Uo Uv Ho Hv true amp_rank KK f f' g g' D1 D1' D2 D2' D3 D3' eps eps' Rf Rg HM HD2 HD2' Hg)).
    specialize (KR (rP_print no nv Uo Uv true amp_rank KK) I _ _ (slow_old no nv c) (slow_old no nv c) w w' DR I).
    assert (OV : vrel PA (vec_keys (cc_type c)) (slow_old no nv c) (slow_old no nv c) \/ length (slow_old no nv c) = length (slow_old no nv c) /\
        length (slow_old no nv c) <> fold_right plus 0%nat (map (fun k => size (rsh no nv amp_rank k)) (vec_keys (cc_type c)))).
    { unfold slow_old, vec_keys, old_keys. rewrite NU. pose proof (vectorise_rel PA t2_keys _ _ DR) as VR.
      destruct (vectorise t2_keys (slow_init no nv c)) as [v|] eqn:EV; cbn [orel] in VR; [|exfalso].
      2:{ unfold slow_init in EV. rewrite NU in EV. destruct (diis_size c); vm_compute in EV; discriminate. }
      destruct (contains "CCDQ" (cc_type c)); [|left; exact VR].
      destruct (vrel_len (rsh no nv amp_rank) PA (rP_sh no nv Uo Uv true amp_rank) _ _ _ VR) as [L _].
      destruct (Nat.eq_dec (size [nv; nv; no; no]) 0) as [Z|NZ].
      - left. assert (v = []) as -> by (apply length_zero_iff_nil; rewrite L; unfold t2_keys, rsh; cbn [map fold_right amp_rank String.eqb Ascii.eqb Bool.eqb]; change (map (ksize no nv) (vo_kinds 2)) with [nv; nv; no; no]; lia).
        apply empty_vrel; [exact Z|]. intros k Hk. cbn in Hk. intuition (subst; reflexivity).
      - right. split; [reflexivity|]. rewrite L. unfold t2_keys, t4_keys. cbn [app map fold_right]. unfold rsh. cbn [amp_rank String.eqb Ascii.eqb Bool.eqb]. change (map (ksize no nv) (vo_kinds 2)) with [nv; nv; no; no]. lia. }
    specialize (KR (fun _ => OV)). unfold slow_kernel, same_end, outrel in *.
    destruct (kernel _ _ _ _ _ _ c (slow_init no nv c) _ w) as [d e co| |], (kernel _ _ _ _ _ _ c (slow_init no nv c) _ w') as [d' e' co'| |]; try exact KR; try exact I.
    destruct KR as [KD [K1 K2']]. split; [exact K1|]. split; [exact K2'|]. intros k. specialize (KD k).
    destruct (slook k d) as [t|], (slook k d') as [t'|]; cbn [orel] in KD; try exact KD. destruct KD as [_ R]. exact R.
  Qed.
End CaseA.

(** *** UCC(4) *)
Lemma transp_rot no nv Uo Uv t t' : rotated no nv Uo Uv (vo_kinds 2) t t' -> exists u u', ttransp [2; 3; 0; 1]%nat t = Some u /\ ttransp [2; 3; 0; 1]%nat t' = Some u' /\ rotated no nv Uo Uv (ov_kinds 2) u u' /\
  shape u = [no; no; nv; nv] /\ shape u' = [no; no; nv; nv] /\ (forall a b i j, data u [i; j; a; b] = data t [a; b; i; j]) /\ (forall a b i j, data u' [i; j; a; b] = data t' [a; b; i; j]).
Proof.
  intros [S1 [S2 R]]. unfold ttransp. rewrite S1, S2. cbn [vo_kinds repeat app map length Nat.eqb is_permb seq forallb existsb orb andb]. eexists _, _. split; [reflexivity|]. split; [reflexivity|].
  split; [|split; [reflexivity|]; split; [reflexivity|]; split; intros a b i j; reflexivity].
  split; [reflexivity|]. split; [reflexivity|]. intros idx I. cbn [shape] in I.
  inversion I as [|i ? r1 ? Hi I1]; subst. inversion I1 as [|j ? r2 ? Hj I2]; subst. inversion I2 as [|a ? r3 ? Ha I3]; subst. inversion I3 as [|b ? r4 ? Hb I4]; subst. inversion I4; subst.
  cbn in Hi, Hj, Ha, Hb.
  change (data t' [a; b; i; j] = rot_at no nv Uo Uv ([Oc; Oc] ++ [Vi; Vi]) (fun l => data t [nth 2 l 0; nth 3 l 0; nth 0 l 0; nth 1 l 0]%nat) ([i; j] ++ [a; b])).
  rewrite R by (rewrite S2; repeat constructor; assumption). rewrite ra_app by reflexivity. change (vo_kinds 2) with ([Vi; Vi] ++ [Oc; Oc]). change [a; b; i; j] with ([a; b] ++ [i; j]). rewrite ra_app by reflexivity.
  rewrite (ra_comm no nv Uo Uv [Vi; Vi] [Oc; Oc]) by reflexivity.
  apply ra_ext; [reflexivity|]. intros l Hl. apply ra_ext; [reflexivity|]. intros m Hm.
  inversion Hl as [|l1 ? ? ? _ Hl1]; subst. inversion Hl1 as [|l2 ? ? ? _ Hl2]; subst. inversion Hl2; subst.
  inversion Hm as [|m1 ? ? ? _ Hm1]; subst. inversion Hm1 as [|m2 ? ? ? _ Hm2]; subst. inversion Hm2; subst. reflexivity.
Qed.
Section CaseB.
  Variables no nv : nat.
  Variables Uo Uv : nat -> nat -> Qc.
  Hypothesis Ho : orthogonal no Uo.
  Hypothesis Hv : orthogonal nv Uv.
  Local Notation rotd := (rotated no nv Uo Uv).
  Local Notation rots := (rotates no nv Uo Uv).
  Variables f f' g g' D1 D1' D2 D2' D3 D3' : tensor.
  Variables eps eps' : nat -> Qc.
  Hypothesis Hg : is_tei (no + nv) g.
  Hypothesis Rf : rotd [Al; Al] f f'.
  Hypothesis Rg : rotd [Al; Al; Al; Al] g g'.
  Hypothesis HM : mixes_equal_energies no nv Uo Uv eps eps'.
  Hypothesis HD1 : is_denominator 1 no nv eps D1.
  Hypothesis HD1' : is_denominator 1 no nv eps' D1'.
  Hypothesis HD2 : is_denominator 2 no nv eps D2.
  Hypothesis HD2' : is_denominator 2 no nv eps' D2'.
  Hypothesis HD3 : is_denominator 3 no nv eps D3.
  Hypothesis HD3' : is_denominator 3 no nv eps' D3'.
  Variable c : calc.
  Hypothesis HU : cc_type c = "UCC(4)".
  Local Notation PB := (rP no nv Uo Uv false amp_rank).
  Section Fns.
    Variables t1 t1' t2 t2' l2 l2' t3 t3' : tensor.
    Hypothesis R1 : rotd (vo_kinds 1) t1 t1'.
    Hypothesis R2 : rotd (vo_kinds 2) t2 t2'.
    Hypothesis Rl : rotd (ov_kinds 2) l2 l2'.
    Hypothesis R3 : rotd (vo_kinds 3) t3 t3'.
    Let tab (f g t1 t2 t3 l2 : tensor) : atomtab := [(0%N, ([6;6]%N, f)); (1%N, ([6;6;6;6]%N, g)); (2%N, ([1;0]%N, t1)); (3%N, ([1;1;0;0]%N, t2)); (4%N, ([1;1;1;0;0;0]%N, t3)); (6%N, ([0;0;1;1]%N, l2))].
    Let OK : Forall2 (rtab no nv Uo Uv) (tab f g t1 t2 t3 l2) (tab f' g' t1' t2' t3' l2'). Proof. unfold tab. rtabs. Qed.
    Let aF := SFull 0 [0;0]%N. Let aG := SFull 1 [0;0;0;0]%N. Let a1 := at_ 2 [1;0]%N. Let a2 := at_ 3 [1;1;0;0]%N. Let a3 := at_ 4 [1;1;1;0;0;0]%N. Let al := at_ 6 [0;0;1;1]%N.
    Lemma rb_all :
      rots 0 [] Code_drive_ucc4.t1_residEqns (vo_kinds 1) [VT t1; VT t2; VT f; VT g; o_ no; v_ no] [VT t1'; VT t2'; VT f'; VT g'; o_ no; v_ no] /\
      rots 0 [] Code_drive_ucc4.offset_t2resid_t2squared (vo_kinds 2) [VT t2; VT g; o_ no; v_ no] [VT t2'; VT g'; o_ no; v_ no] /\
      rots 0 [] Code_drive_ucc4.offset_t2resid_t2dag_w_t2 (vo_kinds 2) [VT t2; VT l2; VT g; o_ no; v_ no] [VT t2'; VT l2'; VT g'; o_ no; v_ no] /\
      rots 0 [] Code_drive_ucc4.offset_t2resid_T1_T3 (vo_kinds 2) [VT t1; VT t3; VT g; o_ no; v_ no] [VT t1'; VT t3'; VT g'; o_ no; v_ no] /\
      rots 0 [] Code_drive_ucc4.t3_resid (vo_kinds 3) [VT t3; VT t2; VT f; VT g; o_ no; v_ no] [VT t3'; VT t2'; VT f'; VT g'; o_ no; v_ no].
    Proof.
      assert (C1 : rotchk (vo_kinds 1) (srun so_slm 0 [] Code_drive_ucc4.t1_residEqns [a1; a2; aF; aG; SSl 0; SSl 1]) = true) by rtchk.
      assert (C2 : rotchk (vo_kinds 2) (srun so_slm 0 [] Code_drive_ucc4.offset_t2resid_t2squared [a2; aG; SSl 0; SSl 1]) = true) by rtchk.
      assert (C3 : rotchk (vo_kinds 2) (srun so_slm 0 [] Code_drive_ucc4.offset_t2resid_t2dag_w_t2 [a2; al; aG; SSl 0; SSl 1]) = true) by rtchk.
      assert (C4 : rotchk (vo_kinds 2) (srun so_slm 0 [] Code_drive_ucc4.offset_t2resid_T1_T3 [a1; a3; aG; SSl 0; SSl 1]) = true) by rtchk.
      assert (C5 : rotchk (vo_kinds 3) (srun so_slm 0 [] Code_drive_ucc4.t3_resid [a3; a2; aF; aG; SSl 0; SSl 1]) = true) by rtchk.
      split; [|split; [|split; [|split]]].
      - eapply (rot_residual no nv Uo Uv Ho Hv _ _ OK); [..|exact C1]; unfold a1, a2, a3, al, aF, aG; rvs.
      - eapply (rot_residual no nv Uo Uv Ho Hv _ _ OK); [..|exact C2]; unfold a1, a2, a3, al, aF, aG; rvs.
      - eapply (rot_residual no nv Uo Uv Ho Hv _ _ OK); [..|exact C3]; unfold a1, a2, a3, al, aF, aG; rvs.
      - eapply (rot_residual no nv Uo Uv Ho Hv _ _ OK); [..|exact C4]; unfold a1, a2, a3, al, aF, aG; rvs.
      - eapply (rot_residual no nv Uo Uv Ho Hv _ _ OK); [..|exact C5]; unfold a1, a2, a3, al, aF, aG; rvs.
    Qed.
  End Fns.
  Lemma pb_look d d' k : drel PB d d' -> orel (rotd (vo_kinds (amp_rank k))) (slook k d) (slook k d').
  Proof using. intros H. pose proof (H k) as X. destruct (slook k d), (slook k d'); cbn [orel] in *; auto. exact (proj2 X). Qed.
  Lemma pb_set d d' k t t' : drel PB d d' -> rotd (vo_kinds (amp_rank k)) t t' -> drel PB (sset k t d) (sset k t' d').
  Proof using. intros H R. apply drel_sset; [exact H|]. split; [discriminate|exact R]. Qed.
  Lemma pb_resid d d' w w' : drel PB d d' -> orel (fun x y => drel PB (fst x) (fst y) /\ True) (ucc4_resid no nv f g D1 D2 D3 d w) (ucc4_resid no nv f' g' D1' D2' D3' d' w').
  Proof using All.
    intros H0. unfold ucc4_resid.
    set (e := match slook "t3aa" d with Some _ => d | None => _ end). set (e' := match slook "t3aa" d' with Some _ => d' | None => _ end).
    assert (H : drel PB e e').
    { unfold e, e'. pose proof (pb_look d d' "t3aa" H0) as X. destruct (slook "t3aa" d), (slook "t3aa" d'); cbn [orel] in X; try contradiction; [exact H0|].
      apply pb_set; [|exact (zeros_rotated no nv Uo Uv (vo_kinds 3))]. apply pb_set; [exact H0|exact (zeros_rotated no nv Uo Uv (vo_kinds 1))]. }
    clearbody e e'.
    apply (orel_bind _ _ _ _ _ _ (pb_look e e' "t2aa" H)). intros t2 t2' R2. change (rotd (vo_kinds 2) t2 t2') in R2.
    destruct (transp_rot no nv Uo Uv t2 t2' R2) as [l2 [l2' [-> [-> [Rl _]]]]]. cbn [obind].
    apply (orel_bind _ _ _ _ _ _ (pb_look e e' "t1aa" H)). intros t1 t1' R1. change (rotd (vo_kinds 1) t1 t1') in R1.
    apply (orel_bind _ _ _ _ _ _ (pb_look e e' "t3aa" H)). intros t3 t3' R3. change (rotd (vo_kinds 3) t3 t3') in R3.
    destruct (rb_all t1 t1' t2 t2' l2 l2' t3 t3' R1 R2 Rl R3) as [[x1 [x1' [E1 [E1' X1]]]] [[x2 [x2' [E2 [E2' X2]]]] [[x3 [x3' [E3 [E3' X3]]]] [[x4 [x4' [E4 [E4' X4]]]] [x5 [x5' [E5 [E5' X5]]]]]]]].
    destruct (C67_ccd_rotation no nv Uo Uv f f' g g' t2 t2' Ho Hv Rf Rg R2) as [[x6 [x6' [E6 [E6' X6]]]] _].
    rewrite (call0_returns _ _ _ E1), (call0_returns _ _ _ E1'), (call0_returns _ _ _ E6), (call0_returns _ _ _ E6'), (call0_returns _ _ _ E2), (call0_returns _ _ _ E2'). cbn [obind].
    apply (orel_bind _ _ _ _ _ _ (rot_minus no nv Uo Uv _ _ _ _ _ X6 X2)). intros y1 y1' Y1. rewrite (call0_returns _ _ _ E3), (call0_returns _ _ _ E3'). cbn [obind].
    apply (orel_bind _ _ _ _ _ _ (rot_plus no nv Uo Uv _ _ _ _ _ Y1 X3)). intros y2 y2' Y2. rewrite (call0_returns _ _ _ E4), (call0_returns _ _ _ E4'). cbn [obind].
    apply (orel_bind _ _ _ _ _ _ (rot_plus no nv Uo Uv _ _ _ _ _ Y2 X4)). intros y3 y3' Y3. rewrite (call0_returns _ _ _ E5), (call0_returns _ _ _ E5'). cbn [obind].
    apply (orel_bind _ _ _ _ _ _ (rot_over no nv Uo Uv eps eps' HM 1 D1 D1' _ _ HD1 HD1' R1)). intros u1 u1' Q1.
    apply (orel_bind _ _ _ _ _ _ (rot_plus no nv Uo Uv _ _ _ _ _ X1 Q1)). intros s1 s1' S1.
    apply (orel_bind _ _ _ _ _ _ (rot_over no nv Uo Uv eps eps' HM 2 D2 D2' _ _ HD2 HD2' R2)). intros u2 u2' Q2.
    apply (orel_bind _ _ _ _ _ _ (rot_plus no nv Uo Uv _ _ _ _ _ Y3 Q2)). intros s2 s2' S2.
    apply (orel_bind _ _ _ _ _ _ (rot_over no nv Uo Uv eps eps' HM 3 D3 D3' _ _ HD3 HD3' R3)). intros u3 u3' Q3.
    apply (orel_bind _ _ _ _ _ _ (rot_plus no nv Uo Uv _ _ _ _ _ X5 Q3)). intros s3 s3' S3.
    apply (orel_bind _ _ _ _ _ _ (rot_times no nv Uo Uv eps eps' HM 2 D2 D2' _ _ HD2 HD2' S2)). intros n2 n2' N2.
    apply (orel_bind _ _ _ _ _ _ (rot_times no nv Uo Uv eps eps' HM 1 D1 D1' _ _ HD1 HD1' S1)). intros n1 n1' N1.
    apply (orel_bind _ _ _ _ _ _ (rot_times no nv Uo Uv eps eps' HM 3 D3 D3' _ _ HD3 HD3' S3)). intros n3 n3' N3.
    cbn [orel fst]. split; [|exact I]. apply pb_set; [apply pb_set; [apply pb_set; [exact H|exact N2]|exact N1]|exact N3].
  Qed.
  Lemma pb_energy d d' w w' : drel PB d d' -> orel (fun x y => fst x = fst y /\ True) (ucc4_energy no nv f g D2 c d w) (ucc4_energy no nv f' g' D2' c d' w').
  Proof using All.
    intros H. unfold ucc4_energy. apply (orel_bind (fun x y : Qc * disk => fst x = fst y)).
    - unfold t2energy_slow. apply (orel_bind _ _ _ _ _ _ (pb_look d d' "t2aa" H)). intros t2 t2' R2. change (rotd (vo_kinds 2) t2 t2') in R2.
      replace (xccd_flag c) with false by (unfold xccd_flag; rewrite HU; reflexivity).
      destruct (C67_ccd_rotation no nv Uo Uv f f' g g' t2 t2' Ho Hv Rf Rg R2) as [_ [_ [E [E' [E1 [E2 [_ [_ EE]]]]]]]].
      unfold ccd_energy. rewrite (call0_returns _ _ _ E1), (call0_returns _ _ _ E2). cbn [obind orel fst]. symmetry. exact EE.
    - intros [e1 u1] [e2 u2] EE. cbn [fst snd] in *. subst e2.
      apply (orel_bind _ _ _ _ _ _ (pb_look d d' "t2aa" H)). intros t2 t2' R2. change (rotd (vo_kinds 2) t2 t2') in R2.
      destruct (transp_rot no nv Uo Uv t2 t2' R2) as [l2 [l2' [T1 [T2 [Rl [Sl [Sl' [Vl Vl']]]]]]]]. rewrite T1, T2. cbn [obind].
      destruct (rb_all _ _ t2 t2' l2 l2' _ _ (zeros_rotated no nv Uo Uv (vo_kinds 1)) R2 Rl (zeros_rotated no nv Uo Uv (vo_kinds 3))) as [_ [_ [[x3 [x3' [E3 [E3' X3]]]] _]]].
      rewrite (call0_returns _ _ _ E3), (call0_returns _ _ _ E3'). cbn [obind].
      apply (orel_bind _ _ _ _ _ _ (rot_times no nv Uo Uv eps eps' HM 2 D2 D2' _ _ HD2 HD2' (rot_scale no nv Uo Uv _ (1 + 1) _ _ X3))). intros r r' RR.
      assert (DV : forall l2 t2 r, shape l2 = [no; no; nv; nv] -> (forall a b i j, data l2 [i; j; a; b] = data t2 [a; b; i; j]) -> shape r = [nv; nv; no; no] ->
        exists e, dot "jiab,abji" l2 r = Some e /\ Q2Qc (1 # 4) * e = quarter no nv (fun a b i j => data t2 [a; b; i; j]) r).
      { clear. intros l2 t2 r S1 V S2. unfold dot. destruct (parse_spec "jiab,abji") as [ins out] eqn:E. vm_compute in E. injection E as <- <-.
        unfold einsum. cbn [map]. rewrite S1, S2. cbn. rewrite !Nat.eqb_refl. cbn. eexists. split; [reflexivity|].
        unfold quarter. f_equal. rewrite suml_swap. apply suml_ext. intros a _. apply suml_ext. intros b _. rewrite suml_swap. apply suml_ext. intros i _. apply suml_ext. intros j _.
        rewrite V. ring. }
      destruct (DV l2 t2 r Sl Vl (proj1 RR)) as [q [-> Q1]], (DV l2' t2' r' Sl' Vl' (proj1 (proj2 RR))) as [q' [-> Q2]]. cbn [obind orel fst]. split; [|exact I]. f_equal.
      assert (QQ : Q2Qc (1 # 4) * q' = Q2Qc (1 # 4) * q) by (rewrite Q1, Q2; exact (quarter_rot no nv Uo Uv Ho Hv t2 t2' r r' R2 RR)).
      assert (F4 : (1 + 1 + (1 + 1)) * Q2Qc (1 # 4) = 1) by (apply Qc_is_canon; vm_compute; reflexivity).
      transitivity ((1 + 1 + (1 + 1)) * (Q2Qc (1 # 4) * q)); [rewrite Qcmult_assoc, F4; ring|]. rewrite <- QQ, Qcmult_assoc, F4. ring.
  Qed.
  Lemma case_b solve w w' : same_end no nv Uo Uv (slow_kernel no nv f g D1 D2 D3 c solve w) (slow_kernel no nv f' g' D1' D2' D3' c solve w').
  Proof using All.
    assert (Z : forall k, PB k (tzeros (rsh no nv amp_rank k)) (tzeros (rsh no nv amp_rank k))) by (intros k; apply rP_zeros; discriminate).
    assert (DR : drel PB (slow_init no nv c) (slow_init no nv c)).
    { intros k. unfold slow_init. rewrite HU.
      destruct (string_dec k "t2aa") as [->|N1]; [exact (Z "t2aa")|]. destruct (string_dec k "t2bb") as [->|N2]; [exact (Z "t2bb")|]. destruct (string_dec k "t2ab") as [->|N3]; [exact (Z "t2ab")|].
      destruct (diis_size c).
      - destruct (string_dec k "t1aa") as [->|N4]; [exact (Z "t1aa")|]. destruct (string_dec k "t3aa") as [->|N5]; [exact (Z "t3aa")|].
        apply String.eqb_neq in N1, N2, N3, N4, N5. replace (contains "UCC(4)" "UCC(4)") with true by reflexivity. cbn [app slook]. rewrite N1, N2, N3, N4, N5. exact I.
      - apply String.eqb_neq in N1, N2, N3. cbn [app slook]. rewrite N1, N2, N3. exact I. }
    assert (KK : amp_rank "t2aa" = 2%nat /\ amp_rank "t2bb" = 2%nat /\ amp_rank "t2ab" = 2%nat) by (repeat split; reflexivity).
    pose proof (kernel_rel (rsh no nv amp_rank) PB (rP_sh no nv Uo Uv false amp_rank) (rP_teq no nv Uo Uv false amp_rank) (rP_lin no nv Uo Uv false amp_rank) (rP_dot no nv Uo Uv Ho Hv false amp_rank)
      disk disk (fun _ _ => True) solve (slow_resid no nv f g D1 D2 D3 c) (slow_resid no nv f' g' D1' D2' D3' c) (slow_energy no nv f g D2 c) (slow_energy no nv f' g' D2' c)
      (slow_pert no nv g D2 c) (slow_pert no nv g' D2' c) (mp_guess no g D2) (mp_guess no g' D2') c rL) as KR.
    specialize (KR (rP_l2 no nv Uo Uv false amp_rank KK)).
    assert (HRs : forall rf d d' l l' w w', resid_call c = Some rf -> drel PB d d' -> rL l l' -> True ->
      orel (fun x y => drel PB (fst x) (fst y) /\ True) (slow_resid no nv f g D1 D2 D3 c rf d l w) (slow_resid no nv f' g' D1' D2' D3' c rf d' l' w')).
    { intros rf d d' l l' u u' Erf H _ _. unfold resid_call in Erf. rewrite HU in Erf. replace (contains "UCC(4)" "UCC(4)") with true in Erf by reflexivity.
      destruct (cc_label c =? "ccdType"); [injection Erf as <-; exact I|]. destruct (cc_label c =? "ccdTypeSlow"); [injection Erf as <-; apply pb_resid; exact H|].
      destruct (cc_label c =? "fullCCType"); [injection Erf as <-; exact I|discriminate]. }
    specialize (KR HRs).
    assert (HE : forall ef d d' w w', energy_call c = Some ef -> drel PB d d' -> True -> orel (fun x y => fst x = fst y /\ True) (slow_energy no nv f g D2 c ef d w) (slow_energy no nv f' g' D2' c ef d' w')).
    { intros ef d d' u u' Eef H _. unfold energy_call in Eef. rewrite HU in Eef. replace (contains "UCC(4)" "UCC(4)") with true in Eef by reflexivity.
      destruct (cc_label c =? "ccdType"); [injection Eef as <-; exact I|]. destruct (cc_label c =? "ccdTypeSlow"); [injection Eef as <-; apply pb_energy; exact H|].
      destruct (cc_label c =? "fullCCType"); [injection Eef as <-; exact I|discriminate]. }
    specialize (KR HE).
    assert (HPs : forall ef d d' l l' u u', (ef = E_t2energySlow \/ (cc_label c =? "ccdTypeSlow") = false) -> drel PB d d' -> rL l l' -> True ->
      orel (fun x y => fst x = fst y /\ True) (slow_pert no nv g D2 c ef d l u) (slow_pert no nv g' D2' c ef d' l' u')).
    { intros ef d d' l l' u u' _ H _ _. destruct ef; try exact I. cbn [slow_pert]. unfold t2pert_slow. rewrite HU.
      apply (orel_bind _ _ _ _ _ _ (pb_look d d' "t2aa" H)). intros t t' _. replace (extract_integer "UCC(4)") with (Some (@nil nat)) by reflexivity. cbn. auto. }
    specialize (KR HPs).
    specialize (KR (rP_guess no nv Uo Uv Ho Hv false amp_rank KK f f' g g' D1 D1' D2 D2' D3 D3' eps eps' Rf Rg HM HD2 HD2' Hg)).
    specialize (KR (rP_print no nv Uo Uv false amp_rank KK) I _ _ (slow_old no nv c) (slow_old no nv c) w w' DR I).
    assert (OV : diis_size c <> None -> vrel PB (vec_keys (cc_type c)) (slow_old no nv c) (slow_old no nv c)).
    { intros ND. unfold slow_old, vec_keys, old_keys. rewrite HU. replace (contains "UCC(4)" "UCC(4)") with true by reflexivity.
      pose proof (vectorise_rel PB ["t1aa"; "t2aa"; "t3aa"] _ _ DR) as VR.
      destruct (vectorise ["t1aa"; "t2aa"; "t3aa"] (slow_init no nv c)) as [v|] eqn:EV; cbn [orel] in VR; [exact VR|exfalso].
      unfold slow_init in EV. rewrite HU in EV. destruct (diis_size c); [|apply ND; reflexivity]. vm_compute in EV. discriminate. }
    specialize (KR (fun N => or_introl (OV N))). unfold slow_kernel, same_end, outrel in *.
    destruct (kernel _ _ _ _ _ _ c (slow_init no nv c) _ w) as [d e co| |], (kernel _ _ _ _ _ _ c (slow_init no nv c) _ w') as [d' e' co'| |]; try exact KR; try exact I.
    destruct KR as [KD [K1 K2']]. split; [exact K1|]. split; [exact K2'|]. intros k. specialize (KD k).
    destruct (slook k d) as [t|], (slook k d') as [t'|]; cbn [orel] in KD; try exact KD. destruct KD as [_ R]. exact R.
  Qed.
End CaseB.

(** C68.  A spin-orbital calculation with any of the labels CCD, LCCD, XCCD(5) to XCCD(9), UT2-..., pCCD, UCC(4), any options, with or without DIIS, any linear solver, starting with any old files in the working directory: in
    orbitals that are mixed only within sets of equal energy it ends as the calculation in the original orbitals does, with the same
    energies. *)
Theorem C68_run_rotation : forall no nv Uo Uv f f' g g' D1 D1' D2 D2' D3 D3' eps eps' c solve w w', orthogonal no Uo -> orthogonal nv Uv ->
  is_fock (no + nv) f -> is_tei (no + nv) g -> rotated no nv Uo Uv [Al; Al] f f' -> rotated no nv Uo Uv [Al; Al; Al; Al] g g' ->
  mixes_equal_energies no nv Uo Uv eps eps' ->
  is_denominator 1 no nv eps D1 -> is_denominator 2 no nv eps D2 -> is_denominator 3 no nv eps D3 ->
  is_denominator 1 no nv eps' D1' -> is_denominator 2 no nv eps' D2' -> is_denominator 3 no nv eps' D3' ->
  cc_type c = "UCC(4)" \/ contains "UCC(4)" (cc_type c) = false ->
  same_end no nv Uo Uv (slow_kernel no nv f g D1 D2 D3 c solve w) (slow_kernel no nv f' g' D1' D2' D3' c solve w').
Proof.
  intros no nv Uo Uv f f' g g' D1 D1' D2 D2' D3 D3' eps eps' c solve w w' Ho Hv Hf Hg Rf Rg HM H1 H2 H3 H1' H2' H3' [HU|NU].
  - eapply case_b; eassumption.
  - eapply case_a; eassumption.
Qed.
Print Assumptions C68_run_rotation.

(** *** Canonical orbitals *)
(** The Fock matrix is diagonal and [eps] are the orbital energies. *)
Definition canonical (n : nat) (eps : nat -> Qc) (f : tensor) : Prop :=
  shape f = [n; n] /\ forall p q, (p < n)%nat -> (q < n)%nat -> data f [p; q] = if Nat.eqb p q then eps p else 0.
Lemma al_orth no nv Uo Uv : orthogonal no Uo -> orthogonal nv Uv -> orthogonal (no + nv) (rmat no Uo Uv Al).
Proof.
  intros Ho Hv p q Hp Hq. rewrite seq_app, suml_app. cbn [Nat.add].
  assert (E1 : suml (seq 0 no) (fun k => rmat no Uo Uv Al k p * rmat no Uo Uv Al k q) = if Nat.ltb p no && Nat.ltb q no then if Nat.eqb p q then 1 else 0 else 0).
  { transitivity (suml (seq 0 no) (fun k => if Nat.ltb p no && Nat.ltb q no then Uo k p * Uo k q else 0)).
    - apply suml_ext. intros k Hk. apply in_seq in Hk. unfold rmat. replace (Nat.ltb k no) with true by (symmetry; apply Nat.ltb_lt; lia).
      destruct (Nat.ltb p no), (Nat.ltb q no); cbn [andb]; ring.
    - destruct (Nat.ltb_spec p no), (Nat.ltb_spec q no); cbn [andb]; try (apply suml_zero; reflexivity). apply Ho; assumption. }
  assert (E2 : suml (seq no nv) (fun k => rmat no Uo Uv Al k p * rmat no Uo Uv Al k q) = if Nat.ltb p no || Nat.ltb q no then 0 else if Nat.eqb p q then 1 else 0).
  { transitivity (suml (seq 0 nv) (fun k => if Nat.ltb p no || Nat.ltb q no then 0 else Uv k (p - no)%nat * Uv k (q - no)%nat)).
    - rewrite (suml_off no nv). apply suml_ext. intros k _. unfold rmat. replace (Nat.ltb (no + k) no) with false by (symmetry; apply Nat.ltb_ge; lia).
      replace (no + k - no)%nat with k by lia. destruct (Nat.ltb p no), (Nat.ltb q no); cbn [Datatypes.orb]; ring.
    - destruct (Nat.ltb_spec p no), (Nat.ltb_spec q no); cbn [Datatypes.orb]; try (apply suml_zero; reflexivity). rewrite Hv by lia.
      destruct (Nat.eqb_spec (p - no) (q - no)), (Nat.eqb_spec p q); try reflexivity; lia. }
  rewrite E1, E2. destruct (Nat.ltb_spec p no), (Nat.ltb_spec q no); cbn [Datatypes.andb Datatypes.orb]; destruct (Nat.eqb_spec p q); try ring; lia.
Qed.
(** When both sets of orbitals are canonical, the rotation between them mixes only orbitals of equal energy. *)
Theorem C68_canonical_mixing : forall no nv Uo Uv f f' eps eps', orthogonal no Uo -> orthogonal nv Uv -> rotated no nv Uo Uv [Al; Al] f f' ->
  canonical (no + nv) eps f -> canonical (no + nv) eps' f' -> mixes_equal_energies no nv Uo Uv eps eps'.
Proof.
  intros no nv Uo Uv f f' eps eps' Ho Hv [S1 [S2 R]] [_ C] [_ C'] i j Hi Hj NZ. set (W := rmat no Uo Uv Al) in *. set (n := (no + nv)%nat) in *.
  pose proof (al_orth no nv Uo Uv Ho Hv) as HW. fold W n in HW.
  assert (D : forall l, (l < n)%nat -> suml (seq 0 n) (fun p => W i p * (W l p * eps p)) = if Nat.eqb i l then eps' i else 0).
  { intros l Hl. rewrite <- (C' i l Hi Hl), R by (rewrite S2; repeat constructor; assumption). cbn [rot_at ksize]. fold W n. apply suml_ext. intros p Hp. apply in_seq in Hp. f_equal.
    transitivity (suml (seq 0 n) (fun q => (if Nat.eqb p q then 1 else 0) * (W l q * eps p))); [symmetry; apply (suml_delta _ p (fun q => W l q * eps p)); [apply seq_NoDup|apply in_seq; lia]|].
    apply suml_ext. intros q Hq. apply in_seq in Hq. rewrite C by (unfold n in *; lia). destruct (Nat.eqb p q); ring. }
  assert (E : suml (seq 0 n) (fun l => (if Nat.eqb i l then 1 else 0) * (eps' i * W l j)) = suml (seq 0 n) (fun l => suml (seq 0 n) (fun p => W i p * eps p * (W l p * W l j)))).
  { apply suml_ext. intros l Hl. apply in_seq in Hl. transitivity ((if Nat.eqb i l then eps' i else 0) * W l j); [destruct (Nat.eqb i l); ring|]. rewrite <- D by lia.
    rewrite Qcmult_comm, <- suml_scale. apply suml_ext. intros p _. ring. }
  rewrite (suml_delta _ i (fun l => eps' i * W l j)), suml_swap in E by (try apply seq_NoDup; apply in_seq; lia).
  assert (E3 : eps' i * W i j = W i j * eps j).
  { rewrite E. transitivity (suml (seq 0 n) (fun p => (if Nat.eqb j p then 1 else 0) * (W i p * eps p))).
    - apply suml_ext. intros p Hp. apply in_seq in Hp. rewrite suml_scale, HW by lia. rewrite Nat.eqb_sym. ring.
    - apply (suml_delta _ j (fun p => W i p * eps p)); [apply seq_NoDup|apply in_seq; lia]. }
  destruct (Qc_eq_dec (eps' i) (eps j)) as [|N]; [assumption|exfalso]. apply N.
  assert (Z : W i j * (eps' i - eps j) = 0) by (rewrite Qcmult_comm; transitivity (eps' i * W i j - W i j * eps j); [ring|rewrite E3; ring]).
  apply Qcmult_integral in Z. destruct Z as [Z|Z]; [contradiction|]. transitivity (eps' i - eps j + eps j); [ring|rewrite Z; ring].
Qed.
Print Assumptions C68_canonical_mixing.
(** The usual case: a calculation started from two sets of canonical orbitals of the same molecule, as two runs of the mean-field
    program may return them when orbitals are degenerate or have another sign or order. *)
Theorem C68_run_canonical : forall no nv Uo Uv f f' g g' D1 D1' D2 D2' D3 D3' eps eps' c solve w w', orthogonal no Uo -> orthogonal nv Uv ->
  canonical (no + nv) eps f -> canonical (no + nv) eps' f' -> is_tei (no + nv) g ->
  rotated no nv Uo Uv [Al; Al] f f' -> rotated no nv Uo Uv [Al; Al; Al; Al] g g' ->
  is_denominator 1 no nv eps D1 -> is_denominator 2 no nv eps D2 -> is_denominator 3 no nv eps D3 ->
  is_denominator 1 no nv eps' D1' -> is_denominator 2 no nv eps' D2' -> is_denominator 3 no nv eps' D3' ->
  cc_type c = "UCC(4)" \/ contains "UCC(4)" (cc_type c) = false ->
  same_end no nv Uo Uv (slow_kernel no nv f g D1 D2 D3 c solve w) (slow_kernel no nv f' g' D1' D2' D3' c solve w').
Proof.
  intros no nv Uo Uv f f' g g' D1 D1' D2 D2' D3 D3' eps eps' c solve w w' Ho Hv Cf Cf' Hg Rf Rg. intros.
  eapply C68_run_rotation; try eassumption; [|eapply C68_canonical_mixing; eassumption].
  destruct Cf as [S1 C]. split; [exact S1|]. intros l1 l2 L1 L2 I1. destruct l1 as [|p [|? ?]]; try discriminate. destruct l2 as [|q [|? ?]]; try discriminate. cbn [app] in *.
  rewrite S1 in I1. inversion I1 as [|? ? ? ? A1 I1']; subst. inversion I1' as [|? ? ? ? A2 _]; subst. rewrite !C by assumption. destruct (Nat.eqb_spec p q), (Nat.eqb_spec q p); subst; try reflexivity; contradiction.
Qed.
Print Assumptions C68_run_canonical.

(** *** Reordering orbitals and changing signs *)
Theorem C68_run_relabelled : forall no nv po so pv sv f f' g g' D1 D1' D2 D2' D3 D3' eps eps' c solve w w', is_relabelling no po so -> is_relabelling nv pv sv ->
  is_fock (no + nv) f -> is_tei (no + nv) g -> relabelled no nv po pv so sv [Al; Al] f f' -> relabelled no nv po pv so sv [Al; Al; Al; Al] g g' ->
  (forall i, (i < no)%nat -> eps' i = eps (po i)) -> (forall a, (a < nv)%nat -> eps' (no + a)%nat = eps (no + pv a)%nat) ->
  is_denominator 1 no nv eps D1 -> is_denominator 2 no nv eps D2 -> is_denominator 3 no nv eps D3 ->
  is_denominator 1 no nv eps' D1' -> is_denominator 2 no nv eps' D2' -> is_denominator 3 no nv eps' D3' ->
  cc_type c = "UCC(4)" \/ contains "UCC(4)" (cc_type c) = false ->
  same_end no nv (relabelling_matrix po so) (relabelling_matrix pv sv) (slow_kernel no nv f g D1 D2 D3 c solve w) (slow_kernel no nv f' g' D1' D2' D3' c solve w').
Proof.
  intros no nv po so pv sv f f' g g' D1 D1' D2 D2' D3 D3' eps eps' c solve w w' Ho Hv Hf Hg Rf Rg Eo Ev. intros.
  destruct (C67_relabelling_is_rotation no nv po so pv sv Ho Hv) as [Oo [Ov RR]].
  eapply C68_run_rotation; try eassumption; try (apply RR; assumption).
  intros i j Hi Hj. unfold rmat, relabelling_matrix. destruct (Nat.ltb_spec i no), (Nat.ltb_spec j no); try (intros X; exfalso; apply X; reflexivity).
  - destruct (Nat.eqb_spec j (po i)) as [->|]; [|intros X; exfalso; apply X; reflexivity]. intros _. apply Eo. assumption.
  - destruct (Nat.eqb_spec (j - no) (pv (i - no)%nat)) as [Ej|]; [|intros X; exfalso; apply X; reflexivity]. intros _.
    assert (Ei : i = (no + (i - no))%nat) by lia. assert (Fj : j = (no + pv (i - no)%nat)%nat) by lia. rewrite Fj, <- Ev by lia. rewrite <- Ei. reflexivity.
Qed.
Print Assumptions C68_run_relabelled.

(** *** Concrete cases: two occupied orbitals of energy 0 and two virtual orbitals of energy 3/4; the occupied pair is turned and the
    virtual pair reflected. *)
Definition s_eps (p : nat) : Qc := if Nat.ltb p 2 then 0 else Q2Qc (3 # 4).
Definition e_den (eps : nat -> Qc) (k no nv : nat) : tensor :=
  mkT (repeat nv k ++ repeat no k) (fun idx => / gap no eps (firstn k idx) (skipn k idx)).
Lemma e_den_ok eps k no nv : is_denominator k no nv eps (e_den eps k no nv).
Proof.
  split; [reflexivity|]. intros virt occ HL _. unfold e_den. cbn [data].
  rewrite firstn_app, skipn_app, HL, Nat.sub_diag. cbn [firstn skipn]. rewrite <- HL, firstn_all, skipn_all, app_nil_r. reflexivity.
Qed.
Lemma s_canonical : canonical 4 s_eps s_fock.
Proof. split; [reflexivity|]. intros [|[|[|[|p]]]] [|[|[|[|q]]]] Hp Hq; try lia; reflexivity. Qed.
Definition s_fock' : tensor := rot_tensor 2 2 turn mirror [Al; Al] s_fock.
Definition s_tei' : tensor := rot_tensor 2 2 turn mirror [Al; Al; Al; Al] (i_tei 4).
Lemma s_canonical' : canonical 4 s_eps s_fock'.
Proof. split; [reflexivity|]. intros [|[|[|[|p]]]] [|[|[|[|q]]]] Hp Hq; try lia; apply Qc_is_canon; vm_compute; reflexivity. Qed.
Example C68_run_instance ty diis solve w w' H :=
  C68_run_canonical 2 2 turn mirror s_fock s_fock' (i_tei 4) s_tei' _ _ _ _ _ _ s_eps s_eps (i_calc ty diis) solve w w' turn_ok mirror_ok
    s_canonical s_canonical' (i_tei_ok 4) (rot_tensor_ok 2 2 turn mirror [Al; Al] s_fock eq_refl) (rot_tensor_ok 2 2 turn mirror [Al; Al; Al; Al] (i_tei 4) eq_refl)
    (e_den_ok s_eps 1 2 2) (e_den_ok s_eps 2 2 2) (e_den_ok s_eps 3 2 2) (e_den_ok s_eps 1 2 2) (e_den_ok s_eps 2 2 2) (e_den_ok s_eps 3 2 2) H.
Example C68_run_instance_xccd7 := C68_run_instance "XCCD(7)" (Some 3%nat) (fun _ _ _ => None) None None (or_intror eq_refl).
Example C68_run_instance_ucc4 := C68_run_instance "UCC(4)" (Some 3%nat) (fun _ _ _ => None) None None (or_introl eq_refl).
(** The statement is not empty: a loosely converged CCD calculation with these integrals returns, and both sets of integrals are different arrays. *)
Example C68_run_instance_returns : exists d tf co,
  slow_kernel 2 2 s_fock (i_tei 4) (e_den s_eps 1 2 2) (e_den s_eps 2 2 2) (e_den s_eps 3 2 2) (mkCalc "ccdTypeSlow" "CCD" 75 (Q2Qc 100000) None 0 0 0) (fun _ _ _ => None) None = Returned d tf co /\
  data s_tei' [0; 2; 1; 3]%nat <> data (i_tei 4) [0; 2; 1; 3]%nat.
Proof.
  assert (R : match slow_kernel 2 2 s_fock (i_tei 4) (e_den s_eps 1 2 2) (e_den s_eps 2 2 2) (e_den s_eps 3 2 2) (mkCalc "ccdTypeSlow" "CCD" 75 (Q2Qc 100000) None 0 0 0) (fun _ _ _ => None) None with
    Returned _ _ _ => true | _ => false end = true) by (vm_compute; reflexivity).
  destruct (slow_kernel 2 2 _ _ _ _ _ _ _ _) as [d tf co| |]; [|discriminate|discriminate].
  exists d, tf, co. split; [reflexivity|]. intros H. apply (f_equal this) in H. vm_compute in H. discriminate.
Qed.
Definition x_eps (p : nat) : Qc := i_eps (klabel 2 (fun i => (1 - i)%nat) (fun i => i) Al p).
Definition relabel_tensor ks (t : tensor) : tensor :=
  mkT (shape t) (fun idx => signs 2 (fun _ => 1) (fun i => if Nat.eqb i 1 then - (1) else 1) ks idx * data t (labels 2 (fun i => (1 - i)%nat) (fun i => i) ks idx)).
Example C68_run_relabelled_instance := C68_run_relabelled 2 2 _ _ _ _ (i_fock 4) (relabel_tensor [Al; Al] (i_fock 4)) (i_tei 4) (relabel_tensor [Al; Al; Al; Al] (i_tei 4))
  _ _ _ _ _ _ i_eps x_eps (i_calc "pCCD" (Some 3%nat)) (fun _ _ _ => None) None None exchange_ok reverse_ok (i_fock_ok 4) (i_tei_ok 4)
  (conj eq_refl (conj eq_refl (fun _ _ => eq_refl))) (conj eq_refl (conj eq_refl (fun _ _ => eq_refl)))
  ltac:(intros [|[|i]] Hi; [reflexivity|reflexivity|exfalso; lia]) ltac:(intros [|[|a]] Ha; [reflexivity|reflexivity|exfalso; lia])
  (i_den_ok 1 2 2) (i_den_ok 2 2 2) (i_den_ok 3 2 2) (e_den_ok x_eps 1 2 2) (e_den_ok x_eps 2 2 2) (e_den_ok x_eps 3 2 2) (or_intror eq_refl).
