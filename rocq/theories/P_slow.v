(** C01: antisymmetry of every iterate of a spin-orbital calculation. *)
From Coq Require Import String Ascii List Arith NArith ZArith QArith Qcanon Bool Lia Permutation.
From Verif Require Import Sums Tensor Interp Numpy Poly SymExec Canon Spec SpecDriver Instances Setup Master Spin Check Tabs NF P_ccd.
From Verif Require Import Diis P_diis Kernel P_kernel P_driver SlowCC Cut P_xcc Linear.
From Verif Require Code_t2residEqnsSlow Code_t2energySlow Code_drive_ucc4.
Import ListNotations.
Open Scope string_scope.

(** ** Elementwise arithmetic and antisymmetry *)
Lemma eqb_shape_refl s : eqb_shape s s = true.
Proof. induction s as [|x s IH]; [reflexivity|]. cbn. rewrite Nat.eqb_refl. exact IH. Qed.
Lemma tbin_ok f a b : shape a = shape b -> tbin f a b = Some (mkT (shape a) (fun i => f (data a i) (data b i))).
Proof. intros H. unfold tbin. rewrite H, eqb_shape_refl. reflexivity. Qed.
Lemma tbin_inv f a b r : tbin f a b = Some r -> shape a = shape b /\ r = mkT (shape a) (fun i => f (data a i) (data b i)).
Proof.
  unfold tbin. destruct (eqb_shape (shape a) (shape b)) eqn:E; [|discriminate]. intros H. apply some_inj in H. split; [|congruence].
  clear -E. revert E. generalize (shape a) (shape b). induction l as [|x l IH]; intros [|y m] E; cbn in E; try discriminate; [reflexivity|].
  apply andb_true_iff in E. destruct E as [E1 E2]. apply Nat.eqb_eq in E1. f_equal; auto.
Qed.

Section Amp.
  Variables no nv : nat.
  Lemma amp_lin k n c ts : (forall i, (i < n)%nat -> is_amp k no nv (ts i)) ->
    is_amp k no nv (lincomb (repeat nv k ++ repeat no k)%list n c ts).
  Proof.
    intros H. split; [reflexivity|]. intros i Hi.
    assert (G : forall p, (forall j, (j < n)%nat -> antisymmetric_in (ts j) p) -> (forall j, (j < n)%nat -> shape (ts j) = (repeat nv k ++ repeat no k)%list) ->
       antisymmetric_in (lincomb (repeat nv k ++ repeat no k)%list n c ts) p).
    { clear. intros p HA HS pre x y post HL I1 I2. unfold lincomb in *. cbn [data shape] in *.
      transitivity (Sum j < n, (- (1)) * (c j * data (ts j) (pre ++ y :: x :: post)%list))%Qc.
      - apply suml_ext. intros j Hj. apply in_seq in Hj. rewrite (HA j ltac:(lia) pre x y post HL) by (rewrite HS by lia; assumption). ring.
      - rewrite suml_scale. ring. }
    split; (apply G; [intros j Hj; apply (H j Hj), Hi|intros j Hj; apply (H j Hj)]).
  Qed.
  Lemma amp_teq k t u : is_amp k no nv t -> teq u t -> is_amp k no nv u.
  Proof.
    intros [HS HA] [ES ED]. split; [congruence|]. intros i Hi.
    assert (G : forall p, antisymmetric_in t p -> antisymmetric_in u p).
    { intros p HP pre x y post HL I1 I2. rewrite ED, ED by assumption. apply HP; [exact HL|rewrite <- ES; assumption|rewrite <- ES; assumption]. }
    split; apply G, HA, Hi.
  Qed.
  Lemma amp_bin k f t u : (forall x y, f (- x) (- y) = - f x y)%Qc -> is_amp k no nv t -> is_amp k no nv u ->
    exists r, tbin f t u = Some r /\ is_amp k no nv r.
  Proof.
    intros Hf [S1 A1] [S2 A2]. rewrite tbin_ok by congruence. eexists; split; [reflexivity|]. split; [exact S1|]. intros i Hi.
    assert (G : forall p, antisymmetric_in t p -> antisymmetric_in u p -> antisymmetric_in (mkT (shape t) (fun i => f (data t i) (data u i))) p).
    { intros p H1 H2 pre x y post HL I1 I2. cbn [data shape] in *.
      rewrite (H1 pre x y post HL I1 I2). rewrite (H2 pre x y post HL) by (rewrite S2, <- S1; assumption). apply Hf. }
    split; apply G; (apply A1 || apply A2); exact Hi.
  Qed.
  Lemma amp_plus k t u : is_amp k no nv t -> is_amp k no nv u -> exists r, tbin Qcplus t u = Some r /\ is_amp k no nv r.
  Proof. apply amp_bin. intros; ring. Qed.
  Lemma amp_minus k t u : is_amp k no nv t -> is_amp k no nv u -> exists r, tbin Qcminus t u = Some r /\ is_amp k no nv r.
  Proof. apply amp_bin. intros; ring. Qed.
  Lemma amp_scale k x t : is_amp k no nv t -> is_amp k no nv (tscale x t).
  Proof.
    intros [S1 A1]. split; [exact S1|]. intros i Hi.
    assert (G : forall p, antisymmetric_in t p -> antisymmetric_in (tscale x t) p).
    { intros p H1 pre a b post HL I1 I2. cbn [data shape tscale] in *. rewrite (H1 pre a b post HL I1 I2). ring. }
    split; apply G, A1, Hi.
  Qed.
  Lemma amp_zeros k : is_amp k no nv (tzeros (repeat nv k ++ repeat no k)%list).
  Proof. split; [reflexivity|]. intros i Hi. split; intros pre a b post HL I1 I2; reflexivity. Qed.
  (** denominators are unchanged by exchanging two virtual or two occupied orbitals *)
  Definition pair_symmetric (k : nat) (t : tensor) : Prop :=
    shape t = (repeat nv k ++ repeat no k)%list /\ forall i, (S i < k)%nat -> symmetric_in t i /\ symmetric_in t (k + i).
  Lemma den_sym k eps D : is_denominator k no nv eps D -> pair_symmetric k D.
  Proof.
    intros [S1 HD]. split; [exact S1|]. intros i Hi.
    assert (SP : forall l : list nat, l = (firstn k l ++ skipn k l)%list) by (intros; symmetry; apply firstn_skipn).
    assert (GS : forall (h : nat -> Qc) pre x y post, suml (pre ++ x :: y :: post)%list h = suml (pre ++ y :: x :: post)%list h)
      by (intros; rewrite !suml_app; cbn [suml]; ring).
    assert (LL : forall l, inr l (shape D) -> length l = (k + k)%nat).
    { intros l H. apply Forall2_len in H. rewrite S1, app_length, !repeat_length in H. exact H. }
    split; intros pre x y post HL I1 I2.
    - pose proof (LL _ I1) as L1. rewrite app_length in L1. cbn [length] in L1.
      rewrite (SP post) in *. 
      set (m := (k - S (S i))%nat). assert (EP : post = (firstn m post ++ skipn m post)%list) by (symmetry; apply firstn_skipn).
      assert (E1 : forall u v, (pre ++ u :: v :: post)%list = ((pre ++ u :: v :: firstn m post) ++ skipn m post)%list)
        by (intros u v; rewrite <- app_assoc; cbn [app]; rewrite <- EP; reflexivity).
      rewrite <- (SP post) in *. rewrite E1 in I1. rewrite E1 in I2. rewrite !E1.
      assert (LE : forall u v, length (pre ++ u :: v :: firstn m post) = k)
        by (intros; rewrite app_length; cbn [length]; rewrite firstn_length; unfold m; lia).
      rewrite !HD by (apply LE || assumption). unfold gap. rewrite (GS _ pre x y). reflexivity.
    - pose proof (LL _ I1) as L1. rewrite app_length in L1. cbn [length] in L1.
      assert (EP : pre = (firstn k pre ++ skipn k pre)%list) by (symmetry; apply firstn_skipn).
      assert (E1 : forall l : list nat, (pre ++ l)%list = (firstn k pre ++ skipn k pre ++ l)%list)
        by (intros l; rewrite app_assoc, <- EP; reflexivity).
      rewrite E1 in I1. rewrite E1 in I2. rewrite !E1.
      assert (LE : length (firstn k pre) = k) by (rewrite firstn_length; lia).
      rewrite !HD by (exact LE || assumption). unfold gap. rewrite (GS _ (skipn k pre) x y). reflexivity.
  Qed.
  Lemma amp_times_sym k t D : is_amp k no nv t -> pair_symmetric k D -> exists r, tbin Qcmult t D = Some r /\ is_amp k no nv r.
  Proof.
    intros [S1 A1] [S2 A2]. rewrite tbin_ok by congruence. eexists; split; [reflexivity|]. split; [exact S1|]. intros i Hi.
    assert (G : forall p, antisymmetric_in t p -> symmetric_in D p -> antisymmetric_in (mkT (shape t) (fun i => data t i * data D i)%Qc) p).
    { intros p H1 H2 pre x y post HL I1 I2. cbn [data shape] in *.
      rewrite (H1 pre x y post HL I1 I2). rewrite (H2 pre x y post HL) by (rewrite S2, <- S1; assumption). ring. }
    split; apply G; (apply A1 || apply A2); exact Hi.
  Qed.
  Lemma sym_times_amp k t D : is_amp k no nv t -> pair_symmetric k D -> exists r, tbin Qcmult (trecip D) t = Some r /\ is_amp k no nv r.
  Proof.
    intros [S1 A1] [S2 A2]. rewrite tbin_ok by (cbn [trecip shape]; congruence). eexists; split; [reflexivity|]. split; [exact S2|]. intros i Hi.
    assert (G : forall p, antisymmetric_in t p -> symmetric_in D p -> antisymmetric_in (mkT (shape (trecip D)) (fun i => data (trecip D) i * data t i)%Qc) p).
    { intros p H1 H2 pre x y post HL I1 I2. cbn [data shape trecip] in *.
      rewrite (H2 pre x y post HL I1 I2). rewrite (H1 pre x y post HL) by (rewrite S1, <- S2; assumption). ring. }
    split; apply G; (apply A1 || apply A2); exact Hi.
  Qed.
End Amp.

(** ** The equations: they run, and return antisymmetric arrays *)
Lemma call0_returns f args R : returns 0 [] f args R -> call0 f args = Some R.
Proof. unfold returns, call0. intros ->. reflexivity. Qed.

Definition vo (k : nat) : list N := (repeat 1%N k ++ repeat 0%N k)%list.
Lemma amp_of_checks no nv tab (OK : Forall (atom_ok (so_range no nv) sy) tab) f svs args k :
  Forall2 (so_vsim no nv tab) svs args -> (k <= 4)%nat ->
  so_chk (vo k) (srun so_slm 0 [] f svs) (srun so_slm 0 [] f svs) ->
  (forall i, (S i < k)%nat -> antis (vo k) i (srun so_slm 0 [] f svs) /\ antis (vo k) (k + i) (srun so_slm 0 [] f svs)) ->
  exists R, call0 f args = Some R /\ is_amp k no nv R.
Proof.
  intros VS Hk HC HA.
  destruct (so_compare no nv tab OK 0 [] f svs _ 0 [] f svs _ (vo k) VS VS HC) as [R [_ [H1 [_ [H2 _]]]]].
  exists R. split; [apply call0_returns, H1|]. split; [rewrite H2; exact (sh_vo no nv k)|].
  intros i Hi. destruct (HA i Hi) as [A1 A2].
  assert (LV : length (vo k) = (k + k)%nat) by (unfold vo; rewrite app_length, !repeat_length; reflexivity).
  assert (G : forall l, (forall j, In j l -> (S j < k + k)%nat /\ antis (vo k) j (srun so_slm 0 [] f svs)) -> forall j, In j l -> antisymmetric_in R j).
  { intros l Hl j Hj. eapply (so_antis no nv tab OK); [exact VS| |exact H1| |exact Hj]; [instantiate (1 := vo k); rewrite LV; lia|].
    apply Forall_forall. intros x Hx. rewrite LV. apply Hl, Hx. }
  split; (eapply (G [_]); [|left; reflexivity]); intros j [<-|[]]; (split; [lia|assumption]).
Qed.

Section Eqs.
  Variables no nv : nat.
  Variables f g t1 t2 t2d t3 : tensor.
  Hypothesis Hf : is_fock (no + nv) f.
  Hypothesis Hg : is_tei (no + nv) g.
  Hypothesis H1 : is_amp 1 no nv t1.
  Hypothesis H2 : is_amp 2 no nv t2.
  Hypothesis H2d : swapped 2 t2 t2d.
  Hypothesis H3 : is_amp 3 no nv t3.
  Definition u4_atoms : atomtab := [(0%N, ([6;6]%N, f)); (1%N, ([6;6;6;6]%N, g)); (2%N, ([1;0]%N, t1)); (3%N, ([1;1;0;0]%N, t2)); (4%N, ([1;1;1;0;0;0]%N, t3))].
  Lemma u4_ok : Forall (atom_ok (so_range no nv) sy) u4_atoms.
  Proof. unfold u4_atoms. oks. Qed.
  Definition a_f := SFull 0 [0;0]%N. Definition a_g := SFull 1 [0;0;0;0]%N.
  Definition a_1 := at_ 2 [1;0]%N. Definition a_2 := at_ 3 [1;1;0;0]%N. Definition a_3 := at_ 4 [1;1;1;0;0;0]%N.
  Definition a_2d := swp 3 2 [0;0;1;1]%N.
  Ltac amp_ svs := eapply (amp_of_checks no nv u4_atoms u4_ok _ svs); [unfold a_f, a_g, a_1, a_2, a_2d, a_3, u4_atoms; vsims|lia|unfold vo; cbn [repeat app]; chk_|].
  Ltac two_ := intros i Hi; assert (i = 0%nat) as -> by lia; unfold vo; cbn [repeat app Nat.add]; split; chk_.
  Ltac three_ := intros i Hi; assert (i = 0%nat \/ i = 1%nat) as [->| ->] by lia; unfold vo; cbn [repeat app Nat.add]; split; chk_.
  Lemma ccd_amp : exists R, call0 Code_t2residEqnsSlow.ccd_t2residual [VT t2; VT f; VT g; o_ no; v_ no] = Some R /\ is_amp 2 no nv R.
  Proof. destruct (ccd_runs no nv f g t2 Hf Hg H2) as [R [A B]]. exists R. split; [apply call0_returns, A|exact B]. Qed.
  Lemma lccd_amp : exists R, call0 Code_t2residEqnsSlow.doubles_resLCCDoffset [VT t2; VT f; VT g; o_ no; v_ no] = Some R /\ is_amp 2 no nv R.
  Proof. amp_ [a_2; a_f; a_g; SSl 0; SSl 1]. two_. Qed.
  Lemma u4t1_amp : exists R, call0 Code_drive_ucc4.t1_residEqns [VT t1; VT t2; VT f; VT g; o_ no; v_ no] = Some R /\ is_amp 1 no nv R.
  Proof. amp_ [a_1; a_2; a_f; a_g; SSl 0; SSl 1]. intros i Hi; lia. Qed.
  Lemma u4sq_amp : exists R, call0 Code_drive_ucc4.offset_t2resid_t2squared [VT t2; VT g; o_ no; v_ no] = Some R /\ is_amp 2 no nv R.
  Proof. amp_ [a_2; a_g; SSl 0; SSl 1]. two_. Qed.
  Lemma u4t1t3_amp : exists R, call0 Code_drive_ucc4.offset_t2resid_T1_T3 [VT t1; VT t3; VT g; o_ no; v_ no] = Some R /\ is_amp 2 no nv R.
  Proof. amp_ [a_1; a_3; a_g; SSl 0; SSl 1]. two_. Qed.
  Lemma u4t3_amp : exists R, call0 Code_drive_ucc4.t3_resid [VT t3; VT t2; VT f; VT g; o_ no; v_ no] = Some R /\ is_amp 3 no nv R.
  Proof. amp_ [a_3; a_2; a_f; a_g; SSl 0; SSl 1]. three_. Qed.
  Lemma transp_amp t : is_amp 2 no nv t -> exists td, ttransp [2;3;0;1]%nat t = Some td /\ swapped 2 t td /\ is_amp_ov 2 no nv td.
  Proof.
    intros [S A]. unfold ttransp. rewrite S. cbn [repeat app length Nat.eqb is_permb seq forallb existsb orb andb].
    eexists; split; [reflexivity|]. cbn [map nth seq length index_of Nat.eqb].
    assert (SW : swapped 2 t (mkT [no; no; nv; nv] (fun idx => data t [nth 2 idx 0%nat; nth 3 idx 0%nat; nth 0 idx 0%nat; nth 1 idx 0%nat]))).
    { split; [rewrite S; reflexivity|]. intros l1 l2 L1 I. pose proof (Forall2_len _ _ _ I) as LL. rewrite S, app_length in LL. cbn in LL.
      destruct l1 as [|a [|b [|]]]; try discriminate. destruct l2 as [|i [|j [|]]]; cbn in LL; try lia. reflexivity. }
    split; [exact SW|]. split; [reflexivity|]. intros i Hi. assert (i = 0%nat) as -> by lia. destruct (A 0%nat ltac:(lia)) as [A0 A2].
    split; intros pre x y post HL I1 I2; cbn [data shape] in *.
    - destruct pre; [|discriminate]. cbn [app] in *. pose proof (Forall2_len _ _ _ I1) as LL. cbn in LL.
      destruct post as [|a [|b [|]]]; cbn in LL; try lia. cbn [nth].
      inversion I1; inversion I2; subst. repeat match goal with H : Forall2 _ (_ :: _) _ |- _ => inversion H; subst; clear H end.
      apply (A2 [a; b] x y []); [reflexivity| |]; rewrite S; repeat constructor; assumption.
    - destruct pre as [|i [|j [|]]]; try discriminate. cbn [app] in *. pose proof (Forall2_len _ _ _ I1) as LL. cbn in LL.
      destruct post; cbn in LL; try lia. cbn [nth].
      inversion I1; inversion I2; subst. repeat match goal with H : Forall2 _ (_ :: _) _ |- _ => inversion H; subst; clear H end.
      apply (A0 [] x y [i; j]); [reflexivity| |]; rewrite S; repeat constructor; assumption.
  Qed.
  Lemma energy_runs : exists e, ccd_energy no f g t2 = Some e.
  Proof.
    unfold ccd_energy.
    destruct (so_compare no nv u4_atoms u4_ok 0 [] Code_t2energySlow.ccdEnergy [a_2; a_f; a_g; SSl 0; SSl 1] [VT t2; VT f; VT g; o_ no; v_ no]
      0 [] Code_t2energySlow.ccdEnergy [a_2; a_f; a_g; SSl 0; SSl 1] [VT t2; VT f; VT g; o_ no; v_ no] []) as [R [_ [HR _]]].
    - unfold a_f, a_g, a_2, u4_atoms. vsims.
    - unfold a_f, a_g, a_2, u4_atoms. vsims.
    - chk_.
    - rewrite (call0_returns _ _ _ HR). eexists; reflexivity.
  Qed.
End Eqs.

(** ** One pass of a calculation with any method other than UCC(4) *)
Lemma extract_orders s l : extract_integer s = Some l -> exists d, (d <= 9)%nat /\ l = seq 5 (d + 1 - 5).
Proof.
  unfold extract_integer. destruct (digits s) as [|x r] eqn:E; [discriminate|]. intros H. injection H as <-.
  exists (last (digits s) 0%nat). rewrite E. split; [|reflexivity]. rewrite <- E.
  assert (F : Forall (fun d => (d <= 9)%nat) (digits s)).
  { clear. induction s as [|c s IH]; cbn [digits]; [constructor|]. unfold digit. set (n := nat_of_ascii c).
    destruct ((48 <=? n)%nat && (n <=? 57)%nat)%bool eqn:B; [|exact IH]. constructor; [|exact IH].
    apply andb_true_iff in B. destruct B as [_ B]. apply Nat.leb_le in B. lia. }
  clear E. induction F as [|d l H F IH]; cbn [last]; [lia|]. destruct l; [exact H|exact IH].
Qed.

Lemma contains_spec s : forall t, contains s t = true <-> exists a b, t = a ++ s ++ b.
Proof.
  unfold contains. assert (PF : forall s t, prefix s t = true <-> exists b, t = s ++ b).
  { clear. induction s as [|x s IH]; intros t; cbn.
    - split; [intros _; exists t; reflexivity|destruct t; reflexivity].
    - destruct t as [|y t]; [split; [discriminate|intros [b H]; discriminate]|].
      change (prefix (String x s) (String y t)) with (if ascii_dec x y then prefix s t else false). destruct (ascii_dec x y) as [->|N].
      + split; [intros H; apply IH in H; destruct H as [b ->]; exists b; reflexivity|].
        intros [b H]. injection H as H. apply IH. exists b. exact H.
      + split; [discriminate|]. intros [b H]. congruence. }
  assert (G : forall t, (exists a b, t = a ++ s ++ b) <-> String.index 0 s t <> None).
  { induction t as [|y t IH].
    - cbn. destruct s as [|x s]; cbn.
      + split; [discriminate|]. intros _. exists "", "". reflexivity.
      + split; [|congruence]. intros [a [b H]]. destruct a; discriminate.
    - cbn [String.index]. destruct (prefix s (String y t)) eqn:EP.
      + split; [discriminate|]. intros _. apply PF in EP. destruct EP as [b EP]. exists "", b. exact EP.
      + destruct (String.index 0 s t) as [n|] eqn:EI.
        * split; [discriminate|]. intros _. destruct (proj2 IH ltac:(discriminate)) as [a [b ->]]. exists (String y a), b. reflexivity.
        * split; [|congruence]. intros [a [b H]]. destruct a as [|z a].
          -- cbn in H. assert (prefix s (String y t) = true) by (apply PF; exists b; exact H). congruence.
          -- injection H as <- ->. exfalso. apply (proj1 IH); [exists a, b; reflexivity|reflexivity]. }
  intros t. rewrite G. destruct (String.index 0 s t); split; congruence.
Qed.
Lemma sapp_assoc a b c : (a ++ b) ++ c = a ++ (b ++ c).
Proof. induction a as [|x a IH]; [reflexivity|]. cbn. rewrite IH. reflexivity. Qed.
Lemma contains_trans s t u : contains s t = true -> contains t u = true -> contains s u = true.
Proof.
  rewrite !contains_spec. intros [a [b ->]] [a' [b' ->]]. exists (a' ++ a), (b ++ b'). rewrite !sapp_assoc. reflexivity.
Qed.

Section Run.
  Variables no nv : nat.
  Variables f g D1 D2 D3 : tensor.
  Variable eps : nat -> Qc.
  Variable c : calc.
  Hypothesis Hf : is_fock (no + nv) f.
  Hypothesis Hg : is_tei (no + nv) g.
  Hypothesis HD : is_denominator 2 no nv eps D2.
  Let DS := den_sym no nv 2 eps D2 HD.

  Lemma xcc_resids_ok t2 : is_amp 2 no nv t2 -> forall n k r w, (5 <= k)%nat -> (k + n <= 10)%nat -> (k = 5%nat \/ good_disk no nv w) ->
    is_amp 2 no nv r -> exists r' w', xcc_resids no nv g (seq k n) t2 r w = Some (r', w') /\ is_amp 2 no nv r'.
  Proof.
    intros Ht. induction n as [|n IH]; intros k r w H1 H2 HW Hr; cbn [seq xcc_resids]; [eauto|].
    destruct (xcc_base_ok no nv g t2 Hg Ht k w ltac:(lia) HW) as [b [w' [E [Hb [_ HW']]]]]. rewrite E. cbn [obind fst snd].
    destruct (amp_plus no nv 2 r b Hr Hb) as [r2 [E2 Hr2]]. rewrite E2. cbn [obind]. apply IH; try lia; auto.
  Qed.
  Lemma dot_runs a b : shape a = [no; no; nv; nv] -> shape b = [nv; nv; no; no] -> exists e, dot "ijab,abij" a b = Some e.
  Proof.
    intros Sa Sb. unfold dot. cbn [parse_spec]. 
    destruct (parse_spec "ijab,abij") as [ins out] eqn:E. vm_compute in E. injection E as <- <-.
    unfold einsum. cbn [map]. rewrite Sa, Sb. cbn. rewrite !Nat.eqb_refl. cbn. eexists; reflexivity.
  Qed.
  (** g[v,v,o,o] *)
  Definition vvoo : fn := mkFn ["g"; "o"; "v"] [] (ESlice (EVar "g") [SV "v"; SV "v"; SV "o"; SV "o"]).
  Lemma gs_amp : exists gs, tslice [(no, None); (no, None); (0%nat, Some no); (0%nat, Some no)] g = Some gs /\ is_amp 2 no nv gs.
  Proof.
    set (tab := [(1%N, ([6;6;6;6]%N, g))] : atomtab).
    assert (OK : Forall (atom_ok (so_range no nv) sy) tab) by (unfold tab; oks).
    destruct (amp_of_checks no nv tab OK vvoo [SFull 1 [0;0;0;0]%N; SSl 0; SSl 1] [VT g; o_ no; v_ no] 2) as [R [HR AR]].
    - unfold tab. vsims.
    - lia.
    - unfold vo; cbn [repeat app]; chk_.
    - intros i Hi; assert (i = 0%nat) as -> by lia; unfold vo; cbn [repeat app Nat.add]; split; chk_.
    - exists R. split; [|exact AR]. 
      assert (E : call0 vvoo [VT g; o_ no; v_ no] =
        do v <- (do t <- tslice [(no, None); (no, None); (0%nat, Some no); (0%nat, Some no)] g; Some (VT t)); asT v) by reflexivity.
      rewrite E in HR. destruct (tslice _ g); cbn in HR; [exact HR|discriminate].
  Qed.
  Lemma guess_amp : exists gs t, tslice [(no, None); (no, None); (0%nat, Some no); (0%nat, Some no)] g = Some gs /\
    tbin Qcmult gs D2 = Some t /\ is_amp 2 no nv t.
  Proof.
    destruct gs_amp as [gs [E A]]. destruct (amp_times_sym no nv 2 gs D2 A DS) as [t [E2 A2]]. exists gs, t. auto.
  Qed.
  Lemma xcc_energies_ok b t2 : is_amp 2 no nv t2 -> forall n k w, (5 <= k)%nat -> (k + n <= 10)%nat -> (k = 5%nat \/ good_disk no nv w) ->
    exists l w', xcc_energies no nv g D2 b t2 (seq k n) w = Some (l, w').
  Proof.
    intros Ht. induction n as [|n IH]; intros k w H1 H2 HW; cbn [seq xcc_energies]; [eauto|].
    unfold xcc_energy1.
    assert (HC : exists cap, (if b then do gs <- tslice [(no, None); (no, None); (0%nat, Some no); (0%nat, Some no)] g; tbin Qcmult gs D2 else Some t2) = Some cap /\ is_amp 2 no nv cap).
    { destruct b; [|exists t2; split; [reflexivity|exact Ht]].
      destruct guess_amp as [gs [t [E1 [E2 A]]]]. rewrite E1. cbn [obind]. exists t. split; assumption. }
    destruct HC as [cap [-> Hc]]. cbn [obind]. destruct (transp_amp no nv cap Hc) as [dag [-> [_ [Sd _]]]]. cbn [obind].
    destruct (xcc_base_ok no nv g t2 Hg Ht k w ltac:(lia) HW) as [bb [w' [E [Hb [_ HW']]]]]. rewrite E. cbn [obind fst snd].
    destruct (dot_runs dag bb Sd (proj1 Hb)) as [e ->]. cbn [obind fst snd].
    destruct (IH (S k) w' ltac:(lia) ltac:(lia) ltac:(auto)) as [l [w2 ->]]. cbn [obind fst snd]. eauto.
  Qed.

  (** labels the code accepts: "X" must come with a digit; the CCSD(Qf) module is missing *)
  Definition supported : Prop :=
    cc_label c = "ccdTypeSlow" /\ contains "UCC(4)" (cc_type c) = false /\ contains "CCSD(Qf)" (cc_type c) = false /\
    (contains "X" (cc_type c) = true -> exists l, extract_integer (cc_type c) = Some l).
  Hypothesis Hlab : cc_label c = "ccdTypeSlow".
  Hypothesis Hucc : contains "UCC(4)" (cc_type c) = false.

  Lemma pair_part_amp r : is_amp 2 no nv r -> is_amp 2 no nv (pair_part no nv r).
  Proof.
    intros [S A].
    assert (Z : forall a i, (a < nv)%nat -> (i < no)%nat -> data r [a; a; i; i] = 0%Qc).
    { intros a i Ha Hi. destruct (A 0%nat ltac:(lia)) as [A0 _]. specialize (A0 [] a a [i; i] eq_refl). cbn [app] in A0.
      assert (I : inr [a; a; i; i] (shape r)) by (rewrite S; repeat constructor; assumption).
      specialize (A0 I I). 
      assert (E : (data r [a; a; i; i] + data r [a; a; i; i] = 0)%Qc) by (rewrite A0 at 1; ring).
      assert (E2 : (Q2Qc (1 # 2) * (data r [a; a; i; i] + data r [a; a; i; i]) = data r [a; a; i; i])%Qc).
      { transitivity ((Q2Qc (1 # 2) + Q2Qc (1 # 2)) * data r [a; a; i; i])%Qc; [ring|].
        replace (Q2Qc (1 # 2) + Q2Qc (1 # 2))%Qc with 1%Qc by (apply Qc_is_canon; reflexivity). ring. }
      rewrite <- E2, E. ring. }
    assert (G : forall l t, (forall p, In p l -> (fst p < nv)%nat /\ (snd p < no)%nat) -> (shape t = [nv; nv; no; no] /\ zero_tensor t) ->
       shape (fold_left (fun t ai => tput [fst ai; fst ai; snd ai; snd ai] (data r [fst ai; fst ai; snd ai; snd ai]) t) l t) = [nv; nv; no; no] /\
       zero_tensor (fold_left (fun t ai => tput [fst ai; fst ai; snd ai; snd ai] (data r [fst ai; fst ai; snd ai; snd ai]) t) l t)).
    { induction l as [|p l IH]; intros t Hl Ht; cbn [fold_left]; [exact Ht|]. apply IH; [intros q Hq; apply Hl; right; exact Hq|].
      destruct Ht as [T1 T2]. split; [exact T1|]. intros idx I. unfold tput. cbn [data shape] in *. destruct (list_eq_dec _ _ _); [|apply T2, I].
      destruct (Hl p (or_introl eq_refl)). apply Z; assumption. }
    destruct (G (list_prod (seq 0 nv) (seq 0 no)) (tzeros [nv; nv; no; no])) as [G1 G2].
    - intros [a i] Hp. apply in_prod_iff in Hp. rewrite !in_seq in Hp. cbn. lia.
    - split; [reflexivity|intros idx I; reflexivity].
    - split; [exact G1|]. intros i Hi. split; intros pre x y post HL I1 I2; unfold pair_part; rewrite !G2 by assumption; ring.
  Qed.

  Definition P_amp (k : string) (t : tensor) : Prop := is_amp 2 no nv t.
  Notation gd := (gooddict P_amp).
  Lemma three_good a b d : is_amp 2 no nv a -> is_amp 2 no nv b -> is_amp 2 no nv d -> gd [("t2aa", a); ("t2bb", b); ("t2ab", d)].
  Proof.
    intros Ha Hb Hd k t. cbn [slook]. repeat destruct (String.eqb _ _); intros H; try discriminate; apply some_inj in H; subst; assumption.
  Qed.
  (** the residual routine keeps antisymmetry, and succeeds *)
  Lemma resid_ok d w t2 : gd d -> slook "t2aa" d = Some t2 -> (contains "X" (cc_type c) = true -> exists l, extract_integer (cc_type c) = Some l) ->
    exists d' w' u, t2resid_slow no nv f g D2 c d w = Some (d', w') /\ gd d' /\
      d' = [("t2aa", u); ("t2bb", snd (nth 1 d' ("", tz))); ("t2ab", snd (nth 2 d' ("", tz)))].
  Proof.
    intros Hd E2 HX. assert (Ht : is_amp 2 no nv t2) by (apply (Hd _ _ E2)).
    unfold t2resid_slow. rewrite E2. cbn [obind].
    destruct (ccd_amp no nv f g t2 Hf Hg Ht) as [r0 [-> A0]]. cbn [obind].
    assert (H1 : exists r1, (if cc_type c =? "LCCD" then do off <- call0 Code_t2residEqnsSlow.doubles_resLCCDoffset [VT t2; VT f; VT g; o_ no; v_ no]; tbin Qcminus r0 off else Some r0) = Some r1 /\ is_amp 2 no nv r1).
    { destruct (cc_type c =? "LCCD"); [|eauto].
      assert (Z1 := amp_zeros no nv 1). assert (Z3 := amp_zeros no nv 3). 
      destruct (lccd_amp no nv f g (tzeros [nv; no]) t2 (tzeros [nv; nv; nv; no; no; no]) Hf Hg Z1 Ht Z3) as [off [-> Ao]]. cbn [obind].
      apply amp_minus; assumption. }
    destruct H1 as [r1 [-> A1]]. cbn [obind].
    assert (H2 : exists r2 w2, (if contains "X" (cc_type c) then do orders <- extract_integer (cc_type c); xcc_resids no nv g orders t2 r1 w else Some (r1, w)) = Some (r2, w2) /\ is_amp 2 no nv r2).
    { destruct (contains "X" (cc_type c)); [|eauto]. destruct (HX eq_refl) as [l El]. rewrite El. cbn [obind].
      destruct (extract_orders _ _ El) as [m [Hm ->]]. apply xcc_resids_ok; auto; lia. }
    destruct H2 as [r2 [w2 [-> A2]]]. cbn [obind fst snd].
    destruct (sym_times_amp no nv 2 t2 D2 Ht DS) as [x [-> Ax]]. cbn [obind].
    destruct (amp_plus no nv 2 r2 x A2 Ax) as [r3 [-> A3]]. cbn [obind].
    destruct (amp_times_sym no nv 2 r3 D2 A3 DS) as [nw [-> An]]. cbn [obind].
    destruct (cc_type c =? "pCCD").
    - eexists _, _, _. split; [reflexivity|]. split; [|reflexivity]. pose proof (pair_part_amp nw An).
      apply three_good; [assumption|apply amp_scale; assumption|apply amp_scale; assumption].
    - eexists _, _, _. split; [reflexivity|]. split; [|reflexivity].
      apply three_good; [assumption|apply amp_scale; assumption|apply amp_scale; assumption].
  Qed.

  Lemma resid_call_slow : resid_call c = Some (if contains "CCSD(Qf)" (cc_type c) then R_ccsdSO else R_t2residSlow).
  Proof. unfold resid_call. rewrite Hlab, Hucc. cbn. destruct (contains "CCSD(Qf)" _); reflexivity. Qed.
  Lemma energy_call_slow : energy_call c = Some (if contains "CCSD(Qf)" (cc_type c) then E_ccsdSO else E_t2energySlow).
  Proof. unfold energy_call. rewrite Hlab, Hucc. cbn. destruct (contains "CCSD(Qf)" _); reflexivity. Qed.
  Lemma energy_ok d w t2 : gd d -> slook "t2aa" d = Some t2 -> (contains "X" (cc_type c) = true -> exists l, extract_integer (cc_type c) = Some l) ->
    exists e w', t2energy_slow no nv f g D2 c d w = Some (e, w').
  Proof.
    intros Hd E2 HX. assert (Ht : is_amp 2 no nv t2) by (apply (Hd _ _ E2)). unfold t2energy_slow. rewrite E2. cbn [obind].
    assert (Z1 := amp_zeros no nv 1). assert (Z3 := amp_zeros no nv 3).
    destruct (energy_runs no nv f g (tzeros [nv; no]) t2 (tzeros [nv; nv; nv; no; no; no]) Hf Hg Z1 Ht Z3) as [e ->]. cbn [obind].
    destruct (xccd_flag c) eqn:XF; [|eauto].
    assert (HX' : exists l, extract_integer (cc_type c) = Some l).
    { apply HX. unfold xccd_flag in XF. apply existsb_exists in XF. destruct XF as [m [Hm HC]].
      eapply contains_trans; [|exact HC]. cbn [In] in Hm. intuition subst; reflexivity. }
    destruct HX' as [l El]. rewrite El. cbn [obind]. destruct (extract_orders _ _ El) as [m [Hm ->]].
    destruct (xcc_energies_ok false t2 Ht (m + 1 - 5) 5 w ltac:(lia) ltac:(lia) ltac:(auto)) as [l [w' ->]]. cbn [obind fst snd]. eauto.
  Qed.
  Notation sresid := (slow_resid no nv f g D1 D2 D3 c).
  Notation senergy := (slow_energy no nv f g D2 c).
  Lemma resid_keeps rf d l2 w d' w' : resid_call c = Some rf -> gd d -> sresid rf d l2 w = Some (d', w') -> gd d'.
  Proof.
    rewrite resid_call_slow. intros Erf Hd HR. apply some_inj in Erf. subst rf.
    destruct (contains "CCSD(Qf)" (cc_type c)); [discriminate HR|]. cbn [slow_resid] in HR.
    destruct (slook "t2aa" d) as [t2|] eqn:E2; [|unfold t2resid_slow in HR; rewrite E2 in HR; discriminate].
    destruct (resid_ok d w t2 Hd E2) as [d2 [w2 [u [E [Gd _]]]]]; [|rewrite E in HR; injection HR as <- <-; exact Gd].
    intros CX. destruct (extract_integer (cc_type c)) as [l|] eqn:El; [eauto|]. exfalso. unfold t2resid_slow in HR.
    rewrite E2, CX, El in HR. cbn [obind] in HR. clear -HR.
    repeat match type of HR with (do _ <- ?x; _) = _ => destruct x; cbn [obind] in HR; try discriminate end.
  Qed.
  Lemma init_good d1 : mp_guess no g D2 (slow_init no nv c) = Some d1 -> gd d1 /\ slook "t2aa" d1 <> None.
  Proof.
    unfold mp_guess. destruct guess_amp as [gs [t [-> [H2 At]]]]. cbn [obind]. rewrite H2. cbn [obind]. intros H. apply some_inj in H. subst d1.
    split; [|rewrite slook_sset_same; discriminate]. intros k u Hk. unfold P_amp.
    assert (Z := amp_zeros no nv 2). cbn [repeat app] in Z.
    unfold slow_init in Hk. rewrite Hucc in Hk. destruct (diis_size c); cbn in Hk;
      repeat match type of Hk with context [if ?b then _ else _] => destruct b end; try discriminate; apply some_inj in Hk; subst; assumption.
  Qed.
  Lemma energy_has ef d w e w' : energy_call c = Some ef -> senergy ef d w = Some (e, w') -> exists t2, slook "t2aa" d = Some t2.
  Proof.
    rewrite energy_call_slow. intros Eef HE. apply some_inj in Eef. subst ef. destruct (contains "CCSD(Qf)" _); [discriminate|].
    cbn [slow_energy] in HE. unfold t2energy_slow in HE. destruct (slook "t2aa" d) as [t2|]; [eauto|discriminate].
  Qed.

  Notation sstart := (start disk senergy (mp_guess no g D2) c (slow_init no nv c) (slow_old no nv c)).
  Lemma start_ok w s0 e0 : sstart w = Some (s0, e0) -> gd (amps _ s0) /\ prev_vecs (dstate _ s0) = [].
  Proof.
    unfold start. rewrite Hlab. cbn [String.eqb Ascii.eqb Bool.eqb].
    destruct (mp_guess _ _ _ _) as [d1|] eqn:E1; cbn [obind]; [|discriminate]. destruct (init_good _ E1) as [G _].
    destruct (energy_call c) as [ef|]; cbn [obind]; [|discriminate]. destruct (senergy ef d1 w) as [[e w1]|]; cbn [obind]; [|discriminate].
    intros H. injection H as <- <-. split; [exact G|reflexivity].
  Qed.
  Lemma iterate_good solve w s0 e0 k s e : sstart w = Some (s0, e0) ->
    after disk solve sresid senergy c s0 e0 k = Some (s, e) -> gd (amps _ s).
  Proof.
    intros HS HA. destruct (start_ok _ _ _ HS) as [G0 P0].
    destruct (okstate_after (fun _ => [nv; nv; no; no]) P_amp) with (World := disk) (solve := solve) (resid := sresid) (energy := senergy)
      (c := c) (Pre := gooddict P_amp) (s0 := s0) (e0 := e0) (k := k) (s := s) (e := e) as [[O _] _]; try assumption.
    - intros k0 t [S _]. exact S.
    - intros k0 t u. apply amp_teq.
    - intros k0 n0 c0 ts. apply amp_lin.
    - intros d H; exact H.
    - intros rf d l2 w0 d' w' H1 H2 _ H3. eapply resid_keeps; eassumption.
    - split; [exact G0|]. rewrite P0. constructor.
  Qed.
  Lemma iterate_has solve w s0 e0 k s e : sstart w = Some (s0, e0) ->
    after disk solve sresid senergy c s0 e0 k = Some (s, e) -> exists t2, slook "t2aa" (amps _ s) = Some t2.
  Proof.
    intros HS HA. destruct k as [|k]; cbn [after] in HA.
    - injection HA as <- <-. unfold start in HS. rewrite Hlab in HS. cbn [String.eqb Ascii.eqb Bool.eqb] in HS.
      destruct (mp_guess _ _ _ _) as [d1|] eqn:E1; cbn [obind] in HS; [|discriminate]. destruct (init_good _ E1) as [_ N].
      destruct (energy_call c) as [ef|]; cbn [obind] in HS; [|discriminate]. destruct (senergy ef d1 w) as [[e w1]|]; cbn [obind] in HS; [|discriminate].
      injection HS as <- <-. cbn [amps]. destruct (slook "t2aa" d1); [eauto|congruence].
    - destruct (after _ _ _ _ _ _ _ k) as [[s1 e1]|]; cbn [obind fst] in HA; [|discriminate]. unfold iteration in HA.
      destruct (l2_of _); cbn [obind] in HA; [|discriminate]. destruct (resid_call c); cbn [obind] in HA; [|discriminate].
      destruct (sresid _ _ _ _) as [dw|]; cbn [obind] in HA; [|discriminate].
      destruct (diis_block _ _ _ _) as [s2|]; cbn [obind] in HA; [|discriminate].
      destruct (energy_call c) as [ef|] eqn:Eef; cbn [obind] in HA; [|discriminate].
      destruct (senergy ef _ _) as [[e2 w2]|] eqn:Ee; cbn [obind] in HA; [|discriminate]. injection HA as <- <-. cbn [amps].
      eapply energy_has; [exact Eef|exact Ee].
  Qed.
  (** progress without DIIS *)
  Lemma progress solve w : contains "CCSD(Qf)" (cc_type c) = false -> diis_size c = None ->
    (contains "X" (cc_type c) = true -> exists l, extract_integer (cc_type c) = Some l) ->
    exists s0 e0, sstart w = Some (s0, e0) /\ forall k, exists s e, after disk solve sresid senergy c s0 e0 k = Some (s, e).
  Proof.
    intros HQ HN HX.
    assert (ES : exists s0 e0, sstart w = Some (s0, e0) /\ exists b d, slook "t2bb" (amps _ s0) = Some b /\ slook "t2ab" (amps _ s0) = Some d).
    { unfold start. rewrite Hlab. cbn [String.eqb Ascii.eqb Bool.eqb].
      destruct guess_amp as [gs [t [T1 [T2 At]]]]. unfold mp_guess at 1. rewrite T1. cbn [obind]. rewrite T2. cbn [obind].
      rewrite energy_call_slow, HQ. cbn [obind slow_energy].
      destruct (init_good (sset "t2aa" t (slow_init no nv c))) as [G _].
      { unfold mp_guess. rewrite T1. cbn [obind]. rewrite T2. reflexivity. }
      destruct (energy_ok _ w t G (slook_sset_same _ _ _) HX) as [e [w' ->]]. cbn [obind fst snd].
      eexists _, _. split; [reflexivity|]. cbn [amps]. unfold slow_init. rewrite HN. cbn. eexists _, _. split; reflexivity. }
    destruct ES as [s0 [e0 [ES HB]]]. exists s0, e0. split; [exact ES|].
    assert (G : forall k, exists s e, after disk solve sresid senergy c s0 e0 k = Some (s, e) /\ exists b d, slook "t2bb" (amps _ s) = Some b /\ slook "t2ab" (amps _ s) = Some d).
    { induction k as [|k IH]; [exists s0, e0; split; [reflexivity|exact HB]|]. destruct IH as [s [e [HA [b [d [B1 B2]]]]]]. cbn [after]. rewrite HA. cbn [obind fst].
      pose proof (iterate_good _ _ _ _ _ _ _ ES HA) as Gs. destruct (iterate_has _ _ _ _ _ _ _ ES HA) as [t2 Et2].
      unfold iteration, l2_of. rewrite Et2, B1, B2. cbn [obind].
      destruct (transp_amp no nv t2 (Gs _ _ Et2)) as [x1 [-> _]]. destruct (transp_amp no nv b (Gs _ _ B1)) as [x2 [-> _]].
      destruct (transp_amp no nv d (Gs _ _ B2)) as [x3 [-> _]]. cbn [obind]. rewrite resid_call_slow, HQ. cbn [obind slow_resid].
      destruct (resid_ok _ (world _ s) t2 Gs Et2 HX) as [d' [w' [u [-> [Gd' Ed']]]]]. cbn [obind fst snd].
      unfold diis_block. rewrite HN. cbn [obind amps l2amps old_vec dstate world]. rewrite energy_call_slow, HQ. cbn [obind slow_energy].
      assert (E2 : slook "t2aa" d' = Some u) by (rewrite Ed'; reflexivity).
      destruct (energy_ok d' w' u Gd' E2 HX) as [e2 [w2 ->]]. cbn [obind fst snd]. eexists _, _. split; [reflexivity|]. cbn [amps].
      rewrite Ed'. cbn. eexists _, _. split; reflexivity. }
    intros k. destruct (G k) as [s [e [A _]]]. eauto.
  Qed.
End Run.

(** ** C01 *)
(** For every spin-orbital method except UCC(4) -- CCD, LCCD, pCCD, XCCD(5) to XCCD(9), and any other label -- every
    set of amplitudes that the iteration passes through is antisymmetric, for all sizes, integrals, DIIS settings,
    behaviours of the linear solver and contents of the working directory. *)
Theorem C01_every_iterate_antisymmetric : forall no nv f g D1 D2 D3 eps c solve w s0 e0 k s e,
  is_fock (no + nv) f -> is_tei (no + nv) g -> is_denominator 2 no nv eps D2 ->
  cc_label c = "ccdTypeSlow" -> contains "UCC(4)" (cc_type c) = false ->
  start disk (slow_energy no nv f g D2 c) (mp_guess no g D2) c (slow_init no nv c) (slow_old no nv c) w = Some (s0, e0) ->
  after disk solve (slow_resid no nv f g D1 D2 D3 c) (slow_energy no nv f g D2 c) c s0 e0 k = Some (s, e) ->
  exists t2, slook "t2aa" (amps disk s) = Some t2 /\ is_amp 2 no nv t2.
Proof.
  intros no nv f g D1 D2 D3 eps c solve w s0 e0 k s e Hf Hg HD HL HU HS HA.
  destruct (iterate_has no nv f g D1 D2 D3 eps c Hg HD HL HU solve w s0 e0 k s e HS HA) as [t2 E]. exists t2. split; [exact E|].
  apply (iterate_good no nv f g D1 D2 D3 eps c Hf Hg HD HL HU solve w s0 e0 k s e HS HA _ _ E).
Qed.
Print Assumptions C01_every_iterate_antisymmetric.
(** Without DIIS every one of these iterations succeeds (when an "X" in the label comes with a digit). *)
Theorem C01_iterates_exist : forall no nv f g D1 D2 D3 eps c solve w,
  is_fock (no + nv) f -> is_tei (no + nv) g -> is_denominator 2 no nv eps D2 ->
  cc_label c = "ccdTypeSlow" -> contains "UCC(4)" (cc_type c) = false -> contains "CCSD(Qf)" (cc_type c) = false ->
  (contains "X" (cc_type c) = true -> exists l, extract_integer (cc_type c) = Some l) -> diis_size c = None ->
  exists s0 e0,
    start disk (slow_energy no nv f g D2 c) (mp_guess no g D2) c (slow_init no nv c) (slow_old no nv c) w = Some (s0, e0) /\
    forall k, exists s e,
      after disk solve (slow_resid no nv f g D1 D2 D3 c) (slow_energy no nv f g D2 c) c s0 e0 k = Some (s, e).
Proof. intros. eapply progress; eassumption. Qed.
Print Assumptions C01_iterates_exist.
(** The amplitudes a finished run hands back. *)
Theorem C01_returned_antisymmetric : forall no nv f g D1 D2 D3 eps c solve w d tf co,
  is_fock (no + nv) f -> is_tei (no + nv) g -> is_denominator 2 no nv eps D2 ->
  cc_label c = "ccdTypeSlow" -> contains "UCC(4)" (cc_type c) = false ->
  slow_kernel no nv f g D1 D2 D3 c solve w = Returned d tf co ->
  exists t2, slook "t2aa" d = Some t2 /\ is_amp 2 no nv t2.
Proof.
  intros no nv f g D1 D2 D3 eps c solve w d tf co Hf Hg HD HL HU HK.
  destruct (C30_kernel_return _ _ _ _ _ _ _ _ _ _ _ _ _ HK) as [s0 [e0 [k [s [e [HS [_ [_ [HA [<- _]]]]]]]]]].
  eapply C01_every_iterate_antisymmetric; eassumption.
Qed.
Print Assumptions C01_returned_antisymmetric.

(** Instances *)
Definition i_eps (p : nat) : Qc := qn (p * p).
Definition i_den (k no nv : nat) : tensor :=
  mkT (repeat nv k ++ repeat no k)%list (fun idx => / gap no i_eps (firstn k idx) (skipn k idx))%Qc.
Lemma i_den_ok k no nv : is_denominator k no nv i_eps (i_den k no nv).
Proof.
  split; [reflexivity|]. intros virt occ HL _. unfold i_den. cbn [data].
  rewrite firstn_app, skipn_app, HL, Nat.sub_diag. cbn [firstn skipn]. rewrite <- HL, firstn_all, skipn_all, app_nil_r. reflexivity.
Qed.
Definition i_calc (ty : string) (diis : option nat) : calc := mkCalc "ccdTypeSlow" ty 75 (Q2Qc (1 # 1000)) diis 0 0 0.
Example C01_instance_xccd9 := C01_iterates_exist 2 2 (i_fock 4) (i_tei 4) (i_den 1 2 2) (i_den 2 2 2) (i_den 3 2 2) i_eps
  (i_calc "XCCD(9)" None) (fun _ _ _ => None) None (i_fock_ok 4) (i_tei_ok 4) (i_den_ok 2 2 2) eq_refl eq_refl eq_refl
  (fun _ => ex_intro _ [5; 6; 7; 8; 9]%nat eq_refl) eq_refl.
