(** C68 for the third driver (test.py): CCD, CCSD, CCSDT, CCDQ calculations in equivalent orbitals end alike. *)
From Coq Require Import String Ascii List Arith NArith ZArith QArith Qcanon Bool Lia Permutation.
From Coq Require Qcabs.
From Verif Require Import Sums Tensor Interp Numpy Poly SymExec Canon Spec SpecFrag SpecRot Instances Setup Master Spin Check Tabs Frag P_wanti Rot RotTabs P_rot P_rot2.
From Verif Require Import Diis Kernel Denoms SlowCC SpecDriver P_slow Drive SpecDrive P_drive P_drive2 P_drive3 P_driver RelRun P_rot3.
From Verif Require Code_tamps Code_cc_eqns Code_ccsdt_eqns Code_ccdq_eqns Code_cc_energy.
From Coq Require Import List.
Import ListNotations.
Open Scope string_scope.
Open Scope list_scope.
Open Scope Qc_scope.

(** *** Specification *)
(** the array that this driver keeps under the name [k] has this many occupied and virtual indices *)
Definition ov_rank (k : string) : nat := if k =? "t1aa" then 1 else if k =? "t3aa" then 3 else if k =? "t4aa" then 4 else 2.
(** the second array, if any, is the first in the new orbitals *)
Definition same_in_new_orbitals (no nv : nat) (Uo Uv : nat -> nat -> Qc) (ks : list kind) (t t' : option tensor) : Prop :=
  match t, t' with Some t, Some t' => rotated no nv Uo Uv ks t t' | None, None => True | _, _ => False end.
(** Both calculations raise, or both report the same energies, and amplitudes that are the same in the two sets of orbitals. *)
Definition same_report (no nv : nat) (Uo Uv : nat -> nat -> Qc) (r r' : option result) : Prop :=
  match r, r' with
  | Some r, Some r' => r_first r' = r_first r /\ r_total r' = r_total r /\ r_corr r' = r_corr r /\
      (forall k, same_in_new_orbitals no nv Uo Uv (ov_kinds (ov_rank k)) (slook k (r_tamps r)) (slook k (r_tamps r')))
  | None, None => True
  | _, _ => False
  end.

(** *** Exchanging the two spaces *)
Lemma swap_at no nv Uo Uv a b : forall F idx, length idx = (a + b)%nat ->
  rot_at no nv Uo Uv (repeat Oc a ++ repeat Vi b) F idx = rot_at nv no Uv Uo (repeat Vi a ++ repeat Oc b) F idx.
Proof.
  induction a as [|a IH].
  - cbn [repeat app]. induction b as [|b IH]; intros F [|i idx] L; try discriminate; [reflexivity|]. cbn [repeat rot_at ksize]. apply suml_ext. intros j _. f_equal. apply IH. cbn in L. lia.
  - intros F [|i idx] L; [discriminate|]. cbn [repeat app rot_at ksize]. apply suml_ext. intros j _. f_equal. apply IH. cbn in L. lia.
Qed.
Lemma swap_sizes no nv k : map (ksize no nv) (ov_kinds k) = map (ksize nv no) (vo_kinds k).
Proof. unfold ov_kinds, vo_kinds. rewrite !map_app, !map_repeat. reflexivity. Qed.
Lemma swap_rot no nv Uo Uv k t t' : rotated no nv Uo Uv (ov_kinds k) t t' <-> rotated nv no Uv Uo (vo_kinds k) t t'.
Proof.
  unfold rotated. rewrite swap_sizes. split; intros [S1 [S2 H]]; (split; [exact S1|]; split; [exact S2|]); intros idx I; rewrite H by exact I;
    (assert (L : length idx = (k + k)%nat) by (rewrite S2 in I; apply inr_len in I; rewrite I; unfold vo_kinds; rewrite map_length, app_length, !repeat_length; lia));
    [|symmetry]; apply (swap_at no nv Uo Uv k k (data t) idx L).
Qed.
Lemma swap_mix no nv Uo Uv eps eps' : mixes_equal_energies no nv Uo Uv eps eps' -> mixes_equal_energies nv no Uv Uo (neg_eps no nv eps) (neg_eps no nv eps').
Proof.
  intros H i j Hi Hj N. unfold neg_eps. cbn [rmat] in N. destruct (Nat.ltb_spec i nv) as [Li|Li], (Nat.ltb_spec j nv) as [Lj|Lj]; try (exfalso; apply N; reflexivity); f_equal.
  - apply (mix_v no nv Uo Uv eps eps' H); assumption.
  - apply (mix_o no nv Uo Uv eps eps' H); try lia. exact N.
Qed.

Section Two.
  Variables no nv : nat.
  Variables Uo Uv : nat -> nat -> Qc.
  Hypothesis Ho : orthogonal no Uo.
  Hypothesis Hv : orthogonal nv Uv.
  Local Notation rotd := (rotated no nv Uo Uv).
  Variable label : string.
  Variables x x' : setup.
  Hypothesis P : prepared no nv label x.
  Hypothesis P' : prepared no nv label x'.
  Hypothesis Rf : rotd [Al; Al] (x_f x) (x_f x').
  Hypothesis Rg : rotd [Al; Al; Al; Al] (x_g x) (x_g x').
  Hypothesis HM : mixes_equal_energies no nv Uo Uv (energies_of x) (energies_of x').
  Local Notation PO := (fun k t t' => rotd (ov_kinds (ov_rank k)) t t').
  Let HMS := swap_mix no nv Uo Uv _ _ HM.
  Lemma upd_rel k key T T' R R' : keyed no nv x k key -> keyed no nv x' k key -> rotd (ov_kinds k) T T' -> rotd (ov_kinds k) R R' ->
    orel (rotd (ov_kinds k)) (updated x key T R) (updated x' key T' R').
  Proof using HMS.
    intros [D [E HD]] [D' [E' HD']] HT HR. unfold updated. rewrite E, E'. cbn [obind]. unfold den_ov in *.
    apply swap_rot in HT, HR.
    apply (orel_bind _ _ _ _ _ _ (rot_over nv no Uv Uo _ _ HMS k D D' T T' HD HD' HT)). intros y y' Hy.
    apply (orel_bind _ _ _ _ _ _ (rot_plus nv no Uv Uo (vo_kinds k) R R' y y' HR Hy)). intros r r' Hr.
    apply (orel_weak (rotated nv no Uv Uo (vo_kinds k))); [intros a b Hab; apply swap_rot; exact Hab|].
    exact (rot_times nv no Uv Uo _ _ HMS k D D' r r' HD HD' Hr).
  Qed.
  Lemma callt_rel fn ks v v' : rotates no nv Uo Uv 1 lib_tamps fn ks v v' -> orel (rotd ks) (callt fn v) (callt fn v').
  Proof using. intros [R [R' [H1 [H2 H]]]]. rewrite (call_of _ _ _ H1), (call_of _ _ _ H2). exact H. Qed.
  Lemma look_rel d d' k : drel PO d d' -> orel (rotd (ov_kinds (ov_rank k))) (slook k d) (slook k d').
  Proof using. intros H. apply H. Qed.
  Lemma set_rel d d' k n t t' : drel PO d d' -> ov_rank k = n -> rotd (ov_kinds n) t t' -> drel PO (sset k t d) (sset k t' d').
  Proof using. intros H <- R. apply drel_sset; assumption. Qed.
  Lemma zeros1 : rotd (ov_kinds 1) (tzeros [no; nv]) (tzeros [no; nv]).
  Proof using. exact (zeros_rotated no nv Uo Uv (ov_kinds 1)). Qed.
  Lemma eqns_rel d d' : contains "D" label = true -> drel PO d d' -> orel (drel PO) (drive_eqns x label d) (drive_eqns x' label d').
  Proof using All.
    intros HD H. unfold drive_eqns.
    rewrite (Pno no nv label x P), (Pnv no nv label x P), (Pend no nv label x P), (Pno no nv label x' P'), (Pnv no nv label x' P'), (Pend no nv label x' P').
    pose proof (look_rel d d' "t1aa" H) as L1. pose proof (look_rel d d' "t2aa" H) as L2. pose proof (look_rel d d' "t3aa" H) as L3. pose proof (look_rel d d' "t4aa" H) as L4.
    pose proof (key2 no nv label x P HD) as K2. pose proof (key2 no nv label x' P' HD) as K2'.
    pose proof (zeros_rotated no nv Uo Uv (ov_kinds 3)) as Z3. pose proof (zeros_rotated no nv Uo Uv (ov_kinds 4)) as Z4.
    destruct (contains "CCSDT" label) eqn:S1; [|destruct (contains "CCSD" label) eqn:S2; [|destruct (contains "CCDQ" label) eqn:S3]].
    - pose proof (sub label _ S1 "S" eq_refl) as HS. pose proof (sub label _ S1 "T" eq_refl) as HT.
      apply (orel_bind _ _ _ _ _ _ L1). intros T1 T1' R1. apply (orel_bind _ _ _ _ _ _ L2). intros T2 T2' R2. apply (orel_bind _ _ _ _ _ _ L3). intros T3 T3' R3.
      destruct (C67_ccsdt_rotation no nv Uo Uv _ _ _ _ T1 T1' T2 T2' T3 T3' Ho Hv Rf Rg R1 R2 R3) as [_ [_ [[Q1 [Q2 Q3]] _]]].
      apply (orel_bind _ _ _ _ _ _ (callt_rel _ _ _ _ Q1)). intros A1 A1' B1. apply (orel_bind _ _ _ _ _ _ (callt_rel _ _ _ _ Q2)). intros A2 A2' B2.
      apply (orel_bind _ _ _ _ _ _ (callt_rel _ _ _ _ Q3)). intros A3 A3' B3.
      apply (orel_bind _ _ _ _ _ _ (upd_rel 1 "D1aa" _ _ _ _ (key1 no nv label x P HS) (key1 no nv label x' P' HS) R1 B1)). intros N1 N1' M1.
      apply (orel_bind _ _ _ _ _ _ (upd_rel 2 "D2aa" _ _ _ _ K2 K2' R2 B2)). intros N2 N2' M2.
      apply (orel_bind _ _ _ _ _ _ (upd_rel 3 "D3aa" _ _ _ _ (key3 no nv label x P HT) (key3 no nv label x' P' HT) R3 B3)). intros N3 N3' M3.
      cbn [orel]. eapply set_rel; [|reflexivity|exact M3]. eapply set_rel; [|reflexivity|exact M2]. eapply set_rel; [exact H|reflexivity|exact M1].
    - pose proof (sub label _ S2 "S" eq_refl) as HS.
      apply (orel_bind _ _ _ _ _ _ L1). intros T1 T1' R1. apply (orel_bind _ _ _ _ _ _ L2). intros T2 T2' R2.
      destruct (C67_ccsdt_rotation no nv Uo Uv _ _ _ _ T1 T1' T2 T2' _ _ Ho Hv Rf Rg R1 R2 Z3) as [Q1 [Q2 _]].
      apply (orel_bind _ _ _ _ _ _ (callt_rel _ _ _ _ Q1)). intros A1 A1' B1. apply (orel_bind _ _ _ _ _ _ (callt_rel _ _ _ _ Q2)). intros A2 A2' B2.
      apply (orel_bind _ _ _ _ _ _ (upd_rel 1 "D1aa" _ _ _ _ (key1 no nv label x P HS) (key1 no nv label x' P' HS) R1 B1)). intros N1 N1' M1.
      apply (orel_bind _ _ _ _ _ _ (upd_rel 2 "D2aa" _ _ _ _ K2 K2' R2 B2)). intros N2 N2' M2.
      cbn [orel]. eapply set_rel; [|reflexivity|exact M2]. eapply set_rel; [exact H|reflexivity|exact M1].
    - pose proof (sub label _ S3 "Q" eq_refl) as HQ.
      apply (orel_bind _ _ _ _ _ _ L2). intros T2 T2' R2. apply (orel_bind _ _ _ _ _ _ L4). intros T4 T4' R4.
      destruct (C67_ccdq_rotation no nv Uo Uv _ _ _ _ T2 T2' T4 T4' Ho Hv Rf Rg R2 R4) as [Q2 [Q4 _]].
      apply (orel_bind _ _ _ _ _ _ (callt_rel _ _ _ _ Q2)). intros A2 A2' B2. apply (orel_bind _ _ _ _ _ _ (callt_rel _ _ _ _ Q4)). intros A4 A4' B4.
      apply (orel_bind _ _ _ _ _ _ (upd_rel 2 "D2aa" _ _ _ _ K2 K2' R2 B2)). intros N2 N2' M2.
      apply (orel_bind _ _ _ _ _ _ (upd_rel 4 "D4aa" _ _ _ _ (key4 no nv label x P HQ) (key4 no nv label x' P' HQ) R4 B4)). intros N4 N4' M4.
      cbn [orel]. eapply set_rel; [|reflexivity|exact M4]. eapply set_rel; [exact H|reflexivity|exact M2].
    - rewrite HD. apply (orel_bind _ _ _ _ _ _ L2). intros T2 T2' R2.
      destruct (C67_ccsdt_rotation no nv Uo Uv _ _ _ _ _ _ T2 T2' _ _ Ho Hv Rf Rg zeros1 R2 Z3) as [_ [Q2 _]].
      apply (orel_bind _ _ _ _ _ _ (callt_rel _ _ _ _ Q2)). intros A2 A2' B2.
      apply (orel_bind _ _ _ _ _ _ (upd_rel 2 "D2aa" _ _ _ _ K2 K2' R2 B2)). intros N2 N2' M2.
      cbn [orel]. eapply set_rel; [exact H|reflexivity|exact M2].
  Qed.

  (** the energy *)
  Section En.
    Variables t1 t1' t2 t2' : tensor.
    Hypothesis H1 : rotd (ov_kinds 1) t1 t1'.
    Hypothesis H2 : rotd (ov_kinds 2) t2 t2'.
    Let tab (f g t1 t2 : tensor) : atomtab := [(0%N, ([6;6]%N, f)); (1%N, ([6;6;6;6]%N, g)); (2%N, ([0;1]%N, t1)); (3%N, ([0;0;1;1]%N, t2))].
    Let OK : Forall2 (rtab no nv Uo Uv) (tab (x_f x) (x_g x) t1 t2) (tab (x_f x') (x_g x') t1' t2'). Proof. unfold tab. rtabs. Qed.
    Lemma en1 : same_number 0 [] Code_cc_energy.spinorbitalCCSDE_T1 [VT t2; VT (x_g x); VT (x_f x); o_ no; v_ no; VT t1] [VT t2'; VT (x_g x'); VT (x_f x'); o_ no; v_ no; VT t1'].
    Proof using All.
      assert (V : Forall2 (so_vsim no nv (tab (x_f x) (x_g x) t1 t2)) rse [VT t2; VT (x_g x); VT (x_f x); o_ no; v_ no; VT t1]) by (unfold rse; rvs).
      assert (V' : Forall2 (so_vsim no nv (tab (x_f x') (x_g x') t1' t2')) rse [VT t2'; VT (x_g x'); VT (x_f x'); o_ no; v_ no; VT t1']) by (unfold rse; rvs).
      assert (C : rotchk [] (srun so_slm 0 [] Code_cc_energy.spinorbitalCCSDE_T1 rse) = true) by rtchk.
      exact (rotates_number _ _ _ _ _ _ _ _ _ (rot_residual no nv Uo Uv Ho Hv _ _ OK _ _ _ _ _ _ _ V V' C)).
    Qed.
    Lemma en0 : same_number 0 [] Code_cc_energy.spinorbitalCCSDE_noT1 [VT t2; VT (x_g x); VT (x_f x); o_ no; v_ no; VNone] [VT t2'; VT (x_g x'); VT (x_f x'); o_ no; v_ no; VNone].
    Proof using All.
      assert (V : Forall2 (so_vsim no nv (tab (x_f x) (x_g x) t1 t2)) rsn [VT t2; VT (x_g x); VT (x_f x); o_ no; v_ no; VNone]) by (unfold rsn; rvs).
      assert (V' : Forall2 (so_vsim no nv (tab (x_f x') (x_g x') t1' t2')) rsn [VT t2'; VT (x_g x'); VT (x_f x'); o_ no; v_ no; VNone]) by (unfold rsn; rvs).
      assert (C : rotchk [] (srun so_slm 0 [] Code_cc_energy.spinorbitalCCSDE_noT1 rsn) = true) by rtchk.
      exact (rotates_number _ _ _ _ _ _ _ _ _ (rot_residual no nv Uo Uv Ho Hv _ _ OK _ _ _ _ _ _ _ V V' C)).
    Qed.
  End En.
  Lemma energy_rel d d' : drel PO d d' -> orel eq (drive_energy x d) (drive_energy x' d').
  Proof using All.
    intros H. unfold drive_energy. rewrite (Pend no nv label x P), (Pend no nv label x' P').
    apply (orel_bind _ _ _ _ _ _ (look_rel d d' "t2aa" H)). intros T2 T2' R2. pose proof (look_rel d d' "t1aa" H) as L1.
    destruct (slook "t1aa" d) as [T1|], (slook "t1aa" d') as [T1'|]; cbn [orel] in L1; try contradiction.
    - destruct (en1 T1 T1' T2 T2' L1 R2) as [E [E' [C1 [C2 [_ [_ Q]]]]]]. rewrite (call0_returns _ _ _ C1), (call0_returns _ _ _ C2). cbn [obind orel]. symmetry. exact Q.
    - destruct (en0 _ _ T2 T2' zeros1 R2) as [E [E' [C1 [C2 [_ [_ Q]]]]]]. rewrite (call0_returns _ _ _ C1), (call0_returns _ _ _ C2). cbn [obind orel]. symmetry. exact Q.
  Qed.
  Lemma loop_drel thr n : forall old d d', contains "D" label = true -> drel PO d d' ->
    orel (fun r r' => fst r = fst r' /\ drel PO (snd r) (snd r')) (drive_loop x label thr n old d) (drive_loop x' label thr n old d').
  Proof using All.
    induction n as [|n IH]; intros old d d' HD H; cbn [drive_loop]; [exact I|].
    apply (orel_bind _ _ _ _ _ _ (eqns_rel d d' HD H)). intros e e' He. apply (orel_bind _ _ _ _ _ _ (energy_rel e e' He)). intros q q' <-.
    destruct (Qclt_le_dec _ thr); [cbn [orel fst snd]; auto|]. apply IH; assumption.
  Qed.
  (** the first guess *)
  Definition oovv : fn := mkFn ["W"; "o"; "v"] [] (ESlice (EVar "W") [SV "o"; SV "o"; SV "v"; SV "v"]).
  Lemma woovv_rel : orel (rotd (ov_kinds 2)) (woovv x) (woovv x').
  Proof using All.
    assert (OK : Forall2 (rtab no nv Uo Uv) [(1%N, ([6;6;6;6]%N, x_g x))] [(1%N, ([6;6;6;6]%N, x_g x'))]) by rtabs.
    assert (V : Forall2 (so_vsim no nv [(1%N, ([6;6;6;6]%N, x_g x))]) [SFull 1 [0;0;0;0]%N; SSl 0; SSl 1] [VT (x_g x); o_ no; v_ no]) by rvs.
    assert (V' : Forall2 (so_vsim no nv [(1%N, ([6;6;6;6]%N, x_g x'))]) [SFull 1 [0;0;0;0]%N; SSl 0; SSl 1] [VT (x_g x'); o_ no; v_ no]) by rvs.
    assert (C : rotchk (ov_kinds 2) (srun so_slm 0 [] oovv [SFull 1 [0;0;0;0]%N; SSl 0; SSl 1]) = true) by rtchk.
    destruct (rot_residual no nv Uo Uv Ho Hv _ _ OK _ _ _ _ _ _ _ V V' C) as [R [R' [H1 [H2 H]]]].
    assert (E : forall y R, x_end y = no -> returns 0 [] oovv [VT (x_g y); o_ no; v_ no] R -> woovv y = Some R).
    { clear. intros y R Ey HR. apply call0_returns in HR. unfold woovv. rewrite Ey.
      assert (E : call0 oovv [VT (x_g y); o_ no; v_ no] = do v <- (do t <- tslice [(0%nat, Some no); (0%nat, Some no); (no, None); (no, None)] (x_g y); Some (VT t)); asT v) by reflexivity.
      rewrite E in HR. destruct (tslice _ (x_g y)); cbn in HR; [exact HR|discriminate]. }
    rewrite (E x R (Pend no nv label x P) H1), (E x' R' (Pend no nv label x' P') H2). exact H.
  Qed.
  Lemma init_rel t t' : contains "D" label = true -> same_in_new_orbitals no nv Uo Uv (ov_kinds 2) t t' ->
    orel (drel PO) (init_tamps x label t) (init_tamps x' label t').
  Proof using All.
    intros HD HT. unfold init_tamps. rewrite (Pno no nv label x P), (Pnv no nv label x P), (Pno no nv label x' P'), (Pnv no nv label x' P').
    destruct (key2 no nv label x P HD) as [D [E K]], (key2 no nv label x' P' HD) as [D' [E' K']]. rewrite E, E'. cbn [obind].
    apply (orel_bind _ _ _ _ _ _ woovv_rel). intros w w' Hw. apply swap_rot in Hw.
    apply (orel_bind _ _ _ _ _ _ (rot_times nv no Uv Uo _ _ HMS 2 D D' w w' K K' Hw)). intros g2 g2' Hg2. apply swap_rot in Hg2. cbn [orel].
    assert (ADD : forall (b : bool) k n u u' d d', ov_rank k = n -> rotd (ov_kinds n) u u' -> drel PO d d' -> drel PO (if b then sset k u d else d) (if b then sset k u' d' else d')).
    { intros [] k n u u' d d' Hk R Hd; [|exact Hd]. eapply set_rel; eassumption. }
    eapply (ADD _ _ 4%nat); [reflexivity|exact (zeros_rotated no nv Uo Uv (ov_kinds 4))|]. eapply (ADD _ _ 3%nat); [reflexivity|exact (zeros_rotated no nv Uo Uv (ov_kinds 3))|].
    eapply (ADD _ _ 2%nat); [reflexivity| |]. { destruct t, t'; cbn in HT; try contradiction; assumption. }
    eapply (ADD _ _ 1%nat); [reflexivity|exact zeros1|]. intros k. exact I.
  Qed.
End Two.

(** C68 for `DriveCC(mf, mol, cc_info).kernel(cc_info)`: any label with a D, any options.  A file with first T2 amplitudes, if one is
    given, holds the same amplitudes in the two sets of orbitals. *)
Theorem C68_drive_rotation : forall no nv Uo Uv x x' j j', orthogonal no Uo -> orthogonal nv Uv ->
  prepared no nv (j_label j) x -> prepared no nv (j_label j) x' -> contains "D" (j_label j) = true ->
  rotated no nv Uo Uv [Al; Al] (x_f x) (x_f x') -> rotated no nv Uo Uv [Al; Al; Al; Al] (x_g x) (x_g x') ->
  mixes_equal_energies no nv Uo Uv (energies_of x) (energies_of x') -> x_hf x' = x_hf x -> x_nuc x' = x_nuc x ->
  j_label j' = j_label j -> j_max_iter j' = j_max_iter j -> j_eps j' = j_eps j ->
  same_in_new_orbitals no nv Uo Uv (ov_kinds 2) (j_t2file j) (j_t2file j') -> (forall t, j_t2file j = Some t -> is_amp_ov 2 no nv t) ->
  same_report no nv Uo Uv (drive_from x j) (drive_from x' j').
Proof.
  intros no nv Uo Uv x x' j j' Ho Hv P P' HD Rf Rg HM Hh Hn EL EM EE HT AT. set (label := j_label j) in *.
  assert (AT' : forall t, j_t2file j' = Some t -> is_amp_ov 2 no nv t).
  { intros t' E'. destruct (j_t2file j) as [t|] eqn:E; rewrite E' in HT; cbn in HT; [|contradiction]. eapply rot_amp_ov; [exact HT|]. apply AT. reflexivity. }
  pose proof (init_rel no nv Uo Uv Ho Hv label x x' P P' Rf Rg HM _ _ HD HT) as IR.
  destruct (guess no nv label x P (j_t2file j) HD) as [d0 [E0 [A0 _]]]. { destruct (j_t2file j); auto. }
  destruct (guess no nv label x' P' (j_t2file j') HD) as [d0' [E0' [A0' _]]]. { destruct (j_t2file j'); auto. }
  rewrite E0, E0' in IR. cbn [orel] in IR.
  assert (EI : forall y i d, j_label i = label -> init_tamps y label (j_t2file i) = Some d -> amplitudes no nv label d -> exists s, drive_init y label i = Some (d, s)).
  { intros y i d Ei Eid Ad. unfold drive_init. rewrite Eid. cbn [obind]. destruct (j_diis i) as [[m st]|]; [|eauto]. destruct (old_vec_some no nv label d HD Ad) as [w ->]. cbn [obind]. eauto. }
  destruct (EI x j d0 eq_refl E0 A0) as [s ES], (EI x' j' d0' EL E0' A0') as [s' ES'].
  unfold drive_from. rewrite EL. fold label. rewrite ES, ES'. cbn [obind fst]. unfold drive_kernel. rewrite EE, EM.
  pose proof (energy_rel no nv Uo Uv Ho Hv label x x' P P' Rf Rg HM _ _ IR) as ER.
  rewrite (energy no nv label x P d0 HD A0), (energy no nv label x' P' d0' HD A0') in *. cbn [orel obind] in *. rewrite <- ER.
  set (e0 := cc_energy no nv (x_f x) (x_g x) d0) in *.
  pose proof (loop_drel no nv Uo Uv Ho Hv label x x' P P' Rf Rg HM (j_eps j) (j_max_iter j) e0 _ _ HD IR) as LR.
  assert (LA : forall y, prepared no nv label y -> forall thr n old d r, amplitudes no nv label d -> drive_loop y label thr n old d = Some r -> amplitudes no nv label (snd r)).
  { clear -HD. intros y Py thr. induction n as [|n IH]; intros old d r Ad E; cbn [drive_loop] in E; [discriminate|].
    destruct (pass no nv label y Py d HD Ad) as [d1 [rs [E1 [A1 _]]]]. rewrite E1 in E. cbn [obind] in E. rewrite (energy no nv label y Py d1 HD A1) in E. cbn [obind] in E.
    destruct (Qclt_le_dec _ thr); [injection E as <-; exact A1|eapply IH; eassumption]. }
  destruct (drive_loop x label _ _ _ _) as [r|] eqn:L1, (drive_loop x' label _ _ _ _) as [r'|] eqn:L2; cbn [orel obind] in *; try contradiction; [|exact I].
  pose proof (LA x P _ _ _ _ _ A0 L1) as AR. pose proof (LA x' P' _ _ _ _ _ A0' L2) as AR'. destruct LR as [Q1 Q2].
  assert (FIN : forall p p', same_report no nv Uo Uv (Some (mkResult e0 (fst r) (x_nuc x + fst r - x_hf x) (snd r) p)) (Some (mkResult e0 (fst r') (x_nuc x' + fst r' - x_hf x') (snd r') p'))).
  { intros p p'. cbn [same_report r_first r_total r_corr r_tamps]. rewrite Q1, Hh, Hn. repeat (split; [reflexivity|]). intros k. exact (Q2 k). }
  destruct (contains "(" label); [|cbn [obind]; apply FIN].
  destruct (contains "(qf)" label) eqn:HQ.
  - destruct (qf_numbers no nv label x _ P HD AR HQ) as (? & ? & ? & ? & ? & ? & ? & _ & _ & ->). destruct (qf_numbers no nv label x' _ P' HD AR' HQ) as (? & ? & ? & ? & ? & ? & ? & _ & _ & ->).
    cbn [obind]. apply FIN.
  - unfold perturb. rewrite HQ. destruct (match slook "D3aa" (x_den x) with Some D3 => Some D3 | None => den_slow 3 (x_e x) (0%nat, Some (x_end x)) (x_end x, None) end); destruct (match slook "D3aa" (x_den x') with Some D3 => Some D3 | None => den_slow 3 (x_e x') (0%nat, Some (x_end x')) (x_end x', None) end); exact I.
Qed.
Print Assumptions C68_drive_rotation.
(** The usual case: two sets of canonical orbitals of the same molecule. *)
Theorem C68_drive_canonical : forall no nv Uo Uv x x' j j', orthogonal no Uo -> orthogonal nv Uv ->
  prepared no nv (j_label j) x -> prepared no nv (j_label j) x' -> contains "D" (j_label j) = true ->
  canonical (no + nv) (energies_of x) (x_f x) -> canonical (no + nv) (energies_of x') (x_f x') ->
  rotated no nv Uo Uv [Al; Al] (x_f x) (x_f x') -> rotated no nv Uo Uv [Al; Al; Al; Al] (x_g x) (x_g x') ->
  x_hf x' = x_hf x -> x_nuc x' = x_nuc x -> j_label j' = j_label j -> j_max_iter j' = j_max_iter j -> j_eps j' = j_eps j ->
  same_in_new_orbitals no nv Uo Uv (ov_kinds 2) (j_t2file j) (j_t2file j') -> (forall t, j_t2file j = Some t -> is_amp_ov 2 no nv t) ->
  same_report no nv Uo Uv (drive_from x j) (drive_from x' j').
Proof.
  intros no nv Uo Uv x x' j j' Ho Hv P P' HD C C' Rf Rg. intros. eapply C68_drive_rotation; try eassumption. eapply C68_canonical_mixing; eassumption.
Qed.
Print Assumptions C68_drive_canonical.

(** *** A concrete case: two degenerate pairs of orbitals, turned and reflected *)
Lemma canonical_fock n eps f : canonical n eps f -> is_fock n f.
Proof.
  intros [S1 C]. split; [exact S1|]. intros l1 l2 L1 L2 I1. destruct l1 as [|p [|? ?]]; try discriminate. destruct l2 as [|q [|? ?]]; try discriminate. cbn [app] in *.
  rewrite S1 in I1. inversion I1 as [|? ? ? ? A1 I1']; subst. inversion I1' as [|? ? ? ? A2 _]; subst. rewrite !C by assumption. destruct (Nat.eqb_spec p q), (Nat.eqb_spec q p); subst; try reflexivity; contradiction.
Qed.
Definition s_energies : list Qc := [0; 0; Q2Qc (3 # 4); Q2Qc (3 # 4)].
Definition s_setup (f g : tensor) (label : string) : setup :=
  mkSetup 2 2 2 f g s_energies (match drive_denoms label s_energies 2 with Some d => d | None => [] end) (Q2Qc (-5 # 1)) (Q2Qc (2 # 1)).
Lemma s_prepared f g label : is_fock 4 f -> is_tei 4 g -> prepared 2 2 label (s_setup f g label).
Proof.
  intros Hf Hg. repeat (split; [reflexivity || assumption|]). cbn [x_e x_den s_setup].
  destruct (denoms_total label s_energies 2 2 eq_refl) as [d ->]. reflexivity.
Qed.
Lemma s_energies_canonical f label g : canonical 4 s_eps f -> canonical 4 (energies_of (s_setup f g label)) f.
Proof.
  intros [S1 C]. split; [exact S1|]. intros p q Hp Hq. rewrite C by assumption. destruct (Nat.eqb p q); [|reflexivity].
  destruct p as [|[|[|[|p]]]]; try lia; reflexivity.
Qed.
Lemma s_tei_ok' : is_tei 4 s_tei'.
Proof. exact (rot_tei 2 2 turn mirror _ _ (rot_tensor_ok 2 2 turn mirror [Al; Al; Al; Al] (i_tei 4) eq_refl) (i_tei_ok 4)). Qed.
Definition s_job (label : string) (thr : Qc) : job := mkJob label 20 thr 0 (Some (6%nat, None)) None.
Example C68_drive_instance label thr (HD : contains "D" label = true) :
  same_report 2 2 turn mirror (drive_from (s_setup s_fock (i_tei 4) label) (s_job label thr)) (drive_from (s_setup s_fock' s_tei' label) (s_job label thr)).
Proof.
  apply C68_drive_canonical; try reflexivity; try assumption.
  - exact turn_ok.
  - exact mirror_ok.
  - exact (s_prepared _ _ _ (canonical_fock _ _ _ s_canonical) (i_tei_ok 4)).
  - exact (s_prepared _ _ _ (canonical_fock _ _ _ s_canonical') s_tei_ok').
  - apply s_energies_canonical. exact s_canonical.
  - apply s_energies_canonical. exact s_canonical'.
  - exact (rot_tensor_ok 2 2 turn mirror [Al; Al] s_fock eq_refl).
  - exact (rot_tensor_ok 2 2 turn mirror [Al; Al; Al; Al] (i_tei 4) eq_refl).
  - discriminate.
Qed.
(** Both calculations do return: the statement is not about two failing runs. *)
Example C68_drive_instance_returns : exists thr r r', drive_from (s_setup s_fock (i_tei 4) "CCSDT") (s_job "CCSDT" thr) = Some r /\
  drive_from (s_setup s_fock' s_tei' "CCSDT") (s_job "CCSDT" thr) = Some r' /\ r_total r' = r_total r.
Proof.
  destruct (some_threshold 2 2 (s_setup s_fock (i_tei 4) "CCSDT") "CCSDT" None 20 0 (Some (6%nat, None))
    (s_prepared _ _ _ (canonical_fock _ _ _ s_canonical) (i_tei_ok 4)) eq_refl I ltac:(discriminate) ltac:(lia)) as [thr [r E]].
  pose proof (C68_drive_instance "CCSDT" thr eq_refl) as H. unfold s_job in *. rewrite E in H.
  destruct (drive_from (s_setup s_fock' _ _) _) as [r'|] eqn:E'; cbn [same_report] in H; [|contradiction].
  exists thr, r, r'. split; [exact E|]. split; [exact E'|]. apply H.
Qed.
