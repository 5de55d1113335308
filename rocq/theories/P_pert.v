(** C53: runs that only ask for a perturbative correction to amplitudes from elsewhere (key pertCorr). *)
From Coq Require Import String Ascii List Arith NArith ZArith QArith Qcanon Bool Lia Permutation Sorted.
From Verif Require Import Sums Tensor Interp Poly SymExec Canon Spec Instances Setup Master Spin Check Tabs NF Antisym Formula
  P_antisym Asym P_triples P_ccsd Numpy Diis Kernel Denoms SpecDriver P_denoms P_slow P_spinrun Xacc SpecXacc P_xacc.
From Verif Require Code_pdagq_T3corr.
Import ListNotations.
Open Scope string_scope.
Open Scope Qc_scope.

(** ** What never returns *)
(** Two of the three methods end in a NameError, whatever the input: amphandler.py does not import sys. *)
Theorem C53_other_methods_raise_refuted : forall fl w s orders,
  orders <> "pdagq_parT" -> pert_main fl w orders s = None.
Proof.
  intros fl w s orders HO. unfold pert_main, pert_branch.
  match goal with |- obind (obind ?h _) _ = None => destruct h as [[[[[[no nv] g] d3] fock] am]|]; [|reflexivity] end.
  cbn [obind]. rewrite (proj2 (String.eqb_neq orders "pdagq_parT") HO).
  destruct (String.eqb orders "wicked_parT"); [destruct w; reflexivity|].
  destruct (String.eqb orders "checkUCCD"); [destruct w; reflexivity|reflexivity].
Qed.
Print Assumptions C53_other_methods_raise_refuted.

Lemma energy_needs_fock g o v t1 t2 : run 0 [] Code_pdagq_T3corr.ccsd_energy_L68 [g; VNone; o; v; t1; t2] = None.
Proof. reflexivity. Qed.
(** No run that starts from the three text files of xacc returns, whatever is in the files. *)
Theorem C53_xacc_route_raises_refuted : forall fl w orders bkgrd tamps tei,
  pert_main fl w orders (FromXacc bkgrd tamps tei) = None.
Proof.
  intros fl w orders b t i. destruct (String.eqb_spec orders "pdagq_parT") as [->|N]; [|apply C53_other_methods_raise_refuted, N].
  unfold pert_main, pert_branch. destruct (run_xacc fl b t i) as [x|]; [|reflexivity]. cbn [obind handler_amps].
  change (String.eqb "pdagq_parT" "pdagq_parT") with true. cbv iota.
  assert (E : run_pdagq (x_nocc x) (x_nvirt x) (x_tei x) (x_d3 x) VNone (x_t1 x, x_t2 x) = None); [|rewrite E; reflexivity].
  unfold run_pdagq. cbn [fst snd].
  destruct (nth_error _ 0) as [n0|]; [|reflexivity]. cbn [obind].
  match goal with |- obind ?h _ = None => destruct h as [[[[l1 l2] t1] t2]|]; [|reflexivity] end. cbn [obind].
  match goal with |- obind ?h _ = None => destruct h as [r|]; [|reflexivity] end. cbn [obind].
  destruct (asT r) as [r'|]; [|reflexivity]. cbn [obind].
  match goal with |- obind ?h _ = None => destruct h as [t3|]; [|reflexivity] end. cbn [obind].
  match goal with |- obind ?h _ = None => destruct h as [e|]; [|reflexivity] end. cbn [obind].
  destruct (asT e) as [e'|]; [|reflexivity]. cbn [obind].
  rewrite energy_needs_fock. reflexivity.
Qed.
Print Assumptions C53_xacc_route_raises_refuted.

(** Giving a singles file, or no doubles file, makes the run raise. *)
Theorem C53_singles_file_raises_refuted : forall fl w orders no nv g f es t2file t1file,
  t1file <> None \/ t2file = None -> pert_main fl w orders (FromScf no nv g f es t2file t1file) = None.
Proof.
  intros fl w orders no nv g f es t2 t1 H. unfold pert_main, pert_branch.
  assert (E : handler_amps no nv t2 t1 None = None); [|rewrite E; reflexivity].
  unfold handler_amps, get_amps. destruct t2 as [t2|], t1 as [t1|]; try reflexivity. destruct H as [H|H]; [destruct (H eq_refl)|discriminate].
Qed.
Print Assumptions C53_singles_file_raises_refuted.

(** ** The one combination that works *)
Section Pdagq.
  Variables (no nv : nat).
  Lemma transp1 t : is_amp 1 no nv t -> exists td, ttransp [1;0]%nat t = Some td /\ swapped 1 t td /\ is_amp_ov 1 no nv td.
  Proof.
    intros [S A]. unfold ttransp. rewrite S. cbn [repeat app length Nat.eqb is_permb seq forallb existsb orb andb].
    eexists; split; [reflexivity|]. cbn [map nth seq length index_of Nat.eqb]. split; [|split; [reflexivity|intros i Hi; lia]].
    split; [rewrite S; reflexivity|]. intros l1 l2 L1 I. pose proof (Forall2_len _ _ _ I) as LL. rewrite S, app_length in LL. cbn in LL.
    destruct l1 as [|a [|]]; try discriminate. destruct l2 as [|i [|]]; cbn in LL; try lia. reflexivity.
  Qed.
  Lemma T_energy g l1 l2 t3 : is_tei (no + nv) g -> is_amp_ov 1 no nv l1 -> is_amp_ov 2 no nv l2 -> is_amp 3 no nv t3 ->
    exists E, returns 0 [] Code_pdagq_T3corr.pdagq_T3energy [VT g; o_ no; v_ no; VT l1; VT l2; VT t3] E /\ data E [] = E_T no nv g l2 t3.
  Proof.
    intros Hg H1 H2 H3.
    set (tab := [(1%N, ([6;6;6;6]%N, g)); (6%N, ([0;0;1;1]%N, l2)); (4%N, ([1;1;1;0;0;0]%N, t3)); (7%N, ([0;1]%N, l1))] : atomtab).
    assert (OK : Forall (atom_ok (so_range no nv) sy) tab) by (unfold tab; oks).
    assert (VE : so_vsim no nv tab (SP [] p_ET) (VT (arr0 (E_T no nv g l2 t3)))).
    { unfold p_ET, E_T, tab. so_form. }
    destruct (so_reads no nv tab 0 [] Code_pdagq_T3corr.pdagq_T3energy
      [xG; xo; xv; at_ 7 [0;1]%N; at_ 6 [0;0;1;1]%N; at_ 4 [1;1;1;0;0;0]%N]
      [VT g; o_ no; v_ no; VT l1; VT l2; VT t3] [] _ _ OK ltac:(vsims) VE) as [E [A B]]; [chk_|].
    apply so_scalar in B. exists E. split; [exact A|apply B].
  Qed.
End Pdagq.

(** C53.  With a doubles file in virtual-first order, no singles file and the method pdagq_parT, the run returns None in place
    of an energy and, as correction, the [T] energy of the approximate triples: T3 is the antisymmetrised numerator W T2 over
    the orbital-energy differences of the doubly occupied orbitals, L2 the transposed doubles. *)
Theorem C53_pdagq_delivers : forall fl w no nv g f es t2,
  is_fock (no + nv) f -> is_tei (no + nv) g -> is_amp 2 no nv t2 ->
  (2 * length es = no + nv)%nat -> StronglySorted Qcle es ->
  let e := fun p => nth (p / 2) es 0 in
  gapped 3 no nv e ->
  exists N3 T3 L2,
    antisymmetrised 3 (W_T2 no nv g t2) N3 /\ swapped 2 t2 L2 /\
    is_amp 3 no nv T3 /\
    (forall a b c i j k, (a < nv)%nat -> (b < nv)%nat -> (c < nv)%nat -> (i < no)%nat -> (j < no)%nat -> (k < no)%nat ->
       data T3 [a;b;c;i;j;k] * (e i + e j + e k - e (no + a)%nat - e (no + b)%nat - e (no + c)%nat) = data N3 [a;b;c;i;j;k]) /\
    pert_main fl w "pdagq_parT" (FromScf no nv g f es (Some t2) None) = Some (VNone, E_T no nv g L2 T3).
Proof.
  intros fl w no nv g f es t2 Hf Hg H2 HL HS e HG.
  destruct (transp_amp no nv t2 H2) as [l2 [El2 [SW2 HL2]]].
  destruct (C17_approximate_triples no nv g t2 l2 Hg H2 SW2) as [N3 [R [_ [_ [_ [AN [AS [HR [TR _]]]]]]]]].
  set (z := tzeros [nv; no]). assert (Hz : is_amp 1 no nv z) by exact (amp_zeros no nv 1).
  destruct (transp1 no nv z Hz) as [l1 [El1 [SW1 HL1]]].
  assert (HN : is_amp 3 no nv N3). { split; [exact (proj1 AN)|exact AS]. }
  pose proof (amp_teq no nv 3 N3 R HN TR) as HRa.
  set (D := den 3 (doubled es) (0%nat, Some no) (no, None)).
  assert (ED : doubled es = twice es).
  { unfold doubled. fold (twice es). apply sorted_unique; [apply sort_sorted|apply twice_sorted, HS|apply sort_perm]. }
  assert (HD : is_denominator 3 no nv e D).
  { unfold D. rewrite ED. apply (is_den_ext 3 _ _ (fun p => nth p (twice es) 0)); [intros p; apply twice_nth|].
    apply den_ok. rewrite twice_length. exact HL. }
  destruct (amp_times_sym no nv 3 R D HRa (den_sym no nv 3 e D HD)) as [T3 [ET HT]].
  destruct (T_energy no nv g l1 l2 T3 Hg HL1 HL2 HT) as [E [RE VE]].
  destruct (C16_spinorbital_energies no nv f g z t2 l1 l2 Hf Hg Hz H2 SW1 SW2) as [E1 [_ [_ [_ [RC _]]]]].
  exists N3, T3, l2. split; [exact AN|]. split; [exact SW2|]. split; [exact HT|]. split.
  - intros a b c i j k Ha Hb Hc Hi Hj Hk.
    assert (I : inr [a;b;c;i;j;k] [nv;nv;nv;no;no;no]) by (repeat constructor; assumption).
    assert (GE : gap no e [a;b;c] [i;j;k] = e i + e j + e k - e (no + a)%nat - e (no + b)%nat - e (no + c)%nat).
    { unfold gap. cbn [suml]. ring. }
    assert (GN : gap no e [a;b;c] [i;j;k] <> 0).
    { apply HG; try reflexivity; cbn [In]; intros x Hx; repeat destruct Hx as [Hx|Hx]; try contradiction; subst; assumption. }
    rewrite <- GE.
    apply tbin_inv in ET. destruct ET as [_ ->]. cbn [data].
    rewrite (proj2 TR) by (rewrite (proj1 HRa); exact I).
    assert (X : data D [a;b;c;i;j;k] = / gap no e [a;b;c] [i;j;k]).
    { apply (proj2 HD [a;b;c] [i;j;k] eq_refl). rewrite (proj1 HD). exact I. }
    rewrite X.
    field. exact GN.
  - unfold pert_main, pert_branch, handler_amps, get_amps. cbn [obind try_]. fold z.
    change (String.eqb "pdagq_parT" "pdagq_parT") with true. cbv iota. fold D.
    unfold run_pdagq. cbn [fst snd]. rewrite (proj1 H2). cbn [repeat app nth_error obind]. rewrite Nat.eqb_refl. cbn [negb].
    rewrite El1, El2. cbn [obind]. unfold returns in HR, RE, RC. rewrite HR. cbn [obind asT]. rewrite ET. cbn [obind].
    rewrite RE. cbn [obind asT]. rewrite RC. cbn [obind]. rewrite VE. reflexivity.
Qed.
Print Assumptions C53_pdagq_delivers.

(** Eight spin orbitals, four of them occupied. *)
Definition ex_es : list Qc := [- (1); Q2Qc (-1 # 2); Q2Qc (1 # 3); 1 + 1].
Lemma ex_es_sorted : StronglySorted Qcle ex_es.
Proof. repeat constructor; unfold Qcle; vm_compute; discriminate. Qed.
Lemma ex_es_gapped : gapped 3 4 4 (fun p => nth (p / 2) ex_es 0).
Proof.
  assert (V : forall a, (a < 4)%nat -> Q2Qc (1 # 3) <= nth ((4 + a) / 2) ex_es 0).
  { intros a H. do 4 (destruct a as [|a]; [unfold Qcle; vm_compute; discriminate|]). lia. }
  assert (O : forall i, (i < 4)%nat -> nth (i / 2) ex_es 0 <= Q2Qc (-1 # 2)).
  { intros a H. do 4 (destruct a as [|a]; [unfold Qcle; vm_compute; discriminate|]). lia. }
  intros virt occ LV LO HV HO. destruct virt as [|a [|b [|c [|]]]]; try discriminate. destruct occ as [|i [|j [|k [|]]]]; try discriminate.
  unfold gap. cbn [suml]. cbn [In] in HV, HO.
  pose proof (V a ltac:(auto)) as Va. pose proof (V b ltac:(auto)) as Vb. pose proof (V c ltac:(auto)) as Vc.
  pose proof (O i ltac:(auto)) as Oi. pose proof (O j ltac:(auto)) as Oj. pose proof (O k ltac:(auto)) as Ok.
  revert Va Vb Vc Oi Oj Ok.
  generalize (nth ((4 + a) / 2) ex_es 0) (nth ((4 + b) / 2) ex_es 0) (nth ((4 + c) / 2) ex_es 0) (nth (i / 2) ex_es 0) (nth (j / 2) ex_es 0) (nth (k / 2) ex_es 0).
  intros A B C I J K Va Vb Vc Oi Oj Ok H.
  pose proof (Qcplus_le_compat _ _ _ _ Va (Qcplus_le_compat _ _ _ _ Vb Vc)) as X.
  pose proof (Qcplus_le_compat _ _ _ _ Oi (Qcplus_le_compat _ _ _ _ Oj Ok)) as Y.
  assert (E : I + (J + K) = A + (B + C)).
  { transitivity (I + (J + (K + 0)) - (A + (B + (C + 0))) + (A + (B + C))); [ring|]. rewrite H. ring. }
  rewrite E in Y. pose proof (Qcle_trans _ _ _ X Y) as Z. revert Z. unfold Qcle. vm_compute. intros Z. apply Z. reflexivity.
Qed.
Example C53_instance := C53_pdagq_delivers (fun _ => None) None 4 4 (i_tei 8) (i_fock 8) ex_es (i_amp 2 4 4)
  (i_fock_ok 8) (i_tei_ok 8) (i_amp_ok 2 4 4) eq_refl ex_es_sorted ex_es_gapped.

(** ** Occupied-first doubles *)
(** The handler means to accept doubles in either order, but with doubles stored occupied-first the run raises: the singles it
    makes up are virtual-first.  ([no <> 1], [nv <> 1]: numpy stretches axes of length one, which the model leaves out.) *)
Theorem C53_occupied_first_raises_refuted : forall fl w orders no nv g f es t2,
  is_tei (no + nv) g -> is_amp_ov 2 no nv t2 -> (2 * length es = no + nv)%nat -> no <> nv -> no <> 1%nat -> nv <> 1%nat ->
  pert_main fl w orders (FromScf no nv g f es (Some t2) None) = None.
Proof.
  intros fl w orders no nv g f es t2 Hg H2 HL NE _ _.
  destruct (String.eqb_spec orders "pdagq_parT") as [->|N]; [|apply C53_other_methods_raise_refuted, N].
  unfold pert_main, pert_branch, handler_amps, get_amps. cbn [obind try_].
  change (String.eqb "pdagq_parT" "pdagq_parT") with true. cbv iota.
  match goal with |- obind (obind ?h _) _ = None => assert (E : h = None); [|rewrite E; reflexivity] end.
  unfold run_pdagq. cbn [fst snd]. rewrite (proj1 H2). cbn [repeat app nth_error obind].
  rewrite (proj2 (Nat.eqb_neq no nv) NE). cbn [negb].
  match goal with |- obind ?h _ = None => assert (Z : forall x, h = Some x -> fst (fst (fst x)) = tzeros [nv; no]) end.
  { intros x. destruct (ttransp _ t2); [|discriminate]. cbn [obind]. destruct (ttransp _ (tzeros _)); [|discriminate]. cbn [obind].
    intros H. injection H as <-. reflexivity. }
  match goal with |- obind ?h _ = None => destruct h as [[[[l1 l2] t1] t2']|]; [|reflexivity] end. cbn [obind].
  specialize (Z _ eq_refl). cbn [fst] in Z. subst l1.
  match goal with |- obind ?h _ = None => destruct h as [r|]; [|reflexivity] end. cbn [obind].
  destruct (asT r) as [r'|]; [|reflexivity]. cbn [obind].
  match goal with |- obind ?h _ = None => destruct h as [t3|] eqn:ET; [|reflexivity] end. cbn [obind].
  match goal with |- obind ?h _ = None => assert (X : h = None); [|rewrite X; reflexivity] end.
  cbn [run]. unfold run_with.
  match goal with |- context [bind_params (fparams ?f) _] => let p := eval vm_compute in (fparams f) in change (fparams f) with p end.
  cbn [bind_params obind].
  match goal with |- obind (steps ?c ?e (fbody ?f)) _ = _ => assert (X : steps c e (fbody f) = None) end; [|rewrite X; reflexivity].
  unfold Code_pdagq_T3corr.pdagq_T3energy, fbody. cbn [steps step eval].
  match goal with |- context [slook "g" ?e] => change (slook "g" e) with (Some (VT g)); change (slook "o" e) with (Some (o_ no));
    change (slook "v" e) with (Some (v_ no)); change (slook "l1" e) with (Some (VT (tzeros [nv; no]))); change (slook "t3" e) with (Some (VT t3)) end.
  assert (ST : shape t3 = [nv;nv;nv;no;no;no]).
  { apply tbin_inv in ET. destruct ET as [S1 ->]. cbn [shape]. rewrite S1.
    apply (den_ok 3 (doubled es) no nv). unfold doubled. rewrite (Permutation_length (sort_perm _)). fold (twice es). rewrite twice_length. exact HL. }
  assert (EO : forall rest, omap (sidx_val (("g", VT g) :: ("o", o_ no) :: ("v", v_ no) :: rest)) [SV "o"; SV "o"; SV "v"; SV "v"] =
    Some [(0%nat, Some no); (0%nat, Some no); (no, None); (no, None)]) by reflexivity.
  cbn [obind asT]. rewrite EO. cbn [obind]. unfold tslice at 1. pose proof (proj1 Hg) as SG.
  rewrite SG. cbn [repeat length Nat.eqb obind].
  match goal with |- context [parse_spec ?s] => let p := eval vm_compute in (parse_spec s) in change (parse_spec s) with p end. cbv beta iota.
  cbn [omap asT]. cbn [obind]. unfold einsum at 1. cbn [shape map]. unfold zipw at 1. cbn [combine map fst snd]. rewrite ST. cbn [shape tzeros].
  assert (L1 : slice_len 0 (Some no) (no + nv) = no) by (unfold slice_len, slice_stop, slice_start; lia).
  assert (L2 : slice_len no None (no + nv) = nv) by (unfold slice_len, slice_stop, slice_start; lia).
  rewrite L1, L2. cbn [bindall bind1 alook Ascii.eqb Bool.eqb].
  rewrite !Nat.eqb_refl. rewrite (proj2 (Nat.eqb_neq no nv) NE). reflexivity.
Qed.
Print Assumptions C53_occupied_first_raises_refuted.
Example C53_occupied_first_instance := C53_occupied_first_raises_refuted (fun _ => None) None "pdagq_parT" 2 6 (i_tei 8) (i_fock 8) ex_es (i_amp_ov 2 2 6)
  (i_tei_ok 8) (i_amp_ov_ok 2 2 6) eq_refl ltac:(discriminate) ltac:(discriminate) ltac:(discriminate).
