(** C63: the perturbative triples and quadruples are matrix elements of commutators of the Hamiltonian with the cluster operators. *)
From Coq Require Import String Ascii List Arith NArith ZArith QArith Qcanon Bool Lia Permutation.
From Verif Require Import Sums Tensor Interp Poly SymExec Canon Spec Instances Setup Master Spin Check Tabs NF Antisym Formula Fock Wick CCState P_fock Dress Commut NOrd Proj Elem P_antisym Asym P_fock2 P_fock3 P_spin_qf P_triples P_qf P_spin_t4.
From Verif Require Code_pdagq_T3corr Code_cc_energy Code_build_approxT3full Code_square_brakT_corr Code_tamps Code_fullCCenergy.
From Verif Require Code_modify_T2resid_T4Qf1Slow Code_modify_T2resid_T4Qf2Slow Code_modify_T2energy_pertQfSlow.
Import ListNotations.
Open Scope Qc_scope.

Lemma antis_swap k no nv U W T : shape U = (repeat no k ++ repeat nv k)%list -> swapped k U W -> antisymmetrised k W T ->
  antisymmetrised k U (swap_t k T) /\ forall l1 l2, In l1 (tup (seq 0 no) k) -> In l2 (tup (seq 0 nv) k) -> data T (l2 ++ l1)%list = data (swap_t k T) (l1 ++ l2)%list.
Proof.
  intros SU [SW HW] [ST AT].
  assert (SW' : shape W = (repeat nv k ++ repeat no k)%list).
  { rewrite SW, SU. destruct (Instances.fs_app k (repeat no k) (repeat nv k) (repeat_length no k)) as [-> ->]. reflexivity. }
  assert (E : forall l1 l2, List.length l1 = k -> List.length l2 = k -> data (swap_t k T) (l1 ++ l2)%list = data T (l2 ++ l1)%list).
  { intros l1 l2 L1 L2. unfold swap_t. cbn [data]. rewrite app_length. replace (List.length l1 + List.length l2 - k)%nat with k by lia.
    destruct (Instances.fs_app k l1 l2 L1) as [-> ->]. reflexivity. }
  split.
  - split.
    { unfold swap_t. cbn [shape]. rewrite ST, SW', SU. destruct (Instances.fs_app k (repeat nv k) (repeat no k) (repeat_length nv k)) as [-> ->]. reflexivity. }
    intros l1 l2 L1 HI. rewrite SU in HI. pose proof HI as HI'. unfold inr in HI'. apply Forall2_app_inv_r in HI'. destruct HI' as [m1 [m2 [M1 [M2 EQ]]]].
    assert (LM : List.length m1 = k) by (rewrite (inr_len _ _ M1), repeat_length; reflexivity).
    assert (L2 : List.length l2 = k).
    { apply inr_len in HI. rewrite !app_length, !repeat_length in HI. lia. }
    assert (m1 = l1 /\ m2 = l2) as [-> ->].
    { apply (f_equal (fun l => (firstn k l, skipn k l))) in EQ. destruct (Instances.fs_app k l1 l2 L1) as [F1 F2], (Instances.fs_app k m1 m2 LM) as [G1 G2]. rewrite F1, F2, G1, G2 in EQ. injection EQ as -> ->. auto. }
    apply inr_tup in M1, M2. rewrite E by assumption. rewrite (AT l2 l1 L2); [|rewrite SW'; apply Forall2_app; apply tup_inr; assumption].
    rewrite suml_swap. apply suml_ext. intros q Hq. apply suml_ext. intros p Hp.
    assert (Q1 : In (snd q) (tup (seq 0 no) k)) by (destruct q; eapply perm_tup; eassumption).
    assert (P1 : In (snd p) (tup (seq 0 nv) k)) by (destruct p; eapply perm_tup; eassumption).
    rewrite (HW (snd q) (snd p)); [ring|apply (tup_len _ _ _ Q1)|rewrite SU; apply Forall2_app; apply tup_inr; assumption].
  - intros l1 l2 H1 H2. symmetry. apply E; [apply (tup_len _ _ _ H1)|apply (tup_len _ _ _ H2)].
Qed.

Section Numer.
  Variables no nv m : nat.
  Variable tab : atomtab.
  Notation range := (so_range no nv).
  Hypothesis OK : Forall (atom_ok range sy) tab.
  Hypothesis LAY : lay_ok m = true.
  Hypothesis TP : tpl_ok m = true.
  Hypothesis Hm : (0 < m)%nat.
  Hypothesis Hm4 : (m <= 4)%nat.
  (** an antisymmetrised numerator that is the array of matrix elements of an operator *)
  Lemma numer n X ys W T p q S : sy n = SD [m; m] true false -> is_op no nv (Aof range tab) X ys -> ctsum_ok m ys = true ->
    forallb (closed_term (xi m ++ xa m)) (ctsum m ys) = true -> so_vsim no nv tab (SP (vo_ m) p) (VT W) ->
    strp (flip m) (Some (SP (vo_ m) p)) = Some (SP (ovs m) q) -> proj_ok m n q = true -> proj_ok m n (ctsum m ys) = true ->
    so_chk [] (Some (SP [] (dotp m n q))) (Some (SP [] (dotp m n (ctsum m ys)))) ->
    antisymmetrised m W T -> shape S = (repeat no m ++ repeat nv m)%list -> entry no nv (X (Phi no nv)) m S ->
    forall l1 l2, In l1 (tup (seq 0 no) m) -> In l2 (tup (seq 0 nv) m) -> data T (l2 ++ l1)%list = data S (l1 ++ l2)%list.
  Proof using All.
    intros Hn HX CO CL VW FL P1 P2 CK AT HS HE l1 l2 H1 H2.
    destruct (so_vs_flip no nv tab m (vo_ m) (ovs m) p q W Hm4 ltac:(unfold vo_; rewrite app_length, !repeat_length; reflexivity) VW FL) as [U [SU VU]].
    assert (SHU : shape U = (repeat no m ++ repeat nv m)%list).
    { inversion VU as [? ? ? TU| | | | |]; subst. rewrite (proj1 TU). apply sh_ov. }
    destruct (antis_swap m no nv U W T SHU SU AT) as [AU ET]. rewrite (ET l1 l2 H1 H2).
    assert (AS : antisymmetrised m (carr no nv m tab (ctsum m ys)) S).
    { apply (elem_antis no nv m tab LAY TP ys (X (Phi no nv)) S HS HE); [|exact CO|exact CL]. intros e. apply (is_op_elem no nv (Aof range tab)), HX. }
    destruct (so_proj no nv m LAY n tab q (ctsum m ys) U _ (swap_t m T) S Hm Hn OK VU (carr_vsim no nv m LAY tab _ CL) AU AS P1 P2 CK) as [ER ED].
    apply ED. rewrite ER, HS. apply tup_sh; assumption.
  Qed.
End Numer.

(** *** The commutators, symbolically *)
Definition ts2 (c : nat) : list oterm := [tot 2 3 (1 # 4) c].
Definition ts3 (c : nat) : list oterm := [tot 3 4 (1 # 36) c].
Definition scl (q : Q) (l : list oterm) : list oterm := map (fun t => OT (Qred (q * oc t)) (od t) (ofs t) (oo t)) l.
Definition hT2 : list oterm := adh ts2 0 hams.
Definition hT2T2 : list oterm := adh ts2 1 hT2.
Definition hT2T2T2 : list oterm := adh ts2 2 hT2T2.
Definition hT3 : list oterm := adh ts3 0 hams.
Definition hQ : list oterm := scl (1 # 2) hT2T2.
Definition hC : list oterm := scl (1 # 6) hT2T2T2.
Definition hQT : list oterm := (hQ ++ hT3)%list.
Lemma ts2_c : forall c, (c < 10)%nat -> forallb cterm (ts2 c) = true.
Proof. intros c H. do 10 (destruct c as [|c]; [reflexivity|]). lia. Qed.
Lemma ts3_c : forall c, (c < 10)%nat -> forallb cterm (ts3 c) = true.
Proof. intros c H. do 10 (destruct c as [|c]; [reflexivity|]). lia. Qed.
Lemma hT2_ok : adh_ok ts2 0 hams = true. Proof. vm_cast_no_check (@eq_refl bool true). Qed.
Lemma hT2T2_ok : adh_ok ts2 1 hT2 = true. Proof. vm_cast_no_check (@eq_refl bool true). Qed.
Lemma hT2T2T2_ok : adh_ok ts2 2 hT2T2 = true. Proof. vm_cast_no_check (@eq_refl bool true). Qed.
Lemma hT3_ok : adh_ok ts3 0 hams = true. Proof. vm_cast_no_check (@eq_refl bool true). Qed.

Section Ops.
  Variables no nv : nat.
  Variables f g : tensor.
  Variable tab : atomtab.
  Notation range := (so_range no nv).
  Notation A := (Aof range tab).
  Hypothesis L0 : nlook 0%N tab = Some ([6;6]%N, f).
  Hypothesis L1 : nlook 1%N tab = Some ([6;6;6;6]%N, g).
  Lemma ham_op : is_op no nv A (Ham no nv f g) hams.
  Proof using L0 L1. intros e psi n _. apply (ham_sem no nv (A' A) f g); [apply (read_f no nv tab), L0|apply (read_g no nv tab), L1]. Qed.
  Section T2.
    Variable t2 : tensor.
    Hypothesis L3 : nlook 3%N tab = Some ([1;1;0;0]%N, t2).
    Notation T := (T2op no nv t2).
    Lemma t2_sem e c psi n : (c < 10)%nat -> T psi n = osem no nv (A' A) e (ts2 c) psi n.
    Proof using L3. intros HC. unfold Wick.osem. cbn [ts2 suml]. rewrite Qcplus_0_r. apply tot2_sem; [|exact HC]. intros. apply (read_t2 no nv tab 3%N); auto. Qed.
    Lemma hT2_op : is_op no nv A (comm (Ham no nv f g) T) hT2.
    Proof using L0 L1 L3. apply (comm_is_op no nv A ts2 ts2_c T t2_sem 0); [lia|exact hT2_ok|exact ham_op]. Qed.
    Lemma hT2T2_op : is_op no nv A (comm (comm (Ham no nv f g) T) T) hT2T2.
    Proof using L0 L1 L3. apply (comm_is_op no nv A ts2 ts2_c T t2_sem 1); [lia|exact hT2T2_ok|exact hT2_op]. Qed.
    Lemma hQ_op : is_op no nv A (oscale (1 # 2) (comm (comm (Ham no nv f g) T) T)) hQ.
    Proof using L0 L1 L3. apply scale_is_op, hT2T2_op. Qed.
    Lemma hC_op : is_op no nv A (oscale (1 # 6) (comm (comm (comm (Ham no nv f g) T) T) T)) hC.
    Proof using L0 L1 L3. apply scale_is_op. apply (comm_is_op no nv A ts2 ts2_c T t2_sem 2); [lia|exact hT2T2T2_ok|exact hT2T2_op]. Qed.
  End T2.
  Section T3.
    Variable t3 : tensor.
    Hypothesis L4 : nlook 4%N tab = Some ([1;1;1;0;0;0]%N, t3).
    Lemma t3_sem e c psi n : (c < 10)%nat -> T3op no nv t3 psi n = osem no nv (A' A) e (ts3 c) psi n.
    Proof using L4. intros HC. unfold Wick.osem. cbn [ts3 suml]. rewrite Qcplus_0_r. apply tot3_sem; [|exact HC]. intros. apply (read_t3 no nv tab 4%N); auto. Qed.
    Lemma hT3_op : is_op no nv A (comm (Ham no nv f g) (T3op no nv t3)) hT3.
    Proof using L0 L1 L4. apply (comm_is_op no nv A ts3 ts3_c (T3op no nv t3) t3_sem 0); [lia|exact hT3_ok|exact ham_op]. Qed.
  End T3.
End Ops.

(** *** The numerators *)
Lemma so_vs_sum no nv atoms sps p q R1 R2 : so_vsim no nv atoms (SP sps p) (VT R1) -> so_vsim no nv atoms (SP sps q) (VT R2) ->
  so_vsim no nv atoms (SP sps (p ++ q)%list) (VT (tsum R1 R2)).
Proof.
  intros V1 V2. inversion V1 as [? ? ? T1| | | | |]; subst. inversion V2 as [? ? ? T2| | | | |]; subst.
  destruct T1 as [S1 D1], T2 as [S2 D2]. constructor. split; [exact S1|]. intros idx e Hi Ha. cbn [data shape tsum] in *.
  rewrite evalP_app. rewrite (D1 idx e Hi Ha), (D2 idx e); [reflexivity| |exact Ha].
  rewrite S2, <- S1. exact Hi.
Qed.
Section Numerators.
  Variables no nv : nat.
  Variables f g t2 t3 : tensor.
  Hypothesis Hf : is_fock (no + nv) f.
  Hypothesis Hg : is_tei (no + nv) g.
  Hypothesis H2 : is_amp 2 no nv t2.
  Hypothesis H3 : is_amp 3 no nv t3.
  Notation H := (Ham no nv f g).
  Notation T2 := (T2op no nv t2).
  Notation T3 := (T3op no nv t3).
  Notation tab := [(0%N, ([6;6]%N, f)); (1%N, ([6;6;6;6]%N, g)); (3%N, ([1;1;0;0]%N, t2)); (4%N, ([1;1;1;0;0;0]%N, t3))].
  Notation range := (so_range no nv).
  Lemma num_OK : Forall (atom_ok range sy) tab.
  Proof. oks. Qed.
  Lemma num_T3 T : antisymmetrised 3 (W_T2 no nv g t2) T -> forall a b c i j k, (a < nv)%nat -> (b < nv)%nat -> (c < nv)%nat -> (i < no)%nat -> (j < no)%nat -> (k < no)%nat ->
    data T [a; b; c; i; j; k] = bra3 no nv a b c i j k (comm H T2 (Phi no nv)).
  Proof.
    intros AT a b c i j k Ha Hb Hc Hi Hj Hk.
    assert (I1 : In [i; j; k] (tup (seq 0 no) 3)) by (apply in_tup; [reflexivity|]; intros x Hx; apply in_seq; cbn in Hx; lia).
    assert (I2 : In [a; b; c] (tup (seq 0 nv) 3)) by (apply in_tup; [reflexivity|]; intros x Hx; apply in_seq; cbn in Hx; lia).
    change (data T ([a; b; c] ++ [i; j; k])%list = data (elem3_ov no nv (comm H T2 (Phi no nv))) ([i; j; k] ++ [a; b; c])%list).
    eapply (numer no nv 3 tab num_OK eq_refl eq_refl ltac:(lia) ltac:(lia) 50%N (comm H T2) hT2 (W_T2 no nv g t2) T p_WT2); try eassumption.
    - reflexivity.
    - apply hT2_op; reflexivity.
    - vm_cast_no_check (@eq_refl bool true).
    - vm_cast_no_check (@eq_refl bool true).
    - unfold vo_, p_WT2, W_T2. cbn [repeat app]. so_form.
    - vm_compute. reflexivity.
    - vm_cast_no_check (@eq_refl bool true).
    - vm_cast_no_check (@eq_refl bool true).
    - chk_.
    - reflexivity.
    - apply ent3.
  Qed.
  Lemma num_T4 X ys W p T : is_op no nv (Aof range tab) X ys -> ctsum_ok 4 ys = true -> forallb (closed_term (xi 4 ++ xa 4)) (ctsum 4 ys) = true ->
    so_vsim no nv tab (SP (vo_ 4) p) (VT W) -> outsp (ovs 4) (strp (flip 4) (Some (SP (vo_ 4) p))) = true -> let q := getp (strp (flip 4) (Some (SP (vo_ 4) p))) in proj_ok 4 51 q = true -> proj_ok 4 51 (ctsum 4 ys) = true ->
    so_chk [] (Some (SP [] (dotp 4 51 q))) (Some (SP [] (dotp 4 51 (ctsum 4 ys)))) ->
    antisymmetrised 4 W T -> forall a b c d i j k l, (a < nv)%nat -> (b < nv)%nat -> (c < nv)%nat -> (d < nv)%nat -> (i < no)%nat -> (j < no)%nat -> (k < no)%nat -> (l < no)%nat ->
    data T [a; b; c; d; i; j; k; l] = bra4 no nv a b c d i j k l (X (Phi no nv)).
  Proof.
    intros HX CO CL VW FL q P1 P2 CK AT a b c d i j k l Ha Hb Hc Hd Hi Hj Hk Hl.
    assert (I1 : In [i; j; k; l] (tup (seq 0 no) 4)) by (apply in_tup; [reflexivity|]; intros x Hx; apply in_seq; cbn in Hx; lia).
    assert (I2 : In [a; b; c; d] (tup (seq 0 nv) 4)) by (apply in_tup; [reflexivity|]; intros x Hx; apply in_seq; cbn in Hx; lia).
    change (data T ([a; b; c; d] ++ [i; j; k; l])%list = data (elem4_ov no nv (X (Phi no nv))) ([i; j; k; l] ++ [a; b; c; d])%list).
    eapply (numer no nv 4 tab num_OK eq_refl tpl4 ltac:(lia) ltac:(lia) 51%N X ys W T p q); try eassumption; [reflexivity|apply outsp_ok, FL|reflexivity|apply ent4].
  Qed.
  Lemma num_Q T : antisymmetrised 4 (W_T2T2 no nv g t2) T -> forall a b c d i j k l, (a < nv)%nat -> (b < nv)%nat -> (c < nv)%nat -> (d < nv)%nat -> (i < no)%nat -> (j < no)%nat -> (k < no)%nat -> (l < no)%nat ->
    data T [a; b; c; d; i; j; k; l] = bra4 no nv a b c d i j k l (oscale (1 # 2) (comm (comm H T2) T2) (Phi no nv)).
  Proof.
    apply (num_T4 _ hQ _ p_WT2T2).
    - apply hQ_op; reflexivity.
    - vm_cast_no_check (@eq_refl bool true).
    - vm_cast_no_check (@eq_refl bool true).
    - unfold vo_, p_WT2T2, W_T2T2. cbn [repeat app]. so_form.
    - vm_cast_no_check (@eq_refl bool true).
    - vm_cast_no_check (@eq_refl bool true).
    - vm_cast_no_check (@eq_refl bool true).
    - chk_.
  Qed.
  Ltac num4 ys lem p W :=
    apply (num_T4 _ ys _ p);
    [apply lem; reflexivity|vm_cast_no_check (@eq_refl bool true)|vm_cast_no_check (@eq_refl bool true)|unfold vo_, p, W; cbn [repeat app]; so_form|
     vm_cast_no_check (@eq_refl bool true)|vm_cast_no_check (@eq_refl bool true)|vm_cast_no_check (@eq_refl bool true)|chk_].
  Lemma num_C T : antisymmetrised 4 (W_T2T2T2 no nv g t2) T -> forall a b c d i j k l, (a < nv)%nat -> (b < nv)%nat -> (c < nv)%nat -> (d < nv)%nat -> (i < no)%nat -> (j < no)%nat -> (k < no)%nat -> (l < no)%nat ->
    data T [a; b; c; d; i; j; k; l] = bra4 no nv a b c d i j k l (oscale (1 # 6) (comm (comm (comm H T2) T2) T2) (Phi no nv)).
  Proof. num4 hC hC_op p_WT2T2T2 W_T2T2T2. Qed.
  Lemma num_QT T : antisymmetrised 4 (tsum (W_T2T2 no nv g t2) (W_T3 no nv g t3)) T -> forall a b c d i j k l, (a < nv)%nat -> (b < nv)%nat -> (c < nv)%nat -> (d < nv)%nat -> (i < no)%nat -> (j < no)%nat -> (k < no)%nat -> (l < no)%nat ->
    data T [a; b; c; d; i; j; k; l] = bra4 no nv a b c d i j k l (oplus (oscale (1 # 2) (comm (comm H T2) T2)) (comm H T3) (Phi no nv)).
  Proof.
    apply (num_T4 _ hQT _ (p_WT2T2 ++ p_WT3)%list).
    - apply plus_is_op; [apply hQ_op; reflexivity|apply hT3_op; reflexivity].
    - vm_cast_no_check (@eq_refl bool true).
    - vm_cast_no_check (@eq_refl bool true).
    - apply so_vs_sum; [unfold vo_, p_WT2T2, W_T2T2; cbn [repeat app]; so_form|unfold vo_, p_WT3, W_T3; cbn [repeat app]; so_form].
    - vm_cast_no_check (@eq_refl bool true).
    - vm_cast_no_check (@eq_refl bool true).
    - vm_cast_no_check (@eq_refl bool true).
    - chk_.
  Qed.
End Numerators.

(** *** De-excitations *)
Lemma bra_L2 no nv l D psi : act D (L2op no nv l psi) (ref no nv) =
  Q2Qc (1 # 4) * (Sum i < no, Sum j < no, Sum a < nv, Sum b < nv, data l [i; j; a; b] * act (D ++ [(true, i); (true, j); (false, (no + b)%nat); (false, (no + a)%nat)])%list psi (ref no nv)).
Proof.
  unfold L2op. rewrite act_scale. f_equal.
  rewrite (act_suml D (seq 0 no) (fun i n => Sum j < no, Sum a < nv, Sum b < nv, data l [i; j; a; b] * cre i (cre j (ann (no + b) (ann (no + a) psi))) n)). apply suml_ext. intros i _.
  rewrite (act_suml D (seq 0 no) (fun j n => Sum a < nv, Sum b < nv, data l [i; j; a; b] * cre i (cre j (ann (no + b) (ann (no + a) psi))) n)). apply suml_ext. intros j _.
  rewrite (act_suml D (seq 0 nv) (fun a n => Sum b < nv, data l [i; j; a; b] * cre i (cre j (ann (no + b) (ann (no + a) psi))) n)). apply suml_ext. intros a _.
  rewrite (act_suml D (seq 0 nv) (fun b n => data l [i; j; a; b] * cre i (cre j (ann (no + b) (ann (no + a) psi))) n)). apply suml_ext. intros b _.
  rewrite act_scale, act_app. reflexivity.
Qed.
Lemma bra2_L2 no nv l psi a b i j : (i < no)%nat -> (j < no)%nat ->
  bra2 no nv a b i j (L2op no nv l psi) = Q2Qc (1 # 4) * (Sum k < no, Sum m < no, Sum c < nv, Sum d < nv, data l [k; m; c; d] * bra4 no nv a b c d i j k m psi).
Proof.
  intros Hi Hj. change (bra2 no nv a b i j (L2op no nv l psi)) with (act [(true, i); (true, j); (false, no + b); (false, no + a)]%nat (L2op no nv l psi) (ref no nv)).
  rewrite bra_L2. f_equal. apply suml_ext. intros k Hk. apply suml_ext. intros m Hm. apply suml_ext. intros c _. apply suml_ext. intros d _. f_equal.
  apply in_seq in Hk, Hm. destruct Hk as [_ Hk], Hm as [_ Hm]. cbn [plus] in Hk, Hm.
  set (u := [(false, no + b); (false, no + a)]%nat). set (w := [(true, k); (true, m); (false, no + d); (false, no + c)]%nat).
  change (act [(true, i); (true, j)] (act u (act w psi)) (ref no nv) = act [(true, i); (true, j)] (act w (act u psi)) (ref no nv)).
  apply act_ext. intros n. apply (dex_comm no); [| |reflexivity].
  - unfold u. repeat constructor; unfold dex; cbn [fst snd]; apply Nat.ltb_ge; lia.
  - unfold w. repeat constructor; unfold dex; cbn [fst snd]; [apply Nat.ltb_lt; lia|apply Nat.ltb_lt; lia|apply Nat.ltb_ge; lia|apply Nat.ltb_ge; lia].
Qed.

(** contraction of an antisymmetric array with an antisymmetrised one *)
Lemma anti_dot m no nv L W D : shape W = (repeat no m ++ repeat nv m)%list -> antisymmetrised m W D ->
  (forall l1 l2 p q, In l1 (tup (seq 0 no) m) -> In l2 (tup (seq 0 nv) m) -> In p (signed_perms l1) -> In q (signed_perms l2) ->
     data L (snd p ++ snd q)%list = sgn (fst p) * sgn (fst q) * data L (l1 ++ l2)%list) ->
  dot m no nv L D = Q2Qc (inject_Z (Z.of_nat (fact m))) * (Q2Qc (inject_Z (Z.of_nat (fact m))) * dot m no nv L W).
Proof.
  intros SW AD HL. unfold dot.
  transitivity (suml (tup (seq 0 no) m) (fun l1 => suml (signed_perms l1) (fun p => suml (tup (seq 0 nv) m) (fun l2 => suml (signed_perms l2) (fun q => data L (snd p ++ snd q)%list * data W (snd p ++ snd q)%list))))).
  - apply suml_ext. intros l1 H1. rewrite suml_swap. apply suml_ext. intros l2 H2. rewrite (ad_ssum m no nv W D SW AD) by assumption.
    unfold ssum. rewrite <- suml_scale. apply suml_ext. intros p HP. rewrite <- !suml_scale. apply suml_ext. intros q HQ.
    rewrite (HL l1 l2 p q H1 H2 HP HQ). destruct (fst p), (fst q); cbn [sgn]; ring.
  - rewrite (perms_tup (seq 0 no) m (fun p => suml (tup (seq 0 nv) m) (fun l2 => suml (signed_perms l2) (fun q => data L (p ++ snd q)%list * data W (p ++ snd q)%list)))).
    f_equal. rewrite <- (suml_scale _ (tup (seq 0 no) m)). apply suml_ext. intros l1 _.
    exact (perms_tup (seq 0 nv) m (fun q => data L (l1 ++ q)%list * data W (l1 ++ q)%list)).
Qed.
Lemma anti2 no nv L : is_amp_ov 2 no nv L -> forall l1 l2 p q, In l1 (tup (seq 0 no) 2) -> In l2 (tup (seq 0 nv) 2) -> In p (signed_perms l1) -> In q (signed_perms l2) ->
  data L (snd p ++ snd q)%list = sgn (fst p) * sgn (fst q) * data L (l1 ++ l2)%list.
Proof.
  intros [HS HA] l1 l2 p q H1 H2 HP HQ. pose proof (tup_sh 2 no nv l1 l2 H1 H2) as HI.
  assert (R : forall r1 r2, In r1 (tup (seq 0 no) 2) -> In r2 (tup (seq 0 nv) 2) -> inr (r1 ++ r2) (shape L)) by (intros; rewrite HS; apply tup_sh; assumption).
  assert (P1 : In (snd p) (tup (seq 0 no) 2)) by (destruct p; eapply perm_tup; eassumption).
  assert (Q1 : In (snd q) (tup (seq 0 nv) 2)) by (destruct q; eapply perm_tup; eassumption).
  pose proof (tup_len _ _ _ H1) as L1. pose proof (tup_len _ _ _ H2) as L2.
  destruct l1 as [|i [|j [|? ?]]]; try discriminate L1. destruct l2 as [|a [|b [|? ?]]]; try discriminate L2.
  destruct (HA 0%nat ltac:(lia)) as [A0 A2].
  assert (S1 : forall x y r, In [x; y] (tup (seq 0 no) 2) -> In [y; x] (tup (seq 0 no) 2) -> In r (tup (seq 0 nv) 2) -> data L ([y; x] ++ r)%list = - data L ([x; y] ++ r)%list).
  { intros x y r I1 I2 I3. exact (A0 [] y x r eq_refl (R _ _ I2 I3) (R _ _ I1 I3)). }
  assert (S2 : forall x y z w, In [x; y] (tup (seq 0 no) 2) -> In [z; w] (tup (seq 0 nv) 2) -> In [w; z] (tup (seq 0 nv) 2) -> data L [x; y; w; z] = - data L [x; y; z; w]).
  { intros x y z w I1 I2 I3. exact (A2 [x; y] w z [] eq_refl (R [x; y] [w; z] I1 I3) (R [x; y] [z; w] I1 I2)). }
  cbn in HP, HQ. destruct HP as [<-|[<-|[]]]; destruct HQ as [<-|[<-|[]]]; cbn [fst snd sgn] in *.
  - ring.
  - cbn [app]. rewrite S2 by assumption. ring.
  - rewrite (S1 i j) by assumption. ring.
  - rewrite (S1 i j) by assumption. cbn [app]. rewrite S2 by assumption. ring.
Qed.

(** *** The [T] energy *)
(** The fluctuation potential: the Hamiltonian without its Fock operator. *)
Definition Fluct (no nv : nat) (g : tensor) : op := Ham no nv (mkT [no + nv; no + nv]%nat (fun _ => 0)) g.
Definition hamsW : list oterm := Eval vm_compute in skipn 4 hams.
Definition hWT3 : list oterm := adh ts3 0 hamsW.
Lemma hWT3_ok : adh_ok ts3 0 hamsW = true. Proof. vm_cast_no_check (@eq_refl bool true). Qed.
Lemma vsim_tsim no nv tab sps p X : so_vsim no nv tab (SP sps p) (VT X) -> tsim (so_range no nv) (Aof (so_range no nv) tab) sps p X.
Proof. intros V. inversion V as [? ? ? TC| | | | |]; subst. exact TC. Qed.
Section Bracket.
  Variables no nv : nat.
  Variables g t3 l2 : tensor.
  Hypothesis Hg : is_tei (no + nv) g.
  Hypothesis H3 : is_amp 3 no nv t3.
  Hypothesis Hl : is_amp_ov 2 no nv l2.
  Notation zf := (mkT [no + nv; no + nv]%nat (fun _ => 0)).
  Notation range := (so_range no nv).
  Notation tab := [(0%N, ([6;6]%N, zf)); (1%N, ([6;6;6;6]%N, g)); (4%N, ([1;1;1;0;0;0]%N, t3)); (6%N, ([0;0;1;1]%N, l2))].
  Notation A := (Aof range tab).
  Lemma zf_ok : is_fock (no + nv) zf.
  Proof using. split; [reflexivity|]. intros l1 l2' _ _ _. reflexivity. Qed.
  Lemma et_OK : Forall (atom_ok range sy) tab.
  Proof. pose proof zf_ok as Hf. oks. Qed.
  Lemma fluct_op : is_op no nv A (Fluct no nv g) hamsW.
  Proof using.
    intros e psi n _. unfold Fluct. rewrite (ham_sem no nv (A' A) zf g (read_f no nv tab zf eq_refl) (read_g no nv tab g eq_refl) e).
    change hams with (flat_map (fun s1 => map (one_ s1) OV) OV ++ hamsW)%list. unfold Wick.osem. rewrite suml_app.
    rewrite (suml_zero _ (flat_map (fun s1 => map (one_ s1) OV) OV)); [ring|]. intros t Ht. apply in_flat_map in Ht. destruct Ht as [s1 [I1 Ht]]. apply in_map_iff in Ht. destruct Ht as [s2 [<- I2]].
    rewrite (one_sem no nv (A' A) zf (read_f no nv tab zf eq_refl) e s1 s2 psi n I1 I2). apply suml_zero. intros p _. apply suml_zero. intros q _. cbn [data]. ring.
  Qed.
  Lemma wt3_op : is_op no nv A (comm (Fluct no nv g) (T3op no nv t3)) hWT3.
  Proof using.
    apply (comm_is_op no nv A ts3 ts3_c (T3op no nv t3) (t3_sem no nv tab t3 eq_refl) 0); [lia|exact hWT3_ok|exact fluct_op].
  Qed.
  Lemma dot2 (L X : tensor) : dot 2 no nv L X = Sum i < no, Sum j < no, Sum a < nv, Sum b < nv, data L [i; j; a; b] * data X [i; j; a; b].
  Proof using.
    unfold dot. etransitivity; [apply (tup_cons (seq 0 no) 1)|]. apply suml_ext. intros i _. etransitivity; [apply (tup_cons (seq 0 no) 0)|]. apply suml_ext. intros j _. cbn [tup suml]. rewrite Qcplus_0_r.
    etransitivity; [apply (tup_cons (seq 0 nv) 1)|]. apply suml_ext. intros a _. etransitivity; [apply (tup_cons (seq 0 nv) 0)|]. apply suml_ext. intros b _. cbn [tup suml app]. ring.
  Qed.
  Lemma E_T_elem : E_T no nv g l2 t3 = bra0 no nv (L2op no nv l2 (comm (Fluct no nv g) (T3op no nv t3) (Phi no nv))).
  Proof using All.
    set (psi := comm (Fluct no nv g) (T3op no nv t3) (Phi no nv)).
    assert (CL : forallb (closed_term (xi 2 ++ xa 2)) (ctsum 2 hWT3) = true) by vm_cast_no_check (@eq_refl bool true).
    assert (AS : antisymmetrised 2 (carr no nv 2 tab (ctsum 2 hWT3)) (elem2_ov no nv psi)).
    { apply (elem_antis no nv 2 tab eq_refl eq_refl hWT3 psi); [reflexivity|apply ent2| |vm_cast_no_check (@eq_refl bool true)|exact CL]. intros e. apply (is_op_elem no nv A), wt3_op. }
    assert (V2 : so_vsim no nv tab (SP [] (dotp 2 6 (ctsum 2 hWT3))) (VT (arr0 (dot 2 no nv l2 (carr no nv 2 tab (ctsum 2 hWT3)))))).
    { pose proof (vsim_tsim no nv tab _ _ _ (carr_vsim no nv 2 eq_refl tab (ctsum 2 hWT3) CL)) as TC. constructor. split; [reflexivity|]. intros idx e _ _. cbn [arr0 data].
      apply (dot_poly no nv 2 eq_refl tab 6%N l2); [reflexivity|exact TC|vm_cast_no_check (@eq_refl bool true)]. }
    assert (VE : so_vsim no nv tab (SP [] p_ET) (VT (arr0 (E_T no nv g l2 t3)))) by (unfold p_ET, E_T; so_form).
    destruct (so_vs_eq no nv tab et_OK [] _ _ _ _ VE V2) as [_ E]; [chk_|].
    specialize (E [] (Forall2_nil _)). cbn [arr0 data] in E. rewrite E.
    transitivity (Q2Qc (1 # 4) * dot 2 no nv l2 (elem2_ov no nv psi)).
    - rewrite (anti_dot 2 no nv l2 (carr no nv 2 tab (ctsum 2 hWT3)) _ (sh_ov no nv 2) AS (anti2 no nv l2 Hl)). change (fact 2) with 2%nat. 
      rewrite !Qcmult_assoc. replace (Q2Qc (1 # 4) * Q2Qc (inject_Z (Z.of_nat 2)) * Q2Qc (inject_Z (Z.of_nat 2))) with 1 by (apply Qc_is_canon; reflexivity). ring.
    - rewrite dot2. reflexivity.
  Qed.
End Bracket.

(** ** The theorems *)
Lemma z3_ok no nv : is_amp 3 no nv (mkT [nv; nv; nv; no; no; no] (fun _ => 0)).
Proof. split; [reflexivity|]. intros i _. split; intros pre x y post _ _ _; cbn [data]; ring. Qed.
Lemma bra0_L2 no nv l psi : bra0 no nv (L2op no nv l psi) =
  Q2Qc (1 # 4) * (Sum i < no, Sum j < no, Sum a < nv, Sum b < nv, data l [i; j; a; b] * bra2 no nv a b i j psi).
Proof. exact (bra_L2 no nv l [] psi). Qed.

(** C63, approximate triples.  What [build_T3] of pdagq_T3corr.py (virtual indices first) and
    [antisym_T3(build_approxT3)] of cc_energy.py and tamps.py (occupied indices first) return is the projection
    of [H, T2] |Phi> onto the triply excited determinants, whatever the Fock matrix. *)
Theorem C63_triples : forall no nv f g t2 T2,
  is_fock (no + nv) f -> is_tei (no + nv) g -> is_amp 2 no nv t2 -> swapped 2 t2 T2 ->
  let psi := comm (Ham no nv f g) (T2op no nv t2) (Phi no nv) in
  exists R U R',
    returns 0 [] Code_pdagq_T3corr.build_T3 [VT g; o_ no; v_ no; VT t2] R /\
    returns 0 [] Code_cc_energy.build_approxT3 [VT g; VT T2; o_ no; v_ no] U /\
    returns 0 [] Code_tamps.antisym_T3 [VT U; VInt no; VInt nv] R' /\
    shape R = [nv; nv; nv; no; no; no] /\ shape R' = [no; no; no; nv; nv; nv] /\
    forall a b c i j k, (a < nv)%nat -> (b < nv)%nat -> (c < nv)%nat -> (i < no)%nat -> (j < no)%nat -> (k < no)%nat ->
      data R [a; b; c; i; j; k] = bra3 no nv a b c i j k psi /\
      data R' [i; j; k; a; b; c] = bra3 no nv a b c i j k psi.
Proof.
  intros no nv f g t2 T2 Hf Hg H2 SW psi.
  destruct (C17_approximate_triples no nv g t2 T2 Hg H2 SW) as [T3 [R [U [U' [R' [A1 [A2 [A3 [A4 [A5 [A6 [A7 [A8 A9]]]]]]]]]]]]].
  assert (S3 : shape T3 = [nv; nv; nv; no; no; no]) by exact (proj1 A1).
  assert (SR : shape R = [nv; nv; nv; no; no; no]) by (rewrite (proj1 A4); exact S3).
  exists R, U, R'. split; [exact A3|]. split; [exact A5|]. split; [exact A8|]. split; [exact SR|].
  split; [rewrite (proj1 A9), SR; reflexivity|].
  intros a b c i j k Ha Hb Hc Hi Hj Hk.
  assert (HI : inr [a; b; c; i; j; k] (shape R)) by (rewrite SR; repeat (apply Forall2_cons; [assumption|]); apply Forall2_nil).
  assert (E : data R [a; b; c; i; j; k] = bra3 no nv a b c i j k psi).
  { rewrite (proj2 A4 _ HI). apply (num_T3 no nv f g t2 _ Hf Hg H2 (z3_ok no nv) T3 A1); assumption. }
  split; [exact E|]. rewrite <- E. exact (proj2 A9 [a; b; c] [i; j; k] eq_refl HI).
Qed.
Print Assumptions C63_triples.
Example C63_triples_instance := C63_triples 2 2 _ (i_tei 4) (i_amp 2 2 2) _ (i_fock_ok 4) (i_tei_ok 4) (i_amp_ok 2 2 2) (swap_t_ok 2 _).

(** C63, approximate triples, spin blocks (build_approxT3full.py). *)
Theorem C63_spin_triples :
  forall no nv S F G f_aa f_bb g_aaaa g_bbbb g_abab T2 t_aaaa t_bbbb t_abab,
  spin_ok no nv S -> spin_hamiltonian S no nv F G f_aa f_bb g_aaaa g_bbbb g_abab ->
  spin_amp S 2 no nv T2 -> blocks2 S no nv T2 t_aaaa t_bbbb t_abab ->
  let args := [VT t_aaaa; VT t_bbbb; VT t_abab; VT g_aaaa; VT g_bbbb; VT g_abab; o_ no; o_ no; v_ no; v_ no] in
  let psi := comm (Ham (2 * no) (2 * nv) F G) (T2op (2 * no) (2 * nv) T2) (Phi (2 * no) (2 * nv)) in
  exists r_aaa r_aab r_abb r_bbb,
    returns 0 [] Code_build_approxT3full.ccsdtq_t3_aaaaaa_residual args r_aaa /\
    returns 0 [] Code_build_approxT3full.ccsdtq_t3_aabaab_residual args r_aab /\
    returns 0 [] Code_build_approxT3full.ccsdtq_t3_abbabb_residual args r_abb /\
    returns 0 [] Code_build_approxT3full.ccsdtq_t3_bbbbbb_residual args r_bbb /\
    blocks3 S no nv (elem3 (2 * no) (2 * nv) psi) r_aaa r_aab r_abb r_bbb.
Proof.
  intros no nv S F G f_aa f_bb g_aaaa g_bbbb g_abab T2 t_aaaa t_bbbb t_abab HS HH HT HB args psi.
  destruct (C17_spin_triples no nv S F G f_aa f_bb g_aaaa g_bbbb g_abab T2 t_aaaa t_bbbb t_abab HS HH HT HB)
    as [T3 [r1 [r2 [r3 [r4 [A1 [A2 [B1 [B2 [B3 [B4 B5]]]]]]]]]]].
  exists r1, r2, r3, r4. split; [exact B1|]. split; [exact B2|]. split; [exact B3|]. split; [exact B4|].
  assert (S3 : shape T3 = [2 * nv; 2 * nv; 2 * nv; 2 * no; 2 * no; 2 * no]%nat) by exact (proj1 A1).
  refine (blk3 no nv S HS T3 _ _ _ _ _ _ S3 B5). split; [exact S3|]. intros idx HI. rewrite S3 in HI. idx_ HI.
  apply (num_T3 (2 * no) (2 * nv) F G T2 _ (proj1 HH) (proj1 (proj2 (proj2 HH))) (proj1 HT) (z3_ok _ _) T3 A1); assumption.
Qed.
Print Assumptions C63_spin_triples.
Example C63_spin_triples_instance := C63_spin_triples 2 2 S22 _ _ _ _ _ _ _ _ _ _ _
  S22_ok (s_ham_ok S22 2 2) (s_amp_ok S22 2 2 2) (blocks2_ok S22 2 2 _).

(** C63, approximate quadruples, spin blocks (fullCCenergy.py): 1/2 [[H,T2],T2] + [H,T3], and
    1/6 [[[H,T2],T2],T2], projected onto the quadruply excited determinants. *)
Theorem C63_spin_quadruples :
  forall no nv S F G f_aa f_bb g_aaaa g_bbbb g_abab T2 t_aaaa t_bbbb t_abab T3 t_aaa t_aab t_abb t_bbb,
  spin_ok no nv S -> spin_hamiltonian S no nv F G f_aa f_bb g_aaaa g_bbbb g_abab ->
  spin_amp S 2 no nv T2 -> blocks2 S no nv T2 t_aaaa t_bbbb t_abab ->
  spin_amp S 3 no nv T3 -> blocks3 S no nv T3 t_aaa t_aab t_abb t_bbb ->
  let args := [VNone; VNone; VT t_aaaa; VT t_bbbb; VT t_abab; VT t_aaa; VT t_aab; VT t_abb; VT t_bbb;
     VNone; VNone; VNone; VNone; VNone; VT f_aa; VT f_bb; VT g_aaaa; VT g_bbbb; VT g_abab; o_ no; o_ no; v_ no; v_ no] in
  let H := Ham (2 * no) (2 * nv) F G in
  let T2' := T2op (2 * no) (2 * nv) T2 in
  let T3' := T3op (2 * no) (2 * nv) T3 in
  let vac := Phi (2 * no) (2 * nv) in
  exists r_aaaa r_aaab r_aabb r_abbb r_bbbb q_aaaa q_aaab q_aabb q_abbb q_bbbb,
    returns 0 [] Code_fullCCenergy.ccsdtq_t4_aaaaaaaa_residual args r_aaaa /\
    returns 0 [] Code_fullCCenergy.ccsdtq_t4_aaabaaab_residual args r_aaab /\
    returns 0 [] Code_fullCCenergy.ccsdtq_t4_aabbaabb_residual args r_aabb /\
    returns 0 [] Code_fullCCenergy.ccsdtq_t4_abbbabbb_residual args r_abbb /\
    returns 0 [] Code_fullCCenergy.ccsdtq_t4_bbbbbbbb_residual args r_bbbb /\
    blocks4 S no nv (elem4 (2 * no) (2 * nv) (oplus (oscale (1 # 2) (comm (comm H T2') T2')) (comm H T3') vac))
      r_aaaa r_aaab r_aabb r_abbb r_bbbb /\
    returns 0 [] Code_fullCCenergy.ccsdtqT2cubed_t4_aaaaaaaa_residual args q_aaaa /\
    returns 0 [] Code_fullCCenergy.ccsdtqT2cubed_t4_aaabaaab_residual args q_aaab /\
    returns 0 [] Code_fullCCenergy.ccsdtqT2cubed_t4_aabbaabb_residual args q_aabb /\
    returns 0 [] Code_fullCCenergy.ccsdtqT2cubed_t4_abbbabbb_residual args q_abbb /\
    returns 0 [] Code_fullCCenergy.ccsdtqT2cubed_t4_bbbbbbbb_residual args q_bbbb /\
    blocks4 S no nv (elem4 (2 * no) (2 * nv) (oscale (1 # 6) (comm (comm (comm H T2') T2') T2') vac))
      q_aaaa q_aaab q_aabb q_abbb q_bbbb.
Proof.
  intros no nv S F G f_aa f_bb g_aaaa g_bbbb g_abab T2 t_aaaa t_bbbb t_abab T3 t_aaa t_aab t_abb t_bbb HS HH HT HB HT3 HB3 args H T2' T3' vac.
  destruct (C15_spin_quadruples_blocks no nv S F G f_aa f_bb g_aaaa g_bbbb g_abab T2 t_aaaa t_bbbb t_abab T3 t_aaa t_aab t_abb t_bbb HS HH HT HB HT3 HB3)
    as [T4 [r1 [r2 [r3 [r4 [r5 [T4' [q1 [q2 [q3 [q4 [q5 [A1 [A2 [B1 [B2 [B3 [B4 [B5 [B6 [A3 [A4 [D1 [D2 [D3 [D4 [D5 D6]]]]]]]]]]]]]]]]]]]]]]]]]]].
  exists r1, r2, r3, r4, r5, q1, q2, q3, q4, q5.
  pose proof (proj1 HH) as Hf. pose proof (proj1 (proj2 (proj2 HH))) as Hg. pose proof (proj1 HT) as H2. pose proof (proj1 HT3) as H3.
  do 5 (split; [assumption|]). split.
  { assert (S4 : shape T4 = [2 * nv; 2 * nv; 2 * nv; 2 * nv; 2 * no; 2 * no; 2 * no; 2 * no]%nat) by exact (proj1 A1).
    refine (blk4 no nv S HS T4 _ _ _ _ _ _ _ S4 B6). split; [exact S4|]. intros idx HI. rewrite S4 in HI. idx_ HI.
    apply (num_QT (2 * no) (2 * nv) F G T2 T3 Hf Hg H2 H3 T4 A1); assumption. }
  do 5 (split; [assumption|]).
  assert (S4 : shape T4' = [2 * nv; 2 * nv; 2 * nv; 2 * nv; 2 * no; 2 * no; 2 * no; 2 * no]%nat) by exact (proj1 A3).
  refine (blk4 no nv S HS T4' _ _ _ _ _ _ _ S4 D6). split; [exact S4|]. intros idx HI. rewrite S4 in HI. idx_ HI.
  apply (num_C (2 * no) (2 * nv) F G T2 _ Hf Hg H2 (z3_ok _ _) T4' A3); assumption.
Qed.
Print Assumptions C63_spin_quadruples.
Example C63_spin_quadruples_instance := C63_spin_quadruples 2 2 S22 _ _ _ _ _ _ _ _ _ _ _ _ _ _ _ _
  S22_ok (s_ham_ok S22 2 2) (s_amp_ok S22 2 2 2) (blocks2_ok S22 2 2 _) (s_amp_ok S22 2 2 3) (blocks3_ok S22 2 2 _).

(** C63, factorised quadruples.  The CCDQf-1 and CCDQf-2 terms are the projections onto the doubly excited
    determinants of L2 acting on 1/2 [[H,T2],T2] |Phi> and 1/6 [[[H,T2],T2],T2] |Phi>, and the (Qf) energy is
    <Phi| L2 L2 1/2 [[H,T2],T2] |Phi>. *)
Theorem C63_ccdqf : forall no nv f g t2 l2,
  is_fock (no + nv) f -> is_tei (no + nv) g -> is_amp 2 no nv t2 -> is_amp_ov 2 no nv l2 ->
  let H := Ham no nv f g in
  let T2 := T2op no nv t2 in
  let L2 := L2op no nv l2 in
  let args := [VT g; VT l2; VT t2; o_ no; v_ no] in
  exists R1 R2 E,
    returns 0 [] Code_modify_T2resid_T4Qf1Slow.residQf1_aaaa args R1 /\
    returns 0 [] Code_modify_T2resid_T4Qf2Slow.residQf2_aaaa args R2 /\
    returns 0 [] Code_modify_T2energy_pertQfSlow.energy_pertQf args E /\
    teq R1 (elem2 no nv (L2 (oscale (1 # 2) (comm (comm H T2) T2) (Phi no nv)))) /\
    teq R2 (elem2 no nv (L2 (oscale (1 # 6) (comm (comm (comm H T2) T2) T2) (Phi no nv)))) /\
    shape E = [] /\ data E [] = bra0 no nv (L2 (L2 (oscale (1 # 2) (comm (comm H T2) T2) (Phi no nv)))).
Proof.
  intros no nv f g t2 l2 Hf Hg Ht Hl H T2 L2 args.
  destruct (C09_ccdqf1_is_the_T4_route no nv g t2 l2 Hg Ht Hl) as [U1 [T4 [R1 [_ [_ [A1 [B1 C1]]]]]]].
  destruct (C10_ccdqf2_is_the_T4_route no nv g t2 l2 Hg Ht Hl) as [U2 [T4' [R2 [_ [_ [A2 [B2 C2]]]]]]].
  destruct (C12_qf_energy_is_L2_residual no nv g t2 l2 Hg Ht Hl) as [R [E [B3 [B4 [B5 B6]]]]].
  assert (R = R1) as -> by (unfold returns in *; congruence).
  assert (E1 : teq R1 (elem2 no nv (L2 (oscale (1 # 2) (comm (comm H T2) T2) (Phi no nv))))).
  { split; [rewrite (proj1 C1); reflexivity|]. intros idx HI. rewrite (proj2 C1) by exact HI. rewrite (proj1 C1) in HI. unfold L2_T4, arr4 in HI. cbn [shape] in HI. idx_ HI.
    unfold L2_T4, arr4. cbn [data elem2]. unfold elem2. cbn [data]. unfold L2. rewrite bra2_L2 by assumption. f_equal.
    apply suml_ext. intros k Hk. apply suml_ext. intros m Hm. apply suml_ext. intros c Hc. apply suml_ext. intros d Hd. f_equal.
    apply in_seq in Hk, Hm, Hc, Hd. apply (num_Q no nv f g t2 _ Hf Hg Ht (z3_ok no nv) T4 A1); (assumption || lia). }
  exists R1, R2, E. split; [exact B1|]. split; [exact B2|]. split; [exact B4|]. split; [exact E1|]. split; [|split; [exact B5|]].
  - split; [rewrite (proj1 C2); reflexivity|]. intros idx HI. rewrite (proj2 C2) by exact HI. rewrite (proj1 C2) in HI. unfold L2_T4, arr4 in HI. cbn [shape] in HI. idx_ HI.
    unfold L2_T4, arr4. cbn [data elem2]. unfold elem2. cbn [data]. unfold L2. rewrite bra2_L2 by assumption. f_equal.
    apply suml_ext. intros k Hk. apply suml_ext. intros m Hm. apply suml_ext. intros c Hc. apply suml_ext. intros d Hd. f_equal.
    apply in_seq in Hk, Hm, Hc, Hd. apply (num_C no nv f g t2 _ Hf Hg Ht (z3_ok no nv) T4' A2); (assumption || lia).
  - rewrite B6. unfold L2 at 1. rewrite bra0_L2. unfold L2_T2. f_equal.
    apply suml_ext. intros i Hi. apply suml_ext. intros j Hj. apply suml_ext. intros a Ha. apply suml_ext. intros b Hb. f_equal.
    apply in_seq in Hi, Hj, Ha, Hb. rewrite (proj2 E1); [reflexivity|]. rewrite (proj1 E1). unfold elem2. cbn [shape]. repeat (apply Forall2_cons; [lia|]); apply Forall2_nil.
Qed.
Print Assumptions C63_ccdqf.
Example C63_ccdqf_instance := C63_ccdqf 4 4 _ _ _ _ (i_fock_ok 8) (i_tei_ok 8) (i_amp_ok 2 4 4) (i_amp_ov_ok 2 4 4).

(** C63, the [T] energy: <Phi| L2 [W, T3] |Phi>, with W the two-electron (fluctuation) part of the Hamiltonian. *)
Theorem C63_bracket_T :
  forall no nv S F G f_aa f_bb g_aaaa g_bbbb g_abab L2 l_aaaa l_bbbb l_abab T3 t_aaa t_aab t_abb t_bbb L1,
  spin_ok no nv S -> spin_hamiltonian S no nv F G f_aa f_bb g_aaaa g_bbbb g_abab ->
  spin_amp_ov S 2 no nv L2 -> blocks2_ov S no nv L2 l_aaaa l_bbbb l_abab ->
  spin_amp S 3 no nv T3 -> blocks3 S no nv T3 t_aaa t_aab t_abb t_bbb ->
  spin_amp_ov S 1 no nv L1 ->
  let E_T := bra0 (2 * no) (2 * nv) (L2op (2 * no) (2 * nv) L2
    (comm (Fluct (2 * no) (2 * nv) G) (T3op (2 * no) (2 * nv) T3) (Phi (2 * no) (2 * nv)))) in
  exists E E',
    returns 0 [] Code_square_brakT_corr.square_brakT
      [VT g_aaaa; VT g_abab; VT g_bbbb; o_ no; v_ no; VT l_aaaa; VT l_abab; VT l_bbbb;
       VT t_aaa; VT t_aab; VT t_abb; VT t_bbb] E /\
    returns 0 [] Code_pdagq_T3corr.pdagq_T3energy [VT G; o_ (2 * no); v_ (2 * no); VT L1; VT L2; VT T3] E' /\
    shape E = [] /\ data E [] = E_T /\ shape E' = [] /\ data E' [] = E_T.
Proof.
  intros no nv S F G f_aa f_bb g_aaaa g_bbbb g_abab L2 l_aaaa l_bbbb l_abab T3 t_aaa t_aab t_abb t_bbb L1 HS HH HL HLb HT HTb HL1 X.
  destruct (C17_square_bracket_T no nv S F G f_aa f_bb g_aaaa g_bbbb g_abab L2 l_aaaa l_bbbb l_abab T3 t_aaa t_aab t_abb t_bbb L1 HS HH HL HLb HT HTb HL1)
    as [E [E' [A1 [A2 [A3 [A4 [A5 A6]]]]]]].
  pose proof (E_T_elem (2 * no) (2 * nv) G T3 L2 (proj1 (proj2 (proj2 HH))) (proj1 HT) (proj1 HL)) as K.
  exists E, E'. split; [exact A1|]. split; [exact A2|]. split; [exact A3|]. split; [rewrite A4; exact K|]. split; [exact A5|]. rewrite A6. exact K.
Qed.
Print Assumptions C63_bracket_T.
Example C63_bracket_T_instance := C63_bracket_T 2 2 S22 _ _ _ _ _ _ _ _ _ _ _ _ _ _ _ _ _
  S22_ok (s_ham_ok S22 2 2) (s_amp_ov_ok S22 2 2 2) (blocks2_ov_ok S22 2 2 _) (s_amp_ok S22 2 2 3) (blocks3_ok S22 2 2 _)
  (s_amp_ov_ok S22 2 2 1).

(** C63, factorised quadruples, spin blocks. *)
Theorem C63_spin_ccdqf :
  forall no nv S F G f_aa f_bb g_aaaa g_bbbb g_abab T2 t_aaaa t_bbbb t_abab L2 l_aaaa l_bbbb l_abab,
  spin_ok no nv S -> spin_hamiltonian S no nv F G f_aa f_bb g_aaaa g_bbbb g_abab ->
  spin_amp S 2 no nv T2 -> blocks2 S no nv T2 t_aaaa t_bbbb t_abab ->
  spin_amp_ov S 2 no nv L2 -> blocks2_ov S no nv L2 l_aaaa l_bbbb l_abab ->
  let args := [spin_dict g_aaaa g_bbbb g_abab; spin_dict l_aaaa l_bbbb l_abab; spin_dict t_aaaa t_bbbb t_abab;
             o_ no; v_ no] in
  let H := Ham (2 * no) (2 * nv) F G in
  let T2' := T2op (2 * no) (2 * nv) T2 in
  let L2' := L2op (2 * no) (2 * nv) L2 in
  let vac := Phi (2 * no) (2 * nv) in
  exists Q1_aaaa Q1_bbbb Q1_abab Q2_aaaa Q2_bbbb Q2_abab E,
    returns 0 [] Code_modify_T2resid_T4Qf1.residQf1_aaaa args Q1_aaaa /\
    returns 0 [] Code_modify_T2resid_T4Qf1.residQf1_bbbb args Q1_bbbb /\
    returns 0 [] Code_modify_T2resid_T4Qf1.residQf1_abab args Q1_abab /\
    blocks2 S no nv (elem2 (2 * no) (2 * nv) (L2' (oscale (1 # 2) (comm (comm H T2') T2') vac))) Q1_aaaa Q1_bbbb Q1_abab /\
    returns 0 [] Code_modify_T2resid_T4Qf2.residQf2_aaaa args Q2_aaaa /\
    returns 0 [] Code_modify_T2resid_T4Qf2.residQf2_bbbb args Q2_bbbb /\
    returns 0 [] Code_modify_T2resid_T4Qf2.residQf2_abab args Q2_abab /\
    blocks2 S no nv (elem2 (2 * no) (2 * nv) (L2' (oscale (1 # 6) (comm (comm (comm H T2') T2') T2') vac))) Q2_aaaa Q2_bbbb Q2_abab /\
    returns 0 [] Code_modify_T2energy_pertQf.energy_pertQf args E /\ shape E = [] /\
    data E [] = bra0 (2 * no) (2 * nv) (L2' (L2' (oscale (1 # 2) (comm (comm H T2') T2') vac))).
Proof.
  intros no nv S F G f_aa f_bb g_aaaa g_bbbb g_abab T2 t_aaaa t_bbbb t_abab L2 l_aaaa l_bbbb l_abab HS HH HT HTb HL HLb args H T2' L2' vac.
  destruct (C11_spin_ccdqf_residuals no nv S F G f_aa f_bb g_aaaa g_bbbb g_abab T2 t_aaaa t_bbbb t_abab L2 l_aaaa l_bbbb l_abab HS HH HT HTb HL HLb)
    as [Q1 [a1 [a2 [a3 [Q2 [b1 [b2 [b3 [X0 [X1 [X2 [X3 [X4 [Y0 [Y1 [Y2 [Y3 Y4]]]]]]]]]]]]]]]]].
  destruct (C12_spin_qf_energy no nv S F G f_aa f_bb g_aaaa g_bbbb g_abab T2 t_aaaa t_bbbb t_abab L2 l_aaaa l_bbbb l_abab HS HH HT HTb HL HLb)
    as [R [E [E' [Z1 [Z2 [Z3 [Z4 [Z5 [Z6 _]]]]]]]]].
  destruct (C63_ccdqf (2 * no) (2 * nv) F G T2 L2 (proj1 HH) (proj1 (proj2 (proj2 HH))) (proj1 HT) (proj1 HL))
    as [R1 [R2 [E0 [V1 [V2 [V3 [V4 [V5 [V6 V7]]]]]]]]].
  assert (Q1 = R1) as -> by (unfold returns in *; congruence).
  assert (Q2 = R2) as -> by (unfold returns in *; congruence).
  assert (E = E0) as -> by (unfold returns in *; congruence).
  exists a1, a2, a3, b1, b2, b3, E'. do 3 (split; [assumption|]).
  split; [exact (blk2 no nv S HS R1 _ _ _ _ V4 (proj1 V4) X4)|]. do 3 (split; [assumption|]).
  split; [exact (blk2 no nv S HS R2 _ _ _ _ V5 (proj1 V5) Y4)|]. split; [exact Z3|]. split; [exact Z5|]. rewrite Z6. exact V7.
Qed.
Print Assumptions C63_spin_ccdqf.
Example C63_spin_ccdqf_instance := C63_spin_ccdqf 2 2 S22 _ _ _ _ _ _ _ _ _ _ _ _ _ _ _
  S22_ok (s_ham_ok S22 2 2) (s_amp_ok S22 2 2 2) (blocks2_ok S22 2 2 _) (s_amp_ov_ok S22 2 2 2) (blocks2_ov_ok S22 2 2 _).
