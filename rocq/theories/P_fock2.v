(** C61: the coded CCSDT and CCDQ equations are matrix elements of exp(-T) H exp(T) |Phi>. *)
From Coq Require Import String Ascii List Arith NArith ZArith QArith Qcanon Bool Lia Permutation.
From Verif Require Import Sums Tensor Interp Poly SymExec Canon Spec Instances Setup Master Spin Check Tabs NF Antisym Formula Bound BoundedInst Unround Fock Wick CCState P_fock Dress NOrd Proj Elem P_antisym P_wanti.
From Verif Require Code_ccsdt_eqns Code_ccdq_eqns Code_cc_energy Code_t2energySlow Code_tamps.
Import ListNotations.
Open Scope Qc_scope.

(** Arrays of matrix elements, occupied indices first. *)
Definition elem3_ov (no nv : nat) (psi : ket) : tensor :=
  mkT [no; no; no; nv; nv; nv] (fun l => match l with [i; j; k; a; b; c] => bra3 no nv a b c i j k psi | _ => 0 end).
Definition elem4_ov (no nv : nat) (psi : ket) : tensor :=
  mkT [no; no; no; no; nv; nv; nv; nv] (fun l => match l with [i; j; k; l'; a; b; c; d] => bra4 no nv a b c d i j k l' psi | _ => 0 end).

Section Reads.
  Variables no nv : nat.
  Variable atoms : atomtab.
  Notation range := (so_range no nv).
  Notation A := (Aof range atoms).
  Lemma read_t3 n t : nlook n atoms = Some ([1; 1; 1; 0; 0; 0]%N, t) -> forall a b c i j k, (a < nv)%nat -> (b < nv)%nat -> (c < nv)%nat -> (i < no)%nat -> (j < no)%nat -> (k < no)%nat ->
    A n [no + a; no + b; no + c; i; j; k]%nat = data t [a; b; c; i; j; k].
  Proof.
    intros H a b c i j k Ha Hb Hc Hi Hj Hk. rewrite <- (Aof_orbs range atoms (so_nodup no nv) _ _ _ _ H).
    - unfold orbs, zipw. cbn [combine map fst snd]. rewrite !nthO, !nthV by assumption. reflexivity.
    - cbn [map]. rewrite !dO, !dV. repeat constructor; assumption.
  Qed.
  Lemma read_t4 n t : nlook n atoms = Some ([1; 1; 1; 1; 0; 0; 0; 0]%N, t) -> forall a b c d i j k l, (a < nv)%nat -> (b < nv)%nat -> (c < nv)%nat -> (d < nv)%nat ->
    (i < no)%nat -> (j < no)%nat -> (k < no)%nat -> (l < no)%nat ->
    A n [no + a; no + b; no + c; no + d; i; j; k; l]%nat = data t [a; b; c; d; i; j; k; l].
  Proof.
    intros H a b c d i j k l Ha Hb Hc Hd Hi Hj Hk Hl. rewrite <- (Aof_orbs range atoms (so_nodup no nv) _ _ _ _ H).
    - unfold orbs, zipw. cbn [combine map fst snd]. rewrite !nthO, !nthV by assumption. reflexivity.
    - cbn [map]. rewrite !dO, !dV. repeat constructor; assumption.
  Qed.
End Reads.

(** the entries of the arrays of matrix elements, as strings of operators *)
Section Ent.
  Variables no nv : nat.
  Variable psi : ket.
  Definition entry (m : nat) (S : tensor) : Prop := forall l1 l2 e, In l1 (tup (seq 0 no) m) -> In l2 (tup (seq 0 nv) m) ->
    map e (xi m) = l1 -> map e (xa m) = map (Nat.add no) l2 -> data S (l1 ++ l2)%list = act (map (inst e) (Dov m)) psi (ref no nv).
  Lemma ent2 : entry 2 (elem2_ov no nv psi).
  Proof.
    intros l1 l2 e H1 H2 E1 E2. pose proof (tup_len _ _ _ H1) as L1. pose proof (tup_len _ _ _ H2) as L2.
    destruct l1 as [|i [|j [|? ?]]]; try discriminate L1. destruct l2 as [|a [|b [|? ?]]]; try discriminate L2.
    change (xi 2) with [mkv 0 0; mkv 0 1] in E1. change (xa 2) with [mkv 1 2; mkv 1 3] in E2. cbn [map] in E1, E2. injection E1 as E10 E11. injection E2 as E20 E21.
    change (Dov 2) with [(true, mkv 0 0); (true, mkv 0 1); (false, mkv 1 3); (false, mkv 1 2)]. cbn [map elem2_ov data app]. unfold inst. cbn [fst snd].
    rewrite E10, E11, E20, E21. reflexivity.
  Qed.
  Lemma ent3 : entry 3 (elem3_ov no nv psi).
  Proof.
    intros l1 l2 e H1 H2 E1 E2. pose proof (tup_len _ _ _ H1) as L1. pose proof (tup_len _ _ _ H2) as L2.
    destruct l1 as [|i [|j [|k [|? ?]]]]; try discriminate L1. destruct l2 as [|a [|b [|c [|? ?]]]]; try discriminate L2.
    change (xi 3) with [mkv 0 0; mkv 0 1; mkv 0 2] in E1. change (xa 3) with [mkv 1 3; mkv 1 4; mkv 1 5] in E2. cbn [map] in E1, E2. injection E1 as E10 E11 E12. injection E2 as E20 E21 E22.
    change (Dov 3) with [(true, mkv 0 0); (true, mkv 0 1); (true, mkv 0 2); (false, mkv 1 5); (false, mkv 1 4); (false, mkv 1 3)]. cbn [map elem3_ov data app]. unfold inst. cbn [fst snd].
    rewrite E10, E11, E12, E20, E21, E22. reflexivity.
  Qed.
  Lemma ent4 : entry 4 (elem4_ov no nv psi).
  Proof.
    intros l1 l2 e H1 H2 E1 E2. pose proof (tup_len _ _ _ H1) as L1. pose proof (tup_len _ _ _ H2) as L2.
    destruct l1 as [|i [|j [|k [|l [|? ?]]]]]; try discriminate L1. destruct l2 as [|a [|b [|c [|d [|? ?]]]]]; try discriminate L2.
    change (xi 4) with [mkv 0 0; mkv 0 1; mkv 0 2; mkv 0 3] in E1. change (xa 4) with [mkv 1 4; mkv 1 5; mkv 1 6; mkv 1 7] in E2.
    cbn [map] in E1, E2. injection E1 as E10 E11 E12 E13. injection E2 as E20 E21 E22 E23.
    change (Dov 4) with [(true, mkv 0 0); (true, mkv 0 1); (true, mkv 0 2); (true, mkv 0 3); (false, mkv 1 7); (false, mkv 1 6); (false, mkv 1 5); (false, mkv 1 4)].
    cbn [map elem4_ov data app]. unfold inst. cbn [fst snd]. rewrite E10, E11, E12, E13, E20, E21, E22, E23. reflexivity.
  Qed.
End Ent.

(** *** One residual routine *)
Section Low.
  Variables no nv : nat.
  Variable tab : atomtab.
  Notation range := (so_range no nv).
  Lemma low_elem m ys psi e : (m < 2)%nat -> ctsum_ok m ys = true -> forallb (closed_term (xi m ++ xa m)) (ctsum m ys) = true ->
    (forall v, In v (xi m ++ xa m) -> In (e v) (range (spc v))) ->
    (forall e, act (map (inst e) (Dov m)) psi (ref no nv) = act (map (inst e) (Dov m)) (osem no nv (A' (Aof range tab)) e ys (Phi no nv)) (ref no nv)) ->
    act (map (inst e) (Dov m)) psi (ref no nv) = evalP range (Aof range tab) e (ctsum m ys).
  Proof.
    intros Hm CO CL He HY. rewrite HY.
    assert (TP : tpl_ok m = true) by (destruct m as [|[|?]]; [reflexivity|reflexivity|lia]).
    assert (LAY : lay_ok m = true) by (destruct m as [|[|?]]; [reflexivity|reflexivity|lia]).
    rewrite (elem_sum no nv (Aof range tab) m TP ys e CO He).
    assert (E1 : signed_perms (xi m) = [(true, xi m)]) by (destruct m as [|[|?]]; [reflexivity|reflexivity|lia]).
    assert (E2 : signed_perms (xa m) = [(true, xa m)]) by (destruct m as [|[|?]]; [reflexivity|reflexivity|lia]).
    rewrite E1, E2. cbn [suml fst snd sgn]. rewrite (evalP_closed no nv m (Aof range tab) (ctsum m ys) (ren m (xi m) (xa m) e) e CL); [ring|].
    unfold ren. apply envl_map; [apply (lay m LAY)|rewrite map_length; reflexivity].
  Qed.
End Low.
Section One.
  Variables no nv m : nat.
  Variable tab : atomtab.
  Notation range := (so_range no nv).
  Hypothesis OK : Forall (atom_ok range sy) tab.
  Hypothesis LAY : lay_ok m = true.
  Hypothesis TP : tpl_ok m = true.
  Hypothesis Hm : (0 < m)%nat.
  Lemma elem_antis ys psi S : shape S = (repeat no m ++ repeat nv m)%list -> entry no nv psi m S ->
    (forall e, act (map (inst e) (Dov m)) psi (ref no nv) = act (map (inst e) (Dov m)) (osem no nv (A' (Aof range tab)) e ys (Phi no nv)) (ref no nv)) ->
    ctsum_ok m ys = true -> forallb (closed_term (xi m ++ xa m)) (ctsum m ys) = true ->
    antisymmetrised m (carr no nv m tab (ctsum m ys)) S.
  Proof.
    intros HS HE HY CO CL. apply (carr_antis no nv m LAY tab (ctsum m ys) S (fun e => act (map (inst e) (Dov m)) psi (ref no nv)) TP CL HS).
    - intros l1 l2 e. apply HE.
    - intros e He. rewrite HY. apply (elem_sum no nv (Aof range tab) m TP ys e CO He).
  Qed.
  Definition presym (fn : fn) (svs : list sval) : option sval := srun so_slm 1 lib_tamps (before fn) svs.
  Lemma resid_eq n fn nm anti svs vs p S : sy n = SD [m; m] true false -> Forall2 (so_vsim no nv tab) svs vs ->
    ends_with nm fn = true -> slook nm lib_tamps = Some anti -> shut m anti ->
    outsp (ovs m) (presym fn svs) = true -> proj_ok m n (getp (presym fn svs)) = true -> proj_ok m n p = true ->
    forallb (closed_term (xi m ++ xa m)) p = true -> antisymmetrised m (carr no nv m tab p) S ->
    so_chk [] (Some (SP [] (dotp m n (getp (presym fn svs))))) (Some (SP [] (dotp m n p))) ->
    exists R, returns 1 lib_tamps fn vs R /\ teq R S.
  Proof.
    intros Hn V E L SH O P1 P2 CL AS CK. pose proof O as O'. apply outsp_ok in O. destruct (so_run _ _ _ _ _ _ _ _ _ _ V O) as [U [HU TU]].
    assert (SU : shape U = (repeat no m ++ repeat nv m)%list) by (rewrite (proj1 TU); apply sh_ov).
    destruct (SH no nv U SU) as [R [HR [AR _]]]. exists R.
    split; [unfold returns; rewrite (ends nm lib_tamps anti fn vs U E L HU); exact HR|].
    eapply (so_proj no nv m LAY n tab _ p U _ R S Hm Hn OK); [constructor; exact TU|apply carr_vsim; [exact LAY|exact CL]|exact AR|exact AS|exact P1|exact P2|exact CK].
  Qed.
End One.
Arguments presym : simpl never.

(** *** CCSDT *)
Definition tsT (c : nat) : list oterm := [tot 1 2 1 c; tot 2 3 (1 # 4) c; tot 3 4 (1 # 36) c].
Definition hbT : list oterm := hbar tsT hams.
Lemma tsT_c : forall c, (c < 10)%nat -> forallb cterm (tsT c) = true.
Proof. intros c H. do 10 (destruct c as [|c]; [reflexivity|]). lia. Qed.
Lemma hbT_ok : hbar_ok tsT hams = true. Proof. vm_cast_no_check (@eq_refl bool true). Qed.
Lemma hbT_ok0 : ctsum_ok 0 hbT = true. Proof. vm_cast_no_check (@eq_refl bool true). Qed.
Lemma hbT_ok1 : ctsum_ok 1 hbT = true. Proof. vm_cast_no_check (@eq_refl bool true). Qed.
Lemma hbT_ok2 : ctsum_ok 2 hbT = true. Proof. vm_cast_no_check (@eq_refl bool true). Qed.
Lemma hbT_ok3 : ctsum_ok 3 hbT = true. Proof. vm_cast_no_check (@eq_refl bool true). Qed.
Section CCSDT.
  Variables no nv : nat.
  Variables f g t1 t2 t3 T1 T2 T3 : tensor.
  Hypothesis Hf : is_fock (no + nv) f.
  Hypothesis Hg : is_tei (no + nv) g.
  Hypothesis H1 : is_amp 1 no nv t1.
  Hypothesis H2 : is_amp 2 no nv t2.
  Hypothesis H3 : is_amp 3 no nv t3.
  Hypothesis S1 : swapped 1 t1 T1.
  Hypothesis S2 : swapped 2 t2 T2.
  Hypothesis S3 : swapped 3 t3 T3.
  Notation tab := [(0%N, ([6;6]%N, f)); (1%N, ([6;6;6;6]%N, g)); (2%N, ([1;0]%N, t1)); (3%N, ([1;1;0;0]%N, t2)); (4%N, ([1;1;1;0;0;0]%N, t3))].
  Notation range := (so_range no nv).
  Notation Tsdt := (oplus (oplus (T1op no nv t1) (T2op no nv t2)) (T3op no nv t3)).
  Notation args := [VT f; VT g; VT T1; VT T2; VT T3; o_ no; v_ no].
  Definition sargsT : list sval := [xF; xG; swp 2 1 [0;1]%N; swp 3 2 [0;0;1;1]%N; swp 4 3 [0;0;0;1;1;1]%N; xo; xv].
  Lemma sdt_OK : Forall (atom_ok range sy) tab.
  Proof. oks. Qed.
  Lemma sdt_V : Forall2 (so_vsim no nv tab) sargsT args.
  Proof. unfold sargsT. vsims. Qed.
  Lemma sdt_hbar K e D : (nann D + 5 <= K)%nat ->
    act (map (inst e) D) (cc_state K no nv f g Tsdt) (ref no nv) = act (map (inst e) D) (osem no nv (A' (Aof range tab)) e hbT (Phi no nv)) (ref no nv).
  Proof using.
    intros HK. apply (hbar_elem no nv (Aof range tab) tsT); [exact tsT_c| | | |exact hbT_ok|exact HK].
    - intros e' c psi n HC. unfold Wick.osem, oplus. cbn [tsT suml]. rewrite Qcplus_0_r, <- Qcplus_assoc. f_equal; [|f_equal].
      + apply tot1_sem; [|exact HC]. intros a i Ha Hi. apply (read_t1 no nv tab 2%N); auto.
      + apply tot2_sem; [|exact HC]. intros. apply (read_t2 no nv tab 3%N); auto.
      + apply tot3_sem; [|exact HC]. intros. apply (read_t3 no nv tab 4%N); auto.
    - apply read_f. reflexivity.
    - apply read_g. reflexivity.
  Qed.
  Lemma sdt_energy K : (5 <= K)%nat -> exists E,
    returns 0 [] Code_cc_energy.spinorbitalCCSDE_T1 [VT T2; VT g; VT f; o_ no; v_ no; VT T1] E /\ teq E (elem0 no nv (cc_state K no nv f g Tsdt)).
  Proof using Hf Hg H1 H2 H3 S1 S2.
    intros HK.
    eapply (so_reads no nv tab 0 [] Code_cc_energy.spinorbitalCCSDE_T1 [swp 3 2 [0;0;1;1]%N; xG; xF; xo; xv; swp 2 1 [0;1]%N] _ [] (ctsum 0 hbT)).
    - exact sdt_OK.
    - vsims.
    - apply (mat0 no nv tab _ _ D0); [reflexivity|reflexivity|]. intros e He. change D0 with (Dov 0).
      apply low_elem; [lia|exact hbT_ok0|vm_cast_no_check (@eq_refl bool true)|exact He|]. intros e'. apply sdt_hbar. cbn. lia.
    - chk_.
  Qed.
  Lemma sdt_singles K : (6 <= K)%nat -> exists R, returns 1 lib_tamps Code_ccsdt_eqns.ccsdt_t1eqns args R /\ teq R (elem1_ov no nv (cc_state K no nv f g Tsdt)).
  Proof.
    intros HK.
    eapply (so_reads no nv tab 1 lib_tamps Code_ccsdt_eqns.ccsdt_t1eqns sargsT _ [0;1]%N (ctsum 1 hbT)).
    - exact sdt_OK.
    - exact sdt_V.
    - apply (mat1o no nv tab _ _ D1o); [reflexivity|reflexivity|]. intros e He. change D1o with (Dov 1).
      apply low_elem; [lia|exact hbT_ok1|vm_cast_no_check (@eq_refl bool true)|exact He|]. intros e'. apply sdt_hbar. cbn. lia.
    - chk_.
  Qed.
  Lemma sdt_doubles K : (7 <= K)%nat -> exists R, returns 1 lib_tamps Code_ccsdt_eqns.ccsdt_t2eqns args R /\ teq R (elem2_ov no nv (cc_state K no nv f g Tsdt)).
  Proof.
    intros HK.
    eapply (resid_eq no nv 2 tab sdt_OK eq_refl ltac:(lia) 6%N Code_ccsdt_eqns.ccsdt_t2eqns "tamps.antisym_T2"%string Code_tamps.antisym_T2 sargsT _ (ctsum 2 hbT));
      [reflexivity|exact sdt_V|reflexivity|reflexivity|exact shut2|vm_cast_no_check (@eq_refl bool true)|vm_cast_no_check (@eq_refl bool true)|vm_cast_no_check (@eq_refl bool true)|vm_cast_no_check (@eq_refl bool true)| |chk_].
    apply (elem_antis no nv 2 tab eq_refl eq_refl hbT (cc_state K no nv f g Tsdt)); [reflexivity|apply ent2| |exact hbT_ok2|vm_cast_no_check (@eq_refl bool true)].
    intros e. apply sdt_hbar. cbn. lia.
  Qed.
  Lemma sdt_triples K : (8 <= K)%nat -> exists R, returns 1 lib_tamps (unround_fn Code_ccsdt_eqns.ccsdt_t3eqns) args R /\ teq R (elem3_ov no nv (cc_state K no nv f g Tsdt)).
  Proof.
    intros HK.
    eapply (resid_eq no nv 3 tab sdt_OK eq_refl ltac:(lia) 50%N (unround_fn Code_ccsdt_eqns.ccsdt_t3eqns) "tamps.antisym_T3"%string Code_tamps.antisym_T3 sargsT _ (ctsum 3 hbT));
      [reflexivity|exact sdt_V|reflexivity|reflexivity|exact shut3|vm_cast_no_check (@eq_refl bool true)|vm_cast_no_check (@eq_refl bool true)|vm_cast_no_check (@eq_refl bool true)|vm_cast_no_check (@eq_refl bool true)| |chk_].
    apply (elem_antis no nv 3 tab eq_refl eq_refl hbT (cc_state K no nv f g Tsdt)); [reflexivity|apply ent3| |exact hbT_ok3|vm_cast_no_check (@eq_refl bool true)].
    intros e. apply sdt_hbar. cbn. lia.
  Qed.
End CCSDT.

(** *** CCDQ *)
Definition tsQ (c : nat) : list oterm := [tot 2 3 (1 # 4) c; tot 4 5 (1 # 576) c].
Definition hbQ : list oterm := hbar tsQ hams.
Lemma tsQ_c : forall c, (c < 10)%nat -> forallb cterm (tsQ c) = true.
Proof. intros c H. do 10 (destruct c as [|c]; [reflexivity|]). lia. Qed.
Lemma hbQ_ok : hbar_ok tsQ hams = true. Proof. vm_cast_no_check (@eq_refl bool true). Qed.
Lemma hbQ_ok0 : ctsum_ok 0 hbQ = true. Proof. vm_cast_no_check (@eq_refl bool true). Qed.
Lemma hbQ_ok2 : ctsum_ok 2 hbQ = true. Proof. vm_cast_no_check (@eq_refl bool true). Qed.
Lemma hbQ_ok4 : ctsum_ok 4 hbQ = true. Proof. vm_cast_no_check (@eq_refl bool true). Qed.
Lemma tpl4 : tpl_ok 4 = true. Proof. vm_cast_no_check (@eq_refl bool true). Qed.
Section CCDQ.
  Variables no nv : nat.
  Variables f g t2 t4 T2 T4 : tensor.
  Hypothesis Hf : is_fock (no + nv) f.
  Hypothesis Hg : is_tei (no + nv) g.
  Hypothesis H2 : is_amp 2 no nv t2.
  Hypothesis H4 : is_amp 4 no nv t4.
  Hypothesis S2 : swapped 2 t2 T2.
  Hypothesis S4 : swapped 4 t4 T4.
  Notation tab := [(0%N, ([6;6]%N, f)); (1%N, ([6;6;6;6]%N, g)); (3%N, ([1;1;0;0]%N, t2)); (5%N, ([1;1;1;1;0;0;0;0]%N, t4))].
  Notation range := (so_range no nv).
  Notation Tdq := (oplus (T2op no nv t2) (T4op no nv t4)).
  Notation args := [VT f; VT g; VT T2; VT T4; o_ no; v_ no].
  Definition sargsQ : list sval := [xF; xG; swp 3 2 [0;0;1;1]%N; swp 5 4 [0;0;0;0;1;1;1;1]%N; xo; xv].
  Lemma dq_OK : Forall (atom_ok range sy) tab.
  Proof. oks. Qed.
  Lemma dq_V : Forall2 (so_vsim no nv tab) sargsQ args.
  Proof. unfold sargsQ. vsims. Qed.
  Lemma dq_hbar K e D : (nann D + 5 <= K)%nat ->
    act (map (inst e) D) (cc_state K no nv f g Tdq) (ref no nv) = act (map (inst e) D) (osem no nv (A' (Aof range tab)) e hbQ (Phi no nv)) (ref no nv).
  Proof using.
    intros HK. apply (hbar_elem no nv (Aof range tab) tsQ); [exact tsQ_c| | | |exact hbQ_ok|exact HK].
    - intros e' c psi n HC. unfold Wick.osem, oplus. cbn [tsQ suml]. rewrite Qcplus_0_r. f_equal.
      + apply tot2_sem; [|exact HC]. intros. apply (read_t2 no nv tab 3%N); auto.
      + apply tot4_sem; [|exact HC]. intros. apply (read_t4 no nv tab 5%N); auto.
    - apply read_f. reflexivity.
    - apply read_g. reflexivity.
  Qed.
  Lemma dq_energy K : (5 <= K)%nat -> exists E,
    returns 0 [] Code_cc_energy.spinorbitalCCSDE_noT1 [VT T2; VT g; VT f; o_ no; v_ no; VNone] E /\ teq E (elem0 no nv (cc_state K no nv f g Tdq)).
  Proof using Hf Hg H2 H4 S2.
    intros HK.
    eapply (so_reads no nv tab 0 [] Code_cc_energy.spinorbitalCCSDE_noT1 [swp 3 2 [0;0;1;1]%N; xG; xF; xo; xv; SNone] _ [] (ctsum 0 hbQ)).
    - exact dq_OK.
    - vsims.
    - apply (mat0 no nv tab _ _ D0); [reflexivity|reflexivity|]. intros e He. change D0 with (Dov 0).
      apply low_elem; [lia|exact hbQ_ok0|vm_cast_no_check (@eq_refl bool true)|exact He|]. intros e'. apply dq_hbar. cbn. lia.
    - chk_.
  Qed.
  Lemma dq_doubles K : (7 <= K)%nat -> exists R, returns 1 lib_tamps Code_ccdq_eqns.ccdq_t2eqns args R /\ teq R (elem2_ov no nv (cc_state K no nv f g Tdq)).
  Proof.
    intros HK.
    eapply (resid_eq no nv 2 tab dq_OK eq_refl ltac:(lia) 6%N Code_ccdq_eqns.ccdq_t2eqns "tamps.antisym_T2"%string Code_tamps.antisym_T2 sargsQ _ (ctsum 2 hbQ));
      [reflexivity|exact dq_V|reflexivity|reflexivity|exact shut2|vm_cast_no_check (@eq_refl bool true)|vm_cast_no_check (@eq_refl bool true)|vm_cast_no_check (@eq_refl bool true)|vm_cast_no_check (@eq_refl bool true)| |chk_].
    apply (elem_antis no nv 2 tab eq_refl eq_refl hbQ (cc_state K no nv f g Tdq)); [reflexivity|apply ent2| |exact hbQ_ok2|vm_cast_no_check (@eq_refl bool true)].
    intros e. apply dq_hbar. cbn. lia.
  Qed.
  Lemma dq_quadruples K : (9 <= K)%nat -> exists R, returns 1 lib_tamps (unround_fn Code_ccdq_eqns.ccdq_t4eqns) args R /\ teq R (elem4_ov no nv (cc_state K no nv f g Tdq)).
  Proof.
    intros HK.
    eapply (resid_eq no nv 4 tab dq_OK eq_refl ltac:(lia) 51%N (unround_fn Code_ccdq_eqns.ccdq_t4eqns) "tamps.antisym_T4"%string Code_tamps.antisym_T4 sargsQ _ (ctsum 4 hbQ));
      [reflexivity|exact dq_V|reflexivity|reflexivity|exact shut4|vm_cast_no_check (@eq_refl bool true)|vm_cast_no_check (@eq_refl bool true)|vm_cast_no_check (@eq_refl bool true)|vm_cast_no_check (@eq_refl bool true)| |chk_].
    apply (elem_antis no nv 4 tab eq_refl tpl4 hbQ (cc_state K no nv f g Tdq)); [reflexivity|apply ent4| |exact hbQ_ok4|vm_cast_no_check (@eq_refl bool true)].
    intros e. apply dq_hbar. cbn. lia.
  Qed.
End CCDQ.

(** *** Rounded coefficients *)
Lemma suml_abs {X} (l : list X) F B : 0 <= B -> (forall x, In x l -> Qcabs.Qcabs (F x) <= B) -> Qcabs.Qcabs (suml l F) <= qn (length l) * B.
Proof.
  intros HB. induction l as [|x l IH]; intros H; cbn [suml length].
  - rewrite Qcabs.Qcabs_pos by apply Qcle_refl. replace (qn 0 * B) with 0; [apply Qcle_refl|]. replace (qn 0) with 0 by (apply Qc_is_canon; reflexivity). ring.
  - eapply Qcle_trans; [apply Qcabs.Qcabs_triangle|]. rewrite qn_S. replace ((qn (length l) + 1) * B) with (B + qn (length l) * B) by ring.
    apply Qcplus_le_compat; [apply H; left; reflexivity|]. apply IH. intros y Hy. apply H. right. exact Hy.
Qed.
Lemma suml_minus2 {X} (l : list X) F G : suml l (fun x => F x - G x) = suml l F - suml l G.
Proof. induction l as [|x l IH]; cbn [suml]; [ring|]. rewrite IH. ring. Qed.
Lemma sgn_abs b x : Qcabs.Qcabs (sgn b * x) = Qcabs.Qcabs x.
Proof. destruct b; cbn [sgn]; [f_equal; ring|]. replace (- (1) * x) with (- x) by ring. apply Qcabs.Qcabs_opp. Qed.
Lemma antis_close m no nv eps U V R S : shape U = (repeat no m ++ repeat nv m)%list -> 0 <= eps -> close eps U V ->
  antisymmetrised m U R -> antisymmetrised m V S -> close (qn (fact m) * (qn (fact m) * eps)) R S.
Proof.
  intros SU E0 [SV CV] [SR AR] [SS AS]. split; [congruence|]. intros idx HI. rewrite SR, SU in HI.
  unfold inr in HI. apply Forall2_app_inv_r in HI. destruct HI as [l1 [l2 [H1 [H2 ->]]]].
  assert (L1 : length l1 = m) by (apply Forall2_len in H1; rewrite repeat_length in H1; exact H1).
  assert (L2 : length l2 = m) by (apply Forall2_len in H2; rewrite repeat_length in H2; exact H2).
  assert (HI : inr (l1 ++ l2) (shape U)) by (rewrite SU; apply Forall2_app; assumption).
  rewrite (AR l1 l2 L1 HI), (AS l1 l2 L1) by (rewrite <- SV; exact HI).
  rewrite <- suml_minus2.
  rewrite <- L1 at 1. rewrite <- (signed_perms_length l1). apply suml_abs; [apply Qcmult_nonneg; [apply qn_pos|exact E0]|].
  intros [b p] Hp. rewrite <- suml_minus2. rewrite <- L2 at 1. rewrite <- (signed_perms_length l2). apply suml_abs; [exact E0|].
  intros [c q] Hq. cbn [fst snd].
  replace (sgn b * sgn c * data U (p ++ q)%list - sgn b * sgn c * data V (p ++ q)%list) with (sgn b * (sgn c * (data U (p ++ q)%list - data V (p ++ q)%list))) by ring.
  rewrite !sgn_abs. apply CV. rewrite SU. apply Forall2_app; eapply inr_repeat_perm; try eassumption; eapply signed_perms_perm; eassumption.
Qed.
Section Rnd.
  Variables no nv m : nat.
  Variable tab : atomtab.
  Variable M : Qc.
  Hypothesis OK : Forall (atom_ok (so_range no nv) sy) tab.
  Hypothesis HN1 : (1 <= no + nv)%nat.
  Hypothesis HM : 1 <= M.
  Hypothesis HB : Forall (fun a : BinNums.N * (list space * tensor) => bounded M (snd (snd a))) tab.
  Lemma round_close c a b fn nm anti svs vs : (0 <= c)%Q -> Forall2 (so_vsim no nv tab) svs vs ->
    ends_with nm fn = true -> ends_with nm (unround_fn fn) = true -> slook nm lib_tamps = Some anti -> shut m anti ->
    so_cchk (ovs m) c a b (presym fn svs) (presym (unround_fn fn) svs) ->
    exists R R', returns 1 lib_tamps fn vs R /\ returns 1 lib_tamps (unround_fn fn) vs R' /\
      close (qn (fact m) * (qn (fact m) * (Q2Qc c * qn (no + nv) ^ a * M ^ b))) R R'.
  Proof.
    intros C0 V E1 E2 L SH CK.
    destruct (so_close no nv tab OK (no + nv) M (le_n _) HN1 HM HB c a b _ _ _ _ _ _ _ _ _ _ (ovs m) V V CK) as [U [U' [HU [HU' [SU CU]]]]].
    assert (SU1 : shape U = (repeat no m ++ repeat nv m)%list) by (rewrite SU; apply sh_ov).
    assert (SU2 : shape U' = (repeat no m ++ repeat nv m)%list) by (rewrite <- (proj1 CU); exact SU1).
    destruct (SH no nv U SU1) as [R [HR [AR _]]]. destruct (SH no nv U' SU2) as [R' [HR' [AR' _]]]. exists R, R'.
    split; [unfold returns; rewrite (ends nm lib_tamps anti fn vs U E1 L HU); exact HR|].
    split; [unfold returns; rewrite (ends nm lib_tamps anti (unround_fn fn) vs U' E2 L HU'); exact HR'|].
    eapply antis_close; [exact SU1| |exact CU|exact AR|exact AR'].
    apply Qcmult_nonneg; [apply Qcmult_nonneg|].
    - unfold Qcle. cbn [this Q2Qc]. rewrite !Qred_correct. exact C0.
    - apply Qcpow_nonneg, qn_pos.
    - apply Qcpow_nonneg. eapply Qcle_trans; [apply Qcle_0_1|exact HM].
  Qed.
End Rnd.

(** C61, CCSDT.  Singles residual, doubles residual, triples residual (with its decimal coefficients read as the fractions they
    abbreviate) and energy are the matrix elements of exp(-T) H exp(T), T = T1 + T2 + T3. *)
Theorem C61_ccsdt_equations : forall no nv f g t1 t2 t3 T1 T2 T3,
  is_fock (no + nv) f -> is_tei (no + nv) g -> is_amp 1 no nv t1 -> is_amp 2 no nv t2 -> is_amp 3 no nv t3 ->
  swapped 1 t1 T1 -> swapped 2 t2 T2 -> swapped 3 t3 T3 ->
  let args := [VT f; VT g; VT T1; VT T2; VT T3; o_ no; v_ no] in
  exists R1 R2 R3 E,
    returns 1 lib_tamps Code_ccsdt_eqns.ccsdt_t1eqns args R1 /\
    returns 1 lib_tamps Code_ccsdt_eqns.ccsdt_t2eqns args R2 /\
    returns 1 lib_tamps (unround_fn Code_ccsdt_eqns.ccsdt_t3eqns) args R3 /\
    returns 0 [] Code_cc_energy.spinorbitalCCSDE_T1 [VT T2; VT g; VT f; o_ no; v_ no; VT T1] E /\
    shape R1 = [no; nv] /\ shape R2 = [no; no; nv; nv] /\ shape R3 = [no; no; no; nv; nv; nv] /\ shape E = [] /\
    forall K, (8 <= K)%nat ->
      let psi := cc_state K no nv f g (oplus (oplus (T1op no nv t1) (T2op no nv t2)) (T3op no nv t3)) in
      data E [] = bra0 no nv psi /\
      (forall a i, (a < nv)%nat -> (i < no)%nat -> data R1 [i; a] = bra1 no nv a i psi) /\
      (forall a b i j, (a < nv)%nat -> (b < nv)%nat -> (i < no)%nat -> (j < no)%nat -> data R2 [i; j; a; b] = bra2 no nv a b i j psi) /\
      (forall a b c i j k, (a < nv)%nat -> (b < nv)%nat -> (c < nv)%nat -> (i < no)%nat -> (j < no)%nat -> (k < no)%nat ->
         data R3 [i; j; k; a; b; c] = bra3 no nv a b c i j k psi).
Proof.
  intros no nv f g t1 t2 t3 T1 T2 T3 Hf Hg H1 H2 H3 S1 S2 S3 args.
  destruct (sdt_singles no nv f g t1 t2 t3 T1 T2 T3 Hf Hg H1 H2 H3 S1 S2 S3 8 ltac:(lia)) as [R1 [HR1 [SR1 _]]].
  destruct (sdt_doubles no nv f g t1 t2 t3 T1 T2 T3 Hf Hg H1 H2 H3 S1 S2 S3 8 ltac:(lia)) as [R2 [HR2 [SR2 _]]].
  destruct (sdt_triples no nv f g t1 t2 t3 T1 T2 T3 Hf Hg H1 H2 H3 S1 S2 S3 8 ltac:(lia)) as [R3 [HR3 [SR3 _]]].
  destruct (sdt_energy no nv f g t1 t2 t3 T1 T2 Hf Hg H1 H2 H3 S1 S2 8 ltac:(lia)) as [E [HE [SE _]]].
  exists R1, R2, R3, E. repeat (split; [assumption|]). intros K HK psi.
  destruct (sdt_singles no nv f g t1 t2 t3 T1 T2 T3 Hf Hg H1 H2 H3 S1 S2 S3 K ltac:(lia)) as [R1' [HR1' [_ D1]]]. rewrite (ret_unique _ _ _ _ _ _ HR1' HR1), SR1 in D1.
  destruct (sdt_doubles no nv f g t1 t2 t3 T1 T2 T3 Hf Hg H1 H2 H3 S1 S2 S3 K ltac:(lia)) as [R2' [HR2' [_ D2]]]. rewrite (ret_unique _ _ _ _ _ _ HR2' HR2), SR2 in D2.
  destruct (sdt_triples no nv f g t1 t2 t3 T1 T2 T3 Hf Hg H1 H2 H3 S1 S2 S3 K ltac:(lia)) as [R3' [HR3' [_ D3]]]. rewrite (ret_unique _ _ _ _ _ _ HR3' HR3), SR3 in D3.
  destruct (sdt_energy no nv f g t1 t2 t3 T1 T2 Hf Hg H1 H2 H3 S1 S2 K ltac:(lia)) as [E' [HE' [_ DE]]]. rewrite (ret_unique _ _ _ _ _ _ HE' HE), SE in DE.
  split; [exact (DE [] (Forall2_nil _))|]. split; [|split].
  - intros a i Ha Hi. apply (D1 [i; a]). repeat constructor; assumption.
  - intros a b i j Ha Hb Hi Hj. apply (D2 [i; j; a; b]). repeat constructor; assumption.
  - intros a b c i j k Ha Hb Hc Hi Hj Hk. apply (D3 [i; j; k; a; b; c]). repeat constructor; assumption.
Qed.
Print Assumptions C61_ccsdt_equations.
Example C61_ccsdt_instance := C61_ccsdt_equations 3 3 (i_fock 6) (i_tei 6) (i_amp 1 3 3) (i_amp 2 3 3) (i_amp 3 3 3) _ _ _
  (i_fock_ok 6) (i_tei_ok 6) (i_amp_ok 1 3 3) (i_amp_ok 2 3 3) (i_amp_ok 3 3 3) (swap_t_ok 1 _) (swap_t_ok 2 _) (swap_t_ok 3 _).

(** C61, the triples routine as coded: its 9-digit coefficients keep it within 2.5e-7 N^4 M^4 of the matrix elements, for N spin
    orbitals and arrays bounded by M. *)
Theorem C61_ccsdt_triples_bound : forall no nv f g t1 t2 t3 T1 T2 T3 M,
  is_fock (no + nv) f -> is_tei (no + nv) g -> is_amp 1 no nv t1 -> is_amp 2 no nv t2 -> is_amp 3 no nv t3 ->
  swapped 1 t1 T1 -> swapped 2 t2 T2 -> swapped 3 t3 T3 ->
  (1 <= no + nv)%nat -> 1 <= M -> bounded M f -> bounded M g -> bounded M t1 -> bounded M t2 -> bounded M t3 ->
  exists R3, returns 1 lib_tamps Code_ccsdt_eqns.ccsdt_t3eqns [VT f; VT g; VT T1; VT T2; VT T3; o_ no; v_ no] R3 /\
    shape R3 = [no; no; no; nv; nv; nv] /\
    forall K, (8 <= K)%nat ->
      let psi := cc_state K no nv f g (oplus (oplus (T1op no nv t1) (T2op no nv t2)) (T3op no nv t3)) in
      forall a b c i j k, (a < nv)%nat -> (b < nv)%nat -> (c < nv)%nat -> (i < no)%nat -> (j < no)%nat -> (k < no)%nat ->
        Qcabs.Qcabs (data R3 [i; j; k; a; b; c] - bra3 no nv a b c i j k psi) <= Q2Qc (1 # 4000000) * qn (no + nv) ^ 4 * M ^ 4.
Proof.
  intros no nv f g t1 t2 t3 T1 T2 T3 M Hf Hg H1 H2 H3 S1 S2 S3 HN HM Bf Bg B1 B2 B3.
  destruct (round_close no nv 3 [(0%N, ([6;6]%N, f)); (1%N, ([6;6;6;6]%N, g)); (2%N, ([1;0]%N, t1)); (3%N, ([1;1;0;0]%N, t2)); (4%N, ([1;1;1;0;0;0]%N, t3))] M
    (sdt_OK no nv f g t1 t2 t3 Hf Hg H1 H2 H3) HN HM ltac:(repeat (constructor; [assumption|]); constructor) (1 # 144000000) 4 4
    Code_ccsdt_eqns.ccsdt_t3eqns "tamps.antisym_T3"%string Code_tamps.antisym_T3 sargsT _ ltac:(discriminate)
    (sdt_V no nv f g t1 t2 t3 T1 T2 T3 Hf Hg H1 H2 H3 S1 S2 S3) eq_refl eq_refl eq_refl shut3 ltac:(cchk_)) as [R [R' [HR [HR' [SC CL]]]]].
  destruct (sdt_triples no nv f g t1 t2 t3 T1 T2 T3 Hf Hg H1 H2 H3 S1 S2 S3 8 ltac:(lia)) as [X [HX [SX _]]].
  rewrite (ret_unique _ _ _ _ _ _ HX HR') in SX. exists R. split; [exact HR|]. split; [rewrite SC; exact SX|].
  intros K HK psi a b c i j k Ha Hb Hc Hi Hj Hk.
  destruct (sdt_triples no nv f g t1 t2 t3 T1 T2 T3 Hf Hg H1 H2 H3 S1 S2 S3 K ltac:(lia)) as [Y [HY [_ DY]]]. rewrite (ret_unique _ _ _ _ _ _ HY HR'), SX in DY.
  specialize (DY [i; j; k; a; b; c] ltac:(repeat constructor; assumption)). change (data (elem3_ov no nv _) [i; j; k; a; b; c]) with (bra3 no nv a b c i j k psi) in DY.
  rewrite <- DY. eapply Qcle_trans; [apply CL; rewrite SC, SX; repeat constructor; assumption|]. match goal with |- ?x <= ?y => replace x with y; [apply Qcle_refl|] end. symmetry.
  change (qn (fact 3)) with (Q2Qc 6). rewrite !Qcmult_assoc. repeat f_equal; apply Qc_is_canon; reflexivity.
Qed.
Print Assumptions C61_ccsdt_triples_bound.

(** C61, CCDQ.  The same for T = T2 + T4: doubles residual, quadruples residual and energy. *)
Theorem C61_ccdq_equations : forall no nv f g t2 t4 T2 T4,
  is_fock (no + nv) f -> is_tei (no + nv) g -> is_amp 2 no nv t2 -> is_amp 4 no nv t4 -> swapped 2 t2 T2 -> swapped 4 t4 T4 ->
  let args := [VT f; VT g; VT T2; VT T4; o_ no; v_ no] in
  exists R2 R4 E,
    returns 1 lib_tamps Code_ccdq_eqns.ccdq_t2eqns args R2 /\
    returns 1 lib_tamps (unround_fn Code_ccdq_eqns.ccdq_t4eqns) args R4 /\
    returns 0 [] Code_cc_energy.spinorbitalCCSDE_noT1 [VT T2; VT g; VT f; o_ no; v_ no; VNone] E /\
    shape R2 = [no; no; nv; nv] /\ shape R4 = [no; no; no; no; nv; nv; nv; nv] /\ shape E = [] /\
    forall K, (9 <= K)%nat ->
      let psi := cc_state K no nv f g (oplus (T2op no nv t2) (T4op no nv t4)) in
      data E [] = bra0 no nv psi /\
      (forall a b i j, (a < nv)%nat -> (b < nv)%nat -> (i < no)%nat -> (j < no)%nat -> data R2 [i; j; a; b] = bra2 no nv a b i j psi) /\
      (forall a b c d i j k l, (a < nv)%nat -> (b < nv)%nat -> (c < nv)%nat -> (d < nv)%nat -> (i < no)%nat -> (j < no)%nat -> (k < no)%nat -> (l < no)%nat ->
         data R4 [i; j; k; l; a; b; c; d] = bra4 no nv a b c d i j k l psi).
Proof.
  intros no nv f g t2 t4 T2 T4 Hf Hg H2 H4 S2 S4 args.
  destruct (dq_doubles no nv f g t2 t4 T2 T4 Hf Hg H2 H4 S2 S4 9 ltac:(lia)) as [R2 [HR2 [SR2 _]]].
  destruct (dq_quadruples no nv f g t2 t4 T2 T4 Hf Hg H2 H4 S2 S4 9 ltac:(lia)) as [R4 [HR4 [SR4 _]]].
  destruct (dq_energy no nv f g t2 t4 T2 Hf Hg H2 H4 S2 9 ltac:(lia)) as [E [HE [SE _]]].
  exists R2, R4, E. repeat (split; [assumption|]). intros K HK psi.
  destruct (dq_doubles no nv f g t2 t4 T2 T4 Hf Hg H2 H4 S2 S4 K ltac:(lia)) as [R2' [HR2' [_ D2]]]. rewrite (ret_unique _ _ _ _ _ _ HR2' HR2), SR2 in D2.
  destruct (dq_quadruples no nv f g t2 t4 T2 T4 Hf Hg H2 H4 S2 S4 K ltac:(lia)) as [R4' [HR4' [_ D4]]]. rewrite (ret_unique _ _ _ _ _ _ HR4' HR4), SR4 in D4.
  destruct (dq_energy no nv f g t2 t4 T2 Hf Hg H2 H4 S2 K ltac:(lia)) as [E' [HE' [_ DE]]]. rewrite (ret_unique _ _ _ _ _ _ HE' HE), SE in DE.
  split; [exact (DE [] (Forall2_nil _))|]. split.
  - intros a b i j Ha Hb Hi Hj. apply (D2 [i; j; a; b]). repeat constructor; assumption.
  - intros a b c d i j k l Ha Hb Hc Hd Hi Hj Hk Hl. apply (D4 [i; j; k; l; a; b; c; d]). repeat constructor; assumption.
Qed.
Print Assumptions C61_ccdq_equations.
Example C61_ccdq_instance := C61_ccdq_equations 4 4 (i_fock 8) (i_tei 8) (i_amp 2 4 4) (i_amp 4 4 4) _ _
  (i_fock_ok 8) (i_tei_ok 8) (i_amp_ok 2 4 4) (i_amp_ok 4 4 4) (swap_t_ok 2 _) (swap_t_ok 4 _).
Theorem C61_ccdq_quadruples_bound : forall no nv f g t2 t4 T2 T4 M,
  is_fock (no + nv) f -> is_tei (no + nv) g -> is_amp 2 no nv t2 -> is_amp 4 no nv t4 -> swapped 2 t2 T2 -> swapped 4 t4 T4 ->
  (1 <= no + nv)%nat -> 1 <= M -> bounded M f -> bounded M g -> bounded M t2 -> bounded M t4 ->
  exists R4, returns 1 lib_tamps Code_ccdq_eqns.ccdq_t4eqns [VT f; VT g; VT T2; VT T4; o_ no; v_ no] R4 /\
    shape R4 = [no; no; no; no; nv; nv; nv; nv] /\
    forall K, (9 <= K)%nat ->
      let psi := cc_state K no nv f g (oplus (T2op no nv t2) (T4op no nv t4)) in
      forall a b c d i j k l, (a < nv)%nat -> (b < nv)%nat -> (c < nv)%nat -> (d < nv)%nat -> (i < no)%nat -> (j < no)%nat -> (k < no)%nat -> (l < no)%nat ->
        Qcabs.Qcabs (data R4 [i; j; k; l; a; b; c; d] - bra4 no nv a b c d i j k l psi) <= Q2Qc (1 # 400000) * qn (no + nv) ^ 4 * M ^ 3.
Proof.
  intros no nv f g t2 t4 T2 T4 M Hf Hg H2 H4 S2 S4 HN HM Bf Bg B2 B4.
  destruct (round_close no nv 4 [(0%N, ([6;6]%N, f)); (1%N, ([6;6;6;6]%N, g)); (3%N, ([1;1;0;0]%N, t2)); (5%N, ([1;1;1;1;0;0;0;0]%N, t4))] M
    (dq_OK no nv f g t2 t4 Hf Hg H2 H4) HN HM ltac:(repeat (constructor; [assumption|]); constructor) (1 # 230400000) 4 3
    Code_ccdq_eqns.ccdq_t4eqns "tamps.antisym_T4"%string Code_tamps.antisym_T4 sargsQ _ ltac:(discriminate)
    (dq_V no nv f g t2 t4 T2 T4 Hf Hg H2 H4 S2 S4) eq_refl eq_refl eq_refl shut4 ltac:(cchk_)) as [R [R' [HR [HR' [SC CL]]]]].
  destruct (dq_quadruples no nv f g t2 t4 T2 T4 Hf Hg H2 H4 S2 S4 9 ltac:(lia)) as [X [HX [SX _]]].
  rewrite (ret_unique _ _ _ _ _ _ HX HR') in SX. exists R. split; [exact HR|]. split; [rewrite SC; exact SX|].
  intros K HK psi a b c d i j k l Ha Hb Hc Hd Hi Hj Hk Hl.
  destruct (dq_quadruples no nv f g t2 t4 T2 T4 Hf Hg H2 H4 S2 S4 K ltac:(lia)) as [Y [HY [_ DY]]]. rewrite (ret_unique _ _ _ _ _ _ HY HR'), SX in DY.
  specialize (DY [i; j; k; l; a; b; c; d] ltac:(repeat constructor; assumption)). change (data (elem4_ov no nv _) [i; j; k; l; a; b; c; d]) with (bra4 no nv a b c d i j k l psi) in DY.
  rewrite <- DY. eapply Qcle_trans; [apply CL; rewrite SC, SX; repeat constructor; assumption|]. match goal with |- ?x <= ?y => replace x with y; [apply Qcle_refl|] end. symmetry.
  change (qn (fact 4)) with (Q2Qc 24). rewrite !Qcmult_assoc. repeat f_equal; apply Qc_is_canon; reflexivity.
Qed.
Print Assumptions C61_ccdq_quadruples_bound.
Example C61_ccsdt_bound_instance : exists M, exists R3,
  returns 1 lib_tamps Code_ccsdt_eqns.ccsdt_t3eqns [VT (i_fock 6); VT (i_tei 6); VT (swap_t 1 (i_amp 1 3 3)); VT (swap_t 2 (i_amp 2 3 3)); VT (swap_t 3 (i_amp 3 3 3)); o_ 3; v_ 3] R3 /\
  1 <= M.
Proof.
  destruct (bounded_all [i_fock 6; i_tei 6; i_amp 1 3 3; i_amp 2 3 3; i_amp 3 3 3]) as [M [H1 H2]].
  inversion_clear H2 as [|? ? Bf H3]. inversion_clear H3 as [|? ? Bg H4]. inversion_clear H4 as [|? ? B1 H5]. inversion_clear H5 as [|? ? B2 H6]. inversion_clear H6 as [|? ? B3 _].
  destruct (C61_ccsdt_triples_bound 3 3 (i_fock 6) (i_tei 6) (i_amp 1 3 3) (i_amp 2 3 3) (i_amp 3 3 3) _ _ _ M
    (i_fock_ok 6) (i_tei_ok 6) (i_amp_ok 1 3 3) (i_amp_ok 2 3 3) (i_amp_ok 3 3 3) (swap_t_ok 1 _) (swap_t_ok 2 _) (swap_t_ok 3 _) ltac:(cbn; lia) H1 Bf Bg B1 B2 B3) as [R [HR _]].
  exists M, R. split; [exact HR|exact H1].
Qed.
Example C61_ccdq_bound_instance : exists M, exists R4,
  returns 1 lib_tamps Code_ccdq_eqns.ccdq_t4eqns [VT (i_fock 8); VT (i_tei 8); VT (swap_t 2 (i_amp 2 4 4)); VT (swap_t 4 (i_amp 4 4 4)); o_ 4; v_ 4] R4 /\ 1 <= M.
Proof.
  destruct (bounded_all [i_fock 8; i_tei 8; i_amp 2 4 4; i_amp 4 4 4]) as [M [H1 H2]].
  inversion_clear H2 as [|? ? Bf H3]. inversion_clear H3 as [|? ? Bg H4]. inversion_clear H4 as [|? ? B2 H5]. inversion_clear H5 as [|? ? B4 _].
  destruct (C61_ccdq_quadruples_bound 4 4 (i_fock 8) (i_tei 8) (i_amp 2 4 4) (i_amp 4 4 4) _ _ M
    (i_fock_ok 8) (i_tei_ok 8) (i_amp_ok 2 4 4) (i_amp_ok 4 4 4) (swap_t_ok 2 _) (swap_t_ok 4 _) ltac:(cbn; lia) H1 Bf Bg B2 B4) as [R [HR _]].
  exists M, R. split; [exact HR|exact H1].
Qed.
