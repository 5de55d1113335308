(** C42: the coded CCD and CCSD equations are matrix elements of exp(-T) H exp(T) |Phi>. *)
From Coq Require Import String Ascii List Arith NArith ZArith QArith Qcanon Bool Lia Permutation.
From Verif Require Import Sums Tensor Interp Poly SymExec Canon Spec Instances Setup Master Spin Check Tabs NF Formula Fock Wick CCState.
From Verif Require Code_t2residEqnsSlow Code_t2energySlow Code_cc_eqns Code_cc_energy Code_pdagq_T3corr.
Import ListNotations.
Open Scope Qc_scope.

(** Arrays of matrix elements of a state, virtual-first and occupied-first. *)
Definition elem0 (no nv : nat) (psi : ket) : tensor := mkT [] (fun _ => bra0 no nv psi).
Definition elem1_ov (no nv : nat) (psi : ket) : tensor :=
  mkT [no; nv] (fun l => match l with [i; a] => bra1 no nv a i psi | _ => 0 end).
Definition elem2 (no nv : nat) (psi : ket) : tensor :=
  mkT [nv; nv; no; no] (fun l => match l with [a; b; i; j] => bra2 no nv a b i j psi | _ => 0 end).
Definition elem2_ov (no nv : nat) (psi : ket) : tensor :=
  mkT [no; no; nv; nv] (fun l => match l with [i; j; a; b] => bra2 no nv a b i j psi | _ => 0 end).

Definition D0 : list vop := [].
Definition D1o : list vop := [(true, mkv 0 0); (false, mkv 1 1)].
Definition D2 : list vop := [(true, mkv 0 2); (true, mkv 0 3); (false, mkv 1 1); (false, mkv 1 0)].
Definition D2o : list vop := [(true, mkv 0 0); (true, mkv 0 1); (false, mkv 1 3); (false, mkv 1 2)].

Section Elems.
  Variables no nv : nat.
  Variable atoms : atomtab.
  Notation range := (so_range no nv).
  Notation A := (Aof range atoms).
  Variables f g : tensor.
  Hypothesis N0 : nlook 0%N atoms = Some ([6; 6]%N, f).
  Hypothesis N1 : nlook 1%N atoms = Some ([6; 6; 6; 6]%N, g).

  Lemma nthP p : (p < no + nv)%nat -> nth p (range 6%N) O = p.
  Proof using. intros H. change (range 6%N) with (seq 0 (no + nv)). rewrite seq_nth by exact H. reflexivity. Qed.
  Lemma nthO p : (p < no)%nat -> nth p (range 0%N) O = p.
  Proof using. intros H. change (range 0%N) with (seq 0 no). rewrite seq_nth by exact H. reflexivity. Qed.
  Lemma nthV p : (p < nv)%nat -> nth p (range 1%N) O = (no + p)%nat.
  Proof using. intros H. change (range 1%N) with (seq no nv). rewrite seq_nth by exact H. reflexivity. Qed.
  Lemma read_f p q : (p < no + nv)%nat -> (q < no + nv)%nat -> A 0%N [p; q] = data f [p; q].
  Proof using N0.
    intros Hp Hq. rewrite <- (Aof_orbs range atoms (so_nodup no nv) _ _ _ _ N0).
    - unfold orbs, zipw. cbn [combine map fst snd]. rewrite !nthP by assumption. reflexivity.
    - cbn [map]. rewrite !dP. repeat constructor; assumption.
  Qed.
  Lemma read_g p q r s : (p < no + nv)%nat -> (q < no + nv)%nat -> (r < no + nv)%nat -> (s < no + nv)%nat -> A 1%N [p; q; r; s] = data g [p; q; r; s].
  Proof using N1.
    intros Hp Hq Hr Hs. rewrite <- (Aof_orbs range atoms (so_nodup no nv) _ _ _ _ N1).
    - unfold orbs, zipw. cbn [combine map fst snd]. rewrite !nthP by assumption. reflexivity.
    - cbn [map]. rewrite !dP. repeat constructor; assumption.
  Qed.
  Lemma read_t1 n t : nlook n atoms = Some ([1; 0]%N, t) -> forall a i, (a < nv)%nat -> (i < no)%nat -> A n [no + a; i]%nat = data t [a; i].
  Proof using.
    intros H a i Ha Hi. rewrite <- (Aof_orbs range atoms (so_nodup no nv) _ _ _ _ H).
    - unfold orbs, zipw. cbn [combine map fst snd]. rewrite nthO, nthV by assumption. reflexivity.
    - cbn [map]. rewrite dO, dV. repeat constructor; assumption.
  Qed.
  Lemma read_t2 n t : nlook n atoms = Some ([1; 1; 0; 0]%N, t) -> forall a b i j, (a < nv)%nat -> (b < nv)%nat -> (i < no)%nat -> (j < no)%nat ->
    A n [no + a; no + b; i; j]%nat = data t [a; b; i; j].
  Proof using.
    intros H a b i j Ha Hb Hi Hj. rewrite <- (Aof_orbs range atoms (so_nodup no nv) _ _ _ _ H).
    - unfold orbs, zipw. cbn [combine map fst snd]. rewrite !nthO, !nthV by assumption. reflexivity.
    - cbn [map]. rewrite !dO, !dV. repeat constructor; assumption.
  Qed.

  Lemma eagree_in sps idx e : good sps = true -> inr idx (map (dim range) sps) -> eagree range sps idx e ->
    forall v, In v (xvs sps) -> In (e v) (range (spc v)).
  Proof using.
    intros Hg Hi Ha v Hv. unfold good in Hg. apply andb_true_iff in Hg. destruct Hg as [_ HX].
    eapply inr_in; [exact Hi|exact Ha|exact Hv|exact HX].
  Qed.
  Section Mat.
    Variable psi : ket.
    Lemma mat0 sps D q : sps = [] -> D = D0 ->
      (forall e, (forall v, In v (xvs sps) -> In (e v) (range (spc v))) -> act (map (inst e) D) psi (ref no nv) = evalP range A e q) ->
      so_vsim no nv atoms (SP sps q) (VT (elem0 no nv psi)).
    Proof using.
      intros -> -> H. constructor. split; [reflexivity|]. intros idx e Hi Ha. cbn [elem0 data shape] in *. inversion Hi; subst.
      exact (H e (fun v F => match F with end)).
    Qed.
    Lemma mat1o sps D q : sps = [0; 1]%N -> D = D1o ->
      (forall e, (forall v, In v (xvs sps) -> In (e v) (range (spc v))) -> act (map (inst e) D) psi (ref no nv) = evalP range A e q) ->
      so_vsim no nv atoms (SP sps q) (VT (elem1_ov no nv psi)).
    Proof using.
      intros -> -> H. constructor. split; [cbn [elem1_ov shape map]; rewrite dO, dV; reflexivity|]. intros idx e Hi Ha.
      cbn [elem1_ov shape] in Hi. assert (Hi' : inr idx (map (dim range) [0; 1]%N)) by (cbn [map]; rewrite dO, dV; exact Hi).
      rewrite <- H by (eapply eagree_in; [reflexivity|exact Hi'|exact Ha]).
      inversion Hi as [|i ? l ? B1 Hi1]; subst. inversion Hi1 as [|a ? l' ? B2 Hi2]; subst. inversion Hi2; subst.
      unfold eagree, orbs, zipw in Ha. cbn [combine map fst snd] in Ha. rewrite nthO, nthV in Ha by assumption.
      change (xvs [0; 1]%N) with [mkv 0 0; mkv 1 1] in Ha. cbn [map] in Ha. injection Ha as E1 E2.
      cbn [elem1_ov data D1o map inst fst snd]. unfold inst. cbn [fst snd]. rewrite E1, E2. reflexivity.
    Qed.
    Lemma mat2 sps D q : sps = [1; 1; 0; 0]%N -> D = D2 ->
      (forall e, (forall v, In v (xvs sps) -> In (e v) (range (spc v))) -> act (map (inst e) D) psi (ref no nv) = evalP range A e q) ->
      so_vsim no nv atoms (SP sps q) (VT (elem2 no nv psi)).
    Proof using.
      intros -> -> H. constructor. split; [cbn [elem2 shape map]; rewrite dO, dV; reflexivity|]. intros idx e Hi Ha.
      cbn [elem2 shape] in Hi. assert (Hi' : inr idx (map (dim range) [1; 1; 0; 0]%N)) by (cbn [map]; rewrite dO, dV; exact Hi).
      rewrite <- H by (eapply eagree_in; [reflexivity|exact Hi'|exact Ha]).
      inversion Hi as [|a ? l ? B1 Hi1]; subst. inversion Hi1 as [|b ? l' ? B2 Hi2]; subst. inversion Hi2 as [|i ? l'' ? B3 Hi3]; subst. inversion Hi3 as [|j ? l3 ? B4 Hi4]; subst. inversion Hi4; subst.
      unfold eagree, orbs, zipw in Ha. cbn [combine map fst snd] in Ha. rewrite !nthO, !nthV in Ha by assumption.
      change (xvs [1; 1; 0; 0]%N) with [mkv 1 0; mkv 1 1; mkv 0 2; mkv 0 3] in Ha. cbn [map] in Ha. injection Ha as E1 E2 E3 E4.
      cbn [elem2 data D2 map]. unfold inst. cbn [fst snd]. rewrite E1, E2, E3, E4. reflexivity.
    Qed.
    Lemma mat2o sps D q : sps = [0; 0; 1; 1]%N -> D = D2o ->
      (forall e, (forall v, In v (xvs sps) -> In (e v) (range (spc v))) -> act (map (inst e) D) psi (ref no nv) = evalP range A e q) ->
      so_vsim no nv atoms (SP sps q) (VT (elem2_ov no nv psi)).
    Proof using.
      intros -> -> H. constructor. split; [cbn [elem2_ov shape map]; rewrite dO, dV; reflexivity|]. intros idx e Hi Ha.
      cbn [elem2_ov shape] in Hi. assert (Hi' : inr idx (map (dim range) [0; 0; 1; 1]%N)) by (cbn [map]; rewrite dO, dV; exact Hi).
      rewrite <- H by (eapply eagree_in; [reflexivity|exact Hi'|exact Ha]).
      inversion Hi as [|a ? l ? B1 Hi1]; subst. inversion Hi1 as [|b ? l' ? B2 Hi2]; subst. inversion Hi2 as [|i ? l'' ? B3 Hi3]; subst. inversion Hi3 as [|j ? l3 ? B4 Hi4]; subst. inversion Hi4; subst.
      unfold eagree, orbs, zipw in Ha. cbn [combine map fst snd] in Ha. rewrite !nthO, !nthV in Ha by assumption.
      change (xvs [0; 0; 1; 1]%N) with [mkv 0 0; mkv 0 1; mkv 1 2; mkv 1 3] in Ha. cbn [map] in Ha. injection Ha as E1 E2 E3 E4.
      cbn [elem2_ov data D2o map]. unfold inst. cbn [fst snd]. rewrite E1, E2, E3, E4. reflexivity.
    Qed.
  End Mat.
End Elems.

(** *** CCD *)
Definition tsD (c : nat) : list oterm := [tot 2 3 (1 # 4) c].
Lemma tsD_low L t : In t (tsD 0) -> (L + 2 <= slev (oo t) L)%nat.
Proof. intros [<-|[]]. cbn. lia. Qed.
Section CCD.
  Variables no nv : nat.
  Variables f g t2 : tensor.
  Hypothesis Hf : is_fock (no + nv) f.
  Hypothesis Hg : is_tei (no + nv) g.
  Hypothesis Ht : is_amp 2 no nv t2.
  Notation tab := [(0%N, ([6;6]%N, f)); (1%N, ([6;6;6;6]%N, g)); (3%N, ([1;1;0;0]%N, t2))].
  Notation range := (so_range no nv).
  Lemma ccd_state K J1 K1 e xs D : cpoly_ok tsD xs D J1 K1 = true -> (forall v, In v xs -> In (e v) (range (spc v))) ->
    (J1 + K1 <= 10)%nat -> (J1 <= S K)%nat -> (K1 <= S K)%nat -> (nann D < J1 * 2)%nat -> (nann D + 2 < K1 * 2)%nat ->
    act (map (inst e) D) (cc_state K no nv f g (T2op no nv t2)) (ref no nv) = evalP range (Aof range tab) e (cpoly tsD xs D J1 K1).
  Proof using.
    intros. apply (cc_poly no nv (Aof range tab) f g) with (r := 2%nat); try assumption.
    - apply read_f. reflexivity.
    - apply read_g. reflexivity.
    - intros e' c psi n HC. unfold Wick.osem. cbn [tsD suml]. rewrite Qcplus_0_r. apply tot2_sem; [|exact HC]. apply read_t2. reflexivity.
    - reflexivity.
    - apply tsD_low.
  Qed.
  Lemma ccd_residual K : (2 <= K)%nat -> exists R,
    returns 0 [] Code_t2residEqnsSlow.ccd_t2residual [VT t2; VT f; VT g; o_ no; v_ no] R /\
    teq R (elem2 no nv (cc_state K no nv f g (T2op no nv t2))).
  Proof using Hf Hg Ht.
    intros HK.
    eapply (so_reads no nv tab 0 [] Code_t2residEqnsSlow.ccd_t2residual [at_ 3 [1;1;0;0]%N; SFull 0 [0;0]%N; SFull 1 [0;0;0;0]%N; SSl 0; SSl 1]
      _ [1;1;0;0]%N (cpoly tsD (xvs [1;1;0;0]%N) D2 2 3)).
    - oks.
    - vsims.
    - apply (mat2 no nv tab _ _ D2); [reflexivity|reflexivity|]. intros e He. apply ccd_state; [vm_cast_no_check (@eq_refl bool true)|exact He|lia|lia|lia|cbn; lia|cbn; lia].
    - chk_.
  Qed.
End CCD.

(** *** CCSD *)
Definition tsSD (c : nat) : list oterm := [tot 1 2 1 c; tot 2 3 (1 # 4) c].
Lemma tsSD_low L t : In t (tsSD 0) -> (L + 1 <= slev (oo t) L)%nat.
Proof. intros [<-|[<-|[]]]; cbn; lia. Qed.
Section CCSD.
  Variables no nv : nat.
  Variables f g t1 t2 T1 T2 : tensor.
  Hypothesis Hf : is_fock (no + nv) f.
  Hypothesis Hg : is_tei (no + nv) g.
  Hypothesis H1 : is_amp 1 no nv t1.
  Hypothesis H2 : is_amp 2 no nv t2.
  Hypothesis S1 : swapped 1 t1 T1.
  Hypothesis S2 : swapped 2 t2 T2.
  Notation tab := [(0%N, ([6;6]%N, f)); (1%N, ([6;6;6;6]%N, g)); (2%N, ([1;0]%N, t1)); (3%N, ([1;1;0;0]%N, t2))].
  Notation range := (so_range no nv).
  Notation Tsd := (oplus (T1op no nv t1) (T2op no nv t2)).
  Lemma ccsd_state K J1 K1 e xs D : cpoly_ok tsSD xs D J1 K1 = true -> (forall v, In v xs -> In (e v) (range (spc v))) ->
    (J1 + K1 <= 10)%nat -> (J1 <= S K)%nat -> (K1 <= S K)%nat -> (nann D < J1 * 1)%nat -> (nann D + 2 < K1 * 1)%nat ->
    act (map (inst e) D) (cc_state K no nv f g Tsd) (ref no nv) = evalP range (Aof range tab) e (cpoly tsSD xs D J1 K1).
  Proof using.
    intros. apply (cc_poly no nv (Aof range tab) f g) with (r := 1%nat); try assumption.
    - apply read_f. reflexivity.
    - apply read_g. reflexivity.
    - intros e' c psi n HC. unfold Wick.osem, oplus. cbn [tsSD suml]. rewrite Qcplus_0_r. f_equal.
      + apply tot1_sem; [|exact HC]. apply read_t1. reflexivity.
      + apply tot2_sem; [|exact HC]. apply read_t2. reflexivity.
    - reflexivity.
    - apply tsSD_low.
  Qed.
  Lemma ccsd_singles K : (3 <= K)%nat -> exists R,
    returns 0 [] Code_cc_eqns.ccsd_t1resid [VT f; VT g; VT T1; VT T2; o_ no; v_ no] R /\
    teq R (elem1_ov no nv (cc_state K no nv f g Tsd)).
  Proof using Hf Hg H1 H2 S1 S2.
    intros HK.
    eapply (so_reads no nv tab 0 [] Code_cc_eqns.ccsd_t1resid [xF; xG; swp 2 1 [0;1]%N; swp 3 2 [0;0;1;1]%N; xo; xv]
      _ [0;1]%N (cpoly tsSD (xvs [0;1]%N) D1o 2 4)).
    - oks.
    - vsims.
    - apply (mat1o no nv tab _ _ D1o); [reflexivity|reflexivity|]. intros e He.
      apply ccsd_state; [vm_cast_no_check (@eq_refl bool true)|exact He|lia|lia|lia|cbn; lia|cbn; lia].
    - chk_.
  Qed.
  Lemma ccsd_doubles K : (4 <= K)%nat -> exists R,
    returns 1 lib_tamps Code_cc_eqns.ccsd_t2resid [VT f; VT g; VT T1; VT T2; o_ no; v_ no; VInt no; VInt nv] R /\
    teq R (elem2_ov no nv (cc_state K no nv f g Tsd)).
  Proof using Hf Hg H1 H2 S1 S2.
    intros HK.
    eapply (so_reads no nv tab 1 lib_tamps Code_cc_eqns.ccsd_t2resid [xF; xG; swp 2 1 [0;1]%N; swp 3 2 [0;0;1;1]%N; xo; xv; SDim 0; SDim 1]
      _ [0;0;1;1]%N (cpoly tsSD (xvs [0;0;1;1]%N) D2o 3 5)).
    - oks.
    - vsims.
    - apply (mat2o no nv tab _ _ D2o); [reflexivity|reflexivity|]. intros e He.
      apply ccsd_state; [vm_cast_no_check (@eq_refl bool true)|exact He|lia|lia|lia|cbn; lia|cbn; lia].
    - chk_.
  Qed.
End CCSD.

Section Energies.
  Variables no nv : nat.
  Variables f g t1 t2 T1 T2 : tensor.
  Hypothesis Hf : is_fock (no + nv) f.
  Hypothesis Hg : is_tei (no + nv) g.
  Hypothesis H2 : is_amp 2 no nv t2.
  Lemma ccd_energy K : (1 <= K)%nat -> exists E,
    returns 0 [] Code_t2energySlow.ccdEnergy [VT t2; VT f; VT g; o_ no; v_ no] E /\
    teq E (elem0 no nv (cc_state K no nv f g (T2op no nv t2))).
  Proof using Hf Hg H2.
    intros HK.
    eapply (so_reads no nv [(0%N, ([6;6]%N, f)); (1%N, ([6;6;6;6]%N, g)); (3%N, ([1;1;0;0]%N, t2))] 0 [] Code_t2energySlow.ccdEnergy
      [at_ 3 [1;1;0;0]%N; xF; xG; xo; xv] _ [] (cpoly tsD (xvs []) D0 1 2)).
    - oks.
    - vsims.
    - apply (mat0 no nv _ _ _ D0); [reflexivity|reflexivity|]. intros e He.
      apply ccd_state; [vm_cast_no_check (@eq_refl bool true)|exact He|lia|lia|lia|cbn; lia|cbn; lia].
    - chk_.
  Qed.
  Hypothesis H1 : is_amp 1 no nv t1.
  Hypothesis S1 : swapped 1 t1 T1.
  Hypothesis S2 : swapped 2 t2 T2.
  Notation tab := [(0%N, ([6;6]%N, f)); (1%N, ([6;6;6;6]%N, g)); (2%N, ([1;0]%N, t1)); (3%N, ([1;1;0;0]%N, t2))].
  Lemma ccsd_energy K : (2 <= K)%nat -> exists E,
    returns 0 [] Code_cc_energy.spinorbitalCCSDE_T1 [VT T2; VT g; VT f; o_ no; v_ no; VT T1] E /\
    teq E (elem0 no nv (cc_state K no nv f g (oplus (T1op no nv t1) (T2op no nv t2)))).
  Proof using Hf Hg H1 H2 S1 S2.
    intros HK.
    eapply (so_reads no nv tab 0 [] Code_cc_energy.spinorbitalCCSDE_T1 [swp 3 2 [0;0;1;1]%N; xG; xF; xo; xv; swp 2 1 [0;1]%N] _ [] (cpoly tsSD (xvs []) D0 1 3)).
    - oks.
    - vsims.
    - apply (mat0 no nv _ _ _ D0); [reflexivity|reflexivity|]. intros e He.
      apply ccsd_state; [vm_cast_no_check (@eq_refl bool true)|exact He|lia|lia|lia|cbn; lia|cbn; lia].
    - chk_.
  Qed.
End Energies.

Lemma ret_unique d l fn v R1 R2 : returns d l fn v R1 -> returns d l fn v R2 -> R1 = R2.
Proof. unfold returns. congruence. Qed.

(** C42.  The coded CCD residual and energy are the matrix elements of exp(-T2) H exp(T2), to any order K >= 2 at which the
    exponentials are cut off. *)
Theorem C42_ccd_equations : forall no nv f g t2,
  is_fock (no + nv) f -> is_tei (no + nv) g -> is_amp 2 no nv t2 ->
  exists R E,
    returns 0 [] Code_t2residEqnsSlow.ccd_t2residual [VT t2; VT f; VT g; o_ no; v_ no] R /\
    returns 0 [] Code_t2energySlow.ccdEnergy [VT t2; VT f; VT g; o_ no; v_ no] E /\
    shape R = [nv; nv; no; no] /\ shape E = [] /\
    forall K, (2 <= K)%nat -> let psi := cc_state K no nv f g (T2op no nv t2) in
      data E [] = bra0 no nv psi /\
      forall a b i j, (a < nv)%nat -> (b < nv)%nat -> (i < no)%nat -> (j < no)%nat -> data R [a; b; i; j] = bra2 no nv a b i j psi.
Proof.
  intros no nv f g t2 Hf Hg Ht.
  destruct (ccd_residual no nv f g t2 Hf Hg Ht 2 (le_n 2)) as [R [HR [SR _]]].
  destruct (ccd_energy no nv f g t2 Hf Hg Ht 2 ltac:(lia)) as [E [HE [SE _]]].
  exists R, E. split; [exact HR|]. split; [exact HE|]. split; [exact SR|]. split; [exact SE|]. intros K HK psi.
  destruct (ccd_residual no nv f g t2 Hf Hg Ht K HK) as [R' [HR' [_ DR]]]. rewrite (ret_unique _ _ _ _ _ _ HR' HR) in DR. rewrite SR in DR.
  destruct (ccd_energy no nv f g t2 Hf Hg Ht K ltac:(lia)) as [E' [HE' [_ DE]]]. rewrite (ret_unique _ _ _ _ _ _ HE' HE) in DE. rewrite SE in DE.
  split; [exact (DE [] (Forall2_nil _))|]. intros a b i j Ha Hb Hi Hj. apply (DR [a; b; i; j]).
  repeat constructor; assumption.
Qed.
Print Assumptions C42_ccd_equations.
Example C42_ccd_instance := C42_ccd_equations 2 2 (i_fock 4) (i_tei 4) (i_amp 2 2 2) (i_fock_ok 4) (i_tei_ok 4) (i_amp_ok 2 2 2).
(** the matrix elements of the instance are not all zero: the reference energy and one double excitation *)
Example C42_ccd_nontrivial :
  let psi := cc_state 2 2 2 (i_fock 4) (i_tei 4) (T2op 2 2 (i_amp 2 2 2)) in
  (Qeq_bool (this (bra0 2 2 psi)) 0 || Qeq_bool (this (bra2 2 2 0 1 0 1 psi)) 0)%bool = false.
Proof. vm_compute. reflexivity. Qed.

(** C42, CCSD.  The same for T = T1 + T2: singles residual, doubles residual and energy (arrays with occupied indices first). *)
Theorem C42_ccsd_equations : forall no nv f g t1 t2 T1 T2,
  is_fock (no + nv) f -> is_tei (no + nv) g -> is_amp 1 no nv t1 -> is_amp 2 no nv t2 -> swapped 1 t1 T1 -> swapped 2 t2 T2 ->
  exists R1 R2 E,
    returns 0 [] Code_cc_eqns.ccsd_t1resid [VT f; VT g; VT T1; VT T2; o_ no; v_ no] R1 /\
    returns 1 lib_tamps Code_cc_eqns.ccsd_t2resid [VT f; VT g; VT T1; VT T2; o_ no; v_ no; VInt no; VInt nv] R2 /\
    returns 0 [] Code_cc_energy.spinorbitalCCSDE_T1 [VT T2; VT g; VT f; o_ no; v_ no; VT T1] E /\
    shape R1 = [no; nv] /\ shape R2 = [no; no; nv; nv] /\ shape E = [] /\
    forall K, (4 <= K)%nat -> let psi := cc_state K no nv f g (oplus (T1op no nv t1) (T2op no nv t2)) in
      data E [] = bra0 no nv psi /\
      (forall a i, (a < nv)%nat -> (i < no)%nat -> data R1 [i; a] = bra1 no nv a i psi) /\
      forall a b i j, (a < nv)%nat -> (b < nv)%nat -> (i < no)%nat -> (j < no)%nat -> data R2 [i; j; a; b] = bra2 no nv a b i j psi.
Proof.
  intros no nv f g t1 t2 T1 T2 Hf Hg H1 H2 S1 S2.
  destruct (ccsd_singles no nv f g t1 t2 T1 T2 Hf Hg H1 H2 S1 S2 4 ltac:(lia)) as [R1 [HR1 [SR1 _]]].
  destruct (ccsd_doubles no nv f g t1 t2 T1 T2 Hf Hg H1 H2 S1 S2 4 ltac:(lia)) as [R2 [HR2 [SR2 _]]].
  destruct (ccsd_energy no nv f g t1 t2 T1 T2 Hf Hg H2 H1 S1 S2 4 ltac:(lia)) as [E [HE [SE _]]].
  exists R1, R2, E. repeat (split; [assumption|]). intros K HK psi.
  destruct (ccsd_singles no nv f g t1 t2 T1 T2 Hf Hg H1 H2 S1 S2 K ltac:(lia)) as [R' [HR' [_ DR1]]]. rewrite (ret_unique _ _ _ _ _ _ HR' HR1), SR1 in DR1.
  destruct (ccsd_doubles no nv f g t1 t2 T1 T2 Hf Hg H1 H2 S1 S2 K ltac:(lia)) as [R'' [HR'' [_ DR2]]]. rewrite (ret_unique _ _ _ _ _ _ HR'' HR2), SR2 in DR2.
  destruct (ccsd_energy no nv f g t1 t2 T1 T2 Hf Hg H2 H1 S1 S2 K ltac:(lia)) as [E' [HE' [_ DE]]]. rewrite (ret_unique _ _ _ _ _ _ HE' HE), SE in DE.
  split; [exact (DE [] (Forall2_nil _))|]. split.
  - intros a i Ha Hi. apply (DR1 [i; a]). repeat constructor; assumption.
  - intros a b i j Ha Hb Hi Hj. apply (DR2 [i; j; a; b]). repeat constructor; assumption.
Qed.
Print Assumptions C42_ccsd_equations.
Example C42_ccsd_instance := C42_ccsd_equations 2 2 (i_fock 4) (i_tei 4) (i_amp 1 2 2) (i_amp 2 2 2) _ _
  (i_fock_ok 4) (i_tei_ok 4) (i_amp_ok 1 2 2) (i_amp_ok 2 2 2) (swap_t_ok 1 _) (swap_t_ok 2 _).
