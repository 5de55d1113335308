(** C65: the perturbative correction of the spin-integrated full CC code (fullCC_energyMain with get_perturbCorr=True). *)
From Coq Require Import String Ascii List Arith NArith ZArith QArith Qcanon Bool Lia Permutation.
From Verif Require Import Sums Tensor Interp Numpy Poly SymExec Canon Spec SpecDriver Instances Setup Master Spin Check Tabs NF Antisym Formula Fock Wick CCState P_antisym Asym P_flip SpinLink.
From Verif Require Import Diis Kernel SlowCC P_slow SpinCC P_spinrun Denoms P_denoms FullCC P_fock3 P_spin_energy P_triples P_qf P_spin_t4 P_fock4.
From Verif Require Code_build_approxT3full Code_square_brakT_corr Code_fullCCenergy.
Import ListNotations.
Open Scope string_scope.
Open Scope Qc_scope.

(** ** Specification *)
(** The adjoint of a doubles array, t[a,b,i,j] read as [i,j,a,b]. *)
Definition adjoint2 (no nv : nat) (t : tensor) : tensor := arr4 no no nv nv (fun i j a b => data t [a; b; i; j]).
(** The adjoint of the first-order doubles  <ab||ij> / (e_i + e_j - e_a - e_b). *)
Definition first_order_doubles_adjoint (no nv : nat) (g : tensor) (e : nat -> Qc) : tensor :=
  arr4 no no nv nv (fun i j a b => data g [no + a; no + b; i; j]%nat / (e i + e j - e (no + a)%nat - e (no + b)%nat)).
(** The approximate triples  <Phi_ijk^abc| [H, T2] |Phi> / (e_i + e_j + e_k - e_a - e_b - e_c). *)
Definition approximate_triples (no nv : nat) (f g t2 : tensor) (e : nat -> Qc) : tensor :=
  arr6 nv no (fun a b c i j k =>
    bra3 no nv a b c i j k (comm (Ham no nv f g) (T2op no nv t2) (Phi no nv)) /
    (e i + e j + e k - e (no + a)%nat - e (no + b)%nat - e (no + c)%nat)).
(** The operator whose quadruple excitations are contracted: 1/2 [[H,T2],T2] + [H,T3], and with [star] also 1/6 [[[H,T2],T2],T2]. *)
Definition quadruples_op (star : bool) (no nv : nat) (f g t2 t3 : tensor) : op :=
  let H := Ham no nv f g in
  let T2 := T2op no nv t2 in
  let Q := oplus (oscale (1 # 2) (comm (comm H T2) T2)) (comm H (T3op no nv t3)) in
  if star then oplus Q (oscale (1 # 6) (comm (comm (comm H T2) T2) T2)) else Q.
Definition starred (ty : string) : bool := ((ty =? "CCSDT(Qf*)") || (ty =? "CCD(Qf*)"))%bool.
(** The denominators the routine reads, and the spins of their indices. *)
Definition pert_denoms : list (string * list spin) :=
  [("D2aa", [Up; Up]); ("D2bb", [Dn; Dn]); ("D2ab", [Up; Dn]);
   ("D3aaa", [Up; Up; Up]); ("D3aab", [Up; Up; Dn]); ("D3abb", [Up; Dn; Dn]); ("D3bbb", [Dn; Dn; Dn])].
(** The stored amplitudes are these blocks; singles and l2 arrays are present. *)
Definition stored (d l2 : dict) (t2aa t2bb t2ab t3aaa t3aab t3abb t3bbb : tensor) : Prop :=
  slook "t2aa" d = Some t2aa /\ slook "t2bb" d = Some t2bb /\ slook "t2ab" d = Some t2ab /\
  slook "t3aaa" d = Some t3aaa /\ slook "t3aab" d = Some t3aab /\ slook "t3abb" d = Some t3abb /\ slook "t3bbb" d = Some t3bbb /\
  (forall k, In k ["t1aa"; "t1bb"] -> slook k d <> None) /\
  (forall k, In k ["l2aa"; "l2bb"; "l2ab"] -> slook k l2 <> None).

(** ** Lemmas *)
Lemma perm_count f (l p : list nat) : Permutation l p -> count f l = count f p.
Proof.
  unfold count. induction 1 as [|x l l' _ IH|x y l|l l' l'' _ IH1 _ IH2]; cbn [filter].
  - reflexivity.
  - destruct (f x); cbn [length]; congruence.
  - destruct (f x), (f y); reflexivity.
  - congruence.
Qed.
Lemma inr_perm l1 l2 p1 p2 n m k : Permutation l1 p1 -> Permutation l2 p2 -> length l1 = k -> length l2 = k ->
  inr (l1 ++ l2) (repeat n k ++ repeat m k)%list -> inr (p1 ++ p2) (repeat n k ++ repeat m k)%list.
Proof.
  intros P1 P2 L1 L2 I.
  assert (G : forall l n k, length l = k -> (inr l (repeat n k) <-> forall x, In x l -> (x < n)%nat)).
  { clear. induction l as [|x l IH]; intros n [|k] L; try discriminate L; cbn [repeat]; [split; [intros _ y []|constructor]|].
    injection L as L. split.
    - intros H. inversion H; subst. intros y [<-|Hy]; [assumption|]. eapply (proj1 (IH n (length l) eq_refl)); eassumption.
    - intros H. constructor; [apply H; left; reflexivity|]. apply IH; [exact L|]. intros y Hy. apply H. right. exact Hy. }
  apply Forall2_app_inv_l in I. destruct I as [m1 [m2 [X1 [X2 EQ]]]]. pose proof (Forall2_len _ _ _ X1) as LX.
  assert (m1 = repeat n k /\ m2 = repeat m k) as [-> ->].
  { assert (Z : length m1 = length (repeat n k)) by (rewrite repeat_length; lia).
    revert EQ. generalize (repeat m k). intros r EQ. symmetry in EQ. revert EQ Z. clear. generalize (repeat n k). induction m1 as [|x m1 IH]; intros [|y u] EQ Z; try discriminate Z; cbn [app] in EQ; [split; [reflexivity|exact EQ]|].
    injection EQ as <- EQ. injection Z as Z. destruct (IH _ EQ Z) as [-> ->]. split; reflexivity. }
  apply Forall2_app; apply G.
  - rewrite <- (Permutation_length P1). exact L1.
  - intros x Hx. apply (proj1 (G l1 n k L1) X1). eapply Permutation_in; [symmetry; exact P1|exact Hx].
  - rewrite <- (Permutation_length P2). exact L2.
  - intros x Hx. apply (proj1 (G l2 m k L2) X2). eapply Permutation_in; [symmetry; exact P2|exact Hx].
Qed.
(** antisymmetrising keeps spin conservation *)
Lemma antis_cons S k no nv W T : shape W = (repeat nv k ++ repeat no k)%list -> spin_conserving_amp S k W -> antisymmetrised k W T -> spin_conserving_amp S k T.
Proof.
  intros SW HC [ST HT] l1 l2 L1 L2 I HN. rewrite ST in I. rewrite (HT l1 l2 L1 I).
  apply suml_zero. intros p HP. apply suml_zero. intros q HQ.
  assert (P1 : Permutation l1 (snd p)) by (destruct p; eapply signed_perms_perm; exact HP).
  assert (P2 : Permutation l2 (snd q)) by (destruct q; eapply signed_perms_perm; exact HQ).
  rewrite HC; [ring| | | |].
  - rewrite <- (Permutation_length P1). exact L1.
  - rewrite <- (Permutation_length P2). exact L2.
  - rewrite SW in *. eapply inr_perm; eassumption.
  - rewrite <- (perm_count _ _ _ P1), <- (perm_count _ _ _ P2). exact HN.
Qed.
Lemma cons_teq S k X Y : teq X Y -> spin_conserving_amp S k X -> spin_conserving_amp S k Y.
Proof. intros [E1 E2] H l1 l2 L1 L2 I HN. rewrite <- E1 in I. rewrite <- E2 by exact I. apply H; assumption. Qed.

Section Numer.
  Variables no nv : nat.
  Variable S : spinmap.
  Variables F G T2 T3 : tensor.
  Hypothesis HS : spin_ok no nv S.
  Hypothesis HG : is_tei (2 * no + 2 * nv) G.
  Hypothesis HGc : spin_conserving S no 2 G.
  Hypothesis HT : spin_amp S 2 no nv T2.
  Hypothesis HT3 : spin_amp S 3 no nv T3.
  Let tab := [(1%N, ([6;6;6;6]%N, G)); (3%N, ([1;1;0;0]%N, T2)); (4%N, ([1;1;1;0;0;0]%N, T3))] : atomtab.
  Lemma nm_ok : Forall (atom_ok (sp_range no nv S) sy) tab. Proof. unfold tab. spoks. Qed.
  Lemma nm_co : Forall (conserving no nv S) tab. Proof. unfold tab. spcons. Qed.
  Lemma WT2_cons : spin_conserving_amp S 3 (W_T2 (2 * no) (2 * nv) G T2).
  Proof.
    assert (V : sp_vsim no nv S tab (SP (vo_ 3) p_WT2) (VT (W_T2 (2 * no) (2 * nv) G T2))).
    { unfold vo_, p_WT2, W_T2, tab. cbn [repeat app]. sp_form HS. }
    eapply (conserves_ok no nv S HS tab nm_ok nm_co 3); [|exact V]. vm_cast_no_check (eq_refl true).
  Qed.
  Lemma WQT_cons : spin_conserving_amp S 4 (tsum (W_T2T2 (2 * no) (2 * nv) G T2) (W_T3 (2 * no) (2 * nv) G T3)).
  Proof.
    assert (V22 : sp_vsim no nv S tab (SP (vo_ 4) p_WT2T2) (VT (W_T2T2 (2 * no) (2 * nv) G T2))).
    { unfold vo_, p_WT2T2, W_T2T2, tab. cbn [repeat app]. sp_form HS. }
    assert (V3 : sp_vsim no nv S tab (SP (vo_ 4) p_WT3) (VT (W_T3 (2 * no) (2 * nv) G T3))).
    { unfold vo_, p_WT3, W_T3, tab. cbn [repeat app]. sp_form HS. }
    pose proof (sp_vs_sum _ _ _ _ _ _ _ _ _ V22 V3) as VU.
    eapply (conserves_ok no nv S HS tab nm_ok nm_co 4); [|exact VU]. vm_cast_no_check (eq_refl true).
  Qed.
  Lemma WC_cons : spin_conserving_amp S 4 (W_T2T2T2 (2 * no) (2 * nv) G T2).
  Proof.
    assert (V : sp_vsim no nv S tab (SP (vo_ 4) p_WT2T2T2) (VT (W_T2T2T2 (2 * no) (2 * nv) G T2))).
    { unfold vo_, p_WT2T2T2, W_T2T2T2, tab. cbn [repeat app]. sp_form HS. }
    eapply (conserves_ok no nv S HS tab nm_ok nm_co 4); [|exact V]. vm_cast_no_check (eq_refl true).
  Qed.
End Numer.

(** *** Dividing by orbital-energy differences, block by block *)
Section Div.
  Variables no nv : nat.
  Variable S : spinmap.
  Hypothesis HS : spin_ok no nv S.
  Variables (eps : nat -> Qc) (e : spin -> nat -> Qc).
  Hypothesis HE : forall s p, (p < no + nv)%nat -> eps (orb S no s p) = e s p.
  Lemma zip_inr ss l1 l2 : length l1 = length ss -> inr (l1 ++ l2) (repeat nv (length ss) ++ repeat no (length ss))%list ->
    inr (zipw (fun s a => nth a (vir S s) O) ss l1 ++ zipw (fun s i => nth i (occ S s) O) ss l2)%list
        (repeat (2 * nv)%nat (length ss) ++ repeat (2 * no)%nat (length ss))%list.
  Proof.
    intros L I. pose proof (inr_len _ _ I) as X. rewrite !app_length, !repeat_length in X.
    destruct (amp_parts _ _ _ l1 l2 L I) as [HA HB].
    assert (IR : forall n (f : spin -> nat -> nat) l, length l = length ss -> (forall s x, In x l -> (f s x < n)%nat) -> inr (zipw f ss l) (repeat n (length ss))).
    { clear. intros n f l. revert l. induction ss as [|s ss IH]; intros [|x l] L H; cbn in L; try lia; [constructor|]. rewrite zipw_cons. cbn [length repeat]. constructor; [apply H; left; reflexivity|].
      apply IH; [lia|]. intros; apply H; right; assumption. }
    apply Forall2_app; apply IR; try lia; intros s y Hy; [apply (nth_vir_lt no nv S HS)|apply (nth_occ_lt no nv S HS)]; auto.
  Qed.
  Lemma block_div ss N X r D : block_amp S no nv ss N r -> is_spin_denominator ss (fun _ => no) (fun _ => nv) e D ->
    (forall l1 l2, length l1 = length ss -> inr (l1 ++ l2) (repeat (2 * nv)%nat (length ss) ++ repeat (2 * no)%nat (length ss))%list ->
       data X (l1 ++ l2)%list = data N (l1 ++ l2)%list * / gap (2 * no) eps l1 l2) ->
    exists y, tbin Qcmult r D = Some y /\ block_amp S no nv ss X y.
  Proof.
    intros [Sr Dr] [SD HD] HX.
    assert (SS : shape r = shape D).
    { rewrite Sr, SD. f_equal; clear; induction ss as [|s ss IH]; cbn [length repeat map]; congruence. }
    rewrite tbin_ok by exact SS. eexists; split; [reflexivity|]. split; [exact Sr|]. intros l1 l2 L I. cbn [data shape] in *.
    rewrite (Dr _ _ L I). rewrite HD; [|exact L|rewrite <- SS; exact I]. rewrite Sr in I.
    pose proof (inr_len _ _ I) as LL. rewrite !app_length, !repeat_length in LL.
    destruct (amp_parts _ _ _ l1 l2 L I) as [HA HB].
    rewrite HX; [|unfold zipw; rewrite map_length, combine_length; lia|apply zip_inr; assumption].
    f_equal. f_equal. symmetry. apply (gap_orb no nv S eps e HE); (assumption || lia || auto).
  Qed.
End Div.

(** *** The adjoint first-order doubles *)
Section Doubles.
  Variables no nv : nat.
  Variable S : spinmap.
  Hypothesis HS : spin_ok no nv S.
  Variables (eps : nat -> Qc) (e : spin -> nat -> Qc).
  Hypothesis HE : forall s p, (p < no + nv)%nat -> eps (orb S no s p) = e s p.
  Variable G : tensor.
  Hypothesis HG : is_tei (2 * no + 2 * nv) G.
  Hypothesis HGc : spin_conserving S no 2 G.
  Let Gv := arr4 (2 * nv) (2 * nv) (2 * no) (2 * no) (fun a b i j => data G [2 * no + a; 2 * no + b; i; j]%nat).
  Let X := arr4 (2 * nv) (2 * nv) (2 * no) (2 * no) (fun a b i j => data Gv [a; b; i; j] * / gap (2 * no) eps [a; b] [i; j]).
  Let K := first_order_doubles_adjoint (2 * no) (2 * nv) G eps.
  Lemma gv_conserves : spin_conserving_amp S 2 Gv.
  Proof.
    intros l1 l2 L1 L2 I N. destruct l1 as [|a [|b [|]]]; try discriminate L1. destruct l2 as [|i [|j [|]]]; try discriminate L2.
    apply inr4 in I. destruct I as [[A B] [C D]]. unfold Gv, arr4. cbn [data app].
    apply (HGc [2 * no + a; 2 * no + b]%nat [i; j] eq_refl eq_refl).
    - rewrite (proj1 HG). apply inr4. lia.
    - intros E. apply N. revert E. unfold count. cbn [filter].
      assert (V : forall x, isup S no (2 * no + x)%nat = isup_vir S x).
      { intros x. unfold isup. rewrite (proj2 (Nat.ltb_ge _ _)) by lia. f_equal. lia. }
      assert (O : forall x, (x < 2 * no)%nat -> isup S no x = isup_occ S x).
      { intros x Hx. unfold isup. rewrite (proj2 (Nat.ltb_lt _ _)) by exact Hx. reflexivity. }
      rewrite !V, !O by assumption. destruct (isup_vir S a), (isup_vir S b), (isup_occ S i), (isup_occ S j); exact (fun E => E).
  Qed.
  Lemma gv_amp : is_amp 2 (2 * no) (2 * nv) Gv.
  Proof.
    destruct HG as [SG [AA _]]. destruct (AA 0%nat ltac:(lia)) as [A0 A2]. split; [reflexivity|]. intros i Hi. assert (i = 0)%nat as -> by lia.
    assert (R : forall x y z w, inr [x; y; z; w] (shape Gv) -> inr [2 * no + x; 2 * no + y; z; w]%nat (shape G)).
    { intros x y z w I. apply inr4 in I. rewrite SG. apply inr4. lia. }
    split; intros pre x y post L I1 I2.
    - destruct pre; [|discriminate L]. cbn [app] in *. pose proof (inr_len _ _ I1) as LL. destruct post as [|z [|w [|]]]; try discriminate LL.
      unfold Gv, arr4. cbn [data]. apply (A0 [] _ _ [z; w] eq_refl); cbn [app]; apply R; assumption.
    - destruct pre as [|p [|q [|]]]; try discriminate L. cbn [app] in *. pose proof (inr_len _ _ I1) as LL. destruct post; [|discriminate LL].
      unfold Gv, arr4. cbn [data]. apply (A2 [2 * no + p; 2 * no + q]%nat _ _ [] eq_refl); cbn [app]; apply R; assumption.
  Qed.
  Lemma gap_nil4 a b i j : gap (2 * no) eps [a; b] [i; j] = eps i + eps j - eps (2 * no + a)%nat - eps (2 * no + b)%nat.
  Proof. unfold gap. cbn [suml]. ring. Qed.
  Lemma X_spin : spin_amp S 2 no nv X.
  Proof.
    set (D := mkT (shape Gv) (fun l => / gap (2 * no) eps (firstn 2 l) (skipn 2 l))).
    assert (HD : is_denominator 2 (2 * no) (2 * nv) eps D).
    { split; [reflexivity|]. intros l1 l2 L I. unfold D. cbn [data]. destruct l1 as [|a [|b [|]]]; try discriminate L. reflexivity. }
    destruct (amp_times_sym (2 * no) (2 * nv) 2 Gv D gv_amp (den_sym _ _ 2 eps D HD)) as [Y [EY AY]].
    assert (Q : teq Y X).
    { apply tbin_inv in EY. destruct EY as [_ ->]. split; [reflexivity|]. intros l I. cbn [shape] in I. unfold Gv in I. cbn [arr4 shape] in I.
      destruct (inr_4 _ _ _ _ _ I) as [a [b [i [j [-> _]]]]]. reflexivity. }
    split; [eapply amp_teq; [exact AY|]|].
    - split; [symmetry; apply Q|]. intros l I. symmetry. apply (proj2 Q). rewrite (proj1 Q). exact I.
    - eapply cons_teq; [exact Q|]. eapply cons_mul_r; [exact gv_conserves|exact EY].
  Qed.
  Lemma X_K : swapped 2 X K.
  Proof.
    split; [reflexivity|]. intros l1 l2 L I. destruct l1 as [|a [|b [|]]]; try discriminate L.
    pose proof (inr_len _ _ I) as LL. destruct l2 as [|i [|j [|]]]; try discriminate LL. cbn [app].
    unfold K, first_order_doubles_adjoint, X, Gv, arr4. cbn [data]. rewrite gap_nil4. reflexivity.
  Qed.
  Lemma dagger_ok s1 s2 g D : block_full S no nv [s1; s2; s1; s2] G g -> is_spin_denominator [s1; s2] (fun _ => no) (fun _ => nv) e D ->
    exists x y k, tslice [(no, None); (no, None); (0%nat, Some no); (0%nat, Some no)] g = Some x /\ tbin Qcmult x D = Some y /\
      ttransp [2; 3; 0; 1]%nat y = Some k /\ block_amp_ov S no nv [s1; s2] K k.
  Proof.
    intros [Sg Dg] HD. cbn [length repeat] in Sg.
    assert (E1 : exists x, tslice [(no, None); (no, None); (0%nat, Some no); (0%nat, Some no)] g = Some x /\ block_amp S no nv [s1; s2] Gv x).
    { unfold tslice. rewrite Sg. cbn [length Nat.eqb]. eexists; split; [reflexivity|].
      unfold zipw. cbn [combine map fst snd].
      assert (Q1 : slice_len no None (no + nv) = nv) by (unfold slice_len, slice_stop, slice_start; lia).
      assert (Q2 : slice_len 0 (Some no) (no + nv) = no) by (unfold slice_len, slice_stop, slice_start; lia).
      assert (Q3 : slice_start no (no + nv) = no) by (unfold slice_start; lia).
      assert (Q4 : slice_start 0 (no + nv) = 0%nat) by (unfold slice_start; lia).
      rewrite Q1, Q2, Q3, Q4. apply block2_intro; [reflexivity|]. intros a b i j A B C D'. cbn [data combine map fst snd].
      rewrite Dg by (rewrite Sg; apply inr4; lia). unfold zipw. cbn [combine map fst snd]. unfold Gv, arr4. cbn [data].
      assert (OV : forall s x, (x < nv)%nat -> orb S no s (no + x)%nat = (2 * no + nth x (vir S s) O)%nat).
      { intros s x Hx. unfold orb. rewrite (proj2 (Nat.ltb_ge _ _)) by lia. do 2 f_equal. lia. }
      assert (OO : forall s x, (x < no)%nat -> orb S no s (0 + x)%nat = nth x (occ S s) O).
      { intros s x Hx. unfold orb. rewrite (proj2 (Nat.ltb_lt _ _)) by exact Hx. reflexivity. }
      rewrite !OV, !OO by assumption. reflexivity. }
    destruct E1 as [x [E1 B1]].
    destruct (block_div no nv S HS eps e HE [s1; s2] Gv X x D B1 HD) as [y [E2 B2]].
    { intros l1 l2 L I. destruct l1 as [|a [|b [|]]]; try discriminate L. pose proof (inr_len _ _ I) as LL. destruct l2 as [|i [|j [|]]]; try discriminate LL. reflexivity. }
    destruct (swapped_def y nv nv no no (proj1 B2)) as [k [E3 W3]].
    exists x, y, k. split; [exact E1|]. split; [exact E2|]. split; [exact E3|].
    exact (block_swapped no nv S HS s1 s2 X y K k eq_refl B2 X_K W3).
  Qed.
  Lemma K_spin : spin_amp_ov S 2 no nv K.
  Proof.
    destruct (transp_amp (2 * no) (2 * nv) X (proj1 X_spin)) as [Y [_ [WY AY]]].
    pose proof (spin_amp_swapped no nv S X Y X_spin AY WY) as [_ CY].
    assert (Q : teq K Y).
    { split; [rewrite (proj1 AY); reflexivity|]. intros l I. unfold K, first_order_doubles_adjoint in I. cbn [arr4 shape] in I.
      destruct (inr_4 _ _ _ _ _ I) as [i [j [a [b [-> [[C D] [A B]]]]]]].
      transitivity (data X [a; b; i; j]); [apply (proj2 X_K [a; b] [i; j] eq_refl)|symmetry; apply (proj2 WY [a; b] [i; j] eq_refl)]; apply inr4; auto. }
    split.
    - destruct AY as [SY HY]. split; [reflexivity|]. intros i Hi.
      assert (GG : forall p, antisymmetric_in Y p -> antisymmetric_in K p).
      { intros p HP pre x y post HL I1 I2. rewrite (proj2 Q), (proj2 Q) by assumption. apply HP; [exact HL|rewrite <- (proj1 Q); assumption|rewrite <- (proj1 Q); assumption]. }
      split; apply GG, HY, Hi.
    - intros l1 l2 L1 L2 I N. rewrite (proj2 Q) by exact I. apply CY; try assumption. rewrite <- (proj1 Q). exact I.
  Qed.
End Doubles.

(** *** The approximate triples *)
Section Triples.
  Variables no nv : nat.
  Variable S : spinmap.
  Hypothesis HS : spin_ok no nv S.
  Variables (eps : nat -> Qc) (e : spin -> nat -> Qc).
  Hypothesis HE : forall s p, (p < no + nv)%nat -> eps (orb S no s p) = e s p.
  Variables F G f_aa f_bb g_aaaa g_bbbb g_abab T2 t_aaaa t_bbbb t_abab : tensor.
  Hypothesis HH : spin_hamiltonian S no nv F G f_aa f_bb g_aaaa g_bbbb g_abab.
  Hypothesis HT : spin_amp S 2 no nv T2.
  Hypothesis HB : blocks2 S no nv T2 t_aaaa t_bbbb t_abab.
  Let X := approximate_triples (2 * no) (2 * nv) F G T2 eps.
  Let args := [VT t_aaaa; VT t_bbbb; VT t_abab; VT g_aaaa; VT g_bbbb; VT g_abab; o_ no; o_ no; v_ no; v_ no].
  Lemma z3_spin : spin_amp S 3 no nv (mkT [2 * nv; 2 * nv; 2 * nv; 2 * no; 2 * no; 2 * no]%nat (fun _ => 0)).
  Proof. split; [apply z3_ok|]. intros l1 l2 _ _ _ _. reflexivity. Qed.
  Lemma triples_ok Daaa Daab Dabb Dbbb :
    is_spin_denominator [Up; Up; Up] (fun _ => no) (fun _ => nv) e Daaa -> is_spin_denominator [Up; Up; Dn] (fun _ => no) (fun _ => nv) e Daab ->
    is_spin_denominator [Up; Dn; Dn] (fun _ => no) (fun _ => nv) e Dabb -> is_spin_denominator [Dn; Dn; Dn] (fun _ => no) (fun _ => nv) e Dbbb ->
    spin_amp S 3 no nv X /\ exists r_aaa r_aab r_abb r_bbb x_aaa x_aab x_abb x_bbb,
      returns 0 [] Code_build_approxT3full.ccsdtq_t3_aaaaaa_residual args r_aaa /\
      returns 0 [] Code_build_approxT3full.ccsdtq_t3_aabaab_residual args r_aab /\
      returns 0 [] Code_build_approxT3full.ccsdtq_t3_abbabb_residual args r_abb /\
      returns 0 [] Code_build_approxT3full.ccsdtq_t3_bbbbbb_residual args r_bbb /\
      tbin Qcmult r_aaa Daaa = Some x_aaa /\ tbin Qcmult r_aab Daab = Some x_aab /\
      tbin Qcmult r_abb Dabb = Some x_abb /\ tbin Qcmult r_bbb Dbbb = Some x_bbb /\
      blocks3 S no nv X x_aaa x_aab x_abb x_bbb.
  Proof.
    intros D1 D2 D3 D4.
    destruct (C17_spin_triples no nv S F G f_aa f_bb g_aaaa g_bbbb g_abab T2 t_aaaa t_bbbb t_abab HS HH HT HB)
      as [N [r1 [r2 [r3 [r4 [A1 [A2 [B1 [B2 [B3 [B4 B5]]]]]]]]]]].
    pose proof (proj1 HH) as Hf. pose proof (proj1 (proj2 (proj2 HH))) as Hg. pose proof (proj1 (proj2 (proj2 (proj2 HH)))) as Hgc.
    assert (S3 : shape N = [2 * nv; 2 * nv; 2 * nv; 2 * no; 2 * no; 2 * no]%nat) by exact (proj1 A1).
    assert (EN : forall l1 l2, length l1 = 3%nat -> inr (l1 ++ l2) (repeat (2 * nv)%nat 3 ++ repeat (2 * no)%nat 3)%list ->
              data X (l1 ++ l2)%list = data N (l1 ++ l2)%list * / gap (2 * no) eps l1 l2).
    { intros l1 l2 L I. destruct l1 as [|a [|b [|c [|]]]]; try discriminate L. pose proof (inr_len _ _ I) as LL. destruct l2 as [|i [|j [|k [|]]]]; try discriminate LL.
      cbn [app repeat] in *. idx_ I.
      rewrite (num_T3 (2 * no) (2 * nv) F G T2 _ Hf Hg (proj1 HT) (z3_ok _ _) N A1) by assumption.
      unfold X, approximate_triples, arr6. cbn [data]. unfold Qcdiv. f_equal. f_equal. unfold gap. cbn [suml]. ring. }
    split.
    - set (D := mkT (shape N) (fun l => / gap (2 * no) eps (firstn 3 l) (skipn 3 l))).
      assert (HD : is_denominator 3 (2 * no) (2 * nv) eps D).
      { split; [exact S3|]. intros l1 l2 L I. unfold D. cbn [data]. destruct l1 as [|a [|b [|c [|]]]]; try discriminate L. reflexivity. }
      assert (HN : is_amp 3 (2 * no) (2 * nv) N) by (split; [exact S3|exact A2]).
      destruct (amp_times_sym (2 * no) (2 * nv) 3 N D HN (den_sym _ _ 3 eps D HD)) as [Y [EY AY]].
      assert (Q : teq X Y).
      { pose proof (proj1 AY) as SY. apply tbin_inv in EY. destruct EY as [_ ->]. split; [symmetry; exact S3|]. intros l I. change (shape X) with [2 * nv; 2 * nv; 2 * nv; 2 * no; 2 * no; 2 * no]%nat in I. idx_ I.
        match goal with |- data X [?a; ?b; ?c; ?i; ?j; ?k] = _ => exact (EN [a; b; c] [i; j; k] eq_refl ltac:(repeat constructor; assumption)) end. }
      split; [exact (amp_teq _ _ 3 Y X AY Q)|].
      eapply cons_teq; [split; [symmetry; exact (proj1 Q)|intros l I; symmetry; apply (proj2 Q); rewrite (proj1 Q); exact I]|].
      eapply cons_mul_r; [|exact EY]. eapply (antis_cons S 3 (2 * no) (2 * nv)); [|exact (WT2_cons no nv S G T2 _ HS Hg Hgc HT z3_spin)|exact A1]. reflexivity.
    - destruct B5 as [K1 [K2 [K3 K4]]].
      destruct (block_div no nv S HS eps e HE [Up; Up; Up] N X r1 Daaa K1 D1 EN) as [x1 [E1 Y1]].
      destruct (block_div no nv S HS eps e HE [Up; Up; Dn] N X r2 Daab K2 D2 EN) as [x2 [E2 Y2]].
      destruct (block_div no nv S HS eps e HE [Up; Dn; Dn] N X r3 Dabb K3 D3 EN) as [x3 [E3 Y3]].
      destruct (block_div no nv S HS eps e HE [Dn; Dn; Dn] N X r4 Dbbb K4 D4 EN) as [x4 [E4 Y4]].
      exists r1, r2, r3, r4, x1, x2, x3, x4. repeat (split; [assumption|]). assumption.
  Qed.
End Triples.

(** *** The contraction *)
Lemma KL_bra no nv K L T4 psi : (forall a b c d i j k l, (a < nv)%nat -> (b < nv)%nat -> (c < nv)%nat -> (d < nv)%nat ->
    (i < no)%nat -> (j < no)%nat -> (k < no)%nat -> (l < no)%nat -> data T4 [a; b; c; d; i; j; k; l] = bra4 no nv a b c d i j k l psi) ->
  KL_T4 no nv K L T4 = bra0 no nv (L2op no nv K (L2op no nv L psi)).
Proof.
  intros H. rewrite bra0_L2. unfold KL_T4.
  transitivity (Q2Qc (1 # 4) * (Sum i < no, Sum j < no, Sum a < nv, Sum b < nv, data K [i; j; a; b] *
    (Q2Qc (1 # 4) * (Sum k < no, Sum m < no, Sum c < nv, Sum d < nv, data L [k; m; c; d] * data T4 [a; b; c; d; i; j; k; m])))).
  - transitivity (Q2Qc (1 # 4) * (Q2Qc (1 # 4) * (Sum i < no, Sum j < no, Sum a < nv, Sum b < nv, Sum k < no, Sum m < no, Sum c < nv, Sum d < nv,
      data K [i; j; a; b] * (data L [k; m; c; d] * data T4 [a; b; c; d; i; j; k; m])))).
    + rewrite Qcmult_assoc. replace (Q2Qc (1 # 4) * Q2Qc (1 # 4)) with (Q2Qc (1 # 16)) by (apply Qc_is_canon; reflexivity). f_equal.
      apply suml_ext; intros i _. apply suml_ext; intros j _.
      transitivity (Sum k < no, Sum a < nv, Sum b < nv, Sum l < no, Sum c < nv, Sum d < nv, data K [i; j; a; b] * (data L [k; l; c; d] * data T4 [a; b; c; d; i; j; k; l])).
      * apply suml_ext; intros k _. rewrite suml_swap. apply suml_ext; intros a _. rewrite suml_swap. apply suml_ext; intros b _.
        apply suml_ext; intros l _. apply suml_ext; intros c _. apply suml_ext; intros d _. ring.
      * rewrite suml_swap. apply suml_ext; intros a _. rewrite suml_swap. reflexivity.
    + f_equal. rewrite <- suml_scale. apply suml_ext; intros i _. rewrite <- suml_scale. apply suml_ext; intros j _. rewrite <- suml_scale. apply suml_ext; intros a _.
      rewrite <- suml_scale. apply suml_ext; intros b _.
      transitivity (Q2Qc (1 # 4) * (data K [i; j; a; b] * (Sum k < no, Sum m < no, Sum c < nv, Sum d < nv, data L [k; m; c; d] * data T4 [a; b; c; d; i; j; k; m]))); [|ring].
      f_equal. rewrite <- suml_scale. apply suml_ext; intros k _. rewrite <- suml_scale. apply suml_ext; intros m _. rewrite <- suml_scale. apply suml_ext; intros c _. rewrite <- suml_scale. apply suml_ext; intros d _. reflexivity.
  - f_equal. apply suml_ext; intros i Hi. apply suml_ext; intros j Hj. apply suml_ext; intros a Ha. apply suml_ext; intros b Hb. f_equal.
    apply in_seq in Hi, Hj, Ha, Hb. rewrite bra2_L2 by lia. f_equal.
    apply suml_ext; intros k Hk. apply suml_ext; intros m Hm. apply suml_ext; intros c Hc. apply suml_ext; intros d Hd. apply in_seq in Hk, Hm, Hc, Hd.
    rewrite H by lia. reflexivity.
Qed.
Lemma bra4_plus no nv a b c d i j k l X Y psi : bra4 no nv a b c d i j k l (oplus X Y psi) = bra4 no nv a b c d i j k l (X psi) + bra4 no nv a b c d i j k l (Y psi).
Proof.
  set (ops := [(true, i); (true, j); (true, k); (true, l); (false, no + d); (false, no + c); (false, no + b); (false, no + a)]%nat).
  change (act ops (oplus X Y psi) (ref no nv) = act ops (X psi) (ref no nv) + act ops (Y psi) (ref no nv)).
  pose proof (act_suml ops [true; false] (fun u : bool => if u then X psi else Y psi) (ref no nv)) as E. cbn [suml] in E.
  rewrite (act_ext ops (oplus X Y psi) (fun m => X psi m + (Y psi m + 0))).
  - rewrite E. ring.
  - intros m. unfold oplus. ring.
Qed.

(** ** C65 *)
Lemma bnd_none {A B} (x : option A) (k : option B) : x <> None -> obind x (fun _ => k) = k.
Proof. destruct x; [reflexivity|congruence]. Qed.
Lemma adjoint_swapped no nv t : shape t = [nv; nv; no; no] -> swapped 2 t (adjoint2 no nv t).
Proof.
  intros St. split; [rewrite St; reflexivity|]. intros l1 l2 L I. rewrite St in I. destruct l1 as [|a [|b [|]]]; try discriminate L.
  pose proof (inr_len _ _ I) as LL. destruct l2 as [|i [|j [|]]]; try discriminate LL. reflexivity.
Qed.
Lemma adjoint_spin no nv S T : spin_amp S 2 no nv T -> spin_amp_ov S 2 no nv (adjoint2 (2 * no) (2 * nv) T).
Proof.
  intros HT. pose proof (adjoint_swapped (2 * no) (2 * nv) T (proj1 (proj1 HT))) as SW.
  apply (spin_amp_swapped no nv S T); [exact HT| |exact SW].
  destruct (transp_amp (2 * no) (2 * nv) T (proj1 HT)) as [Y [_ [WY AY]]].
  destruct AY as [SY HY]. split; [reflexivity|]. intros i Hi.
  assert (Q : teq (adjoint2 (2 * no) (2 * nv) T) Y).
  { split; [rewrite SY; reflexivity|]. intros l I. unfold adjoint2 in I. cbn [arr4 shape] in I.
    destruct (inr_4 _ _ _ _ _ I) as [x [y [a [b [-> [[C D] [A B]]]]]]].
    symmetry. apply (proj2 WY [a; b] [x; y] eq_refl). rewrite (proj1 (proj1 HT)). apply inr4; auto. }
  assert (GG : forall p, antisymmetric_in Y p -> antisymmetric_in (adjoint2 (2 * no) (2 * nv) T) p).
  { intros p HP pre x y post HL I1 I2. rewrite (proj2 Q), (proj2 Q) by assumption. apply HP; [exact HL|rewrite <- (proj1 Q); assumption|rewrite <- (proj1 Q); assumption]. }
  split; apply GG, HY, Hi.
Qed.

Section Main.
  Variables no nv : nat.
  Variable S : spinmap.
  Hypothesis HS : spin_ok no nv S.
  Variables (eps : nat -> Qc) (e : spin -> nat -> Qc).
  Hypothesis HE : forall s p, (p < no + nv)%nat -> eps (orb S no s p) = e s p.
  Variables F G f_aa f_bb g_aaaa g_bbbb g_abab T2 t_aaaa t_bbbb t_abab : tensor.
  Hypothesis HH : spin_hamiltonian S no nv F G f_aa f_bb g_aaaa g_bbbb g_abab.
  Hypothesis HT : spin_amp S 2 no nv T2.
  Hypothesis HB : blocks2 S no nv T2 t_aaaa t_bbbb t_abab.
  Let L := adjoint2 (2 * no) (2 * nv) T2.
  Let K := first_order_doubles_adjoint (2 * no) (2 * nv) G eps.
  (** from the triples on (lines 84-160) *)
  Lemma tail_ok T3 t_aaa t_aab t_abb t_bbb laa lbb lab kaa kbb kab star :
    spin_amp S 3 no nv T3 -> blocks3 S no nv T3 t_aaa t_aab t_abb t_bbb ->
    blocks2_ov S no nv L laa lbb lab -> blocks2_ov S no nv K kaa kbb kab ->
    let a := [VNone; VNone; VT t_aaaa; VT t_bbbb; VT t_abab; VT t_aaa; VT t_aab; VT t_abb; VT t_bbb;
              VNone; VNone; VNone; VNone; VNone; VT f_aa; VT f_bb; VT g_aaaa; VT g_bbbb; VT g_abab; o_ no; o_ no; v_ no; v_ no] in
    let qf x1 x2 x3 x4 x5 := call0 Code_fullCCenergy.energy_pertQf
      [VT kaa; VT kab; VT kbb; VT x1; VT x2; VT x3; VT x4; VT x5; VT laa; VT lbb; VT lab; o_ no; v_ no] in
    let add f q := if (star : bool) then do x <- call0 f a; tbin Qcplus q x else Some q in
    exists q1 q2 q3 q4 q5 E0 q1' q2' q3' q4' q5' E,
      call0 Code_fullCCenergy.ccsdtq_t4_aaaaaaaa_residual a = Some q1 /\
      call0 Code_fullCCenergy.ccsdtq_t4_bbbbbbbb_residual a = Some q5 /\
      call0 Code_fullCCenergy.ccsdtq_t4_aaabaaab_residual a = Some q2 /\
      call0 Code_fullCCenergy.ccsdtq_t4_aabbaabb_residual a = Some q3 /\
      call0 Code_fullCCenergy.ccsdtq_t4_abbbabbb_residual a = Some q4 /\
      qf q1 q2 q3 q4 q5 = Some E0 /\
      add Code_fullCCenergy.ccsdtqT2cubed_t4_aaaaaaaa_residual q1 = Some q1' /\
      add Code_fullCCenergy.ccsdtqT2cubed_t4_aaabaaab_residual q2 = Some q2' /\
      add Code_fullCCenergy.ccsdtqT2cubed_t4_aabbaabb_residual q3 = Some q3' /\
      add Code_fullCCenergy.ccsdtqT2cubed_t4_abbbabbb_residual q4 = Some q4' /\
      add Code_fullCCenergy.ccsdtqT2cubed_t4_bbbbbbbb_residual q5 = Some q5' /\
      qf q1' q2' q3' q4' q5' = Some E /\
      data E [] = bra0 (2 * no) (2 * nv) (L2op (2 * no) (2 * nv) K (L2op (2 * no) (2 * nv) L
        (quadruples_op star (2 * no) (2 * nv) F G T2 T3 (Phi (2 * no) (2 * nv))))).
  Proof.
    intros HT3 HB3 BL BK a qf add.
    pose proof (proj1 HH) as Hf. pose proof (proj1 (proj2 (proj2 HH))) as Hg. pose proof (proj1 (proj2 (proj2 (proj2 HH)))) as Hgc.
    pose proof (adjoint_spin no nv S T2 HT) as SL. fold L in SL.
    pose proof (K_spin no nv S eps G Hg Hgc) as SK. fold K in SK.
    destruct (C15_spin_quadruples_blocks no nv S F G f_aa f_bb g_aaaa g_bbbb g_abab T2 t_aaaa t_bbbb t_abab T3 t_aaa t_aab t_abb t_bbb HS HH HT HB HT3 HB3)
      as [T4 [r1 [r2 [r3 [r4 [r5 [T4' [c1 [c2 [c3 [c4 [c5 [A1 [A2 [B1 [B2 [B3 [B4 [B5 [B6 [A3 [A4 [D1 [D2 [D3 [D4 [D5 D6]]]]]]]]]]]]]]]]]]]]]]]]]]].
    assert (P4 : spin_amp S 4 no nv T4).
    { split; [split; [exact (proj1 A1)|exact A2]|].
      eapply (antis_cons S 4 (2 * no) (2 * nv)); [|exact (WQT_cons no nv S G T2 T3 HS Hg Hgc HT HT3)|exact A1]. reflexivity. }
    assert (P4' : spin_amp S 4 no nv T4').
    { split; [split; [exact (proj1 A3)|exact A4]|].
      eapply (antis_cons S 4 (2 * no) (2 * nv)); [|exact (WC_cons no nv S G T2 T3 HS Hg Hgc HT HT3)|exact A3]. reflexivity. }
    destruct (C16_spin_qf_contraction no nv S K kaa kbb kab L laa lbb lab T4 r1 r2 r3 r4 r5 HS SK BK SL BL P4 B6) as [E0 [Z1 [_ Z2]]].
    pose proof (num_QT (2 * no) (2 * nv) F G T2 T3 Hf Hg (proj1 HT) (proj1 HT3) T4 A1) as N4.
    apply call0_returns in B1, B2, B3, B4, B5, D1, D2, D3, D4, D5, Z1.
    destruct star.
    - pose proof (num_C (2 * no) (2 * nv) F G T2 _ Hf Hg (proj1 HT) (z3_ok _ _) T4' A3) as N4'.
      destruct (amp_plus (2 * no) (2 * nv) 4 T4 T4' (proj1 P4) (proj1 P4')) as [T5 [E5 A5]].
      assert (P5 : spin_amp S 4 no nv T5).
      { split; [exact A5|]. eapply cons_bin; [|exact (proj2 P4)|exact (proj2 P4')|exact E5]. ring. }
      destruct B6 as [G1 [G2 [G3 [G4 G5]]]], D6 as [J1 [J2 [J3 [J4 J5]]]].
      destruct (block_bin no nv S _ _ _ _ _ _ _ G1 J1 E5) as [y1 [Y1 M1]].
      destruct (block_bin no nv S _ _ _ _ _ _ _ G2 J2 E5) as [y2 [Y2 M2]].
      destruct (block_bin no nv S _ _ _ _ _ _ _ G3 J3 E5) as [y3 [Y3 M3]].
      destruct (block_bin no nv S _ _ _ _ _ _ _ G4 J4 E5) as [y4 [Y4 M4]].
      destruct (block_bin no nv S _ _ _ _ _ _ _ G5 J5 E5) as [y5 [Y5 M5]].
      assert (M : blocks4 S no nv T5 y1 y2 y3 y4 y5) by (unfold blocks4; auto).
      destruct (C16_spin_qf_contraction no nv S K kaa kbb kab L laa lbb lab T5 y1 y2 y3 y4 y5 HS SK BK SL BL P5 M) as [E [Z3 [_ Z4]]].
      apply call0_returns in Z3.
      exists r1, r2, r3, r4, r5, E0, y1, y2, y3, y4, y5, E.
      split; [exact B1|]. split; [exact B5|]. split; [exact B2|]. split; [exact B3|]. split; [exact B4|]. split; [exact Z1|].
      unfold add. unfold a. rewrite D1, D2, D3, D4, D5. cbn [obind].
      split; [exact Y1|]. split; [exact Y2|]. split; [exact Y3|]. split; [exact Y4|]. split; [exact Y5|]. split; [exact Z3|].
      rewrite Z4. apply KL_bra. intros x1 x2 x3 x4 x5 x6 x7 x8 Q1 Q2 Q3 Q4 Q5 Q6 Q7 Q8. unfold quadruples_op. rewrite bra4_plus.
      rewrite <- (N4 x1 x2 x3 x4 x5 x6 x7 x8), <- (N4' x1 x2 x3 x4 x5 x6 x7 x8) by assumption.
      apply tbin_inv in E5. destruct E5 as [_ ->]. reflexivity.
    - exists r1, r2, r3, r4, r5, E0, r1, r2, r3, r4, r5, E0.
      split; [exact B1|]. split; [exact B5|]. split; [exact B2|]. split; [exact B3|]. split; [exact B4|]. split; [exact Z1|].
      do 5 (split; [reflexivity|]). split; [exact Z1|].
      rewrite Z2. apply KL_bra. exact N4.
  Qed.
End Main.

(** C65.  From amplitudes whose arrays are the spin blocks of spin-orbital amplitudes T2 and T3, the routine returns half of
    <Phi| K2 L2 Q |Phi>, with K2 the adjoint first-order doubles, L2 the adjoint of T2 and Q = 1/2 [[H,T2],T2] + [H,T3], to which the
    two starred labels add 1/6 [[[H,T2],T2],T2].  For "CCSD(Qf)" the stored triples are replaced by the approximate ones, and their
    [T] energy is printed. *)
Theorem C65_full_correction : forall no nv S F G f_aa f_bb g_aaaa g_bbbb g_abab T2 t_aaaa t_bbbb t_abab T3 t_aaa t_aab t_abb t_bbb eps e denom c d l2,
  spin_ok no nv S -> spin_hamiltonian S no nv F G f_aa f_bb g_aaaa g_bbbb g_abab ->
  spin_amp S 2 no nv T2 -> blocks2 S no nv T2 t_aaaa t_bbbb t_abab ->
  spin_amp S 3 no nv T3 -> blocks3 S no nv T3 t_aaa t_aab t_abb t_bbb ->
  (* eps are the orbital energies of the spin orbitals, e s those of the orbitals of spin s *)
  (forall s p, (p < no + nv)%nat -> eps (orb S no s p) = e s p) ->
  (forall key ss, In (key, ss) pert_denoms -> exists D, slook key denom = Some D /\ is_spin_denominator ss (fun _ => no) (fun _ => nv) e D) ->
  stored d l2 t_aaaa t_bbbb t_abab t_aaa t_aab t_abb t_bbb ->
  let approx := cc_type c =? "CCSD(Qf)" in
  let T3' := if approx then approximate_triples (2 * no) (2 * nv) F G T2 eps else T3 in
  let L2 := L2op (2 * no) (2 * nv) (adjoint2 (2 * no) (2 * nv) T2) in
  let K2 := L2op (2 * no) (2 * nv) (first_order_doubles_adjoint (2 * no) (2 * nv) G eps) in
  let vac := Phi (2 * no) (2 * nv) in
  full_pert no no f_aa f_bb g_aaaa g_bbbb g_abab denom c d l2 =
    Some (if approx then Some (bra0 (2 * no) (2 * nv) (L2 (comm (Fluct (2 * no) (2 * nv) G) (T3op (2 * no) (2 * nv) T3') vac))) else None,
          bra0 (2 * no) (2 * nv) (K2 (L2 (quadruples_op (starred (cc_type c)) (2 * no) (2 * nv) F G T2 T3' vac))) * Q2Qc (1 # 2)).
Proof.
  intros no nv S F G f_aa f_bb g_aaaa g_bbbb g_abab T2 t_aaaa t_bbbb t_abab T3 t_aaa t_aab t_abb t_bbb eps e denom c d l2 HS HH HT HB HT3 HB3 HE HD
    [R1 [R2 [R3 [R4 [R5 [R6 [R7 [R8 R9]]]]]]]] approx T3' L2 K2 vac.
  destruct (HD "D2aa" _ ltac:(cbn; auto)) as [D2aa [N1 D1]]. destruct (HD "D2bb" _ ltac:(cbn; auto)) as [D2bb [N2 D2]].
  destruct (HD "D2ab" _ ltac:(cbn; auto)) as [D2ab [N3 D3]].
  destruct (HD "D3aaa" _ ltac:(cbn; auto)) as [D3aaa [N4 D4]]. destruct (HD "D3aab" _ ltac:(cbn; auto 6)) as [D3aab [N5 D5]].
  destruct (HD "D3abb" _ ltac:(cbn; auto 8)) as [D3abb [N6 D6]]. destruct (HD "D3bbb" _ ltac:(cbn; auto 9)) as [D3bbb [N7 D7]].
  pose proof (proj1 HH) as Hf. pose proof (proj1 (proj2 (proj2 HH))) as Hg. pose proof (proj1 (proj2 (proj2 (proj2 HH)))) as Hgc.
  pose proof (proj2 (proj2 (proj2 (proj2 (proj2 (proj2 HH)))))) as [Gaa [Gbb Gab]].
  pose proof HB as [Ba [Bb Bc]].
  destruct (swapped_def t_aaaa nv nv no no (proj1 Ba)) as [laa [La Wa]].
  destruct (swapped_def t_bbbb nv nv no no (proj1 Bb)) as [lbb [Lb Wb]].
  destruct (swapped_def t_abab nv nv no no (proj1 Bc)) as [lab [Lc Wc]].
  pose proof (adjoint_swapped (2 * no) (2 * nv) T2 (proj1 (proj1 HT))) as WT.
  assert (BL : blocks2_ov S no nv (adjoint2 (2 * no) (2 * nv) T2) laa lbb lab).
  { pose proof (proj1 (proj1 HT)) as ST. split; [|split].
    - exact (block_swapped no nv S HS _ _ T2 t_aaaa _ laa ST Ba WT Wa).
    - exact (block_swapped no nv S HS _ _ T2 t_bbbb _ lbb ST Bb WT Wb).
    - exact (block_swapped no nv S HS _ _ T2 t_abab _ lab ST Bc WT Wc). }
  pose proof (adjoint_spin no nv S T2 HT) as SL.
  destruct (dagger_ok no nv S HS eps e HE G Up Up g_aaaa D2aa Gaa D1) as [xa [ya [kaa [X1 [X2 [X3 X4]]]]]].
  destruct (dagger_ok no nv S HS eps e HE G Dn Dn g_bbbb D2bb Gbb D2) as [xb' [yb [kbb [X5 [X6 [X7 X8]]]]]].
  destruct (dagger_ok no nv S HS eps e HE G Up Dn g_abab D2ab Gab D3) as [xc [yc [kab [X9 [X10 [X11 X12]]]]]].
  assert (BK : blocks2_ov S no nv (first_order_doubles_adjoint (2 * no) (2 * nv) G eps) kaa kbb kab) by (split; [|split]; assumption).
  (* the triples in use *)
  assert (TT : exists printed x1 x2 x3 x4, spin_amp S 3 no nv T3' /\ blocks3 S no nv T3' x1 x2 x3 x4 /\
     printed = (if approx then Some (bra0 (2 * no) (2 * nv) (L2 (comm (Fluct (2 * no) (2 * nv) G) (T3op (2 * no) (2 * nv) T3') vac))) else None) /\
     (if approx then
        let a := [VT t_aaaa; VT t_bbbb; VT t_abab; VT g_aaaa; VT g_bbbb; VT g_abab; o_ no; o_ no; v_ no; v_ no] in
        do raaa <- call0 Code_build_approxT3full.ccsdtq_t3_aaaaaa_residual a;
        do raab <- call0 Code_build_approxT3full.ccsdtq_t3_aabaab_residual a;
        do rabb <- call0 Code_build_approxT3full.ccsdtq_t3_abbabb_residual a;
        do rbbb <- call0 Code_build_approxT3full.ccsdtq_t3_bbbbbb_residual a;
        do xaaa <- tbin Qcmult raaa D3aaa; do xaab <- tbin Qcmult raab D3aab;
        do xabb <- tbin Qcmult rabb D3abb; do xbbb <- tbin Qcmult rbbb D3bbb;
        do e <- call0 Code_square_brakT_corr.square_brakT [VT g_aaaa; VT g_abab; VT g_bbbb; o_ no; v_ no;
                  VT laa; VT lab; VT lbb; VT xaaa; VT xaab; VT xabb; VT xbbb];
        Some (Some (data e []), (xaaa, xaab, xabb, xbbb))
      else Some (None, (t_aaa, t_aab, t_abb, t_bbb))) = Some (printed, (x1, x2, x3, x4))).
  { unfold T3'. destruct approx.
    - destruct (triples_ok no nv S HS eps e HE F G f_aa f_bb g_aaaa g_bbbb g_abab T2 t_aaaa t_bbbb t_abab HH HT HB D3aaa D3aab D3abb D3bbb D4 D5 D6 D7)
        as [SX [r1 [r2 [r3 [r4 [x1 [x2 [x3 [x4 [A1 [A2 [A3 [A4 [A5 [A6 [A7 [A8 A9]]]]]]]]]]]]]]]]].
      apply call0_returns in A1, A2, A3, A4.
      assert (Z1 : spin_amp_ov S 1 no nv (mkT [2 * no; 2 * nv]%nat (fun _ => 0))).
      { split; [split; [reflexivity|intros i Hi; lia]|]. intros ? ? _ _ _ _. reflexivity. }
      destruct (C63_bracket_T no nv S F G f_aa f_bb g_aaaa g_bbbb g_abab _ laa lbb lab _ x1 x2 x3 x4 _ HS HH SL BL SX A9 Z1) as [E [_ [B1 [_ [_ [B2 _]]]]]].
      apply call0_returns in B1.
      eexists _, x1, x2, x3, x4. split; [exact SX|]. split; [exact A9|]. split; [reflexivity|].
      cbv zeta. rewrite A1, A2, A3, A4. cbn [obind]. rewrite A5, A6, A7, A8. cbn [obind]. rewrite B1. cbn [obind]. rewrite B2. reflexivity.
    - exists None, t_aaa, t_aab, t_abb, t_bbb. auto. }
  destruct TT as [printed [x1 [x2 [x3 [x4 [S3 [B3 [-> ET]]]]]]]].
  destruct (tail_ok no nv S HS eps F G f_aa f_bb g_aaaa g_bbbb g_abab T2 t_aaaa t_bbbb t_abab HH HT HB T3' x1 x2 x3 x4 laa lbb lab kaa kbb kab (starred (cc_type c))
     S3 B3 BL BK) as [q1 [q2 [q3 [q4 [q5 [E0 [q1' [q2' [q3' [q4' [q5' [E [Y1 [Y2 [Y3 [Y4 [Y5 [Y6 [Y7 [Y8 [Y9 [Y10 [Y11 [Y12 Y13]]]]]]]]]]]]]]]]]]]]]]]].
  assert (ST : is_in c ["CCSDT(Qf*)"; "CCD(Qf*)"] = starred (cc_type c)).
  { unfold is_in, starred. cbn [existsb]. rewrite orb_false_r. reflexivity. }
  unfold full_pert. rewrite !bnd_none by (apply R8; cbn; auto). rewrite R1, R2, R3, R4, R5, R6, R7, N4, N5, N6, N7. cbn [obind].
  rewrite !bnd_none by (apply R9; cbn; auto). rewrite La, Lb, Lc. cbn [obind]. fold approx. cbv zeta in ET. cbn [obind] in ET. cbv zeta. rewrite ET. cbn [obind]. cbv zeta.
  unfold ints. cbn [app]. rewrite Y1, Y2, Y3, Y4, Y5. cbn [obind]. rewrite N1, N2, N3. cbn [obind].
  rewrite X1, X5, X9. cbn [obind]. rewrite X2, X6, X10. cbn [obind]. rewrite X3, X7, X11. cbn [obind].
  rewrite Y6. cbn [obind]. rewrite ST. rewrite Y7, Y8, Y9, Y10, Y11. cbn [obind]. rewrite Y12. cbn [obind]. rewrite Y13. reflexivity.
Qed.
Print Assumptions C65_full_correction.

(** *** A closed shell: the denominators that get_denoms makes of one list of orbital energies are what C65 asks for. *)
Lemma one_energy ss no nv es D : is_denominator (length ss) no nv (fun p => nth p es 0) D ->
  is_spin_denominator ss (fun _ => no) (fun _ => nv) (fun _ p => nth p es 0) D.
Proof.
  intros [A B]. assert (K : forall (x : nat) (l : list spin), map (fun _ => x) l = repeat x (length l)) by (intros x l; induction l; cbn; congruence).
  split; [rewrite A, !K; reflexivity|]. intros virt occ L I. rewrite (B virt occ L I). f_equal. unfold gap, spin_gap.
  rewrite A in I. pose proof (inr_len _ _ I) as LL. rewrite !app_length, !repeat_length in LL.
  assert (Q : forall (h : nat -> Qc) (l : list nat), length l = length ss -> suml (combine ss l) (fun p => h (snd p)) = suml l h).
  { clear. intros h l. revert l. induction ss as [|s ss IH]; intros [|x l] L; try discriminate; [reflexivity|]. cbn [combine suml snd]. rewrite IH by (injection L as L; exact L). reflexivity. }
  rewrite (Q (fun p => nth p es 0) occ) by lia. rewrite (Q (fun p => nth (no + p) es 0) virt) by lia. reflexivity.
Qed.
Lemma closed_shell_denoms : forall rt no nv es denom,
  slook "ccdTypeSlow" rt = None -> slook "fullCCType" rt <> None -> length es = (no + nv)%nat ->
  get_denoms rt (spin_slices no no) [("eps_aa", es); ("eps_bb", es)] = Some denom ->
  forall key ss, In (key, ss) pert_denoms -> exists D, slook key denom = Some D /\
    is_spin_denominator ss (fun _ => no) (fun _ => nv) (fun _ p => nth p es 0) D.
Proof.
  intros rt no nv es denom H1 H2 H3 H4 key ss HI.
  assert (X : exists D, slook key denom = Some D).
  { revert H4. unfold get_denoms, haskey. rewrite H1. destruct (slook "fullCCType" rt); [|congruence]. rewrite orb_true_r.
    cbn [negb andb orb spin_slices slook String.eqb Ascii.eqb Bool.eqb obind].
    destruct (hasvalue "CCSDTQ" rt || hasvalue "CCDQ" rt)%bool; cbn [negb orb]; intros H; injection H as <-; cbn in HI;
      repeat (destruct HI as [HI|HI]; [injection HI as <- <-; eexists; reflexivity|]); destruct HI. }
  destruct X as [D X]. exists D. split; [exact X|]. apply one_energy.
  cbn in HI. repeat (destruct HI as [HI|HI];
    [injection HI as <- <-; cbn [length]; eapply (C25_full_closed_shell rt no nv es denom H1 H2 H3 H4); [| |exact X]; [|]; cbn; (left; reflexivity) || (right; left; reflexivity) || (right; right; left; reflexivity) || idtac|]).
  all: try (destruct HI).
  all: cbn; auto 10.
Qed.

(** C65, closed shell: the same with the denominators as the code builds them from the orbital energies, [es] for both spins. *)
Theorem C65_closed_shell : forall no nv S F G f_aa f_bb g_aaaa g_bbbb g_abab T2 t_aaaa t_bbbb t_abab T3 t_aaa t_aab t_abb t_bbb eps es rt denom c d l2,
  spin_ok no nv S -> spin_hamiltonian S no nv F G f_aa f_bb g_aaaa g_bbbb g_abab ->
  spin_amp S 2 no nv T2 -> blocks2 S no nv T2 t_aaaa t_bbbb t_abab ->
  spin_amp S 3 no nv T3 -> blocks3 S no nv T3 t_aaa t_aab t_abb t_bbb ->
  slook "ccdTypeSlow" rt = None -> slook "fullCCType" rt <> None -> length es = (no + nv)%nat ->
  (forall s p, (p < no + nv)%nat -> eps (orb S no s p) = nth p es 0) ->
  get_denoms rt (spin_slices no no) [("eps_aa", es); ("eps_bb", es)] = Some denom ->
  stored d l2 t_aaaa t_bbbb t_abab t_aaa t_aab t_abb t_bbb ->
  let T3' := if cc_type c =? "CCSD(Qf)" then approximate_triples (2 * no) (2 * nv) F G T2 eps else T3 in
  let L2 := L2op (2 * no) (2 * nv) (adjoint2 (2 * no) (2 * nv) T2) in
  let K2 := L2op (2 * no) (2 * nv) (first_order_doubles_adjoint (2 * no) (2 * nv) G eps) in
  full_pertMain no no f_aa f_bb g_aaaa g_bbbb g_abab denom c E_fullCC d l2 tt =
    Some (bra0 (2 * no) (2 * nv) (K2 (L2 (quadruples_op (starred (cc_type c)) (2 * no) (2 * nv) F G T2 T3' (Phi (2 * no) (2 * nv))))) * Q2Qc (1 # 2), tt).
Proof.
  intros no nv S F G f_aa f_bb g_aaaa g_bbbb g_abab T2 t_aaaa t_bbbb t_abab T3 t_aaa t_aab t_abb t_bbb eps es rt denom c d l2 HS HH HT HB HT3 HB3 R1 R2 HL HE HD HA T3' L2 K2.
  unfold full_pertMain.
  rewrite (C65_full_correction no nv S F G f_aa f_bb g_aaaa g_bbbb g_abab T2 t_aaaa t_bbbb t_abab T3 t_aaa t_aab t_abb t_bbb eps (fun _ p => nth p es 0) denom c d l2
    HS HH HT HB HT3 HB3 HE (closed_shell_denoms rt no nv es denom R1 R2 HL HD) HA). reflexivity.
Qed.
Print Assumptions C65_closed_shell.

(** *** Instances: four electrons in eight spin orbitals, for each kind of label *)
Definition x_S : spinmap := mkSM (fun s => match s with Up => [0; 2] | Dn => [1; 3] end)%nat (fun s => match s with Up => [0; 2] | Dn => [1; 3] end)%nat.
Lemma x_S_ok : spin_ok 2 2 x_S.
Proof.
  repeat split; try (intros []; reflexivity); cbn; apply NoDup_Permutation_bis; try (cbn; lia); try (intros x; cbn; lia); repeat constructor; cbn; lia.
Qed.
Definition x_es : list Qc := [Q2Qc (-3 # 1); Q2Qc (-1 # 1); Q2Qc (1 # 2); Q2Qc (2 # 1)].
Definition x_d : dict :=
  [("t1aa", tzeros [2; 2]%nat); ("t1bb", tzeros [2; 2]%nat);
   ("t2aa", blk_amp x_S 2 2 [Up; Up] (s_amp x_S 2 2 2)); ("t2bb", blk_amp x_S 2 2 [Dn; Dn] (s_amp x_S 2 2 2)); ("t2ab", blk_amp x_S 2 2 [Up; Dn] (s_amp x_S 2 2 2));
   ("t3aaa", blk_amp x_S 2 2 [Up; Up; Up] (s_amp x_S 2 2 3)); ("t3bbb", blk_amp x_S 2 2 [Dn; Dn; Dn] (s_amp x_S 2 2 3));
   ("t3aab", blk_amp x_S 2 2 [Up; Up; Dn] (s_amp x_S 2 2 3)); ("t3abb", blk_amp x_S 2 2 [Up; Dn; Dn] (s_amp x_S 2 2 3))].
Definition x_l2 : dict := [("l2aa", tzeros []); ("l2bb", tzeros []); ("l2ab", tzeros [])].
Example C65_instance : forall ty, In ty ["CCSDT(Qf)"; "CCSDT(Qf*)"; "CCSD(Qf)"] ->
  exists denom E, full_pertMain 2 2 (blk_full x_S 2 2 [Up; Up] (s_fock x_S 2 2)) (blk_full x_S 2 2 [Dn; Dn] (s_fock x_S 2 2))
    (blk_full x_S 2 2 [Up; Up; Up; Up] (s_tei x_S 2 2)) (blk_full x_S 2 2 [Dn; Dn; Dn; Dn] (s_tei x_S 2 2)) (blk_full x_S 2 2 [Up; Dn; Up; Dn] (s_tei x_S 2 2))
    denom (mkCalc "fullCCType" ty 75 0 None 0 0 0) E_fullCC x_d x_l2 tt = Some (E, tt).
Proof.
  assert (X : forall ty denom, get_denoms [("fullCCType", ty)] (spin_slices 2 2) [("eps_aa", x_es); ("eps_bb", x_es)] = Some denom ->
    exists E, full_pertMain 2 2 (blk_full x_S 2 2 [Up; Up] (s_fock x_S 2 2)) (blk_full x_S 2 2 [Dn; Dn] (s_fock x_S 2 2))
    (blk_full x_S 2 2 [Up; Up; Up; Up] (s_tei x_S 2 2)) (blk_full x_S 2 2 [Dn; Dn; Dn; Dn] (s_tei x_S 2 2)) (blk_full x_S 2 2 [Up; Dn; Up; Dn] (s_tei x_S 2 2))
    denom (mkCalc "fullCCType" ty 75 0 None 0 0 0) E_fullCC x_d x_l2 tt = Some (E, tt)).
  { intros ty denom HD. eexists.
    refine (C65_closed_shell 2 2 x_S _ _ _ _ _ _ _ _ _ _ _ _ _ _ _ _ (fun p => nth (p / 2) x_es 0) x_es [("fullCCType", ty)] denom (mkCalc "fullCCType" ty 75 0 None 0 0 0) x_d x_l2
      x_S_ok (s_ham_ok x_S 2 2) (s_amp_ok x_S 2 2 2) (blocks2_ok x_S 2 2 _) (s_amp_ok x_S 2 2 3) (blocks3_ok x_S 2 2 _) eq_refl ltac:(discriminate) eq_refl _ HD _).
    - intros s p Hp. destruct p as [|[|[|[|]]]]; try lia; destruct s; reflexivity.
    - repeat split; intros k Hk; cbn in Hk; repeat (destruct Hk as [<-|Hk]; [discriminate|]); destruct Hk. }
  intros ty HI. cbn in HI. repeat (destruct HI as [<-|HI]; [eexists; apply X; reflexivity|]). destruct HI.
Qed.
