(** C23, C26, C46, C47: runs of the spin-integrated code. *)
From Coq Require Import String Ascii List Arith NArith ZArith QArith Qcanon Bool Lia Permutation.
From Coq Require Qcabs.
From Verif Require Import Sums Tensor Interp Numpy Poly SymExec Canon Spec SpecDriver Instances Setup Master Spin Check Tabs NF Formula.
From Verif Require Import P_spin_ccd P_qf P_spin_qf P_ccsd Diis P_diis Kernel P_kernel P_driver SlowCC Linear P_slow P_slow3 SpinLink SpinCC Denoms P_denoms.
From Verif Require Code_t2residEqnsSlow Code_t2residEqns Code_t2energySlow Code_t2energy.
From Verif Require Code_modify_T2resid_T4Qf1Slow Code_modify_T2resid_T4Qf2Slow Code_modify_T2resid_T4Qf1 Code_modify_T2resid_T4Qf2 Code_modify_T2energy_pertQf.
Import ListNotations.
Open Scope string_scope.

(** ** Spin-orbital facts: antisymmetry and spin conservation of the residual *)
Section QfAmp.
  Variables no nv : nat.
  Variables g t2 l2 : tensor.
  Hypothesis Hg : is_tei (no + nv) g.
  Hypothesis Ht : is_amp 2 no nv t2.
  Hypothesis Hl : is_amp_ov 2 no nv l2.
  Definition qa_atoms : atomtab := [(1%N, ([6;6;6;6]%N, g)); (3%N, ([1;1;0;0]%N, t2)); (6%N, ([0;0;1;1]%N, l2))].
  Definition qa_vals : list sval := [SFull 1 [0;0;0;0]%N; at_ 6 [0;0;1;1]%N; at_ 3 [1;1;0;0]%N; SSl 0; SSl 1].
  Lemma qa_ok : Forall (atom_ok (so_range no nv) sy) qa_atoms. Proof. unfold qa_atoms. oks. Qed.
  Lemma qa_vs : Forall2 (so_vsim no nv qa_atoms) qa_vals [VT g; VT l2; VT t2; o_ no; v_ no].
  Proof. unfold qa_vals, qa_atoms. vsims. Qed.
  Ltac two_ := intros i Hi; assert (i = 0%nat) as -> by lia; unfold vo; cbn [repeat app Nat.add]; split; chk_.
  Lemma qf1_amp : exists Q, call0 Code_modify_T2resid_T4Qf1Slow.residQf1_aaaa [VT g; VT l2; VT t2; o_ no; v_ no] = Some Q /\ is_amp 2 no nv Q.
  Proof. eapply (amp_of_checks no nv qa_atoms qa_ok _ qa_vals _ 2 qa_vs); [lia|unfold vo; cbn [repeat app]; chk_|two_]. Qed.
  Lemma qf2_amp : exists Q, call0 Code_modify_T2resid_T4Qf2Slow.residQf2_aaaa [VT g; VT l2; VT t2; o_ no; v_ no] = Some Q /\ is_amp 2 no nv Q.
  Proof. eapply (amp_of_checks no nv qa_atoms qa_ok _ qa_vals _ 2 qa_vs); [lia|unfold vo; cbn [repeat app]; chk_|two_]. Qed.
End QfAmp.

Section Spins.
  Variables no nv : nat.
  Variable S : spinmap.
  Hypothesis HS : spin_ok no nv S.
  Lemma ccd_conserves F G T2 : is_fock (2 * no + 2 * nv) F -> spin_conserving S no 1 F -> is_tei (2 * no + 2 * nv) G -> spin_conserving S no 2 G ->
    spin_amp S 2 no nv T2 ->
    exists R, call0 Code_t2residEqnsSlow.ccd_t2residual [VT T2; VT F; VT G; o_ (2 * no); v_ (2 * no)] = Some R /\ spin_amp S 2 no nv R.
  Proof.
    intros HF HFc HG HGc HT.
    set (tab := [(0%N, ([6;6]%N, F)); (1%N, ([6;6;6;6]%N, G)); (3%N, ([1;1;0;0]%N, T2))] : atomtab).
    assert (OK : Forall (atom_ok (sp_range no nv S) sy) tab) by (unfold tab; spoks).
    assert (CO : Forall (conserving no nv S) tab) by (unfold tab; spcons).
    assert (VS : Forall2 (sp_vsim no nv S tab) [at_ 3 [1;1;0;0]%N; xF; xG; xo; xv]
       [VT T2; VT F; VT G; o_ (2 * no); v_ (2 * no)]) by (bsims HS).
    destruct (ccd_amp (2 * no) (2 * nv) F G T2 HF HG (proj1 HT)) as [R' [ER' AR]].
    sp_nf HS OK 0%nat (@nil (string * fn)) Code_t2residEqnsSlow.ccd_t2residual [1;1;0;0]%N VS R HR VR.
    exists R. split; [apply call0_returns, HR|]. split.
    - apply call0_returns in HR. rewrite HR in ER'. injection ER' as <-. exact AR.
    - eapply (conserves_ok no nv S HS tab OK CO 2); [|exact VR]. vm_cast_no_check (eq_refl true).
  Qed.
End Spins.

(** ** Elementwise operations and spin blocks *)
Section Blocks.
  Variables no nv : nat.
  Variable S : spinmap.
  Hypothesis HS : spin_ok no nv S.
  Lemma block_bin ss f X Y R Bx By : block_amp S no nv ss X Bx -> block_amp S no nv ss Y By -> tbin f X Y = Some R ->
    exists r, tbin f Bx By = Some r /\ block_amp S no nv ss R r.
  Proof.
    intros [S1 D1] [S2 D2] E. apply tbin_inv in E. destruct E as [_ ->]. rewrite tbin_ok by congruence. eexists; split; [reflexivity|].
    split; [exact S1|]. intros l1 l2 L I. cbn [data shape] in *. rewrite D1, D2; [reflexivity|exact L|rewrite S2, <- S1; exact I|exact L|exact I].
  Qed.
  Lemma block_recip ss D d : block_amp S no nv ss D d -> block_amp S no nv ss (trecip D) (trecip d).
  Proof. intros [S1 D1]. split; [exact S1|]. intros l1 l2 L I. cbn [trecip data shape] in *. rewrite D1 by assumption. reflexivity. Qed.
  Lemma block_scale ss x D d : block_amp S no nv ss D d -> block_amp S no nv ss (tscale x D) (tscale x d).
  Proof. intros [S1 D1]. split; [exact S1|]. intros l1 l2 L I. cbn [tscale data shape] in *. rewrite D1 by assumption. reflexivity. Qed.
  Lemma block_update ss D T R N d t r : block_amp S no nv ss D d -> block_amp S no nv ss T t -> block_amp S no nv ss R r ->
    update D T R = Some N -> exists n, update d t r = Some n /\ block_amp S no nv ss N n.
  Proof.
    intros BD BT BR. unfold update. destruct (tbin Qcmult (trecip D) T) as [X|] eqn:EX; cbn [obind]; [|discriminate].
    destruct (tbin Qcplus R X) as [Y|] eqn:EY; cbn [obind]; [|discriminate]. intros EN.
    destruct (block_bin _ _ _ _ _ _ _ (block_recip _ _ _ BD) BT EX) as [x [Ex Bx]]. rewrite Ex. cbn [obind].
    destruct (block_bin _ _ _ _ _ _ _ BR Bx EY) as [y [Ey By]]. rewrite Ey. cbn [obind]. eapply block_bin; eassumption.
  Qed.
  Lemma inr_blk2 s1 s2 a b i j : (a < nv)%nat -> (b < nv)%nat -> (i < no)%nat -> (j < no)%nat ->
    inr [nth a (vir S s1) O; nth b (vir S s2) O; nth i (occ S s1) O; nth j (occ S s2) O] [2 * nv; 2 * nv; 2 * no; 2 * no]%nat.
  Proof. intros A B C D. apply inr4. repeat split; (apply (nth_vir_lt no nv S HS) || apply (nth_occ_lt no nv S HS)); assumption. Qed.
  Lemma block_teq s1 s2 X Y x : shape X = [2 * nv; 2 * nv; 2 * no; 2 * no]%nat -> teq X Y -> block_amp S no nv [s1; s2] X x -> block_amp S no nv [s1; s2] Y x.
  Proof.
    intros SX [ES ED] B. destruct (block2_elim no nv S _ _ _ _ B) as [Sx E]. apply (block2_intro no nv S); [exact Sx|]. intros a b i j A1 A2 A3 A4.
    rewrite E by assumption. apply ED. rewrite SX. apply inr_blk2; assumption.
  Qed.
  Lemma blocks_teq X Y a b d : shape X = [2 * nv; 2 * nv; 2 * no; 2 * no]%nat -> teq X Y -> blocks2 S no nv X a b d -> blocks2 S no nv Y a b d.
  Proof. intros SX E [A [B C]]. split; [|split]; eapply block_teq; eassumption. Qed.
  (** the denominators of the two codes *)
  Lemma gap_orb eps e : (forall s p, (p < no + nv)%nat -> eps (orb S no s p) = e s p) -> forall ss virt occ_,
    length virt = length ss -> length occ_ = length ss -> (forall a, In a virt -> (a < nv)%nat) -> (forall i, In i occ_ -> (i < no)%nat) ->
    gap (2 * no) eps (zipw (fun s a => nth a (vir S s) O) ss virt) (zipw (fun s i => nth i (occ S s) O) ss occ_) = spin_gap (fun _ => no) e ss virt occ_.
  Proof.
    intros HE. unfold gap, spin_gap. intros ss virt occ_ L1 L2 A B. f_equal; [|f_equal].
    - clear virt L1 A. revert occ_ L2 B. induction ss as [|s ss IH]; intros [|i l] L B; try discriminate; [reflexivity|].
      rewrite zipw_cons. cbn [combine suml fst snd]. rewrite IH; [|injection L as L; exact L|intros; apply B; right; assumption].
      f_equal. rewrite <- (HE s i); [|assert (i < no)%nat by (apply B; left; reflexivity); lia].
      unfold orb. rewrite (proj2 (Nat.ltb_lt i no)) by (apply B; left; reflexivity). reflexivity.
    - clear occ_ L2 B. revert virt L1 A. induction ss as [|s ss IH]; intros [|a l] L A; try discriminate; [reflexivity|].
      rewrite zipw_cons. cbn [combine suml fst snd]. rewrite IH; [|injection L as L; exact L|intros; apply A; right; assumption].
      f_equal. assert (a < nv)%nat by (apply A; left; reflexivity). rewrite <- (HE s (no + a)%nat) by lia.
      unfold orb. rewrite (proj2 (Nat.ltb_ge (no + a) no)) by lia. do 2 f_equal. f_equal. lia.
  Qed.
  Lemma den_block eps e D2 s1 s2 d : (forall s p, (p < no + nv)%nat -> eps (orb S no s p) = e s p) ->
    is_denominator 2 (2 * no) (2 * nv) eps D2 -> is_spin_denominator [s1; s2] (fun _ => no) (fun _ => nv) e d -> block_amp S no nv [s1; s2] D2 d.
  Proof.
    intros HE [SD HD] [Sd Hd]. apply (block2_intro no nv S); [exact Sd|]. intros a b i j A B C D.
    pose proof (inr_blk2 s1 s2 a b i j A B C D) as I.
    change [a; b; i; j] with ([a; b] ++ [i; j])%list. rewrite Hd; [|reflexivity|rewrite Sd; apply (proj2 (inr4 a b i j nv nv no no)); auto].
    change [nth a (vir S s1) O; nth b (vir S s2) O; nth i (occ S s1) O; nth j (occ S s2) O] with
      ([nth a (vir S s1) O; nth b (vir S s2) O] ++ [nth i (occ S s1) O; nth j (occ S s2) O])%list.
    rewrite HD; [|reflexivity|rewrite SD; exact I]. f_equal. symmetry. apply (gap_orb eps e HE [s1; s2] [a; b] [i; j]); try reflexivity;
      intros x Hx; cbn in Hx; intuition (subst; assumption).
  Qed.
  (** adjoints *)
  Lemma swapped_elim n1 n2 n3 n4 t l : shape t = [n1; n2; n3; n4] -> swapped 2 t l -> shape l = [n3; n4; n1; n2] /\
    forall a b i j, inr [a; b; i; j] [n1; n2; n3; n4] -> data l [i; j; a; b] = data t [a; b; i; j].
  Proof.
    intros St [Sl Dl]. rewrite St in Sl. split; [exact Sl|]. intros a b i j I. apply (Dl [a; b] [i; j] eq_refl). rewrite St. exact I.
  Qed.
  Lemma block_swapped s1 s2 T t L l : shape T = [2 * nv; 2 * nv; 2 * no; 2 * no]%nat -> block_amp S no nv [s1; s2] T t -> swapped 2 T L -> swapped 2 t l ->
    block_amp_ov S no nv [s1; s2] L l.
  Proof.
    intros ST B SL Sl. destruct (block2_elim no nv S _ _ _ _ B) as [St E].
    destruct (swapped_elim _ _ _ _ _ _ ST SL) as [_ EL]. destruct (swapped_elim _ _ _ _ _ _ St Sl) as [Shl El].
    split; [exact Shl|]. intros l1 l2 L1 I. rewrite Shl in I. destruct l1 as [|i [|j [|]]]; try discriminate L1. cbn [app] in I.
    destruct (inr_4 _ _ _ _ _ I) as [i' [j' [a [b [EQ [[C D] [A B']]]]]]]. injection EQ as -> -> ->. cbn [app].
    rewrite El by (apply inr4; auto). rewrite E by assumption.
    symmetry. apply EL. apply inr_blk2; assumption.
  Qed.
  Lemma spin_amp_swapped T L : spin_amp S 2 no nv T -> is_amp_ov 2 (2 * no) (2 * nv) L -> swapped 2 T L -> spin_amp_ov S 2 no nv L.
  Proof.
    intros [HT HC] HL SW. split; [exact HL|]. intros l1 l2 L1 L2 I N.
    destruct SW as [_ E]. rewrite E; [|exact L2|].
    - apply HC; try assumption; [|congruence]. rewrite (proj1 HT). rewrite (proj1 HL) in I. clear -I L1 L2.
      destruct l1 as [|i [|j [|]]]; try discriminate L1. destruct l2 as [|a [|b [|]]]; try discriminate L2. cbn [app repeat] in *.
      apply inr4 in I. apply inr4. tauto.
    - rewrite (proj1 HT). rewrite (proj1 HL) in I. clear -I L1 L2.
      destruct l1 as [|i [|j [|]]]; try discriminate L1. destruct l2 as [|a [|b [|]]]; try discriminate L2. cbn [app repeat] in *.
      apply inr4 in I. apply inr4. tauto.
  Qed.
  Lemma swapped_def t n1 n2 n3 n4 : shape t = [n1; n2; n3; n4] -> exists t', ttransp [2; 3; 0; 1]%nat t = Some t' /\ swapped 2 t t'.
  Proof. intros H. apply (flip_defined 2 t); [lia|rewrite H; reflexivity]. Qed.
  (** spin-conserving combinations *)
  Lemma cons_bin f k X Y R : f 0%Qc 0%Qc = 0%Qc -> spin_conserving_amp S k X -> spin_conserving_amp S k Y -> tbin f X Y = Some R -> spin_conserving_amp S k R.
  Proof.
    intros Hf HX HY E. apply tbin_inv in E. destruct E as [ES ->]. intros l1 l2 L1 L2 I N. cbn [data shape] in *.
    rewrite HX, HY; try assumption. rewrite <- ES. exact I.
  Qed.
  Lemma cons_mul_l D k X R : spin_conserving_amp S k X -> tbin Qcmult D X = Some R -> spin_conserving_amp S k R.
  Proof.
    intros HX E. apply tbin_inv in E. destruct E as [ES ->]. intros l1 l2 L1 L2 I N. cbn [data shape] in *.
    rewrite HX; try assumption; [ring|]. rewrite <- ES. exact I.
  Qed.
  Lemma cons_mul_r D k X R : spin_conserving_amp S k X -> tbin Qcmult X D = Some R -> spin_conserving_amp S k R.
  Proof.
    intros HX E. apply tbin_inv in E. destruct E as [ES ->]. intros l1 l2 L1 L2 I N. cbn [data shape] in *.
    rewrite HX; try assumption. ring.
  Qed.
  Lemma cons_scale x k X : spin_conserving_amp S k X -> spin_conserving_amp S k (tscale x X).
  Proof. intros HX l1 l2 L1 L2 I N. cbn [data tscale shape] in *. rewrite HX; try assumption. ring. Qed.
  Lemma update_amp n m D eps T R : is_denominator 2 n m eps D -> is_amp 2 n m T -> is_amp 2 n m R -> exists N, update D T R = Some N /\ is_amp 2 n m N.
  Proof.
    intros HD HT HR. pose proof (den_sym n m 2 eps D HD) as DS. unfold update.
    destruct (sym_times_amp n m 2 T D HT DS) as [X [-> AX]]. cbn [obind].
    destruct (amp_plus n m 2 R X HR AX) as [Y [-> AY]]. cbn [obind].
    apply (amp_times_sym n m 2 Y D AY DS).
  Qed.
  Lemma update_shape D T R : shape D = shape T -> shape R = shape T -> exists N, update D T R = Some N /\ shape N = shape T /\
    forall idx, data N idx = ((data R idx + / data D idx * data T idx) * data D idx)%Qc.
  Proof.
    intros E1 E2. unfold update. rewrite tbin_ok by (cbn [trecip shape]; exact E1). cbn [obind].
    rewrite tbin_ok by (cbn [trecip shape]; congruence). cbn [obind]. rewrite tbin_ok by (cbn [shape]; congruence).
    eexists; split; [reflexivity|]. split; [exact E2|]. reflexivity.
  Qed.
  Lemma update_spin D eps T R : is_denominator 2 (2 * no) (2 * nv) eps D -> spin_amp S 2 no nv T -> spin_amp S 2 no nv R ->
    exists N, update D T R = Some N /\ spin_amp S 2 no nv N.
  Proof.
    intros HD [HT CT] [HR CR]. destruct (update_amp _ _ D eps T R HD HT HR) as [N [EN AN]]. exists N. split; [exact EN|]. split; [exact AN|].
    unfold update in EN. destruct (tbin Qcmult (trecip D) T) as [X|] eqn:EX; cbn [obind] in EN; [|discriminate].
    destruct (tbin Qcplus R X) as [Y|] eqn:EY; cbn [obind] in EN; [|discriminate].
    eapply cons_mul_r; [|exact EN]. eapply cons_bin; [| |eapply cons_mul_l; [|exact EX]; exact CT|exact EY]; [ring|exact CR].
  Qed.
End Blocks.

(** ** One pass of the spin-integrated code *)
Section Pass.
  Variables no nv : nat.
  Variable S : spinmap.
  Variables F G f_aa f_bb g_aaaa g_bbbb g_abab : tensor.
  Variables Daa Dbb Dab : tensor.
  Variable e : spin -> nat -> Qc.
  Variable c : calc.
  Hypothesis HS : spin_ok no nv S.
  Hypothesis HH : spin_hamiltonian S no nv F G f_aa f_bb g_aaaa g_bbbb g_abab.

  (** The spin-orbital corrections and residual the label asks for: the CCD residual, plus half the first
      factorised-quadruples correction for CCDQf-1, plus half the first and a sixth of the second for CCDQf-2. *)
  Definition qf_residual (ty : string) (T2 L2 R : tensor) : Prop :=
    exists R0 Q1 Q2,
      returns 0 [] Code_t2residEqnsSlow.ccd_t2residual [VT T2; VT F; VT G; o_ (2 * no); v_ (2 * no)] R0 /\
      returns 0 [] Code_modify_T2resid_T4Qf1Slow.residQf1_aaaa [VT G; VT L2; VT T2; o_ (2 * no); v_ (2 * no)] Q1 /\
      returns 0 [] Code_modify_T2resid_T4Qf2Slow.residQf2_aaaa [VT G; VT L2; VT T2; o_ (2 * no); v_ (2 * no)] Q2 /\
      shape R = shape R0 /\
      forall idx, data R idx =
        (data R0 idx + (if (ty =? "CCDQf-1") || (ty =? "CCDQf-2") then Q2Qc (1 # 2) * data Q1 idx else 0)
                     + (if ty =? "CCDQf-2" then Q2Qc (1 # 6) * data Q2 idx else 0))%Qc.

  Lemma qf_conserves f T2 L2 R : spin_amp S 2 no nv T2 -> spin_amp_ov S 2 no nv L2 ->
    (f = Code_modify_T2resid_T4Qf1Slow.residQf1_aaaa \/ f = Code_modify_T2resid_T4Qf2Slow.residQf2_aaaa) ->
    returns 0 [] f [VT G; VT L2; VT T2; o_ (2 * no); v_ (2 * no)] R -> spin_amp S 2 no nv R.
  Proof.
    intros HT HL Hf HR. assert (HG : is_tei (2 * no + 2 * nv) G) by apply HH.
    pose proof (sqf_ok no nv S _ _ _ _ _ _ _ _ _ HH HT HL) as OK.
    pose proof (sqf_cons no nv S _ _ _ _ _ _ _ _ _ HH HT HL) as CO.
    pose proof (sqf_vso no nv S _ _ _ _ _ _ _ _ _ HS HH HT HL) as VS.
    split.
    - apply call0_returns in HR. destruct Hf as [-> | ->].
      + destruct (qf1_amp (2 * no) (2 * nv) G T2 L2 HG (proj1 HT) (proj1 HL)) as [Q [E A]]. rewrite HR in E. injection E as <-. exact A.
      + destruct (qf2_amp (2 * no) (2 * nv) G T2 L2 HG (proj1 HT) (proj1 HL)) as [Q [E A]]. rewrite HR in E. injection E as <-. exact A.
    - set (tab := sqf_tab G T2 L2) in *. destruct Hf as [-> | ->].
      + sp_nf HS OK 0%nat (@nil (string * fn)) Code_modify_T2resid_T4Qf1Slow.residQf1_aaaa [1;1;0;0]%N VS Qx HQ VQ.
        assert (Qx = R) as <-; [unfold returns in *; rewrite HR in HQ; injection HQ; auto|].
        eapply (conserves_ok no nv S HS tab OK CO 2); [|exact VQ]. vm_cast_no_check (eq_refl true).
      + sp_nf HS OK 0%nat (@nil (string * fn)) Code_modify_T2resid_T4Qf2Slow.residQf2_aaaa [1;1;0;0]%N VS Qx HQ VQ.
        assert (Qx = R) as <-; [unfold returns in *; rewrite HR in HQ; injection HQ; auto|].
        eapply (conserves_ok no nv S HS tab OK CO 2); [|exact VQ]. vm_cast_no_check (eq_refl true).
  Qed.

  Lemma qf_part_block ss f1 f2 args R0 Q1 Q2 r0 q1 q2 : call0 f1 args = Some q1 -> call0 f2 args = Some q2 ->
    block_amp S no nv ss R0 r0 -> block_amp S no nv ss Q1 q1 -> block_amp S no nv ss Q2 q2 ->
    forall R, (forall idx, data R idx =
        (data R0 idx + (if (cc_type c =? "CCDQf-1") || (cc_type c =? "CCDQf-2") then Q2Qc (1 # 2) * data Q1 idx else 0)
                     + (if cc_type c =? "CCDQf-2" then Q2Qc (1 # 6) * data Q2 idx else 0))%Qc) ->
    exists r, qf_part c f1 f2 args r0 = Some r /\ block_amp S no nv ss R r.
  Proof.
    intros E1 E2 [S0 B0] [S1 B1] [S2 B2] R HR. unfold qf_part.
    destruct (cc_type c =? "CCDQf-1") eqn:T1; cbn [Datatypes.orb] in HR.
    - rewrite E1. cbn [obind]. rewrite tbin_ok by (cbn [tscale shape]; congruence). eexists; split; [reflexivity|]. split; [exact S0|].
      intros l1 l2 L I. cbn [data tscale shape] in *. rewrite HR.
      rewrite B0, B1; [|exact L|rewrite S1, <- S0; exact I|exact L|exact I].
      apply String.eqb_eq in T1. rewrite T1. change ("CCDQf-1" =? "CCDQf-2") with false. cbn [Datatypes.orb]. ring.
    - destruct (cc_type c =? "CCDQf-2") eqn:T2.
      + rewrite E1, E2. cbn [obind]. rewrite tbin_ok by (cbn [tscale shape]; congruence). cbn [obind].
        rewrite tbin_ok by (cbn [tscale shape]; congruence). eexists; split; [reflexivity|]. split; [exact S0|].
        intros l1 l2 L I. cbn [data tscale shape] in *. rewrite HR.
        rewrite B0, B1, B2; [ring|exact L|rewrite S2, <- S0; exact I|exact L|rewrite S1, <- S0; exact I|exact L|exact I].
      + eexists; split; [reflexivity|]. split; [exact S0|]. intros l1 l2 L I. rewrite HR, B0 by assumption. ring.
  Qed.
  Definition t2dict (taa tbb tab : tensor) (d : dict) : Prop :=
    slook "t2aa" d = Some taa /\ slook "t2bb" d = Some tbb /\ slook "t2ab" d = Some tab.

  Lemma fast_pass T2 taa tbb tab d l2 : spin_amp S 2 no nv T2 -> blocks2 S no nv T2 taa tbb tab -> t2dict taa tbb tab d -> l2_of d = Some l2 ->
    exists L2 R Raa Rbb Rab, swapped 2 T2 L2 /\ qf_residual (cc_type c) T2 L2 R /\ spin_amp S 2 no nv R /\ blocks2 S no nv R Raa Rbb Rab /\
      t2resid_fast no no f_aa f_bb g_aaaa g_bbbb g_abab Daa Dbb Dab c d l2 =
        do naa <- update Daa taa Raa; do nbb <- update Dbb tbb Rbb; do nab <- update Dab tab Rab;
        Some [("t2aa", naa); ("t2bb", nbb); ("t2ab", nab)].
  Proof.
    intros HT HB [E1 [E2 E3]] EL.
    pose proof HH as [HF [HFc [HG [HGc _]]]].
    pose proof (proj1 (proj1 HT)) as ST. cbn [repeat app] in ST.
    destruct (transp_amp (2 * no) (2 * nv) T2 (proj1 HT)) as [L2 [_ [SW AL]]].
    pose proof (spin_amp_swapped no nv S T2 L2 HT AL SW) as HL.
    destruct HB as [Ba [Bb Bc]].
    destruct (swapped_def taa _ _ _ _ (proj1 Ba)) as [laa [Ta Wa]]. destruct (swapped_def tbb _ _ _ _ (proj1 Bb)) as [lbb [Tb Wb]].
    destruct (swapped_def tab _ _ _ _ (proj1 Bc)) as [lab [Tc Wc]].
    assert (HLb : blocks2_ov S no nv L2 laa lbb lab).
    { split; [|split]; (eapply (block_swapped no nv S HS); [exact ST| |exact SW|]); eassumption. }
    unfold l2_of in EL. rewrite E1, E2, E3 in EL. cbn [obind] in EL. rewrite Ta, Tb, Tc in EL. cbn [obind] in EL. injection EL as <-.
    destruct (C04_spin_ccd_residual no nv S F G f_aa f_bb g_aaaa g_bbbb g_abab T2 taa tbb tab HS HH HT (conj Ba (conj Bb Bc)))
      as [R0 [ra [rb [rc [H0 [Ha [Hb [Hc [K1 [K2 K3]]]]]]]]]].
    destruct (C11_spin_ccdqf_residuals no nv S F G f_aa f_bb g_aaaa g_bbbb g_abab T2 taa tbb tab L2 laa lbb lab HS HH HT (conj Ba (conj Bb Bc)) HL HLb)
      as [Q1 [qa [qb [qc [Q2 [pa [pb [pc [HQ1 [Hqa [Hqb [Hqc [[J1 [J2 J3]] [HQ2 [Hpa [Hpb [Hpc [I1 [I2 I3]]]]]]]]]]]]]]]]]]].
    set (R := mkT (shape R0) (fun idx =>
        (data R0 idx + (if ((cc_type c =? "CCDQf-1") || (cc_type c =? "CCDQf-2"))%bool then Q2Qc (1 # 2) * data Q1 idx else 0)
                     + (if cc_type c =? "CCDQf-2" then Q2Qc (1 # 6) * data Q2 idx else 0))%Qc)).
    assert (A0 : spin_amp S 2 no nv R0).
    { destruct (ccd_conserves no nv S HS F G T2 HF HFc HG HGc HT) as [R0' [Y Z]]. apply call0_returns in H0. rewrite H0 in Y. injection Y as <-. exact Z. }
    pose proof (qf_conserves _ T2 L2 Q1 HT HL (or_introl eq_refl) HQ1) as AQ1.
    pose proof (qf_conserves _ T2 L2 Q2 HT HL (or_intror eq_refl) HQ2) as AQ2.
    assert (AR : spin_amp S 2 no nv R).
    { destruct A0 as [X0 Y0], AQ1 as [X1 Y1], AQ2 as [X2 Y2].
      pose proof (proj1 X0) as Z0. pose proof (proj1 X1) as Z1. pose proof (proj1 X2) as Z2.
      set (b1 := ((cc_type c =? "CCDQf-1") || (cc_type c =? "CCDQf-2"))%bool) in *. set (b2 := cc_type c =? "CCDQf-2") in *.
      set (y1 := (if b1 then Q2Qc (1 # 2) else 0)%Qc). set (y2 := (if b2 then Q2Qc (1 # 6) else 0)%Qc).
      destruct (amp_plus (2 * no) (2 * nv) 2 R0 (tscale y1 Q1) X0 (amp_scale _ _ _ y1 _ X1)) as [U [EU AU]].
      destruct (amp_plus (2 * no) (2 * nv) 2 U (tscale y2 Q2) AU (amp_scale _ _ _ y2 _ X2)) as [V [EV AV]].
      assert (TE : forall idx, data R idx = data V idx).
      { intros idx. apply tbin_inv in EU. apply tbin_inv in EV. destruct EU as [_ ->], EV as [_ ->]. unfold R. cbn [data tscale].
        unfold y1, y2. destruct b1, b2; ring. }
      assert (SV : shape V = shape R) by (unfold R; cbn [shape]; rewrite Z0; apply AV).
      split.
      - apply (amp_teq _ _ 2 V); [exact AV|]. split; [symmetry; exact SV|]. intros idx _. apply TE.
      - intros l1 l2 L1 L2' I N. rewrite TE. rewrite <- SV in I.
        assert (CV : spin_conserving_amp S 2 V); [|apply CV; assumption].
        eapply cons_bin; [| |apply cons_scale; exact Y2|exact EV]; [ring|].
        eapply cons_bin; [| |apply cons_scale; exact Y1|exact EU]; [ring|exact Y0]. }
    set (args := [spin_dict g_aaaa g_bbbb g_abab; spin_dict laa lbb lab; spin_dict taa tbb tab; o_ no; v_ no]) in *.
    destruct (qf_part_block [Up; Up] _ _ args R0 Q1 Q2 ra qa pa (call0_returns _ _ _ Hqa) (call0_returns _ _ _ Hpa) K1 J1 I1 R (fun _ => eq_refl)) as [xa [Xa Ya]].
    destruct (qf_part_block [Dn; Dn] _ _ args R0 Q1 Q2 rb qb pb (call0_returns _ _ _ Hqb) (call0_returns _ _ _ Hpb) K2 J2 I2 R (fun _ => eq_refl)) as [xb [Xb Yb]].
    destruct (qf_part_block [Up; Dn] _ _ args R0 Q1 Q2 rc qc pc (call0_returns _ _ _ Hqc) (call0_returns _ _ _ Hpc) K3 J3 I3 R (fun _ => eq_refl)) as [xc [Xc Yc]].
    exists L2, R, xa, xb, xc. split; [exact SW|]. split; [exists R0, Q1, Q2; repeat split; assumption|]. split; [exact AR|]. split; [split; [|split]; assumption|].
    unfold t2resid_fast. rewrite E1, E2, E3. cbn [obind].
    assert (SL : slook "l2aa" [("l2aa", laa); ("l2bb", lbb); ("l2ab", lab)] = Some laa /\ slook "l2bb" [("l2aa", laa); ("l2bb", lbb); ("l2ab", lab)] = Some lbb /\
                 slook "l2ab" [("l2aa", laa); ("l2bb", lbb); ("l2ab", lab)] = Some lab) by (split; [|split]; reflexivity).
    destruct SL as [-> [-> ->]]. cbn [obind].
    change (three g_aaaa g_bbbb g_abab) with (spin_dict g_aaaa g_bbbb g_abab). change (three laa lbb lab) with (spin_dict laa lbb lab).
    change (three taa tbb tab) with (spin_dict taa tbb tab). fold args.
    unfold base_args. cbn [app].
    rewrite (call0_returns _ _ _ Ha), (call0_returns _ _ _ Hb), (call0_returns _ _ _ Hc). cbn [obind].
    rewrite Xa, Xb, Xc. cbn [obind]. reflexivity.
  Qed.
End Pass.
