(** C26, C46, C47: theorems about runs of the spin-integrated code. *)
From Coq Require Import String Ascii List Arith NArith ZArith QArith Qcanon Bool Lia Permutation.
From Coq Require Qcabs.
From Verif Require Import Sums Tensor Interp Numpy Poly SymExec Canon Spec SpecDriver Instances Setup Master Spin Check Tabs NF Formula.
From Verif Require Import P_spin_ccd P_ccsd Diis P_diis Kernel P_kernel P_driver SlowCC Linear P_slow P_slow3 SpinLink SpinCC Denoms P_denoms P_spinrun.
From Verif Require Code_t2residEqnsSlow Code_t2energySlow Code_t2energy.
Import ListNotations.
Open Scope string_scope.

Section Run.
  Variables no nv : nat.
  Variable S : spinmap.
  Variables F G f_aa f_bb g_aaaa g_bbbb g_abab Daa Dbb Dab : tensor.
  Variable e : spin -> nat -> Qc.
  Variable c : calc.
  Hypothesis HS : spin_ok no nv S.
  Hypothesis HH : spin_hamiltonian S no nv F G f_aa f_bb g_aaaa g_bbbb g_abab.
  Hypothesis HDa : is_spin_denominator [Up; Up] (fun _ => no) (fun _ => nv) e Daa.
  Hypothesis HDb : is_spin_denominator [Dn; Dn] (fun _ => no) (fun _ => nv) e Dbb.
  Hypothesis HDc : is_spin_denominator [Up; Dn] (fun _ => no) (fun _ => nv) e Dab.
  Hypothesis Hlab : cc_label c = "ccdType".
  Notation fresid := (fast_resid no no f_aa f_bb g_aaaa g_bbbb g_abab Daa Dbb Dab c).
  Notation fenergy := (fast_energy no no f_aa f_bb g_aaaa g_bbbb g_abab).
  Notation sh4 := [nv; nv; no; no].

  Lemma rcall : resid_call c = Some R_t2resid. Proof. unfold resid_call. rewrite Hlab. reflexivity. Qed.
  Lemma ecall : energy_call c = Some E_t2energy. Proof. unfold energy_call. rewrite Hlab. reflexivity. Qed.

  (** antisymmetric same-spin blocks, mixed block of the right shape *)
  Definition good3 (d : dict) : Prop := exists taa tbb tab, t2dict taa tbb tab d /\ is_amp 2 no nv taa /\ is_amp 2 no nv tbb /\ shape tab = sh4.
  Definition Pk (k : string) (t : tensor) : Prop := if (k =? "t2aa") || (k =? "t2bb") then is_amp 2 no nv t else shape t = sh4.
  Lemma l2_ok taa tbb tab d : t2dict taa tbb tab d -> shape taa = sh4 -> shape tbb = sh4 -> shape tab = sh4 -> exists l2, l2_of d = Some l2.
  Proof.
    intros [E1 [E2 E3]] Sa Sb Sc. unfold l2_of. rewrite E1, E2, E3. cbn [obind].
    destruct (swapped_def taa _ _ _ _ Sa) as [? [-> _]]. destruct (swapped_def tbb _ _ _ _ Sb) as [? [-> _]].
    destruct (swapped_def tab _ _ _ _ Sc) as [? [-> _]]. cbn [obind]. eauto.
  Qed.
  Lemma pass_good taa tbb tab d l2 : t2dict taa tbb tab d -> is_amp 2 no nv taa -> is_amp 2 no nv tbb -> shape tab = sh4 -> l2_of d = Some l2 ->
    exists naa nbb nab, t2resid_fast no no f_aa f_bb g_aaaa g_bbbb g_abab Daa Dbb Dab c d l2 = Some [("t2aa", naa); ("t2bb", nbb); ("t2ab", nab)] /\
      is_amp 2 no nv naa /\ is_amp 2 no nv nbb /\ shape nab = sh4.
  Proof.
    intros E Aa Ab Sc EL. destruct (assemble_ok no nv S HS taa tbb tab Aa Ab Sc) as [AT BT].
    destruct (fast_pass no nv S F G f_aa f_bb g_aaaa g_bbbb g_abab Daa Dbb Dab c HS HH _ _ _ _ d l2 AT BT E EL)
      as [L2 [R [Ra [Rb [Rc [_ [_ [AR [[B1 [B2 B3]] ->]]]]]]]]].
    pose proof (block_is_amp no nv S HS Up R Ra (proj1 AR) B1) as A1. pose proof (block_is_amp no nv S HS Dn R Rb (proj1 AR) B2) as A2.
    destruct (update_amp no nv Daa (e Up) taa Ra (one_kind 2 _ _ e Daa Up HDa) Aa A1) as [naa [-> Na]]. cbn [obind].
    destruct (update_amp no nv Dbb (e Dn) tbb Rb (one_kind 2 _ _ e Dbb Dn HDb) Ab A2) as [nbb [-> Nb]]. cbn [obind].
    destruct (update_shape Dab tab Rc) as [nab [-> [Nc _]]]; [rewrite (proj1 HDc), Sc; reflexivity|rewrite (proj1 B3), Sc; reflexivity|]. cbn [obind].
    exists naa, nbb, nab. rewrite Nc. auto.
  Qed.
  Lemma dict3_good naa nbb nab : is_amp 2 no nv naa -> is_amp 2 no nv nbb -> shape nab = sh4 -> gooddict Pk [("t2aa", naa); ("t2bb", nbb); ("t2ab", nab)].
  Proof.
    intros A B C k t. cbn [slook]. unfold Pk.
    destruct (k =? "t2aa") eqn:E1.
    { apply String.eqb_eq in E1. subst k. cbn. intros H. apply some_inj in H. subst. exact A. }
    destruct (k =? "t2bb") eqn:E2.
    { apply String.eqb_eq in E2. subst k. cbn. intros H. apply some_inj in H. subst. exact B. }
    cbn [Datatypes.orb]. destruct (k =? "t2ab"); intros H; [apply some_inj in H; subst; exact C|discriminate].
  Qed.
  (** the energy the code evaluates is the spin-orbital CCD energy of the assembled amplitudes *)
  Lemma fast_energy_is T2 taa tbb tab d : t2dict taa tbb tab d -> spin_amp S 2 no nv T2 -> blocks2 S no nv T2 taa tbb tab ->
    t2energy_fast no no f_aa f_bb g_aaaa g_bbbb g_abab d = Some (E_ccd (2 * no) (2 * nv) F G T2).
  Proof.
    intros [E1 [E2 E3]] HT HB. unfold t2energy_fast. rewrite E1, E2, E3. cbn [obind].
    destruct (C05_spin_ccd_energy no nv S F G f_aa f_bb g_aaaa g_bbbb g_abab T2 taa tbb tab HS HH HT HB) as [E [E' [H1 [H2 [_ [_ H3]]]]]].
    unfold base_args. rewrite (call0_returns _ _ _ H2). cbn [obind]. rewrite H3.
    pose proof (ccd_energy_is (2 * no) (2 * nv) F G T2 ltac:(apply HH) ltac:(apply HH) (proj1 HT)) as X.
    unfold ccd_energy in X. rewrite (call0_returns _ _ _ H1) in X. cbn [obind] in X. exact X.
  Qed.
  Lemma good3_energy d : good3 d -> exists taa tbb tab, t2dict taa tbb tab d /\ is_amp 2 no nv taa /\ is_amp 2 no nv tbb /\ shape tab = sh4 /\
    spin_amp S 2 no nv (assemble no nv S taa tbb tab) /\ blocks2 S no nv (assemble no nv S taa tbb tab) taa tbb tab /\
    t2energy_fast no no f_aa f_bb g_aaaa g_bbbb g_abab d = Some (E_ccd (2 * no) (2 * nv) F G (assemble no nv S taa tbb tab)).
  Proof.
    intros [taa [tbb [tab [E [A [B C]]]]]]. exists taa, tbb, tab. destruct (assemble_ok no nv S HS taa tbb tab A B C) as [AT BT].
    pose proof (fast_energy_is _ _ _ _ d E AT BT). auto 10.
  Qed.
  Lemma init_good3 : good3 (fast_init no nv c).
  Proof.
    exists (tzeros sh4), (tzeros sh4), (tzeros sh4). unfold fast_init. split; [split; [|split]; reflexivity|].
    split; [apply (amp_zeros no nv 2)|]. split; [apply (amp_zeros no nv 2)|reflexivity].
  Qed.
  Lemma start_is s0 e0 : fast_start no no nv f_aa f_bb g_aaaa g_bbbb g_abab c = Some (s0, e0) ->
    amps unit s0 = fast_init no nv c /\ prev_vecs (dstate unit s0) = [] /\ t2energy_fast no no f_aa f_bb g_aaaa g_bbbb g_abab (amps unit s0) = Some e0.
  Proof.
    unfold fast_start, start. rewrite Hlab, ecall. change ("ccdType" =? "ccdTypeSlow") with false. cbn [obind fast_energy].
    destruct (t2energy_fast _ _ _ _ _ _ _ (fast_init no nv c)) as [x|] eqn:EE; cbn [obind fst snd]; [|discriminate].
    intros H. injection H as <- <-. cbn [amps dstate]. auto.
  Qed.
  Lemma start_runs : exists s0 e0, fast_start no no nv f_aa f_bb g_aaaa g_bbbb g_abab c = Some (s0, e0).
  Proof.
    destruct (good3_energy _ init_good3) as [taa [tbb [tab [_ [_ [_ [_ [_ [_ EE]]]]]]]]].
    unfold fast_start, start. rewrite Hlab, ecall. change ("ccdType" =? "ccdTypeSlow") with false. cbn [obind fast_energy].
    rewrite EE. cbn [obind fst snd]. eauto.
  Qed.
  Variable solve : solver.
  Notation aft := (after unit solve fresid fenergy c).

  Lemma good_good3 d : gooddict Pk d -> (exists taa tbb tab, t2dict taa tbb tab d) -> good3 d.
  Proof.
    intros HG [taa [tbb [tab [E1 [E2 E3]]]]]. exists taa, tbb, tab. split; [split; [|split]; assumption|].
    pose proof (HG _ _ E1) as X1. pose proof (HG _ _ E2) as X2. pose proof (HG _ _ E3) as X3. unfold Pk in *. cbn in X1, X2, X3. auto.
  Qed.
  Lemma Pk_sh k t : Pk k t -> shape t = sh4.
  Proof. unfold Pk. destruct (_ || _)%bool; [intros [H _]; exact H|auto]. Qed.
  Lemma Pk_teq k t u : Pk k t -> teq u t -> Pk k u.
  Proof. unfold Pk. destruct (_ || _)%bool; [apply (amp_teq no nv 2)|]. intros H [E _]. congruence. Qed.
  Lemma Pk_lin k n x ts : (forall i, (i < n)%nat -> Pk k (ts i)) -> Pk k (lincomb sh4 n x ts).
  Proof. unfold Pk. destruct (_ || _)%bool; [apply (amp_lin no nv 2)|]. reflexivity. Qed.

  (** what an iterate is: the three arrays, and the energy computed from them *)
  Definition weak3 (d : dict) : Prop := forall taa tbb tab, t2dict taa tbb tab d -> is_amp 2 no nv taa /\ is_amp 2 no nv tbb /\ shape tab = sh4.
  Lemma good_weak3 d : gooddict Pk d -> weak3 d.
  Proof.
    intros HG taa tbb tab [E1 [E2 E3]].
    pose proof (HG _ _ E1) as X1. pose proof (HG _ _ E2) as X2. pose proof (HG _ _ E3) as X3. unfold Pk in *. cbn in X1, X2, X3. auto.
  Qed.
  Lemma l2_of_inv d l2 : l2_of d = Some l2 -> exists taa tbb tab, t2dict taa tbb tab d.
  Proof.
    unfold l2_of, t2dict. destruct (slook "t2aa" d) as [a|]; cbn [obind]; [|discriminate]. destruct (slook "t2bb" d) as [b|]; cbn [obind]; [|discriminate].
    destruct (slook "t2ab" d) as [x|]; cbn [obind]; [|discriminate]. eauto 10.
  Qed.
  Lemma iter_energy s s' E : iteration unit solve fresid fenergy c s = Some (s', E) -> t2energy_fast no no f_aa f_bb g_aaaa g_bbbb g_abab (amps unit s') = Some E.
  Proof.
    unfold iteration. destruct (l2_of _); cbn [obind]; [|discriminate]. rewrite rcall. cbn [obind].
    destruct (fresid _ _ _ _) as [[d w]|]; cbn [obind fst snd]; [|discriminate].
    destruct (diis_block _ _ _ _) as [s1|]; cbn [obind]; [|discriminate]. rewrite ecall. cbn [obind fast_energy].
    destruct (t2energy_fast _ _ _ _ _ _ _ _) as [x|] eqn:EE; cbn [obind fst snd]; [|discriminate]. intros H. injection H as <- <-. exact EE.
  Qed.
  Lemma after_good s0 e0 : fast_start no no nv f_aa f_bb g_aaaa g_bbbb g_abab c = Some (s0, e0) ->
    forall k s E, aft s0 e0 k = Some (s, E) -> good3 (amps unit s) /\ t2energy_fast no no f_aa f_bb g_aaaa g_bbbb g_abab (amps unit s) = Some E.
  Proof.
    intros H0 k s E HA. destruct (start_is s0 e0 H0) as [EA [EP EE]].
    assert (O0 : okstate Pk unit c weak3 s0).
    { split; [|rewrite EP; constructor]. rewrite EA. intros a b d [X1 [X2 X3]].
      destruct init_good3 as [a' [b' [d' [[Y1 [Y2 Y3]] [Y4 [Y5 Y6]]]]]].
      rewrite X1 in Y1. rewrite X2 in Y2. rewrite X3 in Y3. apply some_inj in Y1, Y2, Y3. subst. auto. }
    destruct (okstate_after (fun _ => sh4) Pk) with (World := unit) (solve := solve) (resid := fresid) (energy := fenergy)
      (c := c) (Pre := weak3) (s0 := s0) (e0 := e0) (k := k) (s := s) (e := E) as [[O _] _]; try assumption.
    - exact Pk_sh.
    - exact Pk_teq.
    - intros k0. apply Pk_lin.
    - exact good_weak3.
    - intros rf d l2 w d' w' H1 H2 H3 H4. rewrite rcall in H1. injection H1 as <-. cbn [fast_resid] in H4.
      destruct (l2_of_inv d l2 H3) as [taa [tbb [tab ET]]]. destruct (H2 _ _ _ ET) as [A [B C]].
      destruct (pass_good taa tbb tab d l2 ET A B C H3) as [naa [nbb [nab [EN [NA [NB NC]]]]]]. rewrite EN in H4. cbn [obind] in H4.
      injection H4 as <- <-. apply dict3_good; assumption.
    - assert (EE2 : t2energy_fast no no f_aa f_bb g_aaaa g_bbbb g_abab (amps unit s) = Some E).
      { destruct k as [|k]; cbn [after] in HA; [injection HA as <- <-; exact EE|].
        destruct (aft s0 e0 k) as [[s1 E1]|]; cbn [obind fst] in HA; [|discriminate]. eapply iter_energy; exact HA. }
      split; [|exact EE2]. unfold t2energy_fast in EE2.
      destruct (slook "t2aa" (amps unit s)) as [a|] eqn:X1; cbn [obind] in EE2; [|discriminate].
      destruct (slook "t2bb" (amps unit s)) as [b|] eqn:X2; cbn [obind] in EE2; [|discriminate].
      destruct (slook "t2ab" (amps unit s)) as [x|] eqn:X3; cbn [obind] in EE2; [|discriminate].
      exists a, b, x. assert (ET : t2dict a b x (amps unit s)) by (split; [|split]; assumption). split; [exact ET|]. apply O, ET.
  Qed.
  (** without DIIS every pass runs *)
  Lemma pass_runs s : diis_size c = None -> good3 (amps unit s) -> exists s' E, iteration unit solve fresid fenergy c s = Some (s', E) /\ good3 (amps unit s').
  Proof.
    intros HD [taa [tbb [tab [ET [A [B C]]]]]]. destruct (l2_ok taa tbb tab _ ET (proj1 A) (proj1 B) C) as [l2 EL].
    destruct (pass_good taa tbb tab _ l2 ET A B C EL) as [naa [nbb [nab [EN [NA [NB NC]]]]]].
    unfold iteration. rewrite EL. cbn [obind]. rewrite rcall. cbn [obind fast_resid]. rewrite EN. cbn [obind fst snd].
    unfold diis_block. rewrite HD. cbn [obind amps world old_vec dstate l2amps]. rewrite ecall. cbn [obind fast_energy].
    assert (G3 : good3 [("t2aa", naa); ("t2bb", nbb); ("t2ab", nab)]).
    { exists naa, nbb, nab. split; [split; [|split]; reflexivity|auto]. }
    destruct (good3_energy _ G3) as [? [? [? [_ [_ [_ [_ [_ [_ EE]]]]]]]]]. rewrite EE. cbn [obind fst snd]. eexists _, _. split; [reflexivity|exact G3].
  Qed.
End Run.

(** C47.  Every iterate of a spin-integrated calculation (any label: CCD, CCDQf-1, CCDQf-2, ..., with or without DIIS)
    is a valid set of spin blocks: the same-spin arrays are antisymmetric, all three have the shape
    (virtual, virtual, occupied, occupied), they are the spin blocks of one antisymmetric spin-conserving
    spin-orbital T2, and the energy of the iterate is the spin-orbital CCD energy of that T2. *)
Theorem C47_spin_iterates : forall no nv S F G f_aa f_bb g_aaaa g_bbbb g_abab Daa Dbb Dab e c solve s0 e0 k s E,
  spin_ok no nv S -> spin_hamiltonian S no nv F G f_aa f_bb g_aaaa g_bbbb g_abab ->
  is_spin_denominator [Up; Up] (fun _ => no) (fun _ => nv) e Daa ->
  is_spin_denominator [Dn; Dn] (fun _ => no) (fun _ => nv) e Dbb ->
  is_spin_denominator [Up; Dn] (fun _ => no) (fun _ => nv) e Dab ->
  cc_label c = "ccdType" ->
  fast_start no no nv f_aa f_bb g_aaaa g_bbbb g_abab c = Some (s0, e0) ->
  after unit solve (fast_resid no no f_aa f_bb g_aaaa g_bbbb g_abab Daa Dbb Dab c)
    (fast_energy no no f_aa f_bb g_aaaa g_bbbb g_abab) c s0 e0 k = Some (s, E) ->
  exists taa tbb tab T2,
    slook "t2aa" (amps unit s) = Some taa /\ slook "t2bb" (amps unit s) = Some tbb /\ slook "t2ab" (amps unit s) = Some tab /\
    is_amp 2 no nv taa /\ is_amp 2 no nv tbb /\ shape tab = [nv; nv; no; no] /\
    spin_amp S 2 no nv T2 /\ blocks2 S no nv T2 taa tbb tab /\ E = E_ccd (2 * no) (2 * nv) F G T2.
Proof.
  intros no nv S F G f_aa f_bb g_aaaa g_bbbb g_abab Daa Dbb Dab e c solve s0 e0 k s E HS HH HDa HDb HDc HL H0 HA.
  destruct (after_good no nv S F G f_aa f_bb g_aaaa g_bbbb g_abab Daa Dbb Dab e c HS HH HDa HDb HDc HL solve s0 e0 H0 k s E HA) as [G3 EE].
  destruct (good3_energy no nv S F G f_aa f_bb g_aaaa g_bbbb g_abab HS HH _ G3) as [taa [tbb [tab [[E1 [E2 E3]] [A [B [C [AT [BT EE2]]]]]]]]].
  exists taa, tbb, tab, (assemble no nv S taa tbb tab). rewrite EE2 in EE. apply some_inj in EE. auto 12.
Qed.
Print Assumptions C47_spin_iterates.
(** Without DIIS no pass raises, for all sizes and inputs. *)
Theorem C47_spin_run_total : forall no nv S F G f_aa f_bb g_aaaa g_bbbb g_abab Daa Dbb Dab e c solve,
  spin_ok no nv S -> spin_hamiltonian S no nv F G f_aa f_bb g_aaaa g_bbbb g_abab ->
  is_spin_denominator [Up; Up] (fun _ => no) (fun _ => nv) e Daa ->
  is_spin_denominator [Dn; Dn] (fun _ => no) (fun _ => nv) e Dbb ->
  is_spin_denominator [Up; Dn] (fun _ => no) (fun _ => nv) e Dab ->
  cc_label c = "ccdType" -> diis_size c = None ->
  exists s0 e0, fast_start no no nv f_aa f_bb g_aaaa g_bbbb g_abab c = Some (s0, e0) /\
    forall k, exists s E, after unit solve (fast_resid no no f_aa f_bb g_aaaa g_bbbb g_abab Daa Dbb Dab c)
      (fast_energy no no f_aa f_bb g_aaaa g_bbbb g_abab) c s0 e0 k = Some (s, E).
Proof.
  intros no nv S F G f_aa f_bb g_aaaa g_bbbb g_abab Daa Dbb Dab e c solve HS HH HDa HDb HDc HL HD.
  destruct (start_runs no nv S F G f_aa f_bb g_aaaa g_bbbb g_abab c HS HH HL) as [s0 [e0 H0]]. exists s0, e0. split; [exact H0|].
  assert (K : forall k, exists s E, after unit solve (fast_resid no no f_aa f_bb g_aaaa g_bbbb g_abab Daa Dbb Dab c)
      (fast_energy no no f_aa f_bb g_aaaa g_bbbb g_abab) c s0 e0 k = Some (s, E) /\ good3 no nv (amps unit s)).
  { induction k as [|k [s [E [IH G3]]]].
    - exists s0, e0. split; [reflexivity|]. rewrite (proj1 (start_is no nv f_aa f_bb g_aaaa g_bbbb g_abab c HL s0 e0 H0)). apply init_good3.
    - cbn [after]. rewrite IH. cbn [obind fst].
      destruct (pass_runs no nv S F G f_aa f_bb g_aaaa g_bbbb g_abab Daa Dbb Dab e c HS HH HDa HDb HDc HL solve s HD G3) as [s' [E' [-> G3']]]. eauto. }
  intros k. destruct (K k) as [s [E [H _]]]. eauto.
Qed.
Print Assumptions C47_spin_run_total.

(** ** C26 for the spin-integrated code *)
Definition spin_gapped (ss : list spin) (no nv : nat) (e : spin -> nat -> Qc) : Prop :=
  forall virt occ, length virt = length ss -> length occ = length ss -> (forall a, In a virt -> (a < nv)%nat) -> (forall i, In i occ -> (i < no)%nat) ->
    spin_gap (fun _ => no) e ss virt occ <> 0%Qc.
Lemma Qcinv_nz (x : Qc) : (x <> 0 -> / x <> 0)%Qc.
Proof. intros H E. assert (X : (x * / x = 1)%Qc) by (apply Qcmult_inv_r, H). rewrite E, Qcmult_0_r in X. apply (f_equal this) in X. vm_compute in X. discriminate. Qed.
Lemma update_fixed no nv s1 s2 e D T R N : is_spin_denominator [s1; s2] (fun _ => no) (fun _ => nv) e D -> spin_gapped [s1; s2] no nv e ->
  shape T = [nv; nv; no; no] -> shape R = [nv; nv; no; no] -> update D T R = Some N -> (teq N T <-> zero_tensor R).
Proof.
  intros [SD HD] HG ST SR HU. destruct (update_shape D T R) as [N' [E [SN DN]]]; [rewrite SD, ST; reflexivity|congruence|].
  rewrite HU in E. injection E as <-.
  assert (NZ : forall idx, inr idx [nv; nv; no; no] -> data D idx <> 0%Qc).
  { intros idx I. destruct (inr_4 _ _ _ _ _ I) as [a [b [i [j [-> [[A B] [C D']]]]]]].
    change [a; b; i; j] with ([a; b] ++ [i; j])%list. rewrite HD; [|reflexivity|rewrite SD; exact I].
    apply Qcinv_nz, HG; try reflexivity; intros x Hx; cbn in Hx; intuition (subst; assumption). }
  assert (EQ : forall idx, inr idx [nv; nv; no; no] -> data N idx = (data T idx + data D idx * data R idx)%Qc).
  { intros idx I. rewrite DN. transitivity (data D idx * data R idx + (data D idx * / data D idx) * data T idx)%Qc; [ring|].
    rewrite Qcmult_inv_r by (apply NZ, I). ring. }
  split.
  - intros [_ TE] idx I. rewrite SR in I. specialize (TE idx). rewrite SN, ST in TE. specialize (TE I). rewrite (EQ idx I) in TE.
    assert (Z : (data D idx * data R idx = 0)%Qc).
    { transitivity (data T idx + data D idx * data R idx - data T idx)%Qc; [ring|]. rewrite TE. ring. }
    destruct (Qcmult_integral _ _ Z) as [X|X]; [destruct (NZ idx I X)|exact X].
  - intros Z. split; [exact SN|]. intros idx I. rewrite SN, ST in I. rewrite EQ by exact I. rewrite Z by (rewrite SR; exact I). ring.
Qed.
Lemma zero_block_iff no nv S (HS : spin_ok no nv S) R a b x : spin_amp S 2 no nv R -> blocks2 S no nv R a b x ->
  (zero_tensor R <-> zero_tensor a /\ zero_tensor b /\ zero_tensor x).
Proof.
  intros HR HB. pose proof (proj1 (proj1 HR)) as SR. cbn [repeat app] in SR. split.
  - intros Z. assert (K : forall s1 s2 y, block_amp S no nv [s1; s2] R y -> zero_tensor y).
    { intros s1 s2 y B idx I. destruct (block2_elim no nv S _ _ _ _ B) as [Sy E]. rewrite Sy in I.
      destruct (inr_4 _ _ _ _ _ I) as [p [q [i [j [-> [[P Q] [U V]]]]]]]. rewrite E by assumption. apply Z. rewrite SR. apply (inr_blk2 no nv S HS); assumption. }
    destruct HB as [B1 [B2 B3]]. eauto 10.
  - intros [Za [Zb Zx]]. set (Z := tzeros [2 * nv; 2 * nv; 2 * no; 2 * no]%nat).
    assert (AZ : spin_amp S 2 no nv Z).
    { split; [apply (amp_zeros (2 * no) (2 * nv) 2)|]. intros l1 l2 _ _ _ _. reflexivity. }
    assert (K : forall s1 s2 y, block_amp S no nv [s1; s2] R y -> zero_tensor y -> block_amp S no nv [s1; s2] Z y).
    { intros s1 s2 y [Sy _] Zy. apply (block2_intro no nv S); [exact Sy|]. intros p q i j P Q U V. apply Zy. rewrite Sy.
      apply (proj2 (inr4 p q i j nv nv no no)). auto. }
    assert (BZ : blocks2 S no nv Z a b x) by (destruct HB as [B1 [B2 B3]]; split; [|split]; apply K; assumption).
    destruct (blocks_determine no nv S HS R Z a b x HR AZ HB BZ) as [_ TE]. intros idx I. rewrite TE by exact I. reflexivity.
Qed.

(** C26, spin-integrated code: the three arrays are unchanged by the update exactly when the residual of the method
    (CCD, CCDQf-1 or CCDQf-2) vanishes at the spin-orbital amplitudes they are the blocks of. *)
Theorem C26_spin_fixed_point : forall no nv S F G f_aa f_bb g_aaaa g_bbbb g_abab Daa Dbb Dab e c d l2 d' T2 taa tbb tab,
  spin_ok no nv S -> spin_hamiltonian S no nv F G f_aa f_bb g_aaaa g_bbbb g_abab ->
  is_spin_denominator [Up; Up] (fun _ => no) (fun _ => nv) e Daa -> spin_gapped [Up; Up] no nv e ->
  is_spin_denominator [Dn; Dn] (fun _ => no) (fun _ => nv) e Dbb -> spin_gapped [Dn; Dn] no nv e ->
  is_spin_denominator [Up; Dn] (fun _ => no) (fun _ => nv) e Dab -> spin_gapped [Up; Dn] no nv e ->
  spin_amp S 2 no nv T2 -> blocks2 S no nv T2 taa tbb tab ->
  slook "t2aa" d = Some taa -> slook "t2bb" d = Some tbb -> slook "t2ab" d = Some tab -> l2_of d = Some l2 ->
  t2resid_fast no no f_aa f_bb g_aaaa g_bbbb g_abab Daa Dbb Dab c d l2 = Some d' ->
  exists L2 R naa nbb nab,
    swapped 2 T2 L2 /\ qf_residual no F G (cc_type c) T2 L2 R /\
    slook "t2aa" d' = Some naa /\ slook "t2bb" d' = Some nbb /\ slook "t2ab" d' = Some nab /\
    ((teq naa taa /\ teq nbb tbb /\ teq nab tab) <-> zero_tensor R).
Proof.
  intros no nv S F G f_aa f_bb g_aaaa g_bbbb g_abab Daa Dbb Dab e c d l2 d' T2 taa tbb tab HS HH HDa Ga HDb Gb HDc Gc HT HB E1 E2 E3 EL HR.
  destruct (fast_pass no nv S F G f_aa f_bb g_aaaa g_bbbb g_abab Daa Dbb Dab c HS HH T2 taa tbb tab d l2 HT HB (conj E1 (conj E2 E3)) EL)
    as [L2 [R [Ra [Rb [Rc [SW [HQ [AR [BR EQ]]]]]]]]].
  rewrite EQ in HR. clear EQ.
  destruct (update Daa taa Ra) as [naa|] eqn:Ua; cbn [obind] in HR; [|discriminate].
  destruct (update Dbb tbb Rb) as [nbb|] eqn:Ub; cbn [obind] in HR; [|discriminate].
  destruct (update Dab tab Rc) as [nab|] eqn:Uc; cbn [obind] in HR; [|discriminate]. injection HR as <-.
  exists L2, R, naa, nbb, nab. split; [exact SW|]. split; [exact HQ|]. do 3 (split; [reflexivity|]).
  rewrite (zero_block_iff no nv S HS R Ra Rb Rc AR BR). destruct HB as [T1 [T3 T4]], BR as [B1 [B2 B3]].
  rewrite (update_fixed no nv Up Up e Daa taa Ra naa HDa Ga (proj1 T1) (proj1 B1) Ua).
  rewrite (update_fixed no nv Dn Dn e Dbb tbb Rb nbb HDb Gb (proj1 T3) (proj1 B2) Ub).
  rewrite (update_fixed no nv Up Dn e Dab tab Rc nab HDc Gc (proj1 T4) (proj1 B3) Uc). reflexivity.
Qed.
Print Assumptions C26_spin_fixed_point.

(** ** C46: the spin-integrated and the spin-orbital CCD code walk through the same iterates *)
Section Lock.
  Variables no nv : nat.
  Variable S : spinmap.
  Variables F G f_aa f_bb g_aaaa g_bbbb g_abab D1 D2 D3 Daa Dbb Dab : tensor.
  Variable eps : nat -> Qc.
  Variable e : spin -> nat -> Qc.
  Variables c c' : calc.
  Variables solve solve' : solver.
  Hypothesis HS : spin_ok no nv S.
  Hypothesis HH : spin_hamiltonian S no nv F G f_aa f_bb g_aaaa g_bbbb g_abab.
  Hypothesis HD2 : is_denominator 2 (2 * no) (2 * nv) eps D2.
  Hypothesis HDa : is_spin_denominator [Up; Up] (fun _ => no) (fun _ => nv) e Daa.
  Hypothesis HDb : is_spin_denominator [Dn; Dn] (fun _ => no) (fun _ => nv) e Dbb.
  Hypothesis HDc : is_spin_denominator [Up; Dn] (fun _ => no) (fun _ => nv) e Dab.
  Hypothesis HE : forall s p, (p < no + nv)%nat -> eps (orb S no s p) = e s p.
  Hypothesis Hlab : cc_label c = "ccdType".
  Hypothesis Hty : cc_type c = "CCD".
  Hypothesis Hdi : diis_size c = None.
  Hypothesis Hlab' : cc_label c' = "ccdTypeSlow".
  Hypothesis Hty' : cc_type c' = "CCD".
  Hypothesis Hdi' : diis_size c' = None.
  Notation fresid := (fast_resid no no f_aa f_bb g_aaaa g_bbbb g_abab Daa Dbb Dab c).
  Notation fenergy := (fast_energy no no f_aa f_bb g_aaaa g_bbbb g_abab).
  Notation sresid := (slow_resid (2 * no) (2 * nv) F G D1 D2 D3 c').
  Notation senergy := (slow_energy (2 * no) (2 * nv) F G D2 c').
  Let HF : is_fock (2 * no + 2 * nv) F. Proof. apply HH. Qed.
  Let HG : is_tei (2 * no + 2 * nv) G. Proof. apply HH. Qed.
  Lemma DB : blocks2 S no nv D2 Daa Dbb Dab.
  Proof. split; [|split]; eapply (den_block no nv S HS); eassumption. Qed.

  (** the same amplitudes, and the same energy, in the two representations *)
  Definition same_amps (d d' : dict) (E E' : Qc) : Prop :=
    exists T2 taa tbb tab, slook "t2aa" d = Some T2 /\ t2dict taa tbb tab d' /\ spin_amp S 2 no nv T2 /\ blocks2 S no nv T2 taa tbb tab /\ E = E'.
  Definition lock (d d' : dict) (E E' : Qc) : Prop := same_amps d d' E E' /\ (exists l2, l2_of d = Some l2) /\ E = E' /\
    exists T2, slook "t2aa" d = Some T2 /\ E = E_ccd (2 * no) (2 * nv) F G T2.

  Lemma slow_energy_is d T2 w : slook "t2aa" d = Some T2 -> spin_amp S 2 no nv T2 -> t2energy_slow (2 * no) (2 * nv) F G D2 c' d w = Some (E_ccd (2 * no) (2 * nv) F G T2, w).
  Proof.
    intros E HT. unfold t2energy_slow. rewrite E. cbn [obind]. unfold xccd_flag. rewrite Hty'. cbn [existsb].
    change (contains "XCCD(5)" "CCD" || (contains "XCCD(6)" "CCD" || (contains "XCCD(7)" "CCD" || (contains "XCCD(8)" "CCD" || (contains "XCCD(9)" "CCD" || false)))))%bool with false.
    rewrite (ccd_energy_is (2 * no) (2 * nv) F G T2 HF HG (proj1 HT)). reflexivity.
  Qed.
  Lemma slow_pass d T2 w : slook "t2aa" d = Some T2 -> spin_amp S 2 no nv T2 -> exists R N z, spin_amp S 2 no nv R /\ spin_amp S 2 no nv N /\
    call0 Code_t2residEqnsSlow.ccd_t2residual [VT T2; VT F; VT G; o_ (2 * no); v_ (2 * no)] = Some R /\ update D2 T2 R = Some N /\
    shape z = [2 * nv; 2 * nv; 2 * no; 2 * no]%nat /\
    t2resid_slow (2 * no) (2 * nv) F G D2 c' d w = Some ([("t2aa", N); ("t2bb", z); ("t2ab", z)], w).
  Proof.
    intros E HT. destruct HH as [_ [HFc [_ [HGc _]]]].
    destruct (ccd_conserves no nv S HS F G T2 HF HFc HG HGc HT) as [R [ER AR]].
    destruct (update_spin no nv S D2 eps T2 R HD2 HT AR) as [N [EN AN]].
    unfold t2resid_slow. rewrite E. cbn [obind]. rewrite ER. cbn [obind]. rewrite Hty'.
    change ("CCD" =? "LCCD") with false. change (contains "X" "CCD") with false. change ("CCD" =? "pCCD") with false. cbn [obind fst snd].
    pose proof EN as EN'. unfold update in EN'.
    destruct (tbin Qcmult (trecip D2) T2) as [X|]; cbn [obind] in *; [|discriminate].
    destruct (tbin Qcplus R X) as [Y|] eqn:EY; cbn [obind] in *; [|discriminate]. rewrite EN'. cbn [obind].
    exists R, N, (tscale 0 Y). split; [exact AR|]. split; [exact AN|]. split; [reflexivity|]. split; [exact EN|].
    split; [|reflexivity]. apply tbin_inv in EY. destruct EY as [_ ->]. cbn [tscale shape]. apply (proj1 AR).
  Qed.
  Lemma fast_pass_ccd T2 taa tbb tab d l2 R N : spin_amp S 2 no nv T2 -> blocks2 S no nv T2 taa tbb tab -> t2dict taa tbb tab d -> l2_of d = Some l2 ->
    call0 Code_t2residEqnsSlow.ccd_t2residual [VT T2; VT F; VT G; o_ (2 * no); v_ (2 * no)] = Some R -> update D2 T2 R = Some N ->
    exists naa nbb nab, t2resid_fast no no f_aa f_bb g_aaaa g_bbbb g_abab Daa Dbb Dab c d l2 = Some [("t2aa", naa); ("t2bb", nbb); ("t2ab", nab)] /\
      blocks2 S no nv N naa nbb nab.
  Proof.
    intros HT HB ET EL ER EN.
    destruct (fast_pass no nv S F G f_aa f_bb g_aaaa g_bbbb g_abab Daa Dbb Dab c HS HH T2 taa tbb tab d l2 HT HB ET EL)
      as [L2 [R' [Ra [Rb [Rc [SW [[R0 [Q1 [Q2 [HR0 [_ [_ [SR HD]]]]]]] [AR [BR EQ]]]]]]]]].
    apply call0_returns in HR0. rewrite ER in HR0. injection HR0 as <-.
    assert (SR0 : shape R = [2 * nv; 2 * nv; 2 * no; 2 * no]%nat) by (rewrite <- SR; apply (proj1 AR)).
    assert (BR0 : blocks2 S no nv R Ra Rb Rc).
    { apply (blocks_teq no nv S HS R' R); [rewrite SR; exact SR0| |exact BR]. split; [exact SR|]. intros idx _. rewrite HD, Hty.
      change ("CCD" =? "CCDQf-1") with false. change ("CCD" =? "CCDQf-2") with false. cbn [Datatypes.orb]. ring. }
    destruct DB as [D_1 [D_2 D_3]], HB as [T1 [T_2 T3]], BR0 as [B1 [B2 B3]].
    destruct (block_update no nv S [Up; Up] _ _ _ _ _ _ _ D_1 T1 B1 EN) as [naa [Ua Na]].
    destruct (block_update no nv S [Dn; Dn] _ _ _ _ _ _ _ D_2 T_2 B2 EN) as [nbb [Ub Nb]].
    destruct (block_update no nv S [Up; Dn] _ _ _ _ _ _ _ D_3 T3 B3 EN) as [nab [Uc Nc]].
    rewrite Ua, Ub, Uc in EQ. cbn [obind] in EQ. exists naa, nbb, nab. split; [exact EQ|]. split; [|split]; assumption.
  Qed.
  Lemma l2_runs d T2 taa tbb tab : blocks2 S no nv T2 taa tbb tab -> t2dict taa tbb tab d -> exists l2, l2_of d = Some l2.
  Proof. intros [[A _] [[B _] [C _]]] E. apply (l2_ok no nv taa tbb tab d E A B C). Qed.
  Lemma step s s' E E' : lock (amps disk s) (amps unit s') E E' ->
    exists s1 E1 s1' E1', iteration disk solve sresid senergy c' s = Some (s1, E1) /\ iteration unit solve' fresid fenergy c s' = Some (s1', E1') /\
      lock (amps disk s1) (amps unit s1') E1 E1'.
  Proof.
    intros [[T2 [taa [tbb [tab [E2 [ET [HT [HB _]]]]]]]] [[l2 EL] _]].
    destruct (slow_pass (amps disk s) T2 (world disk s) E2 HT) as [R [N [z [AR [AN [ER [EN [Sz EQ]]]]]]]].
    destruct (l2_runs _ _ _ _ _ HB ET) as [l2' EL'].
    destruct (fast_pass_ccd T2 taa tbb tab _ l2' R N HT HB ET EL' ER EN) as [naa [nbb [nab [EQ' BN]]]].
    unfold iteration. rewrite EL, EL'. cbn [obind].
    rewrite (resid_call_slow c' Hlab') by (rewrite Hty'; reflexivity).
    rewrite (energy_call_slow c' Hlab') by (rewrite Hty'; reflexivity). rewrite (rcall c Hlab), (ecall c Hlab).
    rewrite Hty'. change (contains "CCSD(Qf)" "CCD") with false. cbn [obind slow_resid fast_resid]. rewrite EQ, EQ'. cbn [obind fst snd].
    unfold diis_block. rewrite Hdi, Hdi'. cbn [obind amps world]. cbn [slow_energy fast_energy].
    rewrite (slow_energy_is [("t2aa", N); ("t2bb", z); ("t2ab", z)] N (world disk s) eq_refl AN). cbn [obind fst snd].
    rewrite (fast_energy_is no nv S F G f_aa f_bb g_aaaa g_bbbb g_abab HS HH N naa nbb nab); [|split; [|split]; reflexivity|exact AN|exact BN]. cbn [obind fst snd].
    eexists _, _, _, _. split; [reflexivity|]. split; [reflexivity|]. cbn [amps]. split; [|split; [|split]].
    - exists N, naa, nbb, nab. split; [reflexivity|]. split; [split; [|split]; reflexivity|]. auto.
    - destruct (transp_amp (2 * no) (2 * nv) N (proj1 AN)) as [u [Eu _]].
      destruct (swapped_def z _ _ _ _ Sz) as [v [Ev _]].
      unfold l2_of. change (slook "t2aa" [("t2aa", N); ("t2bb", z); ("t2ab", z)]) with (Some N).
      change (slook "t2bb" [("t2aa", N); ("t2bb", z); ("t2ab", z)]) with (Some z). change (slook "t2ab" [("t2aa", N); ("t2bb", z); ("t2ab", z)]) with (Some z).
      cbn [obind]. rewrite Eu, Ev. cbn [obind]. eauto.
    - reflexivity.
    - exists N. split; reflexivity.
  Qed.
  (** before the first pass the spin-integrated code holds zeros; its first pass produces the spin blocks of the guess
      the spin-orbital code starts from *)
  Lemma first : forall w, exists s0 e0 s0' e0' s1' E1',
    start disk senergy (mp_guess (2 * no) G D2) c' (slow_init (2 * no) (2 * nv) c') (slow_old (2 * no) (2 * nv) c') w = Some (s0, e0) /\
    fast_start no no nv f_aa f_bb g_aaaa g_bbbb g_abab c = Some (s0', e0') /\ e0' = E_ref (2 * no) F G /\
    iteration unit solve' fresid fenergy c s0' = Some (s1', E1') /\ lock (amps disk s0) (amps unit s1') e0 E1'.
  Proof.
    intros w.
    destruct (guess_is (2 * no) (2 * nv) G eps D2 HG HD2) as [gs [t [Eg [Et [At Dt]]]]].
    set (Z := tzeros [2 * nv; 2 * nv; 2 * no; 2 * no]%nat).
    assert (AZ : spin_amp S 2 no nv Z).
    { split; [apply (amp_zeros (2 * no) (2 * nv) 2)|]. intros l1 l2 _ _ _ _. reflexivity. }
    set (z := tzeros [nv; nv; no; no]).
    assert (BZ : blocks2 S no nv Z z z z) by (split; [|split]; (apply (block2_intro no nv S); [reflexivity|reflexivity])).
    assert (EI : fast_init no nv c = [("t2aa", z); ("t2bb", z); ("t2ab", z)]) by (unfold fast_init; rewrite Hdi; reflexivity).
    assert (ET : t2dict z z z (fast_init no nv c)) by (rewrite EI; split; [|split]; reflexivity).
    destruct (slow_pass [("t2aa", Z)] Z w eq_refl AZ) as [R [N [_ [AR [AN [ER [EN _]]]]]]].
    destruct (l2_runs _ _ _ _ _ BZ ET) as [l2' EL'].
    destruct (fast_pass_ccd Z z z z _ l2' R N AZ BZ ET EL' ER EN) as [naa [nbb [nab [EQ' BN]]]].
    destruct (C39_zero_amplitudes (2 * no) (2 * nv) F G Z HF HG eq_refl) as [R' [EE [HR' [_ [SR [DR _]]]]]]; [intros idx _; reflexivity|].
    apply call0_returns in HR'. rewrite ER in HR'. injection HR' as <-.
    assert (TE : teq N t).
    { pose proof (proj1 (proj1 AN)) as SN. pose proof (proj1 At) as St. split; [congruence|]. rewrite SN. intros idx I.
      destruct (update_shape D2 Z R) as [N' [EN2 [_ DN]]]; [exact (proj1 HD2)|exact SR|].
      rewrite EN in EN2. injection EN2 as <-. rewrite DN. cbn [repeat app] in I.
      destruct (inr_4 _ _ _ _ _ I) as [a [b [i [j [-> _]]]]]. rewrite Dt, DR by exact I.
      unfold Z, tzeros. cbn [data]. unfold Qcdiv.
      change [a; b; i; j] with ([a; b] ++ [i; j])%list. rewrite (proj2 HD2 [a; b] [i; j] eq_refl) by (rewrite (proj1 HD2); exact I). ring. }
    assert (HTt : spin_amp S 2 no nv t).
    { split; [exact At|]. intros l1 l2 L1 L2 I NE. rewrite <- (proj2 TE) by (rewrite (proj1 TE); exact I). apply (proj2 AN); try assumption.
      rewrite (proj1 TE). exact I. }
    assert (Bt : blocks2 S no nv t naa nbb nab) by (apply (blocks_teq no nv S HS N t); [apply (proj1 AN)|exact TE|exact BN]).
    assert (EF : exists s0', fast_start no no nv f_aa f_bb g_aaaa g_bbbb g_abab c = Some (s0', E_ccd (2 * no) (2 * nv) F G Z) /\ amps unit s0' = fast_init no nv c).
    { unfold fast_start, start. rewrite Hlab, (ecall c Hlab). change ("ccdType" =? "ccdTypeSlow") with false. cbn [obind fast_energy].
      rewrite (fast_energy_is no nv S F G f_aa f_bb g_aaaa g_bbbb g_abab HS HH Z z z z _ ET AZ BZ). cbn [obind fst snd]. eexists; split; reflexivity. }
    destruct EF as [s0' [EF EA]].
    assert (EO : exists s0, start disk senergy (mp_guess (2 * no) G D2) c' (slow_init (2 * no) (2 * nv) c') (slow_old (2 * no) (2 * nv) c') w =
               Some (s0, E_ccd (2 * no) (2 * nv) F G t) /\ amps disk s0 = sset "t2aa" t (slow_init (2 * no) (2 * nv) c')).
    { unfold start. rewrite Hlab'. change ("ccdTypeSlow" =? "ccdTypeSlow") with true. cbv iota. unfold mp_guess. rewrite Eg. cbn [obind]. rewrite Et. cbn [obind].
      rewrite (energy_call_slow c' Hlab') by (rewrite Hty'; reflexivity). rewrite Hty'. change (contains "CCSD(Qf)" "CCD") with false. cbn [obind slow_energy].
      rewrite (slow_energy_is _ t w (slook_sset_same _ _ _) HTt). cbn [obind fst snd]. eexists; split; reflexivity. }
    destruct EO as [s0 [EO EB]].
    exists s0, (E_ccd (2 * no) (2 * nv) F G t), s0', (E_ccd (2 * no) (2 * nv) F G Z).
    assert (EIt : exists s1', iteration unit solve' fresid fenergy c s0' = Some (s1', E_ccd (2 * no) (2 * nv) F G t) /\ amps unit s1' = [("t2aa", naa); ("t2bb", nbb); ("t2ab", nab)]).
    { unfold iteration. rewrite EA, EL'. cbn [obind]. rewrite (rcall c Hlab), (ecall c Hlab). cbn [obind fast_resid]. rewrite EQ'. cbn [obind fst snd].
      unfold diis_block. rewrite Hdi. cbn [obind amps world fast_energy].
      rewrite (fast_energy_is no nv S F G f_aa f_bb g_aaaa g_bbbb g_abab HS HH t naa nbb nab); [|split; [|split]; reflexivity|exact HTt|exact Bt]. cbn [obind fst snd].
      eexists; split; reflexivity. }
    destruct EIt as [s1' [EIt EC]]. exists s1', (E_ccd (2 * no) (2 * nv) F G t).
    split; [exact EO|]. split; [exact EF|]. split; [apply E_ccd_zero; reflexivity|]. split; [exact EIt|].
    rewrite EB, EC. split; [|split; [|split]].
    - exists t, naa, nbb, nab. split; [apply slook_sset_same|]. split; [split; [|split]; reflexivity|]. auto.
    - unfold slow_init. rewrite Hdi'. cbn [app].
      destruct (transp_amp (2 * no) (2 * nv) t At) as [u [Eu _]].
      destruct (swapped_def Z _ _ _ _ eq_refl) as [v [Ev _]].
      unfold l2_of. fold Z. change (sset "t2aa" t [("t2aa", Z); ("t2bb", Z); ("t2ab", Z)]) with [("t2aa", t); ("t2bb", Z); ("t2ab", Z)].
      change (slook "t2aa" [("t2aa", t); ("t2bb", Z); ("t2ab", Z)]) with (Some t).
      change (slook "t2bb" [("t2aa", t); ("t2bb", Z); ("t2ab", Z)]) with (Some Z). change (slook "t2ab" [("t2aa", t); ("t2bb", Z); ("t2ab", Z)]) with (Some Z).
      cbn [obind]. rewrite Eu, Ev. cbn [obind]. eauto.
    - reflexivity.
    - exists t. split; [apply slook_sset_same|reflexivity].
  Qed.
End Lock.

(** C46.  With the same integrals and denominators, and no DIIS, the k-th iterate of the spin-orbital CCD code and
    the (k+1)-th iterate of the spin-integrated CCD code are the same amplitudes (the latter are the spin blocks of
    the former) with the same energy; neither code raises.  The offset by one is there because the spin-orbital
    code starts from the first-order amplitudes and the spin-integrated one from zero. *)
Theorem C46_same_iterates : forall no nv S F G f_aa f_bb g_aaaa g_bbbb g_abab D1 D2 D3 Daa Dbb Dab eps e c c' solve solve' w,
  spin_ok no nv S -> spin_hamiltonian S no nv F G f_aa f_bb g_aaaa g_bbbb g_abab ->
  is_denominator 2 (2 * no) (2 * nv) eps D2 ->
  is_spin_denominator [Up; Up] (fun _ => no) (fun _ => nv) e Daa ->
  is_spin_denominator [Dn; Dn] (fun _ => no) (fun _ => nv) e Dbb ->
  is_spin_denominator [Up; Dn] (fun _ => no) (fun _ => nv) e Dab ->
  (forall s p, (p < no + nv)%nat -> eps (orb S no s p) = e s p) ->
  cc_label c = "ccdType" -> cc_type c = "CCD" -> diis_size c = None ->
  cc_label c' = "ccdTypeSlow" -> cc_type c' = "CCD" -> diis_size c' = None ->
  exists s0 e0 s0' e0',
    start disk (slow_energy (2 * no) (2 * nv) F G D2 c') (mp_guess (2 * no) G D2) c' (slow_init (2 * no) (2 * nv) c') (slow_old (2 * no) (2 * nv) c') w = Some (s0, e0) /\
    fast_start no no nv f_aa f_bb g_aaaa g_bbbb g_abab c = Some (s0', e0') /\
    forall k, exists s s' E T2 taa tbb tab,
      after disk solve (slow_resid (2 * no) (2 * nv) F G D1 D2 D3 c') (slow_energy (2 * no) (2 * nv) F G D2 c') c' s0 e0 k = Some (s, E) /\
      after unit solve' (fast_resid no no f_aa f_bb g_aaaa g_bbbb g_abab Daa Dbb Dab c) (fast_energy no no f_aa f_bb g_aaaa g_bbbb g_abab) c s0' e0' (k + 1) = Some (s', E) /\
      slook "t2aa" (amps disk s) = Some T2 /\
      slook "t2aa" (amps unit s') = Some taa /\ slook "t2bb" (amps unit s') = Some tbb /\ slook "t2ab" (amps unit s') = Some tab /\
      blocks2 S no nv T2 taa tbb tab.
Proof.
  intros no nv S F G f_aa f_bb g_aaaa g_bbbb g_abab D1 D2 D3 Daa Dbb Dab eps e c c' solve solve' w HS HH HD2 HDa HDb HDc HE H1 H2 H3 H4 H5 H6.
  destruct (first no nv S F G f_aa f_bb g_aaaa g_bbbb g_abab D2 Daa Dbb Dab eps e c c' solve' HS HH HD2 HDa HDb HDc HE H1 H2 H3 H4 H5 H6 w)
    as [s0 [e0 [s0' [e0' [s1' [E1' [A [B [_ [C L]]]]]]]]]].
  exists s0, e0, s0', e0'. split; [exact A|]. split; [exact B|].
  assert (K : forall k, exists s s' E E',
     after disk solve (slow_resid (2 * no) (2 * nv) F G D1 D2 D3 c') (slow_energy (2 * no) (2 * nv) F G D2 c') c' s0 e0 k = Some (s, E) /\
     after unit solve' (fast_resid no no f_aa f_bb g_aaaa g_bbbb g_abab Daa Dbb Dab c) (fast_energy no no f_aa f_bb g_aaaa g_bbbb g_abab) c s0' e0' (Datatypes.S k) = Some (s', E') /\
     lock no nv S F G (amps disk s) (amps unit s') E E').
  { induction k as [|k [s [s' [E [E' [I1 [I2 I3]]]]]]].
    - exists s0, s1', e0, E1'. split; [reflexivity|]. split; [exact C|exact L].
    - destruct (step no nv S F G f_aa f_bb g_aaaa g_bbbb g_abab D1 D2 D3 Daa Dbb Dab eps e c c' solve solve' HS HH HD2 HDa HDb HDc HE H1 H2 H3 H4 H5 H6 _ _ _ _ I3)
        as [s2 [E2 [s2' [E2' [J1 [J2 J3]]]]]].
      exists s2, s2', E2, E2'. split; [cbn [after]; rewrite I1; cbn [obind fst]; exact J1|]. split; [|exact J3].
      cbn [after]. cbn [after] in I2. rewrite I2. cbn [obind fst]. exact J2. }
  intros k. rewrite Nat.add_1_r. destruct (K k) as [s [s' [E [E' [I1 [I2 [[T2 [taa [tbb [tab [X1 [[X2 [X3 X4]] [_ [X5 X6]]]]]]]] _]]]]]]]. subst E'.
  exists s, s', E, T2, taa, tbb, tab. auto 12.
Qed.
Print Assumptions C46_same_iterates.

Section LockRun.
  Variables no nv : nat.
  Variable S : spinmap.
  Variables F G f_aa f_bb g_aaaa g_bbbb g_abab D1 D2 D3 Daa Dbb Dab : tensor.
  Variable eps : nat -> Qc.
  Variable e : spin -> nat -> Qc.
  Variables c c' : calc.
  Variables solve solve' : solver.
  Hypothesis HS : spin_ok no nv S.
  Hypothesis HH : spin_hamiltonian S no nv F G f_aa f_bb g_aaaa g_bbbb g_abab.
  Hypothesis HD2 : is_denominator 2 (2 * no) (2 * nv) eps D2.
  Hypothesis HDa : is_spin_denominator [Up; Up] (fun _ => no) (fun _ => nv) e Daa.
  Hypothesis HDb : is_spin_denominator [Dn; Dn] (fun _ => no) (fun _ => nv) e Dbb.
  Hypothesis HDc : is_spin_denominator [Up; Dn] (fun _ => no) (fun _ => nv) e Dab.
  Hypothesis HE : forall s p, (p < no + nv)%nat -> eps (orb S no s p) = e s p.
  Hypothesis Hlab : cc_label c = "ccdType".
  Hypothesis Hty : cc_type c = "CCD".
  Hypothesis Hdi : diis_size c = None.
  Hypothesis Hlab' : cc_label c' = "ccdTypeSlow".
  Hypothesis Hty' : cc_type c' = "CCD".
  Hypothesis Hdi' : diis_size c' = None.
  Hypothesis Heps : stopping_eps c = stopping_eps c'.
  Hypothesis Hmax : max_iter c = Datatypes.S (max_iter c').
  Notation fresid := (fast_resid no no f_aa f_bb g_aaaa g_bbbb g_abab Daa Dbb Dab c).
  Notation fenergy := (fast_energy no no f_aa f_bb g_aaaa g_bbbb g_abab).
  Notation sresid := (slow_resid (2 * no) (2 * nv) F G D1 D2 D3 c').
  Notation senergy := (slow_energy (2 * no) (2 * nv) F G D2 c').
  Lemma loops n : forall idx s s' old old' cur cur', lock no nv S F G (amps disk s) (amps unit s') old old' ->
    (idx + n <= max_iter c')%nat -> (idx + n <= 75)%nat -> (n = 0%nat -> cur = cur') ->
    exists s1 s1' r E, loop disk solve sresid senergy c' n idx s old cur = LDone disk s1 r /\
      loop unit solve' fresid fenergy c n (Datatypes.S idx) s' old' cur' = LDone unit s1' r /\
      lock no nv S F G (amps disk s1) (amps unit s1') E E /\ ((0 < n)%nat -> r = Some E).
  Proof.
    induction n as [|n IH]; intros idx s s' old old' cur cur' L M1 M2 HC; cbn [loop].
    - rewrite (HC eq_refl). exists s, s', cur', old. split; [reflexivity|]. split; [reflexivity|]. split; [|lia].
      destruct L as [L1 [L2 [L3 L4]]]. rewrite <- L3 in *. split; [exact L1|]. auto.
    - rewrite (proj2 (Nat.ltb_ge 75 idx)) by lia. rewrite (proj2 (Nat.ltb_ge 75 (Datatypes.S idx))) by lia.
      destruct (step no nv S F G f_aa f_bb g_aaaa g_bbbb g_abab D1 D2 D3 Daa Dbb Dab eps e c c' solve solve' HS HH HD2 HDa HDb HDc HE Hlab Hty Hdi Hlab' Hty' Hdi' _ _ _ _ L)
        as [s2 [E2 [s2' [E2' [J1 [J2 J3]]]]]].
      rewrite J1, J2. destruct J3 as [K1 [K2 [K3 K4]]]. subst E2'.
      assert (old = old') as <- by (destruct L as [_ [_ [X _]]]; exact X). rewrite Heps.
      destruct (Qclt_le_dec _ _).
      + exists s2, s2', (Some E2), E2. split; [reflexivity|]. split; [reflexivity|]. split; [split; [exact K1|auto]|auto].
      + rewrite (proj2 (Nat.ltb_ge (max_iter c') idx)) by lia. rewrite (proj2 (Nat.ltb_ge (max_iter c) (Datatypes.S idx))) by lia.
        destruct (IH (Datatypes.S idx) s2 s2' E2 E2 (Some E2) (Some E2)) as [s1 [s1' [r [E [X1 [X2 [X3 X4]]]]]]]; try lia; [split; [exact K1|auto]|reflexivity|].
        destruct n as [|n].
        * cbn [loop] in X1, X2 |- *. exists s2, s2', (Some E2), E2. split; [reflexivity|]. split; [reflexivity|]. split; [split; [exact K1|auto]|auto].
        * exists s1, s1', r, E. split; [exact X1|]. split; [exact X2|]. split; [exact X3|]. intros _. apply X4. lia.
  Qed.
  Lemma fin_fast E d l2 w : finalize unit (fast_pert no g_aaaa g_bbbb g_abab) c E d l2 w = Some (E + nucE c, nucE c + E - hf_energy c)%Qc.
  Proof. unfold finalize, is_qf. rewrite Hty. reflexivity. Qed.
  Lemma fin_slow E d l2 w : finalize disk (slow_pert (2 * no) (2 * nv) G D2 c') c' E d l2 w = Some (E + nucE c', nucE c' + E - hf_energy c')%Qc.
  Proof. unfold finalize, is_qf. rewrite Hty'. reflexivity. Qed.
End LockRun.

(** Whole runs: with the same integrals, nuclear and reference energies and threshold, one more pass allowed, and a
    second-order energy not below the threshold, both codes return, and return the same final and correlation
    energies and the same amplitudes. *)
Theorem C46_same_result : forall no nv S F G f_aa f_bb g_aaaa g_bbbb g_abab D1 D2 D3 Daa Dbb Dab eps e c c' solve solve' w,
  spin_ok no nv S -> spin_hamiltonian S no nv F G f_aa f_bb g_aaaa g_bbbb g_abab ->
  is_denominator 2 (2 * no) (2 * nv) eps D2 ->
  is_spin_denominator [Up; Up] (fun _ => no) (fun _ => nv) e Daa ->
  is_spin_denominator [Dn; Dn] (fun _ => no) (fun _ => nv) e Dbb ->
  is_spin_denominator [Up; Dn] (fun _ => no) (fun _ => nv) e Dab ->
  (forall s p, (p < no + nv)%nat -> eps (orb S no s p) = e s p) ->
  cc_label c = "ccdType" -> cc_type c = "CCD" -> diis_size c = None ->
  cc_label c' = "ccdTypeSlow" -> cc_type c' = "CCD" -> diis_size c' = None ->
  stopping_eps c = stopping_eps c' -> nucE c = nucE c' -> hf_energy c = hf_energy c' ->
  max_iter c = (max_iter c' + 1)%nat -> (0 < max_iter c')%nat -> (max_iter c' <= 75)%nat -> (0 < no)%nat -> (0 < nv)%nat ->
  (stopping_eps c <= Qcabs.Qcabs (E_mp2 (2 * no) (2 * nv) G eps))%Qc ->
  exists d d' tf co T2 taa tbb tab,
    slow_kernel (2 * no) (2 * nv) F G D1 D2 D3 c' solve w = Returned d tf co /\
    fast_kernel no no nv f_aa f_bb g_aaaa g_bbbb g_abab Daa Dbb Dab c solve' = Returned d' tf co /\
    slook "t2aa" d = Some T2 /\ slook "t2aa" d' = Some taa /\ slook "t2bb" d' = Some tbb /\ slook "t2ab" d' = Some tab /\
    blocks2 S no nv T2 taa tbb tab.
Proof.
  intros no nv S F G f_aa f_bb g_aaaa g_bbbb g_abab D1 D2 D3 Daa Dbb Dab eps e c c' solve solve' w HS HH HD2 HDa HDb HDc HE H1 H2 H3 H4 H5 H6
    Heps Hnuc Hhf Hmax M0 M75 PO PV HMP. rewrite Nat.add_1_r in Hmax.
  destruct (first no nv S F G f_aa f_bb g_aaaa g_bbbb g_abab D2 Daa Dbb Dab eps e c c' solve' HS HH HD2 HDa HDb HDc HE H1 H2 H3 H4 H5 H6 w)
    as [s0 [e0 [s0' [e0' [s1' [E1' [A [B [E0 [C L]]]]]]]]]].
  assert (EM : e0 = (E_ref (2 * no) F G + E_mp2 (2 * no) (2 * nv) G eps)%Qc).
  { eapply (C39_first_guess (2 * no) (2 * nv) F G D2 eps c'); [apply HH|apply HH|exact HD2|exact H4|rewrite H5; reflexivity|rewrite H5; reflexivity|exact A]. }
  assert (E1' = e0) as -> by (destruct L as [_ [_ [X _]]]; symmetry; exact X).
  unfold slow_kernel, fast_kernel, kernel. rewrite A. unfold fast_start in B. rewrite B.
  rewrite Hmax. cbn [loop Nat.ltb Nat.leb]. rewrite C.
  destruct (Qclt_le_dec (Qcabs.Qcabs (e0' - e0)) (stopping_eps c)) as [X|X].
  { exfalso. apply (Qclt_not_le _ _ X). replace (e0' - e0)%Qc with (- E_mp2 (2 * no) (2 * nv) G eps)%Qc; [rewrite Qcabs.Qcabs_opp; exact HMP|].
    rewrite E0, EM. ring. }
  destruct (loops no nv S F G f_aa f_bb g_aaaa g_bbbb g_abab D1 D2 D3 Daa Dbb Dab eps e c c' solve solve' HS HH HD2 HDa HDb HDc HE H1 H2 H3 H4 H5 H6 Heps Hmax
    (max_iter c') 0 s0 s1' e0 e0 None (Some e0) L) as [s2 [s2' [r [E [X1 [X2 [X3 X4]]]]]]]; try lia.
  rewrite X1, X2. rewrite (X4 M0). destruct X3 as [[T2 [taa [tbb [tab [Y1 [[Y2 [Y3 Y4]] [Y5 [Y6 _]]]]]]]] _].
  assert (P1 : printable (amps disk s2) = true).
  { unfold printable. rewrite Y1. pose proof (proj1 (proj1 Y5)) as ST. cbn [repeat app] in ST. rewrite ST.
    rewrite !(proj2 (Nat.ltb_lt 0 _)) by lia. reflexivity. }
  assert (P2 : printable (amps unit s2') = true).
  { unfold printable. rewrite Y2. pose proof (proj1 (proj1 Y6)) as ST. cbn [repeat app length] in ST. rewrite ST.
    rewrite !(proj2 (Nat.ltb_lt 0 _)) by lia. reflexivity. }
  rewrite P1, P2, (fin_slow no nv G D2 c' H5), (fin_fast no g_aaaa g_bbbb g_abab c H2), Hnuc, Hhf.
  eexists _, _, _, _, T2, taa, tbb, tab. split; [reflexivity|]. split; [reflexivity|]. auto 10.
Qed.
Print Assumptions C46_same_result.

(** ** Instances *)
Definition i_sden (ss : list spin) (no nv : nat) (e : spin -> nat -> Qc) : tensor :=
  mkT (repeat nv (length ss) ++ repeat no (length ss))%list
    (fun idx => / spin_gap (fun _ => no) e ss (firstn (length ss) idx) (skipn (length ss) idx))%Qc.
Lemma i_sden_ok ss no nv e : is_spin_denominator ss (fun _ => no) (fun _ => nv) e (i_sden ss no nv e).
Proof.
  assert (K : forall (x : nat) (l : list spin), map (fun _ => x) l = repeat x (length l)) by (intros x l; induction l; cbn; congruence).
  split; [unfold i_sden; cbn [shape]; rewrite !K; reflexivity|]. intros virt occ L I. unfold i_sden. cbn [data]. rewrite <- L.
  rewrite firstn_app, firstn_all, Nat.sub_diag, skipn_app, skipn_all, Nat.sub_diag. cbn [firstn skipn app]. rewrite app_nil_r. reflexivity.
Qed.
Definition i_se (s : spin) (p : nat) : Qc := i_eps (orb S22 2 s p).
Definition f_calc (ty : string) (n : nat) (diis : option nat) : calc := mkCalc "ccdType" ty n (Q2Qc (1 # 1000)) diis 0 0 0.
Example C47_instance_qf2 := C47_spin_run_total 2 2 S22 _ _ _ _ _ _ _ _ _ _ i_se (f_calc "CCDQf-2" 75 None) (fun _ _ _ => None)
  S22_ok (s_ham_ok S22 2 2) (i_sden_ok _ 2 2 _) (i_sden_ok _ 2 2 _) (i_sden_ok _ 2 2 _) eq_refl eq_refl.
Example C46_instance := C46_same_iterates 2 2 S22 _ _ _ _ _ _ _ (z_t []) (i_den 2 4 4) (z_t []) _ _ _ i_eps i_se
  (f_calc "CCD" 75 None) (i_calc "CCD" None) (fun _ _ _ => None) (fun _ _ _ => None) None
  S22_ok (s_ham_ok S22 2 2) (i_den_ok 2 4 4) (i_sden_ok _ 2 2 _) (i_sden_ok _ 2 2 _) (i_sden_ok _ 2 2 _) (fun _ _ _ => eq_refl) eq_refl eq_refl eq_refl eq_refl eq_refl eq_refl.
Lemma i_se_gapped ss : length ss = 2%nat -> spin_gapped ss 2 2 i_se.
Proof.
  intros L virt occ LV LO HV HO. destruct ss as [|s1 [|s2 [|]]]; try discriminate.
  destruct virt as [|a [|b [|]]]; try discriminate. destruct occ as [|i [|j [|]]]; try discriminate.
  assert (Ha : (a < 2)%nat) by (apply HV; cbn; auto). assert (Hb : (b < 2)%nat) by (apply HV; cbn; auto).
  assert (Hi : (i < 2)%nat) by (apply HO; cbn; auto). assert (Hj : (j < 2)%nat) by (apply HO; cbn; auto).
  destruct s1, s2; (destruct a as [|[|]]; [| |lia]); (destruct b as [|[|]]; [| |lia]); (destruct i as [|[|]]; [| |lia]); (destruct j as [|[|]]; [| |lia]); vm_compute; discriminate.
Qed.
Example C46_result_instance := C46_same_result 2 2 S22 _ _ _ _ _ _ _ (z_t []) (i_den 2 4 4) (z_t []) _ _ _ i_eps i_se
  (f_calc "CCD" 75 None) (mkCalc "ccdTypeSlow" "CCD" 74 (Q2Qc (1 # 1000)) None 0 0 0) (fun _ _ _ => None) (fun _ _ _ => None) None
  S22_ok (s_ham_ok S22 2 2) (i_den_ok 2 4 4) (i_sden_ok _ 2 2 _) (i_sden_ok _ 2 2 _) (i_sden_ok _ 2 2 _) (fun _ _ _ => eq_refl) eq_refl eq_refl eq_refl eq_refl eq_refl eq_refl
  eq_refl eq_refl eq_refl eq_refl ltac:(cbn; lia) ltac:(cbn; lia) ltac:(lia) ltac:(lia).
Example C46_result_threshold : (Q2Qc (1 # 1000) <= Qcabs.Qcabs (E_mp2 4 4 (s_tei S22 2 2) i_eps))%Qc.
Proof. vm_compute. discriminate. Qed.
Example C26_spin_instance : exists l2 d',
  let d := [("t2aa", blk_amp S22 2 2 [Up; Up] (s_amp S22 2 2 2)); ("t2bb", blk_amp S22 2 2 [Dn; Dn] (s_amp S22 2 2 2)); ("t2ab", blk_amp S22 2 2 [Up; Dn] (s_amp S22 2 2 2))] in
  l2_of d = Some l2 /\ t2resid_fast 2 2 (blk_full S22 2 2 [Up; Up] (s_fock S22 2 2)) (blk_full S22 2 2 [Dn; Dn] (s_fock S22 2 2))
    (blk_full S22 2 2 [Up; Up; Up; Up] (s_tei S22 2 2)) (blk_full S22 2 2 [Dn; Dn; Dn; Dn] (s_tei S22 2 2)) (blk_full S22 2 2 [Up; Dn; Up; Dn] (s_tei S22 2 2))
    (i_sden [Up; Up] 2 2 i_se) (i_sden [Dn; Dn] 2 2 i_se) (i_sden [Up; Dn] 2 2 i_se) (f_calc "CCDQf-1" 75 None) d l2 = Some d'.
Proof.
  destruct (blocks2_ok S22 2 2 (s_amp S22 2 2 2)) as [B1 [B2 B3]]. pose proof (s_amp_ok S22 2 2 2) as AT.
  destruct (l2_ok 2 2 _ _ _ [("t2aa", blk_amp S22 2 2 [Up; Up] (s_amp S22 2 2 2)); ("t2bb", blk_amp S22 2 2 [Dn; Dn] (s_amp S22 2 2 2)); ("t2ab", blk_amp S22 2 2 [Up; Dn] (s_amp S22 2 2 2))]
    (conj eq_refl (conj eq_refl eq_refl)) (proj1 B1) (proj1 B2) (proj1 B3)) as [l2 EL].
  destruct (pass_good 2 2 S22 _ _ _ _ _ _ _ (i_sden [Up; Up] 2 2 i_se) (i_sden [Dn; Dn] 2 2 i_se) (i_sden [Up; Dn] 2 2 i_se) i_se (f_calc "CCDQf-1" 75 None)
    S22_ok (s_ham_ok S22 2 2) (i_sden_ok _ 2 2 _) (i_sden_ok _ 2 2 _) (i_sden_ok _ 2 2 _) _ _ _ [("t2aa", blk_amp S22 2 2 [Up; Up] (s_amp S22 2 2 2)); ("t2bb", blk_amp S22 2 2 [Dn; Dn] (s_amp S22 2 2 2)); ("t2ab", blk_amp S22 2 2 [Up; Dn] (s_amp S22 2 2 2))]
    l2 (conj eq_refl (conj eq_refl eq_refl))
    (block_is_amp 2 2 S22 S22_ok Up _ _ (proj1 AT) B1) (block_is_amp 2 2 S22 S22_ok Dn _ _ (proj1 AT) B2) (proj1 B3) EL) as [x [y [z [E _]]]].
  exists l2. eexists. split; [exact EL|exact E].
Qed.
