(** C64: the stand-alone driver run_ccd_SOslow.ccd_main, from the SCF result to the two numbers it returns. *)
From Coq Require Import String Ascii List Arith NArith ZArith QArith Qcanon Bool Lia.
From Coq Require Qcabs.
From Verif Require Import Sums Tensor Interp Numpy Poly SymExec Canon Spec SpecDriver Instances Setup Master Spin Check Tabs NF Formula.
From Verif Require Import P_spin_ccd P_ccsd Diis P_diis Kernel P_kernel P_driver SlowCC Linear P_slow P_slow3 SpinLink SpinCC Denoms P_denoms P_spinrun P_spinrun2.
From Verif Require Import Legacy P_legacy SOMain Ints P_ints P_ints2 P_openshell.
From Verif Require Fock P_fock3 P_fock4 P_endtoend.
From Verif Require Code_t2residEqns Code_t2energy Code_modify_T2resid_T4Qf1 Code_modify_T2resid_T4Qf2 Code_modify_T2energy_pertQf.
Import ListNotations.
Open Scope string_scope.

(** ** The two copies of the loop agree *)
Section Same.
  Variables na nb nva nvb : nat.
  Variables f_aa f_bb g_aaaa g_bbbb g_abab Daa Dbb Dab : tensor.
  Variable nucE : Qc.
  Variable dsize : option nat.
  Variable dstart : nat.
  Variable ty : string.
  Variable solve : solver.
  Variable diag : amps3 -> option amps3.
  Hypothesis Hty : ty <> "pCCD".
  Lemma so_new_is l t : so_new na nb nva f_aa f_bb g_aaaa g_bbbb g_abab Daa Dbb Dab ty l t =
    (do r <- lresid na nb nva f_aa f_bb g_aaaa g_bbbb g_abab Daa Dbb Dab ty l t; lnew na nva Daa Dbb Dab ty r).
  Proof.
    unfold so_new, lresid. rewrite (proj2 (String.eqb_neq ty "pCCD") Hty).
    do 3 (destruct (shifted _ _ _ _ _ _ _ _ _ _ _); cbn [obind]; [|reflexivity]).
    do 3 (destruct (lqf _ _ _ _ _ _ _ _ _ _); cbn [obind]; [|reflexivity]).
    unfold lnew. cbn [A_aa A_bb A_ab]. rewrite (proj2 (String.eqb_neq ty "pCCD") Hty). reflexivity.
  Qed.
  Lemma so_pass_is s : so_pass na nb nva f_aa f_bb g_aaaa g_bbbb g_abab Daa Dbb Dab dsize ty solve diag s =
    lpass na nb nva f_aa f_bb g_aaaa g_bbbb g_abab Daa Dbb Dab dsize ty solve diag s.
  Proof.
    unfold so_pass, lpass. destruct (adjoint (lamps s)) as [l|]; cbn [obind]; [|reflexivity]. rewrite so_new_is.
    destruct (lresid _ _ _ _ _ _ _ _ _ _ _ _ _ _) as [r|]; cbn [obind]; reflexivity.
  Qed.
  Lemma so_loop_is : forall n s old, so_loop na nb nva f_aa f_bb g_aaaa g_bbbb g_abab Daa Dbb Dab dsize ty solve diag n s old =
    lloop na nb nva f_aa f_bb g_aaaa g_bbbb g_abab Daa Dbb Dab dsize ty solve diag n s old.
  Proof.
    induction n as [|n IH]; intros s old; cbn [so_loop lloop]; [reflexivity|]. rewrite so_pass_is.
    destruct (lpass _ _ _ _ _ _ _ _ _ _ _ _ _ _ _ s) as [[s1 e1]|]; cbn [obind fst snd]; [|reflexivity].
    destruct (Qclt_le_dec _ _); [reflexivity|apply IH].
  Qed.
  (** For every label except "pCCD", the copy of the loop in run_ccd_SOslow.py and the one in run_ccd.py return the same
      amplitudes and energies, or both raise, whatever the arguments (open shells, any DIIS setting). *)
  Theorem C64_copies_agree :
    so_kernel na nb nva nvb f_aa f_bb g_aaaa g_bbbb g_abab Daa Dbb Dab nucE dsize dstart ty solve diag =
    legacy_kernel na nb nva nvb f_aa f_bb g_aaaa g_bbbb g_abab Daa Dbb Dab nucE dsize dstart ty solve diag.
  Proof.
    unfold so_kernel, legacy_kernel. destruct (lenergy _ _ _ _ _ _ _ _); cbn [obind]; [|reflexivity]. rewrite so_loop_is. reflexivity.
  Qed.
End Same.
Print Assumptions C64_copies_agree.

Lemma flatten_teq t u : teq t u -> flatten t = flatten u.
Proof. intros [S E]. unfold flatten. rewrite <- S. apply map_ext_in. intros idx I. apply E. apply in_all_idx. exact I. Qed.
Lemma stack3_teq t u : teq (A_aa t) (A_aa u) -> teq (A_bb t) (A_bb u) -> teq (A_ab t) (A_ab u) -> stack3 t = stack3 u.
Proof. intros A B C. unfold stack3. cbn [map]. rewrite (flatten_teq _ _ A), (flatten_teq _ _ B), (flatten_teq _ _ C). reflexivity. Qed.

(** ... and for "pCCD" with DIIS (which the driver always uses) in a closed shell *)
Section SamePairs.
  Variables no nv : nat.
  Variables f_aa f_bb g_aaaa g_bbbb g_abab Daa Dbb Dab : tensor.
  Variable nucE : Qc.
  Variables dsize dstart : nat.
  Variable solve : solver.
  Variables diag : amps3 -> option amps3.
  Notation snew := (so_new no no nv f_aa f_bb g_aaaa g_bbbb g_abab Daa Dbb Dab "pCCD").
  Notation lres_ := (lresid no no nv f_aa f_bb g_aaaa g_bbbb g_abab Daa Dbb Dab "pCCD").
  Notation lnew_ := (lnew no nv Daa Dbb Dab "pCCD").
  Lemma pairs_ok r : shape r = [nv; nv; no; no] -> exists t, pairs_of nv no r = Some t.
  Proof.
    intros E. unfold pairs_of. rewrite E, !Nat.leb_refl, !Bool.orb_true_r. eauto.
  Qed.
  Lemma pairs_pairs r t u : pairs_of nv no r = Some t -> pairs_of nv no t = Some u -> teq u t.
  Proof.
    unfold pairs_of. destruct (shape r) as [|? [|? [|? [|? [|]]]]]; try discriminate. destruct (_ || _)%bool; [|discriminate].
    intros H. injection H as <-. cbn [shape]. destruct (_ || _)%bool; [|discriminate]. intros H. injection H as <-.
    split; [reflexivity|]. cbn [shape data]. intros idx I. destruct (inr_4 _ _ _ _ _ I) as [a [b [i [j [-> _]]]]].
    destruct (Nat.eqb_spec a b), (Nat.eqb_spec i j); cbn [andb]; try reflexivity. subst. rewrite !Nat.eqb_refl. reflexivity.
  Qed.
  Definition teq3 (t u : amps3) : Prop := teq (A_aa t) (A_aa u) /\ teq (A_bb t) (A_bb u) /\ teq (A_ab t) (A_ab u).
  Lemma snew_pairs l t : shapes3 no nv t ->
    match snew l t, (do r <- lres_ l t; lnew_ r) with Some n, Some n' => teq3 n n' | None, None => True | _, _ => False end.
  Proof.
    intros [S1 [S2 S3]]. unfold so_new, lresid.
    destruct (shifted _ _ _ _ _ _ _ _ Daa _ _) as [raa|] eqn:Ea; cbn [obind]; [|exact I].
    destruct (shifted _ _ _ _ _ _ _ _ Dbb _ _) as [rbb|] eqn:Eb; cbn [obind]; [|exact I].
    destruct (shifted _ _ _ _ _ _ _ _ Dab _ _) as [rab|] eqn:Ex; cbn [obind]; [|exact I].
    apply shifted_shape in Ea, Eb, Ex. destruct Ea as [Ea Da], Eb as [Eb Db], Ex as [Ex Dx].
    destruct (lqf _ _ _ _ _ _ _ _ _ raa) as [qa|] eqn:Qa; cbn [obind]; [|exact I].
    destruct (lqf _ _ _ _ _ _ _ _ _ rbb) as [qb|] eqn:Qb; cbn [obind]; [|exact I].
    destruct (lqf _ _ _ _ _ _ _ _ _ rab) as [qx|] eqn:Qx; cbn [obind]; [|exact I].
    apply lqf_shape in Qa, Qb, Qx. rewrite Ea, S1 in Qa. rewrite Eb, S2 in Qb. rewrite Ex, S3 in Qx. rewrite S1 in Da. rewrite S2 in Db. rewrite S3 in Dx.
    change ("pCCD" =? "pCCD") with true. cbn iota.
    rewrite (tbin_ok _ qa Daa), (tbin_ok _ qb Dbb), (tbin_ok _ qx Dab) by congruence. cbn [obind]. cbv zeta.
    destruct (pairs_ok qa Qa) as [pa ->]. destruct (pairs_ok qb Qb) as [pb ->]. destruct (pairs_ok qx Qx) as [px Epx]. rewrite Epx. cbn [obind].
    unfold lnew. change ("pCCD" =? "pCCD") with true. cbn [A_aa A_bb A_ab]. cbn iota.
    pose proof (pairs_shape _ _ _ _ Epx) as Spx.
    rewrite (tbin_ok _ (tscale 0 qa) Daa), (tbin_ok _ (tscale 0 qb) Dbb), (tbin_ok _ px Dab) by (cbn [tscale shape]; congruence). cbn [obind]. cbv zeta.
    destruct (pairs_ok px Spx) as [py Epy]. rewrite Epy. cbn [obind]. pose proof (pairs_pairs _ _ _ Epx Epy) as TE. pose proof (pairs_shape _ _ _ _ Epy) as Spy.
    rewrite (tbin_ok _ py Dab) by congruence. cbn [obind]. unfold teq3. cbn [A_aa A_bb A_ab].
    assert (Z : teq (tscale 0 (mkT (shape qa) (fun i => data qa i * data Daa i)%Qc)) (tscale 0 (mkT (shape (tscale 0 qa)) (fun i => data (tscale 0 qa) i * data Daa i)%Qc))).
    { split; [reflexivity|]. intros idx _. cbn [tscale data shape]. ring. }
    split; [exact Z|]. split; [exact Z|]. split; [cbn [shape]; congruence|]. intros idx J. cbn [data shape] in *. rewrite (proj2 TE) by congruence. reflexivity.
  Qed.
  Notation spass := (so_pass no no nv f_aa f_bb g_aaaa g_bbbb g_abab Daa Dbb Dab (Some dsize) "pCCD" solve diag).
  Notation lpass_ := (lpass no no nv f_aa f_bb g_aaaa g_bbbb g_abab Daa Dbb Dab (Some dsize) "pCCD" solve diag).
  Lemma spass_pairs s : shapes3 no nv (lamps s) -> spass s = lpass_ s.
  Proof.
    intros HS. unfold so_pass, lpass. destruct (adjoint (lamps s)) as [l|]; cbn [obind]; [|reflexivity].
    pose proof (snew_pairs l (lamps s) HS) as X. destruct (snew l (lamps s)) as [n|], (lres_ l (lamps s)) as [r|]; cbn [obind] in *; try contradiction; try reflexivity.
    - destruct (lnew_ r) as [n'|]; cbn [obind]; [|contradiction]. change ("pCCD" =? "DiagCCD") with false. cbn iota. cbn [obind].
      unfold ldiis_block. rewrite (stack3_teq n n'); [reflexivity|apply X..].
    - destruct (lnew_ r); [contradiction|reflexivity].
  Qed.
  Lemma lpass_shapes s s' e : shapes3 no nv (lamps s) -> lpass_ s = Some (s', e) -> shapes3 no nv (lamps s').
  Proof.
    intros HS HP. assert (HD : forall n u, (fun _ : amps3 => @None amps3) n = Some u -> shape (A_aa u) = [nv; nv; no; no] /\ shape (A_bb u) = [nv; nv; no; no] /\ shape (A_ab u) = [nv; nv; no; no]) by discriminate.
    destruct (sim no nv f_aa f_bb g_aaaa g_bbbb g_abab Daa Dbb Dab (Some dsize) "pCCD" solve (fun _ => None) (class_calc (Some dsize) 0 0 0) HD eq_refl eq_refl eq_refl s s' e [] HS HP)
      as [_ [_ H]]. exact H.
  Qed.
  Lemma sloop_pairs : forall n s old, shapes3 no nv (lamps s) -> so_loop no no nv f_aa f_bb g_aaaa g_bbbb g_abab Daa Dbb Dab (Some dsize) "pCCD" solve diag n s old =
    lloop no no nv f_aa f_bb g_aaaa g_bbbb g_abab Daa Dbb Dab (Some dsize) "pCCD" solve diag n s old.
  Proof.
    induction n as [|n IH]; intros s old HS; cbn [so_loop lloop]; [reflexivity|]. rewrite (spass_pairs s HS).
    destruct (lpass_ s) as [[s1 e1]|] eqn:EP; cbn [obind fst snd]; [|reflexivity]. pose proof (lpass_shapes _ _ _ HS EP).
    destruct (Qclt_le_dec _ _); [reflexivity|apply IH; assumption].
  Qed.
  Theorem C64_copies_agree_pCCD :
    so_kernel no no nv nv f_aa f_bb g_aaaa g_bbbb g_abab Daa Dbb Dab nucE (Some dsize) dstart "pCCD" solve diag =
    legacy_kernel no no nv nv f_aa f_bb g_aaaa g_bbbb g_abab Daa Dbb Dab nucE (Some dsize) dstart "pCCD" solve diag.
  Proof.
    unfold so_kernel, legacy_kernel. destruct (lenergy _ _ _ _ _ _ _ _); cbn [obind]; [|reflexivity].
    rewrite sloop_pairs; [reflexivity|]. repeat split.
  Qed.
End SamePairs.
Print Assumptions C64_copies_agree_pCCD.

(** ** Every iterate of the older loop is a physical set of spin blocks *)
Section Iterates.
  Variables no nv : nat.
  Variable S : spinmap.
  Variables F G f_aa f_bb g_aaaa g_bbbb g_abab Daa Dbb Dab : tensor.
  Variable e : spin -> nat -> Qc.
  Variable dsize : option nat.
  Variable dstart : nat.
  Variable ty : string.
  Variable solve : solver.
  Variable diag : amps3 -> option amps3.
  Hypothesis HS : spin_ok no nv S.
  Hypothesis HH : spin_hamiltonian S no nv F G f_aa f_bb g_aaaa g_bbbb g_abab.
  Hypothesis HDa : is_spin_denominator [Up; Up] (fun _ => no) (fun _ => nv) e Daa.
  Hypothesis HDb : is_spin_denominator [Dn; Dn] (fun _ => no) (fun _ => nv) e Dbb.
  Hypothesis HDc : is_spin_denominator [Up; Dn] (fun _ => no) (fun _ => nv) e Dab.
  Hypothesis Hdiag : forall n u, diag n = Some u -> shape (A_aa u) = [nv; nv; no; no] /\ shape (A_bb u) = [nv; nv; no; no] /\ shape (A_ab u) = [nv; nv; no; no].
  Notation c := (class_calc dsize dstart 0 0).
  Definition cty : calc := mkCalc "ccdType" ty 75 0 dsize dstart 0 0.
  Notation sh4 := [nv; nv; no; no].
  Lemma block_teq f f1 f2 D x l t r r2 m r0 r0' n :
    shifted no no f_aa f_bb g_aaaa g_bbbb g_abab f D x t = Some r -> lqf no g_aaaa g_bbbb g_abab ty f1 f2 l t r = Some r2 -> tbin Qcmult r2 D = Some m ->
    call0 f (largs no no f_aa f_bb g_aaaa g_bbbb g_abab t ++ [VNone])%list = Some r0 -> qf_part cty f1 f2 (qargs no g_aaaa g_bbbb g_abab l t) r0 = Some r0' -> update D x r0' = Some n ->
    teq m n.
  Proof.
    intros H1 H2 H3 H4 H5 H6. unfold shifted in H1. rewrite H4 in H1. cbn [obind] in H1. unfold update in H6.
    destruct (tbin Qcmult (trecip D) x) as [y|]; cbn [obind] in *; [|discriminate].
    destruct (tbin Qcplus r0' y) as [z|] eqn:E1; cbn [obind] in H6; [|discriminate].
    unfold lqf in H2. unfold qf_part in H5. cbn [cc_type cty] in H5. change (cc_type cty) with ty in H5.
    apply tbin_inv in H1, H3, H6, E1. destruct H1 as [A1 ->], H3 as [A3 ->], H6 as [A6 ->], E1 as [B1 ->].
    destruct (ty =? "CCDQf-1").
    - destruct (call0 f1 _) as [q1|]; cbn [obind] in *; [|discriminate]. apply tbin_inv in H2, H5. destruct H2 as [A2 ->], H5 as [A5 ->].
      split; [reflexivity|]. cbn [data shape tscale]. intros idx _. ring.
    - destruct (ty =? "CCDQf-2").
      + destruct (call0 f1 _) as [q1|]; cbn [obind] in *; [|discriminate]. destruct (call0 f2 _) as [q2|]; cbn [obind] in *; [|discriminate].
        destruct (tbin Qcplus (tscale _ q1) (tscale _ q2)) as [q|]; cbn [obind] in *; [|discriminate].
        apply tbin_inv in H2, H5. destruct H2 as [A2 ->], H5 as [A5 ->]. split; [reflexivity|]. cbn [data shape tscale]. intros idx _. ring.
      + injection H2 as <-. injection H5 as <-. split; [reflexivity|]. cbn [data shape]. reflexivity.
  Qed.
  Hypothesis Hty : ty <> "pCCD".
  Lemma lres_teq d l2 d' naa nbb nab : lres no nv f_aa f_bb g_aaaa g_bbbb g_abab Daa Dbb Dab ty d l2 = Some d' ->
    t2resid_fast no no f_aa f_bb g_aaaa g_bbbb g_abab Daa Dbb Dab cty d l2 = Some [("t2aa", naa); ("t2bb", nbb); ("t2ab", nab)] ->
    exists m, d' = ldict m /\ teq (A_aa m) naa /\ teq (A_bb m) nbb /\ teq (A_ab m) nab.
  Proof.
    unfold lres, t2resid_fast.
    destruct (slook "t2aa" d) as [a|]; cbn [obind]; [|discriminate]. destruct (slook "t2bb" d) as [b|]; cbn [obind]; [|discriminate].
    destruct (slook "t2ab" d) as [x|]; cbn [obind]; [|discriminate]. destruct (slook "l2aa" l2) as [la|]; cbn [obind]; [|discriminate].
    destruct (slook "l2bb" l2) as [lb|]; cbn [obind]; [|discriminate]. destruct (slook "l2ab" l2) as [lx|]; cbn [obind]; [|discriminate]. cbv zeta.
    set (t := mkA a b x). set (l := mkA la lb lx).
    change (base_args no no f_aa f_bb g_aaaa g_bbbb g_abab a b x) with (largs no no f_aa f_bb g_aaaa g_bbbb g_abab t).
    change [three g_aaaa g_bbbb g_abab; three la lb lx; three a b x; o_ no; v_ no] with (qargs no g_aaaa g_bbbb g_abab l t).
    unfold lresid. change (A_aa t) with a. change (A_bb t) with b. change (A_ab t) with x.
    destruct (shifted _ _ _ _ _ _ _ _ Daa _ _) as [raa|] eqn:Ea; cbn [obind]; [|discriminate].
    destruct (shifted _ _ _ _ _ _ _ _ Dbb _ _) as [rbb|] eqn:Eb; cbn [obind]; [|discriminate].
    destruct (shifted _ _ _ _ _ _ _ _ Dab _ _) as [rab|] eqn:Ex; cbn [obind]; [|discriminate].
    destruct (lqf _ _ _ _ _ _ _ _ _ raa) as [qa|] eqn:Qa; cbn [obind]; [|discriminate].
    destruct (lqf _ _ _ _ _ _ _ _ _ rbb) as [qb|] eqn:Qb; cbn [obind]; [|discriminate].
    destruct (lqf _ _ _ _ _ _ _ _ _ rab) as [qx|] eqn:Qx; cbn [obind]; [|discriminate].
    rewrite (proj2 (String.eqb_neq ty "pCCD") Hty). cbn [obind]. unfold lnew. cbn [A_aa A_bb A_ab]. rewrite (proj2 (String.eqb_neq ty "pCCD") Hty).
    destruct (tbin Qcmult qa Daa) as [ma|] eqn:Ma; cbn [obind]; [|discriminate].
    destruct (tbin Qcmult qb Dbb) as [mb|] eqn:Mb; cbn [obind]; [|discriminate].
    destruct (tbin Qcmult qx Dab) as [mx|] eqn:Mx; cbn [obind]; [|discriminate].
    intros H. injection H as <-.
    destruct (call0 Code_t2residEqns.ccd_t2_aaaa_residual _) as [ua|] eqn:Ua; cbn [obind]; [|discriminate].
    destruct (call0 Code_t2residEqns.ccd_t2_bbbb_residual _) as [ub|] eqn:Ub; cbn [obind]; [|discriminate].
    destruct (call0 Code_t2residEqns.ccd_t2_abab_residual _) as [ux|] eqn:Ux; cbn [obind]; [|discriminate].
    destruct (qf_part _ _ _ _ ua) as [va|] eqn:Va; cbn [obind]; [|discriminate].
    destruct (qf_part _ _ _ _ ub) as [vb|] eqn:Vb; cbn [obind]; [|discriminate].
    destruct (qf_part _ _ _ _ ux) as [vx|] eqn:Vx; cbn [obind]; [|discriminate].
    destruct (update Daa a va) as [wa|] eqn:Wa; cbn [obind]; [|discriminate].
    destruct (update Dbb b vb) as [wb|] eqn:Wb; cbn [obind]; [|discriminate].
    destruct (update Dab x vx) as [wx|] eqn:Wx; cbn [obind]; [|discriminate].
    intros H. injection H as <- <- <-. exists (mkA ma mb mx). split; [reflexivity|]. cbn [A_aa A_bb A_ab].
    split; [exact (block_teq _ _ _ _ _ _ _ _ _ _ _ _ _ Ea Qa Ma Ua Va Wa)|].
    split; [exact (block_teq _ _ _ _ _ _ _ _ _ _ _ _ _ Eb Qb Mb Ub Vb Wb)|exact (block_teq _ _ _ _ _ _ _ _ _ _ _ _ _ Ex Qx Mx Ux Vx Wx)].
  Qed.
  Lemma lres_good rf d l2 w d' w' : resid_call c = Some rf -> gooddict (Pk no nv) d -> l2_of d = Some l2 ->
    lresk no nv f_aa f_bb g_aaaa g_bbbb g_abab Daa Dbb Dab ty rf d l2 w = Some (d', w') -> gooddict (Pk no nv) d'.
  Proof.
    intros _ HG EL. unfold lresk. destruct (lres _ _ _ _ _ _ _ _ _ _ _ _ _) as [d1|] eqn:ER; cbn [obind]; [|discriminate]. intros H. injection H as <- _.
    destruct (l2_of_inv d l2 EL) as [taa [tbb [tab ET]]]. destruct (good_weak3 no nv d HG _ _ _ ET) as [A [B C]].
    destruct (pass_good no nv S F G f_aa f_bb g_aaaa g_bbbb g_abab Daa Dbb Dab e cty HS HH HDa HDb HDc taa tbb tab d l2 ET A B C EL) as [naa [nbb [nab [EN [NA [NB NC]]]]]].
    destruct (lres_teq d l2 d1 naa nbb nab ER EN) as [m [-> [T1 [T2 T3]]]].
    apply dict3_good; [exact (amp_teq no nv 2 _ _ NA T1)|exact (amp_teq no nv 2 _ _ NB T2)|]. rewrite (proj1 T3). exact NC.
  Qed.
  Lemma lafter_good : forall k s E,
    lafter no no nv nv f_aa f_bb g_aaaa g_bbbb g_abab Daa Dbb Dab dsize dstart ty solve diag k = Some (s, E) ->
    shapes3 no nv (lamps s) /\ exists l2, okstate (Pk no nv) unit c (gooddict (Pk no nv)) (ks s l2).
  Proof.
    induction k as [|k IH]; intros s E; cbn [lafter].
    - destruct (lenergy _ _ _ _ _ _ _ _); cbn [obind]; [|discriminate]. intros H. injection H as <- _. split; [repeat split|]. exists [].
      split; [|constructor]. cbn [ks amps ldict linit lamps A_aa A_bb A_ab]. apply dict3_good; [apply (amp_zeros no nv 2)..|reflexivity].
    - destruct (lafter _ _ _ _ _ _ _ _ _ _ _ _ _ _ _ _ _ k) as [[s1 e1]|] eqn:EA; cbn [obind fst]; [|discriminate]. intros HP.
      destruct (IH _ _ eq_refl) as [S1 [l2 O1]].
      destruct (sim no nv f_aa f_bb g_aaaa g_bbbb g_abab Daa Dbb Dab dsize ty solve diag c Hdiag eq_refl eq_refl eq_refl s1 s E l2 S1 HP) as [l2' [HI HS']].
      split; [exact HS'|]. exists l2'.
      exact (proj1 (okstate_iteration (fun _ => sh4) (Pk no nv) (Pk_sh no nv) (Pk_teq no nv) (Pk_lin no nv) unit solve _ _ c (gooddict (Pk no nv)) (fun d H => H) lres_good _ _ _ O1 HI)).
  Qed.
End Iterates.

Section Physical.
  Variables no nv : nat.
  Variable S : spinmap.
  Variables F G f_aa f_bb g_aaaa g_bbbb g_abab Daa Dbb Dab : tensor.
  Variable e : spin -> nat -> Qc.
  Hypothesis HS : spin_ok no nv S.
  Hypothesis HH : spin_hamiltonian S no nv F G f_aa f_bb g_aaaa g_bbbb g_abab.
  Hypothesis HDa : is_spin_denominator [Up; Up] (fun _ => no) (fun _ => nv) e Daa.
  Hypothesis HDb : is_spin_denominator [Dn; Dn] (fun _ => no) (fun _ => nv) e Dbb.
  Hypothesis HDc : is_spin_denominator [Up; Dn] (fun _ => no) (fun _ => nv) e Dab.
  Notation psi K T := (Fock.cc_state K (2 * no) (2 * nv) F G (Fock.T2op (2 * no) (2 * nv) T)).
  Lemma zero_amp t : zero_array no nv t -> is_amp 2 no nv t.
  Proof. intros [Z1 Z2]. apply (amp_teq no nv 2 (tzeros [nv; nv; no; no])); [apply (amp_zeros no nv 2)|]. split; [exact Z1|]. intros idx I. rewrite Z2 by exact I. reflexivity. Qed.
  Lemma energy_is T t E : spin_amp S 2 no nv T -> blocks2 S no nv T (A_aa t) (A_bb t) (A_ab t) ->
    lenergy no no f_aa f_bb g_aaaa g_bbbb g_abab t = Some E -> forall K, (2 <= K)%nat -> E = Fock.bra0 (2 * no) (2 * nv) (psi K T).
  Proof.
    intros HT HB HE K HK. destruct (P_fock3.C62_spin_ccd_equations no nv S F G _ _ _ _ _ T _ _ _ HS HH HT HB) as [ra [rb [rc [E' [_ [_ [_ [H4 H5]]]]]]]].
    destruct (H5 K HK) as [H6 _]. unfold lenergy, largs, base_args in HE. rewrite (call0_returns _ _ _ H4) in HE. cbn [obind] in HE. injection HE as <-. exact H6.
  Qed.
  Lemma pass_energy na nb nva dsize ty solve diag s s' E : lpass na nb nva f_aa f_bb g_aaaa g_bbbb g_abab Daa Dbb Dab dsize ty solve diag s = Some (s', E) ->
    lenergy na nb f_aa f_bb g_aaaa g_bbbb g_abab (lamps s') = Some E.
  Proof.
    unfold lpass. destruct (adjoint _); cbn [obind]; [|discriminate]. destruct (lresid _ _ _ _ _ _ _ _ _ _ _ _ _ _); cbn [obind]; [|discriminate].
    destruct (lnew _ _ _ _ _ _ _); cbn [obind]; [|discriminate]. destruct (if ty =? "DiagCCD" then _ else _); cbn [obind]; [|discriminate].
    destruct (ldiis_block _ _ _ _ _) as [x|]; cbn [obind]; [|discriminate]. destruct (lenergy _ _ _ _ _ _ _ _) eqn:EE; cbn [obind]; [|discriminate].
    intros H. injection H as <- <-. exact EE.
  Qed.
  (** Every iterate of the older loop, with or without DIIS and for every label, consists of the spin blocks of one
      antisymmetric, spin-conserving T2, and its energy is the expectation value <Phi| e^-T2 H e^T2 |Phi>. *)
  Theorem C64_legacy_iterates : forall dsize dstart ty solve diag k s E,
    (forall n u, diag n = Some u -> shape (A_aa u) = [nv; nv; no; no] /\ shape (A_bb u) = [nv; nv; no; no] /\ shape (A_ab u) = [nv; nv; no; no]) ->
    lafter no no nv nv f_aa f_bb g_aaaa g_bbbb g_abab Daa Dbb Dab dsize dstart ty solve diag k = Some (s, E) ->
    exists T2, spin_amp S 2 no nv T2 /\ blocks2 S no nv T2 (A_aa (lamps s)) (A_bb (lamps s)) (A_ab (lamps s)) /\
      forall K, (2 <= K)%nat -> E = Fock.bra0 (2 * no) (2 * nv) (psi K T2).
  Proof.
    intros dsize dstart ty solve diag k s E HD HA.
    assert (A3 : is_amp 2 no nv (A_aa (lamps s)) /\ is_amp 2 no nv (A_bb (lamps s)) /\ shape (A_ab (lamps s)) = [nv; nv; no; no]).
    { destruct (string_dec ty "pCCD") as [->|NP].
      - destruct (C49_legacy_pCCD_pairs no nv _ _ _ _ _ _ _ _ dsize dstart solve diag HD k s E HA) as [Z1 [Z2 [Z3 _]]].
        split; [apply zero_amp, Z1|]. split; [apply zero_amp, Z2|exact Z3].
      - destruct (lafter_good no nv S F G _ _ _ _ _ _ _ _ e dsize dstart ty solve diag HS HH HDa HDb HDc HD NP k s E HA) as [_ [l2 [O _]]].
        apply good_weak3 in O. apply O. split; [|split]; reflexivity. }
    destruct A3 as [A1 [A2 A3]]. destruct (assemble_ok no nv S HS _ _ _ A1 A2 A3) as [AT BT].
    exists (assemble no nv S (A_aa (lamps s)) (A_bb (lamps s)) (A_ab (lamps s))). split; [exact AT|]. split; [exact BT|].
    apply (energy_is _ _ _ AT BT). destruct k as [|k]; cbn [lafter] in HA.
    - destruct (lenergy _ _ _ _ _ _ _ _) eqn:EE; cbn [obind] in HA; [|discriminate]. injection HA as <- <-. exact EE.
    - destruct (lafter _ _ _ _ _ _ _ _ _ _ _ _ _ _ _ _ _ k) as [[s1 e1]|]; cbn [obind fst] in HA; [|discriminate]. eapply pass_energy; exact HA.
  Qed.
  (** The arrays are unchanged by a pass exactly when every <Phi_ij^ab| e^-T2 H e^T2 |Phi> vanishes (labels without Qf terms). *)
  Theorem C64_fixed_point : forall ty T2 l t n K,
    ty <> "pCCD" -> ty <> "CCDQf-1" -> ty <> "CCDQf-2" ->
    spin_gapped [Up; Up] no nv e -> spin_gapped [Dn; Dn] no nv e -> spin_gapped [Up; Dn] no nv e ->
    spin_amp S 2 no nv T2 -> blocks2 S no nv T2 (A_aa t) (A_bb t) (A_ab t) -> (2 <= K)%nat ->
    so_new no no nv f_aa f_bb g_aaaa g_bbbb g_abab Daa Dbb Dab ty l t = Some n ->
    ((teq (A_aa n) (A_aa t) /\ teq (A_bb n) (A_bb t) /\ teq (A_ab n) (A_ab t)) <->
     (forall a b i j, (a < 2 * nv)%nat -> (b < 2 * nv)%nat -> (i < 2 * no)%nat -> (j < 2 * no)%nat ->
        Fock.bra2 (2 * no) (2 * nv) a b i j (psi K T2) = 0%Qc)).
  Proof.
    intros ty T2 l t n K N1 N2 N3 G1 G2 G3 HT HB HK HN.
    destruct (C04_spin_ccd_residual no nv S F G _ _ _ _ _ T2 _ _ _ HS HH HT HB) as [R [ra [rb [rc [H0 [H1 [H2 [H3 B]]]]]]]].
    pose proof HH as [HF [HFc [HG [HGc _]]]].
    destruct (P_fock.C42_ccd_equations (2 * no) (2 * nv) F G T2 HF HG (proj1 HT)) as [R' [E0 [K0 [_ [SR [_ D]]]]]].
    rewrite (P_fock.ret_unique _ _ _ _ _ _ K0 H0) in *. destruct (D K HK) as [_ D2].
    assert (AR : spin_amp S 2 no nv R).
    { destruct (ccd_conserves no nv S HS F G T2 HF HFc HG HGc HT) as [R0 [Y Z]]. rewrite (call0_returns _ _ _ H0) in Y. injection Y as <-. exact Z. }
    assert (EZ : zero_tensor R <-> (forall a b i j, (a < 2 * nv)%nat -> (b < 2 * nv)%nat -> (i < 2 * no)%nat -> (j < 2 * no)%nat ->
        Fock.bra2 (2 * no) (2 * nv) a b i j (psi K T2) = 0%Qc)).
    { unfold zero_tensor. rewrite SR. split.
      - intros Z a b i j Ha Hb Hi Hj. rewrite <- D2 by assumption. apply Z. apply (proj2 (inr4 _ _ _ _ _ _ _ _)). auto.
      - intros Z idx I. destruct (inr_4 _ _ _ _ _ I) as [a [b [i [j [-> [[X1 X2] [X3 X4]]]]]]]. rewrite D2 by assumption. apply Z; assumption. }
    rewrite <- EZ, (zero_block_iff no nv S HS R ra rb rc AR B). clear EZ D D2.
    unfold so_new, shifted, lqf in HN. rewrite (proj2 (String.eqb_neq _ _) N1), (proj2 (String.eqb_neq _ _) N2), (proj2 (String.eqb_neq _ _) N3) in HN.
    unfold largs, base_args in HN. cbn [app] in HN.
    rewrite (call0_returns _ _ _ H1), (call0_returns _ _ _ H2), (call0_returns _ _ _ H3) in HN. cbn [obind] in HN.
    destruct (tbin Qcmult (trecip Daa) _) as [ya|] eqn:Ya; cbn [obind] in HN; [|discriminate].
    destruct (tbin Qcplus ra ya) as [za|] eqn:Za; cbn [obind] in HN; [|discriminate].
    destruct (tbin Qcmult (trecip Dbb) _) as [yb|] eqn:Yb; cbn [obind] in HN; [|discriminate].
    destruct (tbin Qcplus rb yb) as [zb|] eqn:Zb; cbn [obind] in HN; [|discriminate].
    destruct (tbin Qcmult (trecip Dab) _) as [yc|] eqn:Yc; cbn [obind] in HN; [|discriminate].
    destruct (tbin Qcplus rc yc) as [zc|] eqn:Zc; cbn [obind] in HN; [|discriminate].
    destruct (tbin Qcmult za Daa) as [na|] eqn:Na; cbn [obind] in HN; [|discriminate].
    destruct (tbin Qcmult zb Dbb) as [nb|] eqn:Nb; cbn [obind] in HN; [|discriminate].
    destruct (tbin Qcmult zc Dab) as [nc|] eqn:Nc; cbn [obind] in HN; [|discriminate]. injection HN as <-. cbn [A_aa A_bb A_ab].
    assert (Ua : update Daa (A_aa t) ra = Some na) by (unfold update; rewrite Ya; cbn [obind]; rewrite Za; exact Na).
    assert (Ub : update Dbb (A_bb t) rb = Some nb) by (unfold update; rewrite Yb; cbn [obind]; rewrite Zb; exact Nb).
    assert (Uc : update Dab (A_ab t) rc = Some nc) by (unfold update; rewrite Yc; cbn [obind]; rewrite Zc; exact Nc).
    destruct HB as [T1 [T3 T4]], B as [B1 [B2 B3]].
    rewrite (update_fixed no nv Up Up e Daa _ ra na HDa G1 (proj1 T1) (proj1 B1) Ua).
    rewrite (update_fixed no nv Dn Dn e Dbb _ rb nb HDb G2 (proj1 T3) (proj1 B2) Ub).
    rewrite (update_fixed no nv Up Dn e Dab _ rc nc HDc G3 (proj1 T4) (proj1 B3) Uc). reflexivity.
  Qed.
  (** the (Qf) correction *)
  Lemma qf_is T t l q : spin_amp S 2 no nv T -> blocks2 S no nv T (A_aa t) (A_bb t) (A_ab t) -> adjoint t = Some l ->
    call0 Code_modify_T2energy_pertQf.energy_pertQf (qargs no g_aaaa g_bbbb g_abab l t) = Some q ->
    exists L, swapped 2 T L /\ data q [] = Fock.bra0 (2 * no) (2 * nv) (Fock.L2op (2 * no) (2 * nv) L (Fock.L2op (2 * no) (2 * nv) L
      (Fock.oscale (1 # 2) (Fock.comm (Fock.comm (Fock.Ham (2 * no) (2 * nv) F G) (Fock.T2op (2 * no) (2 * nv) T)) (Fock.T2op (2 * no) (2 * nv) T)) (Fock.Phi (2 * no) (2 * nv))))).
  Proof.
    intros HT HB HL HQ. destruct (transp_amp (2 * no) (2 * nv) T (proj1 HT)) as [L [_ [SW AL]]]. exists L. split; [exact SW|].
    pose proof (spin_amp_swapped no nv S T L HT AL SW) as HLs. pose proof (proj1 (proj1 HT)) as ST. cbn [repeat app] in ST.
    pose proof HB as [Ba [Bb Bc]].
    destruct (swapped_def _ _ _ _ _ (proj1 Ba)) as [laa [Ta Wa]]. destruct (swapped_def _ _ _ _ _ (proj1 Bb)) as [lbb [Tb Wb]].
    destruct (swapped_def _ _ _ _ _ (proj1 Bc)) as [lab [Tc Wc]].
    assert (HLb : blocks2_ov S no nv L laa lbb lab).
    { split; [|split]; [exact (block_swapped no nv S HS _ _ _ _ _ _ ST Ba SW Wa)|exact (block_swapped no nv S HS _ _ _ _ _ _ ST Bb SW Wb)|exact (block_swapped no nv S HS _ _ _ _ _ _ ST Bc SW Wc)]. }
    unfold adjoint in HL. rewrite Ta, Tb, Tc in HL. cbn [obind] in HL. injection HL as <-.
    destruct (P_fock4.C63_spin_ccdqf no nv S F G _ _ _ _ _ T _ _ _ L _ _ _ HS HH HT HB HLs HLb) as [q1 [q2 [q3 [q4 [q5 [q6 [E [_ [_ [_ [_ [_ [_ [_ [_ [H1 [_ H2]]]]]]]]]]]]]]]]].
    rewrite <- H2. f_equal. apply call0_returns in H1. unfold qargs in HQ. cbn [A_aa A_bb A_ab] in HQ.
    change (three g_aaaa g_bbbb g_abab) with (P_spin_qf.spin_dict g_aaaa g_bbbb g_abab) in HQ.
    change (three laa lbb lab) with (P_spin_qf.spin_dict laa lbb lab) in HQ.
    change (three (A_aa t) (A_bb t) (A_ab t)) with (P_spin_qf.spin_dict (A_aa t) (A_bb t) (A_ab t)) in HQ. congruence.
  Qed.
End Physical.
Print Assumptions C64_legacy_iterates.
Print Assumptions C64_fixed_point.

(** ** The driver *)
(** the state and the energy after k passes of run_ccd_SOslow.ccd_kernel *)
Fixpoint so_after na nb nva nvb f_aa f_bb g_aaaa g_bbbb g_abab Daa Dbb Dab dsize dstart ty solve diag (k : nat) : option (lstate * Qc) :=
  match k with
  | O => do e <- lenergy na nb f_aa f_bb g_aaaa g_bbbb g_abab (lamps (linit na nb nva nvb dsize dstart)); Some (linit na nb nva nvb dsize dstart, e)
  | Datatypes.S k' => do se <- so_after na nb nva nvb f_aa f_bb g_aaaa g_bbbb g_abab Daa Dbb Dab dsize dstart ty solve diag k';
      so_pass na nb nva f_aa f_bb g_aaaa g_bbbb g_abab Daa Dbb Dab dsize ty solve diag (fst se)
  end.
Lemma so_after_is no nv f_aa f_bb g_aaaa g_bbbb g_abab Daa Dbb Dab ds dstart ty solve diag
  (HD : forall n u, diag n = Some u -> shape (A_aa u) = [nv; nv; no; no] /\ shape (A_bb u) = [nv; nv; no; no] /\ shape (A_ab u) = [nv; nv; no; no]) : forall k,
  so_after no no nv nv f_aa f_bb g_aaaa g_bbbb g_abab Daa Dbb Dab (Some ds) dstart ty solve diag k =
  lafter no no nv nv f_aa f_bb g_aaaa g_bbbb g_abab Daa Dbb Dab (Some ds) dstart ty solve diag k.
Proof.
  induction k as [|k IH]; cbn [so_after lafter]; [reflexivity|]. rewrite IH.
  destruct (lafter _ _ _ _ _ _ _ _ _ _ _ _ _ _ _ _ _ k) as [[s1 e1]|] eqn:EA; cbn [obind fst]; [|reflexivity].
  destruct (string_dec ty "pCCD") as [->|NP]; [|apply so_pass_is; exact NP].
  destruct (C49_legacy_pCCD_pairs no nv _ _ _ _ _ _ _ _ _ dstart solve diag HD k s1 e1 EA) as [[Z1 _] [[Z2 _] [Z3 _]]].
  apply spass_pairs. split; [exact Z1|]. split; assumption.
Qed.
Lemma so_denoms_ok no nv ea eb Daa Dbb Dab : length ea = (no + nv)%nat -> length eb = (no + nv)%nat -> so_denoms ea eb no no = (Daa, Dbb, Dab) ->
  is_spin_denominator [Up; Up] (fun _ => no) (fun _ => nv) (spin_eps ea eb) Daa /\
  is_spin_denominator [Dn; Dn] (fun _ => no) (fun _ => nv) (spin_eps ea eb) Dbb /\
  is_spin_denominator [Up; Dn] (fun _ => no) (fun _ => nv) (spin_eps ea eb) Dab.
Proof.
  intros La Lb H. injection H as <- <- <-.
  assert (TS : forall ss D, is_spin_denominator ss (fst (two_spins no no nv nv)) (snd (two_spins no no nv nv)) (spin_eps ea eb) D ->
     is_spin_denominator ss (fun _ => no) (fun _ => nv) (spin_eps ea eb) D).
  { intros ss D [K1 K2]. assert (M1 : forall s : spin, match s with Up => no | Dn => no end = no) by (intros []; reflexivity).
    assert (M2 : forall s : spin, match s with Up => nv | Dn => nv end = nv) by (intros []; reflexivity).
    split.
    - rewrite K1. f_equal; apply map_ext; intros []; reflexivity.
    - intros v o L J. rewrite (K2 v o L J). f_equal. unfold spin_gap. f_equal. apply suml_ext. intros [s x] _. cbn [fst snd two_spins]. rewrite M1. reflexivity. }
  split; [|split]; apply TS; [exact (spin_block no no nv nv ea eb La Lb [Up; Up])|exact (spin_block no no nv nv ea eb La Lb [Dn; Dn])|exact (spin_block no no nv nv ea eb La Lb [Up; Dn])].
Qed.

(** Whatever the label, the driver returns only converged results: it made k+1 <= 75 passes, the last of which changed the
    energy by less than 1e-12; the states before and after that pass are the spin blocks of antisymmetric,
    spin-conserving amplitudes T0 and T of the spin-orbital Hamiltonian (F, G) of the same SCF result, with energies
    <Phi| e^-T H e^T |Phi>; the first number returned is the nuclear repulsion plus the last of these energies, and the
    second is the same number again.  With the label "CCD(Qf)" the second is instead the correction
    <Phi| L L 1/2 [[H,T0],T0] |Phi>, L the adjoint of T0 (of the pass before the last), and the first includes it. *)
Theorem C64_driver : forall n no nv I x fa fb Ca Cb eps_a eps_b order F G e rt ty nuc solve diag E c,
  (0 < n)%nat -> n = (no + nv)%nat -> eri_symmetric n I ->
  canonical n (no + nv) fa Ca eps_a -> canonical n (no + nv) fb Cb eps_b ->
  is_argsort (eps_a ++ eps_b)%list (order (eps_a ++ eps_b)%list) ->
  homo_lumo (fun _ => no) (fun _ => nv) (spin_eps eps_a eps_b) ->
  (x = uhf fa fb Ca Cb eps_a eps_b no no \/ (exists nele, x = rhf fa Ca eps_a nele /\ (nele / 2)%nat = no /\ fb = fa /\ Cb = Ca /\ eps_b = eps_a)) ->
  convert_slow order I Ca Cb eps_a eps_b = Some (F, G, e) ->
  (forall m u, diag m = Some u -> shape (A_aa u) = [nv; nv; no; no] /\ shape (A_bb u) = [nv; nv; no; no] /\ shape (A_ab u) = [nv; nv; no; no]) ->
  slook "ccdType" rt = Some ty ->
  so_main I x rt nuc solve diag = Some (E, c) ->
  let psi K T := Fock.cc_state K (2 * no) (2 * nv) F G (Fock.T2op (2 * no) (2 * nv) T) in
  let H := Fock.Ham (2 * no) (2 * nv) F G in
  exists f_aa f_bb g_aaaa g_bbbb g_abab Daa Dbb Dab S k s0 E0 s1 E1 T0 T,
    convert_fast I fa fb Ca Cb = Some (f_aa, f_bb, g_aaaa, g_bbbb, g_abab) /\ so_denoms eps_a eps_b no no = (Daa, Dbb, Dab) /\
    spin_ok no nv S /\ spin_hamiltonian S no nv F G f_aa f_bb g_aaaa g_bbbb g_abab /\
    let st := so_after no no nv nv f_aa f_bb g_aaaa g_bbbb g_abab Daa Dbb Dab (Some 15%nat) 4 ty solve diag in
    (k < 75)%nat /\ st k = Some (s0, E0) /\ st (k + 1)%nat = Some (s1, E1) /\ (Qcabs.Qcabs (E0 - E1) < Q2Qc (1 # 10 ^ 12))%Qc /\
    spin_amp S 2 no nv T0 /\ blocks2 S no nv T0 (A_aa (lamps s0)) (A_bb (lamps s0)) (A_ab (lamps s0)) /\
    spin_amp S 2 no nv T /\ blocks2 S no nv T (A_aa (lamps s1)) (A_bb (lamps s1)) (A_ab (lamps s1)) /\
    (forall K, (2 <= K)%nat -> E0 = Fock.bra0 (2 * no) (2 * nv) (psi K T0) /\ E1 = Fock.bra0 (2 * no) (2 * nv) (psi K T)) /\
    (ty <> "CCD(Qf)" -> E = (nuc + E1)%Qc /\ c = E) /\
    (ty = "CCD(Qf)" -> E = (nuc + E1 + c)%Qc /\ exists L, swapped 2 T0 L /\
       c = Fock.bra0 (2 * no) (2 * nv) (Fock.L2op (2 * no) (2 * nv) L (Fock.L2op (2 * no) (2 * nv) L
             (Fock.oscale (1 # 2) (Fock.comm (Fock.comm H (Fock.T2op (2 * no) (2 * nv) T0)) (Fock.T2op (2 * no) (2 * nv) T0)) (Fock.Phi (2 * no) (2 * nv)))))).
Proof.
  intros n no nv I x fa fb Ca Cb eps_a eps_b order F G e rt ty nuc solve diag E c N0 Nn HI Ka Kb Ho Hg HX ES HD HT HM psi H.
  destruct (C51_same_hamiltonian n no nv I fa fb Ca Cb eps_a eps_b order N0 HI Ka Kb Ho Hg)
    as [F' [G' [e' [f_aa [f_bb [g_aaaa [g_bbbb [g_abab [S [X1 [X2 [X3 [X4 [X5 X6]]]]]]]]]]]]]].
  rewrite ES in X1. injection X1 as <- <- <-.
  assert (HF : two_spin_form x = (fa, fb, Ca, Cb, eps_a, eps_b, no, no)).
  { destruct HX as [-> | [nele [-> [E1 [-> [-> ->]]]]]]; [reflexivity|]. cbn [two_spin_form]. rewrite E1. reflexivity. }
  unfold so_main in HM. rewrite HF in HM. clear HF HX. cbv zeta in HM. rewrite X2, HT in HM. cbn [obind] in HM.
  rewrite (proj1 Ka), (proj1 Kb) in HM. cbn [hd] in HM. assert (NV : (n - no)%nat = nv) by lia. rewrite NV in HM.
  destruct (so_denoms eps_a eps_b no no) as [[Daa Dbb] Dab] eqn:ED.
  destruct (so_denoms_ok no nv eps_a eps_b Daa Dbb Dab (proj1 (proj2 (proj2 Ka))) (proj1 (proj2 (proj2 Kb))) ED) as [V1 [V2 V3]].
  destruct (so_kernel _ _ _ _ _ _ _ _ _ _ _ _ _ _ _ _ _ _) as [[[tt tf] co]|] eqn:EK; cbn [obind fst snd] in HM; [|discriminate]. injection HM as <- <-.
  assert (EK' : legacy_kernel no no nv nv f_aa f_bb g_aaaa g_bbbb g_abab Daa Dbb Dab nuc (Some 15%nat) 4 ty solve diag = Some (tt, tf, co)).
  { rewrite <- EK. symmetry. destruct (string_dec ty "pCCD") as [->|NP]; [apply C64_copies_agree_pCCD|apply C64_copies_agree; exact NP]. }
  clear EK. unfold legacy_kernel in EK'.
  destruct (lenergy _ _ _ _ _ _ _ (lamps (linit no no nv nv (Some 15%nat) 4))) as [e0|] eqn:E0; cbn [obind] in EK'; [|discriminate].
  assert (H0 : lafter no no nv nv f_aa f_bb g_aaaa g_bbbb g_abab Daa Dbb Dab (Some 15%nat) 4 ty solve diag 0 = Some (linit no no nv nv (Some 15%nat) 4, e0)) by (cbn [lafter]; rewrite E0; reflexivity).
  pose proof (lloop_spec no no nv nv f_aa f_bb g_aaaa g_bbbb g_abab Daa Dbb Dab (Some 15%nat) 4 ty solve diag legacy_max_iter 0 _ _ H0) as L.
  destruct (lloop _ _ _ _ _ _ _ _ _ _ _ _ _ _ _ _ _ _) as [[[s1 E1] tp]|]; cbn [obind] in EK'; [|discriminate].
  destruct L as [k [s0 [E0' [J1 [J2 [J3 [J4 [J5 _]]]]]]]]. unfold legacy_max_iter in J1.
  destruct (C64_legacy_iterates no nv S F G _ _ _ _ _ _ _ _ _ X3 X4 V1 V2 V3 _ _ _ _ _ _ _ _ HD J2) as [T0 [A0 [B0 C0]]].
  destruct (C64_legacy_iterates no nv S F G _ _ _ _ _ _ _ _ _ X3 X4 V1 V2 V3 _ _ _ _ _ _ _ _ HD J3) as [T [A1 [B1 C1]]].
  exists f_aa, f_bb, g_aaaa, g_bbbb, g_abab, Daa, Dbb, Dab, S, k, s0, E0', s1, E1, T0, T.
  split; [exact X2|]. split; [reflexivity|]. split; [exact X3|]. split; [exact X4|]. cbv zeta. rewrite !so_after_is by exact HD.
  split; [lia|]. split; [exact J2|]. split; [exact J3|]. split.
  { destruct J5 as [y1 [y2 [y3 [y4 [Y1 [Y2 Y3]]]]]]. rewrite J2 in Y1. rewrite J3 in Y2. injection Y1 as <- <-. injection Y2 as <- <-. exact Y3. }
  split; [exact A0|]. split; [exact B0|]. split; [exact A1|]. split; [exact B1|]. split; [exact (fun K HK => conj (C0 K HK) (C1 K HK))|].
  split.
  - intros NQ. rewrite (proj2 (String.eqb_neq _ _) NQ) in EK'. injection EK' as _ <- <-. split; ring.
  - intros Q. rewrite Q in EK'. change ("CCD(Qf)" =? "CCD(Qf)") with true in EK'. cbn iota in EK'. subst tp.
    destruct (adjoint (lamps s0)) as [l|] eqn:EA; cbn [obind] in EK'; [|discriminate].
    destruct (call0 _ _) as [q|] eqn:EQ; cbn [obind] in EK'; [|discriminate]. injection EK' as _ <- <-. split; [ring|].
    exact (qf_is no nv S F G _ _ _ _ _ X3 X4 T0 (lamps s0) l q A0 B0 EA EQ).
Qed.
Print Assumptions C64_driver.

(** *** Instance: two orbitals, two electrons, one small exchange integral *)
Import P_endtoend.
Definition k_I : tensor := arr4 2 2 2 2 (fun p q r s => if (negb (Nat.eqb p q) && negb (Nat.eqb r s))%bool then Q2Qc (1 # 10000000) else Q2Qc (1 # 2)).
Notation k_x := (rhf h_f (teye 2) h_eps 2).
Notation k_main x ty := (so_main k_I x [("ccdType", ty)] (Q2Qc (3 # 1)) (fun _ _ _ => None) (fun _ => None)).
Notation k_slow := (convert_slow h_order k_I (teye 2) (teye 2) h_eps h_eps).
(** the Hartree-Fock energy: nuclear repulsion plus the electronic energy at zero amplitudes *)
Definition k_zero : amps3 := mkA (tzeros [1; 1; 1; 1]%nat) (tzeros [1; 1; 1; 1]%nat) (tzeros [1; 1; 1; 1]%nat).
Definition k_hf : option Qc :=
  do y <- convert_fast k_I h_f h_f (teye 2) (teye 2);
  let '(f_aa, f_bb, g_aaaa, g_bbbb, g_abab) := y in
  do h <- lenergy 1 1 f_aa f_bb g_aaaa g_bbbb g_abab k_zero; Some (Q2Qc (3 # 1) + h)%Qc.
Definition k_test (r : option (Qc * Qc)) : bool :=
  match r, k_hf with
  | Some (E, c), Some h => (negb (Qeq_bool E h) && Qeq_bool c E && negb (Qeq_bool c (E - h)%Qc))%bool
  | _, _ => false
  end.
Example k_runs : k_test (k_main k_x "CCD") = true.
Proof. vm_compute. reflexivity. Qed.
Example k_I_ok : eri_symmetric 2 k_I.
Proof.
  split; [reflexivity|]. intros p q r s _ _ _ _. cbn [data k_I arr4]. rewrite (Nat.eqb_sym q p), (Nat.eqb_sym s r), (Bool.andb_comm (negb (Nat.eqb r s))). repeat split.
Qed.
Lemma zero_blocks no nv S (HS : spin_ok no nv S) : spin_amp S 2 no nv (tzeros [2 * nv; 2 * nv; 2 * no; 2 * no]%nat) /\
  blocks2 S no nv (tzeros [2 * nv; 2 * nv; 2 * no; 2 * no]%nat) (tzeros [nv; nv; no; no]) (tzeros [nv; nv; no; no]) (tzeros [nv; nv; no; no]).
Proof.
  split; [split; [apply (amp_zeros (2 * no) (2 * nv) 2)|intros l1 l2 _ _ _ _; reflexivity]|].
  split; [|split]; (apply (block2_intro no nv S); [reflexivity|]; intros; reflexivity).
Qed.
Lemma k_hyp : exists F G e E c h, k_slow = Some (F, G, e) /\ k_main k_x "CCD" = Some (E, c) /\
  h = (Q2Qc (3 # 1) + Fock.bra0 2 2 (Fock.cc_state 2 2 2 F G (Fock.T2op 2 2 (tzeros [2; 2; 2; 2]%nat))))%Qc /\ (E <> h)%Qc /\ (c = E)%Qc /\ (c <> E - h)%Qc.
Proof.
  pose proof k_runs as T. unfold k_test in T. destruct (k_main k_x "CCD") as [[E c]|]; [|discriminate]. destruct k_hf as [h|] eqn:EH; [|discriminate].
  destruct (C51_same_hamiltonian 2 1 1 k_I h_f h_f (teye 2) (teye 2) h_eps h_eps h_order ltac:(lia) k_I_ok h_canonical h_canonical h_argsort h_gap)
    as [F [G [e [f_aa [f_bb [g_aaaa [g_bbbb [g_abab [S [X1 [X2 [X3 [X4 _]]]]]]]]]]]]].
  exists F, G, e, E, c, h. split; [exact X1|]. split; [reflexivity|]. unfold k_hf in EH. rewrite X2 in EH. cbn [obind] in EH.
  destruct (lenergy _ _ _ _ _ _ _ k_zero) as [h0|] eqn:E0; cbn [obind] in EH; [|discriminate].
  destruct (zero_blocks 1 1 S X3) as [Z1 Z2]. pose proof (energy_is 1 1 S F G _ _ _ _ _ X3 X4 _ k_zero h0 Z1 Z2 E0 2%nat (Nat.le_refl 2)) as E1.
  injection EH as <-. split; [rewrite E1; reflexivity|].
  apply andb_true_iff in T. destruct T as [T T3]. apply andb_true_iff in T. destruct T as [T1 T2].
  split; [intros ->; rewrite Qeq_bool_refl in T1; discriminate|]. split; [apply Qc_is_canon, Qeq_bool_iff, T2|].
  intros X. rewrite <- X in T3. rewrite Qeq_bool_refl in T3. discriminate.
Qed.
Example C64_driver_instance : exists F G e E c, k_slow = Some (F, G, e) /\ k_main k_x "CCD" = Some (E, c) /\
  exists S T, spin_ok 1 1 S /\ spin_amp S 2 1 1 T /\ E = (Q2Qc (3 # 1) + Fock.bra0 2 2 (Fock.cc_state 2 2 2 F G (Fock.T2op 2 2 T)))%Qc.
Proof.
  destruct k_hyp as [F [G [e [E [c [h [ES [EM _]]]]]]]]. exists F, G, e, E, c. split; [exact ES|]. split; [exact EM|].
  destruct (C64_driver 2 1 1 k_I k_x h_f h_f (teye 2) (teye 2) h_eps h_eps h_order F G e [("ccdType", "CCD")] "CCD" (Q2Qc (3 # 1)) (fun _ _ _ => None) (fun _ => None) E c
    ltac:(lia) eq_refl k_I_ok h_canonical h_canonical h_argsort h_gap (or_intror (ex_intro _ 2%nat (conj eq_refl (conj eq_refl (conj eq_refl (conj eq_refl eq_refl))))))
    ES ltac:(discriminate) eq_refl EM) as [f1 [f2 [g1 [g2 [g3 [d1 [d2 [d3 [S [k [s0 [E0 [s1 [E1 [T0 [T [_ [_ [X1 [_ X]]]]]]]]]]]]]]]]]]]].
  destruct X as [_ [_ [_ [_ [_ [_ [X2 [_ [X3 [X4 _]]]]]]]]]]. exists S, T. split; [exact X1|]. split; [exact X2|].
  destruct (X4 ltac:(discriminate)) as [-> _]. rewrite (proj2 (X3 2%nat (Nat.le_refl 2))). reflexivity.
Qed.
(** The documentation of the driver promises the correlation energy (run_ccd_SOslow.py:14-24).  The second number returned is
    not it: it is the total energy, and differs from the total energy less the Hartree-Fock energy (the energy at T = 0). *)
Theorem C64_returns_correlation_refuted : exists I f C eps nele rt nuc solve diag order F G e E c,
  convert_slow order I C C eps eps = Some (F, G, e) /\
  so_main I (rhf f C eps nele) rt nuc solve diag = Some (E, c) /\ c = E /\
  c <> (E - (nuc + Fock.bra0 2 2 (Fock.cc_state 2 2 2 F G (Fock.T2op 2 2 (tzeros [2; 2; 2; 2]%nat)))))%Qc.
Proof.
  destruct k_hyp as [F [G [e [E [c [h [ES [EM [EH [_ [X1 X2]]]]]]]]]]]. subst h.
  exists k_I, h_f, (teye 2), h_eps, 2%nat, [("ccdType", "CCD")], (Q2Qc (3 # 1)), (fun _ _ _ => None), (fun _ => None), h_order, F, G, e, E, c.
  split; [exact ES|]. split; [exact EM|]. split; [exact X1|exact X2].
Qed.
Print Assumptions C64_returns_correlation_refuted.
(** A restricted calculation is the unrestricted one with the two spins alike. *)
Theorem C64_rhf_is_uhf : forall I f C eps nele rt nuc solve diag,
  so_main I (rhf f C eps nele) rt nuc solve diag = so_main I (uhf f f C C eps eps (nele / 2) (nele / 2)) rt nuc solve diag.
Proof. reflexivity. Qed.
Print Assumptions C64_rhf_is_uhf.

(** With different numbers of alpha and beta electrons the driver raises in its first pass: the beta residual reads the alpha ranges
    (C23).  (numpy stretches an extent of 1, which the model does not; hence the two exclusions.) *)
Theorem C64_open_shell_raises_refuted : forall n I fa fb Ca Cb eps_a eps_b na nb rt nuc solve diag,
  na <> nb -> na <> 1%nat -> nb <> 1%nat -> (na <= n)%nat -> (nb <= n)%nat ->
  shape fa = [n; n] -> shape fb = [n; n] -> shape Ca = [n; n] -> shape Cb = [n; n] ->
  so_main I (uhf fa fb Ca Cb eps_a eps_b na nb) rt nuc solve diag = None.
Proof.
  intros n I fa fb Ca Cb eps_a eps_b na nb rt nuc solve diag NE N1 N2 La Lb Sfa Sfb SCa SCb.
  unfold so_main. cbn [two_spin_form]. rewrite Sfa, Sfb. cbn [hd].
  destruct (convert_fast I fa fb Ca Cb) as [[[[[f_aa f_bb] g_aaaa] g_bbbb] g_abab]|] eqn:EC; cbn [obind]; [|reflexivity].
  destruct (so_denoms eps_a eps_b na nb) as [[Daa Dbb] Dab].
  destruct (slook "ccdType" rt) as [ty|]; cbn [obind]; [|reflexivity].
  assert (SB : shape f_bb = [n; n]).
  { unfold convert_fast in EC. destruct (in_mo_spec fb Cb n n Sfb SCb) as [R [E1 [S1 _]]]. rewrite E1 in EC.
    destruct (in_mo fa Ca); cbn [obind] in EC; [|discriminate].
    do 3 (destruct (ao2mo _ _ _ _ _); cbn [obind] in EC; [|discriminate]). do 2 (destruct (dirac_anti _); cbn [obind] in EC; [|discriminate]).
    destruct (ttransp _ _); cbn [obind] in EC; [|discriminate]. injection EC as _ <- _ _ _. exact S1. }
  unfold so_kernel. destruct (lenergy _ _ _ _ _ _ _ _) as [e0|]; cbn [obind]; [|reflexivity].
  assert (HL : so_loop na nb (n - na) f_aa f_bb g_aaaa g_bbbb g_abab Daa Dbb Dab (Some 15%nat) ty solve diag legacy_max_iter
                 (linit na nb (n - na) (n - nb) (Some 15%nat) 4) e0 = None).
  { change legacy_max_iter with (Datatypes.S 74). cbn [so_loop]. unfold so_pass. destruct (adjoint _) as [l|]; cbn [obind]; [|reflexivity].
    unfold so_new. destruct (shifted _ _ _ _ _ _ _ Code_t2residEqns.ccd_t2_aaaa_residual _ _ _) as [r|]; cbn [obind]; [|reflexivity].
    unfold shifted at 1. unfold call0, largs, base_args. cbn [app linit lamps A_aa A_bb A_ab].
    rewrite (C23_beta_shapes_raise_refuted na nb (n - na) (n - nb)); [reflexivity|assumption..|lia|reflexivity|rewrite SB; repeat f_equal; lia]. }
  rewrite HL. reflexivity.
Qed.
Print Assumptions C64_open_shell_raises_refuted.
Example C64_open_shell_instance := fun I rt nuc solve diag =>
  C64_open_shell_raises_refuted 5 I (tzeros [5; 5]%nat) (tzeros [5; 5]%nat) (tzeros [5; 5]%nat) (tzeros [5; 5]%nat) [] [] 3 2 rt nuc solve diag
    ltac:(discriminate) ltac:(discriminate) ltac:(discriminate) ltac:(repeat constructor) ltac:(repeat constructor) eq_refl eq_refl eq_refl eq_refl.
