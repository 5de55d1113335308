(** C69, C70: which calculations end with a result. *)
From Coq Require Import String Ascii List Arith NArith ZArith QArith Qcanon Bool Lia.
From Verif Require Import Sums Tensor Interp Numpy Poly SymExec Canon Spec Instances Setup Master Spin Check Tabs.
From Verif Require Import SpecDriver SpecFrag SpecRot Diis Kernel SlowCC Linear P_ccsd P_slow P_driver P_kernel P_slow3 P_rot P_rot3 P_ucc4 Total.
From Verif Require Import P_wanti P_rot2.
From Verif Require Code_drive_ucc4 Code_t2residEqnsSlow Code_t2energySlow.
Import ListNotations.
Open Scope list_scope.
Open Scope Qc_scope.

(** The linear solver of DIIS always finds a solution (its failures are the only exceptions that this leaves out). *)
Definition solver_succeeds (solve : solver) : Prop := forall n B r, solve n B r <> None.
(** DIIS is off, or keeps at least one vector. *)
Definition diis_usable (c : calc) : Prop := match diis_size c with None => True | Some n => (0 < n)%nat end.
(** A calculation that comes to an end: it returns, or, if more than 76 passes are allowed, exits. *)
Definition ends_well (c : calc) (o : outcome) : Prop := (exists d tf co, o = Returned d tf co) \/ o = SysExit /\ (76 < max_iter c)%nat.

Lemma ready_new sh W c d0 ov ds l w : diis_usable c -> (diis_size c <> None -> length ov = len sh (vec_keys (cc_type c))) ->
  ds = diis_new (match diis_size c with Some n => n | None => O end) (diis_start c) -> diis_ready sh W c (mkSt W d0 l ov ds w).
Proof.
  unfold diis_usable, diis_ready. intros U O ->. destruct (diis_size c) as [n|]; [|exact I]. split; [apply O; discriminate|].
  split; [exact U|]. cbn. split; [constructor|]. split; [constructor|reflexivity].
Qed.
Lemma l2_total d no nv : shaped (fun k => if (String.eqb k "t2aa" || String.eqb k "t2bb" || String.eqb k "t2ab")%bool then [nv; nv; no; no] else match slook k d with Some t => shape t | None => [] end) d ->
  has t2_keys d -> exists l, l2_of d = Some l.
Proof.
  intros S H. unfold l2_of. destruct (slook "t2aa" d) as [a|] eqn:Ea; [|destruct (H "t2aa" ltac:(cbn; auto) Ea)]. destruct (slook "t2bb" d) as [b|] eqn:Eb; [|destruct (H "t2bb" ltac:(cbn; auto) Eb)].
  destruct (slook "t2ab" d) as [e|] eqn:Ee; [|destruct (H "t2ab" ltac:(cbn; auto) Ee)]. cbn [obind].
  pose proof (S _ _ Ea) as Sa. pose proof (S _ _ Eb) as Sb. pose proof (S _ _ Ee) as Se. cbn in Sa, Sb, Se.
  destruct (transp_swap no nv a Sa) as [x1 [-> _]], (transp_swap no nv b Sb) as [x2 [-> _]], (transp_swap no nv e Se) as [x3 [-> _]]. cbn [obind]. eauto.
Qed.
Lemma l2_tot sh d no nv : shaped sh d -> has t2_keys d -> sh "t2aa" = [nv; nv; no; no] -> sh "t2bb" = [nv; nv; no; no] -> sh "t2ab" = [nv; nv; no; no] -> exists l, l2_of d = Some l.
Proof.
  intros S H A B C. apply (l2_total d no nv); [|exact H]. intros k t E.
  destruct (String.eqb_spec k "t2aa") as [X|_]; [cbn; subst k; rewrite <- A; exact (S _ _ E)|]. destruct (String.eqb_spec k "t2bb") as [X|_]; [cbn; subst k; rewrite <- B; exact (S _ _ E)|].
  destruct (String.eqb_spec k "t2ab") as [X|_]; [cbn; subst k; rewrite <- C; exact (S _ _ E)|]. cbn. rewrite E. reflexivity.
Qed.

(** ** Spin-orbital calculations with labels other than UCC(4) *)
Section Slow.
  Variables no nv : nat.
  Variables f g D1 D2 D3 : tensor.
  Variable eps : nat -> Qc.
  Variable c : calc.
  Variable solve : solver.
  Hypothesis Hf : is_fock (no + nv) f.
  Hypothesis Hg : is_tei (no + nv) g.
  Hypothesis HD : is_denominator 2 no nv eps D2.
  Hypothesis HL : cc_label c = "ccdTypeSlow".
  Hypothesis HU : contains "UCC(4)" (cc_type c) = false.
  Hypothesis HQ : contains "CCSD(Qf)" (cc_type c) = false.
  Hypothesis HDQ : diis_size c <> None -> contains "CCDQ" (cc_type c) = false.
  Hypothesis HNQ : is_qf c = false.
  Hypothesis HX : (contains "X" (cc_type c) || contains "UT2" (cc_type c))%bool = true -> exists l, extract_integer (cc_type c) = Some l.
  Hypothesis SOK : solver_succeeds solve.
  Hypothesis DU : diis_usable c.
  Hypothesis Ho : (0 < no)%nat.
  Hypothesis Hv : (0 < nv)%nat.
  Notation sh := (fun _ : string => [nv; nv; no; no]).
  Notation sresid := (slow_resid no nv f g D1 D2 D3 c).
  Notation senergy := (slow_energy no nv f g D2 c).
  Notation it := (iteration disk solve sresid senergy c).
  Definition Inv (s : kstate disk) : Prop :=
    okstate (P_amp no nv) disk c (gooddict (P_amp no nv)) s /\ has t2_keys (amps disk s) /\ diis_ready sh disk c s.
  Lemma HX1 : contains "X" (cc_type c) = true -> exists l, extract_integer (cc_type c) = Some l.
  Proof using HX. intros E. apply HX. rewrite E. reflexivity. Qed.
  Lemma vk : diis_size c <> None -> vec_keys (cc_type c) = t2_keys.
  Proof using HU HDQ. intros H. unfold vec_keys. rewrite HU, (HDQ H). reflexivity. Qed.
  Lemma sgood d : gooddict (P_amp no nv) d -> shaped sh d.
  Proof. intros G k t E. exact (proj1 (G k t E)). Qed.
  Lemma inv_step s : Inv s -> exists s' e, it s = Some (s', e) /\ Inv s'.
  Proof using All.
    intros [OK [HH HR]]. pose proof (proj1 OK) as G.
    pose proof (okstate_iteration sh (P_amp no nv)) as OI. specialize (OI (fun k t H => proj1 H)).
    specialize (OI (fun k t u => P_slow.amp_teq no nv 2 t u) (fun k n c0 ts => P_slow.amp_lin no nv 2 n c0 ts) disk solve sresid).
    assert (RK : forall rf d l2 w d' w', resid_call c = Some rf -> gooddict (P_amp no nv) d -> l2_of d = Some l2 -> sresid rf d l2 w = Some (d', w') -> gooddict (P_amp no nv) d').
    { intros rf d l2 w d' w' H1 H2 _ H3. eapply resid_keeps; eassumption. }
    pose proof (fun en => OI en c (gooddict (P_amp no nv)) (fun d H => H) RK s) as OJ. clear OI.
    assert (X : exists s' e', it s = Some (s', e') /\ has t2_keys (amps disk s') /\ diis_ready sh disk c s').
    { pose proof (OJ (fun _ _ w => Some (0, w))) as OD. unfold iteration in OD |- *.
      destruct (l2_tot sh (amps disk s) no nv (sgood _ G) HH eq_refl eq_refl eq_refl) as [l El]. rewrite El in OD |- *. cbn [obind] in OD |- *.
      rewrite (resid_call_slow c HL HU), HQ in OD |- *. cbn [obind slow_resid] in OD |- *.
      destruct (slook "t2aa" (amps disk s)) as [t2|] eqn:E2; [|destruct (HH "t2aa" ltac:(cbn; auto) E2)].
      destruct (resid_ok no nv f g D2 eps c Hf Hg HD (amps disk s) (world disk s) t2 G E2 HX1) as [d' [w' [u [ER [Gd' Ed']]]]].
      rewrite ER in OD |- *. cbn [obind fst snd] in OD |- *.
      assert (H' : has t2_keys d') by (intros x [<-|[<-|[<-|[]]]]; rewrite Ed'; discriminate).
      destruct (block_total sh disk solve c SOK (mkSt disk d' l (old_vec disk s) (dstate disk s) w')) as [s1 [E1 [R1 [S1 [K1 _]]]]].
      - exact HR.
      - exact (sgood _ Gd').
      - intros HN. rewrite (vk HN). exact H'.
      - rewrite E1 in OD |- *. cbn [obind] in OD |- *. rewrite (energy_call_slow c HL HU), HQ in OD |- *. cbn [obind slow_energy fst snd] in OD |- *.
        destruct (OD _ _ OK eq_refl) as [_ G1]. cbn [amps] in G1. specialize (K1 t2_keys H').
        destruct (slook "t2aa" (amps disk s1)) as [u2|] eqn:Eu; [|destruct (K1 "t2aa" ltac:(cbn; auto) Eu)].
        destruct (energy_ok no nv f g D2 eps c Hf Hg HD (amps disk s1) (world disk s1) u2 G1 Eu HX1) as [e1 [w1 ->]].
        cbn [obind fst snd]. eexists _, _. split; [reflexivity|]. split; [exact K1|exact R1]. }
    destruct X as [s' [e' [E [H' R']]]]. exists s', e'. split; [exact E|]. destruct (OJ _ _ _ OK E) as [O' _]. split; [exact O'|auto].
  Qed.
  Lemma inv_start w : exists s0 e0, start disk senergy (mp_guess no g D2) c (slow_init no nv c) (slow_old no nv c) w = Some (s0, e0) /\ Inv s0.
  Proof using All.
    destruct (guess_amp no nv g D2 eps Hg HD) as [gs [t [T1 [T2 At]]]].
    assert (MG : mp_guess no g D2 (slow_init no nv c) = Some (sset "t2aa" t (slow_init no nv c))) by (unfold mp_guess; rewrite T1; cbn [obind]; rewrite T2; reflexivity).
    destruct (init_good no nv g D2 eps c Hg HD HU _ MG) as [G _].
    destruct (energy_ok no nv f g D2 eps c Hf Hg HD _ w t G (slook_sset_same _ _ _) HX1) as [e [w' EE]].
    unfold start. rewrite HL. cbn [String.eqb Ascii.eqb Bool.eqb]. rewrite MG. cbn [obind]. rewrite (energy_call_slow c HL HU), HQ. cbn [obind slow_energy]. rewrite EE. cbn [obind fst snd].
    eexists _, _. split; [reflexivity|].
    assert (HI : has t2_keys (slow_init no nv c)) by (intros x [<-|[<-|[<-|[]]]]; discriminate).
    split; [split; [exact G|constructor]|]. split; [intros x Hx; apply has_sset with (ks := t2_keys); auto|].
    apply ready_new with (w := w') (d0 := sset "t2aa" t (slow_init no nv c)) (l := []); auto. intros HN. rewrite (vk HN).
    unfold slow_old, old_keys. rewrite HU.
    destruct (vectorise_total sh t2_keys (slow_init no nv c)) as [v [EV LV]]; [|exact HI|].
    - intros k x E. unfold slow_init in E. rewrite HU in E. destruct (diis_size c); cbn in E; repeat (match type of E with (if ?b then _ else _) = _ => destruct b end; [injection E as <-; reflexivity|]); discriminate.
    - rewrite EV. exact LV.
  Qed.
  Lemma slow_total w : (0 < max_iter c)%nat -> ends_well c (slow_kernel no nv f g D1 D2 D3 c solve w).
  Proof using All.
    intros HM. destruct (inv_start w) as [s0 [e0 [ES I0]]]. unfold ends_well, slow_kernel.
    apply (kernel_total disk solve sresid senergy (slow_pert no nv g D2 c) (mp_guess no g D2) c Inv inv_step) with (s0 := s0) (e0 := e0); auto.
    intros s e [[G _] [H _]].
    destruct (slook "t2aa" (amps disk s)) as [t2|] eqn:E2; [|destruct (H "t2aa" ltac:(cbn; auto) E2)]. pose proof (G _ _ E2) as A2.
    split; [unfold printable; rewrite E2, (proj1 A2); cbn [repeat app]; rewrite (proj2 (Nat.ltb_lt 0 nv) Hv), (proj2 (Nat.ltb_lt 0 no) Ho); reflexivity|].
    assert (N1 : (cc_type c =? "CCD(Qf)")%string = false).
    { destruct (String.eqb_spec (cc_type c) "CCD(Qf)") as [X|]; [|reflexivity]. exfalso. revert HNQ. unfold is_qf. rewrite X. cbn. discriminate. }
    unfold finalize. rewrite HNQ, N1. cbn [negb obind fst snd].
    destruct (contains "UT2" (cc_type c)) eqn:EU; [|cbn [obind]; eauto].
    destruct HX as [l El]; [rewrite orb_true_r; reflexivity|]. cbn [slow_pert]. unfold t2pert_slow. rewrite E2, El. cbn [obind].
    destruct (extract_orders _ _ El) as [m [Hm ->]].
    destruct (xcc_energies_ok no nv g D2 eps Hg HD true t2 A2 (m + 1 - 5) 5 (world disk s) ltac:(lia) ltac:(lia) ltac:(auto)) as [l' [w' ->]]. cbn [obind fst snd]. eauto.
  Qed.
End Slow.

(** ** UCC(4) *)
Definition holds (d : dict) (k : string) (sh : list nat) : Prop := exists t, slook k d = Some t /\ shape t = sh.
Definition has_doubles (no nv : nat) (d : dict) : Prop := holds d "t2aa" [nv; nv; no; no] /\ holds d "t2bb" [nv; nv; no; no] /\ holds d "t2ab" [nv; nv; no; no].
Definition has_rest (no nv : nat) (d : dict) : Prop := slook "t3aa" d = None \/ holds d "t1aa" [nv; no] /\ holds d "t3aa" [nv; nv; nv; no; no; no].
Lemma holds_same d k t sh : shape t = sh -> holds (sset k t d) k sh.
Proof. intros H. exists t. split; [apply slook_sset|exact H]. Qed.
Lemma holds_other d k k' t sh : String.eqb k k' = false -> holds d k sh -> holds (sset k' t d) k sh.
Proof. intros H [u [E S]]. exists u. split; [rewrite slook_sset_ne by exact H; exact E|exact S]. Qed.
Ltac hold := repeat first [apply holds_same; assumption | apply holds_other; [reflexivity|]]; assumption.
(** the shape of every array that UCC(4) keeps *)
Definition ushape (no nv : nat) (k : string) : list nat :=
  if String.eqb k "t1aa" then [nv; no] else if String.eqb k "t3aa" then [nv; nv; nv; no; no; no] else [nv; nv; no; no].
Section Total.
  Variables no nv : nat.
  Variables f g D1 Dd D3 : tensor.
  Variable eps : nat -> Qc.
  Hypothesis Hf : is_fock (no + nv) f.
  Hypothesis Hg : is_tei (no + nv) g.
  Hypothesis HD1 : is_denominator 1 no nv eps D1.
  Hypothesis HD2 : is_denominator 2 no nv eps Dd.
  Hypothesis HD3 : is_denominator 3 no nv eps D3.
  Lemma rot_sh {ks t t' sh} : rotated no nv idm idm ks t t' -> sh = map (ksize no nv) ks -> shape t = sh.
  Proof using. intros [S _] ->. exact S. Qed.
  Lemma u_total d w : has_doubles no nv d -> has_rest no nv d ->
    exists d', ucc4_resid no nv f g D1 Dd D3 d w = Some (d', w) /\ has_doubles no nv d' /\ (holds d' "t1aa" [nv; no] /\ holds d' "t3aa" [nv; nv; nv; no; no; no]) /\
      (shaped (ushape no nv) d -> shaped (ushape no nv) d').
  Proof using All.
    intros HH HR. unfold ucc4_resid. set (d0 := match slook "t3aa" d with Some _ => d | None => _ end).
    assert (L : has_doubles no nv d0 /\ holds d0 "t1aa" [nv; no] /\ holds d0 "t3aa" [nv; nv; nv; no; no; no]).
    { unfold d0. destruct HR as [X|[X1 X3]].
      - rewrite X. destruct HH as [Ha [Hb Hc]]. split; [split; [|split]; hold|]. split; [apply holds_other; [reflexivity|]|]; apply holds_same; reflexivity.
      - destruct X3 as [t3 [E3 S3]]. rewrite E3. split; [exact HH|]. split; [exact X1|]. exists t3. auto. }
    assert (LS : shaped (ushape no nv) d -> shaped (ushape no nv) d0).
    { unfold d0. intros HS. destruct (slook "t3aa" d); [exact HS|]. repeat (apply shaped_sset; [|reflexivity]). exact HS. }
    clearbody d0. destruct L as [[[t2 [E2 S2]] [Hb Hc]] [[t1 [E1 S1]] [t3 [E3 S3]]]]. rewrite E2. cbn [obind].
    destruct (transp_swap no nv t2 S2) as [u [Tu [Su _]]]. rewrite Tu. cbn [obind]. rewrite E1, E3. cbn [obind].
    assert (Oo : orthogonal no idm) by (apply relabelling_orthogonal, id_relab). assert (Ov : orthogonal nv idm) by (apply relabelling_orthogonal, id_relab).
    pose proof (id_rotated no nv [Al; Al] f (proj1 Hf)) as Rf. pose proof (id_rotated no nv [Al; Al; Al; Al] g (proj1 Hg)) as Rg.
    pose proof (id_rotated no nv (vo_kinds 1) t1 S1) as R1. pose proof (id_rotated no nv (vo_kinds 2) t2 S2) as R2. pose proof (id_rotated no nv (vo_kinds 3) t3 S3) as R3.
    pose proof (id_rotated no nv (ov_kinds 2) u Su) as Ru.
    destruct (rb_all no nv idm idm Oo Ov f f g g Rf Rg t1 t1 t2 t2 u u t3 t3 R1 R2 Ru R3) as [[x1 [? [C1 [_ X1]]]] [[x2 [? [C2 [_ X2]]]] [[x3 [? [C3 [_ X3]]]] [[x4 [? [C4 [_ X4]]]] [x5 [? [C5 [_ X5]]]]]]]].
    destruct (C67_ccd_rotation no nv idm idm f f g g t2 t2 Oo Ov Rf Rg R2) as [[y6 [? [C6 [_ X6]]]] _].
    pose proof (rot_sh X1 (sh := [nv; no]) eq_refl) as Z1. pose proof (rot_sh X5 (sh := [nv; nv; nv; no; no; no]) eq_refl) as Z5.
    pose proof (rot_sh X2 (sh := [nv; nv; no; no]) eq_refl) as Z2. pose proof (rot_sh X3 (sh := [nv; nv; no; no]) eq_refl) as Z3.
    pose proof (rot_sh X4 (sh := [nv; nv; no; no]) eq_refl) as Z4. pose proof (rot_sh X6 (sh := [nv; nv; no; no]) eq_refl) as Z6.
    assert (Y1 : shape D1 = [nv; no]) by (rewrite (proj1 HD1); reflexivity). assert (Y2 : shape Dd = [nv; nv; no; no]) by (rewrite (proj1 HD2); reflexivity).
    assert (Y3 : shape D3 = [nv; nv; nv; no; no; no]) by (rewrite (proj1 HD3); reflexivity).
    rewrite (call0_returns _ _ _ C1), (call0_returns _ _ _ C6), (call0_returns _ _ _ C2). cbn [obind]. rewrite tbin_ok by congruence. cbn [obind].
    rewrite (call0_returns _ _ _ C3). cbn [obind]. rewrite tbin_ok by (cbn [shape]; congruence). cbn [obind].
    rewrite (call0_returns _ _ _ C4). cbn [obind]. rewrite tbin_ok by (cbn [shape]; congruence). cbn [obind]. rewrite (call0_returns _ _ _ C5). cbn [obind].
    do 9 (rewrite tbin_ok by (cbn [shape trecip]; congruence); cbn [obind]).
    eexists. split; [reflexivity|]. split; [|split].
    - split; [|split].
      + do 2 (apply holds_other; [reflexivity|]). apply holds_same. exact Z6.
      + do 3 (apply holds_other; [reflexivity|]). exact Hb.
      + do 3 (apply holds_other; [reflexivity|]). exact Hc.
    - split; [apply holds_other; [reflexivity|]; apply holds_same; exact Z1|apply holds_same; exact Z5].
    - intros HS. repeat (apply shaped_sset; [|first [exact Z6|exact Z1|exact Z5]]). exact (LS HS).
  Qed.
  Variable c : calc.
  Variable solve : solver.
  Hypothesis HL : cc_label c = "ccdTypeSlow".
  Hypothesis HT : cc_type c = "UCC(4)".
  Hypothesis SOK : solver_succeeds solve.
  Hypothesis DU : diis_usable c.
  Hypothesis Ho : (0 < no)%nat.
  Hypothesis Hv : (0 < nv)%nat.
  Notation sh := (ushape no nv).
  Notation it := (iteration disk solve (slow_resid no nv f g D1 Dd D3 c) (slow_energy no nv f g Dd c) c).
  Definition well (s : kstate disk) : Prop := shaped sh (amps disk s) /\ has_doubles no nv (amps disk s) /\ has_rest no nv (amps disk s) /\ diis_ready sh disk c s.
  Lemma u_energy d w : has_doubles no nv d -> exists e, slow_energy no nv f g Dd c E_ucc4 d w = Some (e, w).
  Proof using Hf Hg HD2 HT. intros [[t2 [E S]] _]. eexists. apply C69_ucc4_energy; try eassumption. rewrite (proj1 HD2). reflexivity. Qed.
  Lemma u_calls : resid_call c = Some R_ucc4 /\ energy_call c = Some E_ucc4.
  Proof using HL HT. unfold resid_call, energy_call. rewrite HL, HT. split; reflexivity. Qed.
  Lemma uk : vec_keys (cc_type c) = ["t1aa"; "t2aa"; "t3aa"].
  Proof using HT. rewrite HT. reflexivity. Qed.
  Lemma holds_has d k s : holds d k s -> slook k d <> None.
  Proof using. intros [t [-> _]]. discriminate. Qed.
  Lemma has_holds d k : shaped sh d -> slook k d <> None -> holds d k (sh k).
  Proof using. intros S H. destruct (slook k d) as [t|] eqn:E; [exists t; split; [exact E|exact (S _ _ E)]|congruence]. Qed.
  Lemma u_step s : well s -> exists s' e, it s = Some (s', e) /\ well s'.
  Proof using All.
    intros [S [W1 [W2 R]]]. unfold iteration.
    destruct (l2_tot sh (amps disk s) no nv S) as [l ->]; [|reflexivity..|].
    { destruct W1 as [A [B C]]. intros x [<-|[<-|[<-|[]]]]; eapply holds_has; eassumption. }
    cbn [obind]. destruct u_calls as [-> ->]. cbn [obind slow_resid]. destruct (u_total (amps disk s) (world disk s) W1 W2) as [d' [-> [V1 [V2 V3]]]]. cbn [obind fst snd].
    specialize (V3 S).
    assert (HK : has ["t1aa"; "t2aa"; "t2bb"; "t2ab"; "t3aa"] d').
    { destruct V1 as [A [B C]], V2 as [A1 A3]. intros x [<-|[<-|[<-|[<-|[<-|[]]]]]]; eapply holds_has; eassumption. }
    destruct (block_total sh disk solve c SOK (mkSt disk d' l (old_vec disk s) (dstate disk s) (world disk s))) as [s1 [E1 [R1 [S1 [K1 _]]]]].
    - exact R.
    - exact V3.
    - intros _. rewrite uk. intros x Hx. apply HK. cbn in Hx |- *. tauto.
    - rewrite E1. cbn [obind]. specialize (K1 _ HK).
      assert (HD : has_doubles no nv (amps disk s1)) by (split; [|split]; (apply has_holds; [exact S1|apply K1; cbn; tauto])).
      destruct (u_energy (amps disk s1) (world disk s1) HD) as [e ->]. cbn [obind fst snd]. eexists _, _. split; [reflexivity|].
      split; [exact S1|]. split; [exact HD|]. split; [right; split; (apply has_holds; [exact S1|apply K1; cbn; tauto])|exact R1].
  Qed.
  Lemma u_start w : exists s0 e0, start disk (slow_energy no nv f g Dd c) (mp_guess no g Dd) c (slow_init no nv c) (slow_old no nv c) w = Some (s0, e0) /\ well s0.
  Proof using All.
    destruct (guess_amp no nv g Dd eps Hg HD2) as [gs [t [T1 [T2 [At _]]]]].
    unfold start. rewrite HL. cbn [String.eqb Ascii.eqb Bool.eqb]. unfold mp_guess. rewrite T1. cbn [obind]. rewrite T2. cbn [obind].
    destruct u_calls as [_ ->]. cbn [obind].
    assert (SI : shaped sh (slow_init no nv c)).
    { intros k x E. unfold slow_init in E. rewrite HT in E. cbn in E. unfold ushape.
      destruct (String.eqb_spec k "t2aa") as [->|]; [injection E as <-; reflexivity|]. destruct (String.eqb_spec k "t2bb") as [->|]; [injection E as <-; reflexivity|].
      destruct (String.eqb_spec k "t2ab") as [->|]; [injection E as <-; reflexivity|]. destruct (diis_size c); cbn in E; [|discriminate].
      destruct (String.eqb_spec k "t1aa") as [->|]; [injection E as <-; reflexivity|]. destruct (String.eqb_spec k "t3aa") as [->|]; [injection E as <-; reflexivity|]. discriminate. }
    assert (W : has_doubles no nv (sset "t2aa" t (slow_init no nv c)) /\ has_rest no nv (sset "t2aa" t (slow_init no nv c))).
    { unfold slow_init. rewrite HT. split; [split; [apply holds_same; exact At|]; split; (apply holds_other; [reflexivity|]); eexists; split; reflexivity|].
      unfold has_rest. destruct (diis_size c); [right|left; reflexivity]. split; (apply holds_other; [reflexivity|]); eexists; split; reflexivity. }
    destruct (u_energy _ w (proj1 W)) as [e0 ->]. cbn [obind fst snd]. eexists _, _. split; [reflexivity|].
    split; [apply shaped_sset; [exact SI|exact At]|]. destruct W as [W1 W2]. split; [exact W1|]. split; [exact W2|].
    apply ready_new with (w := w) (d0 := sset "t2aa" t (slow_init no nv c)) (l := []); auto. intros HN. rewrite uk. unfold slow_old.
    replace (old_keys false (cc_type c)) with ["t1aa"; "t2aa"; "t3aa"] by (rewrite HT; reflexivity).
    destruct (vectorise_total sh ["t1aa"; "t2aa"; "t3aa"] (slow_init no nv c) SI) as [v [-> LV]]; [|exact LV].
    unfold slow_init. rewrite HT. destruct (diis_size c); [|congruence]. intros x [<-|[<-|[<-|[]]]]; discriminate.
  Qed.
  Lemma ucc4_total w : (0 < max_iter c)%nat -> ends_well c (slow_kernel no nv f g D1 Dd D3 c solve w).
  Proof using All.
    intros HM. destruct (u_start w) as [s0 [e0 [ES I0]]]. unfold ends_well, slow_kernel.
    apply (kernel_total disk solve (slow_resid no nv f g D1 Dd D3 c) (slow_energy no nv f g Dd c) (slow_pert no nv g Dd c) (mp_guess no g Dd) c well u_step) with (s0 := s0) (e0 := e0); auto.
    intros s e [_ [[[t2 [E2 S2]] _] _]].
    split; [unfold printable; rewrite E2, S2, (proj2 (Nat.ltb_lt 0 nv) Hv), (proj2 (Nat.ltb_lt 0 no) Ho); reflexivity|].
    unfold finalize, is_qf. rewrite HT. cbn. eauto.
  Qed.
End Total.

(** ** C70 *)
(** The labels that the theorem covers: UCC(4), and every other label except the doubles-and-quadruples ones.  A label with an "X" or
    with "UT2" must contain a digit (XCCD(5), UT2-CCD(6), ...), and "CCDQ" may not be combined with DIIS. *)
Definition label_usable (c : calc) : Prop :=
  cc_type c = "UCC(4)" \/
  contains "UCC(4)" (cc_type c) = false /\ contains "CCSD(Qf)" (cc_type c) = false /\ is_qf c = false /\
  (diis_size c <> None -> contains "CCDQ" (cc_type c) = false) /\
  ((contains "X" (cc_type c) || contains "UT2" (cc_type c))%bool = true -> exists l, extract_integer (cc_type c) = Some l).
(** C70.  A spin-orbital calculation with a usable label, any thresholds, DIIS off or with any positive number of kept vectors, and at
    least one pass allowed never raises an exception unless the linear solver of DIIS does: it returns a result, or, if more than
    76 passes were allowed, exits.  This holds for all sizes, integrals, denominators and contents of the working directory. *)
Theorem C70_slow_run_ends : forall no nv f g D1 D2 D3 eps c solve w, is_fock (no + nv) f -> is_tei (no + nv) g ->
  is_denominator 1 no nv eps D1 -> is_denominator 2 no nv eps D2 -> is_denominator 3 no nv eps D3 -> cc_label c = "ccdTypeSlow" -> label_usable c ->
  solver_succeeds solve -> diis_usable c -> (0 < max_iter c)%nat -> (0 < no)%nat -> (0 < nv)%nat ->
  ends_well c (slow_kernel no nv f g D1 D2 D3 c solve w).
Proof.
  intros no nv f g D1 D2 D3 eps c solve w Hf Hg H1 H2 H3 HL [HT|[HU [HQ [HNQ [HDQ HX]]]]] SOK DU HM Ho Hv.
  - exact (ucc4_total no nv f g D1 D2 D3 eps Hf Hg H1 H2 H3 c solve HL HT SOK DU Ho Hv w HM).
  - exact (slow_total no nv f g D1 D2 D3 eps c solve Hf Hg H2 HL HU HQ HDQ HNQ HX SOK DU Ho Hv w HM).
Qed.
Print Assumptions C70_slow_run_ends.
(** With at most 76 passes allowed it returns. *)
Theorem C70_slow_run_returns : forall no nv f g D1 D2 D3 eps c solve w, is_fock (no + nv) f -> is_tei (no + nv) g ->
  is_denominator 1 no nv eps D1 -> is_denominator 2 no nv eps D2 -> is_denominator 3 no nv eps D3 -> cc_label c = "ccdTypeSlow" -> label_usable c ->
  solver_succeeds solve -> diis_usable c -> (0 < max_iter c <= 76)%nat -> (0 < no)%nat -> (0 < nv)%nat ->
  exists d tf co, slow_kernel no nv f g D1 D2 D3 c solve w = Returned d tf co.
Proof.
  intros no nv f g D1 D2 D3 eps c solve w Hf Hg H1 H2 H3 HL LU SOK DU [HM HM'] Ho Hv.
  destruct (C70_slow_run_ends no nv f g D1 D2 D3 eps c solve w Hf Hg H1 H2 H3 HL LU SOK DU HM Ho Hv) as [R|[_ X]]; [exact R|lia].
Qed.
Print Assumptions C70_slow_run_returns.
(** C69.  A UCC(4) calculation that is allowed between 1 and 76 passes returns: it neither raises nor exits, whatever the integrals (even
    if orbital-energy differences vanish). *)
Theorem C69_ucc4_returns : forall no nv f g D1 Dd D3 eps c solve w, is_fock (no + nv) f -> is_tei (no + nv) g ->
  is_denominator 1 no nv eps D1 -> is_denominator 2 no nv eps Dd -> is_denominator 3 no nv eps D3 -> cc_label c = "ccdTypeSlow" -> cc_type c = "UCC(4)" ->
  solver_succeeds solve -> diis_usable c -> (0 < max_iter c <= 76)%nat -> (0 < no)%nat -> (0 < nv)%nat ->
  exists d tf co, slow_kernel no nv f g D1 Dd D3 c solve w = Returned d tf co.
Proof. intros. eapply C70_slow_run_returns; eauto. left. assumption. Qed.
Print Assumptions C69_ucc4_returns.

(** ** Concrete cases: two occupied and two virtual spin orbitals *)
Definition i_solve : solver := fun n _ _ => Some (fun _ => Q2Qc (1 # Pos.of_nat n)).
Lemma i_solve_ok : solver_succeeds i_solve.
Proof. intros n B r. discriminate. Qed.
(** a UCC(4) calculation of at most 75 passes, with DIIS over six vectors *)
Example C69_returns_instance := C69_ucc4_returns 2 2 (i_fock 4) (i_tei 4) (i_den 1 2 2) (i_den 2 2 2) (i_den 3 2 2) i_eps (i_calc "UCC(4)" (Some 6%nat)) i_solve None
  (i_fock_ok 4) (i_tei_ok 4) (i_den_ok 1 2 2) (i_den_ok 2 2 2) (i_den_ok 3 2 2) eq_refl eq_refl i_solve_ok ltac:(cbn; lia) ltac:(cbn; lia) ltac:(lia) ltac:(lia).
Example C69_run_instance : exists d tf co t2, slow_kernel 2 2 (i_fock 4) (i_tei 4) (i_den 1 2 2) (i_den 2 2 2) (i_den 3 2 2) (i_calc "UCC(4)" (Some 6%nat)) i_solve None = Returned d tf co /\
  slook "t2aa" d = Some t2 /\ tf = ucc4_energy_of 2 2 (i_fock 4) (i_tei 4) (i_den 2 2 2) t2 + 0.
Proof.
  destruct C69_returns_instance as [d [tf [co E]]].
  destruct (C69_ucc4_run 2 2 (i_fock 4) (i_tei 4) (i_den 1 2 2) (i_den 2 2 2) (i_den 3 2 2) i_eps (i_calc "UCC(4)" (Some 6%nat)) i_solve None d tf co (i_fock_ok 4) (i_tei_ok 4) (i_den_ok 1 2 2) (i_den_ok 2 2 2) (i_den_ok 3 2 2) eq_refl eq_refl E)
    as [t2 [X1 [_ [X2 _]]]]. exists d, tf, co, t2. auto.
Qed.
(** XCCD(7) with the perturbative UT2 correction and DIIS *)
Example C70_label_instance : label_usable (i_calc "XCCD(7)-UT2-7" (Some 3%nat)).
Proof. right. repeat split; try reflexivity. intros _. eexists. reflexivity. Qed.
Example C70_ends_instance := C70_slow_run_ends 2 2 (i_fock 4) (i_tei 4) (i_den 1 2 2) (i_den 2 2 2) (i_den 3 2 2) i_eps (i_calc "XCCD(7)-UT2-7" (Some 3%nat)) i_solve None
  (i_fock_ok 4) (i_tei_ok 4) (i_den_ok 1 2 2) (i_den_ok 2 2 2) (i_den_ok 3 2 2) eq_refl C70_label_instance i_solve_ok ltac:(cbn; lia) ltac:(cbn; lia) ltac:(lia) ltac:(lia).
Example C70_returns_instance := C70_slow_run_returns 2 2 (i_fock 4) (i_tei 4) (i_den 1 2 2) (i_den 2 2 2) (i_den 3 2 2) i_eps (i_calc "XCCD(7)-UT2-7" (Some 3%nat)) i_solve None
  (i_fock_ok 4) (i_tei_ok 4) (i_den_ok 1 2 2) (i_den_ok 2 2 2) (i_den_ok 3 2 2) eq_refl C70_label_instance i_solve_ok ltac:(cbn; lia) ltac:(cbn; lia) ltac:(lia) ltac:(lia).
