(** A faster test for "entries that couple the fragments vanish": every term is connected, so that its indices all lie in one
    fragment or the term is zero.  Also the cut at an antisymmetriser (Cut.v) for the two-fragment environment.
    Proof machinery; it models no particular source line. *)
From Coq Require Import String Ascii List Arith NArith ZArith QArith Qcanon Bool Lia Permutation.
From Verif Require Import Sums Tensor Interp Poly SymExec Canon Spec SpecFrag Instances Setup Master Spin Check Tabs NF Frag Cut.
Import ListNotations.
Open Scope string_scope.
Open Scope Qc_scope.

(** one pass over the factors: those that share a variable with the list of variables reached so far are absorbed *)
Fixpoint absorb (seen : list var) (fs : list fac) : list var * list fac :=
  match fs with
  | [] => (seen, [])
  | f :: r => if existsb (fun v => memv v seen) (snd f) then absorb (snd f ++ seen)%list r else let '(s, rest) := absorb seen r in (s, f :: rest)
  end.
Fixpoint reach (n : nat) (seen : list var) (fs : list fac) : list var :=
  match n with O => seen | S n => let '(s, r) := absorb seen fs in reach n s r end.
(** every free variable is reached from the first factor *)
Definition connt (xs : list var) (t : term) : bool :=
  match tf t with
  | [] => false
  | f :: r => forallb (fun v => memv v (reach (List.length r) (snd f) r)) xs
  end &&
  forallb (fun g : fac => N.leb (fst g) 7) (tf t) && forallb (fun v => memv v (xs ++ td t)%list) (fvars (tf t)) &&
  forallb (fun v => negb (memv v (td t)) && N.leb (spc v) 1) xs && forallb (fun v => N.leb (spc v) 1) (td t).
Definition connp (sps : list space) (p : poly) : bool := forallb (connt (xvs sps)) p.

Lemma absorb_from seen fs : forall s r, absorb seen fs = (s, r) -> (forall v, In v seen -> In v s) /\ (forall g, In g r -> In g fs).
Proof.
  revert seen. induction fs as [|f fs IH]; intros seen s r H; cbn [absorb] in H.
  - injection H as <- <-. auto.
  - destruct (existsb _ _).
    + destruct (IH _ _ _ H) as [H1 H2]. split; [intros v Hv; apply H1, in_or_app; auto|intros g Hg; right; auto].
    + destruct (absorb seen fs) as [s' r'] eqn:E. injection H as <- <-. destruct (IH _ _ _ E) as [H1 H2]. split; [exact H1|]. intros g [<-|Hg]; [left; reflexivity|right; auto].
Qed.

Section Conn.
  Variables no nv : nat.
  Variable M : fragmap.
  Hypothesis HM : frag_ok no nv M.
  Variable atoms : atomtab.
  Hypothesis Hsep : Forall (separated no nv M) atoms.
  Notation range := (fr_range no nv M).
  Notation A := (Aof range atoms).
  Notation inside := (inside no M).
  Lemma kill2 n xs p q : (n <= 7)%N -> In p xs -> inside FA p -> In q xs -> inside FB q -> A n xs = 0.
  Proof using HM Hsep.
    intros Hn Ip HA Iq HB. unfold Aof. destruct (nlook n atoms) as [[sps t]|] eqn:EL; [|reflexivity].
    destruct (inrb range sps xs) eqn:EI; [|reflexivity]. apply inrb_spec in EI.
    pose proof (nlook_In _ _ _ EL) as HIn. rewrite Forall_forall in Hsep. destruct (Hsep _ HIn Hn) as [ks [-> [Hs Hz]]].
    apply In_nth_error in Ip, Iq. destruct Ip as [j Ip], Iq as [k Iq]. apply Hz.
    - rewrite Hs. apply rel_inr. exact EI.
    - apply touches_rel; [exact EI|]. eauto.
    - apply touches_rel; [exact EI|]. eauto.
  Qed.
  Lemma some_frag s p : (s <= 1)%N -> In p (range s) -> inside FA p \/ inside FB p.
  Proof using HM.
    intros Hs Hp. unfold Frag.inside, belongs. assert (s = 0 \/ s = 1)%N as [->| ->] by lia; cbn [fr_range] in Hp; apply in_seq in Hp.
    - destruct (Nat.ltb_spec p no); [|lia]. apply in_app_or. eapply Permutation_in; [symmetry; apply HM|]. apply in_seq. lia.
    - destruct (Nat.ltb_spec p no); [lia|]. apply in_app_or. eapply Permutation_in; [symmetry; apply HM|]. apply in_seq. lia.
  Qed.
  Lemma not_both p : inside FA p -> inside FB p -> False.
  Proof using HM.
    unfold Frag.inside, belongs. destruct (Nat.ltb p no); intros H1 H2.
    - exact (nodup_app_disj _ _ _ (fo_nodup no nv M HM) H1 H2).
    - exact (nodup_app_disj _ _ _ (fv_nodup no nv M HM) H1 H2).
  Qed.
  Lemma evalFs_in fs e f : evalFs A fs e <> 0 -> In f fs -> evalF A e f <> 0.
  Proof using.
    induction fs as [|h fs IH]; [intros _ []|]; intros NZ [->|I]; cbn [evalFs] in NZ.
    - intros Z. apply NZ. rewrite Z. ring.
    - apply IH; [|exact I]. intros Z. apply NZ. rewrite Z. ring.
  Qed.
  Lemma atom_one n (vs : list var) (e : var -> nat) x v : (n <= 7)%N -> A n (map e vs) <> 0 -> (forall w, In w vs -> inside FA (e w) \/ inside FB (e w)) ->
    In v vs -> inside x (e v) -> forall w, In w vs -> inside x (e w).
  Proof using HM Hsep.
    intros Hn NZ HV Iv Hx w Iw. destruct (HV w Iw) as [H|H], x; try exact H; exfalso; apply NZ.
    - eapply kill2; [exact Hn|apply in_map, Iw|exact H|apply in_map, Iv|exact Hx].
    - eapply kill2; [exact Hn|apply in_map, Iv|exact Hx|apply in_map, Iw|exact H].
  Qed.
  Lemma absorb_one x (e : var -> nat) (fs : list fac) : forall seen s r, (forall f, In f fs -> (fst f <= 7)%N /\ evalF A e f <> 0 /\ forall w, In w (snd f) -> inside FA (e w) \/ inside FB (e w)) ->
    (forall v, In v seen -> inside x (e v)) -> absorb seen fs = (s, r) -> forall v, In v s -> inside x (e v).
  Proof using HM Hsep.
    induction fs as [|f fs IH]; intros seen s r HF HS E; cbn [absorb] in E.
    - injection E as <- <-. exact HS.
    - destruct (existsb (fun v => memv v seen) (snd f)) eqn:EX.
      + eapply IH; [|  |exact E]; [intros g Hg; apply HF; right; exact Hg|].
        apply existsb_exists in EX. destruct EX as [w [Iw Mw]]. apply memv_In in Mw.
        destruct (HF f (or_introl eq_refl)) as [F1 [F2 F3]]. intros v Hv. apply in_app_or in Hv. destruct Hv as [Hv|Hv]; [|apply HS, Hv].
        exact (atom_one (fst f) (snd f) e x w F1 F2 F3 Iw (HS w Mw) v Hv).
      + destruct (absorb seen fs) as [s' r'] eqn:E'. injection E as <- <-. eapply IH; [|exact HS|exact E']. intros g Hg. apply HF. right. exact Hg.
  Qed.
  Lemma reach_one x (e : var -> nat) n : forall seen fs, (forall f, In f fs -> (fst f <= 7)%N /\ evalF A e f <> 0 /\ forall w, In w (snd f) -> inside FA (e w) \/ inside FB (e w)) ->
    (forall v, In v seen -> inside x (e v)) -> forall v, In v (reach n seen fs) -> inside x (e v).
  Proof using HM Hsep.
    induction n as [|n IH]; intros seen fs HF HS; cbn [reach]; [exact HS|]. destruct (absorb seen fs) as [s r] eqn:E.
    apply IH; [|eapply absorb_one; eassumption]. intros f Hf. apply HF. apply (proj2 (absorb_from _ _ _ _ E)). exact Hf.
  Qed.
  Lemma sumD_zero ds : forall F e, (forall e', (forall v, ~ In v ds -> e' v = e v) -> (forall d, In d ds -> In (e' d) (range (spc d))) -> F e' = 0) -> sumD range ds F e = 0.
  Proof using.
    induction ds as [|d ds IH]; intros F e H; cbn [sumD].
    - apply H; [reflexivity|intros ? []].
    - apply suml_zero. intros x Hx. apply IH. intros e' H1 H2. apply H.
      + intros v Hv. rewrite H1 by (intros I; apply Hv; right; exact I). apply upd_other. intros ->. apply Hv. left. reflexivity.
      + intros v [<-|Hv]; [|apply H2, Hv]. destruct (in_dec N.eq_dec d ds) as [I|I]; [apply H2, I|]. rewrite H1 by exact I. rewrite upd_same. exact Hx.
  Qed.
  Lemma connt_zero xs t e p q : connt xs t = true -> (forall v, In v xs -> In (e v) (range (spc v))) ->
    In p xs -> inside FA (e p) -> In q xs -> inside FB (e q) -> evalT range A e t = 0.
  Proof using HM Hsep.
    unfold connt. rewrite !andb_true_iff. intros [[[[H1 H2] H3] H4] H5] He Ip HA Iq HB.
    rewrite forallb_forall in H2, H3, H4, H5. unfold evalT. rewrite sumD_zero; [ring|]. intros e' E1 E2.
    destruct (Qc_eq_dec (evalFs A (tf t) e') 0) as [Z|NZ]; [exact Z|exfalso].
    assert (EX : forall v, In v xs -> e' v = e v).
    { intros v Hv. apply E1. specialize (H4 v Hv). apply andb_true_iff in H4. destruct H4 as [H4 _]. apply negb_true_iff in H4. apply memv_false in H4. exact H4. }
    assert (IN : forall v, In v (fvars (tf t)) -> inside FA (e' v) \/ inside FB (e' v)).
    { intros v Hv. specialize (H3 v Hv). apply memv_In, in_app_or in H3. destruct H3 as [H3|H3].
      - apply (some_frag (spc v)); [specialize (H4 v H3); apply andb_true_iff in H4; apply N.leb_le, H4|]. rewrite EX by exact H3. apply He, H3.
      - apply (some_frag (spc v)); [apply N.leb_le, H5, H3|apply E2, H3]. }
    assert (HF : forall f, In f (tf t) -> (fst f <= 7)%N /\ evalF A e' f <> 0 /\ forall w, In w (snd f) -> inside FA (e' w) \/ inside FB (e' w)).
    { intros f Hf. split; [apply N.leb_le, H2, Hf|]. split; [apply (evalFs_in (tf t)); assumption|]. intros w Hw. apply IN. unfold fvars. apply in_flat_map. eauto. }
    destruct (tf t) as [|f r]; [discriminate|]. rewrite forallb_forall in H1.
    assert (RC : forall x w, In w (snd f) -> inside x (e' w) -> forall v, In v xs -> inside x (e v)).
    { intros x w Iw Hx v Hv. rewrite <- EX by exact Hv. destruct (HF f (or_introl eq_refl)) as [F1 [F2 F3]].
      apply (reach_one x e' (List.length r) (snd f) r); [intros g Hg; apply HF; right; exact Hg| |apply memv_In, H1, Hv].
      intros u Hu. exact (atom_one (fst f) (snd f) e' x w F1 F2 F3 Iw Hx u Hu). }
    destruct (snd f) as [|w ws] eqn:ES.
    - (* the first factor has no index: nothing is reached *)
      pose proof (H1 p Ip) as MP. apply memv_In in MP.
      assert (G : forall n fs, reach n [] fs = [] \/ exists f, In f fs /\ existsb (fun v => memv v []) (snd f) = true).
      { clear. induction n as [|n IH]; intros fs; cbn [reach]; [left; reflexivity|]. destruct (absorb [] fs) as [s r'] eqn:E.
        assert (s = [] /\ r' = fs) as [-> ->].
        { clear IH. revert s r' E. induction fs as [|f fs IH]; intros s r' E; cbn [absorb] in E; [injection E as <- <-; auto|].
          assert (Z : existsb (fun v => memv v []) (snd f) = false) by (clear; induction (snd f); [reflexivity|assumption]). rewrite Z in E.
          destruct (absorb [] fs) as [s' r0]. injection E as <- <-. destruct (IH _ _ eq_refl) as [-> ->]. auto. }
        apply IH. }
      destruct (G (List.length r) r) as [G1|[g [_ G1]]]; [rewrite G1 in MP; exact MP|]. clear -G1. induction (snd g); [discriminate|auto].
    - assert (Iw : In w (snd f)) by (rewrite ES; left; reflexivity). rewrite <- ES in *. destruct (HF f (or_introl eq_refl)) as [_ [_ F3]].
      destruct (F3 w Iw) as [H|H].
      + apply (not_both (e q)); [apply (RC FA w Iw H q Iq)|exact HB].
      + apply (not_both (e p)); [exact HA|apply (RC FB w Iw H p Ip)].
  Qed.
  Definition connchk (ks : list kind) (X : option sval) : bool :=
    (forallb noAl ks && good (map ksp ks) && outsp (map ksp ks) X && connp (map ksp ks) (getp X))%bool.
  Lemma touched ks idx x e : forallb noAl ks = true -> inr idx (map (ksize no nv) ks) -> eagree range (map ksp ks) idx e ->
    touches M no x ks idx -> exists v, In v (xvs (map ksp ks)) /\ inside x (e v).
  Proof using HM.
    intros Hk Hi HE [j [k [p [T1 [T2 T3]]]]]. unfold eagree in HE.
    assert (N1 : nth_error (orbs range (map ksp ks) idx) j = Some (nth p (range (ksp k)) O)).
    { clear -T1 T2. revert ks idx T1 T2. induction j as [|j IH]; intros [|k0 ks] [|i0 idx] T1 T2; try discriminate; cbn [nth_error] in T1, T2.
      - injection T1 as ->. injection T2 as ->. reflexivity.
      - cbn [map]. unfold orbs. rewrite zipw_cons. cbn [nth_error]. apply IH; assumption. }
    rewrite <- HE in N1. rewrite nth_error_map in N1. destruct (nth_error (xvs (map ksp ks)) j) as [v|] eqn:EV; [|discriminate]. injection N1 as N1.
    exists v. split; [eapply nth_error_In; exact EV|]. rewrite N1.
    assert (Hk' : noAl k = true) by (rewrite forallb_forall in Hk; apply Hk; eapply nth_error_In; exact T1).
    assert (Hp : (p < ksize no nv k)%nat).
    { clear -T1 T2 Hi. revert ks idx T1 T2 Hi. induction j as [|j IH]; intros [|k0 ks] [|i0 idx] T1 T2 Hi; try discriminate; cbn [nth_error] in T1, T2; inversion Hi; subst.
      - injection T1 as ->. injection T2 as ->. assumption.
      - eapply IH; eassumption. }
    unfold Frag.inside, belongs. destruct k; try discriminate; cbn [ksp fr_range ksize belongs] in *; rewrite seq_nth by exact Hp.
    - destruct (Nat.ltb_spec (0 + p) no); [exact T3|lia].
    - destruct (Nat.ltb_spec (no + p) no); [lia|]. replace (no + p - no)%nat with p by lia. exact T3.
  Qed.
  Lemma connchk_ok ks X R : connchk ks X = true -> fr_tsim no nv M atoms (map ksp ks) (getp X) R -> separate M no ks R.
  Proof using HM Hsep.
    unfold connchk. rewrite !andb_true_iff. intros [[[Hk Hg] _] Hc] TR idx Hi TA TB. unfold good in Hg. apply andb_true_iff in Hg. destruct Hg as [HN HX].
    pose proof TR as [HsR _]. set (e := env_of (map ksp ks) (orbs range (map ksp ks) idx)).
    assert (AG : eagree range (map ksp ks) idx e) by (apply agree_env; [exact HN|rewrite <- HsR; exact Hi]).
    rewrite (proj2 TR idx e Hi AG). rewrite HsR in Hi.
    assert (IV : forall v, In v (xvs (map ksp ks)) -> In (e v) (range (spc v))) by (intros v Hv; eapply inr_in; [exact Hi|exact AG|exact Hv|exact HX]).
    rewrite map_dim_ksp in Hi.
    destruct (touched ks idx FA e Hk Hi AG TA) as [p [Ip HA]], (touched ks idx FB e Hk Hi AG TB) as [q [Iq HB]].
    unfold evalP. apply suml_zero. intros t Ht. unfold connp in Hc. rewrite forallb_forall in Hc.
    exact (connt_zero _ t e p q (Hc t Ht) IV Ip HA Iq HB).
  Qed.
End Conn.

(** The cut of Cut.v for the two-fragment environment.  After the cut the arguments may be represented differently. *)
Definition fcall1 (lib : list (string * fn)) (g : string) (vs : list sval) : option sval :=
  do h <- slook g lib; srun fr_slm 0 lib h vs.
Definition fpre (lib : list (string * fn)) (f : fn) (n : nat) (svs : list sval) : option (list (string * sval)) :=
  do e <- bind_params (fparams f) svs; ssteps fr_slm (fcall1 lib) e (firstn n (fbody f)).
Definition fpost (lib : list (string * fn)) (f : fn) (n : nat) (x : string) (sT : sval) (e : option (list (string * sval))) : option sval :=
  do e1 <- e; do e2 <- ssteps fr_slm (fcall1 lib) (sset x sT e1) (skipn (S n) (fbody f)); seval fr_slm (fcall1 lib) e2 (fret f).
Section FrCut.
  Variables no nv : nat.
  Variable M : fragmap.
  Hypothesis HM : frag_ok no nv M.
  Variable lib : list (string * fn).
  Lemma fcall1_sound tab g svs vs sv : fcall1 lib g svs = Some sv -> Forall2 (fr_vsim no nv M tab) svs vs ->
    exists v, call_1 lib g vs = Some v /\ fr_vsim no nv M tab sv v.
  Proof.
    unfold fcall1, call_1. intros H HF. destruct (slook g lib) as [h|]; cbn [obind] in *; [|discriminate].
    eapply srun_sound; [apply fr_slices_ok|exact HF|exact H].
  Qed.
  Theorem fr_cut tab1 f n svs args x h hf a b c sps p d0 d1 :
    nth_error (fbody f) n = Some (SAssign x (ECall h [EVar a; EVar b; EVar c])) ->
    slook h lib = Some hf ->
    Forall2 (fr_vsim no nv M tab1) svs args ->
    (do e <- fpre lib f n svs; sevals fr_slm (fcall1 lib) e [EVar a; EVar b; EVar c]) = Some [SP sps p; SDim d0; SDim d1] ->
    exists U, fr_tsim no nv M tab1 sps p U /\
      forall T, run 0 lib hf [VT U; VInt (dim (fr_range no nv M) d0); VInt (dim (fr_range no nv M) d1)] = Some (VT T) ->
      forall tab2 svs2 sT, Forall2 (fr_vsim no nv M tab2) svs2 args -> fr_vsim no nv M tab2 sT (VT T) ->
      forall r, fpost lib f n x sT (fpre lib f n svs2) = Some r ->
      exists R, run 1 lib f args = Some R /\ fr_vsim no nv M tab2 r R.
  Proof.
    intros Hn Hh HV HP. unfold fpre in *.
    destruct (bind_params (fparams f) svs) as [se0|] eqn:E0; cbn [obind] in HP; [|discriminate].
    destruct (ssteps fr_slm (fcall1 lib) se0 (firstn n (fbody f))) as [se1|] eqn:E1; cbn [obind] in HP; [|discriminate].
    destruct (bind_params_sound _ _ _ _ _ _ _ _ _ HV E0) as [ve0 [B0 S0]].
    destruct (ssteps_sound _ _ (fr_slc no M) fr_slm _ _ (fr_slices_ok no nv M) _ _ (fcall1_sound tab1) _ _ _ _ S0 E1) as [ve1 [B1 S1]].
    cbn [sevals seval obind] in HP.
    destruct (slook a se1) as [sa|] eqn:La; cbn [obind] in HP; [|discriminate].
    destruct (slook b se1) as [sb|] eqn:Lb; cbn [obind] in HP; [|discriminate].
    destruct (slook c se1) as [sc|] eqn:Lc; cbn [obind] in HP; [|discriminate].
    apply some_inj in HP. injection HP as -> -> ->.
    destruct (dsim_look _ _ _ _ _ _ _ _ _ S1 La) as [va [La' Va]].
    destruct (dsim_look _ _ _ _ _ _ _ _ _ S1 Lb) as [vb [Lb' Vb]].
    destruct (dsim_look _ _ _ _ _ _ _ _ _ S1 Lc) as [vc [Lc' Vc]].
    inversion Va as [? ? U TU| | | | |]; subst.
    assert (Eb : vb = VInt (dim (fr_range no nv M) d0)) by (inversion Vb; subst; reflexivity).
    assert (Ec : vc = VInt (dim (fr_range no nv M) d1)) by (inversion Vc; subst; reflexivity). subst vb vc. clear Vb Vc Va.
    exists U. split; [exact TU|]. intros T HT tab2 svs2 sT HV2 VT2 r HR.
    unfold fpost in HR.
    destruct (bind_params (fparams f) svs2) as [se0'|] eqn:E0'; cbn [obind] in HR; [|discriminate].
    destruct (ssteps fr_slm (fcall1 lib) se0' (firstn n (fbody f))) as [se1'|] eqn:E1'; cbn [obind] in HR; [|discriminate].
    destruct (bind_params_sound _ _ _ _ _ _ _ _ _ HV2 E0') as [ve0' [B0' S0']].
    assert (ve0' = ve0) as -> by congruence.
    destruct (ssteps_sound _ _ (fr_slc no M) fr_slm _ _ (fr_slices_ok no nv M) _ _ (fcall1_sound tab2) _ _ _ _ S0' E1') as [ve1' [B1' S1']].
    assert (ve1' = ve1) as -> by congruence.
    destruct (ssteps fr_slm (fcall1 lib) (sset x sT se1') (skipn (S n) (fbody f))) as [se2|] eqn:E2; cbn [obind] in HR; [|discriminate].
    pose proof (dsim_set _ _ _ _ _ _ _ x _ _ S1' VT2) as S2.
    destruct (ssteps_sound _ _ (fr_slc no M) fr_slm _ _ (fr_slices_ok no nv M) _ _ (fcall1_sound tab2) _ _ _ _ S2 E2) as [ve2 [B2 S3]].
    destruct (seval_sound _ _ (fr_slc no M) fr_slm _ _ (fr_slices_ok no nv M) _ _ (fcall1_sound tab2) _ _ S3 _ _ HR) as [R [ER VR]].
    exists R. split; [|exact VR]. rewrite run1. unfold run_with. rewrite B0. cbn [obind].
    assert (EB : fbody f = (firstn n (fbody f) ++ SAssign x (ECall h [EVar a; EVar b; EVar c]) :: skipn (S n) (fbody f))%list).
    { clear -Hn. revert Hn. generalize (fbody f) as l. induction n as [|n IH]; intros [|s l] Hn; cbn in Hn; try discriminate.
      - injection Hn as ->. reflexivity.
      - cbn [firstn skipn app]. f_equal. apply IH. exact Hn. }
    rewrite EB, steps_app, B1. cbn [obind steps step eval].
    rewrite La', Lb', Lc'. cbn [obind]. unfold call_1 at 1. rewrite Hh. cbn [obind]. rewrite HT. cbn [obind].
    rewrite B2. cbn [obind]. exact ER.
  Qed.
End FrCut.
