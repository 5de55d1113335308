(** C19, the XCCD(n) methods: their corrections, energies and passes are size consistent. *)
From Coq Require Import String Ascii List Arith NArith ZArith QArith Qcanon Bool Lia Permutation.
From Verif Require Import Sums Tensor Interp Numpy Poly SymExec Canon Spec SpecFrag Instances Setup Master Spin Check Tabs NF Antisym P_antisym Frag P_wanti FragTabs P_frag FragConn.
From Verif Require Import Diis Kernel SlowCC Cut P_xcc SpecDriver P_ccsd P_slow P_slow3 P_xcc2.
From Verif Require P_denoms Code_XCCDbasebuilder Code_antisym_t4resids.
From Coq Require Import List.
Import ListNotations.
Open Scope string_scope.
Open Scope list_scope.
Open Scope Qc_scope.

(** *** The arguments of a builder on the whole system and on a fragment *)
Record layout := mkL { lO : N; lV : N; lax : N; lsO : N; lsV : N }.
Definition LW := mkL 0 1 0 0 1.
Definition LA := mkL 2 4 1 2 3.
Definition LB := mkL 3 5 2 4 5.
Definition lay (x : frag) := match x with FA => LA | FB => LB end.
Definition l4 (y : layout) : list N := repeat (lO y) 4 ++ repeat (lV y) 4.
Definition fx_args (y : layout) (n : N) (pk : bool) : list sval :=
  [at_ 3 [lV y; lV y; lO y; lO y]; SNone;
   SDict [("nocc", SDim (lO y)); ("nvir", SDim (lV y)); ("tamps", zr [lV y; lV y; lO y; lO y]); ("ints", SFull 1 [lax y; lax y; lax y; lax y]); ("oa", SSl (lsO y)); ("va", SSl (lsV y))]]
  ++ (if pk then [at_ n (l4 y)] else []).
Definition fx_pre (f : fn) (n : nat) (a : string) (pk : bool) (y : layout) : option (list sval) :=
  do e <- fpre xcc_lib f n (fx_args y 5 pk); sevals fr_slm (fcall1 xcc_lib) e [EVar a; EVar "nocc"; EVar "nvir"].
Definition fx_U (f : fn) (n : nat) (a : string) (pk : bool) (y : layout) : option sval := match fx_pre f n a pk y with Some [x; _; _] => Some x | _ => None end.
Definition fx_ok (f : fn) (n : nat) (a : string) (pk : bool) (y : layout) : bool :=
  match fx_pre f n a pk y with
  | Some [SP s _; SDim d0; SDim d1] => (eqb_sps s (l4 y) && N.eqb d0 (lO y) && N.eqb d1 (lV y))%bool
  | _ => false
  end.
Definition fx_R (f : fn) (n : nat) (pk : bool) (y : layout) : option sval :=
  fpost xcc_lib f n "t4" (at_ 5 (l4 y)) (fpre xcc_lib f n (fx_args y 8 pk)).

Lemma amp_ov_teq no nv k t u : is_amp_ov k no nv t -> teq u t -> is_amp_ov k no nv u.
Proof.
  intros [S A] [E1 E2]. split; [congruence|]. intros i Hi. destruct (A i Hi) as [A1 A2].
  split; intros pre x y post L I1 I2; rewrite (E2 _ I1), (E2 _ I2); rewrite E1 in I1, I2; [apply A1|apply A2]; assumption.
Qed.

Section Builder.
  Variables no nv : nat.
  Variable M : fragmap.
  Hypothesis HM : frag_ok no nv M.
  Variables g gA gB t2 t2A t2B p pA pB : tensor.
  Hypothesis Hg : is_tei (no + nv) g.
  Hypothesis Ag : assembled M no [Al; Al; Al; Al] g gA gB.
  Hypothesis Ht2 : is_amp 2 no nv t2.
  Hypothesis At2 : assembled M no (vo_kinds 2) t2 t2A t2B.
  Hypothesis Hp : is_amp_ov 4 no nv p.
  Hypothesis Ap : assembled M no (ov_kinds 4) p pA pB.
  Notation range := (fr_range no nv M).
  Definition ftab1 : atomtab := [(1%N, ([6;6;6;6]%N, g)); (3%N, ([1;1;0;0]%N, t2)); (5%N, (ov4, p))].
  Definition ftab2 (T : tensor) : atomtab := [(1%N, ([6;6;6;6]%N, g)); (3%N, ([1;1;0;0]%N, t2)); (5%N, (ov4, T)); (8%N, (ov4, p))].
  Lemma ftab1_ok : Forall (atom_ok range sy) ftab1. Proof using Hg Ht2 Hp. unfold ftab1. foks. Qed.
  Lemma ftab1_sep : Forall (separated no nv M) ftab1. Proof using Hg Ag Ht2 At2 Hp Ap. unfold ftab1. fses. Qed.
  Lemma ftab2_ok T : is_amp_ov 4 no nv T -> Forall (atom_ok range sy) (ftab2 T).
  Proof using Hg Ht2 Hp.
    intros HT. unfold ftab2. constructor; [apply fok_tei; exact Hg|]. constructor; [apply (fok_vo _ _ _ 3%N 2); [reflexivity|lia|exact Ht2]|].
    constructor; [apply (fok_ov _ _ _ 5%N 4); [reflexivity|lia|exact HT]|]. constructor; [|constructor].
    apply atom_ok_gen; [reflexivity|]. rewrite (proj1 Hp). symmetry. apply (frs_ov no nv M 4).
  Qed.
  Lemma ftab2_sep T TA TB : is_amp_ov 4 no nv T -> assembled M no (ov_kinds 4) T TA TB -> Forall (separated no nv M) (ftab2 T).
  Proof using Hg Ag Ht2 At2.
    intros HT AT. unfold ftab2. constructor; [eapply fse_tei; eassumption|]. constructor; [eapply (fse_vo _ _ _ _ 2); eassumption|].
    constructor; [eapply (fse_ov _ _ _ _ 4); eassumption|]. constructor; [|constructor]. intros H8. cbn [fst] in H8. lia.
  Qed.
  Lemma fr_zero atoms sps t : shape t = map (dim range) sps -> zero_tensor t -> fr_vsim no nv M atoms (zr sps) (VT t).
  Proof using. intros H1 H2. constructor. apply tsim_zero; assumption. Qed.
  Ltac dims := unfold dim, fr_range, fno, fnv; rewrite ?map_length, ?seq_length; reflexivity.
  Definition xv (x : option frag) (pk : bool) : list value :=
    match x with
    | None => xcc_vals no nv g t2 p pk
    | Some FA => xcc_vals (fno M FA) (fnv M FA) gA t2A pA pk
    | Some FB => xcc_vals (fno M FB) (fnv M FB) gB t2B pB pk
    end.
  Definition lay' (x : option frag) := match x with None => LW | Some x => lay x end.
  Lemma fx_vs tab n pk x : nlook 1%N tab = Some ([6;6;6;6]%N, g) -> nlook 3%N tab = Some ([1;1;0;0]%N, t2) -> nlook n tab = Some (ov4, p) ->
    Forall2 (fr_vsim no nv M tab) (fx_args (lay' x) n pk) (xv x pk).
  Proof using HM Hg Ag Ht2 At2 Hp Ap.
    intros L1 L3 L5.
    destruct x as [[|]|]; cbn [lay' lay xv]; unfold fx_args, xcc_vals; cbn [lO lV lax lsO lsV LW LA LB app].
    - constructor; [eapply (frv_pvo _ _ _ HM _ FA _ 2); [exact L3|exact At2]|]. constructor; [apply fr_none|]. constructor.
      + unfold contract_info. constructor.
        apply (ds_cons _ _ _ _ _ "nocc"); [apply fr_dim; dims|]. apply (ds_cons _ _ _ _ _ "nvir"); [apply fr_dim; dims|].
        apply (ds_cons _ _ _ _ _ "tamps"); [apply fr_zero; [cbn [map tzeros shape]; repeat f_equal; symmetry; dims|intros i; reflexivity]|].
        apply (ds_cons _ _ _ _ _ "ints"); [eapply (frv_ptei _ _ _ HM _ FA); [exact L1|exact Ag]|].
        apply (ds_cons _ _ _ _ _ "oa"); [apply (fr_fo _ _ _ _ FA)|]. apply (ds_cons _ _ _ _ _ "va"); [apply (fr_fv _ _ _ _ FA)|constructor].
      + destruct pk; constructor; [|constructor]. eapply (frv_pov _ _ _ HM _ FA _ 4); [exact L5|exact Ap].
    - constructor; [eapply (frv_pvo _ _ _ HM _ FB _ 2); [exact L3|exact At2]|]. constructor; [apply fr_none|]. constructor.
      + unfold contract_info. constructor.
        apply (ds_cons _ _ _ _ _ "nocc"); [apply fr_dim; dims|]. apply (ds_cons _ _ _ _ _ "nvir"); [apply fr_dim; dims|].
        apply (ds_cons _ _ _ _ _ "tamps"); [apply fr_zero; [cbn [map tzeros shape]; repeat f_equal; symmetry; dims|intros i; reflexivity]|].
        apply (ds_cons _ _ _ _ _ "ints"); [eapply (frv_ptei _ _ _ HM _ FB); [exact L1|exact Ag]|].
        apply (ds_cons _ _ _ _ _ "oa"); [apply (fr_fo _ _ _ _ FB)|]. apply (ds_cons _ _ _ _ _ "va"); [apply (fr_fv _ _ _ _ FB)|constructor].
      + destruct pk; constructor; [|constructor]. eapply (frv_pov _ _ _ HM _ FB _ 4); [exact L5|exact Ap].
    - constructor; [eapply (frv_vo _ _ _ HM _ _ 2); [exact L3|exact Ht2]|]. constructor; [apply fr_none|]. constructor.
      + unfold contract_info. constructor.
        apply (ds_cons _ _ _ _ _ "nocc"); [apply fr_dim; dims|]. apply (ds_cons _ _ _ _ _ "nvir"); [apply fr_dim; dims|].
        apply (ds_cons _ _ _ _ _ "tamps"); [apply fr_zero; [cbn [map tzeros shape]; repeat f_equal; symmetry; dims|intros i; reflexivity]|].
        apply (ds_cons _ _ _ _ _ "ints"); [eapply (frv_tei _ _ _ HM); [exact L1|exact Hg]|].
        apply (ds_cons _ _ _ _ _ "oa"); [apply fr_o|]. apply (ds_cons _ _ _ _ _ "va"); [apply fr_v|constructor].
      + destruct pk; constructor; [|constructor]. eapply (frv_ov _ _ _ HM _ _ 4); [exact L5|exact Hp].
  Qed.
  Lemma dim_lay x : dim range (lO (lay' x)) = match x with None => no | Some x => fno M x end /\ dim range (lV (lay' x)) = match x with None => nv | Some x => fnv M x end.
  Proof using. destruct x as [[|]|]; cbn [lay' lay lO lV LW LA LB]; split; dims. Qed.
  Lemma fx_cut f n a pk x :
    nth_error (fbody f) n = Some (SAssign "t4" (ECall "antisym.antisym_t4_residual" [EVar a; EVar "nocc"; EVar "nvir"])) ->
    fx_ok f n a pk (lay' x) = true ->
    exists U T, fx_U f n a pk (lay' x) = Some (SP (l4 (lay' x)) (getp (fx_U f n a pk (lay' x)))) /\ fr_tsim no nv M ftab1 (l4 (lay' x)) (getp (fx_U f n a pk (lay' x))) U /\ antisymmetrised 4 U T /\ antisymmetric 4 T /\
      forall tab2, nlook 1%N tab2 = Some ([6;6;6;6]%N, g) -> nlook 3%N tab2 = Some ([1;1;0;0]%N, t2) -> nlook 8%N tab2 = Some (ov4, p) ->
        fr_vsim no nv M tab2 (at_ 5 (l4 (lay' x))) (VT T) ->
        forall r, fx_R f n pk (lay' x) = Some r -> exists R, run 1 xcc_lib f (xv x pk) = Some R /\ fr_vsim no nv M tab2 r R.
  Proof using HM Hg Ag Ht2 At2 Hp Ap.
    intros Hn HP. unfold fx_ok, fx_U in *. destruct (fx_pre f n a pk (lay' x)) as [l|] eqn:EP; [|discriminate].
    destruct l as [|[s q| | | | |] [|[| | |d0| |] [|[| | |d1| |] [|]]]]; try discriminate.
    rewrite !andb_true_iff in HP. destruct HP as [[E1 E2] E3]. apply eqb_sps_eq in E1. apply N.eqb_eq in E2, E3. subst s d0 d1. cbn [getp].
    destruct (fr_cut no nv M xcc_lib ftab1 f n (fx_args (lay' x) 5 pk) (xv x pk) "t4" _ _ a "nocc" "nvir" (l4 (lay' x)) q (lO (lay' x)) (lV (lay' x)) Hn eq_refl
                (fx_vs ftab1 5%N pk x eq_refl eq_refl eq_refl) EP) as [U [TU HU]].
    destruct (dim_lay x) as [DO DV].
    destruct (proj2 (proj2 (proj2 (proj2 C21_antisymmetrisers))) (dim range (lO (lay' x))) (dim range (lV (lay' x))) U) as [T [HT [AT [AA _]]]].
    { rewrite (proj1 TU). unfold l4. rewrite map_app, !map_repeat. reflexivity. }
    exists U, T. split; [reflexivity|]. split; [exact TU|]. split; [exact AT|]. split; [exact AA|].
    intros tab2 L1 L3 L8 V5 r ER. exact (HU T HT tab2 (fx_args (lay' x) 8 pk) (at_ 5 (l4 (lay' x))) (fx_vs tab2 8%N pk x L1 L3 L8) V5 r ER).
  Qed.
  (** the builder on the whole system and on both fragments *)
  Lemma fx_builder f n a pk ks :
    nth_error (fbody f) n = Some (SAssign "t4" (ECall "antisym.antisym_t4_residual" [EVar a; EVar "nocc"; EVar "nvir"])) ->
    fx_ok f n a pk LW = true -> fx_ok f n a pk LA = true -> fx_ok f n a pk LB = true ->
    connchk (ov_kinds 4) (fx_U f n a pk LW) = true -> prt FA (ov_kinds 4) (fx_U f n a pk LW) (fx_U f n a pk LA) -> prt FB (ov_kinds 4) (fx_U f n a pk LW) (fx_U f n a pk LB) ->
    connchk ks (fx_R f n pk LW) = true -> prt FA ks (fx_R f n pk LW) (fx_R f n pk LA) -> prt FB ks (fx_R f n pk LW) (fx_R f n pk LB) ->
    exists R RA RB, returns 1 xcc_lib f (xv None pk) R /\ returns 1 xcc_lib f (xv (Some FA) pk) RA /\ returns 1 xcc_lib f (xv (Some FB) pk) RB /\
      shape R = map (ksize no nv) ks /\ assembled M no ks R RA RB /\ (ks = ov_kinds 4 -> fx_R f n pk LW = Some (at_ 5 (l4 LW)) -> is_amp_ov 4 no nv R).
  Proof using HM Hg Ag Ht2 At2 Hp Ap.
    intros Hn O OA OB C PA PB C2 PA2 PB2.
    destruct (fx_cut f n a pk None Hn O) as [U [T [EU [TU [AU [SU HU]]]]]].
    destruct (fx_cut f n a pk (Some FA) Hn OA) as [UA [TA [EUA [TUA [AUA [SUA HUA]]]]]].
    destruct (fx_cut f n a pk (Some FB) Hn OB) as [UB [TB [EUB [TUB [AUB [SUB HUB]]]]]].
    cbn [lay' lay] in *.
    assert (AS : assembled M no (ov_kinds 4) U UA UB).
    { split; [|split].
      - exact (prt_ok no nv M HM ftab1 ftab1_sep ftab1_ok FA (ov_kinds 4) _ _ U UA PA TU TUA).
      - exact (prt_ok no nv M HM ftab1 ftab1_sep ftab1_ok FB (ov_kinds 4) _ _ U UB PB TU TUB).
      - exact (connchk_ok no nv M HM ftab1 ftab1_sep (ov_kinds 4) _ U C TU). }
    assert (SHU : shape U = map (ksize no nv) (ov_kinds 4)) by (rewrite (proj1 TU); apply (map_dim_ksp no nv M (ov_kinds 4))).
    assert (AT : assembled M no (ov_kinds 4) T TA TB) by (eapply (shut_assembled no nv M HM Oc Vi 4 U T UA TA UB TB); eassumption).
    assert (HT : is_amp_ov 4 no nv T) by (split; [rewrite (proj1 AU), SHU; reflexivity|exact SU]).
    assert (V : fr_vsim no nv M (ftab2 T) (at_ 5 (l4 LW)) (VT T)) by (eapply (frv_ov _ _ _ HM _ _ 4); [reflexivity|exact HT]).
    assert (VA : fr_vsim no nv M (ftab2 T) (at_ 5 (l4 LA)) (VT TA)) by (eapply (frv_pov _ _ _ HM _ FA _ 4); [reflexivity|exact AT]).
    assert (VB : fr_vsim no nv M (ftab2 T) (at_ 5 (l4 LB)) (VT TB)) by (eapply (frv_pov _ _ _ HM _ FB _ 4); [reflexivity|exact AT]).
    assert (R1 : outsp (map ksp ks) (fx_R f n pk LW) = true) by (unfold connchk in C2; rewrite !andb_true_iff in C2; apply C2).
    assert (R2 : outsp (map (fsp FA) ks) (fx_R f n pk LA) = true) by (destruct PA2 as [h H]; unfold prtb in H; rewrite !andb_true_iff in H; apply H).
    assert (R3 : outsp (map (fsp FB) ks) (fx_R f n pk LB) = true) by (destruct PB2 as [h H]; unfold prtb in H; rewrite !andb_true_iff in H; apply H).
    apply outsp_ok in R1, R2, R3.
    destruct (HU (ftab2 T) eq_refl eq_refl eq_refl V _ R1) as [W [HW VW]]. inversion VW as [? ? R TR| | | | |]; subst.
    destruct (HUA (ftab2 T) eq_refl eq_refl eq_refl VA _ R2) as [W [HWA VW']]. inversion VW' as [? ? RA TRA| | | | |]; subst.
    destruct (HUB (ftab2 T) eq_refl eq_refl eq_refl VB _ R3) as [W [HWB VW'']]. inversion VW'' as [? ? RB TRB| | | | |]; subst.
    exists R, RA, RB. split; [exact HW|]. split; [exact HWA|]. split; [exact HWB|].
    split; [rewrite (proj1 TR); apply (map_dim_ksp no nv M ks)|]. pose proof (ftab2_sep T TA TB HT AT) as SEP. pose proof (ftab2_ok T HT) as OK.
    assert (OV : ks = ov_kinds 4 -> fx_R f n pk LW = Some (at_ 5 (l4 LW)) -> is_amp_ov 4 no nv R).
    { intros -> ER. rewrite ER in TR. cbn [getp at_] in TR. inversion V as [? ? ? TT| | | | |]; subst.
      apply (amp_ov_teq no nv 4 T); [exact HT|]. split; [rewrite (proj1 TR), (proj1 TT); reflexivity|]. intros idx Hi.
      change (map ksp (ov_kinds 4)) with (l4 LW) in TR. assert (ND : nodupx (l4 LW) = true) by reflexivity.
      rewrite (tsim_data _ _ _ _ _ _ ND TR) by exact Hi.
      rewrite (tsim_data _ _ _ _ _ _ ND TT) by (rewrite (proj1 TT), <- (proj1 TR); exact Hi). reflexivity. }
    split; [|exact OV]. split; [|split].
    - exact (prt_ok no nv M HM (ftab2 T) SEP OK FA ks _ _ R RA PA2 TR TRA).
    - exact (prt_ok no nv M HM (ftab2 T) SEP OK FB ks _ _ R RB PB2 TR TRB).
    - exact (connchk_ok no nv M HM (ftab2 T) SEP ks _ R C2 TR).
  Qed.
  Ltac fxb := first [frchk | reflexivity].
  Notation vo := [Vi; Vi; Oc; Oc].
  Definition fxok (f : fn) (pk : bool) (ks : list kind) : Prop := exists R RA RB, returns 1 xcc_lib f (xv None pk) R /\ returns 1 xcc_lib f (xv (Some FA) pk) RA /\
    returns 1 xcc_lib f (xv (Some FB) pk) RB /\ shape R = map (ksize no nv) ks /\ assembled M no ks R RA RB /\ (ks = ov_kinds 4 -> is_amp_ov 4 no nv R).
  Lemma fxo f n a pk ks : nth_error (fbody f) n = Some (SAssign "t4" (ECall "antisym.antisym_t4_residual" [EVar a; EVar "nocc"; EVar "nvir"])) ->
    fx_ok f n a pk LW = true -> fx_ok f n a pk LA = true -> fx_ok f n a pk LB = true ->
    connchk (ov_kinds 4) (fx_U f n a pk LW) = true -> prt FA (ov_kinds 4) (fx_U f n a pk LW) (fx_U f n a pk LA) -> prt FB (ov_kinds 4) (fx_U f n a pk LW) (fx_U f n a pk LB) ->
    connchk ks (fx_R f n pk LW) = true -> prt FA ks (fx_R f n pk LW) (fx_R f n pk LA) -> prt FB ks (fx_R f n pk LW) (fx_R f n pk LB) ->
    (ks <> ov_kinds 4 \/ fx_R f n pk LW = Some (at_ 5 (l4 LW))) -> fxok f pk ks.
  Proof using HM Hg Ag Ht2 At2 Hp Ap.
    intros H1 H2 H3 H4 H5 H6 H7 H8 H9 H10 H11. destruct (fx_builder f n a pk ks H1 H2 H3 H4 H5 H6 H7 H8 H9 H10) as [R [RA [RB [E1 [E2 [E3 [S [A O]]]]]]]].
    exists R, RA, RB. repeat (split; [assumption|]). intros E. destruct H11 as [H|H]; [contradiction|]. exact (O E H).
  Qed.
  Lemma fx5 : fxok Code_XCCDbasebuilder.build_XCCDbase_5 false vo.
  Proof using HM Hg Ag Ht2 At2 Hp Ap. apply (fxo _ 15 "Roooovvvv"); first [fxb | left; discriminate]. Qed.
  Lemma fx5d : fxok Code_XCCDbasebuilder.build_XCCDbase_5_dump false (ov_kinds 4).
  Proof using HM Hg Ag Ht2 At2 Hp Ap. apply (fxo _ 15 "Roooovvvv"); first [fxb | right; vm_compute; reflexivity]. Qed.
  Lemma fx6 : fxok Code_XCCDbasebuilder.build_XCCDbase_6 false vo.
  Proof using HM Hg Ag Ht2 At2 Hp Ap. apply (fxo _ 15 "Roooovvvv"); first [fxb | left; discriminate]. Qed.
  Lemma fx7 : fxok Code_XCCDbasebuilder.build_XCCDbase_7 true vo.
  Proof using HM Hg Ag Ht2 At2 Hp Ap. apply (fxo _ 15 "Roooovvvv"); first [fxb | left; discriminate]. Qed.
  Lemma fx8 : fxok Code_XCCDbasebuilder.build_XCCDbase_8 false vo.
  Proof using HM Hg Ag Ht2 At2 Hp Ap. apply (fxo _ 13 "t4"); first [fxb | left; discriminate]. Qed.
  Lemma fx9 : fxok Code_XCCDbasebuilder.build_XCCDbase_9 true vo.
  Proof using HM Hg Ag Ht2 At2 Hp Ap. apply (fxo _ 15 "Roooovvvv"); first [fxb | left; discriminate]. Qed.
End Builder.

(** *** The fragment parts of integrals and amplitudes *)
Section Parts.
  Variables no nv : nat.
  Variable M : fragmap.
  Hypothesis HM : frag_ok no nv M.
  Lemma inr_korb x ks : forall idx, inr idx (map (ksize (fno M x) (fnv M x)) ks) -> inr (zipw (korb M no x) ks idx) (map (ksize no nv) ks).
  Proof using HM.
    induction ks as [|c l IH]; intros idx Hi; inversion Hi; subst; [constructor|].
    rewrite zipw_cons. cbn [map]. constructor; [eapply (korb_lt no nv M HM); assumption|apply IH; assumption].
  Qed.
  Lemma zipw_swap (f : kind -> nat -> nat) K pre x y post : forall ks, nth_error ks (length pre) = Some K -> nth_error ks (S (length pre)) = Some K ->
    exists pre' x' y' post', length pre' = length pre /\ zipw f ks (pre ++ x :: y :: post) = pre' ++ x' :: y' :: post' /\ zipw f ks (pre ++ y :: x :: post) = pre' ++ y' :: x' :: post'.
  Proof using.
    induction pre as [|q pre IH]; intros [|k ks] H1 H2; try discriminate; cbn [length nth_error app] in *.
    - destruct ks as [|k' ks]; [discriminate|]. cbn [nth_error] in H2. injection H1 as ->. injection H2 as ->.
      exists [], (f K x), (f K y), (zipw f ks post). rewrite !zipw_cons. split; [reflexivity|]. split; reflexivity.
    - destruct (IH ks H1 H2) as [pre' [x' [y' [post' [L [E1 E2]]]]]]. exists (f k q :: pre'), x', y', post'. rewrite !zipw_cons, E1, E2. cbn [length app]. rewrite L. split; [reflexivity|]. split; reflexivity.
  Qed.
  Lemma part_antis_in x ks t b i K : shape t = map (ksize no nv) ks -> nth_error ks i = Some K -> nth_error ks (S i) = Some K -> part M no x ks t b -> antisymmetric_in t i -> antisymmetric_in b i.
  Proof using HM.
    intros St N1 N2 [Sb D] A pre p q post L I1 I2. rewrite (D _ I1), (D _ I2). rewrite Sb in I1, I2. rewrite <- L in N1, N2.
    destruct (zipw_swap (korb M no x) K pre p q post ks N1 N2) as [pre' [x' [y' [post' [L' [E1 E2]]]]]].
    pose proof (inr_korb x ks _ I1) as J1. pose proof (inr_korb x ks _ I2) as J2. rewrite E1 in J1. rewrite E2 in J2. rewrite E1, E2. apply A; [congruence| |]; rewrite St; assumption.
  Qed.
  Lemma kinds_nth (K1 K2 : kind) k i : (S i < k)%nat -> nth_error (repeat K1 k ++ repeat K2 k) i = Some K1 /\ nth_error (repeat K1 k ++ repeat K2 k) (S i) = Some K1 /\
    nth_error (repeat K1 k ++ repeat K2 k) (k + i) = Some K2 /\ nth_error (repeat K1 k ++ repeat K2 k) (S (k + i)) = Some K2.
  Proof using.
    intros H. assert (R : forall (K : kind) n j, (j < n)%nat -> nth_error (repeat K n) j = Some K).
    { clear. intros K n. induction n as [|n IH]; intros [|j] Hj; try lia; [reflexivity|]. cbn. apply IH. lia. }
    rewrite !nth_error_app1 by (rewrite repeat_length; lia). rewrite !nth_error_app2 by (rewrite repeat_length; lia). rewrite !repeat_length.
    replace (k + i - k)%nat with i by lia. replace (S (k + i) - k)%nat with (S i) by lia. rewrite !R by lia. auto.
  Qed.
  Lemma part_antis x K1 K2 k t b : shape t = map (ksize no nv) (repeat K1 k ++ repeat K2 k) -> part M no x (repeat K1 k ++ repeat K2 k) t b -> antisymmetric k t -> antisymmetric k b.
  Proof using HM.
    intros St P A i Hi. destruct (A i Hi) as [A1 A2], (kinds_nth K1 K2 k i Hi) as [N1 [N2 [N3 N4]]]. split.
    - exact (part_antis_in x _ t b i K1 St N1 N2 P A1).
    - exact (part_antis_in x _ t b (k + i) K2 St N3 N4 P A2).
  Qed.
  Lemma part_herm x K k t b : shape t = map (ksize no nv) (repeat K k ++ repeat K k) -> part M no x (repeat K k ++ repeat K k) t b -> hermitian k t -> hermitian k b.
  Proof using HM.
    intros St [Sb D] H l1 l2 L1 L2 I.
    assert (I' : inr (l2 ++ l1) (shape b)).
    { rewrite Sb, map_app, map_repeat in I |- *. destruct (two_parts _ _ _ _ _ L1 I) as [I1 I2]. apply Forall2_app; assumption. }
    rewrite (D _ I), (D _ I'). rewrite Sb in I. pose proof (inr_korb x _ _ I) as J. rewrite !zipw_app2 in * by (rewrite repeat_length; auto). rewrite !zipw_repeat in * by assumption.
    apply H; [rewrite map_length; exact L1|rewrite map_length; exact L2|rewrite St; exact J].
  Qed.
  Lemma part_tei x g b : is_tei (no + nv) g -> part M no x [Al; Al; Al; Al] g b -> is_tei (fno M x + fnv M x) b.
  Proof using HM.
    intros [S [A H]] P. split; [exact (proj1 P)|]. split.
    - exact (part_antis x Al Al 2 g b S P A).
    - exact (part_herm x Al 2 g b S P H).
  Qed.
  Lemma part_fock x f b : is_fock (no + nv) f -> part M no x [Al; Al] f b -> is_fock (fno M x + fnv M x) b.
  Proof using HM. intros [S H] P. split; [exact (proj1 P)|]. exact (part_herm x Al 1 f b S P H). Qed.
  Lemma part_amp x k t b : is_amp k no nv t -> part M no x (vo_kinds k) t b -> is_amp k (fno M x) (fnv M x) b.
  Proof using HM.
    intros [S A] P. split.
    - rewrite (proj1 P). unfold vo_kinds. rewrite map_app, !map_repeat. reflexivity.
    - apply (part_antis x Vi Oc k t b); [rewrite S, map_app, !map_repeat; reflexivity|exact P|exact A].
  Qed.

  (** *** Sums over all orbitals split into the fragments *)
  Lemma kind_split K G : K <> Al -> Sum i < ksize no nv K, G i = (Sum i < ksize (fno M FA) (fnv M FA) K, G (korb M no FA K i)) + (Sum i < ksize (fno M FB) (fnv M FB) K, G (korb M no FB K i)).
  Proof using HM.
    intros NA. assert (E : forall n lA lB, Permutation (lA ++ lB) (seq 0 n) -> Sum i < n, G i = (Sum i < length lA, G (nth i lA O)) + (Sum i < length lB, G (nth i lB O))).
    { intros n lA lB P. rewrite <- (P_denoms.suml_perm _ _ _ P), suml_app. f_equal.
      - clear. induction lA as [|x l IH]; [reflexivity|]. cbn [length seq suml nth]. rewrite IH. f_equal. rewrite suml_seq_shift. apply suml_ext. intros i _. reflexivity.
      - clear. induction lB as [|x l IH]; [reflexivity|]. cbn [length seq suml nth]. rewrite IH. f_equal. rewrite suml_seq_shift. apply suml_ext. intros i _. reflexivity. }
    destruct K; [| |contradiction]; cbn [ksize korb]; unfold fno, fnv; apply E; apply HM.
  Qed.
  Definition other (x : frag) := match x with FA => FB | FB => FA end.
  Lemma kind_one x K G : K <> Al -> (forall i, belongs M no (other x) K i -> G i = 0) -> Sum i < ksize no nv K, G i = Sum i < ksize (fno M x) (fnv M x) K, G (korb M no x K i).
  Proof using HM.
    intros NA Z. rewrite kind_split by exact NA.
    assert (Z' : Sum i < ksize (fno M (other x)) (fnv M (other x)) K, G (korb M no (other x) K i) = 0).
    { apply suml_zero. intros i Hi. apply in_seq in Hi. apply Z. apply (korb_belongs no nv M HM). lia. }
    destruct x; cbn [other] in Z'; rewrite Z'; ring.
  Qed.
  Lemma one_V x G : (forall i, belongs M no (other x) Vi i -> (i < nv)%nat -> G i = 0) -> Sum i < nv, G i = Sum i < fnv M x, G (korb M no x Vi i).
  Proof using HM. intros Z. apply (kind_one x Vi G); [discriminate|]. intros i B. apply Z; [exact B|]. apply (fv_lt no nv M HM (other x)). exact B. Qed.
  Lemma one_O x G : (forall i, belongs M no (other x) Oc i -> (i < no)%nat -> G i = 0) -> Sum i < no, G i = Sum i < fno M x, G (korb M no x Oc i).
  Proof using HM. intros Z. apply (kind_one x Oc G); [discriminate|]. intros i B. apply Z; [exact B|]. apply (fo_lt no nv M HM (other x)). exact B. Qed.
  (** the energy expression of two arrays without coupling entries *)
  Lemma quarter_split X XA XB Y YA YB : shape X = [nv; nv; no; no] -> shape Y = [nv; nv; no; no] ->
    assembled M no (vo_kinds 2) X XA XB -> part M no FA (vo_kinds 2) Y YA -> part M no FB (vo_kinds 2) Y YB ->
    quarter no nv (fun a b i j => data X [a; b; i; j]) Y =
    quarter (fno M FA) (fnv M FA) (fun a b i j => data XA [a; b; i; j]) YA + quarter (fno M FB) (fnv M FB) (fun a b i j => data XB [a; b; i; j]) YB.
  Proof using HM.
    intros SX SY [XPA [XPB XS]] YPA YPB. unfold quarter. rewrite <- Qcmult_plus_distr_r. f_equal.
    set (F := fun a b i j => data X [a; b; i; j] * data Y [a; b; i; j]).
    assert (one : forall x Xx Yx, part M no x (vo_kinds 2) X Xx -> part M no x (vo_kinds 2) Y Yx ->
      Sum a < fnv M x, Sum b < nv, Sum i < no, Sum j < no, F (korb M no x Vi a) b i j =
      Sum a < fnv M x, Sum b < fnv M x, Sum i < fno M x, Sum j < fno M x, data Xx [a; b; i; j] * data Yx [a; b; i; j]).
    { intros x Xx Yx [SXx DX] [SYx DY].
      apply suml_ext. intros a Ha. apply in_seq in Ha. assert (BA : belongs M no x Vi (korb M no x Vi a)) by (apply (korb_belongs no nv M HM); cbn [ksize]; lia).
      assert (LA' : (korb M no x Vi a < nv)%nat) by (apply (korb_lt no nv M HM x Vi); cbn [ksize]; lia).
      assert (Z : forall b i j, (b < nv)%nat -> (i < no)%nat -> (j < no)%nat -> touches M no (other x) (vo_kinds 2) [korb M no x Vi a; b; i; j] -> F (korb M no x Vi a) b i j = 0).
      { intros b i j Hb Hi Hj T. unfold F. rewrite XS; [ring| | |].
        - rewrite SX. repeat constructor; assumption.
        - destruct x; [exists 0%nat, Vi, (korb M no FA Vi a); auto|exact T].
        - destruct x; [exact T|exists 0%nat, Vi, (korb M no FB Vi a); auto]. }
      rewrite (one_V x); [|intros b Bb Hb; apply suml_zero; intros i Hi; apply suml_zero; intros j Hj; apply in_seq in Hi, Hj; apply Z; [exact Hb|lia|lia|exists 1%nat, Vi, b; auto]].
      apply suml_ext. intros b Hb. apply in_seq in Hb. assert (LB' : (korb M no x Vi b < nv)%nat) by (apply (korb_lt no nv M HM x Vi); cbn [ksize] in *; lia).
      rewrite (one_O x); [|intros i Bi Hi; apply suml_zero; intros j Hj; apply in_seq in Hj; apply Z; [exact LB'|exact Hi|lia|exists 2%nat, Oc, i; auto]].
      apply suml_ext. intros i Hi. apply in_seq in Hi. assert (LI' : (korb M no x Oc i < no)%nat) by (apply (korb_lt no nv M HM x Oc); cbn [ksize] in *; lia).
      rewrite (one_O x); [|intros j Bj Hj; apply Z; [exact LB'|exact LI'|exact Hj|exists 3%nat, Oc, j; auto]].
      apply suml_ext. intros j Hj. apply in_seq in Hj. unfold F. cbn [ksize] in *.
      rewrite DX by (rewrite SXx; repeat constructor; cbn [ksize]; lia). rewrite DY by (rewrite SYx; repeat constructor; cbn [ksize]; lia). reflexivity. }
    change nv with (ksize no nv Vi) at 1. rewrite kind_split by discriminate. cbn [ksize]. f_equal; apply one; assumption.
  Qed.
End Parts.

(** *** One system, given its corrections *)
Definition capT (no nv : nat) (g D2 t2 : tensor) (fz : bool) : tensor :=
  mkT [nv; nv; no; no] (fun idx => match idx with [a; b; i; j] => cap no g D2 t2 fz a b i j | _ => 0 end).
Definition xlabel (n : nat) : string := nth (n - 5) ["XCCD(5)"; "XCCD(6)"; "XCCD(7)"; "XCCD(8)"; "XCCD(9)"] "".
(** the corrections of the orders 5 to 9 and the file that order 5 writes *)
Definition bases (no nv : nat) (g t2 : tensor) (B : nat -> tensor) (P : tensor) : Prop :=
  (forall w, xcc_base no nv g 5 t2 w = Some (B 5%nat, Some P)) /\
  (forall k, (6 <= k <= 9)%nat -> xcc_base no nv g k t2 (Some P) = Some (B k, Some P)).
Section One.
  Variables no nv : nat.
  Variables f g D2 t2 : tensor.
  Hypothesis Hf : is_fock (no + nv) f.
  Hypothesis Hg : is_tei (no + nv) g.
  Hypothesis DS : shape D2 = [nv; nv; no; no].
  Hypothesis Ht : is_amp 2 no nv t2.
  Variable B : nat -> tensor.
  Variable P : tensor.
  Hypothesis HB : bases no nv g t2 B P.
  Lemma bases_amp k : (5 <= k <= 9)%nat -> is_amp 2 no nv (B k).
  Proof using Hg Ht HB.
    destruct HB as [X5 XK]. intros Hk.
    destruct (xcc_base_ok no nv g t2 Hg Ht 5 None ltac:(lia) (or_introl eq_refl)) as [B' [w1 [EB [A5 [_ GD]]]]]. rewrite X5 in EB. injection EB as <- <-.
    destruct (Nat.eq_dec k 5) as [->|N5]; [exact A5|].
    destruct (xcc_base_ok no nv g t2 Hg Ht k (Some P) ltac:(lia) (or_intror GD)) as [B' [w1 [EB [A6 _]]]]. rewrite XK in EB by lia. injection EB as <- <-. exact A6.
  Qed.
  Lemma one_from fz n : forall k w, (5 <= k)%nat -> (k + n <= 10)%nat -> (k = 5%nat \/ w = Some P) ->
    (exists w', xcc_energies no nv g D2 fz t2 (seq k n) w = Some (map (fun k => quarter no nv (cap no g D2 t2 fz) (B k)) (seq k n), w')) /\
    forall r, shape r = [nv; nv; no; no] -> exists r' w', xcc_resids no nv g (seq k n) t2 r w = Some (r', w') /\ shape r' = [nv; nv; no; no] /\
      forall idx, data r' idx = data r idx + suml (seq k n) (fun k => data (B k) idx).
  Proof using Hg DS Ht HB.
    pose proof HB as [X5 XK]. induction n as [|n IH]; intros k w H1 H2 HW.
    - split; [eexists; reflexivity|]. intros r Hr. exists r, w. split; [reflexivity|]. split; [exact Hr|]. intros idx. cbn [seq suml]. ring.
    - assert (E : xcc_base no nv g k t2 w = Some (B k, Some P)).
      { destruct HW as [->| ->]; [apply X5|]. destruct (Nat.eq_dec k 5) as [->|]; [apply X5|apply XK; lia]. }
      pose proof (bases_amp k ltac:(lia)) as AB.
      destruct (IH (Datatypes.S k) (Some P) ltac:(lia) ltac:(lia) (or_intror eq_refl)) as [[w' HE] HR]. split.
      + exists w'. cbn [seq xcc_energies]. rewrite (energy1_val no nv g D2 t2 Hg DS Ht fz k w (B k) (Some P) E AB). cbn [obind fst snd]. rewrite HE. reflexivity.
      + intros r Hr. cbn [seq xcc_resids]. rewrite E. cbn [obind fst snd]. assert (SB : shape (B k) = [nv; nv; no; no]) by apply AB. rewrite tbin_ok by congruence. cbn [obind].
        destruct (HR (mkT (shape r) (fun i => data r i + data (B k) i)) Hr) as [r' [w2 [E' [S' V']]]].
        exists r', w2. split; [exact E'|]. split; [exact S'|]. intros idx. rewrite V'. cbn [data suml seq]. ring.
  Qed.
  Lemma one_system c n d w R0 E0 : (5 <= n <= 9)%nat -> cc_type c = xlabel n -> slook "t2aa" d = Some t2 ->
    returns 0 [] Code_t2residEqnsSlow.ccd_t2residual [VT t2; VT f; VT g; o_ no; v_ no] R0 -> returns 0 [] Code_t2energySlow.ccdEnergy [VT t2; VT f; VT g; o_ no; v_ no] E0 ->
    (exists w', t2energy_slow no nv f g D2 c d w = Some (data E0 [] + suml (seq 5 (n - 4)) (fun k => quarter no nv (fun a b i j => data (capT no nv g D2 t2 false) [a; b; i; j]) (B k)), w')) /\
    (exists w', t2pert_slow no nv g D2 c d w = Some (suml (seq 5 (n - 4)) (fun k => quarter no nv (fun a b i j => data (capT no nv g D2 t2 true) [a; b; i; j]) (B k)), w')) /\
    exists d' w' t2', t2resid_slow no nv f g D2 c d w = Some (d', w') /\ slook "t2aa" d' = Some t2' /\ shape t2' = [nv; nv; no; no] /\
      forall idx, data t2' idx = (data R0 idx + suml (seq 5 (n - 4)) (fun k => data (B k) idx) + / data D2 idx * data t2 idx) * data D2 idx.
  Proof using All.
    intros Hn Ty Hd HR0 HE0.
    assert (EO : extract_integer (cc_type c) = Some (seq 5 (n - 4))).
    { rewrite Ty. assert (n = 5 \/ n = 6 \/ n = 7 \/ n = 8 \/ n = 9)%nat as [->|[->|[->|[->| ->]]]] by lia; reflexivity. }
    assert (XF : xccd_flag c = true /\ contains "X" (cc_type c) = true /\ (cc_type c =? "LCCD") = false /\ (cc_type c =? "pCCD") = false).
    { unfold xccd_flag. rewrite Ty. assert (n = 5 \/ n = 6 \/ n = 7 \/ n = 8 \/ n = 9)%nat as [->|[->|[->|[->| ->]]]] by lia; repeat split; reflexivity. }
    destruct XF as [XF [CX [NL NP]]].
    destruct (one_from false (n - 4) 5 w ltac:(lia) ltac:(lia) (or_introl eq_refl)) as [[w1 HE] HRr].
    destruct (one_from true (n - 4) 5 w ltac:(lia) ltac:(lia) (or_introl eq_refl)) as [[w1' HE'] _].
    assert (ST : shape t2 = [nv; nv; no; no]) by apply Ht.
    split; [|split].
    - exists w1. unfold t2energy_slow. rewrite Hd. cbn [obind]. rewrite XF. unfold ccd_energy. rewrite (call0_returns _ _ _ HE0). cbn [obind]. rewrite EO. cbn [obind]. rewrite HE. cbn [obind fst snd].
      unfold lsum. rewrite suml_map. reflexivity.
    - exists w1'. unfold t2pert_slow. rewrite Hd. cbn [obind]. rewrite EO. cbn [obind]. rewrite HE'. cbn [obind fst snd]. unfold lsum. rewrite suml_map. reflexivity.
    - destruct (ccd_amp no nv f g t2 Hf Hg Ht) as [R0' [H0 A0]].
      assert (R0' = R0) as -> by (pose proof (call0_returns _ _ _ HR0) as H1; congruence).
      destruct (HRr R0 (proj1 A0)) as [r' [w2 [E' [SR V']]]].
      eexists _, w2, _. split; [|split; [|split]].
      + unfold t2resid_slow. rewrite Hd. cbn [obind]. rewrite H0. cbn [obind]. rewrite NL. cbn [obind]. rewrite CX, EO. cbn [obind]. rewrite E'. cbn [obind fst snd].
        rewrite tbin_ok by (cbn [trecip shape]; congruence). cbn [obind].
        rewrite tbin_ok by (cbn [trecip shape]; congruence). cbn [obind].
        rewrite tbin_ok by (cbn [trecip shape]; congruence). cbn [obind]. rewrite NP. reflexivity.
      + cbn [slook String.eqb Ascii.eqb Bool.eqb]. reflexivity.
      + exact SR.
      + intros idx. cbn [data trecip]. rewrite V'. reflexivity.
  Qed.
End One.

(** *** The corrections of the whole system and of the fragments *)
Lemma zeros_amp_ov k no nv : is_amp_ov k no nv (tzeros (repeat no k ++ repeat nv k)).
Proof. split; [reflexivity|]. intros i Hi. split; intros pre x y post _ _ _; cbn [tzeros data]; ring. Qed.
Lemma zeros_assembled M no nv ks : assembled M no ks (tzeros (map (ksize no nv) ks)) (tzeros (map (ksize (fno M FA) (fnv M FA)) ks)) (tzeros (map (ksize (fno M FB) (fnv M FB)) ks)).
Proof. split; [|split]; [split; [reflexivity|reflexivity]|split; [reflexivity|reflexivity]|intros idx _ _ _; reflexivity]. Qed.
Section Both.
  Variables no nv : nat.
  Variable M : fragmap.
  Hypothesis HM : frag_ok no nv M.
  Variables g gA gB t2 t2A t2B : tensor.
  Hypothesis Hg : is_tei (no + nv) g.
  Hypothesis Ag : assembled M no [Al; Al; Al; Al] g gA gB.
  Hypothesis Ht2 : is_amp 2 no nv t2.
  Hypothesis At2 : assembled M no (vo_kinds 2) t2 t2A t2B.
  Lemma fr_bases : exists B BA BB P PA PB, bases no nv g t2 B P /\ bases (fno M FA) (fnv M FA) gA t2A BA PA /\ bases (fno M FB) (fnv M FB) gB t2B BB PB /\
    forall k, (5 <= k <= 9)%nat -> assembled M no (vo_kinds 2) (B k) (BA k) (BB k).
  Proof using All.
    pose proof (zeros_amp_ov 4 no nv) as Z1. pose proof (zeros_assembled M no nv (ov_kinds 4)) as Z2.
    change (map (ksize no nv) (ov_kinds 4)) with (repeat no 4 ++ repeat nv 4) in Z2.
    destruct (fx5 no nv M HM g gA gB t2 t2A t2B _ _ _ Hg Ag Ht2 At2 Z1 Z2) as [B5 [B5A [B5B [E5 [E5A [E5B [_ [A5 _]]]]]]]].
    destruct (fx5d no nv M HM g gA gB t2 t2A t2B _ _ _ Hg Ag Ht2 At2 Z1 Z2) as [P [PA [PB [EP [EPA [EPB [_ [AP HP]]]]]]]]. specialize (HP eq_refl).
    destruct (fx6 no nv M HM g gA gB t2 t2A t2B _ _ _ Hg Ag Ht2 At2 HP AP) as [B6 [B6A [B6B [E6 [E6A [E6B [_ [A6 _]]]]]]]].
    destruct (fx7 no nv M HM g gA gB t2 t2A t2B _ _ _ Hg Ag Ht2 At2 HP AP) as [B7 [B7A [B7B [E7 [E7A [E7B [_ [A7 _]]]]]]]].
    destruct (fx8 no nv M HM g gA gB t2 t2A t2B _ _ _ Hg Ag Ht2 At2 HP AP) as [B8 [B8A [B8B [E8 [E8A [E8B [_ [A8 _]]]]]]]].
    destruct (fx9 no nv M HM g gA gB t2 t2A t2B _ _ _ Hg Ag Ht2 At2 HP AP) as [B9 [B9A [B9B [E9 [E9A [E9B [_ [A9 _]]]]]]]].
    set (S := fun (b5 b6 b7 b8 b9 : tensor) k => match k with 5%nat => b5 | 6%nat => b6 | 7%nat => b7 | 8%nat => b8 | _ => b9 end).
    exists (S B5 B6 B7 B8 B9), (S B5A B6A B7A B8A B9A), (S B5B B6B B7B B8B B9B), P, PA, PB.
    assert (BS : forall n m G T b5 b6 b7 b8 b9 Q q, returns 1 xcc_lib Code_XCCDbasebuilder.build_XCCDbase_5 (xcc_vals n m G T q false) b5 -> returns 1 xcc_lib Code_XCCDbasebuilder.build_XCCDbase_5_dump (xcc_vals n m G T q false) Q ->
      returns 1 xcc_lib Code_XCCDbasebuilder.build_XCCDbase_6 (xcc_vals n m G T Q false) b6 -> returns 1 xcc_lib Code_XCCDbasebuilder.build_XCCDbase_7 (xcc_vals n m G T Q true) b7 ->
      returns 1 xcc_lib Code_XCCDbasebuilder.build_XCCDbase_8 (xcc_vals n m G T Q false) b8 -> returns 1 xcc_lib Code_XCCDbasebuilder.build_XCCDbase_9 (xcc_vals n m G T Q true) b9 ->
      bases n m G T (S b5 b6 b7 b8 b9) Q).
    { clear. intros n m G T b5 b6 b7 b8 b9 Q q H5 HQ H6 H7 H8 H9. unfold returns, xcc_vals in *. cbn [app] in *. split.
      - intros w. unfold xcc_base, call1. rewrite H5. cbn [obind]. rewrite HQ. reflexivity.
      - intros k Hk. assert (k = 6 \/ k = 7 \/ k = 8 \/ k = 9)%nat as [->|[->|[->| ->]]] by lia; unfold xcc_base, call1; cbn [obind S]; [rewrite H6|rewrite H7|rewrite H8|rewrite H9]; reflexivity. }
    do 3 (split; [eapply (BS _ _ _ _ _ _ _ _ _ _ P); eassumption|]).
    intros k Hk. assert (k = 5 \/ k = 6 \/ k = 7 \/ k = 8 \/ k = 9)%nat as [->|[->|[->|[->| ->]]]] by lia; cbn [S]; assumption.
  Qed.
  Lemma al_touch x a b i j : touches M no x (vo_kinds 2) [a; b; i; j] -> (i < no)%nat -> (j < no)%nat -> touches M no x [Al; Al; Al; Al] [no + a; no + b; i; j]%nat.
  Proof using.
    intros [p [k [q [H1 [H2 H3]]]]] Hi Hj.
    assert (V : forall a, belongs M no x Vi a -> belongs M no x Al (no + a)).
    { intros c H. cbn [belongs] in *. destruct (Nat.ltb_spec (no + c) no); [lia|]. replace (no + c - no)%nat with c by lia. exact H. }
    assert (O : forall i, (i < no)%nat -> belongs M no x Oc i -> belongs M no x Al i).
    { intros c L H. cbn [belongs] in *. destruct (Nat.ltb_spec c no); [exact H|lia]. }
    destruct p as [|[|[|[|p]]]]; cbn in H1, H2; try (injection H1 as <-; injection H2 as <-); try discriminate.
    - exists 0%nat, Al, (no + a)%nat. auto. - exists 1%nat, Al, (no + b)%nat. auto. - exists 2%nat, Al, i. auto. - exists 3%nat, Al, j. auto.
    - destruct p; discriminate.
  Qed.
  Lemma korb_v x a : korb M no x Al (fno M x + a) = (no + korb M no x Vi a)%nat.
  Proof using. cbn [korb]. destruct (Nat.ltb_spec (fno M x + a) (fno M x)); [lia|]. replace (fno M x + a - fno M x)%nat with a by lia. reflexivity. Qed.
  Lemma korb_o x i : (i < fno M x)%nat -> korb M no x Al i = korb M no x Oc i.
  Proof using. intros H. cbn [korb]. destruct (Nat.ltb_spec i (fno M x)); [reflexivity|lia]. Qed.
  Lemma cap_assembled D2 D2A D2B fz : part M no FA (vo_kinds 2) D2 D2A -> part M no FB (vo_kinds 2) D2 D2B ->
    assembled M no (vo_kinds 2) (capT no nv g D2 t2 fz) (capT (fno M FA) (fnv M FA) gA D2A t2A fz) (capT (fno M FB) (fnv M FB) gB D2B t2B fz).
  Proof using HM Hg Ag Ht2 At2.
    intros PA PB.
    assert (G : forall x gx tx Dx, part M no x [Al; Al; Al; Al] g gx -> part M no x (vo_kinds 2) t2 tx -> part M no x (vo_kinds 2) D2 Dx ->
      part M no x (vo_kinds 2) (capT no nv g D2 t2 fz) (capT (fno M x) (fnv M x) gx Dx tx fz)).
    { intros x gx tx Dx [Sg Dg] [St Dt] [SD DD]. split; [reflexivity|]. intros idx I. cbn [capT shape] in I.
      destruct idx as [|a [|b [|i [|j [|? ?]]]]]; repeat match goal with H : inr _ _ |- _ => inversion H; clear H; subst | H : Forall2 lt _ _ |- _ => inversion H; clear H; subst end.
      change (zipw (korb M no x) (vo_kinds 2) [a; b; i; j]) with [korb M no x Vi a; korb M no x Vi b; korb M no x Oc i; korb M no x Oc j].
      cbn [capT data cap]. destruct fz; cbn [cap]; unfold cap.
      - rewrite Dg by (rewrite Sg; repeat constructor; cbn [ksize]; lia). rewrite DD by (rewrite SD; repeat constructor; assumption).
        change (zipw (korb M no x) [Al; Al; Al; Al] [fno M x + a; fno M x + b; i; j]%nat) with [korb M no x Al (fno M x + a); korb M no x Al (fno M x + b); korb M no x Al i; korb M no x Al j].
        rewrite !korb_v, !korb_o by assumption. reflexivity.
      - rewrite Dt by (rewrite St; repeat constructor; assumption). reflexivity. }
    split; [apply G; [apply Ag|apply At2|exact PA]|]. split; [apply G; [apply Ag|apply At2|exact PB]|].
    intros idx I TA TB. cbn [capT shape] in I.
    destruct idx as [|a [|b [|i [|j [|? ?]]]]]; repeat match goal with H : inr _ _ |- _ => inversion H; clear H; subst | H : Forall2 lt _ _ |- _ => inversion H; clear H; subst end.
    cbn [capT data]. unfold cap. destruct fz.
    - rewrite (proj2 (proj2 Ag)); [ring| | |]; [rewrite (proj1 Hg); repeat constructor; lia|apply al_touch; assumption|apply al_touch; assumption].
    - apply (proj2 (proj2 At2)); [rewrite (proj1 Ht2); repeat constructor; assumption|assumption|assumption].
  Qed.
End Both.

(** C19 for XCCD(5), ..., XCCD(9).  For two fragments that do not interact the energy and the perturbative energy are the sums of the
    fragment energies, and one pass turns amplitudes assembled from fragment amplitudes into amplitudes assembled from the fragments' next
    amplitudes.  Each of the three calculations may start with any leftover file; order 5 rewrites it before orders 7 and 9 read it. *)
Theorem C19_xccd_size_consistent : forall no nv M f fA fB g gA gB t2 t2A t2B D2 D2A D2B c n d dA dB w wA wB, frag_ok no nv M ->
  is_fock (no + nv) f -> is_tei (no + nv) g -> is_amp 2 no nv t2 -> shape D2 = [nv; nv; no; no] ->
  assembled M no [Al; Al] f fA fB -> assembled M no [Al; Al; Al; Al] g gA gB -> assembled M no (vo_kinds 2) t2 t2A t2B ->
  part M no FA (vo_kinds 2) D2 D2A -> part M no FB (vo_kinds 2) D2 D2B ->
  (5 <= n <= 9)%nat -> cc_type c = xlabel n -> slook "t2aa" d = Some t2 -> slook "t2aa" dA = Some t2A -> slook "t2aa" dB = Some t2B ->
  let nA := fno M FA in let vA := fnv M FA in let nB := fno M FB in let vB := fnv M FB in
  (exists E EA EB w' wA' wB', t2energy_slow no nv f g D2 c d w = Some (E, w') /\ t2energy_slow nA vA fA gA D2A c dA wA = Some (EA, wA') /\
     t2energy_slow nB vB fB gB D2B c dB wB = Some (EB, wB') /\ E = EA + EB) /\
  (exists E EA EB w' wA' wB', t2pert_slow no nv g D2 c d w = Some (E, w') /\ t2pert_slow nA vA gA D2A c dA wA = Some (EA, wA') /\
     t2pert_slow nB vB gB D2B c dB wB = Some (EB, wB') /\ E = EA + EB) /\
  exists d' dA' dB' w' wA' wB' T TA TB, t2resid_slow no nv f g D2 c d w = Some (d', w') /\ t2resid_slow nA vA fA gA D2A c dA wA = Some (dA', wA') /\
     t2resid_slow nB vB fB gB D2B c dB wB = Some (dB', wB') /\ slook "t2aa" d' = Some T /\ slook "t2aa" dA' = Some TA /\ slook "t2aa" dB' = Some TB /\
     shape T = [nv; nv; no; no] /\ assembled M no (vo_kinds 2) T TA TB.
Proof.
  intros no nv M f fA fB g gA gB t2 t2A t2B D2 D2A D2B c n d dA dB w wA wB HM Hf Hg Ht SD Af Ag At DA DB Hn Ty Hd HdA HdB nA vA nB vB.
  pose proof Af as [fPA [fPB _]]. pose proof Ag as [gPA [gPB _]]. pose proof At as [tPA [tPB tS]].
  pose proof (part_fock no nv M HM FA f fA Hf fPA) as HfA. pose proof (part_fock no nv M HM FB f fB Hf fPB) as HfB.
  pose proof (part_tei no nv M HM FA g gA Hg gPA) as HgA. pose proof (part_tei no nv M HM FB g gB Hg gPB) as HgB.
  pose proof (part_amp no nv M HM FA 2 t2 t2A Ht tPA) as HtA. pose proof (part_amp no nv M HM FB 2 t2 t2B Ht tPB) as HtB.
  destruct (fr_bases no nv M HM g gA gB t2 t2A t2B Hg Ag Ht At) as [B [BA [BB [P [PA [PB [HB [HBA [HBB AB]]]]]]]]].
  destruct (C19_ccd_size_consistent no nv M f fA fB g gA gB t2 t2A t2B HM Hf Hg Ht Af Ag At) as [[R [RA [RB [R1 [R2 [R3 [SR [RPA [RPB RS]]]]]]]]] [_ [E [EA [EB [E1 [E2 [E3 [_ [_ [_ ES]]]]]]]]]]].
  destruct (one_system no nv f g D2 t2 Hf Hg SD Ht B P HB c n d w R E Hn Ty Hd R1 E1) as [[w1 S1] [[w2 S2] [d' [w3 [T [S3 [S4 [S5 S6]]]]]]]].
  destruct (one_system nA vA fA gA D2A t2A HfA HgA (proj1 DA) HtA BA PA HBA c n dA wA RA EA Hn Ty HdA R2 E2) as [[w1A S1A] [[w2A S2A] [dA' [w3A [TA [S3A [S4A [S5A S6A]]]]]]]].
  destruct (one_system nB vB fB gB D2B t2B HfB HgB (proj1 DB) HtB BB PB HBB c n dB wB RB EB Hn Ty HdB R3 E3) as [[w1B S1B] [[w2B S2B] [dB' [w3B [TB [S3B [S4B [S5B S6B]]]]]]]].
  assert (Q : forall fz k, (5 <= k <= 9)%nat -> quarter no nv (fun a b i j => data (capT no nv g D2 t2 fz) [a; b; i; j]) (B k) =
    quarter nA vA (fun a b i j => data (capT nA vA gA D2A t2A fz) [a; b; i; j]) (BA k) + quarter nB vB (fun a b i j => data (capT nB vB gB D2B t2B fz) [a; b; i; j]) (BB k)).
  { intros fz k Hk. destruct (AB k Hk) as [BPA [BPB _]]. apply (quarter_split no nv M HM); [reflexivity|apply (bases_amp no nv g t2 Hg Ht B P HB k Hk)| |exact BPA|exact BPB].
    apply cap_assembled; assumption. }
  assert (QS : forall fz, suml (seq 5 (n - 4)) (fun k => quarter no nv (fun a b i j => data (capT no nv g D2 t2 fz) [a; b; i; j]) (B k)) =
    suml (seq 5 (n - 4)) (fun k => quarter nA vA (fun a b i j => data (capT nA vA gA D2A t2A fz) [a; b; i; j]) (BA k)) +
    suml (seq 5 (n - 4)) (fun k => quarter nB vB (fun a b i j => data (capT nB vB gB D2B t2B fz) [a; b; i; j]) (BB k))).
  { intros fz. rewrite <- suml_plus. apply suml_ext. intros k Hk. apply in_seq in Hk. apply Q. lia. }
  split; [|split].
  - eexists _, _, _, w1, w1A, w1B. split; [exact S1|]. split; [exact S1A|]. split; [exact S1B|]. rewrite ES, QS. ring.
  - eexists _, _, _, w2, w2A, w2B. split; [exact S2|]. split; [exact S2A|]. split; [exact S2B|]. apply QS.
  - exists d', dA', dB', w3, w3A, w3B, T, TA, TB. repeat (split; [assumption|]).
    assert (PT : forall x Rx tx Dx Bx Tx, part M no x (vo_kinds 2) R Rx -> part M no x (vo_kinds 2) t2 tx -> part M no x (vo_kinds 2) D2 Dx -> (forall k, (5 <= k <= 9)%nat -> part M no x (vo_kinds 2) (B k) (Bx k)) ->
      shape Tx = [fnv M x; fnv M x; fno M x; fno M x] -> (forall idx, data Tx idx = (data Rx idx + suml (seq 5 (n - 4)) (fun k => data (Bx k) idx) + / data Dx idx * data tx idx) * data Dx idx) ->
      part M no x (vo_kinds 2) T Tx).
    { intros x Rx tx Dx Bx Tx [SRx DRx] [Stx Dtx] [SDx DDx] PB' STx FT. split; [exact STx|]. intros idx I. rewrite STx in I. change [fnv M x; fnv M x; fno M x; fno M x] with (map (ksize (fno M x) (fnv M x)) (vo_kinds 2)) in I.
      rewrite FT, S6, DRx, Dtx, DDx by (rewrite ?SRx, ?Stx, ?SDx; exact I). f_equal. f_equal. f_equal. apply suml_ext. intros k Hk. apply in_seq in Hk.
      destruct (PB' k ltac:(lia)) as [SB' DB']. apply DB'. rewrite SB'. exact I. }
    split; [|split].
    + apply (PT FA RA t2A D2A BA TA); try assumption. intros k Hk. apply (AB k Hk).
    + apply (PT FB RB t2B D2B BB TB); try assumption. intros k Hk. apply (AB k Hk).
    + intros idx I X1 X2. rewrite S5 in I. rewrite S6. rewrite (RS idx) by (rewrite ?SR; assumption). rewrite (tS idx) by (rewrite ?(proj1 Ht); assumption).
      rewrite (suml_zero _ (seq 5 (n - 4)) (fun k => data (B k) idx)); [ring|]. intros k Hk. apply in_seq in Hk. apply (proj2 (proj2 (AB k ltac:(lia)))); [|exact X1|exact X2].
      rewrite (proj1 (bases_amp no nv g t2 Hg Ht B P HB k ltac:(lia))). exact I.
Qed.
Print Assumptions C19_xccd_size_consistent.
Local Notation dc ks t := (decouple two_frags 4 ks t).
Example C19_xccd_instance c w wA wB (Hc : cc_type c = "XCCD(9)") := C19_xccd_size_consistent 4 4 two_frags _ _ _ _ _ _ _ _ _ (i_den 2 4 4) _ _ c 9
  [("t2aa", dc (vo_kinds 2) (i_amp 2 4 4))] [("t2aa", take two_frags 4 FA (vo_kinds 2) (dc (vo_kinds 2) (i_amp 2 4 4)))] [("t2aa", take two_frags 4 FB (vo_kinds 2) (dc (vo_kinds 2) (i_amp 2 4 4)))]
  w wA wB two_frags_ok
  (decouple_fock two_frags 4 8 _ (i_fock_ok 8)) (decouple_tei two_frags 4 8 _ (i_tei_ok 8)) (decouple_amp two_frags 4 2 4 _ (i_amp_ok 2 4 4)) eq_refl
  (decouple_assembled two_frags 4 4 _ _ two_frags_ok) (decouple_assembled two_frags 4 4 _ _ two_frags_ok) (decouple_assembled two_frags 4 4 _ _ two_frags_ok)
  (take_part two_frags 4 FA _ _) (take_part two_frags 4 FB _ _) ltac:(lia) Hc eq_refl eq_refl eq_refl.
