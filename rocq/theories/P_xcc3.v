(** C66: the corrections B_5, B_6, ... of the XCCD(n) methods are projections of the adjoint cluster operator acting on
    commutators of the Hamiltonian with the cluster operator. *)
From Coq Require Import String Ascii List Arith NArith ZArith QArith Qcanon Bool Lia Permutation.
From Verif Require Import Sums Tensor Interp Numpy Poly SymExec Canon Spec Instances Setup Master Spin Check Tabs NF Antisym Formula Unround Fock Wick CCState P_fock Dress Commut NOrd Proj Elem P_antisym Asym P_fock2 P_fock3 P_qf P_fock4 Bound.
From Verif Require Import Diis Kernel SlowCC Cut P_xcc SpecDriver P_ccsd P_slow P_slow3 P_xcc2 BoundedInst.
From Verif Require Code_XCCDbasebuilder Code_antisym_t4resids.
Import ListNotations.
Open Scope string_scope.
Open Scope Qc_scope.

Section NumerOv.
  Variables no nv m : nat.
  Variable tab : atomtab.
  Notation range := (so_range no nv).
  Hypothesis OK : Forall (atom_ok range sy) tab.
  Hypothesis LAY : lay_ok m = true.
  Hypothesis TP : tpl_ok m = true.
  Hypothesis Hm : (0 < m)%nat.
  (** the same as [numer] for an array with its occupied indices first *)
  Lemma numer_ov n X ys U T p S : sy n = SD [m; m] true false -> is_op no nv (Aof range tab) X ys -> ctsum_ok m ys = true ->
    forallb (closed_term (xi m ++ xa m)) (ctsum m ys) = true -> so_vsim no nv tab (SP (ovs m) p) (VT U) ->
    proj_ok m n p = true -> proj_ok m n (ctsum m ys) = true ->
    so_chk [] (Some (SP [] (dotp m n p))) (Some (SP [] (dotp m n (ctsum m ys)))) ->
    antisymmetrised m U T -> shape S = (repeat no m ++ repeat nv m)%list -> entry no nv (X (Phi no nv)) m S -> teq T S.
  Proof using All.
    intros Hn HX CO CL VU P1 P2 CK AU HS HE.
    assert (AS : antisymmetrised m (carr no nv m tab (ctsum m ys)) S).
    { apply (elem_antis no nv m tab LAY TP ys (X (Phi no nv)) S HS HE); [|exact CO|exact CL]. intros e. apply (is_op_elem no nv (Aof range tab)), HX. }
    exact (so_proj no nv m LAY n tab p (ctsum m ys) U _ T S Hm Hn OK VU (carr_vsim no nv m LAY tab _ CL) AU AS P1 P2 CK).
  Qed.
End NumerOv.

(** *** The builders, cut at the antisymmetriser *)
Definition x3_args (pk : bool) : list sval :=
  ([at_ 3 [1;1;0;0]%N; SNone; xcc_info] ++ if pk then [swp 5 4 ov4] else [])%list.
Definition x3_pre (lib : list (string * fn)) (f : fn) (n : nat) (a : string) (pk : bool) : option (list sval) :=
  do e <- spre lib f n (x3_args pk); sevals so_slm (scall1 lib) e [EVar a; EVar "nocc"; EVar "nvir"].
Definition x3_poly lib f n a pk : poly := match x3_pre lib f n a pk with Some [SP _ p; _; _] => p | _ => [] end.
Definition x3_pre_ok lib f n a pk : bool :=
  match x3_pre lib f n a pk with
  | Some [SP s _; SDim d0; SDim d1] => (eqb_sps s ov4 && N.eqb d0 0 && N.eqb d1 1)%bool
  | _ => false
  end.
Definition x3_post lib f n pk : option sval := spost lib f n "t4" (at_ 8 ov4) (spre lib f n (x3_args pk)).
(** q times the sum over k,l,c,d of t[c,d,k,l] T[i,j,k,l,a,b,c,d] *)
Definition LT4 (no nv : nat) (q : Q) (t2 T : tensor) : tensor := arr4 nv nv no no (fun a b i j =>
  Q2Qc q * (Sum k < no, Sum l < no, Sum c < nv, Sum d < nv, data t2 [c;d;k;l] * data T [i;j;k;l;a;b;c;d])).
Definition p_LT4 (q : Q) : poly := Eval vm_compute in [mkterm "abij" "klcd" q [(3%N, "cdkl"); (8%N, "ijklabcd")]].

Section Cut3.
  Variables no nv : nat.
  Variables f g t2 t4 p : tensor.
  Hypothesis Hf : is_fock (no + nv) f.
  Hypothesis Hg : is_tei (no + nv) g.
  Hypothesis H2 : is_amp 2 no nv t2.
  Hypothesis H4 : is_amp 4 no nv t4.
  Hypothesis Hp : swapped 4 t4 p.
  Notation range := (so_range no nv).
  Definition tab3 : atomtab :=
    [(0%N, ([6;6]%N, f)); (1%N, ([6;6;6;6]%N, g)); (3%N, ([1;1;0;0]%N, t2)); (5%N, ([1;1;1;1;0;0;0;0]%N, t4))].
  Lemma tab3_ok : Forall (atom_ok range sy) tab3.
  Proof. unfold tab3. oks. Qed.
  Definition tab3T (T : tensor) : atomtab := (tab3 ++ [(8%N, (ov4, T))])%list.
  Lemma tab3T_ok T : shape T = xshape no nv -> Forall (atom_ok range sy) (tab3T T).
  Proof.
    intros HT. apply Forall_app. split; [exact tab3_ok|]. constructor; [|constructor].
    apply atom_ok_gen; [reflexivity|rewrite HT; apply xshape_ok].
  Qed.
  Lemma x3_vs tab pk : nlook 1%N tab = Some ([6;6;6;6]%N, g) -> nlook 3%N tab = Some ([1;1;0;0]%N, t2) -> nlook 5%N tab = Some ([1;1;1;1;0;0;0;0]%N, t4) ->
    Forall2 (so_vsim no nv tab) (x3_args pk) (xcc_vals no nv g t2 p pk).
  Proof.
    intros L1 L3 L5.
    assert (HI : so_vsim no nv tab xcc_info (contract_info no nv g)).
    { unfold xcc_info, contract_info. constructor.
      apply (ds_cons _ _ _ _ _ "nocc"); [apply so_dimO|]. apply (ds_cons _ _ _ _ _ "nvir"); [apply so_dimV|].
      apply (ds_cons _ _ _ _ _ "tamps"); [apply (v_zero_vo _ _ _ 2); [reflexivity|intros i; reflexivity]|].
      apply (ds_cons _ _ _ _ _ "ints"); [apply v_tei; [exact L1|exact Hg]|].
      apply (ds_cons _ _ _ _ _ "oa"); [apply v_o|]. apply (ds_cons _ _ _ _ _ "va"); [apply v_v|constructor]. }
    unfold x3_args, xcc_vals. cbn [app]. constructor; [eapply (v_amp _ _ _ _ 2); [exact L3|exact H2]|].
    constructor; [apply so_none|]. constructor; [exact HI|]. destruct pk; constructor; [|constructor].
    eapply (v_swap _ _ _ _ 4); [exact L5|exact H4|exact Hp].
  Qed.
  Lemma x3_cut lib fn n a pk : slook "antisym.antisym_t4_residual" lib = Some Code_antisym_t4resids.antisym_t4_residual ->
    nth_error (fbody fn) n = Some (SAssign "t4" (ECall "antisym.antisym_t4_residual" [EVar a; EVar "nocc"; EVar "nvir"])) ->
    x3_pre_ok lib fn n a pk = true ->
    exists U T, so_vsim no nv tab3 (SP ov4 (x3_poly lib fn n a pk)) (VT U) /\ antisymmetrised 4 U T /\ shape T = xshape no nv /\
      forall r, x3_post lib fn n pk = Some r -> exists R, run 1 lib fn (xcc_vals no nv g t2 p pk) = Some R /\ so_vsim no nv (tab3T T) r R.
  Proof.
    intros HL Hn HP. unfold x3_pre_ok, x3_poly in *. destruct (x3_pre lib fn n a pk) as [l|] eqn:EP; [|discriminate].
    destruct l as [|[s q| | | | |] [|[| | |d0| |] [|[| | |d1| |] [|]]]]; try discriminate.
    rewrite !andb_true_iff in HP. destruct HP as [[E1 E2] E3]. apply eqb_sps_eq in E1. apply N.eqb_eq in E2, E3. subst s d0 d1.
    destruct (so_cut no nv lib tab3 fn n (x3_args pk) (xcc_vals no nv g t2 p pk) "t4" _ _ a "nocc" "nvir" ov4 q Hn HL
                (x3_vs tab3 pk eq_refl eq_refl eq_refl) EP) as [U [VU [SU HU]]].
    destruct (proj2 (proj2 (proj2 (proj2 C21_antisymmetrisers))) no nv U) as [T [HT [AT _]]].
    { rewrite SU, <- xshape_ok. reflexivity. }
    assert (ST : shape T = xshape no nv) by (rewrite (proj1 AT), SU, <- xshape_ok; reflexivity).
    exists U, T. split; [exact VU|]. split; [exact AT|]. split; [exact ST|]. intros r ER.
    apply (HU T HT (tab3T T) (at_ 8 ov4)); [apply x3_vs; reflexivity| |exact ER].
    apply so_atom; [reflexivity|]. rewrite ST. apply xshape_ok.
  Qed.
  (** a builder whose last step is a multiple of the contraction with the amplitudes *)
  Lemma x3_builder lib fn n a pk X ys : slook "antisym.antisym_t4_residual" lib = Some Code_antisym_t4resids.antisym_t4_residual ->
    nth_error (fbody fn) n = Some (SAssign "t4" (ECall "antisym.antisym_t4_residual" [EVar a; EVar "nocc"; EVar "nvir"])) ->
    x3_pre_ok lib fn n a pk = true -> is_op no nv (Aof range tab3) X ys -> ctsum_ok 4 ys = true ->
    forallb (closed_term (xi 4 ++ xa 4)) (ctsum 4 ys) = true ->
    proj_ok 4 51 (x3_poly lib fn n a pk) = true -> proj_ok 4 51 (ctsum 4 ys) = true ->
    so_chk [] (Some (SP [] (dotp 4 51 (x3_poly lib fn n a pk)))) (Some (SP [] (dotp 4 51 (ctsum 4 ys)))) ->
    exists T, teq T (elem4_ov no nv (X (Phi no nv))) /\
      forall r, x3_post lib fn n pk = Some r -> exists R, run 1 lib fn (xcc_vals no nv g t2 p pk) = Some R /\ so_vsim no nv (tab3T T) r R.
  Proof.
    intros HL Hn HP HX CO CL P1 P2 CK. destruct (x3_cut lib fn n a pk HL Hn HP) as [U [T [VU [AU [ST HR]]]]]. exists T. split; [|exact HR].
    exact (numer_ov no nv 4 tab3 tab3_ok eq_refl tpl4 ltac:(lia) 51%N X ys U T _ (elem4_ov no nv (X (Phi no nv))) eq_refl HX CO CL VU P1 P2 CK AU eq_refl (ent4 no nv _)).
  Qed.
  Lemma LT4_vs q T : so_vsim no nv (tab3T T) (SP [1;1;0;0]%N (p_LT4 q)) (VT (LT4 no nv q t2 T)).
  Proof. unfold tab3T, tab3, p_LT4, LT4. cbn [app]. so_form. Qed.
End Cut3.

Ltac vm_true := vm_cast_no_check (@eq_refl bool true).
(** the adjoint of T2, symbolically *)
Definition l2s : list oterm :=
  [OT (1 # 4) [hv 0 0; hv 0 1; hv 1 2; hv 1 3] [(3%N, [hv 1 2; hv 1 3; hv 0 0; hv 0 1])] [(true, hv 0 0); (true, hv 0 1); (false, hv 1 3); (false, hv 1 2)]].
Definition ts4 (c : nat) : list oterm := [tot 4 5 (1 # 576) c].
Lemma ts4_c : forall c, (c < 10)%nat -> forallb cterm (ts4 c) = true.
Proof. intros c H. do 10 (destruct c as [|c]; [reflexivity|]). lia. Qed.
Definition lT2 : list oterm := adh ts2 0 l2s.
Definition lT2T4 : list oterm := adh ts4 1 lT2.
Lemma lT2_ok : adh_ok ts2 0 l2s = true. Proof. vm_true. Qed.
Lemma lT2T4_ok : adh_ok ts4 1 lT2 = true. Proof. vm_true. Qed.
Definition xlib7 : list (string * fn) := map (fun p => (fst p, unround_fn (snd p))) xcc_lib.
Section Orders.
  Variables no nv : nat.
  Variables f g t2 : tensor.
  Hypothesis Hf : is_fock (no + nv) f.
  Hypothesis Hg : is_tei (no + nv) g.
  Hypothesis H2 : is_amp 2 no nv t2.
  Notation H := (Ham no nv f g).
  Notation T2 := (T2op no nv t2).
  Definition Qop : op := oscale (1 # 2) (comm (comm H T2) T2).
  Definition Cop : op := oscale (1 # 6) (comm (comm (comm H T2) T2) T2).
  Definition z4 : tensor := mkT [nv; nv; nv; nv; no; no; no; no] (fun _ => 0).
  Lemma z4_ok : is_amp 4 no nv z4.
  Proof using. split; [reflexivity|]. intros i _. split; intros pre x y post0 _ _ _; unfold z4; cbn [data]; ring. Qed.
  Notation p4 := (swap_t 4 z4).
  (** from the last contraction to the projection *)
  Lemma proj_of fn n (pk : bool) lib t4 p q r T X : is_amp 4 no nv t4 -> teq T (elem4_ov no nv (X (Phi no nv))) ->
    (forall r, x3_post lib fn n pk = Some r -> exists R, run 1 lib fn (xcc_vals no nv g t2 p pk) = Some R /\ so_vsim no nv (tab3T f g t2 t4 T) r R) ->
    x3_post lib fn n pk = Some (SP [1;1;0;0]%N r) -> so_chk [1;1;0;0]%N (Some (SP [1;1;0;0]%N r)) (Some (SP [1;1;0;0]%N (p_LT4 q))) ->
    exists R, returns 1 lib fn (xcc_vals no nv g t2 p pk) R /\ teq R (LT4 no nv q t2 (elem4_ov no nv (X (Phi no nv)))).
  Proof using Hf Hg H2.
    intros H4 ET HR ER CK. destruct (HR _ ER) as [R [HR' VR]]. inversion VR as [? ? R' TR| | | | |]; subst. exists R'. split; [exact HR'|].
    assert (OKT := tab3T_ok no nv f g t2 t4 Hf Hg H2 H4 T (proj1 ET)).
    pose proof (so_vs_eq no nv _ OKT [1;1;0;0]%N _ _ _ _ VR (LT4_vs no nv f g t2 t4 q T) CK) as [SE DE].
    split; [exact SE|]. intros idx I. rewrite (DE idx I). rewrite SE in I. unfold LT4, arr4 in I. cbn [shape] in I. idx_ I.
    unfold LT4, arr4. cbn [data]. f_equal. apply suml_ext. intros k Hk. apply suml_ext. intros l Hl. apply suml_ext. intros c Hc. apply suml_ext. intros d Hd. f_equal.
    apply in_seq in Hk, Hl, Hc, Hd. rewrite (proj2 ET); [reflexivity|]. rewrite (proj1 ET). cbn [shape elem4_ov]. unfold elem4_ov. cbn [shape]. repeat constructor; lia.
  Qed.
  Lemma order5 : exists R, returns 1 xcc_lib Code_XCCDbasebuilder.build_XCCDbase_5 (xcc_vals no nv g t2 p4 false) R /\
    teq R (LT4 no nv (1 # 8) t2 (elem4_ov no nv (Qop (Phi no nv)))).
  Proof using Hf Hg H2.
    destruct (x3_builder no nv f g t2 z4 p4 Hf Hg H2 z4_ok (swap_t_ok 4 _) xcc_lib Code_XCCDbasebuilder.build_XCCDbase_5 15 "Roooovvvv" false Qop hQ) as [T [ET HR]].
    - reflexivity.
    - reflexivity.
    - vm_true.
    - apply hQ_op; reflexivity.
    - vm_true.
    - vm_true.
    - vm_true.
    - vm_true.
    - chk_.
    - eapply (proj_of _ _ _ _ z4 p4 (1 # 8) _ T Qop z4_ok ET HR); [vm_compute; reflexivity|chk_].
  Qed.
  Lemma order6 : exists R, returns 1 xcc_lib Code_XCCDbasebuilder.build_XCCDbase_6 (xcc_vals no nv g t2 p4 false) R /\
    teq R (LT4 no nv (1 # 8) t2 (elem4_ov no nv (Cop (Phi no nv)))).
  Proof using Hf Hg H2.
    destruct (x3_builder no nv f g t2 z4 p4 Hf Hg H2 z4_ok (swap_t_ok 4 _) xcc_lib Code_XCCDbasebuilder.build_XCCDbase_6 15 "Roooovvvv" false Cop hC) as [T [ET HR]].
    - reflexivity.
    - reflexivity.
    - vm_true.
    - apply hC_op; reflexivity.
    - vm_true.
    - vm_true.
    - vm_true.
    - vm_true.
    - chk_.
    - eapply (proj_of _ _ _ _ z4 p4 (1 # 8) _ T Cop z4_ok ET HR); [vm_compute; reflexivity|chk_].
  Qed.
  Lemma dump5 : exists P, returns 1 xcc_lib Code_XCCDbasebuilder.build_XCCDbase_5_dump (xcc_vals no nv g t2 p4 false) P /\
    teq P (elem4_ov no nv (Qop (Phi no nv))).
  Proof using Hf Hg H2.
    destruct (x3_builder no nv f g t2 z4 p4 Hf Hg H2 z4_ok (swap_t_ok 4 _) xcc_lib Code_XCCDbasebuilder.build_XCCDbase_5_dump 15 "Roooovvvv" false Qop hQ) as [T [ET HR]].
    - reflexivity.
    - reflexivity.
    - vm_true.
    - apply hQ_op; reflexivity.
    - vm_true.
    - vm_true.
    - vm_true.
    - vm_true.
    - chk_.
    - destruct (HR (at_ 8 ov4)) as [R [HR' VR]]; [vm_compute; reflexivity|]. inversion VR as [? ? R' TR| | | | |]; subst. exists R'. split; [exact HR'|].
      assert (VT8 : so_vsim no nv (tab3T f g t2 z4 T) (at_ 8 ov4) (VT T)).
      { apply so_atom; [reflexivity|]. rewrite (proj1 ET). apply xshape_ok. }
      assert (OKT := tab3T_ok no nv f g t2 z4 Hf Hg H2 z4_ok T (proj1 ET)).
      assert (E : teq R' T) by (eapply (so_vs_eq no nv _ OKT ov4); [exact VR|exact VT8|]; chk_).
      split; [rewrite (proj1 E); exact (proj1 ET)|]. intros idx I. rewrite (proj2 E idx I). apply ET. rewrite <- (proj1 E). exact I.
  Qed.
  Section Seven.
    Variables t4 p : tensor.
    Hypothesis H4 : is_amp 4 no nv t4.
    Hypothesis Hp : swapped 4 t4 p.
    Notation L2 := (L2op no nv (swap_t 2 t2)).
    Notation T4 := (T4op no nv t4).
    Notation A := (Aof (so_range no nv) (tab3 f g t2 t4)).
    Lemma l2_op : is_op no nv A L2 l2s.
    Proof using.
      intros e psi n _. unfold Wick.osem, L2op, l2s. cbn [suml]. rewrite Qcplus_0_r. unfold Wick.oact. cbn [oc]. f_equal. cbn [od ofs oo sumD].
      apply suml_ext. intros i Hi. apply suml_ext. intros j Hj. rewrite <- suml_seqV. apply suml_ext. intros a Ha. rewrite <- suml_seqV. apply suml_ext. intros b Hb.
      apply in_seq in Hi, Hj, Ha, Hb. cbn [evalFs]. rewrite Qcmult_1_r. f_equal.
      symmetry. exact (read_t2 no nv (tab3 f g t2 t4) 3%N t2 eq_refl a b i j ltac:(lia) ltac:(lia) ltac:(lia) ltac:(lia)).
    Qed.
    Definition Sop : op := comm (comm L2 T2) T4.
    Lemma lT2T4_op : is_op no nv A Sop lT2T4.
    Proof using.
      apply (comm_is_op no nv A ts4 ts4_c T4); [|lia|exact lT2T4_ok|].
      - intros e c psi n HC. unfold Wick.osem. cbn [ts4 suml]. rewrite Qcplus_0_r. apply tot4_sem; [|exact HC]. intros. apply (read_t4 no nv (tab3 f g t2 t4) 5%N); auto.
      - apply (comm_is_op no nv A ts2 ts2_c T2); [|lia|exact lT2_ok|exact l2_op]. apply (t2_sem no nv (tab3 f g t2 t4) t2 eq_refl).
    Qed.
    Lemma order7 : exists R, returns 1 xlib7 Code_XCCDbasebuilder.build_XCCDbase_7 (xcc_vals no nv g t2 p true) R /\
      teq R (LT4 no nv (1 # 24) t2 (elem4_ov no nv (Sop (Phi no nv)))).
    Proof using Hf Hg H2 H4 Hp.
      destruct (x3_builder no nv f g t2 t4 p Hf Hg H2 H4 Hp xlib7 Code_XCCDbasebuilder.build_XCCDbase_7 15 "Roooovvvv" true Sop lT2T4) as [T [ET HR]].
      - vm_compute. reflexivity.
      - reflexivity.
      - vm_true.
      - exact lT2T4_op.
      - vm_true.
      - vm_true.
      - vm_true.
      - vm_true.
      - chk_.
      - eapply (proj_of _ _ _ _ t4 p (1 # 24) _ T Sop H4 ET HR); [vm_compute; reflexivity|chk_].
    Qed.
  End Seven.
End Orders.

(** *** The statements *)
(** the adjoint of T2: the de-excitation operator with l[i,j,a,b] = t[a,b,i,j] *)
Definition T2adj (no nv : nat) (t2 : tensor) : op := L2op no nv (swap_t 2 t2).
Definition omul (X Y : op) : op := fun psi => X (Y psi).

Lemma bra2_scale no nv a b i j c psi : bra2 no nv a b i j (fun n => c * psi n) = c * bra2 no nv a b i j psi.
Proof. exact (act_scale [(true, i); (true, j); (false, no + b); (false, no + a)]%nat c psi (ref no nv)). Qed.
Lemma LT4_elem no nv q h t2 X : Q2Qc q = Q2Qc h * Q2Qc (1 # 4) ->
  teq (LT4 no nv q t2 (elem4_ov no nv (X (Phi no nv)))) (elem2 no nv (oscale h (omul (T2adj no nv t2) X) (Phi no nv))).
Proof.
  intros EQ. split; [reflexivity|]. intros idx I. unfold LT4, arr4 in I. cbn [shape] in I. idx_ I. unfold LT4, arr4, elem2. cbn [data].
  unfold oscale, omul, T2adj. rewrite bra2_scale, bra2_L2 by assumption. rewrite EQ, <- Qcmult_assoc. reflexivity.
Qed.
Lemma teq_tr a b c : teq a b -> teq b c -> teq a c.
Proof. intros [S1 D1] [S2 D2]. split; [congruence|]. intros idx I. rewrite (D1 idx I). apply D2. rewrite <- S1. exact I. Qed.

(** C66, the arrays.  B_5 and B_6 are one half of the projections of L2 Q |Phi> and L2 C |Phi> onto the doubly excited determinants, with
    L2 the adjoint of T2, Q = 1/2 [[H,T2],T2] and C = 1/6 [[[H,T2],T2],T2], and the file written with B_5 holds <Phi_ijkl^abcd| Q |Phi>. *)
Theorem C66_xccd_orders_5_6 : forall no nv f g t2,
  is_fock (no + nv) f -> is_tei (no + nv) g -> is_amp 2 no nv t2 ->
  let H := Ham no nv f g in
  let T2 := T2op no nv t2 in
  let L2 := T2adj no nv t2 in
  let Q := oscale (1 # 2) (comm (comm H T2) T2) in
  let C := oscale (1 # 6) (comm (comm (comm H T2) T2) T2) in
  exists B5 B6 P, (forall w, xcc_base no nv g 5 t2 w = Some (B5, Some P)) /\ (forall w, xcc_base no nv g 6 t2 w = Some (B6, w)) /\
    teq B5 (elem2 no nv (oscale (1 # 2) (omul L2 Q) (Phi no nv))) /\
    teq B6 (elem2 no nv (oscale (1 # 2) (omul L2 C) (Phi no nv))) /\
    teq P (elem4_ov no nv (Q (Phi no nv))).
Proof.
  intros no nv f g t2 Hf Hg H2 H T2 L2 Q C.
  destruct (order5 no nv f g t2 Hf Hg H2) as [B5 [R5 E5]]. destruct (order6 no nv f g t2 Hf Hg H2) as [B6 [R6 E6]].
  destruct (dump5 no nv f g t2 Hf Hg H2) as [P [RP EP]]. exists B5, B6, P. split; [|split; [|split; [|split]]].
  - intros w. unfold xcc_base, call1. change [VT t2; VNone; contract_info no nv g] with (xcc_vals no nv g t2 (swap_t 4 (z4 no nv)) false).
    rewrite R5. cbn [obind asT]. rewrite RP. reflexivity.
  - intros w. unfold xcc_base, call1. change [VT t2; VNone; contract_info no nv g] with (xcc_vals no nv g t2 (swap_t 4 (z4 no nv)) false).
    rewrite R6. reflexivity.
  - eapply teq_tr; [exact E5|]. apply LT4_elem. apply Qc_is_canon. reflexivity.
  - eapply teq_tr; [exact E6|]. apply LT4_elem. apply Qc_is_canon. reflexivity.
  - exact EP.
Qed.
Print Assumptions C66_xccd_orders_5_6.
Example C66_xccd_orders_5_6_instance := C66_xccd_orders_5_6 4 4 _ _ _ (i_fock_ok 8) (i_tei_ok 8) (i_amp_ok 2 4 4).

(** C66, order 7.  Reading the nine-digit coefficients as the fractions they abbreviate, B_7 is 1/6 of the projection of
    L2 [[L2,T2],Q4] |Phi>, where Q4 is the cluster operator whose amplitudes are the array stored in the file. *)
Theorem C66_xccd_order_7 : forall no nv g t2 t4 p,
  is_tei (no + nv) g -> is_amp 2 no nv t2 -> is_amp 4 no nv t4 -> swapped 4 t4 p ->
  let T2 := T2op no nv t2 in
  let L2 := T2adj no nv t2 in
  let Q4 := T4op no nv t4 in
  exists B7, returns 1 (map (fun d => (fst d, unround_fn (snd d))) xcc_lib) Code_XCCDbasebuilder.build_XCCDbase_7
      [VT t2; VNone; contract_info no nv g; VT p] B7 /\
    teq B7 (elem2 no nv (oscale (1 # 6) (omul L2 (comm (comm L2 T2) Q4)) (Phi no nv))).
Proof.
  intros no nv g t2 t4 p Hg H2 H4 Hp T2 L2 Q4.
  destruct (order7 no nv (i_fock (no + nv)) g t2 (i_fock_ok _) Hg H2 t4 p H4 Hp) as [B7 [R7 E7]].
  exists B7. split; [exact R7|]. eapply teq_tr; [exact E7|]. apply LT4_elem. apply Qc_is_canon. reflexivity.
Qed.
Print Assumptions C66_xccd_order_7.
Example C66_xccd_order_7_instance := C66_xccd_order_7 4 4 _ _ _ _ (i_tei_ok 8) (i_amp_ok 2 4 4) (i_amp_ok 4 4 4) (swap_t_ok 4 _).

(** C66, order 7 as coded, with the file written by order 5 for the same amplitudes. *)
Definition p_post7 : poly := Eval vm_compute in match x3_post xlib7 Code_XCCDbasebuilder.build_XCCDbase_7 15 true with Some (SP _ p) => p | _ => [] end.
Lemma LT4_close no nv q t2 T T' N M eps : (no <= N)%nat -> (nv <= N)%nat -> shape t2 = [nv; nv; no; no] -> shape T = xshape no nv ->
  (0 <= q)%Q -> 0 <= M -> 0 <= eps -> bounded M t2 -> close eps T T' ->
  close (Q2Qc q * (qn N ^ 4 * (M * eps))) (LT4 no nv q t2 T) (LT4 no nv q t2 T').
Proof.
  intros HO HV S2 ST Q0 M0 E0 BT [_ CT]. split; [reflexivity|]. intros idx I. unfold LT4, arr4 in I. cbn [shape] in I. idx_ I. unfold LT4, arr4. cbn [data].
  match goal with |- Qcabs.Qcabs (?c * ?x - ?c * ?y) <= _ => replace (c * x - c * y) with (c * (x - y)) by ring end.
  assert (PQ : 0 <= Q2Qc q) by (unfold Qcle; cbn [this Q2Qc]; rewrite !Qred_correct; exact Q0).
  rewrite Qcabs.Qcabs_Qcmult, (Qcabs.Qcabs_pos (Q2Qc q)) by exact PQ. rewrite (Qcmult_comm (Q2Qc q)), (Qcmult_comm (Q2Qc q)).
  apply Qcmult_le_compat_r; [|exact PQ].
  assert (LE : forall n B F, (n <= N)%nat -> 0 <= B -> (forall z, (z < n)%nat -> Qcabs.Qcabs (F z) <= B) -> Qcabs.Qcabs (suml (seq 0 n) F) <= qn N * B).
  { intros n B F Hn HB HF. eapply Qcle_trans; [apply (suml_abs (seq 0 n) F B HB); intros z Hz; apply in_seq in Hz; apply HF; exact (proj2 Hz)|].
    rewrite seq_length. apply Qcmult_le_compat_r; [|exact HB]. apply qn_le. exact Hn. }
  assert (P0 : 0 <= M * eps) by (apply Qcmult_nonneg; assumption).
  replace (qn N ^ 4 * (M * eps)) with (qn N * (qn N * (qn N * (qn N * (M * eps))))) by (cbn [Qcpower]; ring).
  rewrite <- suml_minus2. apply LE; [lia|repeat apply Qcmult_nonneg; try apply qn_pos; assumption|]. intros k Hk.
  rewrite <- suml_minus2. apply LE; [lia|repeat apply Qcmult_nonneg; try apply qn_pos; assumption|]. intros l Hl.
  rewrite <- suml_minus2. apply LE; [lia|repeat apply Qcmult_nonneg; try apply qn_pos; assumption|]. intros c Hc.
  rewrite <- suml_minus2. apply LE; [lia|exact P0|]. intros d Hd.
  match goal with |- Qcabs.Qcabs (?c * ?x - ?c * ?y) <= _ => replace (c * x - c * y) with (c * (x - y)) by ring end.
  rewrite Qcabs.Qcabs_Qcmult. apply Qcle_trans with (M * Qcabs.Qcabs (data T [x1; x2; k; l; x; x0; c; d] - data T' [x1; x2; k; l; x; x0; c; d])).
  - apply Qcmult_le_compat_r; [|apply Qcabs.Qcabs_nonneg]. apply BT. rewrite S2. repeat constructor; assumption.
  - rewrite !(Qcmult_comm M). apply Qcmult_le_compat_r; [|exact M0]. apply CT. rewrite ST. repeat constructor; assumption.
Qed.

Definition fock0 (n : nat) : tensor := mkT [n; n] (fun _ => 0).
Lemma fock0_ok n : is_fock n (fock0 n).
Proof. split; [reflexivity|]. intros x y Hx Hy. reflexivity. Qed.
Theorem C66_xccd_order_7_bound : forall no nv g t2 t4 p M,
  is_tei (no + nv) g -> is_amp 2 no nv t2 -> is_amp 4 no nv t4 -> swapped 4 t4 p ->
  (1 <= no + nv)%nat -> 1 <= M -> bounded M g -> bounded M t2 -> bounded M t4 ->
  let T2 := T2op no nv t2 in
  let L2 := T2adj no nv t2 in
  let Q4 := T4op no nv t4 in
  exists B7, xcc_base no nv g 7 t2 (Some p) = Some (B7, Some p) /\
    close (Q2Qc (1 # 10000000) * qn (no + nv) ^ 8 * M ^ 4) B7 (elem2 no nv (oscale (1 # 6) (omul L2 (comm (comm L2 T2) Q4)) (Phi no nv))).
Proof.
  intros no nv g t2 t4 p M Hg H2 H4 Hp HN HM Bg B2 B4 T2 L2 Q4.
  set (f := fock0 (no + nv)). pose proof (fock0_ok (no + nv)) as Hf. fold f in Hf.
  assert (M0 : 0 <= M) by (eapply Qcle_trans; [apply Qcle_0_1|exact HM]).
  assert (HB : Forall (fun a : BinNums.N * (list space * tensor) => bounded M (snd (snd a))) (tab3 f g t2 t4)).
  { unfold tab3. repeat constructor; cbn [snd]; try assumption. intros idx _. cbn [f fock0 data]. rewrite Qcabs.Qcabs_pos by apply Qcle_refl. exact M0. }
  destruct (order7 no nv f g t2 Hf Hg H2 t4 p H4 Hp) as [B7' [R7' E7']].
  destruct (x3_cut no nv f g t2 t4 p Hg H2 H4 Hp xcc_lib Code_XCCDbasebuilder.build_XCCDbase_7 15 "Roooovvvv" true) as [U [T [VU [AU [ST HR]]]]]; [reflexivity|reflexivity|vm_true|].
  destruct (x3_cut no nv f g t2 t4 p Hg H2 H4 Hp xlib7 Code_XCCDbasebuilder.build_XCCDbase_7 15 "Roooovvvv" true) as [U' [T' [VU' [AU' [ST' HR']]]]]; [vm_compute; reflexivity|reflexivity|vm_true|].
  assert (CU : close (Q2Qc (1 # 400000000) * qn (no + nv) ^ 4 * M ^ 3) U U').
  { eapply (so_vs_close no nv (tab3 f g t2 t4) (tab3_ok no nv f g t2 t4 Hf Hg H2 H4) (no + nv) M (le_n _) HN HM HB); [exact VU|exact VU'|]. cchk_. }
  assert (P0 : 0 <= Q2Qc (1 # 400000000) * qn (no + nv) ^ 4 * M ^ 3).
  { apply Qcmult_nonneg; [apply Qcmult_nonneg|]; [discriminate|apply Qcpow_nonneg, qn_pos|apply Qcpow_nonneg, M0]. }
  pose proof (antis_close 4 no nv _ U U' T T' ltac:(rewrite <- (proj1 AU), ST; reflexivity) P0 CU AU AU') as CT.
  set (eps := qn (fact 4) * (qn (fact 4) * (Q2Qc (1 # 400000000) * qn (no + nv) ^ 4 * M ^ 3))) in CT.
  assert (E0 : 0 <= eps) by (unfold eps; apply Qcmult_nonneg; [apply qn_pos|apply Qcmult_nonneg; [apply qn_pos|exact P0]]).
  pose proof (LT4_close no nv (1 # 24) t2 T T' (no + nv) M eps ltac:(lia) ltac:(lia) (proj1 H2) ST ltac:(discriminate) M0 E0 B2 CT) as CL.
  (* the two runs *)
  assert (E1 : x3_post xcc_lib Code_XCCDbasebuilder.build_XCCDbase_7 15 true = Some (SP [1;1;0;0]%N p_post7)) by (vm_compute; reflexivity).
  assert (E2 : x3_post xlib7 Code_XCCDbasebuilder.build_XCCDbase_7 15 true = Some (SP [1;1;0;0]%N p_post7)) by (vm_compute; reflexivity).
  assert (CK7 : so_chk [1;1;0;0]%N (Some (SP [1;1;0;0]%N p_post7)) (Some (SP [1;1;0;0]%N (p_LT4 (1 # 24))))) by chk_.
  assert (RUN : forall lib T0, shape T0 = xshape no nv ->
     (forall r, x3_post lib Code_XCCDbasebuilder.build_XCCDbase_7 15 true = Some r -> exists R, run 1 lib Code_XCCDbasebuilder.build_XCCDbase_7 (xcc_vals no nv g t2 p true) = Some R /\ so_vsim no nv (tab3T f g t2 t4 T0) r R) ->
     forall r, x3_post lib Code_XCCDbasebuilder.build_XCCDbase_7 15 true = Some (SP [1;1;0;0]%N r) -> so_chk [1;1;0;0]%N (Some (SP [1;1;0;0]%N r)) (Some (SP [1;1;0;0]%N (p_LT4 (1 # 24)))) ->
     exists R, returns 1 lib Code_XCCDbasebuilder.build_XCCDbase_7 (xcc_vals no nv g t2 p true) R /\ teq R (LT4 no nv (1 # 24) t2 T0)).
  { intros lib T0 S0 HR0 r ER CK. destruct (HR0 _ ER) as [R [HR1 VR]]. inversion VR as [? ? R' TR| | | | |]; subst. exists R'. split; [exact HR1|].
    exact (so_vs_eq no nv _ (tab3T_ok no nv f g t2 t4 Hf Hg H2 H4 T0 S0) [1;1;0;0]%N _ _ _ _ VR (LT4_vs no nv f g t2 t4 (1 # 24) T0) CK). }
  destruct (RUN xcc_lib T ST HR p_post7 E1 CK7) as [B [RB EB]].
  destruct (RUN xlib7 T' ST' HR' p_post7 E2 CK7) as [B' [RB' EB']].
  assert (B7' = B') as -> by (unfold returns in *; congruence).
  exists B. split.
  { unfold xcc_base. cbn [obind]. unfold call1. change [VT t2; VNone; contract_info no nv g; VT p] with (xcc_vals no nv g t2 p true). rewrite RB. reflexivity. }
  assert (E7 : teq B' (elem2 no nv (oscale (1 # 6) (omul L2 (comm (comm L2 T2) Q4)) (Phi no nv)))).
  { eapply teq_tr; [exact E7'|]. apply LT4_elem. apply Qc_is_canon. reflexivity. }
  split; [rewrite (proj1 EB); reflexivity|]. intros idx I.
  assert (I' : inr idx (shape B')) by (rewrite (proj1 EB'); rewrite (proj1 EB) in I; exact I).
  rewrite <- (proj2 E7 idx I'), (proj2 EB idx I), (proj2 EB' idx I').
  eapply Qcle_trans; [apply CL; rewrite (proj1 EB) in I; exact I|].
  match goal with |- ?x <= _ => replace x with (Q2Qc (6 # 100000000) * (qn (no + nv) ^ 8 * M ^ 4)) end.
  - rewrite <- (Qcmult_assoc (Q2Qc (1 # 10000000))). apply Qcmult_le_compat_r; [discriminate|]. apply Qcmult_nonneg; apply Qcpow_nonneg; [apply qn_pos|exact M0].
  - unfold eps. change (qn (fact 4)) with (Q2Qc 24). set (N := qn (no + nv)).
    replace (N ^ 8) with (N ^ 4 * N ^ 4) by (cbn [Qcpower]; ring). replace (M ^ 4) with (M * M ^ 3) by (cbn [Qcpower]; ring).
    replace (Q2Qc (6 # 100000000)) with (Q2Qc (1 # 24) * (Q2Qc 24 * (Q2Qc 24 * Q2Qc (1 # 400000000)))) by (apply Qc_is_canon; reflexivity). ring.
Qed.
Print Assumptions C66_xccd_order_7_bound.
Example C66_xccd_order_7_bound_instance : exists M B7, 1 <= M /\ xcc_base 4 4 (i_tei 8) 7 (i_amp 2 4 4) (Some (swap_t 4 (i_amp 4 4 4))) = Some (B7, Some (swap_t 4 (i_amp 4 4 4))) /\
  close (Q2Qc (1 # 10000000) * qn 8 ^ 8 * M ^ 4) B7 (elem2 4 4 (oscale (1 # 6) (omul (T2adj 4 4 (i_amp 2 4 4))
    (comm (comm (T2adj 4 4 (i_amp 2 4 4)) (T2op 4 4 (i_amp 2 4 4))) (T4op 4 4 (i_amp 4 4 4)))) (Phi 4 4))).
Proof.
  destruct (bounded_all [i_tei 8; i_amp 2 4 4; i_amp 4 4 4]) as [M [M1 MB]]. inversion MB as [|? ? B1 MB1]; subst. inversion MB1 as [|? ? B2 MB2]; subst. inversion MB2 as [|? ? B3 _]; subst.
  destruct (C66_xccd_order_7_bound 4 4 _ _ _ _ M (i_tei_ok 8) (i_amp_ok 2 4 4) (i_amp_ok 4 4 4) (swap_t_ok 4 _) ltac:(lia) M1 B1 B2 B3) as [B7 [E1 E2]].
  exists M, B7. split; [exact M1|]. split; [exact E1|exact E2].
Qed.

Lemma bra2_oplus no nv a b i j X Y psi : bra2 no nv a b i j (oplus X Y psi) = bra2 no nv a b i j (X psi) + bra2 no nv a b i j (Y psi).
Proof.
  pose proof (act_suml [(true, i); (true, j); (false, no + b); (false, no + a)]%nat [X psi; Y psi] (fun (x : ket) m => x m) (ref no nv)) as E. cbn [suml] in E.
  rewrite Qcplus_0_r in E. refine (eq_trans (act_ext [(true, i); (true, j); (false, no + b); (false, no + a)]%nat (oplus X Y psi) _ _ (ref no nv)) E).
  intros m. unfold oplus. rewrite Qcplus_0_r. reflexivity.
Qed.
Lemma suml_swap3 {A B C} (la : list A) (lb : list B) (lc : list C) (F : A -> B -> C -> Qc) :
  suml la (fun a => suml lb (fun b => suml lc (fun c => F a b c))) = suml lc (fun c => suml la (fun a => suml lb (fun b => F a b c))).
Proof. rewrite (suml_swap _ _ lc la). apply suml_ext. intros a _. apply suml_swap. Qed.
Lemma quarter_L2 no nv t2 B chi : (forall a b i j, (a < nv)%nat -> (b < nv)%nat -> (i < no)%nat -> (j < no)%nat -> data B [a; b; i; j] = bra2 no nv a b i j chi) ->
  quarter no nv (fun a b i j => data t2 [a; b; i; j]) B = bra0 no nv (T2adj no nv t2 chi).
Proof.
  intros HB. unfold T2adj. rewrite bra0_L2. unfold quarter. f_equal.
  rewrite suml_swap3. apply suml_ext. intros i Hi. rewrite suml_swap3. apply suml_ext. intros j Hj. apply suml_ext. intros a Ha. apply suml_ext. intros b Hb.
  apply in_seq in Hi, Hj, Ha, Hb. rewrite HB by lia. reflexivity.
Qed.
(** The corrections of the methods XCCD(5) and XCCD(6): 1/2 L2 Q |Phi>, and 1/2 L2 (Q + C) |Phi>. *)
Definition xccd_ket (six : bool) (no nv : nat) (f g t2 : tensor) : ket :=
  let H := Ham no nv f g in
  let T2 := T2op no nv t2 in
  let L2 := T2adj no nv t2 in
  let Q := oscale (1 # 2) (comm (comm H T2) T2) in
  let C := oscale (1 # 6) (comm (comm (comm H T2) T2) T2) in
  oscale (1 # 2) (if six then oplus (omul L2 Q) (omul L2 C) else omul L2 Q) (Phi no nv).

Lemma xccd_ket_elem six no nv f g t2 a b i j B5 B6 : (a < nv)%nat -> (b < nv)%nat -> (i < no)%nat -> (j < no)%nat ->
  let H := Ham no nv f g in
  let T2 := T2op no nv t2 in
  let L2 := T2adj no nv t2 in
  let Q := oscale (1 # 2) (comm (comm H T2) T2) in
  let C := oscale (1 # 6) (comm (comm (comm H T2) T2) T2) in
  teq B5 (elem2 no nv (oscale (1 # 2) (omul L2 Q) (Phi no nv))) -> teq B6 (elem2 no nv (oscale (1 # 2) (omul L2 C) (Phi no nv))) ->
  bra2 no nv a b i j (xccd_ket six no nv f g t2) = data B5 [a; b; i; j] + (if six then data B6 [a; b; i; j] else 0).
Proof.
  intros Ha Hb Hi Hj H T2 L2 Q C [S5 E5] [S6 E6].
  rewrite (E5 [a; b; i; j]) by (rewrite S5; repeat constructor; assumption). rewrite (E6 [a; b; i; j]) by (rewrite S6; repeat constructor; assumption).
  unfold elem2. cbn [data]. unfold xccd_ket. fold H T2 L2. fold Q C. unfold oscale at 1 2 3. rewrite !bra2_scale. destruct six.
  - rewrite bra2_oplus. ring.
  - ring.
Qed.

(** C66, the methods.  With the labels XCCD(5) and XCCD(6) the energy is <Phi| e^-T H e^T |Phi> plus <Phi| L2 |chi>, and one pass replaces
    t2 by t2 + D * (<Phi_ij^ab| e^-T H e^T |Phi> + <Phi_ij^ab| chi>), with T = T2 and |chi> the correction above: the same |chi> in both. *)
Theorem C66_xccd_methods : forall no nv f g D2 eps c six d w t2 K,
  is_fock (no + nv) f -> is_tei (no + nv) g -> is_denominator 2 no nv eps D2 -> gapped 2 no nv eps ->
  cc_type c = (if six : bool then "XCCD(6)" else "XCCD(5)") -> slook "t2aa" d = Some t2 -> is_amp 2 no nv t2 -> (2 <= K)%nat ->
  let psi := cc_state K no nv f g (T2op no nv t2) in
  let chi := xccd_ket six no nv f g t2 in
  (exists w', t2energy_slow no nv f g D2 c d w = Some (bra0 no nv psi + bra0 no nv (T2adj no nv t2 chi), w')) /\
  exists d' w' t2', t2resid_slow no nv f g D2 c d w = Some (d', w') /\ slook "t2aa" d' = Some t2' /\ shape t2' = [nv; nv; no; no] /\
    forall a b i j, (a < nv)%nat -> (b < nv)%nat -> (i < no)%nat -> (j < no)%nat ->
      data t2' [a; b; i; j] = data t2 [a; b; i; j] + data D2 [a; b; i; j] * (bra2 no nv a b i j psi + bra2 no nv a b i j chi).
Proof.
  intros no nv f g D2 eps c six d w t2 K Hf Hg HD HG Ty Hd Ht HK psi chi.
  destruct (C66_xccd_orders_5_6 no nv f g t2 Hf Hg Ht) as [B5 [B6 [P [X5 [X6 [E5 [E6 _]]]]]]].
  destruct (C42_ccd_equations no nv f g t2 Hf Hg Ht) as [R0 [E0 [HR0 [HE0 [_ [_ HM]]]]]]. destruct (HM K HK) as [ME MR]. clear HM. fold psi in ME, MR.
  assert (EX : forall a b i j, (a < nv)%nat -> (b < nv)%nat -> (i < no)%nat -> (j < no)%nat -> bra2 no nv a b i j chi = data B5 [a; b; i; j] + (if six then data B6 [a; b; i; j] else 0)).
  { intros. apply xccd_ket_elem; assumption. }
  set (n := if six then 2%nat else 1%nat).
  assert (EO : extract_integer (cc_type c) = Some (seq 5 n)) by (rewrite Ty; destruct six; reflexivity).
  assert (XF : xccd_flag c = true) by (unfold xccd_flag; rewrite Ty; destruct six; reflexivity).
  assert (CX : contains "X" (cc_type c) = true) by (rewrite Ty; destruct six; reflexivity).
  split.
  - destruct (xcc_base_ok no nv g t2 Hg Ht 5 w ltac:(lia) (or_introl eq_refl)) as [B [w1 [EB [A5 [_ GD]]]]]. rewrite X5 in EB. injection EB as <- <-.
    destruct (xcc_base_ok no nv g t2 Hg Ht 6 (Some P) ltac:(lia) (or_intror GD)) as [B [w1 [EB [A6 _]]]]. rewrite X6 in EB. injection EB as <- <-.
    assert (DS : shape D2 = [nv; nv; no; no]) by apply HD.
    exists (Some P). unfold t2energy_slow. rewrite Hd. cbn [obind]. rewrite XF. unfold ccd_energy. rewrite (call0_returns _ _ _ HE0). cbn [obind]. rewrite EO. cbn [obind].
    assert (EL : exists l, xcc_energies no nv g D2 false t2 (seq 5 n) w = Some (l, Some P) /\ lsum l = bra0 no nv (T2adj no nv t2 chi)).
    { rewrite <- (quarter_L2 no nv t2 (mkT [nv; nv; no; no] (fun idx => data B5 idx + (if six then data B6 idx else 0))) chi) by (intros; symmetry; apply EX; assumption).
      unfold n. destruct six; cbn [seq xcc_energies].
      - rewrite (energy1_val no nv g D2 t2 Hg DS Ht false 5 w B5 (Some P) (X5 w) A5). cbn [obind fst snd].
        rewrite (energy1_val no nv g D2 t2 Hg DS Ht false 6 (Some P) B6 (Some P) (X6 _) A6). cbn [obind fst snd]. eexists; split; [reflexivity|].
        unfold lsum. cbn [suml]. unfold cap, quarter. cbn [data]. rewrite Qcplus_0_r, <- Qcmult_plus_distr_r. f_equal.
        rewrite <- suml_plus. apply suml_ext. intros a _. rewrite <- suml_plus. apply suml_ext. intros b _. rewrite <- suml_plus. apply suml_ext. intros i _. rewrite <- suml_plus. apply suml_ext. intros j _. ring.
      - rewrite (energy1_val no nv g D2 t2 Hg DS Ht false 5 w B5 (Some P) (X5 w) A5). cbn [obind fst snd]. eexists; split; [reflexivity|].
        unfold lsum. cbn [suml]. unfold cap, quarter. cbn [data]. rewrite Qcplus_0_r. f_equal.
        apply suml_ext. intros a _. apply suml_ext. intros b _. apply suml_ext. intros i _. apply suml_ext. intros j _. ring. }
    destruct EL as [l [-> EL]]. cbn [obind fst snd]. rewrite EL, ME. reflexivity.
  - assert (RES : exists d' w', t2resid_slow no nv f g D2 c d w = Some (d', w')).
    { destruct (resid_ok no nv f g D2 eps c Hf Hg HD [("t2aa", t2); ("t2bb", t2); ("t2ab", t2)] w t2 (three_good no nv t2 t2 t2 Ht Ht Ht) eq_refl ltac:(intros _; rewrite EO; eauto)) as [d' [w' [u [E _]]]].
      exists d', w'. rewrite <- E. unfold t2resid_slow. rewrite Hd. reflexivity. }
    destruct RES as [d' [w' RES]]. exists d', w'.
    destruct (update_is no nv f g D2 eps c d w t2 d' w' Hf Hg HD HG Hd Ht ltac:(rewrite Ty; destruct six; discriminate) RES) as [R [t2' [HM [E2 [S2 [SR HU]]]]]].
    exists t2'. split; [exact RES|]. split; [exact E2|]. split; [exact S2|]. intros a b i j Ha Hb Hi Hj.
    assert (I : inr [a; b; i; j] [nv; nv; no; no]) by (repeat constructor; assumption).
    rewrite (proj2 (HU _ I)). f_equal. f_equal. destruct HM as [R0' [HR0' [_ [Off [Bs [HO [HB HR]]]]]]].
    rewrite (ret_unique _ _ _ _ _ _ HR0' HR0) in HR. rewrite HR, MR by assumption. rewrite EX by assumption.
    replace (cc_type c =? "LCCD") with false in HO by (rewrite Ty; destruct six; reflexivity). rewrite HO, CX in *.
    destruct HB as [orders [EO' F]]. rewrite EO in EO'. injection EO' as <-. unfold n in F.
    assert (U5 : forall B w1 w2, xcc_base no nv g 5 t2 w1 = Some (B, w2) -> B = B5) by (intros B w1 w2 H; rewrite X5 in H; congruence).
    assert (U6 : forall B w1 w2, xcc_base no nv g 6 t2 w1 = Some (B, w2) -> B = B6) by (intros B w1 w2 H; rewrite X6 in H; congruence).
    destruct six; cbn [seq] in F; inversion F as [|? ? ? ? [w1 [w2 H1]] F1]; subst; apply U5 in H1; subst.
    + inversion F1 as [|? ? ? ? [w3 [w4 H2]] F2]; subst; apply U6 in H2; subst. inversion F2; subst. cbn [suml]. ring.
    + inversion F1; subst. cbn [suml]. ring.
Qed.
Print Assumptions C66_xccd_methods.
Example C66_xccd_methods_instance := C66_xccd_methods 2 2 _ _ _ i_eps (i_calc "XCCD(6)" None) true [("t2aa", i_amp 2 2 2)] None _ 2
  (i_fock_ok 4) (i_tei_ok 4) (i_den_ok 2 2 2) i_eps_gapped eq_refl eq_refl (i_amp_ok 2 2 2) (le_n 2).
