(** C69: what a UCC(4) calculation computes. *)
From Coq Require Import String Ascii List Arith NArith ZArith QArith Qcanon Bool Lia Permutation.
From Verif Require Import Sums Tensor Interp Numpy Poly SymExec Canon Spec Instances Setup Master Spin Check Tabs NF Antisym Formula Fock Wick CCState P_fock Dress Commut NOrd Proj Elem P_antisym Asym P_fock2 P_fock3 P_fock4.
From Verif Require Import SpecDriver SpecFrag SpecRot Diis Kernel SlowCC P_ccsd P_slow P_kernel P_wanti P_slow3 P_rot P_rot3.
From Verif Require Code_drive_ucc4 Code_t2residEqnsSlow Code_t2energySlow.
Import ListNotations.
Open Scope Qc_scope.

(** ** Specification *)
(** The Fock operator, sum_pq f_pq p^+ q.  (The fluctuation potential [Fluct] is the rest of the Hamiltonian.) *)
Definition Fop (no nv : nat) (f : tensor) : op := fun psi n => Sum p < (no + nv), Sum q < (no + nv), data f [p; q] * cre p (ann q psi) n.
(** The UCC(4) equations: singles  F + [F,T1] + [W,T2],  doubles  H + [H,T2] + 1/4 [[H,T2],T2] + [W,T1] + [W,T3]
    (and the terms [dag_terms] below),  triples  [F,T3] + [W,T2]. *)
Definition ucc4_singles (no nv : nat) (f g t1 t2 : tensor) : op :=
  oplus (oplus (Fop no nv f) (comm (Fop no nv f) (T1op no nv t1))) (comm (Fluct no nv g) (T2op no nv t2)).
Definition ucc4_doubles (no nv : nat) (f g t1 t2 t3 : tensor) : op :=
  let H := Ham no nv f g in let T2 := T2op no nv t2 in let W := Fluct no nv g in
  oplus (oplus (oplus H (comm H T2)) (oscale (1 # 4) (comm (comm H T2) T2))) (oplus (comm W (T1op no nv t1)) (comm W (T3op no nv t3))).
Definition ucc4_triples (no nv : nat) (f g t2 t3 : tensor) : op :=
  oplus (comm (Fop no nv f) (T3op no nv t3)) (comm (Fluct no nv g) (T2op no nv t2)).

(** ** Operators as lists of terms *)
Section Split.
  Variables no nv : nat.
  Lemma ham_split f g psi n : Ham no nv f g psi n = Fop no nv f psi n + Fluct no nv g psi n.
  Proof.
    unfold Fluct, Ham, Fop. rewrite Qcplus_assoc. f_equal. rewrite <- suml_plus. apply suml_ext. intros p _. rewrite <- suml_plus. apply suml_ext. intros q _. cbn [data]. ring.
  Qed.
  Variables f g : tensor.
  Variable tab : atomtab.
  Notation range := (so_range no nv).
  Notation A := (Aof range tab).
  Hypothesis L0 : nlook 0%N tab = Some ([6;6]%N, f).
  Hypothesis L1 : nlook 1%N tab = Some ([6;6;6;6]%N, g).
  Definition hamsF : list oterm := Eval vm_compute in firstn 4 hams.
  Lemma fop_sem e psi n : Fop no nv f psi n = osem no nv (A' A) e hamsF psi n.
  Proof using L0.
    change hamsF with (flat_map (fun s1 => map (one_ s1) OV) OV). unfold Fop, Wick.osem. rewrite suml_flat_map, all_OV. apply suml_ext. intros s1 H1. rewrite suml_map.
    rewrite (suml_ext _ _ _ (fun p => suml OV (fun s2 => suml (range s2) (fun q => data f [p; q] * cre p (ann q psi) n)))) by (intros p _; apply all_OV).
    rewrite suml_swap. apply suml_ext. intros s2 H2. symmetry. apply (one_sem no nv (A' A) f (read_f no nv tab f L0)); assumption.
  Qed.
  Lemma fop_op : is_op no nv A (Fop no nv f) hamsF.
  Proof using L0. intros e psi n _. apply fop_sem. Qed.
  Lemma fl_op : is_op no nv A (Fluct no nv g) hamsW.
  Proof using L0 L1.
    intros e psi n Hn. pose proof (ham_op no nv f g tab L0 L1 e psi n Hn) as E. rewrite ham_split, (fop_sem e) in E.
    change hams with (hamsF ++ hamsW)%list in E. unfold Wick.osem in *. rewrite suml_app in E.
    transitivity (suml hamsF (fun t => oact no nv (A' A) e t psi n) + Fluct no nv g psi n - suml hamsF (fun t => oact no nv (A' A) e t psi n)); [ring|]. rewrite E. ring.
  Qed.
End Split.
Definition ts1 (c : nat) : list oterm := [tot 1 2 1 c].
Lemma ts1_c : forall c, (c < 10)%nat -> forallb cterm (ts1 c) = true.
Proof. intros c H. do 10 (destruct c as [|c]; [reflexivity|]). lia. Qed.
Definition s_ops : list oterm := Eval vm_compute in ((hamsF ++ adh ts1 0 hamsF) ++ adh ts2 0 hamsW)%list.
Definition c_ops : list oterm := Eval vm_compute in ((hams ++ hT2) ++ scl (1 # 2) hT2T2)%list.
Definition q_ops : list oterm := Eval vm_compute in (scl (1 # 4) hT2T2)%list.
Definition x_ops : list oterm := Eval vm_compute in (adh ts1 0 hamsW ++ adh ts3 0 hamsW)%list.
Definition t_ops : list oterm := Eval vm_compute in (adh ts3 0 hamsF ++ adh ts2 0 hamsW)%list.
(** matrix elements of a list of terms *)
Definition opsin (xs : list var) (t : oterm) : bool := forallb (fun o => ov (spc (snd o)) && (memv (snd o) (od t) || memv (snd o) xs))%bool (oo t).
Definition elp (xs : list var) (D : list vop) (ys : list oterm) : poly :=
  flat_map (fun t => map (fun u => elim (List.length (tf u)) xs u) (wterms t)) (omuls [OT 1 [] [] D] ys).
Definition elp_ok (xs : list var) (D : list vop) (ys : list oterm) : bool :=
  (odisjs [OT 1 [] [] D] ys && forallb (opsin xs) (omuls [OT 1 [] [] D] ys) && forallb (fun t => nodlt (tf t)) (elp xs D ys))%bool.
Definition D1v : list vop := [(true, mkv 0 1); (false, mkv 1 0)].
Definition D3v : list vop := [(true, mkv 0 3); (true, mkv 0 4); (true, mkv 0 5); (false, mkv 1 2); (false, mkv 1 1); (false, mkv 1 0)].
Section Elp.
  Variables no nv : nat.
  Variable tab : atomtab.
  Notation range := (so_range no nv).
  Notation A := (Aof range tab).
  Lemma wterms_dlt xs e t : opsin xs t = true -> (forall v, In v xs -> In (e v) (range (spc v))) ->
    oact no nv (A' A) e t (Phi no nv) (ref no nv) = evalP range (A' A) e (wterms t).
  Proof using.
    unfold opsin. intros H2 Hx. rewrite forallb_forall in H2. unfold oact, wterms, evalP. rewrite suml_map.
    transitivity (Q2Qc (oc t) * sumD range (od t) (fun e' => suml (wicks (oo t)) (fun w => sgn (fst w) * evalFs (A' A) (snd w ++ ofs t)%list e')) e).
    - f_equal. apply sumD_ext_in. intros e' He1 He2. change (act (map (inst e') (oo t)) (Phi no nv) (ref no nv)) with (vev no nv e' (oo t)).
      rewrite (wicks_sound no nv A).
      + rewrite <- suml_scale. apply suml_ext. intros w _. rewrite evalFs_app. ring.
      + intros o Ho. specialize (H2 o Ho). apply andb_true_iff in H2. destruct H2 as [K1 K2]. split; [exact K1|].
        destruct (in_dec N.eq_dec (snd o) (od t)) as [I|I]; [apply He2, I|]. rewrite He1 by exact I.
        apply orb_true_iff in K2. destruct K2 as [K2|K2]; apply memv_In in K2; [contradiction|apply Hx, K2].
    - assert (SW : forall ws ds F e, sumD range ds (fun e' => suml ws (fun u => F u e')) e = suml ws (fun u : bool * list fac => sumD range ds (F u) e)).
      { clear. intros ws ds F. induction ds as [|d ds IH]; intros e; cbn [sumD]; [reflexivity|].
        rewrite suml_swap. apply suml_ext. intros x _. apply IH. }
      rewrite SW, <- suml_scale. apply suml_ext. intros w _. unfold evalT. cbn [tc td tf]. rewrite sumD_const, Q2Qc_red, Q2Qc_mult.
      destruct (fst w); cbn [sgn]; [change (Q2Qc 1) with 1|change (Q2Qc (-1)) with (- (1))]; ring.
  Qed.
  Lemma op_elem X ys xs D e : is_op no nv A X ys -> elp_ok xs D ys = true -> (forall v, In v xs -> In (e v) (range (spc v))) ->
    act (map (inst e) D) (X (Phi no nv)) (ref no nv) = evalP range A e (elp xs D ys).
  Proof.
    intros HX OK Hx. unfold elp_ok in OK. rewrite !andb_true_iff, !forallb_forall in OK. destruct OK as [[O1 O2] O3].
    rewrite (is_op_elem no nv A X ys e D HX).
    transitivity (osem no nv (A' A) e (omuls [OT 1 [] [] D] ys) (Phi no nv) (ref no nv)).
    { rewrite <- osem_omuls by exact O1. unfold Wick.osem at 2, Wick.oact. cbn [suml oc od ofs oo sumD evalFs]. change (Q2Qc 1) with 1. ring. }
    transitivity (evalP range (A' A) e (elp xs D ys)).
    - unfold elp, Wick.osem, evalP. rewrite suml_flat_map. apply suml_ext. intros t Ht. rewrite (wterms_dlt xs e t (O2 t Ht) Hx), suml_map.
      apply suml_ext. intros u _. apply elim_sound, Hx.
    - apply suml_ext. intros t Ht. unfold evalT. f_equal. apply sumD_ext. intros e'. apply nodlt_eval, O3, Ht.
  Qed.
End Elp.

(** ** The residual functions *)
Definition elem1v (no nv : nat) (psi : ket) : tensor := mkT [nv; no] (fun l => match l with [a; i] => bra1 no nv a i psi | _ => 0 end).
Definition elem3v (no nv : nat) (psi : ket) : tensor :=
  mkT [nv; nv; nv; no; no; no] (fun l => match l with [a; b; c; i; j; k] => bra3 no nv a b c i j k psi | _ => 0 end).
Section Mat.
  Variables no nv : nat.
  Variable atoms : atomtab.
  Notation range := (so_range no nv).
  Notation A := (Aof range atoms).
  Variable psi : ket.
  Lemma mat1v sps D q : sps = [1; 0]%N -> D = D1v ->
    (forall e, (forall v, In v (xvs sps) -> In (e v) (range (spc v))) -> act (map (inst e) D) psi (ref no nv) = evalP range A e q) ->
    so_vsim no nv atoms (SP sps q) (VT (elem1v no nv psi)).
  Proof using.
    intros -> -> H. constructor. split; [cbn [elem1v shape map]; rewrite dO, dV; reflexivity|]. intros idx e Hi Ha.
    cbn [elem1v shape] in Hi. assert (Hi' : inr idx (map (dim range) [1; 0]%N)) by (cbn [map]; rewrite dO, dV; exact Hi).
    rewrite <- H by (eapply eagree_in; [reflexivity|exact Hi'|exact Ha]).
    inversion Hi as [|a ? l ? B1 Hi1]; subst. inversion Hi1 as [|i ? l' ? B2 Hi2]; subst. inversion Hi2; subst.
    unfold eagree, orbs, zipw in Ha. cbn [combine map fst snd] in Ha. rewrite nthO, nthV in Ha by assumption.
    change (xvs [1; 0]%N) with [mkv 1 0; mkv 0 1] in Ha. cbn [map] in Ha. injection Ha as E1 E2.
    cbn [elem1v data D1v map]. unfold inst. cbn [fst snd]. rewrite E1, E2. reflexivity.
  Qed.
  Lemma mat3v sps D q : sps = [1; 1; 1; 0; 0; 0]%N -> D = D3v ->
    (forall e, (forall v, In v (xvs sps) -> In (e v) (range (spc v))) -> act (map (inst e) D) psi (ref no nv) = evalP range A e q) ->
    so_vsim no nv atoms (SP sps q) (VT (elem3v no nv psi)).
  Proof using.
    intros -> -> H. constructor. split; [cbn [elem3v shape map]; rewrite dO, dV; reflexivity|]. intros idx e Hi Ha.
    cbn [elem3v shape] in Hi. assert (Hi' : inr idx (map (dim range) [1; 1; 1; 0; 0; 0]%N)) by (cbn [map]; rewrite dO, dV; exact Hi).
    rewrite <- H by (eapply eagree_in; [reflexivity|exact Hi'|exact Ha]).
    inversion Hi as [|a ? l ? B1 Hi1]; subst. inversion Hi1 as [|b ? l' ? B2 Hi2]; subst. inversion Hi2 as [|c ? l2 ? B3 Hi3]; subst. inversion Hi3 as [|i ? l3 ? B4 Hi4]; subst.
    inversion Hi4 as [|j ? l4 ? B5 Hi5]; subst. inversion Hi5 as [|k ? l5 ? B6 Hi6]; subst. inversion Hi6; subst.
    unfold eagree, orbs, zipw in Ha. cbn [combine map fst snd] in Ha. rewrite !nthO, !nthV in Ha by assumption.
    change (xvs [1; 1; 1; 0; 0; 0]%N) with [mkv 1 0; mkv 1 1; mkv 1 2; mkv 0 3; mkv 0 4; mkv 0 5] in Ha. cbn [map] in Ha. injection Ha as E1 E2 E3 E4 E5 E6.
    cbn [elem3v data D3v map]. unfold inst. cbn [fst snd]. rewrite E1, E2, E3, E4, E5, E6. reflexivity.
  Qed.
End Mat.
Section Resid.
  Variables no nv : nat.
  Variables f g t1 t2 t3 : tensor.
  Hypothesis Hf : is_fock (no + nv) f.
  Hypothesis Hg : is_tei (no + nv) g.
  Hypothesis H1 : is_amp 1 no nv t1.
  Hypothesis H2 : is_amp 2 no nv t2.
  Hypothesis H3 : is_amp 3 no nv t3.
  Notation tab := [(0%N, ([6;6]%N, f)); (1%N, ([6;6;6;6]%N, g)); (2%N, ([1;0]%N, t1)); (3%N, ([1;1;0;0]%N, t2)); (4%N, ([1;1;1;0;0;0]%N, t3))].
  Notation range := (so_range no nv).
  Notation A := (Aof range tab).
  Lemma t1_sem e c psi n : (c < 10)%nat -> T1op no nv t1 psi n = osem no nv (A' A) e (ts1 c) psi n.
  Proof using. intros HC. unfold Wick.osem. cbn [ts1 suml]. rewrite Qcplus_0_r. apply tot1_sem; [|exact HC]. intros. apply (read_t1 no nv tab 2%N); auto. Qed.
  Notation s2 := (t2_sem no nv tab t2 eq_refl).
  Notation s3 := (t3_sem no nv tab t3 eq_refl).
  Notation iF := (fop_op no nv f tab eq_refl).
  Notation iW := (fl_op no nv f g tab eq_refl eq_refl).
  Ltac ck := vm_cast_no_check (@eq_refl bool true).
  Lemma s_is : is_op no nv A (ucc4_singles no nv f g t1 t2) s_ops.
  Proof using.
    change s_ops with ((hamsF ++ adh ts1 0 hamsF) ++ adh ts2 0 hamsW)%list. unfold ucc4_singles. apply plus_is_op; [apply plus_is_op; [exact iF|]|].
    - apply (comm_is_op no nv A ts1 ts1_c (T1op no nv t1) t1_sem 0); [lia|ck|exact iF].
    - apply (comm_is_op no nv A ts2 ts2_c (T2op no nv t2) s2 0); [lia|ck|exact iW].
  Qed.
  Lemma t_is : is_op no nv A (ucc4_triples no nv f g t2 t3) t_ops.
  Proof using.
    change t_ops with (adh ts3 0 hamsF ++ adh ts2 0 hamsW)%list. unfold ucc4_triples. apply plus_is_op.
    - apply (comm_is_op no nv A ts3 ts3_c (T3op no nv t3) s3 0); [lia|ck|exact iF].
    - apply (comm_is_op no nv A ts2 ts2_c (T2op no nv t2) s2 0); [lia|ck|exact iW].
  Qed.
  Lemma x_is : is_op no nv A (oplus (comm (Fluct no nv g) (T1op no nv t1)) (comm (Fluct no nv g) (T3op no nv t3))) x_ops.
  Proof using.
    change x_ops with (adh ts1 0 hamsW ++ adh ts3 0 hamsW)%list. apply plus_is_op.
    - apply (comm_is_op no nv A ts1 ts1_c (T1op no nv t1) t1_sem 0); [lia|ck|exact iW].
    - apply (comm_is_op no nv A ts3 ts3_c (T3op no nv t3) s3 0); [lia|ck|exact iW].
  Qed.
  Notation H := (Ham no nv f g).
  Notation T2 := (T2op no nv t2).
  Lemma c_is : is_op no nv A (oplus (oplus H (comm H T2)) (oscale (1 # 2) (comm (comm H T2) T2))) c_ops.
  Proof using.
    change c_ops with ((hams ++ hT2) ++ scl (1 # 2) hT2T2)%list. apply plus_is_op; [apply plus_is_op|].
    - apply (ham_op no nv f g tab); reflexivity.
    - apply (hT2_op no nv f g tab); reflexivity.
    - apply scale_is_op, (hT2T2_op no nv f g tab); reflexivity.
  Qed.
  Lemma q_is : is_op no nv A (oscale (1 # 4) (comm (comm H T2) T2)) q_ops.
  Proof using. change q_ops with (scl (1 # 4) hT2T2)%list. apply scale_is_op, (hT2T2_op no nv f g tab); reflexivity. Qed.
  Lemma r_OK : Forall (atom_ok range sy) tab. Proof using Hf Hg H1 H2 H3. oks. Qed.
  Notation a2 := (at_ 3 [1;1;0;0]%N).
  Notation a3 := (at_ 4 [1;1;1;0;0;0]%N).
  Notation a1 := (at_ 2 [1;0]%N).
  Lemma r1_is : exists R, returns 0 [] Code_drive_ucc4.t1_residEqns [VT t1; VT t2; VT f; VT g; o_ no; v_ no] R /\
    teq R (elem1v no nv (ucc4_singles no nv f g t1 t2 (Phi no nv))).
  Proof using Hf Hg H1 H2 H3.
    eapply (so_reads no nv tab 0 [] Code_drive_ucc4.t1_residEqns [a1; a2; SFull 0 [0;0]%N; SFull 1 [0;0;0;0]%N; SSl 0; SSl 1] _ [1;0]%N (elp (xvs [1;0]%N) D1v s_ops)).
    - exact r_OK.
    - vsims.
    - apply (mat1v no nv tab _ _ D1v); [reflexivity|reflexivity|]. intros e He. apply (op_elem no nv tab _ _ _ _ _ s_is); [ck|exact He].
    - chk_.
  Qed.
  Lemma r3_is : exists R, returns 0 [] Code_drive_ucc4.t3_resid [VT t3; VT t2; VT f; VT g; o_ no; v_ no] R /\
    teq R (elem3v no nv (ucc4_triples no nv f g t2 t3 (Phi no nv))).
  Proof using Hf Hg H1 H2 H3.
    eapply (so_reads no nv tab 0 [] Code_drive_ucc4.t3_resid [a3; a2; SFull 0 [0;0]%N; SFull 1 [0;0;0;0]%N; SSl 0; SSl 1] _ [1;1;1;0;0;0]%N (elp (xvs [1;1;1;0;0;0]%N) D3v t_ops)).
    - exact r_OK.
    - vsims.
    - apply (mat3v no nv tab _ _ D3v); [reflexivity|reflexivity|]. intros e He. apply (op_elem no nv tab _ _ _ _ _ t_is); [ck|exact He].
    - chk_.
  Qed.
  Lemma c_eq : exists R, returns 0 [] Code_t2residEqnsSlow.ccd_t2residual [VT t2; VT f; VT g; o_ no; v_ no] R /\
    teq R (elem2 no nv (oplus (oplus H (comm H T2)) (oscale (1 # 2) (comm (comm H T2) T2)) (Phi no nv))).
  Proof using Hf Hg H1 H2 H3.
    eapply (so_reads no nv tab 0 [] Code_t2residEqnsSlow.ccd_t2residual [a2; SFull 0 [0;0]%N; SFull 1 [0;0;0;0]%N; SSl 0; SSl 1] _ [1;1;0;0]%N (elp (xvs [1;1;0;0]%N) D2 c_ops)).
    - exact r_OK.
    - vsims.
    - apply (mat2 no nv tab _ _ D2); [reflexivity|reflexivity|]. intros e He. apply (op_elem no nv tab _ _ _ _ _ c_is); [ck|exact He].
    - chk_.
  Qed.
  Lemma q_eq : exists R, returns 0 [] Code_drive_ucc4.offset_t2resid_t2squared [VT t2; VT g; o_ no; v_ no] R /\
    teq R (elem2 no nv (oscale (1 # 4) (comm (comm H T2) T2) (Phi no nv))).
  Proof using Hf Hg H1 H2 H3.
    eapply (so_reads no nv tab 0 [] Code_drive_ucc4.offset_t2resid_t2squared [a2; SFull 1 [0;0;0;0]%N; SSl 0; SSl 1] _ [1;1;0;0]%N (elp (xvs [1;1;0;0]%N) D2 q_ops)).
    - exact r_OK.
    - vsims.
    - apply (mat2 no nv tab _ _ D2); [reflexivity|reflexivity|]. intros e He. apply (op_elem no nv tab _ _ _ _ _ q_is); [ck|exact He].
    - chk_.
  Qed.
  Lemma x_eq : exists R, returns 0 [] Code_drive_ucc4.offset_t2resid_T1_T3 [VT t1; VT t3; VT g; o_ no; v_ no] R /\
    teq R (elem2 no nv (oplus (comm (Fluct no nv g) (T1op no nv t1)) (comm (Fluct no nv g) (T3op no nv t3)) (Phi no nv))).
  Proof using Hf Hg H1 H2 H3.
    eapply (so_reads no nv tab 0 [] Code_drive_ucc4.offset_t2resid_T1_T3 [a1; a3; SFull 1 [0;0;0;0]%N; SSl 0; SSl 1] _ [1;1;0;0]%N (elp (xvs [1;1;0;0]%N) D2 x_ops)).
    - exact r_OK.
    - vsims.
    - apply (mat2 no nv tab _ _ D2); [reflexivity|reflexivity|]. intros e He. apply (op_elem no nv tab _ _ _ _ _ x_is); [ck|exact He].
    - chk_.
  Qed.
End Resid.

(** ** The terms with the adjoint of T2, for any array t2 *)
(** /repo/UT2/drive_ucc4.py:195-213.  They are not antisymmetric in a, b, so UCC(4) iterates lose antisymmetry (C01_ucc4_refuted). *)
Definition dag_terms (no nv : nat) (g t : tensor) (a b i j : nat) : Qc :=
  Q2Qc (-1 # 2) * (Sum k < no, Sum l < no, Sum c < nv, Sum d < nv, data t [c; d; l; k] * data g [no + c; no + d; j; k]%nat * data t [a; b; i; l]) +
  Q2Qc (1 # 2) * (Sum k < no, Sum l < no, Sum c < nv, Sum d < nv, data t [c; d; l; k] * data g [no + c; no + d; i; k]%nat * data t [a; b; j; l]) +
  Q2Qc (1 # 4) * (Sum k < no, Sum l < no, Sum c < nv, Sum d < nv, data t [c; d; l; k] * data g [no + c; no + d; i; j]%nat * data t [a; b; l; k]) +
  Q2Qc (-1 # 2) * (Sum k < no, Sum l < no, Sum c < nv, Sum d < nv, data t [c; d; l; k] * data g [no + c; no + a; l; k]%nat * data t [d; b; i; j]) +
  Q2Qc (1 # 1) * (Sum k < no, Sum l < no, Sum c < nv, Sum d < nv, data t [c; d; l; k] * data g [no + c; no + a; j; k]%nat * data t [d; b; i; l]) +
  Q2Qc (-1 # 1) * (Sum k < no, Sum l < no, Sum c < nv, Sum d < nv, data t [c; d; l; k] * data g [no + c; no + a; i; k]%nat * data t [d; b; j; l]) +
  Q2Qc (-1 # 2) * (Sum k < no, Sum l < no, Sum c < nv, Sum d < nv, data t [c; d; l; k] * data g [no + c; no + a; i; j]%nat * data t [d; b; l; k]).
Definition p_dag : poly := Eval vm_compute in
  [mkterm "abij" "klcd" (-1 # 2) [(8%N, "cdlk"); (1%N, "cdjk"); (8%N, "abil")];
   mkterm "abij" "klcd" (1 # 2) [(8%N, "cdlk"); (1%N, "cdik"); (8%N, "abjl")];
   mkterm "abij" "klcd" (1 # 4) [(8%N, "cdlk"); (1%N, "cdij"); (8%N, "ablk")];
   mkterm "abij" "klcd" (-1 # 2) [(8%N, "cdlk"); (1%N, "calk"); (8%N, "dbij")];
   mkterm "abij" "klcd" (1 # 1) [(8%N, "cdlk"); (1%N, "cajk"); (8%N, "dbil")];
   mkterm "abij" "klcd" (-1 # 1) [(8%N, "cdlk"); (1%N, "caik"); (8%N, "dbjl")];
   mkterm "abij" "klcd" (-1 # 2) [(8%N, "cdlk"); (1%N, "caij"); (8%N, "dblk")]].
Definition p_E8 : poly := Eval vm_compute in (p_Eref ++ [mkterm "" "ijab" (1 # 4) [(1%N, "ijab"); (8%N, "abij")]])%list.
Lemma transp_swap no nv t : shape t = [nv; nv; no; no] -> exists u, ttransp [2; 3; 0; 1]%nat t = Some u /\ shape u = [no; no; nv; nv] /\ swapped 2 t u /\
  forall a b i j, data u [i; j; a; b] = data t [a; b; i; j].
Proof.
  intros S. unfold ttransp. rewrite S. cbn [length Nat.eqb is_permb seq forallb existsb orb andb map nth]. eexists. split; [reflexivity|]. split; [reflexivity|]. split; [|intros; reflexivity].
  split; [rewrite S; reflexivity|]. intros l1 l2 L I. rewrite S in I. pose proof (Forall2_len _ _ _ I) as LL. rewrite app_length, L in LL. cbn in LL.
  destruct l1 as [|a [|b [|]]]; try discriminate L. destruct l2 as [|i [|j [|]]]; try discriminate LL. reflexivity.
Qed.
Section Dag.
  Variables no nv : nat.
  Variables f g t u : tensor.
  Hypothesis Hf : is_fock (no + nv) f.
  Hypothesis Hg : is_tei (no + nv) g.
  Hypothesis St : shape t = [nv; nv; no; no].
  Hypothesis Su : swapped 2 t u.
  Notation tab := [(0%N, ([6;6]%N, f)); (1%N, ([6;6;6;6]%N, g)); (8%N, ([1;1;0;0]%N, t))].
  Lemma d_sh : shape t = map (dim (so_range no nv)) [1;1;0;0]%N.
  Proof using St. rewrite St. cbn [map]. rewrite dO, dV. reflexivity. Qed.
  Lemma d_OK : Forall (atom_ok (so_range no nv) sy) tab.
  Proof using Hf Hg St. constructor; [apply ok_fock; assumption|]. constructor; [apply ok_tei; assumption|]. constructor; [|constructor]. apply atom_ok_gen; [reflexivity|exact d_sh]. Qed.
  Lemma dag_runs : exists R, returns 0 [] Code_drive_ucc4.offset_t2resid_t2dag_w_t2 [VT t; VT u; VT g; o_ no; v_ no] R /\ teq R (arr4 nv nv no no (dag_terms no nv g t)).
  Proof using Hf Hg St Su.
    eapply (so_reads no nv tab 0 [] Code_drive_ucc4.offset_t2resid_t2dag_w_t2 [at_ 8 [1;1;0;0]%N; swp 8 2 [0;0;1;1]%N; SFull 1 [0;0;0;0]%N; SSl 0; SSl 1] _ [1;1;0;0]%N p_dag).
    - exact d_OK.
    - constructor; [apply so_atom; [reflexivity|exact d_sh]|]. constructor; [eapply (so_swap no nv tab 8%N 2 1%N 0%N t u); [reflexivity|exact d_sh|exact Su]|]. vsims.
    - unfold p_dag, dag_terms. so_form.
    - chk_.
  Qed.
  Lemma en_runs : exists E, returns 0 [] Code_t2energySlow.ccdEnergy [VT t; VT f; VT g; o_ no; v_ no] E /\ data E [] = E_ccd no nv f g t.
  Proof using Hf Hg St.
    assert (X : exists E, returns 0 [] Code_t2energySlow.ccdEnergy [VT t; VT f; VT g; o_ no; v_ no] E /\ teq E (arr0 (E_ccd no nv f g t))).
    { eapply (so_reads no nv tab 0 [] Code_t2energySlow.ccdEnergy [at_ 8 [1;1;0;0]%N; SFull 0 [0;0]%N; SFull 1 [0;0;0;0]%N; SSl 0; SSl 1] _ [] p_E8).
      - exact d_OK.
      - constructor; [apply so_atom; [reflexivity|exact d_sh]|]. vsims.
      - unfold E_ccd, E_ref, p_E8. so_form.
      - chk_. }
    destruct X as [E [HE TE]]. exists E. split; [exact HE|]. apply so_scalar in TE. apply TE.
  Qed.
End Dag.

(** ** The energy *)
(** The UCC(4) energy of doubles t2 ([D] holds the reciprocal orbital-energy differences): the CCD energy plus
    2 sum_{abij} t2 D (terms with the adjoint). *)
Definition ucc4_energy_of (no nv : nat) (f g D t2 : tensor) : Qc :=
  E_ccd no nv f g t2 +
  Q2Qc (2 # 1) * (Sum a < nv, Sum b < nv, Sum i < no, Sum j < no, data t2 [a; b; i; j] * (dag_terms no nv g t2 a b i j * data D [a; b; i; j])).
Lemma dot_jiab no nv l2 t2 r : shape l2 = [no; no; nv; nv] -> (forall a b i j, data l2 [i; j; a; b] = data t2 [a; b; i; j]) -> shape r = [nv; nv; no; no] ->
  exists e, dot "jiab,abji" l2 r = Some e /\ e = Sum a < nv, Sum b < nv, Sum i < no, Sum j < no, data t2 [a; b; i; j] * data r [a; b; i; j].
Proof.
  intros S1 V S2. unfold dot. destruct (parse_spec "jiab,abji") as [ins out] eqn:E. vm_compute in E. injection E as <- <-.
  unfold einsum. cbn [map]. rewrite S1, S2. cbn. rewrite !Nat.eqb_refl. cbn. eexists. split; [reflexivity|].
  rewrite suml_swap. apply suml_ext. intros a _. apply suml_ext. intros b _. rewrite suml_swap. apply suml_ext. intros i _. apply suml_ext. intros j _.
  rewrite V. ring.
Qed.
Ltac inr4 H := let a := fresh "a" in let b := fresh "b" in let i := fresh "i" in let j := fresh "j" in
  inversion H as [|a ? ? ? ? H4a]; subst; inversion H4a as [|b ? ? ? ? H4b]; subst; inversion H4b as [|i ? ? ? ? H4c]; subst; inversion H4c as [|j ? ? ? ? H4d]; subst; inversion H4d; subst.
(** C69.  The energy routine of UCC(4) returns that energy, for every array t2 of the right shape. *)
Theorem C69_ucc4_energy : forall no nv f g D c d w t2, is_fock (no + nv) f -> is_tei (no + nv) g -> shape D = [nv; nv; no; no] -> cc_type c = "UCC(4)" ->
  slook "t2aa" d = Some t2 -> shape t2 = [nv; nv; no; no] ->
  slow_energy no nv f g D c E_ucc4 d w = Some (ucc4_energy_of no nv f g D t2, w).
Proof.
  intros no nv f g D c d w t2 Hf Hg SD HU E2 S2. cbn [slow_energy]. unfold ucc4_energy, t2energy_slow. rewrite E2. cbn [obind].
  replace (xccd_flag c) with false by (unfold xccd_flag; rewrite HU; reflexivity). unfold ccd_energy.
  destruct (en_runs no nv f g t2 Hf Hg S2) as [E [RE DE]]. rewrite (call0_returns _ _ _ RE). cbn [obind fst snd].
  destruct (transp_swap no nv t2 S2) as [u [Tu [Su [SW Vu]]]]. rewrite Tu. cbn [obind].
  destruct (dag_runs no nv f g t2 u Hf Hg S2 SW) as [R [RR [SR VR]]]. rewrite (call0_returns _ _ _ RR). cbn [obind]. cbn [arr4 shape] in SR.
  rewrite tbin_ok by (cbn [tscale shape]; congruence). cbn [obind].
  match goal with |- context [dot "jiab,abji" u ?r] => destruct (dot_jiab no nv u t2 r Su Vu) as [e [He Ve]]; [cbn [shape tscale]; exact SR|] end.
  rewrite He. cbn [obind]. rewrite DE. f_equal. f_equal. unfold ucc4_energy_of. f_equal. rewrite Ve, <- suml_scale. apply suml_ext. intros a Ha. rewrite <- suml_scale. apply suml_ext. intros b Hb.
  rewrite <- suml_scale. apply suml_ext. intros i Hi. rewrite <- suml_scale. apply suml_ext. intros j Hj. apply in_seq in Ha, Hb, Hi, Hj. cbn [data tscale].
  rewrite VR by (rewrite SR; repeat constructor; lia). cbn [arr4 data]. change (Q2Qc (2 # 1)) with (1 + 1). ring.
Qed.
Print Assumptions C69_ucc4_energy.

(** ** One pass *)
Lemma bra2_plus no nv a b i j X Y psi : bra2 no nv a b i j (oplus X Y psi) = bra2 no nv a b i j (X psi) + bra2 no nv a b i j (Y psi).
Proof.
  pose proof (act_suml [(true, i); (true, j); (false, (no + b)%nat); (false, (no + a)%nat)] [X; Y] (fun X m => X psi m) (ref no nv)) as E. cbn [suml] in E. rewrite Qcplus_0_r in E.
  unfold bra2, bra0. etransitivity; [|exact E]. apply (act_ext [(true, i); (true, j); (false, (no + b)%nat); (false, (no + a)%nat)]). intros m. unfold oplus. ring.
Qed.
Lemma bra2_scale no nv a b i j q X psi : bra2 no nv a b i j (oscale q X psi) = Q2Qc q * bra2 no nv a b i j (X psi).
Proof. exact (act_scale [(true, i); (true, j); (false, (no + b)%nat); (false, (no + a)%nat)] (Q2Qc q) (X psi) (ref no nv)). Qed.
(** The doubles equations: the projection of [ucc4_doubles] and the terms with the adjoint. *)
Definition ucc4_R2 (no nv : nat) (f g t1 t2 t3 : tensor) : tensor :=
  arr4 nv nv no no (fun a b i j => bra2 no nv a b i j (ucc4_doubles no nv f g t1 t2 t3 (Phi no nv)) + dag_terms no nv g t2 a b i j).
Definition ucc4_R1 (no nv : nat) (f g t1 t2 : tensor) : tensor := elem1v no nv (ucc4_singles no nv f g t1 t2 (Phi no nv)).
Definition ucc4_R3 (no nv : nat) (f g t2 t3 : tensor) : tensor := elem3v no nv (ucc4_triples no nv f g t2 t3 (Phi no nv)).
(** [t'] is t + D R, entry by entry. *)
Definition moved (D t R t' : tensor) : Prop := shape t' = shape t /\ forall idx, inr idx (shape t) -> data t' idx = data t idx + data D idx * data R idx.
Lemma den_nz k no nv eps D idx : is_denominator k no nv eps D -> gapped k no nv eps -> inr idx (shape D) -> data D idx <> 0.
Proof.
  intros [SD HD] HG I. rewrite SD in I.
  assert (L : length idx = (k + k)%nat) by (rewrite (Forall2_len _ _ _ I), app_length, !repeat_length; reflexivity).
  set (v := firstn k idx). set (o := skipn k idx). assert (EI : idx = (v ++ o)%list) by (symmetry; apply firstn_skipn).
  assert (Lv : length v = k) by (unfold v; rewrite firstn_length, L; lia). assert (Lo : length o = k) by (unfold o; rewrite skipn_length, L; lia).
  clearbody v o. subst idx. rewrite (HD v o Lv) by (rewrite SD; exact I).
  apply Forall2_app_inv_l in I. destruct I as [m1 [m2 [Iv [Io EQ]]]].
  assert (L1 : length m1 = k) by (rewrite <- (Forall2_len _ _ _ Iv); exact Lv).
  assert (m1 = repeat nv k) as -> by (apply (f_equal (firstn k)) in EQ; rewrite !firstn_app, !repeat_length, L1, Nat.sub_diag, !firstn_O, !app_nil_r, !firstn_all2 in EQ by (rewrite ?repeat_length; lia); congruence).
  apply app_inv_head in EQ. subst m2.
  assert (FR : forall n m l, Forall2 lt l (repeat n m) -> forall x, In x l -> (x < n)%nat).
  { clear. intros n m. induction m as [|m IH]; intros l F x Hx; inversion F; subst; [destruct Hx|]. destruct Hx as [<-|Hx]; [assumption|]. eapply IH; eassumption. }
  assert (NG : gap no eps v o <> 0) by (apply HG; [exact Lv|exact Lo|exact (FR _ _ _ Iv)|exact (FR _ _ _ Io)]).
  intros Z. apply NG. transitivity (gap no eps v o * (gap no eps v o * / gap no eps v o)).
  - rewrite Qcmult_inv_r by exact NG. ring.
  - rewrite Z. ring.
Qed.
Lemma moved_ok k no nv eps D t R : is_denominator k no nv eps D -> gapped k no nv eps -> shape t = shape D -> shape R = shape D ->
  exists x s n, tbin Qcmult (trecip D) t = Some x /\ tbin Qcplus R x = Some s /\ tbin Qcmult s D = Some n /\ moved D t R n.
Proof.
  intros HD HG St SR. assert (ST : shape (trecip D) = shape D) by reflexivity.
  rewrite tbin_ok by congruence. eexists _, _, _. split; [reflexivity|]. rewrite tbin_ok by (cbn [shape]; congruence). split; [reflexivity|].
  rewrite tbin_ok by (cbn [shape]; congruence). split; [reflexivity|]. split; [cbn [shape]; congruence|]. cbn [data trecip]. intros idx I.
  rewrite St in I. pose proof (den_nz _ _ _ _ _ _ HD HG I) as ND.
  transitivity ((data D idx * / data D idx) * data t idx + data D idx * data R idx); [ring|]. rewrite Qcmult_inv_r by exact ND. ring.
Qed.
Lemma moved_teq D t R R' t' : moved D t R t' -> teq R R' -> shape R = shape t -> moved D t R' t'.
Proof. intros [S M] [SR E] SS. split; [exact S|]. intros idx I. rewrite M, E; [reflexivity|rewrite SS; exact I|exact I]. Qed.

(** C69.  One pass of UCC(4): the residuals are the projections of the operators above on singly, doubly and triply excited
    determinants (and the terms with the adjoint), and each amplitude moves by its residual times the reciprocal orbital-energy
    difference.  Amplitudes that are not yet there count as zero. *)
Theorem C69_ucc4_pass : forall no nv f g D1 Dd D3 eps d w t1 t2 t3, is_fock (no + nv) f -> is_tei (no + nv) g ->
  is_denominator 1 no nv eps D1 -> is_denominator 2 no nv eps Dd -> is_denominator 3 no nv eps D3 -> gapped 1 no nv eps -> gapped 2 no nv eps -> gapped 3 no nv eps ->
  slook "t2aa" d = Some t2 -> is_amp 2 no nv t2 -> is_amp 1 no nv t1 -> is_amp 3 no nv t3 ->
  slook "t1aa" d = Some t1 /\ slook "t3aa" d = Some t3 \/ slook "t3aa" d = None /\ t1 = tzeros [nv; no] /\ t3 = tzeros [nv; nv; nv; no; no; no] ->
  exists d' t1' t2' t3', ucc4_resid no nv f g D1 Dd D3 d w = Some (d', w) /\
    slook "t1aa" d' = Some t1' /\ slook "t2aa" d' = Some t2' /\ slook "t3aa" d' = Some t3' /\
    moved D1 t1 (ucc4_R1 no nv f g t1 t2) t1' /\ moved Dd t2 (ucc4_R2 no nv f g t1 t2 t3) t2' /\ moved D3 t3 (ucc4_R3 no nv f g t2 t3) t3'.
Proof.
  intros no nv f g D1 Dd D3 eps d w t1 t2 t3 Hf Hg HD1 HD2 HD3 G1 G2 G3 E2 A2 A1 A3 HE. unfold ucc4_resid.
  set (d0 := match slook "t3aa" d with Some _ => d | None => _ end).
  assert (L : slook "t2aa" d0 = Some t2 /\ slook "t1aa" d0 = Some t1 /\ slook "t3aa" d0 = Some t3).
  { unfold d0. destruct HE as [[X1 X3]|[X [-> ->]]]; [rewrite X3; auto|]. rewrite X. 
    repeat first [rewrite slook_sset | rewrite slook_sset_ne by reflexivity]. auto. }
  destruct L as [L2 [L1 L3]]. rewrite L2. cbn [obind]. assert (S1 := proj1 A1). assert (S2 := proj1 A2). assert (S3 := proj1 A3). cbn [repeat app] in S1, S2, S3.
  destruct (transp_swap no nv t2 S2) as [u [Tu [Su [SW Vu]]]]. rewrite Tu. cbn [obind]. rewrite L1, L3. cbn [obind].
  destruct (r1_is no nv f g t1 t2 t3 Hf Hg A1 A2 A3) as [R1 [C1 Q1]]. destruct (r3_is no nv f g t1 t2 t3 Hf Hg A1 A2 A3) as [R3 [C3 Q3]].
  destruct (c_eq no nv f g t1 t2 t3 Hf Hg A1 A2 A3) as [Rc [Cc Qc_]]. destruct (q_eq no nv f g t1 t2 t3 Hf Hg A1 A2 A3) as [Rq [Cq Qq]].
  destruct (x_eq no nv f g t1 t2 t3 Hf Hg A1 A2 A3) as [Rx [Cx Qx]]. destruct (dag_runs no nv f g t2 u Hf Hg S2 SW) as [Rd [Cd Qd]].
  rewrite (call0_returns _ _ _ C1), (call0_returns _ _ _ Cc), (call0_returns _ _ _ Cq). cbn [obind].
  pose proof (proj1 Qc_) as Sc. pose proof (proj1 Qq) as Sq. pose proof (proj1 Qx) as Sx. pose proof (proj1 Qd) as Sd. pose proof (proj1 Q1) as SR1. pose proof (proj1 Q3) as SR3.
  cbn [elem2 arr4 elem1v elem3v shape] in Sc, Sq, Sx, Sd, SR1, SR3.
  rewrite tbin_ok by congruence. cbn [obind]. rewrite (call0_returns _ _ _ Cd). cbn [obind]. rewrite tbin_ok by (cbn [shape]; congruence). cbn [obind].
  rewrite (call0_returns _ _ _ Cx). cbn [obind]. rewrite tbin_ok by (cbn [shape]; congruence). cbn [obind]. rewrite (call0_returns _ _ _ C3). cbn [obind].
  match goal with |- context [tbin Qcplus ?r] => lazymatch r with mkT _ _ => set (R2 := r) end end.
  assert (Q2 : teq R2 (ucc4_R2 no nv f g t1 t2 t3)).
  { split; [exact Sc|]. intros idx I. unfold R2 in *. cbn [shape data] in *. rewrite (proj2 Qc_), (proj2 Qq), (proj2 Qd), (proj2 Qx) by (try rewrite Sq; try rewrite Sd; try rewrite Sx; try rewrite <- Sc; exact I).
    rewrite Sc in I. inr4 I. unfold ucc4_R2, ucc4_doubles. cbn [arr4 elem2 data]. rewrite !bra2_plus, !bra2_scale.
    replace (Q2Qc (1 # 2)) with (Q2Qc (1 # 4) + Q2Qc (1 # 4)) by (apply Qc_is_canon; vm_compute; reflexivity). ring. }
  destruct (moved_ok 1 no nv eps D1 t1 R1 HD1 G1 ltac:(rewrite S1, (proj1 HD1); reflexivity) ltac:(rewrite SR1, (proj1 HD1); reflexivity)) as [x1 [s1 [n1 [X1 [Y1 [Z1 M1]]]]]].
  destruct (moved_ok 2 no nv eps Dd t2 R2 HD2 G2 ltac:(rewrite S2, (proj1 HD2); reflexivity) ltac:(rewrite (proj1 Q2), (proj1 HD2); reflexivity)) as [x2 [s2 [n2 [X2 [Y2 [Z2 M2]]]]]].
  destruct (moved_ok 3 no nv eps D3 t3 R3 HD3 G3 ltac:(rewrite S3, (proj1 HD3); reflexivity) ltac:(rewrite SR3, (proj1 HD3); reflexivity)) as [x3 [s3 [n3 [X3 [Y3 [Z3 M3]]]]]].
  rewrite X1. cbn [obind]. rewrite Y1. cbn [obind]. rewrite X2. cbn [obind]. rewrite Y2. cbn [obind]. rewrite X3. cbn [obind]. rewrite Y3. cbn [obind]. rewrite Z2. cbn [obind]. rewrite Z1. cbn [obind]. rewrite Z3. cbn [obind].
  eexists _, n1, n2, n3. split; [reflexivity|]. split; [rewrite slook_sset_ne by reflexivity; apply slook_sset|].
  split; [rewrite !slook_sset_ne by reflexivity; apply slook_sset|]. split; [apply slook_sset|].
  split; [apply (moved_teq _ _ _ _ _ M1 Q1); congruence|]. split; [apply (moved_teq _ _ _ _ _ M2 Q2); rewrite (proj1 Q2), S2; reflexivity|apply (moved_teq _ _ _ _ _ M3 Q3); congruence].
Qed.
Print Assumptions C69_ucc4_pass.

(** C69.  A pass leaves the singles (doubles, triples) as they are exactly when their equations hold. *)
Lemma moved_fixed k no nv eps D t R t' : is_denominator k no nv eps D -> gapped k no nv eps -> shape t = shape D -> shape R = shape D -> moved D t R t' ->
  (teq t' t <-> zero_tensor R).
Proof.
  intros HD HG St SR [S M]. split.
  - intros [_ E] idx I. rewrite SR in I. pose proof (den_nz _ _ _ _ _ _ HD HG I) as ND. rewrite <- St in I. pose proof (M idx I) as X. rewrite E in X by (rewrite S; exact I).
    assert (Z : data D idx * data R idx = 0) by (transitivity (data t idx + data D idx * data R idx - data t idx); [ring|]; rewrite <- X; ring).
    destruct (Qcmult_integral _ _ Z) as [Y|Y]; [contradiction|exact Y].
  - intros Z. split; [exact S|]. intros idx I. rewrite S in I. rewrite (M idx I), Z by (rewrite SR, <- St; exact I). ring.
Qed.
Theorem C69_ucc4_fixed_point : forall no nv f g D1 Dd D3 eps d w t1 t2 t3, is_fock (no + nv) f -> is_tei (no + nv) g ->
  is_denominator 1 no nv eps D1 -> is_denominator 2 no nv eps Dd -> is_denominator 3 no nv eps D3 -> gapped 1 no nv eps -> gapped 2 no nv eps -> gapped 3 no nv eps ->
  slook "t1aa" d = Some t1 -> slook "t2aa" d = Some t2 -> slook "t3aa" d = Some t3 -> is_amp 1 no nv t1 -> is_amp 2 no nv t2 -> is_amp 3 no nv t3 ->
  exists d' t1' t2' t3', ucc4_resid no nv f g D1 Dd D3 d w = Some (d', w) /\
    slook "t1aa" d' = Some t1' /\ slook "t2aa" d' = Some t2' /\ slook "t3aa" d' = Some t3' /\
    (teq t1' t1 <-> zero_tensor (ucc4_R1 no nv f g t1 t2)) /\ (teq t2' t2 <-> zero_tensor (ucc4_R2 no nv f g t1 t2 t3)) /\ (teq t3' t3 <-> zero_tensor (ucc4_R3 no nv f g t2 t3)).
Proof.
  intros no nv f g D1 Dd D3 eps d w t1 t2 t3 Hf Hg HD1 HD2 HD3 G1 G2 G3 E1 E2 E3 A1 A2 A3.
  destruct (C69_ucc4_pass no nv f g D1 Dd D3 eps d w t1 t2 t3 Hf Hg HD1 HD2 HD3 G1 G2 G3 E2 A2 A1 A3 (or_introl (conj E1 E3))) as [d' [t1' [t2' [t3' [X [L1 [L2 [L3 [M1 [M2 M3]]]]]]]]]].
  exists d', t1', t2', t3'. repeat (split; [assumption|]).
  split; [|split]; [eapply (moved_fixed 1)|eapply (moved_fixed 2)|eapply (moved_fixed 3)]; try eassumption; try (rewrite (proj1 HD1)); try (rewrite (proj1 HD2)); try (rewrite (proj1 HD3));
    first [exact (proj1 A1)|exact (proj1 A2)|exact (proj1 A3)|reflexivity].
Qed.
Print Assumptions C69_ucc4_fixed_point.

(** ** Whole calculations *)
Definition idm : nat -> nat -> Qc := relabelling_matrix (fun i => i) (fun _ => 1).
Lemma id_relab n : is_relabelling n (fun i => i) (fun _ => 1).
Proof. split; [intros i H; split; [exact H|ring]|]. split; [exists (fun j => j); auto|auto]. Qed.
Lemma id_rotated no nv ks t : shape t = map (ksize no nv) ks -> rotated no nv idm idm ks t t.
Proof.
  intros S. destruct (C67_relabelling_is_rotation no nv (fun i => i) (fun _ => 1) (fun i => i) (fun _ => 1) (id_relab no) (id_relab nv)) as [_ [_ R]].
  apply R. split; [exact S|]. split; [exact S|]. intros idx I. rewrite S in I.
  assert (EL : forall l, inr l (map (ksize no nv) ks) -> signs no (fun _ => 1) (fun _ => 1) ks l = 1 /\ labels no (fun i => i) (fun i => i) ks l = l).
  { clear. induction ks as [|k ks IH]; intros l I; inversion I as [|i ? r ? Hi Ir]; subst; [split; reflexivity|]. destruct (IH r Ir) as [E1 E2].
    unfold signs, labels in *. cbn [combine map fold_right fst snd]. rewrite E1, E2. split.
    - destruct k; cbn [ksign]; [ring|ring|]. destruct (Nat.ltb i no); ring.
    - f_equal. destruct k; cbn [klabel]; [reflexivity|reflexivity|]. destruct (Nat.ltb_spec i no); lia. }
  destruct (EL idx I) as [-> ->]. ring.
Qed.
(** C69.  If a UCC(4) calculation returns, the energies it returns are the UCC(4) energy of the doubles it returns. *)
Theorem C69_ucc4_run : forall no nv f g D1 Dd D3 eps c solve w d tf co, is_fock (no + nv) f -> is_tei (no + nv) g ->
  is_denominator 1 no nv eps D1 -> is_denominator 2 no nv eps Dd -> is_denominator 3 no nv eps D3 -> cc_label c = "ccdTypeSlow" -> cc_type c = "UCC(4)" ->
  slow_kernel no nv f g D1 Dd D3 c solve w = Returned d tf co ->
  exists t2, slook "t2aa" d = Some t2 /\ shape t2 = [nv; nv; no; no] /\
    tf = ucc4_energy_of no nv f g Dd t2 + nucE c /\ co = nucE c + ucc4_energy_of no nv f g Dd t2 - hf_energy c.
Proof.
  intros no nv f g D1 Dd D3 eps c solve w d tf co Hf Hg HD1 HD2 HD3 HL HT HK.
  assert (SE : same_end no nv idm idm (slow_kernel no nv f g D1 Dd D3 c solve w) (slow_kernel no nv f g D1 Dd D3 c solve w)).
  { apply (C68_run_rotation no nv idm idm f f g g D1 D1 Dd Dd D3 D3 eps eps c solve w w); try assumption.
    - apply relabelling_orthogonal, id_relab.
    - apply relabelling_orthogonal, id_relab.
    - apply id_rotated. exact (proj1 Hf).
    - apply id_rotated. exact (proj1 Hg).
    - intros i j Hi Hj N. f_equal. unfold rmat, idm, relabelling_matrix in N. destruct (Nat.ltb_spec i no), (Nat.ltb_spec j no); try (exfalso; apply N; reflexivity).
      + destruct (Nat.eqb_spec j i); [congruence|exfalso; apply N; reflexivity].
      + destruct (Nat.eqb_spec (j - no) (i - no)); [lia|exfalso; apply N; reflexivity].
    - left. exact HT. }
  rewrite HK in SE. destruct SE as [_ [_ SE]]. specialize (SE "t2aa").
  destruct (C30_kernel_return _ _ _ _ _ _ _ _ _ _ _ _ _ HK) as [s0 [e0 [k [s [e [_ [_ [_ [HA [Ed [HF _]]]]]]]]]]].
  cbn [after] in HA. destruct (after _ _ _ _ _ s0 e0 k) as [[s1 e1]|]; cbn [obind fst] in HA; [|discriminate].
  unfold iteration in HA. do 4 (match type of HA with obind ?x _ = _ => destruct x as [?|] end; cbn [obind fst snd] in HA; [|discriminate]).
  assert (EC : energy_call c = Some E_ucc4) by (unfold energy_call; rewrite HL, HT; reflexivity). rewrite EC in HA. cbn [obind] in HA.
  match type of HA with context [slow_energy no nv f g Dd c E_ucc4 (amps disk ?x)] => rename x into s2 end. destruct (slow_energy no nv f g Dd c E_ucc4 (amps disk s2) (world disk s2)) as [[e2 w2]|] eqn:EE; cbn [obind fst snd] in HA; [|discriminate].
  injection HA as <- <-. cbn [amps l2amps world] in *. 
  assert (T : exists t2, slook "t2aa" d = Some t2 /\ shape t2 = [nv; nv; no; no]).
  { rewrite Ed in EE. cbn [slow_energy] in EE. unfold ucc4_energy, t2energy_slow in EE. destruct (slook "t2aa" d) as [t2|]; [|discriminate]. exists t2. split; [reflexivity|exact (proj1 SE)]. }
  destruct T as [t2 [E2 S2]]. exists t2. split; [exact E2|]. split; [exact S2|].
  rewrite Ed, (C69_ucc4_energy no nv f g Dd c d (world disk s2) t2 Hf Hg (proj1 HD2) HT E2 S2) in EE. injection EE as <- <-.
  unfold finalize in HF. unfold is_qf in HF. rewrite HT in HF. cbn in HF. injection HF as <- <-. split; reflexivity.
Qed.
Print Assumptions C69_ucc4_run.

(** ** Concrete cases: two occupied and two virtual orbitals *)
Lemma i_gapped1 : gapped 1 2 2 i_eps.
Proof.
  intros virt occ LV LO HV HO. destruct virt as [|a [|]]; try discriminate. destruct occ as [|i [|]]; try discriminate.
  assert (Ha : (a < 2)%nat) by (apply HV; cbn; auto). assert (Hi : (i < 2)%nat) by (apply HO; cbn; auto).
  destruct a as [|[|]], i as [|[|]]; try lia; vm_compute; discriminate.
Qed.
Lemma i_gapped3 : gapped 3 2 2 i_eps.
Proof.
  intros virt occ LV LO HV HO. destruct virt as [|a [|b [|c [|]]]]; try discriminate. destruct occ as [|i [|j [|k [|]]]]; try discriminate.
  assert (Ha : (a < 2)%nat) by (apply HV; cbn; auto). assert (Hb : (b < 2)%nat) by (apply HV; cbn; auto). assert (Hc : (c < 2)%nat) by (apply HV; cbn; auto).
  assert (Hi : (i < 2)%nat) by (apply HO; cbn; auto). assert (Hj : (j < 2)%nat) by (apply HO; cbn; auto). assert (Hk : (k < 2)%nat) by (apply HO; cbn; auto).
  clear HV HO LV LO. destruct a as [|[|]], b as [|[|]], c as [|[|]], i as [|[|]], j as [|[|]], k as [|[|]]; try lia; vm_compute; discriminate.
Qed.
Example C69_energy_instance := C69_ucc4_energy 2 2 (i_fock 4) (i_tei 4) (i_den 2 2 2) (i_calc "UCC(4)" None) [("t2aa", i_amp 2 2 2)] None (i_amp 2 2 2)
  (i_fock_ok 4) (i_tei_ok 4) eq_refl eq_refl eq_refl eq_refl.
Example C69_pass_instance := C69_ucc4_pass 2 2 (i_fock 4) (i_tei 4) (i_den 1 2 2) (i_den 2 2 2) (i_den 3 2 2) i_eps [("t1aa", i_amp 1 2 2); ("t2aa", i_amp 2 2 2); ("t3aa", i_amp 3 2 2)] None
  (i_amp 1 2 2) (i_amp 2 2 2) (i_amp 3 2 2) (i_fock_ok 4) (i_tei_ok 4) (i_den_ok 1 2 2) (i_den_ok 2 2 2) (i_den_ok 3 2 2) i_gapped1 i_eps_gapped i_gapped3 eq_refl
  (i_amp_ok 2 2 2) (i_amp_ok 1 2 2) (i_amp_ok 3 2 2) (or_introl (conj eq_refl eq_refl)).
(** amplitudes as the first pass finds them *)
Example C69_pass_instance_first := C69_ucc4_pass 2 2 (i_fock 4) (i_tei 4) (i_den 1 2 2) (i_den 2 2 2) (i_den 3 2 2) i_eps [("t2aa", i_amp 2 2 2)] None
  (tzeros [2; 2]%nat) (i_amp 2 2 2) (tzeros [2; 2; 2; 2; 2; 2]%nat) (i_fock_ok 4) (i_tei_ok 4) (i_den_ok 1 2 2) (i_den_ok 2 2 2) (i_den_ok 3 2 2) i_gapped1 i_eps_gapped i_gapped3 eq_refl
  (i_amp_ok 2 2 2) (amp_zeros 2 2 1) (amp_zeros 2 2 3) (or_intror (conj eq_refl (conj eq_refl eq_refl))).
Example C69_fixed_instance := C69_ucc4_fixed_point 2 2 (i_fock 4) (i_tei 4) (i_den 1 2 2) (i_den 2 2 2) (i_den 3 2 2) i_eps [("t1aa", i_amp 1 2 2); ("t2aa", i_amp 2 2 2); ("t3aa", i_amp 3 2 2)] None
  (i_amp 1 2 2) (i_amp 2 2 2) (i_amp 3 2 2) (i_fock_ok 4) (i_tei_ok 4) (i_den_ok 1 2 2) (i_den_ok 2 2 2) (i_den_ok 3 2 2) i_gapped1 i_eps_gapped i_gapped3 eq_refl eq_refl eq_refl
  (i_amp_ok 1 2 2) (i_amp_ok 2 2 2) (i_amp_ok 3 2 2).
