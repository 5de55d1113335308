(** C78: the sources and energies of wicked_T3corr.py are matrix elements of commutators with the fluctuation potential. *)
From Coq Require Import String Ascii List Arith NArith ZArith QArith Qcanon Bool Lia Permutation.
From Verif Require Import Sums Tensor Interp Poly SymExec Canon Spec SpecDriver Instances Setup Master Spin Check Tabs NF Antisym Formula P_antisym Asym.
From Verif Require Import Fock Wick CCState P_fock Dress Commut NOrd Proj Elem P_fock2 P_fock4 P_ucc4.
From Verif Require Code_wicked_T3corr WickedT3 P_wicked4.
Import ListNotations.
Open Scope string_scope.
Open Scope list_scope.
Open Scope Qc_scope.

(** ** Proof machinery *)
Definition w1 : list oterm := adh ts1 0 hamsW.
Definition w2 : list oterm := adh ts2 0 hamsW.
Definition w3 : list oterm := adh ts3 0 hamsW.
Definition w22 : list oterm := scl (1 # 2) (adh ts2 1 (adh ts2 0 hamsW)).
Definition w22' : list oterm := adh ts2 1 (adh ts2 0 hamsW).
Definition dot1 : fn := mkFn ["x"; "t"] [] (EEins "ia,ai->" [EVar "x"; EVar "t"]).
Definition p_dot1 : poly := Eval vm_compute in [mkterm "" "ia" 1 [(60%N, "ia"); (61%N, "ai")]].
Definition dot3 : fn := mkFn ["x"; "l"] [] (EScale (1 # 4) (EEins "acdikm,kmcd->ia" [EVar "x"; EVar "l"])).
Definition p_dot3 : poly := Eval vm_compute in [mkterm "ia" "kmcd" (1 # 4) [(61%N, "kmcd"); (60%N, "acdikm")]].
Definition raw3 : fn := mkFn ["t"; "r"] [] (EScale (1 # 4) (EEins "abij,kc->abcijk" [EVar "t"; EVar "r"])).
Definition p_raw3 : poly := Eval vm_compute in [mkterm "abcijk" "" (1 # 4) [(60%N, "abij"); (61%N, "kc")]].
Section Src.
  Variables no nv : nat.
  Variables g t1 t2 t3 T1 T2 T3 : tensor.
  Hypothesis Hg : is_tei (no + nv) g.
  Hypothesis H1 : is_amp 1 no nv t1.
  Hypothesis H2 : is_amp 2 no nv t2.
  Hypothesis H3 : is_amp 3 no nv t3.
  Hypothesis S1 : swapped 1 t1 T1.
  Hypothesis S2 : swapped 2 t2 T2.
  Hypothesis S3 : swapped 3 t3 T3.
  Notation zf := (mkT [no + nv; no + nv]%nat (fun _ => 0)).
  Notation tab := [(0%N, ([6;6]%N, zf)); (1%N, ([6;6;6;6]%N, g)); (2%N, ([1;0]%N, t1)); (3%N, ([1;1;0;0]%N, t2)); (4%N, ([1;1;1;0;0;0]%N, t3))].
  Notation range := (so_range no nv).
  Notation A := (Aof range tab).
  Notation W := (Fluct no nv g).
  Notation vac := (Phi no nv).
  Ltac ck := vm_cast_no_check (@eq_refl bool true).
  Lemma w_OK : Forall (atom_ok range sy) tab. Proof using Hg H1 H2 H3. pose proof (zf_ok no nv) as Hf. oks. Qed.
  Notation iW := (fl_op no nv zf g tab eq_refl eq_refl).
  Lemma w1_is : is_op no nv A (comm W (T1op no nv t1)) w1.
  Proof using. unfold w1, w2, w3. apply (comm_is_op no nv A ts1 ts1_c (T1op no nv t1) (t1_sem no nv zf g t1 t2 t3) 0); [lia|ck|exact iW]. Qed.
  Lemma w2_is : is_op no nv A (comm W (T2op no nv t2)) w2.
  Proof using. unfold w1, w2, w3. apply (comm_is_op no nv A ts2 ts2_c (T2op no nv t2) (t2_sem no nv tab t2 eq_refl) 0); [lia|ck|exact iW]. Qed.
  Lemma w3_is : is_op no nv A (comm W (T3op no nv t3)) w3.
  Proof using. unfold w1, w2, w3. apply (comm_is_op no nv A ts3 ts3_c (T3op no nv t3) (t3_sem no nv tab t3 eq_refl) 0); [lia|ck|exact iW]. Qed.
  Lemma w22_is : is_op no nv A (oscale (1 # 2) (comm (comm W (T2op no nv t2)) (T2op no nv t2))) w22.
  Proof using. unfold w22. apply scale_is_op. apply (comm_is_op no nv A ts2 ts2_c (T2op no nv t2) (t2_sem no nv tab t2 eq_refl) 1); [lia|ck|exact w2_is]. Qed.
  Lemma w22'_is : is_op no nv A (comm (comm W (T2op no nv t2)) (T2op no nv t2)) w22'.
  Proof using. unfold w22'. apply (comm_is_op no nv A ts2 ts2_c (T2op no nv t2) (t2_sem no nv tab t2 eq_refl) 1); [lia|ck|exact w2_is]. Qed.
  Lemma one X ys : is_op no nv A X ys -> elp_ok (xvs [0;1]%N) D1o ys = true -> so_vsim no nv tab (SP [0;1]%N (elp (xvs [0;1]%N) D1o ys)) (VT (elem1_ov no nv (X vac))).
  Proof using. intros I K. apply (mat1o no nv tab _ _ D1o); [reflexivity|reflexivity|]. intros e He. apply (op_elem no nv tab _ _ _ _ _ I K He). Qed.
  Lemma two X ys : is_op no nv A X ys -> elp_ok (xvs [0;0;1;1]%N) D2o ys = true -> so_vsim no nv tab (SP [0;0;1;1]%N (elp (xvs [0;0;1;1]%N) D2o ys)) (VT (elem2_ov no nv (X vac))).
  Proof using. intros I K. apply (mat2o no nv tab _ _ D2o); [reflexivity|reflexivity|]. intros e He. apply (op_elem no nv tab _ _ _ _ _ I K He). Qed.
  Lemma three X ys : is_op no nv A X ys -> elp_ok (xvs [1;1;1;0;0;0]%N) D3v ys = true -> so_vsim no nv tab (SP [1;1;1;0;0;0]%N (elp (xvs [1;1;1;0;0;0]%N) D3v ys)) (VT (elem3v no nv (X vac))).
  Proof using. intros I K. apply (mat3v no nv tab _ _ D3v); [reflexivity|reflexivity|]. intros e He. apply (op_elem no nv tab _ _ _ _ _ I K He). Qed.
  Notation x1 := (swp 2 1 [0;1]%N).
  Notation x2 := (swp 3 2 [0;0;1;1]%N).
  Notation x3 := (swp 4 3 [0;0;0;1;1;1]%N).
  Lemma net1 : exists R, returns 0 [] Code_wicked_T3corr.get_netT1_fromT2 [VT g; o_ no; v_ no; VT T2] R /\ teq R (elem1_ov no nv (comm W (T2op no nv t2) vac)).
  Proof using All.
    eapply (so_reads no nv tab 0 [] Code_wicked_T3corr.get_netT1_fromT2 [xG; xo; xv; x2] _ [0;1]%N _ _ w_OK); [vsims|apply (one _ _ w2_is); ck|chk_].
  Qed.
  Lemma src2 : exists U R, returns 0 [] Code_wicked_T3corr.get_T2resid_fromT1bar [VT g; o_ no; v_ no; VT T1] U /\
    returns 0 [] Code_wicked_T3corr.antisym_T2 [VT U; VInt no; VInt nv] R /\ teq R (elem2_ov no nv (comm W (T1op no nv t1) vac)).
  Proof using All.
    assert (V : Forall2 (so_vsim no nv tab) [xG; xo; xv; x1] [VT g; o_ no; v_ no; VT T1]) by vsims.
    so_nf w_OK 0%nat (@nil (string * fn)) Code_wicked_T3corr.get_T2resid_fromT1bar [0;0;1;1]%N V U HU VU.
    pose proof (so_asym_vs_ov no nv tab _ _ _ VU) as V4.
    destruct (so_reads no nv tab 0 [] Code_wicked_T3corr.antisym_T2 _ _ [0;0;1;1]%N _ _ w_OK V4 (two _ _ w1_is ltac:(ck))) as [R [HR TR]]; [chk_|].
    exists U, R. auto.
  Qed.
  Lemma net2 : exists U R, returns 0 [] Code_wicked_T3corr.build_netT2 [VT g; o_ no; v_ no; VT T3] U /\
    returns 0 [] Code_wicked_T3corr.antisym_T2 [VT U; VInt no; VInt nv] R /\ teq R (elem2_ov no nv (comm W (T3op no nv t3) vac)).
  Proof using All.
    assert (V : Forall2 (so_vsim no nv tab) [xG; xo; xv; x3] [VT g; o_ no; v_ no; VT T3]) by vsims.
    so_nf w_OK 0%nat (@nil (string * fn)) Code_wicked_T3corr.build_netT2 [0;0;1;1]%N V U HU VU.
    pose proof (so_asym_vs_ov no nv tab _ _ _ VU) as V4.
    destruct (so_reads no nv tab 0 [] Code_wicked_T3corr.antisym_T2 _ _ [0;0;1;1]%N _ _ w_OK V4 (two _ _ w3_is ltac:(ck))) as [R [HR TR]]; [chk_|].
    exists U, R. auto.
  Qed.
  Lemma tri2 : exists U R X, returns 0 [] Code_wicked_T3corr.build_T3_secondO [VT g; o_ no; v_ no; VT T2] U /\
    returns 0 [] Code_wicked_T3corr.antisym_T3 [VT U; VInt no; VInt nv] R /\ swapped 3 X R /\ teq X (elem3v no nv (comm W (T2op no nv t2) vac)).
  Proof using All.
    assert (V : Forall2 (so_vsim no nv tab) [xG; xo; xv; x2] [VT g; o_ no; v_ no; VT T2]) by vsims.
    so_nf w_OK 0%nat (@nil (string * fn)) Code_wicked_T3corr.build_T3_secondO [0;0;0;1;1;1]%N V U HU VU.
    pose proof (so_asym_vs_ov no nv tab _ _ _ VU) as V4.
    so_nf w_OK 0%nat (@nil (string * fn)) Code_wicked_T3corr.antisym_T3 [0;0;0;1;1;1]%N V4 R HR VR.
    flip_ (so_vs_flip no nv tab) 3%nat VR X SX VX.
    exists U, R, X. split; [exact HU|]. split; [exact HR|]. split; [exact SX|].
    eapply (so_vs_eq no nv tab w_OK [1;1;1;0;0;0]%N); [exact VX|apply (three _ _ w2_is); ck|chk_].
  Qed.
  Lemma tri3 : exists U R X, returns 0 [] Code_wicked_T3corr.build_T3_thirdO [VT g; o_ no; v_ no; VT T2] U /\
    returns 0 [] Code_wicked_T3corr.antisym_T3 [VT U; VInt no; VInt nv] R /\ swapped 3 X R /\
    teq X (elem3v no nv (oscale (1 # 2) (comm (comm W (T2op no nv t2)) (T2op no nv t2)) vac)).
  Proof using All.
    assert (V : Forall2 (so_vsim no nv tab) [xG; xo; xv; x2] [VT g; o_ no; v_ no; VT T2]) by vsims.
    so_nf w_OK 0%nat (@nil (string * fn)) Code_wicked_T3corr.build_T3_thirdO [0;0;0;1;1;1]%N V U HU VU.
    pose proof (so_asym_vs_ov no nv tab _ _ _ VU) as V4.
    so_nf w_OK 0%nat (@nil (string * fn)) Code_wicked_T3corr.antisym_T3 [0;0;0;1;1;1]%N V4 R HR VR.
    flip_ (so_vs_flip no nv tab) 3%nat VR X SX VX.
    exists U, R, X. split; [exact HU|]. split; [exact HR|]. split; [exact SX|].
    eapply (so_vs_eq no nv tab w_OK [1;1;1;0;0;0]%N); [exact VX|apply (three _ _ w22_is); ck|chk_].
  Qed.
  Lemma dot1_ok x u : shape x = [no; nv] -> shape u = [nv; no] -> exists E, returns 0 [] dot1 [VT x; VT u] E /\
    teq E (arr0 (Sum i < no, Sum a < nv, data x [i; a] * data u [a; i])).
  Proof using.
    intros Q1 Q2. set (tb := [(60%N, ([0;1]%N, x)); (61%N, ([1;0]%N, u))] : atomtab).
    assert (M1 : [no; nv] = map (dim range) [0;1]%N) by (symmetry; apply (sh_ov no nv 1)).
    assert (M2 : [nv; no] = map (dim range) [1;0]%N) by (symmetry; apply (sh_vo no nv 1)).
    assert (OK : Forall (atom_ok range sy) tb).
    { unfold tb. constructor; [|constructor; [|constructor]]; apply atom_ok_gen; first [reflexivity|congruence]. }
    eapply (so_reads no nv tb 0 [] dot1 [at_ 60 [0;1]%N; at_ 61 [1;0]%N] _ [] p_dot1 _ OK).
    - constructor; [|constructor; [|constructor]]; apply so_atom; first [reflexivity|congruence].
    - unfold p_dot1, tb. so_form.
    - chk_.
  Qed.
  Lemma par : exists E, returns 0 [] Code_wicked_T3corr.getE_parenT_t1 [VT g; o_ no; v_ no; VT T3; VT t1] E /\
    teq E (arr0 (Sum i < no, Sum a < nv, bra1 no nv a i (comm W (T3op no nv t3) vac) * data t1 [a; i])).
  Proof using All.
    assert (V : Forall2 (so_vsim no nv tab) [xG; xo; xv; x3; at_ 2 [1;0]%N] [VT g; o_ no; v_ no; VT T3; VT t1]) by vsims.
    assert (V1 : so_vsim no nv tab (SP [0;1]%N (elp (xvs [0;1]%N) D1o w3)) (VT (elem1_ov no nv (comm W (T3op no nv t3) vac)))) by (apply (one _ _ w3_is); ck).
    assert (V' : Forall2 (so_vsim no nv tab) [_; at_ 2 [1;0]%N] [VT (elem1_ov no nv (comm W (T3op no nv t3) vac)); VT t1]) by (constructor; [exact V1|vsims]).
    so_nf w_OK 0%nat (@nil (string * fn)) dot1 (@nil N) V' E' HE' VE'.
    destruct (so_reads no nv tab 0 [] Code_wicked_T3corr.getE_parenT_t1 _ _ [] _ _ w_OK V VE') as [E [HE TE]]; [chk_|].
    exists E. split; [exact HE|].
    destruct (dot1_ok (elem1_ov no nv (comm W (T3op no nv t3) vac)) t1 eq_refl (proj1 H1)) as [E2 [HE2 TE2]].
    rewrite (ret_unique _ _ _ _ _ _ HE' HE2) in TE. destruct TE as [A1 B1], TE2 as [A2 B2]. split; [exact (eq_trans A1 A2)|]. intros idx I. rewrite (B1 idx I). apply B2. rewrite <- A1. exact I.
  Qed.
  Lemma l2bra psi a i l : (i < no)%nat ->
    bra1 no nv a i (L2op no nv l psi) = Q2Qc (1 # 4) * (Sum k < no, Sum m < no, Sum c < nv, Sum d < nv, data l [k; m; c; d] * bra3 no nv a c d i k m psi).
  Proof using.
    intros Hi. change (bra1 no nv a i (L2op no nv l psi)) with (act [(true, i); (false, no + a)]%nat (L2op no nv l psi) (ref no nv)).
    rewrite bra_L2. f_equal. apply suml_ext. intros k Hk. apply suml_ext. intros m Hm. apply suml_ext. intros c _. apply suml_ext. intros d _. f_equal.
    apply in_seq in Hk, Hm. destruct Hk as [_ Hk], Hm as [_ Hm]. cbn [plus] in Hk, Hm.
    set (u := [(false, no + a)]%nat). set (w := [(true, k); (true, m); (false, no + d); (false, no + c)]%nat).
    change (act [(true, i)] (act u (act w psi)) (ref no nv) = act [(true, i)] (act w (act u psi)) (ref no nv)).
    apply act_ext. intros n. apply (dex_comm no); [| |reflexivity].
    - unfold u. repeat constructor; unfold dex; cbn [fst snd]; apply Nat.ltb_ge; lia.
    - unfold w. repeat constructor; unfold dex; cbn [fst snd]; [apply Nat.ltb_lt; lia|apply Nat.ltb_lt; lia|apply Nat.ltb_ge; lia|apply Nat.ltb_ge; lia].
  Qed.
  Lemma dot3_ok x u : shape x = [nv; nv; nv; no; no; no] -> shape u = [no; no; nv; nv] -> exists E, returns 0 [] dot3 [VT x; VT u] E /\
    teq E (mkT [no; nv] (fun l => match l with [i; a] => Q2Qc (1 # 4) * (Sum k < no, Sum m < no, Sum c < nv, Sum d < nv, data u [k; m; c; d] * data x [a; c; d; i; k; m]) | _ => 0 end)).
  Proof using.
    intros Q1 Q2. set (tb := [(60%N, ([1;1;1;0;0;0]%N, x)); (61%N, ([0;0;1;1]%N, u))] : atomtab).
    assert (M1 : [nv; nv; nv; no; no; no] = map (dim range) [1;1;1;0;0;0]%N) by (symmetry; apply (sh_vo no nv 3)).
    assert (M2 : [no; no; nv; nv] = map (dim range) [0;0;1;1]%N) by (symmetry; apply (sh_ov no nv 2)).
    assert (OK : Forall (atom_ok range sy) tb).
    { unfold tb. constructor; [|constructor; [|constructor]]; apply atom_ok_gen; first [reflexivity|congruence]. }
    eapply (so_reads no nv tb 0 [] dot3 [at_ 60 [1;1;1;0;0;0]%N; at_ 61 [0;0;1;1]%N] _ [0;1]%N p_dot3 _ OK).
    - constructor; [|constructor; [|constructor]]; apply so_atom; first [reflexivity|congruence].
    - unfold p_dot3, tb. so_form.
    - chk_.
  Qed.
  Lemma net1' : exists R, returns 0 [] Code_wicked_T3corr.get_netT1_thirdO [VT g; o_ no; v_ no; VT T2] R /\
    teq R (elem1_ov no nv (L2op no nv T2 (comm W (T2op no nv t2) vac))).
  Proof using All.
    assert (V : Forall2 (so_vsim no nv tab) [xG; xo; xv; x2] [VT g; o_ no; v_ no; VT T2]) by vsims.
    assert (V1 : so_vsim no nv tab (SP [1;1;1;0;0;0]%N (elp (xvs [1;1;1;0;0;0]%N) D3v w2)) (VT (elem3v no nv (comm W (T2op no nv t2) vac)))) by (apply (three _ _ w2_is); ck).
    assert (V' : Forall2 (so_vsim no nv tab) [_; x2] [VT (elem3v no nv (comm W (T2op no nv t2) vac)); VT T2]) by (constructor; [exact V1|vsims]).
    so_nf w_OK 0%nat (@nil (string * fn)) dot3 [0;1]%N V' E' HE' VE'.
    destruct (so_reads no nv tab 0 [] Code_wicked_T3corr.get_netT1_thirdO _ _ [0;1]%N _ _ w_OK V VE') as [E [HE TE]]; [chk_|].
    exists E. split; [exact HE|].
    assert (QT : shape T2 = [no; no; nv; nv]) by (destruct S2 as [-> _]; rewrite (proj1 H2); reflexivity).
    destruct (dot3_ok (elem3v no nv (comm W (T2op no nv t2) vac)) T2 eq_refl QT) as [E2 [HE2 TE2]].
    rewrite (ret_unique _ _ _ _ _ _ HE' HE2) in TE. destruct TE as [A1 B1], TE2 as [A2 B2]. split; [exact (eq_trans A1 A2)|]. intros idx I. rewrite (B1 idx I).
    rewrite A1, A2 in I. rewrite B2 by (rewrite A2; exact I). cbn [shape] in I. inversion I as [|i ? l ? Hi I1]; subst. inversion I1 as [|a ? l' ? Ha I2]; subst. inversion I2; subst.
    cbn [data elem1_ov elem3v]. symmetry. apply l2bra. exact Hi.
  Qed.
  Lemma capA : exists R, returns 1 WickedT3.wicked_lib Code_wicked_T3corr.fifthOrder_capA [VT g; o_ no; v_ no; VT t2; VInt no; VInt nv] R /\
    teq R (elem3v no nv (comm (comm W (T2op no nv t2)) (T2op no nv t2) vac)).
  Proof using All.
    eapply (so_reads no nv tab 1 WickedT3.wicked_lib Code_wicked_T3corr.fifthOrder_capA [xG; xo; xv; at_ 3 [1;1;0;0]%N; SDim 0; SDim 1] _ [1;1;1;0;0;0]%N _ _ w_OK); [vsims|apply (three _ _ w22'_is); ck|chk_].
  Qed.
  Lemma raw3_ok x u : shape x = [nv; nv; no; no] -> shape u = [no; nv] -> exists E, returns 0 [] raw3 [VT x; VT u] E /\
    teq E (mkT [nv; nv; nv; no; no; no] (fun l => match l with [a; b; c; i; j; k] => Q2Qc (1 # 4) * (data x [a; b; i; j] * data u [k; c]) | _ => 0 end)).
  Proof using.
    intros Q1 Q2. set (tb := [(60%N, ([1;1;0;0]%N, x)); (61%N, ([0;1]%N, u))] : atomtab).
    assert (M1 : [nv; nv; no; no] = map (dim range) [1;1;0;0]%N) by (symmetry; apply (sh_vo no nv 2)).
    assert (M2 : [no; nv] = map (dim range) [0;1]%N) by (symmetry; apply (sh_ov no nv 1)).
    assert (OK : Forall (atom_ok range sy) tb).
    { unfold tb. constructor; [|constructor; [|constructor]]; apply atom_ok_gen; first [reflexivity|congruence]. }
    eapply (so_reads no nv tb 0 [] raw3 [at_ 60 [1;1;0;0]%N; at_ 61 [0;1]%N] _ [1;1;1;0;0;0]%N p_raw3 _ OK).
    - constructor; [|constructor; [|constructor]]; apply so_atom; first [reflexivity|congruence].
    - unfold p_raw3, tb. so_form.
    - chk_.
  Qed.
  Lemma capC : exists R M, returns 1 WickedT3.wicked_lib Code_wicked_T3corr.fifthOrder_capC [VT g; o_ no; v_ no; VT t2; VInt no; VInt nv] R /\ teq R M /\
    antisymmetrised 3 (mkT [nv; nv; nv; no; no; no] (fun l => match l with [a; b; c; i; j; k] =>
      Q2Qc (1 # 4) * (data t2 [a; b; i; j] * bra1 no nv c k (comm W (T2op no nv t2) vac)) | _ => 0 end)) M.
  Proof using All.
    assert (V1 : so_vsim no nv tab (SP [0;1]%N (elp (xvs [0;1]%N) D1o w2)) (VT (elem1_ov no nv (comm W (T2op no nv t2) vac)))) by (apply (one _ _ w2_is); ck).
    assert (V' : Forall2 (so_vsim no nv tab) [at_ 3 [1;1;0;0]%N; _] [VT t2; VT (elem1_ov no nv (comm W (T2op no nv t2) vac))])
      by (constructor; [apply so_atom; [reflexivity|rewrite (proj1 H2); symmetry; apply (sh_vo no nv 2)]|constructor; [exact V1|constructor]]).
    so_nf w_OK 0%nat (@nil (string * fn)) raw3 [1;1;1;0;0;0]%N V' E' HE' VE'.
    destruct (raw3_ok t2 (elem1_ov no nv (comm W (T2op no nv t2) vac)) (proj1 H2) eq_refl) as [E2 [HE2 TE2]].
    rewrite <- (ret_unique _ _ _ _ _ _ HE' HE2) in TE2. pose proof (so_vs_teq _ _ _ _ _ _ _ TE2 VE') as VW.
    change [1;1;1;0;0;0]%N with (vo_ 3) in VW.
    so_asym w_OK Code_tamps.antisym_T3 asym3 3%nat VW M3 AT ANT V3.
    assert (V : Forall2 (so_vsim no nv tab) [xG; xo; xv; at_ 3 [1;1;0;0]%N; SDim 0; SDim 1] [VT g; o_ no; v_ no; VT t2; VInt no; VInt nv]) by vsims.
    destruct (so_reads no nv tab 1 WickedT3.wicked_lib Code_wicked_T3corr.fifthOrder_capC _ _ (vo_ 3) _ _ w_OK V V3) as [R [HR TR]]; [chk_|].
    exists R, M3. split; [exact HR|]. split; [exact TR|exact AT].
  Qed.
End Src.

(** C78.  With W the fluctuation potential (the Hamiltonian without its Fock operator), T1, T2, T3 the cluster operators and arrays with
    occupied indices first: get_netT1_fromT2 is <Phi_i^a|[W,T2]|Phi>; the antisymmetrised get_T2resid_fromT1bar and build_netT2 are
    <Phi_ij^ab|[W,T1]|Phi> and <Phi_ij^ab|[W,T3]|Phi>; the antisymmetrised build_T3_secondO and build_T3_thirdO are
    <Phi_ijk^abc|[W,T2]|Phi> and <Phi_ijk^abc|1/2 [[W,T2],T2]|Phi>; getE_parenT_t1 is the sum of t1 times <Phi_i^a|[W,T3]|Phi>. *)
Theorem C78_wicked_sources : forall no nv g t1 t2 t3 T1 T2 T3,
  is_tei (no + nv) g -> is_amp 1 no nv t1 -> is_amp 2 no nv t2 -> is_amp 3 no nv t3 -> swapped 1 t1 T1 -> swapped 2 t2 T2 -> swapped 3 t3 T3 ->
  let W := Fluct no nv g in let X1 := T1op no nv t1 in let X2 := T2op no nv t2 in let X3 := T3op no nv t3 in let vac := Phi no nv in
  exists R1 U2 R2 U2' R2' U3 R3 U3' R3' E,
    returns 0 [] Code_wicked_T3corr.get_netT1_fromT2 [VT g; o_ no; v_ no; VT T2] R1 /\
    returns 0 [] Code_wicked_T3corr.get_T2resid_fromT1bar [VT g; o_ no; v_ no; VT T1] U2 /\
    returns 0 [] Code_wicked_T3corr.antisym_T2 [VT U2; VInt no; VInt nv] R2 /\
    returns 0 [] Code_wicked_T3corr.build_netT2 [VT g; o_ no; v_ no; VT T3] U2' /\
    returns 0 [] Code_wicked_T3corr.antisym_T2 [VT U2'; VInt no; VInt nv] R2' /\
    returns 0 [] Code_wicked_T3corr.build_T3_secondO [VT g; o_ no; v_ no; VT T2] U3 /\
    returns 0 [] Code_wicked_T3corr.antisym_T3 [VT U3; VInt no; VInt nv] R3 /\
    returns 0 [] Code_wicked_T3corr.build_T3_thirdO [VT g; o_ no; v_ no; VT T2] U3' /\
    returns 0 [] Code_wicked_T3corr.antisym_T3 [VT U3'; VInt no; VInt nv] R3' /\
    returns 0 [] Code_wicked_T3corr.getE_parenT_t1 [VT g; o_ no; v_ no; VT T3; VT t1] E /\
    shape R1 = [no; nv] /\ shape R2 = [no; no; nv; nv] /\ shape R2' = [no; no; nv; nv] /\
    shape R3 = [no; no; no; nv; nv; nv] /\ shape R3' = [no; no; no; nv; nv; nv] /\ shape E = [] /\
    data E [] = (Sum i < no, Sum a < nv, bra1 no nv a i (comm W X3 vac) * data t1 [a; i]) /\
    forall i j k a b c, (i < no)%nat -> (j < no)%nat -> (k < no)%nat -> (a < nv)%nat -> (b < nv)%nat -> (c < nv)%nat ->
      data R1 [i; a] = bra1 no nv a i (comm W X2 vac) /\
      data R2 [i; j; a; b] = bra2 no nv a b i j (comm W X1 vac) /\
      data R2' [i; j; a; b] = bra2 no nv a b i j (comm W X3 vac) /\
      data R3 [i; j; k; a; b; c] = bra3 no nv a b c i j k (comm W X2 vac) /\
      data R3' [i; j; k; a; b; c] = bra3 no nv a b c i j k (oscale (1 # 2) (comm (comm W X2) X2) vac).
Proof.
  intros no nv g t1 t2 t3 T1 T2 T3 Hg H1 H2 H3 S1 S2 S3 W X1 X2 X3 vac.
  destruct (net1 no nv g t1 t2 t3 T1 T2 T3 Hg H1 H2 H3 S1 S2 S3) as [R1 [A1 [B1 C1]]].
  destruct (src2 no nv g t1 t2 t3 T1 T2 T3 Hg H1 H2 H3 S1 S2 S3) as [U2 [R2 [A2 [A2' [B2 C2]]]]].
  destruct (net2 no nv g t1 t2 t3 T1 T2 T3 Hg H1 H2 H3 S1 S2 S3) as [V2 [Q2 [A3 [A3' [B3 C3]]]]].
  destruct (tri2 no nv g t1 t2 t3 T1 T2 T3 Hg H1 H2 H3 S1 S2 S3) as [U3 [R3 [Y3 [A4 [A4' [[D4 E4] [B4 C4]]]]]]].
  destruct (tri3 no nv g t1 t2 t3 T1 T2 T3 Hg H1 H2 H3 S1 S2 S3) as [V3 [Q3 [Z3 [A5 [A5' [[D5 E5] [B5 C5]]]]]]].
  destruct (par no nv g t1 t2 t3 T1 T2 T3 Hg H1 H2 H3 S1 S2 S3) as [E [A6 [B6 C6]]].
  cbn [elem3v shape] in B4, B5. rewrite B4 in D4, E4. rewrite B5 in D5, E5.
  exists R1, U2, R2, V2, Q2, U3, R3, V3, Q3, E. repeat (split; [first [assumption|exact B1|exact B2|exact B3|exact B6]|]).
  split; [apply (C6 []); rewrite B6; constructor|]. intros i j k a b c Hi Hj Hk Ha Hb Hc.
  split; [apply (C1 [i; a]); rewrite B1; repeat constructor; assumption|].
  split; [apply (C2 [i; j; a; b]); rewrite B2; repeat constructor; assumption|].
  split; [apply (C3 [i; j; a; b]); rewrite B3; repeat constructor; assumption|].
  assert (I : inr ([a; b; c] ++ [i; j; k]) [nv; nv; nv; no; no; no]) by (repeat constructor; assumption).
  split.
  - change [i; j; k; a; b; c] with ([i; j; k] ++ [a; b; c]). rewrite (E4 [a; b; c] [i; j; k] eq_refl I). apply (C4 [a; b; c; i; j; k]). rewrite B4. exact I.
  - change [i; j; k; a; b; c] with ([i; j; k] ++ [a; b; c]). rewrite (E5 [a; b; c] [i; j; k] eq_refl I). apply (C5 [a; b; c; i; j; k]). rewrite B5. exact I.
Qed.
Print Assumptions C78_wicked_sources.
Example C78_instance := C78_wicked_sources 3 3 (i_tei 6) (i_amp 1 3 3) (i_amp 2 3 3) (i_amp 3 3 3) _ _ _ (i_tei_ok 6) (i_amp_ok 1 3 3) (i_amp_ok 2 3 3) (i_amp_ok 3 3 3)
  (swap_t_ok 1 _) (swap_t_ok 2 _) (swap_t_ok 3 _).
(** C78, continued.  get_netT1_thirdO is <Phi_i^a|T2' [W,T2]|Phi>, with T2' the de-excitation operator of the same amplitudes. *)
Theorem C78_netT1_thirdO : forall no nv g t2 T2, is_tei (no + nv) g -> is_amp 2 no nv t2 -> swapped 2 t2 T2 ->
  exists R, returns 0 [] Code_wicked_T3corr.get_netT1_thirdO [VT g; o_ no; v_ no; VT T2] R /\ shape R = [no; nv] /\
    forall i a, (i < no)%nat -> (a < nv)%nat ->
      data R [i; a] = bra1 no nv a i (L2op no nv T2 (comm (Fluct no nv g) (T2op no nv t2) (Phi no nv))).
Proof.
  intros no nv g t2 T2 Hg H2 S2.
  destruct (net1' no nv g (i_amp 1 no nv) t2 (i_amp 3 no nv) _ T2 _ Hg (i_amp_ok 1 no nv) H2 (i_amp_ok 3 no nv) (swap_t_ok 1 _) S2 (swap_t_ok 3 _)) as [R [A [B C]]].
  exists R. split; [exact A|]. split; [exact B|]. intros i a Hi Ha. apply (C [i; a]). rewrite B. repeat constructor; assumption.
Qed.
Print Assumptions C78_netT1_thirdO.
Example C78_netT1_instance := C78_netT1_thirdO 3 3 (i_tei 6) (i_amp 2 3 3) _ (i_tei_ok 6) (i_amp_ok 2 3 3) (swap_t_ok 2 _).
(** C78, continued.  For doubles t2 with virtual indices first, fifthOrder_capA is <Phi_ijk^abc|[[W,T2],T2]|Phi>, and fifthOrder_capC is the
    antisymmetrised product of a quarter of t2 and <Phi_k^c|[W,T2]|Phi>. *)
Theorem C78_fifth_order_caps : forall no nv g t2, is_tei (no + nv) g -> is_amp 2 no nv t2 ->
  let W := Fluct no nv g in let X2 := T2op no nv t2 in let vac := Phi no nv in
  exists RA RC M,
    returns 1 WickedT3.wicked_lib Code_wicked_T3corr.fifthOrder_capA [VT g; o_ no; v_ no; VT t2; VInt no; VInt nv] RA /\
    returns 1 WickedT3.wicked_lib Code_wicked_T3corr.fifthOrder_capC [VT g; o_ no; v_ no; VT t2; VInt no; VInt nv] RC /\
    shape RA = [nv; nv; nv; no; no; no] /\ teq RC M /\
    antisymmetrised 3 (mkT [nv; nv; nv; no; no; no] (fun l => match l with [a; b; c; i; j; k] =>
      Q2Qc (1 # 4) * (data t2 [a; b; i; j] * bra1 no nv c k (comm W X2 vac)) | _ => 0 end)) M /\
    forall a b c i j k, (a < nv)%nat -> (b < nv)%nat -> (c < nv)%nat -> (i < no)%nat -> (j < no)%nat -> (k < no)%nat ->
      data RA [a; b; c; i; j; k] = bra3 no nv a b c i j k (comm (comm W X2) X2 vac).
Proof.
  intros no nv g t2 Hg H2 W X2 vac.
  destruct (capA no nv g (i_amp 1 no nv) t2 (i_amp 3 no nv) _ _ _ Hg (i_amp_ok 1 no nv) H2 (i_amp_ok 3 no nv) (swap_t_ok 1 _) (swap_t_ok 2 _) (swap_t_ok 3 _)) as [RA [A1 [B1 C1]]].
  destruct (capC no nv g (i_amp 1 no nv) t2 (i_amp 3 no nv) _ _ _ Hg (i_amp_ok 1 no nv) H2 (i_amp_ok 3 no nv) (swap_t_ok 1 _) (swap_t_ok 2 _) (swap_t_ok 3 _)) as [RC [M [A2 [B2 C2]]]].
  exists RA, RC, M. split; [exact A1|]. split; [exact A2|]. split; [exact B1|]. split; [exact B2|]. split; [exact C2|].
  intros a b c i j k Ha Hb Hc Hi Hj Hk. apply (C1 [a; b; c; i; j; k]). rewrite B1. repeat constructor; assumption.
Qed.
Print Assumptions C78_fifth_order_caps.
Example C78_caps_instance := C78_fifth_order_caps 3 3 (i_tei 6) (i_amp 2 3 3) (i_tei_ok 6) (i_amp_ok 2 3 3).
