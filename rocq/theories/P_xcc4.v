(** C66, orders 8 and 9 of the XCCD(n) methods: the kets, as sums of products of integrals and amplitudes.  Proof machinery; the models are in Code_XCCDbasebuilder. *)
From Coq Require Import String Ascii List Arith NArith ZArith QArith Qcanon Bool Lia Permutation.
From Verif Require Import Sums Tensor Interp Numpy Poly SymExec Canon Spec Instances Setup Master Spin Check Tabs NF Antisym Formula Unround Fock Wick CCState P_fock Dress Commut NOrd Proj Elem P_antisym Asym P_fock2 P_fock3 P_qf P_fock4 Bound.
From Verif Require Import Diis Kernel SlowCC Cut P_xcc SpecDriver P_ccsd P_slow P_slow3 P_xcc2 BoundedInst OpMerge P_xcc3.
From Verif Require Code_XCCDbasebuilder Code_antisym_t4resids.
Import ListNotations.
Open Scope string_scope.
Open Scope Qc_scope.

(** *** Combining the terms of an operator *)
Definition unm (t : term) : oterm :=
  let r := flat_map (fun f : fac => if N.eqb (fst f) oat then snd f else []) (tf t) in
  OT (tc t) (td t) (filter (fun f : fac => negb (N.eqb (fst f) oat)) (tf t))
    (map (pair true) (filter (fun v => N.eqb (spc v) 1) r) ++ map (pair false) (filter (fun v => N.eqb (spc v) 0) r)).
Definition hints1 (kh kp : nat) (xs : list var) (hs : list oterm) : hints := find_hints (symm kh kp) nosplit nokill (mpoly xs hs).
Definition hints2 (kh kp : nat) (xs : list var) (hs : list oterm) : hints := find_hints (symm kh kp) nosplit nokill (pscale (-1 # 1) (mpoly xs hs)).
Definition merged (kh kp : nat) (h : hints) (xs : list var) (hs : list oterm) : list oterm :=
  map unm (norm (symm kh kp) nosplit nokill h (mpoly xs hs)).

(** the letters of the adjoint of T2, and the rest of it *)
Definition x0 : vop := (true, hv 0 0).
Definition x1 : vop := (true, hv 0 1).
Definition x2 : vop := (false, hv 1 3).
Definition x3 : vop := (false, hv 1 2).
Definition xl : list var := [hv 0 0; hv 0 1; hv 1 2; hv 1 3].
Definition l0 : oterm := OT (1 # 4) xl [(3%N, [hv 1 2; hv 1 3; hv 0 0; hv 0 1])] [].

(** 1/24 [[[[H,T2],T2],T2],T2] *)
Definition hT8 : list oterm := scl (1 # 24) (adh ts2 3 hT2T2T2).
Lemma hT8_ok : adh_ok ts2 3 hT2T2T2 = true. Proof. vm_true. Qed.
Definition h8 : hints := Eval vm_compute in hints1 6 6 [] hT8.
Definition W8 : list oterm := Eval vm_compute in merged 6 6 h8 [] hT8.
Definition h8a : hints := Eval vm_compute in hints1 6 5 xl (nordl (map (ocons x3) W8)).
Definition W8a : list oterm := Eval vm_compute in merged 6 5 h8a xl (nordl (map (ocons x3) W8)).
Definition h8b : hints := Eval vm_compute in hints1 6 4 xl (nordl (map (ocons x2) W8a)).
Definition W8b : list oterm := Eval vm_compute in merged 6 4 h8b xl (nordl (map (ocons x2) W8a)).
Definition h8c : hints := Eval vm_compute in hints1 5 4 xl (nordl (map (ocons x1) W8b)).
Definition W8c : list oterm := Eval vm_compute in merged 5 4 h8c xl (nordl (map (ocons x1) W8b)).
Definition h8d : hints := Eval vm_compute in hints1 4 4 xl (nordl (map (ocons x0) W8c)).
Definition W8d : list oterm := Eval vm_compute in merged 4 4 h8d xl (nordl (map (ocons x0) W8c)).
Definition ys8 : list oterm := map (bindh l0) W8d.

(** 1/2 [[[L2,T2],T2],Q4] and 1/2 [[L2,Q4],Q4] *)
Definition lT2T2 : list oterm := adh ts2 1 lT2.
Definition lX : list oterm := scl (1 # 2) (adh ts4 2 lT2T2).
Definition lT4 : list oterm := adh ts4 0 l2s.
Definition lY : list oterm := scl (1 # 2) (adh ts4 1 lT4).
Lemma lT2T2_ok : adh_ok ts2 1 lT2 = true. Proof. vm_true. Qed.
Lemma lX_ok : adh_ok ts4 2 lT2T2 = true. Proof. vm_true. Qed.
Lemma lT4_ok : adh_ok ts4 0 l2s = true. Proof. vm_true. Qed.
Lemma lY_ok : adh_ok ts4 1 lT4 = true. Proof. vm_true. Qed.
Definition hX : hints := Eval vm_compute in hints1 6 6 [] (nordl lX).
Definition WX : list oterm := Eval vm_compute in merged 6 6 hX [] (nordl lX).
Definition hY : hints := Eval vm_compute in hints1 6 6 [] (nordl lY).
Definition WY : list oterm := Eval vm_compute in merged 6 6 hY [] (nordl lY).
Definition W9 : list oterm := Eval vm_compute in (WX ++ WY)%list.
Definition h9a : hints := Eval vm_compute in hints1 6 5 xl (nordl (map (ocons x3) W9)).
Definition W9a : list oterm := Eval vm_compute in merged 6 5 h9a xl (nordl (map (ocons x3) W9)).
Definition h9b : hints := Eval vm_compute in hints1 6 4 xl (nordl (map (ocons x2) W9a)).
Definition W9b : list oterm := Eval vm_compute in merged 6 4 h9b xl (nordl (map (ocons x2) W9a)).
Definition h9c : hints := Eval vm_compute in hints1 5 4 xl (nordl (map (ocons x1) W9b)).
Definition W9c : list oterm := Eval vm_compute in merged 5 4 h9c xl (nordl (map (ocons x1) W9b)).
Definition h9d : hints := Eval vm_compute in hints1 4 4 xl (nordl (map (ocons x0) W9c)).
Definition W9d : list oterm := Eval vm_compute in merged 4 4 h9d xl (nordl (map (ocons x0) W9c)).
Definition ys9 : list oterm := map (bindh l0) W9d.

Section Steps.
  Variables no nv : nat.
  Variable tab : atomtab.
  Hypothesis OK : Forall (atom_ok (so_range no nv) sy) tab.
  Notation A := (Aof (so_range no nv) tab).
  Notation phi_eq := (phi_eq no nv A).
  Lemma phi_merge kh kp h xs hs ks : mchk kh kp h xs hs ks = true -> phi_eq xs hs ks.
  Proof using OK. intros H e He n _. exact (merge_sound no nv tab OK kh kp h xs hs ks e _ n H He). Qed.
  Lemma phi_step kh kp h xs x ws vs us : phi_eq xs ws vs -> forallb (fun y => negb (memv (snd x) (od y))) (ws ++ vs) = true -> nok xs (map (ocons x) vs) = true ->
    mchk kh kp h xs (nordl (map (ocons x) vs)) us = true -> phi_eq xs (map (ocons x) ws) us.
  Proof using OK.
    intros H1 H2 H3 H4. eapply phi_tr; [apply (phi_cons no nv A xs x ws vs H2 H1)|]. eapply phi_tr; [apply phi_nord, H3|]. apply (phi_merge kh kp h), H4.
  Qed.
  Lemma phi_refl xs hs : phi_eq xs hs hs.
  Proof using. intros e _ n _. reflexivity. Qed.
  (** the adjoint of T2 applied to an operator acting on the reference determinant *)
  Lemma phi_L2 L2 X ws vs : is_op no nv A L2 l2s -> (forall e, Dress.eqN (no + nv) (X (Phi no nv)) (osem no nv (A' A) e ws (Phi no nv))) ->
    odisjs l2s ws = true -> forallb (fun y => disj (od y) (fvars (ofs l0))) (map (ocons x0) (map (ocons x1) (map (ocons x2) (map (ocons x3) ws))) ++ vs) = true ->
    omuls l2s ws = map (bindh l0) (map (ocons x0) (map (ocons x1) (map (ocons x2) (map (ocons x3) ws)))) ->
    phi_eq xl (map (ocons x0) (map (ocons x1) (map (ocons x2) (map (ocons x3) ws)))) vs ->
    forall e, Dress.eqN (no + nv) (L2 (X (Phi no nv))) (osem no nv (A' A) e (map (bindh l0) vs) (Phi no nv)).
  Proof using.
    intros HL HX DJ DB EQ HV e n Hn. rewrite (HL e _ n Hn), (eqN_osem no nv A e l2s _ _ (HX e) n Hn), (osem_omuls no nv (A' A) e l2s ws _ n DJ), EQ.
    apply (phi_bind no nv A l0 _ vs DB HV e); [intros v []|exact Hn].
  Qed.
End Steps.
Ltac mstep ok kh kp h vs us :=
  let k := eval vm_compute in (hints2 kh kp xl us) in
  apply (phi_step _ _ _ ok kh kp (k ++ h)%list xl _ _ vs us); [|vm_true|vm_true|vm_true].

Section Orders89.
  Variables no nv : nat.
  Variables f g t2 t4 p : tensor.
  Hypothesis Hf : is_fock (no + nv) f.
  Hypothesis Hg : is_tei (no + nv) g.
  Hypothesis H2 : is_amp 2 no nv t2.
  Hypothesis H4 : is_amp 4 no nv t4.
  Hypothesis Hp : swapped 4 t4 p.
  Notation H := (Ham no nv f g).
  Notation T2 := (T2op no nv t2).
  Notation L2 := (T2adj no nv t2).
  Notation T4 := (T4op no nv t4).
  Notation tab := (tab3 f g t2 t4).
  Notation A := (Aof (so_range no nv) tab).
  Definition H4op : op := oscale (1 # 24) (comm (comm (comm (comm H T2) T2) T2) T2).
  Definition W9op : op := oplus (oscale (1 # 2) (comm (comm (comm L2 T2) T2) T4)) (oscale (1 # 2) (comm (comm L2 T4) T4)).
  Lemma tabok : Forall (atom_ok (so_range no nv) sy) tab.
  Proof using Hf Hg H2 H4. exact (tab3_ok no nv f g t2 t4 Hf Hg H2 H4). Qed.
  Lemma t2sem e c psi n : (c < 10)%nat -> T2 psi n = osem no nv (A' A) e (ts2 c) psi n.
  Proof using. apply (t2_sem no nv tab t2 eq_refl). Qed.
  Lemma t4sem e c psi n : (c < 10)%nat -> T4 psi n = osem no nv (A' A) e (ts4 c) psi n.
  Proof using. intros HC. unfold Wick.osem. cbn [ts4 suml]. rewrite Qcplus_0_r. apply tot4_sem; [|exact HC]. intros. apply (read_t4 no nv tab 5%N); auto. Qed.
  Lemma hT8_op : is_op no nv A H4op hT8.
  Proof using.
    apply scale_is_op. apply (comm_is_op no nv A ts2 ts2_c T2 t2sem 3); [lia|exact hT8_ok|].
    apply (comm_is_op no nv A ts2 ts2_c T2 t2sem 2); [lia|exact hT2T2T2_ok|]. apply hT2T2_op; reflexivity.
  Qed.
  Lemma l2op : is_op no nv A L2 l2s.
  Proof using. exact (l2_op no nv f g t2 t4). Qed.
  Lemma lT2op : is_op no nv A (comm L2 T2) lT2.
  Proof using. apply (comm_is_op no nv A ts2 ts2_c T2 t2sem 0); [lia|exact lT2_ok|exact l2op]. Qed.
  Lemma lXop : is_op no nv A (oscale (1 # 2) (comm (comm (comm L2 T2) T2) T4)) lX.
  Proof using.
    apply scale_is_op. apply (comm_is_op no nv A ts4 ts4_c T4 t4sem 2); [lia|exact lX_ok|]. apply (comm_is_op no nv A ts2 ts2_c T2 t2sem 1); [lia|exact lT2T2_ok|exact lT2op].
  Qed.
  Lemma lYop : is_op no nv A (oscale (1 # 2) (comm (comm L2 T4) T4)) lY.
  Proof using.
    apply scale_is_op. apply (comm_is_op no nv A ts4 ts4_c T4 t4sem 1); [lia|exact lY_ok|]. apply (comm_is_op no nv A ts4 ts4_c T4 t4sem 0); [lia|exact lT4_ok|exact l2op].
  Qed.
  Notation phi_eq := (phi_eq no nv A).
  Lemma phi8 : phi_eq [] hT8 W8.
  Proof using Hf Hg H2 H4. let k := eval vm_compute in (hints2 6 6 [] W8) in apply (phi_merge no nv tab tabok 6 6 (k ++ h8)%list); vm_true. Qed.
  Lemma phiX : phi_eq [] lX WX.
  Proof using Hf Hg H2 H4.
    eapply phi_tr; [apply phi_nord; vm_true|]. let k := eval vm_compute in (hints2 6 6 [] WX) in apply (phi_merge no nv tab tabok 6 6 (k ++ hX)%list); vm_true.
  Qed.
  Lemma phiY : phi_eq [] lY WY.
  Proof using Hf Hg H2 H4.
    eapply phi_tr; [apply phi_nord; vm_true|]. let k := eval vm_compute in (hints2 6 6 [] WY) in apply (phi_merge no nv tab tabok 6 6 (k ++ hY)%list); vm_true.
  Qed.
  Lemma no_xs (e : env) (v : var) : In v [] -> In (e v) (so_range no nv (spc v)). Proof using. intros []. Qed.
  Lemma ket8 e : Dress.eqN (no + nv) (H4op (Phi no nv)) (osem no nv (A' A) e W8 (Phi no nv)).
  Proof using Hf Hg H2 H4. intros n Hn. rewrite (hT8_op e _ n Hn). apply (phi8 e (no_xs e) n Hn). Qed.
  Lemma ket9 e : Dress.eqN (no + nv) (W9op (Phi no nv)) (osem no nv (A' A) e W9 (Phi no nv)).
  Proof using Hf Hg H2 H4.
    intros n Hn. unfold W9op, oplus. rewrite (lXop e _ n Hn), (lYop e _ n Hn), (phiX e (no_xs e) n Hn), (phiY e (no_xs e) n Hn).
    change W9 with (WX ++ WY)%list. unfold Wick.osem. rewrite suml_app. reflexivity.
  Qed.
  Lemma lket8 : forall e, Dress.eqN (no + nv) (omul L2 H4op (Phi no nv)) (osem no nv (A' A) e ys8 (Phi no nv)).
  Proof using Hf Hg H2 H4.
    apply (phi_L2 no nv tab L2 H4op W8 W8d l2op ket8); [vm_true|vm_true|vm_compute; reflexivity|].
    mstep (tabok) 4%nat 4%nat h8d W8c W8d. mstep (tabok) 5%nat 4%nat h8c W8b W8c. mstep (tabok) 6%nat 4%nat h8b W8a W8b. mstep (tabok) 6%nat 5%nat h8a W8 W8a. apply phi_refl.
  Qed.
  Lemma lket9 : forall e, Dress.eqN (no + nv) (omul L2 W9op (Phi no nv)) (osem no nv (A' A) e ys9 (Phi no nv)).
  Proof using Hf Hg H2 H4.
    apply (phi_L2 no nv tab L2 W9op W9 W9d l2op ket9); [vm_true|vm_true|vm_compute; reflexivity|].
    mstep (tabok) 4%nat 4%nat h9d W9c W9d. mstep (tabok) 5%nat 4%nat h9c W9b W9c. mstep (tabok) 6%nat 4%nat h9b W9a W9b. mstep (tabok) 6%nat 5%nat h9a W9 W9a. apply phi_refl.
  Qed.
End Orders89.
