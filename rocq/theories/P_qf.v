(** C09, C10, C12: the factorised-quadruples corrections of the doubles equations and energy. *)
From Coq Require Import String Ascii List Arith NArith ZArith QArith Qcanon Bool Lia Permutation.
From Verif Require Import Sums Tensor Interp Poly SymExec Canon Spec Instances Setup Master Spin Check Tabs NF Antisym Formula P_antisym.
From Verif Require Code_modify_T2resid_T4Qf1Slow Code_modify_T2resid_T4Qf2Slow Code_modify_T2energy_pertQfSlow Code_tamps.
Import ListNotations.
Open Scope string_scope.
Open Scope Qc_scope.

(** ** Specification *)
(** The quadruples numerator W T2 T2 before antisymmetrisation, indices a b c d i j k l. *)
Definition W_T2T2 (no nv : nat) (g t2 : tensor) : tensor := arr8 nv no (fun a b c d i j k l =>
  Q2Qc (-1 # 16) * (Sum m < no, Sum n < no, data t2 [a;b;i;m] * data t2 [c;d;j;n] * data g [k;l;m;n]) +
  Q2Qc (-1 # 4) * (Sum m < no, Sum e < nv, data t2 [a;b;i;m] * data t2 [c;e;j;k] * data g [l;no+e;m;no+d]%nat) +
  Q2Qc (-1 # 16) * (Sum e < nv, Sum f < nv, data t2 [a;e;i;j] * data t2 [b;f;k;l] * data g [no+e;no+f;no+c;no+d]%nat)).

(** The numerator W T2 T2 T2 before antisymmetrisation. *)
Definition W_T2T2T2 (no nv : nat) (g t2 : tensor) : tensor := arr8 nv no (fun a b c d i j k l =>
  Q2Qc (-1 # 32) * (Sum m < no, Sum n < no, Sum e < nv, Sum f < nv,
     data t2 [a;b;i;m] * data t2 [c;d;j;n] * data t2 [e;f;k;l] * data g [no+e;no+f;m;n]%nat) +
  Q2Qc (1 # 4) * (Sum m < no, Sum n < no, Sum e < nv, Sum f < nv,
     data t2 [a;b;i;m] * data t2 [c;e;j;k] * data t2 [d;f;l;n] * data g [no+e;no+f;m;n]%nat) +
  Q2Qc (-1 # 32) * (Sum m < no, Sum n < no, Sum e < nv, Sum f < nv,
     data t2 [a;b;m;n] * data t2 [c;e;i;j] * data t2 [d;f;k;l] * data g [no+e;no+f;m;n]%nat)).
(** One quarter of L2 contracted with quadruples. *)
Definition L2_T4 (no nv : nat) (l2 t4 : tensor) : tensor := arr4 nv nv no no (fun a b i j =>
  Q2Qc (1 # 4) * (Sum k < no, Sum l < no, Sum c < nv, Sum d < nv,
     data l2 [k;l;c;d] * data t4 [a;b;c;d;i;j;k;l])).
(** One quarter of L2 contracted with doubles. *)
Definition L2_T2 (no nv : nat) (l2 r : tensor) : Qc :=
  Q2Qc (1 # 4) * (Sum i < no, Sum j < no, Sum a < nv, Sum b < nv, data l2 [i;j;a;b] * data r [a;b;i;j]).

(** ** Proof machinery *)
Definition fc_L2_T4 : fn := mkFn ["l2"; "t4"] [] (EScale (1 # 4) (EEins "klcd,abcdijkl->abij" [EVar "l2"; EVar "t4"])).
Definition fc_L2_T2 : fn := mkFn ["l2"; "r"] [] (EScale (1 # 4) (EEins "ijab,abij->" [EVar "l2"; EVar "r"])).

Definition p_L2_T4 : poly := Eval vm_compute in [mkterm "abij" "klcd" (1 # 4) [(8%N, "klcd"); (9%N, "abcdijkl")]].
Definition p_L2_T2 : poly := Eval vm_compute in [mkterm "" "ijab" (1 # 4) [(8%N, "ijab"); (9%N, "abij")]].
Lemma contract_L2_T4 no nv l2 t4 : shape l2 = [no;no;nv;nv] -> shape t4 = [nv;nv;nv;nv;no;no;no;no] ->
  exists E, returns 0 [] fc_L2_T4 [VT l2; VT t4] E /\ teq E (L2_T4 no nv l2 t4).
Proof.
  intros H1 H2.
  set (tab := [(8%N, ([0;0;1;1]%N, l2)); (9%N, ([1;1;1;1;0;0;0;0]%N, t4))] : atomtab).
  eapply (so_reads no nv tab 0 [] fc_L2_T4 [at_ 8 [0;0;1;1]%N; at_ 9 [1;1;1;1;0;0;0;0]%N] _ [1;1;0;0]%N p_L2_T4).
  - unfold tab. gen_ok_tac.
  - unfold tab. gen_vs_tac.
  - unfold L2_T4, tab, p_L2_T4. so_form.
  - chk_.
Qed.
Lemma contract_L2_T2 no nv l2 r : shape l2 = [no;no;nv;nv] -> shape r = [nv;nv;no;no] ->
  exists E, returns 0 [] fc_L2_T2 [VT l2; VT r] E /\ teq E (arr0 (L2_T2 no nv l2 r)).
Proof.
  intros H1 H2.
  set (tab := [(8%N, ([0;0;1;1]%N, l2)); (9%N, ([1;1;0;0]%N, r))] : atomtab).
  eapply (so_reads no nv tab 0 [] fc_L2_T2 [at_ 8 [0;0;1;1]%N; at_ 9 [1;1;0;0]%N] _ [] p_L2_T2).
  - unfold tab. gen_ok_tac.
  - unfold tab. gen_vs_tac.
  - unfold L2_T2, tab, p_L2_T2. so_form.
  - chk_.
Qed.

Section Atoms.
  Variables no nv : nat.
  Variables g t2 l2 : tensor.
  Hypothesis Hg : is_tei (no + nv) g.
  Hypothesis Ht : is_amp 2 no nv t2.
  Hypothesis Hl : is_amp_ov 2 no nv l2.
  Definition qf_atoms : atomtab :=
    [(1%N, ([6;6;6;6]%N, g)); (3%N, ([1;1;0;0]%N, t2)); (6%N, ([0;0;1;1]%N, l2))].
  Lemma qf_ok : Forall (atom_ok (so_range no nv) sy) qf_atoms.
  Proof. unfold qf_atoms. oks. Qed.

  Definition p_WT2T2 : poly := Eval vm_compute in
    [mkterm "abcdijkl" "mn" (-1 # 16) [(3%N, "abim"); (3%N, "cdjn"); (1%N, "klmn")];
     mkterm "abcdijkl" "me" (-1 # 4) [(3%N, "abim"); (3%N, "cejk"); (1%N, "lemd")];
     mkterm "abcdijkl" "ef" (-1 # 16) [(3%N, "aeij"); (3%N, "bfkl"); (1%N, "efcd")]].
  Definition p_WT2T2T2 : poly := Eval vm_compute in
    [mkterm "abcdijkl" "mnef" (-1 # 32) [(3%N, "abim"); (3%N, "cdjn"); (3%N, "efkl"); (1%N, "efmn")];
     mkterm "abcdijkl" "mnef" (1 # 4) [(3%N, "abim"); (3%N, "cejk"); (3%N, "dfln"); (1%N, "efmn")];
     mkterm "abcdijkl" "mnef" (-1 # 32) [(3%N, "abmn"); (3%N, "ceij"); (3%N, "dfkl"); (1%N, "efmn")]].
  Lemma v_WT2T2 : so_vsim no nv qf_atoms (SP [1;1;1;1;0;0;0;0]%N p_WT2T2) (VT (W_T2T2 no nv g t2)).
  Proof. unfold p_WT2T2, W_T2T2, qf_atoms. so_form. Qed.
  Lemma v_WT2T2T2 : so_vsim no nv qf_atoms (SP [1;1;1;1;0;0;0;0]%N p_WT2T2T2) (VT (W_T2T2T2 no nv g t2)).
  Proof. unfold p_WT2T2T2, W_T2T2T2, qf_atoms. so_form. Qed.

  Definition s8 : list space := [1;1;1;1;0;0;0;0]%N.
  Definition qf_args : list sval := [SFull 1 [0;0;0;0]%N; at_ 6 [0;0;1;1]%N; at_ 3 [1;1;0;0]%N; SSl 0; SSl 1].
  Lemma qf_vs : Forall2 (so_vsim no nv qf_atoms) qf_args [VT g; VT l2; VT t2; o_ no; v_ no].
  Proof. unfold qf_args. vsims. Qed.
  Definition un_args : list sval := [SFull 1 [0;0;0;0]%N; at_ 3 [1;1;0;0]%N; SSl 0; SSl 1; SDim 0; SDim 1].
  Lemma un_vs : Forall2 (so_vsim no nv qf_atoms) un_args [VT g; VT t2; o_ no; v_ no; VInt no; VInt nv].
  Proof. unfold un_args. vsims. Qed.

  (** the normal form of the antisymmetrised numerators *)
  Definition asym8 (p : poly) : option sval := srun so_slm 0 [] Code_tamps.antisym_T4 [SP s8 p; SDim 1; SDim 0].
  Definition nf8 (p : poly) : poly :=
    nfp (nfo nosplit nokill (find_hints sy nosplit nokill (getp (asym8 p))) s8 (asym8 p)).
  Definition p8_WT2T2 : poly := Eval vm_compute in nf8 p_WT2T2.
  Definition p8_WT2T2T2 : poly := Eval vm_compute in nf8 p_WT2T2T2.

  Lemma asym_nf p q U : so_vsim no nv qf_atoms (SP s8 p) (VT U) -> shape U = [nv;nv;nv;nv;no;no;no;no] ->
    (exists h, nfo nosplit nokill h s8 (asym8 p) = Some q) ->
    exists T4, antisymmetrised 4 U T4 /\ antisymmetric 4 T4 /\ so_vsim no nv qf_atoms (SP s8 q) (VT T4).
  Proof.
    intros HU HsU HC. destruct C21_antisymmetrisers as [_ [_ [HA _]]].
    destruct (HA nv no U HsU) as [T4 [RT4 [AT4 [ANT _]]]].
    assert (V4 : Forall2 (so_vsim no nv qf_atoms) [SP s8 p; SDim 1; SDim 0] [VT U; VInt nv; VInt no]).
    { constructor; [exact HU|]. vsims. }
    destruct (so_nform no nv qf_atoms qf_ok 0 [] Code_tamps.antisym_T4 _ _ s8 q V4 HC) as [T4' [RT4' VT4]].
    assert (T4' = T4) as -> by (unfold returns in *; congruence).
    exists T4. split; [exact AT4|]. split; [exact ANT|exact VT4].
  Qed.
  Lemma asym_WT2T2 : exists T4, antisymmetrised 4 (W_T2T2 no nv g t2) T4 /\ antisymmetric 4 T4 /\
    so_vsim no nv qf_atoms (SP s8 p8_WT2T2) (VT T4).
  Proof.
    apply (asym_nf p_WT2T2); [apply v_WT2T2|reflexivity|].
    let h := eval vm_compute in (find_hints sy nosplit nokill (getp (asym8 p_WT2T2))) in exists h.
    vm_cast_no_check (@eq_refl (option poly) (Some p8_WT2T2)).
  Qed.
  Lemma asym_WT2T2T2 : exists T4, antisymmetrised 4 (W_T2T2T2 no nv g t2) T4 /\ antisymmetric 4 T4 /\
    so_vsim no nv qf_atoms (SP s8 p8_WT2T2T2) (VT T4).
  Proof.
    apply (asym_nf p_WT2T2T2); [apply v_WT2T2T2|reflexivity|].
    let h := eval vm_compute in (find_hints sy nosplit nokill (getp (asym8 p_WT2T2T2))) in exists h.
    vm_cast_no_check (@eq_refl (option poly) (Some p8_WT2T2T2)).
  Qed.

  Lemma qf_route q U f : shape U = [nv;nv;nv;nv;no;no;no;no] ->
    (exists T4, antisymmetrised 4 U T4 /\ antisymmetric 4 T4 /\ so_vsim no nv qf_atoms (SP s8 q) (VT T4)) ->
    so_chk [1;1;0;0]%N (srun so_slm 0 [] f qf_args) (srun so_slm 0 [] fc_L2_T4 [at_ 6 [0;0;1;1]%N; SP s8 q]) ->
    exists T4 R, antisymmetrised 4 U T4 /\ antisymmetric 4 T4 /\
      returns 0 [] f [VT g; VT l2; VT t2; o_ no; v_ no] R /\ teq R (L2_T4 no nv l2 T4).
  Proof.
    intros HsU [T4 [AT4 [ANT VT4]]] C2.
    destruct (contract_L2_T4 no nv l2 T4) as [E [HE EE]].
    { exact (proj1 Hl). }
    { destruct AT4 as [-> _]. exact HsU. }
    assert (VC : Forall2 (so_vsim no nv qf_atoms) [at_ 6 [0;0;1;1]%N; SP s8 q] [VT l2; VT T4]).
    { constructor; [|constructor; [exact VT4|constructor]]. eapply (v_amp_ov _ _ _ _ 2); [reflexivity|exact Hl]. }
    destruct (so_compare no nv qf_atoms qf_ok 0 [] f qf_args _ 0 [] fc_L2_T4 _ _ [1;1;0;0]%N qf_vs VC C2)
      as [R [E' [HR [HE' [_ ERE]]]]].
    assert (E' = E) as -> by (unfold returns in *; congruence).
    exists T4, R. split; [exact AT4|]. split; [exact ANT|]. split; [exact HR|].
    destruct ERE as [Q1 Q2], EE as [Q3 Q4]. split; [congruence|]. intros idx Hi. rewrite Q2 by exact Hi.
    apply Q4. rewrite <- Q1. exact Hi.
  Qed.
End Atoms.

(** C09.  The CCDQf-1 correction of the doubles residual is one quarter of L2 contracted with the fully
    antisymmetrised quadruples numerator W T2 T2; and the numerator is what [unsym_residQf1] computes. *)
Theorem C09_ccdqf1_is_the_T4_route : forall no nv g t2 l2,
  is_tei (no + nv) g -> is_amp 2 no nv t2 -> is_amp_ov 2 no nv l2 ->
  exists U T4 R,
    returns 0 [] Code_modify_T2resid_T4Qf1Slow.unsym_residQf1 [VT g; VT t2; o_ no; v_ no; VInt no; VInt nv] U /\
    teq U (W_T2T2 no nv g t2) /\
    antisymmetrised 4 (W_T2T2 no nv g t2) T4 /\
    returns 0 [] Code_modify_T2resid_T4Qf1Slow.residQf1_aaaa [VT g; VT l2; VT t2; o_ no; v_ no] R /\
    teq R (L2_T4 no nv l2 T4).
Proof.
  intros no nv g t2 l2 Hg Ht Hl.
  destruct (qf_route no nv g t2 l2 Hg Ht Hl p8_WT2T2 (W_T2T2 no nv g t2) Code_modify_T2resid_T4Qf1Slow.residQf1_aaaa)
    as [T4 [R [A1 [_ [A2 A3]]]]]; [reflexivity|apply asym_WT2T2; assumption|chk_|].
  destruct (so_reads no nv (qf_atoms g t2 l2) 0 [] Code_modify_T2resid_T4Qf1Slow.unsym_residQf1 un_args _ s8 p_WT2T2 _
    (qf_ok _ _ _ _ _ Hg Ht Hl) (un_vs no nv g t2 l2 Hg Ht) (v_WT2T2 no nv g t2 l2)) as [U [HU EU]];
    [chk_|].
  exists U, T4, R. repeat (split; [assumption|]). assumption.
Qed.
Print Assumptions C09_ccdqf1_is_the_T4_route.
Example C09_instance := C09_ccdqf1_is_the_T4_route 4 4 _ _ _ (i_tei_ok 8) (i_amp_ok 2 4 4) (i_amp_ov_ok 2 4 4).

(** C10.  The same for CCDQf-2 and the cubic numerator W T2 T2 T2. *)
Theorem C10_ccdqf2_is_the_T4_route : forall no nv g t2 l2,
  is_tei (no + nv) g -> is_amp 2 no nv t2 -> is_amp_ov 2 no nv l2 ->
  exists U T4 R,
    returns 0 [] Code_modify_T2resid_T4Qf1Slow.unsym_residQf2 [VT g; VT t2; o_ no; v_ no; VInt no; VInt nv] U /\
    teq U (W_T2T2T2 no nv g t2) /\
    antisymmetrised 4 (W_T2T2T2 no nv g t2) T4 /\
    returns 0 [] Code_modify_T2resid_T4Qf2Slow.residQf2_aaaa [VT g; VT l2; VT t2; o_ no; v_ no] R /\
    teq R (L2_T4 no nv l2 T4).
Proof.
  intros no nv g t2 l2 Hg Ht Hl.
  destruct (qf_route no nv g t2 l2 Hg Ht Hl p8_WT2T2T2 (W_T2T2T2 no nv g t2) Code_modify_T2resid_T4Qf2Slow.residQf2_aaaa)
    as [T4 [R [A1 [_ [A2 A3]]]]]; [reflexivity|apply asym_WT2T2T2; assumption|chk_|].
  destruct (so_reads no nv (qf_atoms g t2 l2) 0 [] Code_modify_T2resid_T4Qf1Slow.unsym_residQf2 un_args _ s8 p_WT2T2T2 _
    (qf_ok _ _ _ _ _ Hg Ht Hl) (un_vs no nv g t2 l2 Hg Ht) (v_WT2T2T2 no nv g t2 l2)) as [U [HU EU]];
    [chk_|].
  exists U, T4, R. repeat (split; [assumption|]). assumption.
Qed.
Print Assumptions C10_ccdqf2_is_the_T4_route.
Example C10_instance := C10_ccdqf2_is_the_T4_route 4 4 _ _ _ (i_tei_ok 8) (i_amp_ok 2 4 4) (i_amp_ov_ok 2 4 4).

(** C12, spin-orbital half.  The (Qf) energy is one quarter of L2 contracted with the CCDQf-1 residual. *)
Theorem C12_qf_energy_is_L2_residual : forall no nv g t2 l2,
  is_tei (no + nv) g -> is_amp 2 no nv t2 -> is_amp_ov 2 no nv l2 ->
  exists R E,
    returns 0 [] Code_modify_T2resid_T4Qf1Slow.residQf1_aaaa [VT g; VT l2; VT t2; o_ no; v_ no] R /\
    returns 0 [] Code_modify_T2energy_pertQfSlow.energy_pertQf [VT g; VT l2; VT t2; o_ no; v_ no] E /\
    shape E = [] /\ data E [] = L2_T2 no nv l2 R.
Proof.
  intros no nv g t2 l2 Hg Ht Hl.
  pose proof (qf_ok _ _ _ _ _ Hg Ht Hl) as OK. pose proof (qf_vs no nv g t2 l2 Hg Ht Hl) as VS.
  so_nf OK 0%nat (@nil (string * fn)) Code_modify_T2resid_T4Qf1Slow.residQf1_aaaa [1;1;0;0]%N VS R HR VR.
  pose proof (so_vs_shape _ _ _ _ _ _ VR) as TR.
  match type of VR with _ ?x _ => set (nfR := x) in VR end.
  assert (VC : Forall2 (so_vsim no nv (qf_atoms g t2 l2)) [at_ 6 [0;0;1;1]%N; nfR] [VT l2; VT R]).
  { constructor; [|constructor; [exact VR|constructor]]. eapply (v_amp_ov _ _ _ _ 2); [reflexivity|exact Hl]. }
  destruct (contract_L2_T2 no nv l2 R) as [X [HX [X1 X2]]]; [exact (proj1 Hl)|exact (dims_shape _ _ _ _ TR eq_refl)|].
  destruct (so_compare no nv _ OK 0 [] Code_modify_T2energy_pertQfSlow.energy_pertQf _ _ 0 [] fc_L2_T2 _ _ [] VS VC)
    as [E [X' [HE [HX' [E1 [E2 E3]]]]]]; [chk_|].
  assert (X' = X) as -> by (unfold returns in *; congruence).
  exists R, E. split; [exact HR|]. split; [exact HE|]. cbn in E1. split; [congruence|].
  rewrite E3, X2 by (rewrite ?X1, ?E1; constructor). reflexivity.
Qed.
Print Assumptions C12_qf_energy_is_L2_residual.
Example C12_instance := C12_qf_energy_is_L2_residual 4 4 _ _ _ (i_tei_ok 8) (i_amp_ok 2 4 4) (i_amp_ov_ok 2 4 4).
