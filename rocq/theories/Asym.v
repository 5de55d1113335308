(** Proof machinery: the normal form of the antisymmetrised version of an array given by a formula. *)
From Coq Require Import String Ascii List Arith NArith ZArith QArith Qcanon Bool Lia Permutation.
From Verif Require Import Sums Tensor Interp Poly SymExec Canon Spec Instances Setup Master Spin Check Tabs NF Antisym Formula P_antisym.
Import ListNotations.
Open Scope string_scope.

Definition vo_ (k : nat) : list space := (repeat 1%N k ++ repeat 0%N k)%list.
Lemma so_asym_vs no nv tab p U k : so_vsim no nv tab (SP (vo_ k) p) (VT U) ->
  Forall2 (so_vsim no nv tab) [SP (vo_ k) p; SDim 1; SDim 0] [VT U; VInt nv; VInt no].
Proof. intros V. constructor; [exact V|]. vsims. Qed.
Lemma so_asym_vs_ov no nv tab p U sps : so_vsim no nv tab (SP sps p) (VT U) ->
  Forall2 (so_vsim no nv tab) [SP sps p; SDim 0; SDim 1] [VT U; VInt no; VInt nv].
Proof. intros V. constructor; [exact V|]. vsims. Qed.
Lemma so_asym_id no nv tab f k p U T : is_antisymmetriser f k -> so_vsim no nv tab (SP (vo_ k) p) (VT U) ->
  returns 0 [] f [VT U; VInt nv; VInt no] T -> antisymmetrised k U T /\ antisymmetric k T.
Proof.
  intros HF V HT. apply so_vs_shape in V. unfold vo_ in V. rewrite sh_vo in V.
  destruct (HF nv no U V) as [T' [R1 [R2 [R3 _]]]].
  assert (T' = T) as -> by (unfold returns in *; congruence). split; assumption.
Qed.
Lemma sp_asym_vs no nv S tab p U k : sp_vsim no nv S tab (SP (vo_ k) p) (VT U) ->
  Forall2 (sp_vsim no nv S tab) [SP (vo_ k) p; SDim 1; SDim 0] [VT U; VInt (2 * nv); VInt (2 * no)].
Proof. intros V. constructor; [exact V|]. constructor; [apply spv_dimV|]. constructor; [apply spv_dimO|constructor]. Qed.
Lemma sp_asym_id no nv S tab f k p U T : is_antisymmetriser f k -> sp_vsim no nv S tab (SP (vo_ k) p) (VT U) ->
  returns 0 [] f [VT U; VInt (2 * nv); VInt (2 * no)] T -> antisymmetrised k U T /\ antisymmetric k T.
Proof.
  intros HF V HT. apply sp_vs_shape in V. unfold vo_ in V. rewrite sp_sh_vo in V.
  destruct (HF (2 * nv)%nat (2 * no)%nat U V) as [T' [R1 [R2 [R3 _]]]].
  assert (T' = T) as -> by (unfold returns in *; congruence). split; assumption.
Qed.
Lemma sp_vs_teq no nv S tab sps p R X : teq R X -> sp_vsim no nv S tab (SP sps p) (VT R) -> sp_vsim no nv S tab (SP sps p) (VT X).
Proof.
  intros [E1 E2] V. inversion V as [? ? ? [S1 D1]| | | | |]; subst. constructor. split; [congruence|].
  intros idx e Hi Ha. rewrite <- E1 in Hi. rewrite <- E2 by exact Hi. apply D1; assumption.
Qed.
Lemma so_vs_teq no nv tab sps p R X : teq R X -> so_vsim no nv tab (SP sps p) (VT R) -> so_vsim no nv tab (SP sps p) (VT X).
Proof.
  intros [E1 E2] V. inversion V as [? ? ? [S1 D1]| | | | |]; subst. constructor. split; [congruence|].
  intros idx e Hi Ha. rewrite <- E1 in Hi. rewrite <- E2 by exact Hi. apply D1; assumption.
Qed.

(** From V (polynomial of U) obtain T with its antisymmetrisation facts and normal form. *)
Ltac so_asym OK f HF k V T AT ANT VV :=
  let VS := fresh "VS" in let HT := fresh "HT" in
  pose proof (so_asym_vs _ _ _ _ _ k V) as VS;
  so_nf OK 0%nat (@nil (string * fn)) f (vo_ k) VS T HT VV;
  destruct (so_asym_id _ _ _ f k _ _ _ HF V HT) as [AT ANT]; clear VS.
Ltac sp_asym HS OK f HF k V T AT ANT VV :=
  let VS := fresh "VS" in let HT := fresh "HT" in
  pose proof (sp_asym_vs _ _ _ _ _ _ k V) as VS;
  sp_nf HS OK 0%nat (@nil (string * fn)) f (vo_ k) VS T HT VV;
  destruct (sp_asym_id _ _ _ _ f k _ _ _ HF V HT) as [AT ANT]; clear VS.
Lemma asym2 : is_antisymmetriser Code_tamps.antisym_T2 2. Proof. apply C21_antisymmetrisers. Qed.
Lemma asym3 : is_antisymmetriser Code_tamps.antisym_T3 3. Proof. apply C21_antisymmetrisers. Qed.
Lemma asym4 : is_antisymmetriser Code_tamps.antisym_T4 4. Proof. apply C21_antisymmetrisers. Qed.
