(** C67, the XCCD(n) methods: energies are unchanged by rotations among the occupied and among the virtual orbitals, and the arrays
    that a pass adds to the amplitudes are transformed like amplitudes. *)
From Coq Require Import String Ascii List Arith NArith ZArith QArith Qcanon Bool Lia Permutation.
From Verif Require Import Sums Tensor Interp Numpy Poly SymExec Canon Spec SpecFrag SpecRot Instances Setup Master Spin Check Tabs NF Antisym P_antisym Frag P_wanti Rot RotTabs P_rot.
From Verif Require Import Diis Kernel SlowCC Cut P_xcc SpecDriver P_ccsd P_slow P_slow3 P_xcc2 P_frag2.
From Verif Require P_denoms Code_XCCDbasebuilder Code_antisym_t4resids.
From Coq Require Import List.
Import ListNotations.
Open Scope string_scope.
Open Scope list_scope.
Open Scope Qc_scope.

Lemma rot_at_zeros no nv Uo Uv ks : forall idx, rot_at no nv Uo Uv ks (fun _ => 0) idx = 0.
Proof. induction ks as [|k ks IH]; intros [|i idx]; cbn [rot_at]; try reflexivity. apply suml_zero. intros j _. rewrite IH. ring. Qed.
Lemma zeros_rotated no nv Uo Uv ks : rotated no nv Uo Uv ks (tzeros (map (ksize no nv) ks)) (tzeros (map (ksize no nv) ks)).
Proof. split; [reflexivity|]. split; [reflexivity|]. intros idx _. cbn [tzeros data]. symmetry. apply rot_at_zeros. Qed.

(** *** One builder *)
Definition rx_pre (f : fn) (n : nat) (a : string) (pk : bool) : option (list sval) :=
  do e <- spre xcc_lib f n (xcc_args pk); sevals so_slm (scall1 xcc_lib) e [EVar a; EVar "nocc"; EVar "nvir"].
Definition rx_U (f : fn) (n : nat) (a : string) (pk : bool) : option sval := match rx_pre f n a pk with Some [x; SDim 0; SDim 1] => Some x | _ => None end.

Section Builder.
  Variables no nv : nat.
  Variables Uo Uv : nat -> nat -> Qc.
  Hypothesis Ho : orthogonal no Uo.
  Hypothesis Hv : orthogonal nv Uv.
  Local Notation rotd := (rotated no nv Uo Uv).
  Variables g g' t2 t2' p p' : tensor.
  Hypothesis Hg : is_tei (no + nv) g.
  Hypothesis Ht : is_amp 2 no nv t2.
  Hypothesis Rg : rotd [Al; Al; Al; Al] g g'.
  Hypothesis Rt : rotd (vo_kinds 2) t2 t2'.
  Hypothesis Rp : rotd (ov_kinds 4) p p'.
  Let Hg' : is_tei (no + nv) g' := rot_tei no nv Uo Uv g g' Rg Hg.
  Let Ht' : is_amp 2 no nv t2' := rot_amp no nv Uo Uv 2 t2 t2' Rt Ht.
  Lemma rx_tab T T' : rotd (ov_kinds 4) T T' -> Forall2 (rtab no nv Uo Uv) (xcc_tab g t2 p T) (xcc_tab g' t2' p' T').
  Proof using Rg Rt Rp.
    intros RT. unfold xcc_tab. constructor; [exact (rt_cons _ _ _ _ 1%N _ _ _ Rg)|]. constructor; [exact (rt_cons _ _ _ _ 3%N _ _ _ Rt)|].
    constructor; [exact (rt_cons _ _ _ _ 8%N _ _ _ Rp)|]. constructor; [exact (rt_cons _ _ _ _ 5%N _ _ _ RT)|constructor].
  Qed.
  Lemma rx_builder f n a pk ks :
    nth_error (fbody f) n = Some (SAssign "t4" (ECall "antisym.antisym_t4_residual" [EVar a; EVar "nocc"; EVar "nvir"])) ->
    rotchk (ov_kinds 4) (rx_U f n a pk) = true -> rotchk ks (post f n pk) = true ->
    exists R R', returns 1 xcc_lib f (xcc_vals no nv g t2 p pk) R /\ returns 1 xcc_lib f (xcc_vals no nv g' t2' p' pk) R' /\ rotd ks R R'.
  Proof using All.
    intros Hn CU CR. unfold rx_U, rx_pre in CU.
    destruct (do e <- spre xcc_lib f n (xcc_args pk); _) as [l|] eqn:EP; [|discriminate CU].
    destruct l as [|x [|[| | |[|d0]| |] [|[| | |[|[d1|d1|]]| |] [|]]]]; try discriminate CU.
    unfold rotchk in CU. rewrite !andb_true_iff in CU. destruct CU as [[[CO CG] CK] CP]. pose proof (outsp_ok _ _ CO) as EX. injection EX as EX.
    destruct x as [s q| | | | |]; try discriminate EX. change (map ksp (ov_kinds 4)) with ov4 in *. injection EX as ->. cbn [getp] in CP.
    assert (Sp : shape p = xshape no nv) by (rewrite (proj1 Rp); reflexivity). assert (Sp' : shape p' = xshape no nv) by (rewrite (proj1 (proj2 Rp)); reflexivity).
    pose proof (zeros_rotated no nv Uo Uv (ov_kinds 4)) as RZ. change (map (ksize no nv) (ov_kinds 4)) with (xshape no nv) in RZ.
    destruct (so_cut no nv xcc_lib _ f n (xcc_args pk) (xcc_vals no nv g t2 p pk) "t4" _ _ a "nocc" "nvir" ov4 q Hn eq_refl
                (xcc_vs no nv g t2 Hg Ht p (tzeros (xshape no nv)) Sp pk) EP) as [U [VU [SU HU]]].
    destruct (so_cut no nv xcc_lib _ f n (xcc_args pk) (xcc_vals no nv g' t2' p' pk) "t4" _ _ a "nocc" "nvir" ov4 q Hn eq_refl
                (xcc_vs no nv g' t2' Hg' Ht' p' (tzeros (xshape no nv)) Sp' pk) EP) as [U' [VU' [SU' HU']]].
    assert (RU : rotd (ov_kinds 4) U U').
    { inversion VU as [? ? ? TU| | | | |]; subst. inversion VU' as [? ? ? TU'| | | | |]; subst. exact (rot_ok no nv Uo Uv Ho Hv _ _ (rx_tab _ _ RZ) (ov_kinds 4) q U U' CG CK CP TU TU'). }
    assert (CA : rotchk (ov_kinds 4) (srun so_slm 0 xcc_lib Code_antisym_t4resids.antisym_t4_residual [at_ 8 (map ksp (ov_kinds 4)); SDim 0; SDim 1]) = true) by rtchk.
    destruct (rot_anti_dims no nv Uo Uv Ho Hv 0 xcc_lib _ 4 U U' RU CA) as [T [T' [HT [HT' RT]]]].
    pose proof CR as CR'. unfold rotchk in CR'. rewrite !andb_true_iff in CR'. destruct CR' as [[[DO DG] DK] DP]. pose proof (outsp_ok _ _ DO) as ER.
    destruct (HU T HT (xcc_tab g t2 p T) (at_ 5 ov4) (xcc_vs no nv g t2 Hg Ht p T Sp pk)) with (r := SP (map ksp ks) (getp (post f n pk))) as [R [HR VR]]; [|exact ER|].
    { apply so_atom; [reflexivity|]. rewrite (proj1 RT). symmetry. exact (map_dim_so no nv (ov_kinds 4)). }
    destruct (HU' T' HT' (xcc_tab g' t2' p' T') (at_ 5 ov4) (xcc_vs no nv g' t2' Hg' Ht' p' T' Sp' pk)) with (r := SP (map ksp ks) (getp (post f n pk))) as [R' [HR' VR']]; [|exact ER|].
    { apply so_atom; [reflexivity|]. rewrite (proj1 (proj2 RT)). symmetry. exact (map_dim_so no nv (ov_kinds 4)). }
    inversion VR as [? ? Q TQ| | | | |]; subst. inversion VR' as [? ? Q' TQ'| | | | |]; subst.
    exists Q, Q'. split; [exact HR|]. split; [exact HR'|]. exact (rot_ok no nv Uo Uv Ho Hv _ _ (rx_tab _ _ RT) ks _ Q Q' DG DK DP TQ TQ').
  Qed.
  Definition rxok (f : fn) (pk : bool) (ks : list kind) : Prop :=
    exists R R', returns 1 xcc_lib f (xcc_vals no nv g t2 p pk) R /\ returns 1 xcc_lib f (xcc_vals no nv g' t2' p' pk) R' /\ rotd ks R R'.
  Lemma rx5 : rxok Code_XCCDbasebuilder.build_XCCDbase_5 false (vo_kinds 2).
  Proof using All. apply (rx_builder _ 15 "Roooovvvv"); [reflexivity|rtchk|rtchk]. Qed.
  Lemma rx5d : rxok Code_XCCDbasebuilder.build_XCCDbase_5_dump false (ov_kinds 4).
  Proof using All. apply (rx_builder _ 15 "Roooovvvv"); [reflexivity|rtchk|rtchk]. Qed.
  Lemma rx6 : rxok Code_XCCDbasebuilder.build_XCCDbase_6 false (vo_kinds 2).
  Proof using All. apply (rx_builder _ 15 "Roooovvvv"); [reflexivity|rtchk|rtchk]. Qed.
  Lemma rx7 : rxok Code_XCCDbasebuilder.build_XCCDbase_7 true (vo_kinds 2).
  Proof using All. apply (rx_builder _ 15 "Roooovvvv"); [reflexivity|rtchk|rtchk]. Qed.
  Lemma rx8 : rxok Code_XCCDbasebuilder.build_XCCDbase_8 false (vo_kinds 2).
  Proof using All. apply (rx_builder _ 13 "t4"); [reflexivity|rtchk|rtchk]. Qed.
  Lemma rx9 : rxok Code_XCCDbasebuilder.build_XCCDbase_9 true (vo_kinds 2).
  Proof using All. apply (rx_builder _ 15 "Roooovvvv"); [reflexivity|rtchk|rtchk]. Qed.
End Builder.

(** *** Contractions over all indices are unchanged *)
Fixpoint sumks (no nv : nat) (ks : list kind) (F : list nat -> Qc) : Qc :=
  match ks with [] => F [] | k :: ks' => Sum i < ksize no nv k, sumks no nv ks' (fun r => F (i :: r)) end.
Section Inner.
  Variables no nv : nat.
  Variables Uo Uv : nat -> nat -> Qc.
  Hypothesis Ho : orthogonal no Uo.
  Hypothesis Hv : orthogonal nv Uv.
  Local Notation ra := (rot_at no nv Uo Uv).
  Local Notation SK := (sumks no nv).
  Lemma sk_ext ks : forall F G, (forall l, inr l (map (ksize no nv) ks) -> F l = G l) -> SK ks F = SK ks G.
  Proof using.
    induction ks as [|k ks IH]; intros F G H; cbn [sumks]; [apply H; constructor|]. apply suml_ext. intros i Hi. apply in_seq in Hi. apply IH. intros l Hl. apply H. constructor; [lia|exact Hl].
  Qed.
  Lemma sk_sum ks {X} (l : list X) (c : X -> Qc) : forall G, SK ks (fun b => suml l (fun j => c j * G j b)) = suml l (fun j => c j * SK ks (G j)).
  Proof using.
    induction ks as [|k ks IH]; intros G; cbn [sumks]; [reflexivity|].
    transitivity (suml (seq 0 (ksize no nv k)) (fun y => suml l (fun j => c j * SK ks (fun r => G j (y :: r))))).
    - apply suml_ext. intros y _. apply (IH (fun j r => G j (y :: r))).
    - rewrite suml_swap. apply suml_ext. intros j _. rewrite suml_scale. reflexivity.
  Qed.
  Lemma rmat_orth k p q : noAl k = true -> (p < ksize no nv k)%nat -> (q < ksize no nv k)%nat -> (Sum i < ksize no nv k, rmat no Uo Uv k i p * rmat no Uo Uv k i q) = if Nat.eqb p q then 1 else 0.
  Proof using Ho Hv. destruct k; intros NA Hp Hq; [apply Ho; assumption|apply Hv; assumption|discriminate]. Qed.
  Lemma sk_inner ks : forallb noAl ks = true -> forall F G, SK ks (fun i => ra ks F i * ra ks G i) = SK ks (fun i => F i * G i).
  Proof using Ho Hv.
    induction ks as [|k ks IH]; intros K F G; [reflexivity|]. cbn [forallb] in K. apply andb_true_iff in K. destruct K as [K1 K2]. cbn [sumks].
    set (n := ksize no nv k). set (u := rmat no Uo Uv k).
    transitivity (Sum i < n, Sum p < n, Sum q < n, u i p * u i q * SK ks (fun r => F (p :: r) * G (q :: r))).
    { apply suml_ext. intros i _.
      transitivity (SK ks (fun r => Sum p < n, u i p * (Sum q < n, u i q * (ra ks (fun s => F (p :: s)) r * ra ks (fun s => G (q :: s)) r)))).
      - apply sk_ext. intros r _. cbn [rot_at]. fold n u.
        transitivity (Sum p < n, u i p * ra ks (fun s => F (p :: s)) r * (Sum q < n, u i q * ra ks (fun s => G (q :: s)) r)).
        + rewrite (Qcmult_comm (suml _ _) (suml _ _)), <- suml_scale. apply suml_ext. intros p _. ring.
        + apply suml_ext. intros p _. rewrite <- Qcmult_assoc. f_equal. rewrite <- suml_scale. apply suml_ext. intros q _. ring.
      - rewrite sk_sum. apply suml_ext. intros p _.
        rewrite (sk_sum ks (seq 0 n) (fun q => u i q) (fun q r => ra ks (fun s => F (p :: s)) r * ra ks (fun s => G (q :: s)) r)).
        rewrite <- suml_scale. apply suml_ext. intros q _. rewrite (IH K2 (fun s => F (p :: s)) (fun s => G (q :: s))). ring. }
    rewrite suml_swap. apply suml_ext. intros p Hp. apply in_seq in Hp. rewrite suml_swap.
    transitivity (Sum q < n, (if Nat.eqb p q then 1 else 0) * SK ks (fun r => F (p :: r) * G (q :: r))).
    - apply suml_ext. intros q Hq. apply in_seq in Hq. rewrite <- (rmat_orth k p q K1) by (fold n; lia). fold n u.
      transitivity (Sum i < n, SK ks (fun r => F (p :: r) * G (q :: r)) * (u i p * u i q)); [apply suml_ext; intros i _; ring|]. rewrite suml_scale. ring.
    - apply (suml_delta (seq 0 n) p (fun q => SK ks (fun r => F (p :: r) * G (q :: r)))); [apply seq_NoDup|apply in_seq; lia].
  Qed.
  Lemma quarter_rot X X' Y Y' : rotated no nv Uo Uv (vo_kinds 2) X X' -> rotated no nv Uo Uv (vo_kinds 2) Y Y' ->
    quarter no nv (fun a b i j => data X' [a; b; i; j]) Y' = quarter no nv (fun a b i j => data X [a; b; i; j]) Y.
  Proof using Ho Hv.
    intros [S1 [S2 RX]] [S3 [S4 RY]]. unfold quarter. f_equal.
    transitivity (SK (vo_kinds 2) (fun l => data X' l * data Y' l)); [reflexivity|].
    transitivity (SK (vo_kinds 2) (fun l => data X l * data Y l)); [|reflexivity].
    rewrite <- (sk_inner (vo_kinds 2) eq_refl (data X) (data Y)). apply sk_ext. intros l Hl. rewrite RX, RY by (rewrite ?S2, ?S4; exact Hl). reflexivity.
  Qed.
  Lemma rotated_sum ks X X' {A} (l : list A) (B B' : A -> tensor) : rotated no nv Uo Uv ks X X' -> (forall k, In k l -> rotated no nv Uo Uv ks (B k) (B' k)) ->
    rotated no nv Uo Uv ks (mkT (map (ksize no nv) ks) (fun i => data X i + suml l (fun k => data (B k) i))) (mkT (map (ksize no nv) ks) (fun i => data X' i + suml l (fun k => data (B' k) i))).
  Proof using.
    intros [S1 [S2 RX]] RB. split; [reflexivity|]. split; [reflexivity|]. intros idx I. cbn [shape data] in *.
    transitivity (ra ks (fun i => suml (None :: map Some l) (fun o => 1 * match o with None => data X i | Some k => data (B k) i end)) idx).
    - rewrite (ra_sum no nv Uo Uv ks (None :: map Some l) (fun _ => 1) (fun o i => match o with None => data X i | Some k => data (B k) i end)).
      cbn [suml]. rewrite suml_map. rewrite RX by (rewrite S2; exact I). rewrite Qcmult_1_l. f_equal. apply suml_ext. intros k Hk. rewrite Qcmult_1_l.
      destruct (RB k Hk) as [_ [S4 R]]. apply R. rewrite S4. exact I.
    - apply ra_ext; [apply Forall2_len in I; rewrite map_length in I; exact I|]. intros i _. cbn [suml]. rewrite suml_map, Qcmult_1_l. f_equal. apply suml_ext. intros k _. apply Qcmult_1_l.
  Qed.
End Inner.

(** *** The corrections of the two sets of orbitals *)
Lemma bases_intro n m G T b5 b6 b7 b8 b9 Q q :
  returns 1 xcc_lib Code_XCCDbasebuilder.build_XCCDbase_5 (xcc_vals n m G T q false) b5 -> returns 1 xcc_lib Code_XCCDbasebuilder.build_XCCDbase_5_dump (xcc_vals n m G T q false) Q ->
  returns 1 xcc_lib Code_XCCDbasebuilder.build_XCCDbase_6 (xcc_vals n m G T Q false) b6 -> returns 1 xcc_lib Code_XCCDbasebuilder.build_XCCDbase_7 (xcc_vals n m G T Q true) b7 ->
  returns 1 xcc_lib Code_XCCDbasebuilder.build_XCCDbase_8 (xcc_vals n m G T Q false) b8 -> returns 1 xcc_lib Code_XCCDbasebuilder.build_XCCDbase_9 (xcc_vals n m G T Q true) b9 ->
  bases n m G T (fun k => match k with 5%nat => b5 | 6%nat => b6 | 7%nat => b7 | 8%nat => b8 | _ => b9 end) Q.
Proof.
  intros H5 HQ H6 H7 H8 H9. unfold returns, xcc_vals in *. cbn [app] in *. split.
  - intros w. unfold xcc_base, call1. rewrite H5. cbn [obind]. rewrite HQ. reflexivity.
  - intros k Hk. assert (k = 6 \/ k = 7 \/ k = 8 \/ k = 9)%nat as [->|[->|[->| ->]]] by lia; unfold xcc_base, call1; cbn [obind]; [rewrite H6|rewrite H7|rewrite H8|rewrite H9]; reflexivity.
Qed.
Lemma rot_bases no nv Uo Uv g g' t2 t2' : orthogonal no Uo -> orthogonal nv Uv -> is_tei (no + nv) g -> is_amp 2 no nv t2 ->
  rotated no nv Uo Uv [Al; Al; Al; Al] g g' -> rotated no nv Uo Uv (vo_kinds 2) t2 t2' ->
  exists B B' P P', bases no nv g t2 B P /\ bases no nv g' t2' B' P' /\ forall k, (5 <= k <= 9)%nat -> rotated no nv Uo Uv (vo_kinds 2) (B k) (B' k).
Proof.
  intros Ho Hv Hg Ht Rg Rt. pose proof (zeros_rotated no nv Uo Uv (ov_kinds 4)) as RZ.
  destruct (rx5 no nv Uo Uv Ho Hv g g' t2 t2' _ _ Hg Ht Rg Rt RZ) as [B5 [B5' [E5 [E5' R5]]]].
  destruct (rx5d no nv Uo Uv Ho Hv g g' t2 t2' _ _ Hg Ht Rg Rt RZ) as [P [P' [EP [EP' RP]]]].
  destruct (rx6 no nv Uo Uv Ho Hv g g' t2 t2' _ _ Hg Ht Rg Rt RP) as [B6 [B6' [E6 [E6' R6]]]].
  destruct (rx7 no nv Uo Uv Ho Hv g g' t2 t2' _ _ Hg Ht Rg Rt RP) as [B7 [B7' [E7 [E7' R7]]]].
  destruct (rx8 no nv Uo Uv Ho Hv g g' t2 t2' _ _ Hg Ht Rg Rt RP) as [B8 [B8' [E8 [E8' R8]]]].
  destruct (rx9 no nv Uo Uv Ho Hv g g' t2 t2' _ _ Hg Ht Rg Rt RP) as [B9 [B9' [E9 [E9' R9]]]].
  eexists _, _, P, P'. split; [exact (bases_intro _ _ _ _ _ _ _ _ _ _ _ E5 EP E6 E7 E8 E9)|]. split; [exact (bases_intro _ _ _ _ _ _ _ _ _ _ _ E5' EP' E6' E7' E8' E9')|].
  intros k Hk. assert (k = 5 \/ k = 6 \/ k = 7 \/ k = 8 \/ k = 9)%nat as [->|[->|[->|[->| ->]]]] by lia; assumption.
Qed.

(** C67 for XCCD(5), ..., XCCD(9), with any denominators in the two sets of orbitals: the energy is the same number, the change of the
    amplitudes in one pass divided by the denominators is the same array in the two sets of orbitals, and so amplitudes that a pass leaves
    unchanged become amplitudes that a pass leaves unchanged. *)
Theorem C67_xccd_rotation : forall no nv Uo Uv f f' g g' t2 t2' D D' c n d d' w w', orthogonal no Uo -> orthogonal nv Uv ->
  is_fock (no + nv) f -> is_tei (no + nv) g -> is_amp 2 no nv t2 ->
  rotated no nv Uo Uv [Al; Al] f f' -> rotated no nv Uo Uv [Al; Al; Al; Al] g g' -> rotated no nv Uo Uv (vo_kinds 2) t2 t2' ->
  shape D = [nv; nv; no; no] -> shape D' = [nv; nv; no; no] -> (forall idx, inr idx (shape D) -> data D idx <> 0 /\ data D' idx <> 0) ->
  (5 <= n <= 9)%nat -> cc_type c = xlabel n -> slook "t2aa" d = Some t2 -> slook "t2aa" d' = Some t2' ->
  (exists E w1 w1', t2energy_slow no nv f g D c d w = Some (E, w1) /\ t2energy_slow no nv f' g' D' c d' w' = Some (E, w1')) /\
  exists e e' w2 w2' T T', t2resid_slow no nv f g D c d w = Some (e, w2) /\ t2resid_slow no nv f' g' D' c d' w' = Some (e', w2') /\
    slook "t2aa" e = Some T /\ slook "t2aa" e' = Some T' /\ shape T = [nv; nv; no; no] /\ shape T' = [nv; nv; no; no] /\
    rotated no nv Uo Uv (vo_kinds 2) (mkT [nv; nv; no; no] (fun i => (data T i - data t2 i) / data D i)) (mkT [nv; nv; no; no] (fun i => (data T' i - data t2' i) / data D' i)) /\
    ((forall i, inr i (shape T) -> data T i = data t2 i) -> forall i, inr i (shape T') -> data T' i = data t2' i).
Proof.
  intros no nv Uo Uv f f' g g' t2 t2' D D' c n d d' w w' Ho Hv Hf Hg Ht Rf Rg Rt SD SD' NZ Hn Ty Hd Hd'.
  pose proof (rot_fock no nv Uo Uv f f' Rf Hf) as Hf'. pose proof (rot_tei no nv Uo Uv g g' Rg Hg) as Hg'. pose proof (rot_amp no nv Uo Uv 2 t2 t2' Rt Ht) as Ht'.
  destruct (rot_bases no nv Uo Uv g g' t2 t2' Ho Hv Hg Ht Rg Rt) as [B [B' [P [P' [HB [HB' RB]]]]]].
  destruct (C67_ccd_rotation no nv Uo Uv f f' g g' t2 t2' Ho Hv Rf Rg Rt) as [[R [R' [R1 [R2 RR]]]] [_ [E [E' [E1 [E2 [_ [_ EE]]]]]]]].
  destruct (one_system no nv f g D t2 Hf Hg SD Ht B P HB c n d w R E Hn Ty Hd R1 E1) as [[w1 S1] [_ [e [w3 [T [S3 [S4 [S5 S6]]]]]]]].
  destruct (one_system no nv f' g' D' t2' Hf' Hg' SD' Ht' B' P' HB' c n d' w' R' E' Hn Ty Hd' R2 E2) as [[w1' S1'] [_ [e' [w3' [T' [S3' [S4' [S5' S6']]]]]]]].
  split.
  - eexists _, w1, w1'. split; [exact S1|]. rewrite S1'. do 2 f_equal. rewrite EE. f_equal. apply suml_ext. intros k Hk. apply in_seq in Hk. specialize (RB k ltac:(lia)).
    exact (quarter_rot no nv Uo Uv Ho Hv t2 t2' (B k) (B' k) Rt RB).
  - exists e, e', w3, w3', T, T'. do 6 (split; [assumption|]).
    assert (RX : rotated no nv Uo Uv (vo_kinds 2) (mkT [nv; nv; no; no] (fun i => (data T i - data t2 i) / data D i)) (mkT [nv; nv; no; no] (fun i => (data T' i - data t2' i) / data D' i))).
    { pose proof (rotated_sum no nv Uo Uv (vo_kinds 2) R R' (seq 5 (n - 4)) B B' RR) as Q. destruct Q as [Q1 [Q2 Q]].
      { intros k Hk. apply in_seq in Hk. apply RB. lia. }
      split; [reflexivity|]. split; [reflexivity|]. intros idx I. cbn [shape data] in *.
      assert (I' : inr idx (shape D)) by (rewrite SD; exact I). destruct (NZ idx I') as [_ N2].
      rewrite S6'. transitivity (data R' idx + suml (seq 5 (n - 4)) (fun k => data (B' k) idx)); [field; exact N2|]. rewrite (Q idx I).
      apply ra_ext; [apply Forall2_len in I; exact I|]. intros l Hl. rewrite S6.
      assert (I2 : inr l (shape D)) by (rewrite SD; exact Hl). destruct (NZ l I2) as [N1 _]. field. exact N1. }
    split; [exact RX|]. intros Fix i I.
    assert (Z : zero_tensor (mkT [nv; nv; no; no] (fun i => (data T' i - data t2' i) / data D' i))).
    { eapply rotated_zero; [exact RX|]. intros l Hl. cbn [shape data] in *. rewrite Fix by (rewrite S5; exact Hl). unfold Qcdiv. ring. }
    rewrite S5' in I. specialize (Z i I). cbn [data] in Z. assert (I' : inr i (shape D)) by (rewrite SD; exact I). destruct (NZ i I') as [_ N2].
    transitivity (data t2' i + (data T' i - data t2' i) / data D' i * data D' i); [field; exact N2|rewrite Z; ring].
Qed.
Print Assumptions C67_xccd_rotation.
Definition x_den (q : Qc) : tensor := mkT [2; 2; 2; 2]%nat (fun _ => q).
Lemma x_den_ok : forall idx, inr idx (shape (x_den (Q2Qc (- 1 # 2)))) -> data (x_den (Q2Qc (- 1 # 2))) idx <> 0 /\ data (x_den (Q2Qc (- 1 # 3))) idx <> 0.
Proof. intros idx _. split; intros H; apply (f_equal this) in H; vm_compute in H; discriminate. Qed.
Example C67_xccd_instance c w w' (Hc : cc_type c = "XCCD(9)") := C67_xccd_rotation 2 2 turn mirror _ _ _ _ _ _ (x_den (Q2Qc (- 1 # 2))) (x_den (Q2Qc (- 1 # 3))) c 9
  [("t2aa", i_amp 2 2 2)] [("t2aa", rot_tensor 2 2 turn mirror (vo_kinds 2) (i_amp 2 2 2))] w w' turn_ok mirror_ok (i_fock_ok 4) (i_tei_ok 4) (i_amp_ok 2 2 2)
  (rot_tensor_ok 2 2 turn mirror [Al; Al] (i_fock 4) eq_refl) (rot_tensor_ok 2 2 turn mirror [Al; Al; Al; Al] (i_tei 4) eq_refl) (rot_tensor_ok 2 2 turn mirror (vo_kinds 2) (i_amp 2 2 2) eq_refl)
  eq_refl eq_refl x_den_ok ltac:(lia) Hc eq_refl eq_refl.
