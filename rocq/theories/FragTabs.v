(** Tables, tactics and concrete arrays for the size-consistency theorems.  Proof machinery; it models no source line. *)
From Coq Require Import String Ascii List Arith NArith ZArith QArith Qcanon Bool Lia Permutation.
From Verif Require Import Sums Tensor Interp Poly SymExec Canon Spec SpecFrag Instances Setup Master Spin Check Tabs Antisym Frag P_wanti.
Import ListNotations.
Open Scope string_scope.

(** ** Stored arrays *)
Section Stored.
  Variables no nv : nat.
  Variable M : fragmap.
  Hypothesis HM : frag_ok no nv M.
  Local Notation rg := (fr_range no nv M).
  Lemma fr_lenP : length (rg 6%N) = (no + nv)%nat. Proof. cbn [fr_range]. apply seq_length. Qed.
  Lemma frs_vo k : map (dim rg) (repeat 1%N k ++ repeat 0%N k) = (repeat nv k ++ repeat no k)%list.
  Proof. rewrite map_app, !map_repeat. unfold dim, fr_range. rewrite !seq_length. reflexivity. Qed.
  Lemma frs_ov k : map (dim rg) (repeat 0%N k ++ repeat 1%N k) = (repeat no k ++ repeat nv k)%list.
  Proof. rewrite map_app, !map_repeat. unfold dim, fr_range. rewrite !seq_length. reflexivity. Qed.
  Lemma fok_fock f : is_fock (no + nv) f -> atom_ok rg sy (0%N, ([6; 6]%N, f)). Proof. apply atom_ok_fock, fr_lenP. Qed.
  Lemma fok_tei g : is_tei (no + nv) g -> atom_ok rg sy (1%N, ([6; 6; 6; 6]%N, g)). Proof. apply atom_ok_tei, fr_lenP. Qed.
  Lemma fok_vo n k t : sy n = SD [k; k] true false -> (0 < k)%nat -> is_amp k no nv t -> atom_ok rg sy (n, ((repeat 1%N k ++ repeat 0%N k)%list, t)).
  Proof. intros H1 H2 [H3 H4]. apply atom_ok_amp; try assumption. rewrite frs_vo. exact H3. Qed.
  Lemma fok_ov n k t : sy n = SD [k; k] true false -> (0 < k)%nat -> is_amp_ov k no nv t -> atom_ok rg sy (n, ((repeat 0%N k ++ repeat 1%N k)%list, t)).
  Proof. intros H1 H2 [H3 H4]. apply atom_ok_amp; try assumption. rewrite frs_ov. exact H3. Qed.
  Lemma fse n ks t : shape t = map (dim rg) (map ksp ks) -> separate M no ks t -> separated no nv M (n, (map ksp ks, t)).
  Proof. intros H1 H2 _. exists ks. auto. Qed.
  Lemma fse_fock f a b : is_fock (no + nv) f -> assembled M no [Al; Al] f a b -> separated no nv M (0%N, ([6; 6]%N, f)).
  Proof. intros [H _] [_ [_ S]]. apply (fse 0%N [Al; Al]); [|exact S]. cbn [map ksp]. unfold dim, fr_range. rewrite seq_length. exact H. Qed.
  Lemma fse_tei g a b : is_tei (no + nv) g -> assembled M no [Al; Al; Al; Al] g a b -> separated no nv M (1%N, ([6; 6; 6; 6]%N, g)).
  Proof. intros [H _] [_ [_ S]]. apply (fse 1%N [Al; Al; Al; Al]); [|exact S]. cbn [map ksp]. unfold dim, fr_range. rewrite seq_length. exact H. Qed.
  Lemma ksp_vo k : map ksp (vo_kinds k) = (repeat 1%N k ++ repeat 0%N k)%list. Proof. unfold vo_kinds. rewrite map_app, !map_repeat. reflexivity. Qed.
  Lemma ksp_ov k : map ksp (ov_kinds k) = (repeat 0%N k ++ repeat 1%N k)%list. Proof. unfold ov_kinds. rewrite map_app, !map_repeat. reflexivity. Qed.
  Lemma fse_vo n k t a b : is_amp k no nv t -> assembled M no (vo_kinds k) t a b -> separated no nv M (n, ((repeat 1%N k ++ repeat 0%N k)%list, t)).
  Proof. intros [H _] [_ [_ S]]. rewrite <- ksp_vo. apply fse; [|exact S]. rewrite ksp_vo, frs_vo. exact H. Qed.
  Lemma fse_ov n k t a b : is_amp_ov k no nv t -> assembled M no (ov_kinds k) t a b -> separated no nv M (n, ((repeat 0%N k ++ repeat 1%N k)%list, t)).
  Proof. intros [H _] [_ [_ S]]. rewrite <- ksp_ov. apply fse; [|exact S]. rewrite ksp_ov, frs_ov. exact H. Qed.

  Variable atoms : atomtab.
  Local Notation vs := (fr_vsim no nv M atoms).
  Lemma frv_fock f : nlook 0%N atoms = Some ([6; 6]%N, f) -> is_fock (no + nv) f -> vs (SFull 0 [0; 0]%N) (VT f).
  Proof. intros H1 [H2 _]. apply (fr_full no nv M HM atoms 0%N 2 f); assumption. Qed.
  Lemma frv_tei g : nlook 1%N atoms = Some ([6; 6; 6; 6]%N, g) -> is_tei (no + nv) g -> vs (SFull 1 [0; 0; 0; 0]%N) (VT g).
  Proof. intros H1 [H2 _]. apply (fr_full no nv M HM atoms 1%N 4 g); assumption. Qed.
  Lemma frv_vo n k t : nlook n atoms = Some ((repeat 1%N k ++ repeat 0%N k)%list, t) -> is_amp k no nv t -> vs (at_ n (repeat 1%N k ++ repeat 0%N k)) (VT t).
  Proof. intros H1 [H2 _]. apply fr_atom; [exact HM|exact H1|]. rewrite frs_vo. exact H2. Qed.
  Lemma frv_ov n k t : nlook n atoms = Some ((repeat 0%N k ++ repeat 1%N k)%list, t) -> is_amp_ov k no nv t -> vs (at_ n (repeat 0%N k ++ repeat 1%N k)) (VT t).
  Proof. intros H1 [H2 _]. apply fr_atom; [exact HM|exact H1|]. rewrite frs_ov. exact H2. Qed.
  Definition pick {T} (x : frag) (a b : T) : T := match x with FA => a | FB => b end.
  Lemma asm_part x ks t a b : assembled M no ks t a b -> part M no x ks t (pick x a b).
  Proof. intros [H1 [H2 _]]. destruct x; assumption. Qed.
  Lemma frv_pfock x f a b : nlook 0%N atoms = Some ([6; 6]%N, f) -> assembled M no [Al; Al] f a b -> vs (SFull 0 [fax x; fax x]) (VT (pick x a b)).
  Proof. intros H1 H2. eapply (fr_pfull no nv M HM atoms 0%N 2 x f); [exact H1|apply asm_part, H2]. Qed.
  Lemma frv_ptei x g a b : nlook 1%N atoms = Some ([6; 6; 6; 6]%N, g) -> assembled M no [Al; Al; Al; Al] g a b ->
    vs (SFull 1 [fax x; fax x; fax x; fax x]) (VT (pick x a b)).
  Proof. intros H1 H2. eapply (fr_pfull no nv M HM atoms 1%N 4 x g); [exact H1|apply asm_part, H2]. Qed.
  Lemma frv_pvo x n k t a b : nlook n atoms = Some ((repeat 1%N k ++ repeat 0%N k)%list, t) -> assembled M no (vo_kinds k) t a b ->
    vs (at_ n (map (fsp x) (vo_kinds k))) (VT (pick x a b)).
  Proof.
    intros H1 H2. eapply (fr_part no nv M HM atoms n x (vo_kinds k) t); [rewrite ksp_vo; exact H1| |apply asm_part, H2].
    unfold vo_kinds. rewrite forallb_app. clear. apply andb_true_iff. split; induction k; cbn; auto.
  Qed.
  Lemma frv_pov x n k t a b : nlook n atoms = Some ((repeat 0%N k ++ repeat 1%N k)%list, t) -> assembled M no (ov_kinds k) t a b ->
    vs (at_ n (map (fsp x) (ov_kinds k))) (VT (pick x a b)).
  Proof.
    intros H1 H2. eapply (fr_part no nv M HM atoms n x (ov_kinds k) t); [rewrite ksp_ov; exact H1| |apply asm_part, H2].
    unfold ov_kinds. rewrite forallb_app. clear. apply andb_true_iff. split; induction k; cbn; auto.
  Qed.

  (** running the same routine on the whole system and on both fragments *)
  Hypothesis Hat : Forall (atom_ok rg sy) atoms.
  Hypothesis Hsep : Forall (separated no nv M) atoms.
  Lemma fr_exec d l f a v sps : Forall2 vs a v -> outsp sps (srun fr_slm d l f a) = true ->
    exists R, returns d l f v R /\ fr_tsim no nv M atoms sps (getp (srun fr_slm d l f a)) R /\ vs (SP sps (getp (srun fr_slm d l f a))) (VT R).
  Proof.
    intros H1 H2. apply outsp_ok in H2. destruct (fr_run no nv M atoms d l f _ _ _ _ H1 H2) as [R [A1 T1]].
    exists R. split; [exact A1|]. split; [exact T1|]. constructor. exact T1.
  Qed.
  Lemma fr_residual d l f ks a aA aB v vA vB : Forall2 vs a v -> Forall2 vs aA vA -> Forall2 vs aB vB ->
    sepchk ks (srun fr_slm d l f a) = true ->
    prt FA ks (srun fr_slm d l f a) (srun fr_slm d l f aA) -> prt FB ks (srun fr_slm d l f a) (srun fr_slm d l f aB) ->
    exists R RA RB, returns d l f v R /\ returns d l f vA RA /\ returns d l f vB RB /\ shape R = map (ksize no nv) ks /\ assembled M no ks R RA RB.
  Proof.
    intros V VA VB C PA PB.
    assert (O : outsp (map ksp ks) (srun fr_slm d l f a) = true) by (unfold sepchk in C; rewrite !andb_true_iff in C; apply C).
    assert (OA : outsp (map (fsp FA) ks) (srun fr_slm d l f aA) = true) by (destruct PA as [h H]; unfold prtb in H; rewrite !andb_true_iff in H; apply H).
    assert (OB : outsp (map (fsp FB) ks) (srun fr_slm d l f aB) = true) by (destruct PB as [h H]; unfold prtb in H; rewrite !andb_true_iff in H; apply H).
    destruct (fr_exec _ _ _ _ _ _ V O) as [R [E [T _]]], (fr_exec _ _ _ _ _ _ VA OA) as [RA [EA [TA _]]], (fr_exec _ _ _ _ _ _ VB OB) as [RB [EB [TB _]]].
    exists R, RA, RB. split; [exact E|]. split; [exact EA|]. split; [exact EB|]. split; [rewrite (proj1 T); apply map_dim_ksp|]. split; [|split].
    - eapply prt_ok; eassumption.
    - eapply prt_ok; eassumption.
    - eapply sepchk_ok; eassumption.
  Qed.
  Lemma fr_energy d l f a aA aB v vA vB : Forall2 vs a v -> Forall2 vs aA vA -> Forall2 vs aB vB ->
    sumchk (srun fr_slm d l f a) (srun fr_slm d l f aA) (srun fr_slm d l f aB) ->
    exists E EA EB, returns d l f v E /\ returns d l f vA EA /\ returns d l f vB EB /\ shape E = [] /\ shape EA = [] /\ shape EB = [] /\
      data E [] = (data EA [] + data EB [])%Qc.
  Proof.
    intros V VA VB C. pose proof C as [h H]. unfold sumb in H. rewrite !andb_true_iff in H. destruct H as [[[O OA] OB] _].
    destruct (fr_exec _ _ _ _ _ _ V O) as [R [E [T _]]], (fr_exec _ _ _ _ _ _ VA OA) as [RA [EA [TA _]]], (fr_exec _ _ _ _ _ _ VB OB) as [RB [EB [TB _]]].
    exists R, RA, RB. split; [exact E|]. split; [exact EA|]. split; [exact EB|]. split; [apply T|]. split; [apply TA|]. split; [apply TB|].
    eapply sum_ok; eassumption.
  Qed.
End Stored.
Ltac foks := repeat first
  [ apply Forall_nil | apply Forall_cons
  | (apply fok_fock; assumption) | (apply fok_tei; assumption)
  | (eapply (fok_vo _ _ _ _ 1); [reflexivity|lia|assumption]) | (eapply (fok_vo _ _ _ _ 2); [reflexivity|lia|assumption])
  | (eapply (fok_vo _ _ _ _ 3); [reflexivity|lia|assumption]) | (eapply (fok_vo _ _ _ _ 4); [reflexivity|lia|assumption])
  | (eapply (fok_ov _ _ _ _ 1); [reflexivity|lia|assumption]) | (eapply (fok_ov _ _ _ _ 2); [reflexivity|lia|assumption])
  | (eapply (fok_ov _ _ _ _ 3); [reflexivity|lia|assumption]) | (eapply (fok_ov _ _ _ _ 4); [reflexivity|lia|assumption]) ].
Ltac fses := repeat first
  [ apply Forall_nil | apply Forall_cons
  | (eapply fse_fock; eassumption) | (eapply fse_tei; eassumption)
  | (eapply (fse_vo _ _ _ _ 1); eassumption) | (eapply (fse_vo _ _ _ _ 2); eassumption)
  | (eapply (fse_vo _ _ _ _ 3); eassumption) | (eapply (fse_vo _ _ _ _ 4); eassumption)
  | (eapply (fse_ov _ _ _ _ 1); eassumption) | (eapply (fse_ov _ _ _ _ 2); eassumption)
  | (eapply (fse_ov _ _ _ _ 3); eassumption) | (eapply (fse_ov _ _ _ _ 4); eassumption) ].
Ltac fvs HM := repeat first
  [ apply Forall2_nil | apply Forall2_cons
  | apply fr_o | apply fr_v | apply (fr_fo _ _ _ _ FA) | apply (fr_fo _ _ _ _ FB) | apply (fr_fv _ _ _ _ FA) | apply (fr_fv _ _ _ _ FB) | apply fr_none
  | (apply fr_dim; unfold dim, fr_range, fno, fnv; rewrite ?map_length, ?seq_length; reflexivity)
  | (eapply (frv_fock _ _ _ HM); [reflexivity|eassumption]) | (eapply (frv_tei _ _ _ HM); [reflexivity|eassumption])
  | (eapply (frv_pfock _ _ _ HM _ FA); [reflexivity|eassumption]) | (eapply (frv_ptei _ _ _ HM _ FA); [reflexivity|eassumption])
  | (eapply (frv_pfock _ _ _ HM _ FB); [reflexivity|eassumption]) | (eapply (frv_ptei _ _ _ HM _ FB); [reflexivity|eassumption])
  | match goal with |- fr_vsim _ _ _ _ (at_ ?n ?l) _ =>
      let k := eval vm_compute in (Nat.div (length l) 2) in
      first [ eapply (frv_vo _ _ _ HM _ _ k); [reflexivity|eassumption] | eapply (frv_ov _ _ _ HM _ _ k); [reflexivity|eassumption]
            | eapply (frv_pvo _ _ _ HM _ FA _ k); [reflexivity|eassumption] | eapply (frv_pvo _ _ _ HM _ FB _ k); [reflexivity|eassumption]
            | eapply (frv_pov _ _ _ HM _ FA _ k); [reflexivity|eassumption] | eapply (frv_pov _ _ _ HM _ FB _ k); [reflexivity|eassumption] ] end ].


(** ** Antisymmetrisation keeps arrays assembled *)
Section Shut.
  Variables no nv : nat.
  Variable M : fragmap.
  Hypothesis HM : frag_ok no nv M.
  Variables K1 K2 : kind.
  Lemma zipw_app2 {X Y Z} (f : X -> Y -> Z) a : forall b m1 m2, length a = length m1 -> zipw f (a ++ b) (m1 ++ m2) = (zipw f a m1 ++ zipw f b m2)%list.
  Proof. induction a as [|x a IH]; intros b [|y m1] m2 L; try discriminate; [reflexivity|]. cbn [app]. rewrite !zipw_cons. cbn [app]. f_equal. apply IH. cbn in L; lia. Qed.
  Lemma cutat {X} (l : list X) k m : length l = (k + m)%nat -> exists l1 l2, l = (l1 ++ l2)%list /\ length l1 = k /\ length l2 = m.
  Proof. intros H. exists (firstn k l), (skipn k l). rewrite firstn_skipn, firstn_length, skipn_length. split; [reflexivity|]. lia. Qed.
  Lemma two_parts n m k l1 l2 : length l1 = k -> inr (l1 ++ l2) (repeat n k ++ repeat m k) -> inr l1 (repeat n k) /\ inr l2 (repeat m k).
  Proof.
    intros L H. apply Forall2_app_inv_r in H. destruct H as [a [b [H1 [H2 E]]]].
    assert (La : length a = k) by (apply Forall2_len in H1; rewrite repeat_length in H1; exact H1).
    assert (a = l1 /\ b = l2) as [-> ->]; [|split; assumption].
    assert (Q : firstn k (a ++ b) = a /\ skipn k (a ++ b) = b).
    { split; [rewrite firstn_app|rewrite skipn_app]; rewrite La, Nat.sub_diag; [rewrite <- La, firstn_all; apply app_nil_r|rewrite <- La, skipn_all; reflexivity]. }
    rewrite <- E in Q. destruct Q as [<- <-]. split; [rewrite firstn_app|rewrite skipn_app]; rewrite L, Nat.sub_diag; [rewrite <- L, firstn_all; cbn [firstn]; rewrite ?app_nil_r; reflexivity|rewrite <- L, skipn_all; reflexivity].
  Qed.
  Let ks k := (repeat K1 k ++ repeat K2 k)%list.
  Lemma perm_korb x k p q : length p = k -> length q = k -> zipw (korb M no x) (ks k) (p ++ q) = (map (korb M no x K1) p ++ map (korb M no x K2) q)%list.
  Proof. intros L1 L2. unfold ks. rewrite zipw_app2 by (rewrite repeat_length; auto). rewrite !zipw_repeat by assumption. reflexivity. Qed.
  Lemma shut_part x k X R XA RA : shape X = map (ksize no nv) (ks k) -> antisymmetrised k X R -> antisymmetrised k XA RA -> part M no x (ks k) X XA -> part M no x (ks k) R RA.
  Proof.
    intros SX [S1 A1] [S2 A2] [P1 P2]. split; [congruence|]. intros idx Hi. rewrite S2, P1 in Hi.
    assert (L : length idx = (k + k)%nat) by (apply Forall2_len in Hi; unfold ks in Hi; rewrite map_length, app_length, !repeat_length in Hi; exact Hi).
    destruct (cutat idx k k L) as [l1 [l2 [-> [L1 L2]]]].
    rewrite A2 by (rewrite ?P1; assumption). rewrite perm_korb by assumption.
    rewrite A1; [|rewrite map_length; exact L1|].
    2:{ rewrite SX, <- (perm_korb x k) by assumption. clear -Hi HM. revert Hi. generalize (l1 ++ l2)%list as idx. generalize (ks k) as l. clear -HM. induction l as [|c l IH]; intros idx Hi; inversion Hi; subst; [constructor|].
        rewrite zipw_cons. cbn [map]. constructor; [eapply (korb_lt no nv M HM); assumption|apply IH; assumption]. }
    rewrite !signed_perms_map, suml_map. apply suml_ext. intros [sp p] Hp. rewrite suml_map. apply suml_ext. intros [sq q] Hq. unfold pm. cbn [fst snd]. f_equal.
    unfold ks in Hi. rewrite map_app, !map_repeat in Hi.
    destruct (two_parts _ _ _ _ _ L1 Hi) as [I1 I2].
    pose proof (signed_perms_perm _ _ _ Hp) as PP. pose proof (signed_perms_perm _ _ _ Hq) as PQ.
    pose proof (inr_repeat_perm _ _ _ _ PP I1) as J1. pose proof (inr_repeat_perm _ _ _ _ PQ I2) as J2.
    rewrite P2.
    - rewrite perm_korb; [reflexivity| |]; [rewrite <- (Permutation_length PP); exact L1|rewrite <- (Permutation_length PQ); exact L2].
    - rewrite P1. unfold ks. rewrite map_app, !map_repeat. apply Forall2_app; assumption.
  Qed.
  Lemma touches_iff x k p q : length p = k -> length q = k -> touches M no x (ks k) (p ++ q) <-> (Exists (belongs M no x K1) p \/ Exists (belongs M no x K2) q).
  Proof.
    intros L1 L2. unfold touches, ks. split.
    - intros [j [c [a [H1 [H2 H3]]]]]. destruct (Nat.lt_ge_cases j k) as [J|J].
      + left. rewrite nth_error_app1 in H1 by (rewrite repeat_length; exact J). rewrite nth_error_app1 in H2 by lia.
        apply nth_error_In in H1. apply repeat_spec in H1. subst c. apply Exists_exists. exists a. split; [eapply nth_error_In; exact H2|exact H3].
      + right. rewrite nth_error_app2 in H1 by (rewrite repeat_length; exact J). rewrite nth_error_app2 in H2 by lia.
        apply nth_error_In in H1. apply repeat_spec in H1. subst c. apply Exists_exists. exists a. split; [eapply nth_error_In; exact H2|exact H3].
    - intros [H|H]; apply Exists_exists in H; destruct H as [a [H1 H2]]; apply In_nth_error in H1; destruct H1 as [j H1].
      + assert (j < length p)%nat by (apply nth_error_Some; congruence). exists j, K1, a.
        rewrite !nth_error_app1 by (rewrite ?repeat_length; lia). rewrite nth_error_repeat by lia. auto.
      + assert (j < length q)%nat by (apply nth_error_Some; congruence). exists (k + j)%nat, K2, a.
        rewrite !nth_error_app2 by (rewrite ?repeat_length; lia). rewrite repeat_length. replace (k + j - length p)%nat with j by lia. replace (k + j - k)%nat with j by lia.
        rewrite nth_error_repeat by lia. auto.
  Qed.
  Lemma exists_perm (P : nat -> Prop) l m : Permutation l m -> Exists P l -> Exists P m.
  Proof. intros HP H. apply Exists_exists in H. destruct H as [a [H1 H2]]. apply Exists_exists. exists a. split; [eapply Permutation_in; eassumption|exact H2]. Qed.
  Lemma shut_sep k X R : shape X = map (ksize no nv) (ks k) -> antisymmetrised k X R -> separate M no (ks k) X -> separate M no (ks k) R.
  Proof.
    intros SX [S1 A1] HS idx Hi TA TB. rewrite S1, SX in Hi.
    assert (L : length idx = (k + k)%nat) by (apply Forall2_len in Hi; unfold ks in Hi; rewrite map_length, app_length, !repeat_length in Hi; exact Hi).
    destruct (cutat idx k k L) as [l1 [l2 [-> [L1 L2]]]].
    rewrite A1 by (rewrite ?SX; assumption).
    apply suml_zero. intros [sp p] Hp. apply suml_zero. intros [sq q] Hq. cbn [fst snd].
    unfold ks in Hi. rewrite map_app, !map_repeat in Hi. destruct (two_parts _ _ _ _ _ L1 Hi) as [I1 I2].
    pose proof (signed_perms_perm _ _ _ Hp) as PP. pose proof (signed_perms_perm _ _ _ Hq) as PQ.
    pose proof (inr_repeat_perm _ _ _ _ PP I1) as J1. pose proof (inr_repeat_perm _ _ _ _ PQ I2) as J2.
    pose proof (Permutation_length PP) as LP. pose proof (Permutation_length PQ) as LQ.
    rewrite HS; [ring|rewrite SX; unfold ks; rewrite map_app, !map_repeat; apply Forall2_app; assumption| |].
    - apply touches_iff in TA; [|assumption|assumption]. apply touches_iff; [lia|lia|]. destruct TA as [T|T]; [left|right]; eapply exists_perm; eassumption.
    - apply touches_iff in TB; [|assumption|assumption]. apply touches_iff; [lia|lia|]. destruct TB as [T|T]; [left|right]; eapply exists_perm; eassumption.
  Qed.
  Lemma shut_assembled k X R XA RA XB RB : shape X = map (ksize no nv) (ks k) ->
    antisymmetrised k X R -> antisymmetrised k XA RA -> antisymmetrised k XB RB -> assembled M no (ks k) X XA XB -> assembled M no (ks k) R RA RB.
  Proof.
    intros SX A A1 A2 [P1 [P2 P3]]. split; [|split].
    - eapply (shut_part FA k X R XA RA); eassumption.
    - eapply (shut_part FB k X R XB RB); eassumption.
    - eapply shut_sep; eassumption.
  Qed.
End Shut.

(** A routine that ends with an antisymmetriser. *)
Section End_.
  Variables no nv : nat.
  Variable M : fragmap.
  Hypothesis HM : frag_ok no nv M.
  Variable atoms : atomtab.
  Hypothesis Hat : Forall (atom_ok (fr_range no nv M) sy) atoms.
  Hypothesis Hsep : Forall (separated no nv M) atoms.
  Local Notation vs := (fr_vsim no nv M atoms).
  Lemma fr_end f nm g k a aA aB v vA vB : Forall2 vs a v -> Forall2 vs aA vA -> Forall2 vs aB vB ->
    ends_with nm f = true -> slook nm lib_tamps = Some g -> shut k g ->
    sepchk (ov_kinds k) (srun fr_slm 1 lib_tamps (before f) a) = true ->
    prt FA (ov_kinds k) (srun fr_slm 1 lib_tamps (before f) a) (srun fr_slm 1 lib_tamps (before f) aA) ->
    prt FB (ov_kinds k) (srun fr_slm 1 lib_tamps (before f) a) (srun fr_slm 1 lib_tamps (before f) aB) ->
    exists R RA RB, returns 1 lib_tamps f v R /\ returns 1 lib_tamps f vA RA /\ returns 1 lib_tamps f vB RB /\ shape R = map (ksize no nv) (ov_kinds k) /\
      assembled M no (ov_kinds k) R RA RB.
  Proof.
    intros V VA VB E L Hs C PA PB.
    assert (O : outsp (map ksp (ov_kinds k)) (srun fr_slm 1 lib_tamps (before f) a) = true) by (unfold sepchk in C; rewrite !andb_true_iff in C; apply C).
    destruct (fr_exec no nv M atoms _ _ _ _ _ _ V O) as [X0 [E0 [[SX _] _]]].
    destruct (fr_residual no nv M HM atoms Hat Hsep _ _ _ _ _ _ _ _ _ _ V VA VB C PA PB) as [X [XA [XB [E1 [EA [EB [_ AS]]]]]]].
    assert (X0 = X) by (unfold returns in E0, E1; congruence). subst X0.
    rewrite ksp_ov, frs_ov in SX. pose proof AS as [[SA _] [[SB _] _]].
    unfold ov_kinds in SA, SB. rewrite map_app, !map_repeat in SA, SB. cbn [ksize] in SA, SB.
    destruct (Hs _ _ X SX) as [R [HR [AR _]]], (Hs _ _ XA SA) as [RA [HRA [ARA _]]], (Hs _ _ XB SB) as [RB [HRB [ARB _]]].
    exists R, RA, RB.
    split; [unfold returns; rewrite (ends nm lib_tamps g f v X E L E1); exact HR|].
    split; [unfold returns; rewrite (ends nm lib_tamps g f vA XA E L EA); exact HRA|].
    split; [unfold returns; rewrite (ends nm lib_tamps g f vB XB E L EB); exact HRB|].
    split; [rewrite (proj1 AR), SX; unfold ov_kinds; rewrite map_app, !map_repeat; reflexivity|].
    eapply (shut_assembled no nv M HM Oc Vi k X R XA RA XB RB); try assumption.
    rewrite SX. rewrite map_app, !map_repeat. reflexivity.
  Qed.
End End_.

(** A whole-system array is zero when both fragment parts are. *)
Lemma assembled_zero no nv M ks R RA RB : frag_ok no nv M -> forallb noAl ks = true -> shape R = map (ksize no nv) ks ->
  assembled M no ks R RA RB -> zero_tensor RA -> zero_tensor RB -> zero_tensor R.
Proof.
  intros HM Hk SR [[SA PA] [[SB PB] HS]] ZA ZB idx Hi. rewrite SR in Hi.
  assert (G : forall ks, forallb noAl ks = true -> forall idx, inr idx (map (ksize no nv) ks) ->
    (exists jdx, inr jdx (map (ksize (fno M FA) (fnv M FA)) ks) /\ zipw (korb M no FA) ks jdx = idx) \/ touches M no FB ks idx).
  { clear -HM. induction ks as [|k ks IH]; intros Hk idx Hi; inversion Hi as [|i m idx' ms Hp Hi']; subst; [left; exists []; split; [constructor|reflexivity]|].
    cbn [forallb] in Hk. apply andb_true_iff in Hk. destruct Hk as [Hk Hks].
    destruct (which no nv M HM k i Hk Hp) as [[] [p [Q1 [Q2 Q3]]]].
    - destruct (IH Hks _ Hi') as [[jdx [J1 J2]]|[j [c [a T]]]].
      + left. exists (p :: jdx). split; [constructor; assumption|]. rewrite zipw_cons, Q2, J2. reflexivity.
      + right. exists (S j), c, a. exact T.
    - right. exists O, k, i. auto. }
  assert (G' : forall ks, forallb noAl ks = true -> forall idx, inr idx (map (ksize no nv) ks) ->
    (exists jdx, inr jdx (map (ksize (fno M FB) (fnv M FB)) ks) /\ zipw (korb M no FB) ks jdx = idx) \/ touches M no FA ks idx).
  { clear -HM. induction ks as [|k ks IH]; intros Hk idx Hi; inversion Hi as [|i m idx' ms Hp Hi']; subst; [left; exists []; split; [constructor|reflexivity]|].
    cbn [forallb] in Hk. apply andb_true_iff in Hk. destruct Hk as [Hk Hks].
    destruct (which no nv M HM k i Hk Hp) as [[] [p [Q1 [Q2 Q3]]]].
    - right. exists O, k, i. auto.
    - destruct (IH Hks _ Hi') as [[jdx [J1 J2]]|[j [c [a T]]]].
      + left. exists (p :: jdx). split; [constructor; assumption|]. rewrite zipw_cons, Q2, J2. reflexivity.
      + right. exists (S j), c, a. exact T. }
  destruct (G ks Hk idx Hi) as [[jdx [J1 J2]]|TB].
  - rewrite <- J2, <- PA by (rewrite SA; exact J1). apply ZA. rewrite SA; exact J1.
  - destruct (G' ks Hk idx Hi) as [[jdx [J1 J2]]|TA].
    + rewrite <- J2, <- PB by (rewrite SB; exact J1). apply ZB. rewrite SB; exact J1.
    + apply HS; [rewrite SR; exact Hi|exact TA|exact TB].
Qed.

(** ** Concrete arrays *)
Section Inst.
  Variable M : fragmap.
  Variable no : nat.
  Definition absk (k : kind) (p : nat) : nat := match k with Vi => (no + p)%nat | _ => p end.
  Definition infr (x : frag) (a : nat) : bool := if Nat.ltb a no then existsb (Nat.eqb a) (focc M x) else existsb (Nat.eqb (a - no)) (fvir M x).
  Definition crossing (ks : list kind) (idx : list nat) : bool := let l := zipw absk ks idx in (existsb (infr FA) l && existsb (infr FB) l)%bool.
  (** set the entries that couple the fragments to zero, and take the parts *)
  Definition decouple (ks : list kind) (t : tensor) : tensor := mkT (shape t) (fun idx => if crossing ks idx then 0%Qc else data t idx).
  Definition take (x : frag) (ks : list kind) (t : tensor) : tensor :=
    mkT (map (ksize (fno M x) (fnv M x)) ks) (fun idx => data t (zipw (korb M no x) ks idx)).
  Lemma take_part x ks t : part M no x ks t (take x ks t). Proof. split; reflexivity. Qed.
  Lemma existsb_perm (f : nat -> bool) l m : Permutation l m -> existsb f l = existsb f m.
  Proof.
    intros HP. destruct (existsb f l) eqn:E1, (existsb f m) eqn:E2; try reflexivity; exfalso.
    - apply existsb_exists in E1. destruct E1 as [x [H1 H2]]. rewrite <- not_true_iff_false in E2. apply E2. apply existsb_exists. exists x. split; [eapply Permutation_in; eassumption|exact H2].
    - apply existsb_exists in E2. destruct E2 as [x [H1 H2]]. rewrite <- not_true_iff_false in E1. apply E1. apply existsb_exists. exists x. split; [eapply Permutation_in; [symmetry; eassumption|assumption]|exact H2].
  Qed.
  Lemma crossing_perm ks idx ks' idx' : Permutation (zipw absk ks idx) (zipw absk ks' idx') -> crossing ks idx = crossing ks' idx'.
  Proof. intros H. unfold crossing. cbv zeta. rewrite !(existsb_perm _ _ _ H). reflexivity. Qed.
  Lemma crossing_swap K1 K2 k i pre x y post : length pre = i -> length (pre ++ x :: y :: post) = (k + k)%nat ->
    ((S i < k)%nat \/ (k <= i)%nat) ->
    crossing (repeat K1 k ++ repeat K2 k) (pre ++ x :: y :: post) = crossing (repeat K1 k ++ repeat K2 k) (pre ++ y :: x :: post).
  Proof.
    intros Lp L Hi. rewrite app_length in L. cbn [length] in L. apply crossing_perm.
    assert (G : exists a c b, (repeat K1 k ++ repeat K2 k)%list = (a ++ c :: c :: b)%list /\ length a = i).
    { destruct Hi as [H|H].
      - exists (repeat K1 i), K1, (repeat K1 (k - i - 2) ++ repeat K2 k)%list. rewrite repeat_length. split; [|reflexivity].
        replace k with (i + (S (S (k - i - 2))))%nat at 1 by lia. rewrite repeat_app, <- app_assoc. reflexivity.
      - exists (repeat K1 k ++ repeat K2 (i - k))%list, K2, (repeat K2 (k - (i - k) - 2))%list. rewrite app_length, !repeat_length. split; [|lia].
        rewrite <- app_assoc. f_equal. replace k with ((i - k) + (S (S (k - (i - k) - 2))))%nat at 1 by lia. rewrite repeat_app. reflexivity. }
    destruct G as [a [c [b [-> La]]]]. rewrite !zipw_app2 by lia. apply Permutation_app_head. rewrite !zipw_cons. apply perm_swap.
  Qed.
  Lemma decouple_antisym K1 K2 k t : length (shape t) = (k + k)%nat -> antisymmetric k t -> antisymmetric k (decouple (repeat K1 k ++ repeat K2 k) t).
  Proof.
    intros HL HA i Hi. destruct (HA i Hi) as [H1 H2].
    split; intros pre x y post Lp I1 I2; cbn [decouple shape data] in *;
      rewrite (crossing_swap K1 K2 k (length pre) pre x y post eq_refl) by (try (rewrite (inr_len _ _ I1); exact HL); lia);
      match goal with |- context [if ?c then _ else _] => destruct c end; try ring; [apply H1|apply H2]; assumption.
  Qed.
  Lemma decouple_herm k t : hermitian k t -> hermitian k (decouple (repeat Al k ++ repeat Al k) t).
  Proof.
    intros H l1 l2 L1 L2 I. cbn [decouple shape data] in *.
    rewrite (crossing_perm (repeat Al k ++ repeat Al k) (l1 ++ l2) (repeat Al k ++ repeat Al k) (l2 ++ l1)).
    - destruct (crossing _ _); [reflexivity|]. apply H; assumption.
    - rewrite !zipw_app2 by (rewrite repeat_length; auto). apply Permutation_app_comm.
  Qed.
  Lemma decouple_sep nv ks t : frag_ok no nv M -> separate M no ks (decouple ks t).
  Proof.
    intros HM idx _ TA TB. cbn [decouple data].
    assert (G : forall x, touches M no x ks idx -> existsb (infr x) (zipw absk ks idx) = true).
    { clear TA TB. intros x [j [k [p [H1 [H2 H3]]]]]. revert idx j H1 H2. induction ks as [|c ks IH]; intros idx j H1 H2; [destruct j; discriminate|].
      destruct idx as [|q idx]; [destruct j; discriminate|]. rewrite zipw_cons. cbn [existsb]. destruct j as [|j]; cbn in H1, H2.
      - apply some_inj in H1, H2. subst c q. apply orb_true_iff. left. unfold infr.
        assert (E : forall l a, In a l -> existsb (Nat.eqb a) l = true) by (intros l a HI; apply existsb_exists; exists a; split; [exact HI|apply Nat.eqb_refl]).
        destruct k; cbn [belongs absk] in *.
        + assert (p < no)%nat by (eapply (fo_lt no nv M HM); eassumption). destruct (Nat.ltb_spec p no); [|lia]. apply E, H3.
        + destruct (Nat.ltb_spec (no + p) no); [lia|]. replace (no + p - no)%nat with p by lia. apply E, H3.
        + destruct (Nat.ltb_spec p no); apply E, H3.
      - rewrite (IH idx j H1 H2). apply orb_true_r. }
    unfold crossing. cbv zeta. rewrite (G FA TA), (G FB TB). reflexivity.
  Qed.
  Lemma decouple_assembled nv ks t : frag_ok no nv M -> assembled M no ks (decouple ks t) (take FA ks (decouple ks t)) (take FB ks (decouple ks t)).
  Proof. intros HM. split; [apply take_part|]. split; [apply take_part|]. eapply decouple_sep, HM. Qed.
  Lemma decouple_fock n t : is_fock n t -> is_fock n (decouple [Al; Al] t).
  Proof. intros [H1 H2]. split; [exact H1|]. apply (decouple_herm 1), H2. Qed.
  Lemma decouple_tei n t : is_tei n t -> is_tei n (decouple [Al; Al; Al; Al] t).
  Proof. intros [H1 [H2 H3]]. split; [exact H1|]. split; [apply (decouple_antisym Al Al 2); [rewrite H1; reflexivity|exact H2]|apply (decouple_herm 2), H3]. Qed.
  Lemma decouple_amp k nv t : is_amp k no nv t -> is_amp k no nv (decouple (vo_kinds k) t).
  Proof. intros [H1 H2]. split; [exact H1|]. apply decouple_antisym; [rewrite H1, app_length, !repeat_length; reflexivity|exact H2]. Qed.
  Lemma decouple_amp_ov k nv t : is_amp_ov k no nv t -> is_amp_ov k no nv (decouple (ov_kinds k) t).
  Proof. intros [H1 H2]. split; [exact H1|]. apply decouple_antisym; [rewrite H1, app_length, !repeat_length; reflexivity|exact H2]. Qed.
End Inst.
(** Two fragments with two occupied and two virtual orbitals each, interleaved in the whole system. *)
Definition two_frags : fragmap := mkFM (fun x => match x with FA => [0; 2]%nat | FB => [1; 3]%nat end) (fun x => match x with FA => [0; 2]%nat | FB => [1; 3]%nat end).
Lemma two_frags_ok : frag_ok 4 4 two_frags.
Proof. split; cbn; apply perm_skip; apply perm_swap. Qed.

(** ** The whole system made from given fragments *)
Section Join.
  Variables no nv : nat.
  Variable M : fragmap.
  Hypothesis HM : frag_ok no nv M.
  Definition kpos (x : frag) (k : kind) (p : nat) : nat :=
    match k with
    | Oc => index_of p (focc M x)
    | Vi => index_of p (fvir M x)
    | Al => if Nat.ltb p no then index_of p (focc M x) else (fno M x + index_of (p - no) (fvir M x))%nat
    end.
  Definition allin (x : frag) (ks : list kind) (idx : list nat) : bool := forallb (infr M no x) (zipw (absk no) ks idx).
  Definition join (ks : list kind) (a b : tensor) : tensor :=
    mkT (map (ksize no nv) ks) (fun idx =>
      if allin FA ks idx then data a (zipw (kpos FA) ks idx)
      else if allin FB ks idx then data b (zipw (kpos FB) ks idx) else 0%Qc).
  Lemma infr_in x k p : (p < ksize no nv k)%nat -> infr M no x (absk no k p) = true <-> belongs M no x k p.
  Proof.
    assert (E : forall l a, existsb (Nat.eqb a) l = true <-> In a l).
    { intros l a. rewrite existsb_exists. split; [intros [y [H1 H2]]; apply Nat.eqb_eq in H2; subst; exact H1|intros H; exists a; split; [exact H|apply Nat.eqb_refl]]. }
    unfold infr. destruct k; cbn [absk belongs ksize]; intros Hp.
    - destruct (Nat.ltb_spec p no); [apply E|lia].
    - destruct (Nat.ltb_spec (no + p) no); [lia|]. replace (no + p - no)%nat with p by lia. apply E.
    - destruct (Nat.ltb_spec p no); apply E.
  Qed.
  Lemma korb_belongs x k p : (p < ksize (fno M x) (fnv M x) k)%nat -> belongs M no x k (korb M no x k p).
  Proof.
    destruct k; cbn [belongs korb ksize]; unfold fno, fnv; intros Hp; [apply nth_In, Hp|apply nth_In, Hp|].
    destruct (Nat.ltb_spec p (length (focc M x))) as [L|L].
    - pose proof (nth_In (focc M x) O L) as HI. pose proof (fo_lt no nv M HM x _ HI). destruct (Nat.ltb_spec (nth p (focc M x) O) no); [exact HI|lia].
    - match goal with |- context [Nat.ltb ?a no] => destruct (Nat.ltb_spec a no); [lia|] end.
      match goal with |- In (?a + ?b - ?a)%nat _ => replace (a + b - a)%nat with b by lia end. apply nth_In. lia.
  Qed.
  Lemma belongs_not x y k p : belongs M no x k p -> belongs M no y k p -> x = y.
  Proof.
    destruct k; cbn [belongs].
    - apply (only_one no nv M HM Oc x y p eq_refl).
    - apply (only_one no nv M HM Vi x y p eq_refl).
    - destruct (Nat.ltb p no); [apply (only_one no nv M HM Oc x y p eq_refl)|apply (only_one no nv M HM Vi x y (p - no) eq_refl)].
  Qed.
  Lemma nodup_o x : NoDup (focc M x).
  Proof. pose proof (fo_nodup no nv M HM) as H. destruct x; [eapply nodup_app_l|eapply nodup_app_r]; exact H. Qed.
  Lemma nodup_v x : NoDup (fvir M x).
  Proof. pose proof (fv_nodup no nv M HM) as H. destruct x; [eapply nodup_app_l|eapply nodup_app_r]; exact H. Qed.
  Lemma kpos_korb x k p : (p < ksize (fno M x) (fnv M x) k)%nat -> kpos x k (korb M no x k p) = p.
  Proof.
    destruct k; cbn [kpos korb ksize]; unfold fno, fnv; intros Hp.
    - apply index_of_nth; [apply nodup_o|exact Hp].
    - apply index_of_nth; [apply nodup_v|exact Hp].
    - destruct (Nat.ltb_spec p (length (focc M x))) as [L|L].
      + pose proof (fo_lt no nv M HM x _ (nth_In (focc M x) O L)). destruct (Nat.ltb_spec (nth p (focc M x) O) no); [|lia]. apply index_of_nth; [apply nodup_o|exact L].
      + match goal with |- context [Nat.ltb ?a no] => destruct (Nat.ltb_spec a no); [lia|] end.
        match goal with |- context [(?a + ?b - ?a)%nat] => replace (a + b - a)%nat with b by lia end.
        rewrite index_of_nth by (try apply nodup_v; lia). lia.
  Qed.
  Lemma kpos_lt x k p : belongs M no x k p -> (kpos x k p < ksize (fno M x) (fnv M x) k)%nat.
  Proof.
    destruct k; cbn [kpos belongs ksize]; unfold fno, fnv; intros H; try (apply index_of_lt, H).
    destruct (Nat.ltb p no); pose proof (index_of_lt _ _ H); lia.
  Qed.
  Lemma allin_spec x ks idx : inr idx (map (ksize no nv) ks) -> allin x ks idx = true -> inr (zipw (kpos x) ks idx) (map (ksize (fno M x) (fnv M x)) ks).
  Proof.
    revert idx. induction ks as [|k ks IH]; intros idx Hi H; inversion Hi; subst; [constructor|].
    unfold allin in H. rewrite !zipw_cons in *. cbn [forallb map] in *. apply andb_true_iff in H. destruct H as [H0 H].
    constructor; [apply kpos_lt; apply infr_in; assumption|apply IH; assumption].
  Qed.
  Lemma allin_korb x ks idx : inr idx (map (ksize (fno M x) (fnv M x)) ks) ->
    allin x ks (zipw (korb M no x) ks idx) = true /\ zipw (kpos x) ks (zipw (korb M no x) ks idx) = idx.
  Proof.
    revert idx. induction ks as [|k ks IH]; intros idx Hi; inversion Hi; subst; [split; reflexivity|].
    unfold allin in *. rewrite !zipw_cons. cbn [forallb]. destruct (IH l) as [I1 I2]; [assumption|]. rewrite I1, I2, andb_true_r, kpos_korb by assumption.
    split; [|reflexivity]. apply infr_in; [eapply korb_lt; eassumption|apply korb_belongs; assumption].
  Qed.
  Lemma allin_touch x y ks idx : inr idx (map (ksize no nv) ks) -> allin x ks idx = true -> touches M no y ks idx -> x = y.
  Proof.
    intros Hi H [j [k [p [H1 [H2 H3]]]]]. revert idx Hi H j H1 H2. induction ks as [|c ks IH]; intros idx Hi H j H1 H2; [destruct j; discriminate|].
    inversion Hi; subst. unfold allin in *. rewrite zipw_cons in H. cbn [forallb] in H. apply andb_true_iff in H. destruct H as [HA HB]. destruct j as [|j]; cbn in H1, H2.
    - apply some_inj in H1, H2. subst. eapply belongs_not; [apply infr_in; eassumption|exact H3].
    - eapply IH; eassumption.
  Qed.
  Lemma join_assembled ks a b : ks <> [] -> shape a = map (ksize (fno M FA) (fnv M FA)) ks -> shape b = map (ksize (fno M FB) (fnv M FB)) ks ->
    assembled M no ks (join ks a b) a b.
  Proof.
    intros Hks Sa Sb. split; [|split].
    - split; [exact Sa|]. intros idx Hi. rewrite Sa in Hi. destruct (allin_korb FA ks idx Hi) as [E1 E2]. cbn [join data]. rewrite E1, E2. reflexivity.
    - split; [exact Sb|]. intros idx Hi. rewrite Sb in Hi. destruct (allin_korb FB ks idx Hi) as [E1 E2]. cbn [join data]. rewrite E1, E2.
      destruct (allin FA ks (zipw (korb M no FB) ks idx)) eqn:EA; [exfalso|reflexivity].
      destruct ks as [|k ks]; [congruence|]. inversion Hi; subst. unfold allin in EA, E1. rewrite !zipw_cons in EA, E1. cbn [forallb] in EA, E1.
      apply andb_true_iff in EA, E1. destruct EA as [EA _], E1 as [EB _].
      apply infr_in in EA; [|eapply korb_lt; eassumption]. apply infr_in in EB; [|eapply korb_lt; eassumption].
      pose proof (belongs_not _ _ _ _ EA EB). discriminate.
    - intros idx Hi TA TB. cbn [join shape data] in *.
      destruct (allin FA ks idx) eqn:EA; [pose proof (allin_touch _ _ _ _ Hi EA TB); discriminate|].
      destruct (allin FB ks idx) eqn:EB; [pose proof (allin_touch _ _ _ _ Hi EB TA); discriminate|reflexivity].
  Qed.
  Lemma forallb_perm (f : nat -> bool) l m : Permutation l m -> forallb f l = forallb f m.
  Proof. induction 1; cbn [forallb]; [reflexivity|congruence|rewrite !andb_assoc, (andb_comm (f y)); reflexivity|congruence]. Qed.
  Lemma allin_perm x ks idx ks' idx' : Permutation (zipw (absk no) ks idx) (zipw (absk no) ks' idx') -> allin x ks idx = allin x ks' idx'.
  Proof. intros H. apply forallb_perm, H. Qed.
  Lemma join_antisym K1 K2 k a b : shape a = map (ksize (fno M FA) (fnv M FA)) (repeat K1 k ++ repeat K2 k) -> shape b = map (ksize (fno M FB) (fnv M FB)) (repeat K1 k ++ repeat K2 k) ->
    antisymmetric k a -> antisymmetric k b -> antisymmetric k (join (repeat K1 k ++ repeat K2 k) a b).
  Proof.
    intros Sa Sb Ha Hb.
    assert (G : forall i, ((Datatypes.S i < k)%nat \/ (k <= i /\ Datatypes.S i < k + k)%nat) -> antisymmetric_in a i -> antisymmetric_in b i -> antisymmetric_in (join (repeat K1 k ++ repeat K2 k) a b) i).
    { clear Ha Hb. intros i Hi Ha Hb pre x y post Lp I1 I2. cbn [join shape data] in *.
      assert (L : (length pre + Datatypes.S (Datatypes.S (length post)))%nat = (k + k)%nat).
      { pose proof (inr_len _ _ I1) as L. rewrite map_length, !app_length, !repeat_length in L. cbn [length] in L. exact L. }
      assert (G : exists u c w, (repeat K1 k ++ repeat K2 k)%list = (u ++ c :: c :: w)%list /\ length u = i).
      { destruct Hi as [H|[H H']].
        - exists (repeat K1 i), K1, (repeat K1 (k - i - 2) ++ repeat K2 k)%list. rewrite repeat_length. split; [|reflexivity].
          replace k with (i + (Datatypes.S (Datatypes.S (k - i - 2))))%nat at 1 by lia. rewrite repeat_app, <- app_assoc. reflexivity.
        - exists (repeat K1 k ++ repeat K2 (i - k))%list, K2, (repeat K2 (k - (i - k) - 2))%list. rewrite app_length, !repeat_length. split; [|lia].
          rewrite <- app_assoc. f_equal. replace k with ((i - k) + (Datatypes.S (Datatypes.S (k - (i - k) - 2))))%nat at 1 by lia. rewrite repeat_app. reflexivity. }
      destruct G as [u [c [w [E Lu]]]]. rewrite E in *. clear E.
      assert (P : forall z, allin z (u ++ c :: c :: w) (pre ++ x :: y :: post) = allin z (u ++ c :: c :: w) (pre ++ y :: x :: post)).
      { intros z. apply allin_perm. rewrite !zipw_app2 by lia. apply Permutation_app_head. rewrite !zipw_cons. apply perm_swap. }
      assert (Z : forall z p q, zipw (kpos z) (u ++ c :: c :: w) (pre ++ p :: q :: post) = (zipw (kpos z) u pre ++ kpos z c p :: kpos z c q :: zipw (kpos z) w post)%list).
      { intros z p q. rewrite zipw_app2 by lia. rewrite !zipw_cons. reflexivity. }
      assert (LZ : forall z, length (zipw (kpos z) u pre) = i) by (intros z; rewrite zipw_length by lia; exact Lu).
      rewrite !P.
      destruct (allin FA (u ++ c :: c :: w) (pre ++ y :: x :: post)) eqn:EA.
      - rewrite !Z. apply Ha; [apply LZ| |]; rewrite Sa, <- Z; apply allin_spec; try assumption. rewrite P. exact EA.
      - destruct (allin FB (u ++ c :: c :: w) (pre ++ y :: x :: post)) eqn:EB; [|ring].
        rewrite !Z. apply Hb; [apply LZ| |]; rewrite Sb, <- Z; apply allin_spec; try assumption. rewrite P. exact EB. }
    intros i Hi. destruct (Ha i Hi), (Hb i Hi). split; apply G; try assumption; lia.
  Qed.
  Lemma join_herm k a b : shape a = map (ksize (fno M FA) (fnv M FA)) (repeat Al k ++ repeat Al k) -> shape b = map (ksize (fno M FB) (fnv M FB)) (repeat Al k ++ repeat Al k) ->
    hermitian k a -> hermitian k b -> hermitian k (join (repeat Al k ++ repeat Al k) a b).
  Proof.
    intros Sa Sb Ha Hb l1 l2 L1 L2 I1. cbn [join shape data] in *.
    assert (P : forall z, allin z (repeat Al k ++ repeat Al k) (l1 ++ l2) = allin z (repeat Al k ++ repeat Al k) (l2 ++ l1)).
    { intros z. apply allin_perm. rewrite !zipw_app2 by (rewrite repeat_length; auto). apply Permutation_app_comm. }
    assert (Z : forall z m1 m2, length m1 = k -> zipw (kpos z) (repeat Al k ++ repeat Al k) (m1 ++ m2) = (zipw (kpos z) (repeat Al k) m1 ++ zipw (kpos z) (repeat Al k) m2)%list).
    { intros z m1 m2 L. apply zipw_app2. rewrite repeat_length. auto. }
    assert (LZ : forall z m, length m = k -> length (zipw (kpos z) (repeat Al k) m) = k) by (intros z m L; rewrite zipw_length; rewrite repeat_length; auto).
    rewrite <- !P.
    destruct (allin FA (repeat Al k ++ repeat Al k) (l1 ++ l2)) eqn:EA.
    - rewrite !Z by assumption. apply Ha; [apply LZ, L1|apply LZ, L2|]. rewrite Sa, <- Z by assumption. apply allin_spec; assumption.
    - destruct (allin FB (repeat Al k ++ repeat Al k) (l1 ++ l2)) eqn:EB; [|reflexivity].
      rewrite !Z by assumption. apply Hb; [apply LZ, L1|apply LZ, L2|]. rewrite Sb, <- Z by assumption. apply allin_spec; assumption.
  Qed.
  Lemma vo_shape n m k : map (ksize n m) (vo_kinds k) = (repeat m k ++ repeat n k)%list. Proof. unfold vo_kinds. rewrite map_app, !map_repeat. reflexivity. Qed.
  Lemma ov_shape n m k : map (ksize n m) (ov_kinds k) = (repeat n k ++ repeat m k)%list. Proof. unfold ov_kinds. rewrite map_app, !map_repeat. reflexivity. Qed.
  Lemma join_amp k a b : is_amp k (fno M FA) (fnv M FA) a -> is_amp k (fno M FB) (fnv M FB) b -> is_amp k no nv (join (vo_kinds k) a b).
  Proof.
    intros [H1 H2] [H3 H4]. split; [cbn [join shape]; apply vo_shape|]. apply join_antisym; try assumption; [rewrite H1; symmetry; apply vo_shape|rewrite H3; symmetry; apply vo_shape].
  Qed.
  Lemma join_amp_ov k a b : is_amp_ov k (fno M FA) (fnv M FA) a -> is_amp_ov k (fno M FB) (fnv M FB) b -> is_amp_ov k no nv (join (ov_kinds k) a b).
  Proof.
    intros [H1 H2] [H3 H4]. split; [cbn [join shape]; apply ov_shape|]. apply join_antisym; try assumption; [rewrite H1; symmetry; apply ov_shape|rewrite H3; symmetry; apply ov_shape].
  Qed.
  Lemma join_fock a b : is_fock (fno M FA + fnv M FA) a -> is_fock (fno M FB + fnv M FB) b -> is_fock (no + nv) (join [Al; Al] a b).
  Proof. intros [H1 H2] [H3 H4]. split; [reflexivity|]. apply (join_herm 1); try assumption. Qed.
  Lemma join_tei a b : is_tei (fno M FA + fnv M FA) a -> is_tei (fno M FB + fnv M FB) b -> is_tei (no + nv) (join [Al; Al; Al; Al] a b).
  Proof.
    intros [H1 [H2 H3]] [H4 [H5 H6]]. split; [reflexivity|]. split; [apply (join_antisym Al Al 2); assumption|apply (join_herm 2); assumption].
  Qed.
End Join.
