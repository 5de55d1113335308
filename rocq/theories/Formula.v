(** Arrays given by explicit index formulas, as symbolic polynomials.
    [pos_eval] unfolds, for a concrete polynomial, to an ordinary formula with sums over positions; an array
    whose entries are given by that formula is represented by the polynomial.
    Proof machinery; it models no particular source line. *)
From Coq Require Import String Ascii List Arith NArith ZArith QArith Qcanon Bool Lia Permutation.
From Verif Require Import Sums Tensor Interp Poly SymExec Canon Spec Setup Master Spin Check Tabs Antisym.
Import ListNotations.
Open Scope Qc_scope.

Section Pos.
  Variables n0 n1 : nat.      (* numbers of occupied / virtual orbitals *)
  Variable atoms : atomtab.
  Definition pdim (s : space) : nat := match s with 0%N => n0 | 1%N => n1 | _ => (n0 + n1)%nat end.
  Definition conv (pe : env) (v : var) (s : space) : nat :=
    if N.eqb (spc v) s then pe v else match spc v with 1%N => (n0 + pe v)%nat | _ => pe v end.
  Definition posF (pe : env) (f : fac) : Qc :=
    match nlook (fst f) atoms with
    | Some (sps, t) => data t (zipw (conv pe) (snd f) sps)
    | None => 0
    end.
  Definition lprod (l : list Qc) : Qc := match l with [] => 1 | x :: r => fold_left Qcmult r x end.
  Definition lsum (l : list Qc) : Qc := match l with [] => 0 | x :: r => fold_left Qcplus r x end.
  Fixpoint posD (ds : list var) (F : env -> Qc) (pe : env) : Qc :=
    match ds with
    | [] => F pe
    | d :: r => suml (seq 0 (pdim (spc d))) (fun x => posD r F (upd pe d x))
    end.
  Definition posT (pe : env) (t : term) : Qc :=
    Q2Qc (tc t) * posD (td t) (fun e => lprod (map (posF e) (tf t))) pe.
  Definition pos_eval (pe : env) (p : poly) : Qc := lsum (map (posT pe) p).

  Definition okspc (s : space) : bool := (N.eqb s 0 || N.eqb s 1 || N.eqb s 6)%bool.
  Definition okfac (f : fac) : bool :=
    match nlook (fst f) atoms with
    | Some (sps, _) => (Nat.eqb (length (snd f)) (length sps) && forallb (fun p =>
        okspc (spc (fst p)) && (N.eqb (spc (fst p)) (snd p) || N.eqb (snd p) 6))%bool (combine (snd f) sps))%bool
    | None => false
    end.
  Definition okterm (t : term) : bool :=
    (forallb okfac (tf t) && forallb (fun d => okspc (spc d)) (td t) && forallb (fun v => okspc (spc v)) (fvars (tf t)))%bool.

  Variable range : space -> list nat.
  Hypothesis r0 : range 0%N = seq 0 n0.
  Hypothesis r1 : range 1%N = seq n0 n1.
  Hypothesis r6 : range 6%N = seq 0 (n0 + n1).
  Hypothesis nd : forall s, NoDup (range s).

  Lemma okspc_cases s : okspc s = true -> s = 0%N \/ s = 1%N \/ s = 6%N.
  Proof.
    unfold okspc. rewrite !orb_true_iff, !N.eqb_eq. intros [[H|H]|H]; auto.
  Qed.
  Lemma pdim_len s : okspc s = true -> length (range s) = pdim s.
  Proof.
    intros H. apply okspc_cases in H. destruct H as [-> | [-> | -> ]]; rewrite ?r0, ?r1, ?r6, seq_length; reflexivity.
  Qed.
  Definition rel (vs : list var) (pe e : env) : Prop :=
    forall v, In v vs -> (pe v < pdim (spc v))%nat /\ e v = nth (pe v) (range (spc v)) O.

  Lemma conv_orb v s pe e : okspc (spc v) = true -> (spc v = s \/ s = 6%N) ->
    (pe v < pdim (spc v))%nat -> e v = nth (pe v) (range (spc v)) O ->
    (conv pe v s < dim range s)%nat /\ e v = nth (conv pe v s) (range s) O.
  Proof.
    intros Ho Hs Hp He. unfold conv. destruct (N.eqb_spec (spc v) s) as [E|E].
    - subst s. split; [unfold dim; rewrite pdim_len by exact Ho; exact Hp|exact He].
    - destruct Hs as [Hs| ->]; [contradiction|]. rewrite He.
      apply okspc_cases in Ho. destruct Ho as [H|[H|H]]; rewrite H in *; cbn [pdim] in Hp; rewrite ?r0, ?r1 in *; [| |contradiction].
      + unfold dim. rewrite r6, seq_length. split; [lia|]. rewrite !seq_nth by lia. reflexivity.
      + unfold dim. rewrite r6, seq_length. split; [lia|]. rewrite !seq_nth by lia. reflexivity.
  Qed.
  Lemma posF_ok f pe e : okfac f = true -> rel (snd f) pe e -> forallb (fun v => okspc (spc v)) (snd f) = true ->
    evalF (Aof range atoms) e f = posF pe f.
  Proof.
    destruct f as [n vs]. unfold okfac, posF, evalF; cbn [fst snd].
    destruct (nlook n atoms) as [[sps t]|] eqn:HL; [|discriminate].
    rewrite andb_true_iff, Nat.eqb_eq. intros [HLen HF] HR HO.
    assert (G : inr (zipw (conv pe) vs sps) (map (dim range) sps) /\
       map e vs = orbs range sps (zipw (conv pe) vs sps)).
    { clear HL. revert sps HLen HF HR HO. induction vs as [|v vs IH]; intros [|s sps] HLen HF HR HO; try discriminate.
      - split; [constructor|reflexivity].
      - cbn [combine forallb fst snd] in HF. rewrite !andb_true_iff in HF. destruct HF as [[H1 H2] HF].
        cbn [forallb] in HO. apply andb_true_iff in HO. destruct HO as [_ HO].
        rewrite orb_true_iff, !N.eqb_eq in H2.
        destruct (HR v (or_introl eq_refl)) as [A1 A2].
        destruct (conv_orb v s pe e H1 H2 A1 A2) as [B1 B2].
        destruct (IH sps) as [C1 C2]; [cbn in HLen; lia|exact HF|intros w Hw; apply HR; right; exact Hw|exact HO|].
        cbn [map]. unfold orbs in *. rewrite !zipw_cons. split.
        + constructor; assumption.
        + cbn [map]. rewrite <- C2, <- B2. reflexivity. }
    destruct G as [G1 G2]. rewrite G2. apply Aof_orbs; assumption.
  Qed.
  Lemma lprod_cons x l : lprod (x :: l) = x * lprod l.
  Proof.
    unfold lprod. revert x. induction l as [|y l IH]; intros x; cbn [fold_left]; [ring|].
    destruct l as [|z l]; [cbn [fold_left] in *; ring|].
    rewrite (IH (x * y)). rewrite (IH y). ring.
  Qed.
  Lemma lsum_cons x l : lsum (x :: l) = x + lsum l.
  Proof.
    unfold lsum. revert x. induction l as [|y l IH]; intros x; cbn [fold_left]; [ring|].
    destruct l as [|z l]; [cbn [fold_left] in *; ring|].
    rewrite (IH (x + y)). rewrite (IH y). ring.
  Qed.
  Lemma posFs_ok fs pe e : forallb okfac fs = true -> rel (fvars fs) pe e ->
    forallb (fun v => okspc (spc v)) (fvars fs) = true ->
    evalFs (Aof range atoms) fs e = lprod (map (posF pe) fs).
  Proof.
    induction fs as [|f fs IH]; intros HO HR HV; [reflexivity|].
    cbn [forallb] in HO. apply andb_true_iff in HO. destruct HO as [H1 H2].
    unfold fvars in HV; cbn [flat_map] in HV. rewrite forallb_app in HV. apply andb_true_iff in HV. destruct HV as [V1 V2].
    cbn [evalFs map]. rewrite lprod_cons. rewrite <- IH; [|exact H2| |exact V2].
    - f_equal. apply posF_ok; [exact H1| |exact V1].
      intros v Hv. apply HR. unfold fvars; cbn [flat_map]. apply in_or_app; left; exact Hv.
    - intros v Hv. apply HR. unfold fvars; cbn [flat_map]. apply in_or_app; right; exact Hv.
  Qed.
  Lemma posD_ok fs ds : forallb okfac fs = true -> forallb (fun v => okspc (spc v)) (fvars fs) = true ->
    forallb (fun d => okspc (spc d)) ds = true ->
    forall pe e, (forall v, In v (fvars fs) -> ~ In v ds -> (pe v < pdim (spc v))%nat /\ e v = nth (pe v) (range (spc v)) O) ->
    sumD range ds (evalFs (Aof range atoms) fs) e = posD ds (fun e => lprod (map (posF e) fs)) pe.
  Proof.
    intros HF HV. induction ds as [|d ds IH]; intros HD pe e HR; cbn [sumD posD].
    - apply posFs_ok; [exact HF| |exact HV]. intros v Hv. apply HR; [exact Hv|intros []].
    - cbn [forallb] in HD. apply andb_true_iff in HD. destruct HD as [D1 D2].
      rewrite <- (suml_nth _ _ O), pdim_len by exact D1.
      apply suml_ext. intros x Hx. apply in_seq in Hx. apply IH; [exact D2|].
      intros v Hv Hn. unfold upd. destruct (N.eqb_spec v d) as [->|E].
      + split; [lia|reflexivity].
      + apply HR; [exact Hv|]. intros [I|I]; [congruence|contradiction].
  Qed.
  Lemma pos_eval_ok xs p pe e : forallb okterm p = true -> forallb (closed_term xs) p = true ->
    (forall v, In v xs -> (pe v < pdim (spc v))%nat /\ e v = nth (pe v) (range (spc v)) O) ->
    evalP range (Aof range atoms) e p = pos_eval pe p.
  Proof.
    intros HO HC HR. unfold evalP, pos_eval. induction p as [|t p IH]; [reflexivity|].
    cbn [forallb] in *. apply andb_true_iff in HO, HC. destruct HO as [O1 O2], HC as [C1 C2].
    cbn [suml map]. rewrite lsum_cons, (IH O2 C2). f_equal. unfold evalT, posT. f_equal.
    unfold okterm in O1. rewrite !andb_true_iff in O1. destruct O1 as [[O1 O1'] O1''].
    apply posD_ok; try assumption. intros v Hv Hn. apply HR.
    unfold closed_term in C1. rewrite forallb_forall in C1. specialize (C1 v Hv).
    apply orb_true_iff in C1. destruct C1 as [C1|C1]; apply memv_In in C1; [contradiction|exact C1].
  Qed.

  Definition okpoly (sps : list space) (p : poly) : bool :=
    (forallb okterm p && forallb (closed_term (xvs sps)) p && forallb okspc sps && xs_ok sps && nodupx sps)%bool.

  Lemma eagree_pos sps idx pe e : forallb okspc sps = true -> xs_ok sps = true ->
    inr idx (map (dim range) sps) -> eagree range sps idx e -> map pe (xvs sps) = idx ->
    forall v, In v (xvs sps) -> (pe v < pdim (spc v))%nat /\ e v = nth (pe v) (range (spc v)) O.
  Proof.
    unfold eagree, xs_ok, xvs. intros HO HX Hi Hag Hpe v Hv.
    assert (G : forall sps idx k, forallb okspc sps = true -> Forall2 lt idx (map (dim range) sps) ->
      map e (xvs_from (N.of_nat k) sps) = zipw (fun s x => nth x (range s) 0%nat) sps idx ->
      map pe (xvs_from (N.of_nat k) sps) = idx ->
      (forall i, (i < length sps)%nat -> spc (mkv (nth i sps 0%N) (N.of_nat (k + i))) = nth i sps 0%N) ->
      In v (xvs_from (N.of_nat k) sps) -> (pe v < pdim (spc v))%nat /\ e v = nth (pe v) (range (spc v)) O).
    { clear -r0 r1 r6. induction sps as [|s sps IH]; intros idx k HO Hi Hag Hpe Hs Hv; [contradiction|].
      destruct idx as [|x idx]; [inversion Hi|]. cbn [forallb] in HO. apply andb_true_iff in HO. destruct HO as [O1 O2].
      inversion Hi; subst. cbn [xvs_from map] in *. rewrite zipw_cons in Hag.
      injection Hag as A1 A2. injection Hpe as B1 B2.
      pose proof (Hs O ltac:(cbn; lia)) as Hs0. cbn [nth] in Hs0. rewrite Nat.add_0_r in Hs0.
      destruct Hv as [<-|Hv].
      - rewrite Hs0, B1. split; [|exact A1]. unfold dim in *. rewrite pdim_len in * by exact O1. assumption.
      - replace (N.of_nat k + 1)%N with (N.of_nat (S k)) in * by lia. eapply (IH idx (S k)); try eassumption.
        intros i Hi'. specialize (Hs (S i)). cbn [length nth] in Hs. rewrite <- Hs at 2 by lia.
        rewrite Nat.add_succ_r. reflexivity. }
    apply (G sps idx O); try assumption.
    intros i Hi'. rewrite forallb_forall in HX. apply N.eqb_eq, HX. apply in_seq. lia.
  Qed.

  (** An array whose entries are given by the formula of a polynomial. *)
  Theorem tsim_formula sps p t : okpoly sps p = true -> shape t = map pdim sps ->
    (forall idx, inr idx (shape t) -> data t idx = pos_eval (env_of sps idx) p) ->
    tsim range (Aof range atoms) sps p t.
  Proof.
    unfold okpoly. rewrite !andb_true_iff. intros [[[[P1 P2] P3] P4] P5] Hs Hd.
    assert (Hs' : shape t = map (dim range) sps).
    { rewrite Hs. clear -P3 r0 r1 r6. induction sps as [|s sps IH]; [reflexivity|]. cbn in *. apply andb_true_iff in P3.
      destruct P3. unfold dim at 1. rewrite pdim_len by assumption. f_equal. apply IH. assumption. }
    split; [exact Hs'|]. intros idx e Hi Hag. rewrite (Hd idx Hi). symmetry.
    eapply pos_eval_ok; [exact P1|exact P2|]. rewrite Hs' in Hi.
    eapply eagree_pos; try eassumption. apply map_env_of; [apply nodupv_NoDup; exact P5|].
    apply inr_len in Hi. rewrite map_length in Hi. exact Hi.
  Qed.
  (** The entries of an array with known polynomial. *)
  Theorem read_formula sps p t idx : okpoly sps p = true -> tsim range (Aof range atoms) sps p t ->
    inr idx (shape t) -> data t idx = pos_eval (env_of sps idx) p.
  Proof.
    unfold okpoly. rewrite !andb_true_iff. intros [[[[P1 P2] P3] P4] P5] [Hs Hd] Hi.
    set (e := env_of sps (orbs range sps idx)).
    assert (Hag : eagree range sps idx e) by (apply agree_env; [exact P5|rewrite <- Hs; exact Hi]).
    rewrite (Hd idx e Hi Hag). eapply pos_eval_ok; [exact P1|exact P2|]. rewrite Hs in Hi.
    eapply eagree_pos; try eassumption. apply map_env_of; [apply nodupv_NoDup; exact P5|].
    apply inr_len in Hi. rewrite map_length in Hi. exact Hi.
  Qed.
End Pos.

(** Writing polynomials: external letters, summed letters, coefficient, factors.
    Letters a-h are virtual, i-o occupied. *)
Definition lspc (c : ascii) : space := if Nat.ltb (nat_of_ascii c) 105 then 1%N else 0%N.
Fixpoint lpos (c : ascii) (l : list ascii) (k : N) : option N :=
  match l with [] => None | d :: r => if Ascii.eqb c d then Some k else lpos c r (k + 1)%N end.
Definition lvar (out ds : list ascii) (c : ascii) : var :=
  match lpos c out 0 with
  | Some k => mkv (lspc c) k
  | None => match lpos c ds 32 with Some k => mkv (lspc c) k | None => mkv 7 63 end
  end.
Definition mkterm (out ds : string) (c : Q) (fs : list (N * string)) : term :=
  let o := list_ascii_of_string out in let d := list_ascii_of_string ds in
  T c (map (lvar o d) d) (map (fun f => (fst f, map (lvar o d) (list_ascii_of_string (snd f)))) fs).
Definition mksps (out : string) : list space := map lspc (list_ascii_of_string out).

(** Unfold [pos_eval] of a concrete polynomial at concrete positions. *)
Ltac posread := lazy [pos_eval lsum lprod map fold_left posT posD posF tc td tf fst snd nlook zipw combine
   conv env_of upd N.eqb Pos.eqb spc N.shiftr Pos.iter N.div2 Pos.shiftr pdim xvs xvs_from mkv N.mul N.add Pos.mul Pos.add Pos.succ].
Lemma so_formula no nv atoms sps p t : okpoly atoms sps p = true -> shape t = map (pdim no nv) sps ->
  (forall idx, inr idx (shape t) -> data t idx = pos_eval no nv atoms (env_of sps idx) p) ->
  so_vsim no nv atoms (SP sps p) (VT t).
Proof.
  intros H1 H2 H3. constructor.
  exact (tsim_formula no nv atoms (so_range no nv) eq_refl eq_refl eq_refl (so_nodup no nv) sps p t H1 H2 H3).
Qed.
Lemma sp_formula no nv S atoms sps p t : spin_ok no nv S -> okpoly atoms sps p = true ->
  shape t = map (pdim (2 * no) (2 * nv)) sps ->
  (forall idx, inr idx (shape t) -> data t idx = pos_eval (2 * no) (2 * nv) atoms (env_of sps idx) p) ->
  sp_vsim no nv S atoms (SP sps p) (VT t).
Proof.
  intros HS H1 H2 H3. constructor.
  exact (tsim_formula (2 * no) (2 * nv) atoms (sp_range no nv S) eq_refl eq_refl eq_refl (sp_nodup no nv S HS) sps p t H1 H2 H3).
Qed.
(** close the three side conditions, once the array and the tables are unfolded *)
Ltac formula_entries :=
   let idx := fresh "idx" in let Hi := fresh "Hi" in let L := fresh "L" in
   intros idx Hi; pose proof (inr_len _ _ Hi) as L; clear Hi;
   cbn [length shape arr0 arr2 arr4 arr6 arr8] in L; dlist idx L;
   cbn [data arr0 arr2 arr4 arr6 arr8]; posread; rewrite ?Qcmult_1_l; reflexivity.
Ltac so_form := apply so_formula; [vm_compute; reflexivity | reflexivity | formula_entries].
Ltac sp_form HS := apply (sp_formula _ _ _ _ _ _ _ HS); [vm_compute; reflexivity | reflexivity | formula_entries].

(** A program returns the array given by a formula. *)
Theorem so_reads no nv tab d l f a v sps p t : Forall (atom_ok (so_range no nv) sy) tab ->
  Forall2 (so_vsim no nv tab) a v -> so_vsim no nv tab (SP sps p) (VT t) ->
  so_chk sps (srun so_slm d l f a) (Some (SP sps p)) ->
  exists E, returns d l f v E /\ teq E t.
Proof.
  intros OK VS VF [h HC]. unfold so_chkb, chk in HC. rewrite !andb_true_iff in HC. destruct HC as [[[O1 _] Hg] Hp].
  apply outsp_ok in O1. destruct (so_run _ _ _ _ _ _ _ _ _ _ VS O1) as [E [HE TE]].
  exists E. split; [exact HE|]. inversion VF; subst. cbn [getp] in Hp.
  eapply (so_peq no nv tab OK h sps); eassumption.
Qed.
Theorem sp_reads no nv S (HS : spin_ok no nv S) tab d l f a v sps p t : Forall (atom_ok (sp_range no nv S) sy) tab ->
  Forall (conserving no nv S) tab ->
  Forall2 (sp_vsim no nv S tab) a v -> sp_vsim no nv S tab (SP sps p) (VT t) ->
  sp_chk sps (srun sp_slm d l f a) (Some (SP sps p)) ->
  exists E, returns d l f v E /\ teq E t.
Proof.
  intros OK CO VS VF [h HC]. unfold sp_chkb, chk in HC. rewrite !andb_true_iff in HC. destruct HC as [[[O1 _] Hg] Hp].
  apply outsp_ok in O1. destruct (sp_run _ _ _ HS _ _ _ _ _ _ _ _ VS O1) as [E [HE TE]].
  exists E. split; [exact HE|]. inversion VF; subst. cbn [getp] in Hp.
  eapply (sp_peq no nv S HS tab CO OK h sps); eassumption.
Qed.
Lemma dim_pdim no nv sps : forallb okspc sps = true -> map (dim (so_range no nv)) sps = map (pdim no nv) sps.
Proof.
  induction sps as [|s sps IH]; intros H; [reflexivity|]. cbn [map forallb] in *. apply andb_true_iff in H.
  destruct H as [H1 H2]. rewrite IH by exact H2. f_equal.
  apply (pdim_len no nv (so_range no nv) eq_refl eq_refl eq_refl s H1).
Qed.
Lemma dims_shape no nv sps (t : tensor) : shape t = map (dim (so_range no nv)) sps -> forallb okspc sps = true ->
  shape t = map (pdim no nv) sps.
Proof. intros -> H. apply dim_pdim; exact H. Qed.
Lemma shapes_dim no nv sps (t : tensor) : shape t = map (pdim no nv) sps -> forallb okspc sps = true ->
  shape t = map (dim (so_range no nv)) sps.
Proof.
  intros -> H. induction sps as [|s sps IH]; [reflexivity|]. cbn [map forallb] in *. apply andb_true_iff in H.
  destruct H as [H1 H2]. rewrite IH by exact H2. f_equal. symmetry.
  apply (pdim_len no nv (so_range no nv) eq_refl eq_refl eq_refl s H1).
Qed.
Ltac gen_ok_tac := repeat apply Forall_cons; try apply Forall_nil;
  (apply atom_ok_gen; [reflexivity|apply shapes_dim; [assumption|reflexivity]]).
Ltac gen_vs_tac := repeat apply Forall2_cons; try apply Forall2_nil;
  (apply so_atom; [reflexivity|apply shapes_dim; [assumption|reflexivity]]).
