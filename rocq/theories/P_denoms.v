(** C25: energy denominators. *)
From Coq Require Import String Ascii List Arith ZArith QArith Qcanon Bool Lia Permutation.
From Verif Require Import Sums Tensor Interp Numpy Spec SpecDriver SymExec Check Formula Diis Kernel Denoms.
Import ListNotations.
Open Scope string_scope.

Lemma suml_neg {X} (l : list X) f : (suml l (fun x => - f x) = - suml l f)%Qc.
Proof. induction l as [|x l IH]; cbn [suml]; [ring|]. rewrite IH. ring. Qed.
Lemma combine_app_l {X Y} (a b : list X) (c d : list Y) : length a = length c -> combine (a ++ b) (c ++ d) = (combine a c ++ combine b d)%list.
Proof. revert c. induction a as [|x a IH]; intros [|y c] H; try discriminate; [reflexivity|]. cbn. f_equal. apply IH. injection H as H. exact H. Qed.
Lemma suml_combine_map {X Y Z} (h : X -> Y) (l : list X) (m : list Z) (f : Y * Z -> Qc) :
  suml (combine (map h l) m) f = suml (combine l m) (fun p => f (h (fst p), snd p)).
Proof. revert m. induction l as [|x l IH]; intros [|z m]; try reflexivity. cbn [map combine suml fst snd]. rewrite IH. reflexivity. Qed.

(** All arrays of one spin block. *)
Section Block.
  Variables n m : spin -> nat.
  Variable e : spin -> list Qc.
  Hypothesis Hlen : forall s, length (e s) = (n s + m s)%nat.
  Definition sE (s : spin) (p : nat) : Qc := nth p (e s) 0%Qc.
  Definition oS (s : spin) : slc := (0%nat, Some (n s)).
  Definition vS (s : spin) : slc := (n s, None).
  Definition blockD (ss : list spin) : tensor :=
    outer_recip (map (fun s => Vx (e s) (vS s)) ss ++ map (fun s => Ox (e s) (oS s)) ss).
  Lemma block_ok ss : is_spin_denominator ss n m sE (blockD ss).
  Proof.
    assert (EV : forall s, ax_len (Vx (e s) (vS s)) = m s).
    { intros s. unfold ax_len, Vx, vS. cbn [part energies fst snd]. rewrite Hlen. unfold slice_len, slice_stop, slice_start. lia. }
    assert (EO : forall s, ax_len (Ox (e s) (oS s)) = n s).
    { intros s. unfold ax_len, Ox, oS. cbn [part energies fst snd]. rewrite Hlen. unfold slice_len, slice_stop, slice_start. lia. }
    split.
    - unfold blockD, outer_recip. cbn [shape]. rewrite map_app, !map_map. f_equal; apply map_ext; intros; [apply EV|apply EO].
    - intros virt occ HL HI. unfold blockD, outer_recip. cbn [data]. f_equal.
      rewrite combine_app_l by (rewrite map_length; congruence). rewrite suml_app, !suml_combine_map.
      unfold spin_gap. rewrite (suml_ext _ (combine ss virt) _ (fun p => - sE (fst p) (n (fst p) + snd p)%nat)%Qc).
      + rewrite suml_neg. rewrite (suml_ext _ (combine ss occ) _ (fun p => sE (fst p) (snd p))).
        * ring.
        * intros [s i] _. unfold ax_at, Ox, oS. cbn [fst snd plus part energies]. unfold slice_start. rewrite Nat.min_0_l. reflexivity.
      + intros [s a] _. unfold ax_at, Vx, vS. cbn [fst snd plus part energies]. unfold slice_start. rewrite Hlen.
        rewrite Nat.min_l by lia. reflexivity.
  Qed.
End Block.

(** The same array for one kind of orbital. *)
Lemma repeat_map {X Y} (h : X -> Y) x k : map h (repeat x k) = repeat (h x) k.
Proof. induction k as [|k IH]; [reflexivity|]. cbn. f_equal. exact IH. Qed.
Lemma suml_combine_repeat {X} (s : X) l k (f : X * nat -> Qc) : length l = k -> suml (combine (repeat s k) l) f = suml l (fun i => f (s, i)).
Proof. revert k. induction l as [|x l IH]; intros [|k] H; try discriminate; [reflexivity|]. cbn [repeat combine suml]. rewrite IH by (injection H as H; exact H). reflexivity. Qed.
Lemma one_kind k n m e D s : is_spin_denominator (repeat s k) n m e D -> is_denominator k (n s) (m s) (e s) D.
Proof.
  intros [H1 H2]. rewrite !repeat_map in H1. split; [exact H1|]. intros virt occ HL HI.
  rewrite H2; [|rewrite repeat_length; exact HL|exact HI]. f_equal. unfold spin_gap, gap.
  pose proof (inr_len _ _ HI) as LL. rewrite H1, !app_length, !repeat_length in LL.
  rewrite !suml_combine_repeat by lia. reflexivity.
Qed.
Lemma den_ok k eps no nv : length eps = (no + nv)%nat -> is_denominator k no nv (fun p => nth p eps 0%Qc) (den k eps (0%nat, Some no) (no, None)).
Proof.
  intros HL. pose proof (block_ok (fun _ => no) (fun _ => nv) (fun _ => eps) (fun _ => HL) (repeat Up k)) as H.
  apply (one_kind k (fun _ => no) (fun _ => nv) _ _ Up) in H. unfold blockD in H. rewrite !repeat_map in H. exact H.
Qed.

(** C25, spin-orbital route: the arrays handed to the equations are the energy denominators. *)
Theorem C25_spin_orbital_denominators : forall rt no nv eps d,
  slook "ccdTypeSlow" rt <> None -> length eps = (no + nv)%nat ->
  get_denoms rt [("occ_aa", (0%nat, Some no)); ("virt_aa", (no, None))] [("eps_aa", eps)] = Some d ->
  (exists D1 D2 D3, slook "D1aa" d = Some D1 /\ slook "D2aa" d = Some D2 /\ slook "D3aa" d = Some D3 /\
    is_denominator 1 no nv (fun p => nth p eps 0%Qc) D1 /\
    is_denominator 2 no nv (fun p => nth p eps 0%Qc) D2 /\
    is_denominator 3 no nv (fun p => nth p eps 0%Qc) D3) /\
  (forall D4, slook "D4aa" d = Some D4 -> is_denominator 4 no nv (fun p => nth p eps 0%Qc) D4).
Proof.
  intros rt no nv eps d HK HL H. unfold get_denoms, haskey in H. destruct (slook "ccdTypeSlow" rt) as [hg|]; [|congruence].
  cbn [negb andb orb slook String.eqb Ascii.eqb Bool.eqb obind] in H.
  destruct (slook "fullCCType" rt); [discriminate|].
  pose proof (fun k => den_ok k eps no nv HL) as HD.
  assert (X : d = (let d0 := [("D2aa", den 2 eps (0%nat, Some no) (no, None)); ("D1aa", den 1 eps (0%nat, Some no) (no, None)); ("D3aa", den 3 eps (0%nat, Some no) (no, None))]
     in if ((hg =? "UT2-CCD(7)") || (hg =? "UT2-CCD(8)") || (hg =? "UT2-CCD(9)"))%bool then (d0 ++ [("D4aa", den 4 eps (0%nat, Some no) (no, None))])%list else d0)).
  { injection H as <-. destruct (_ || _)%bool; reflexivity. }
  clear H. subst d. cbv zeta. split.
  - exists (den 1 eps (0%nat, Some no) (no, None)), (den 2 eps (0%nat, Some no) (no, None)), (den 3 eps (0%nat, Some no) (no, None)).
    destruct (_ || _)%bool; (repeat split; [..|]); try apply HD; reflexivity.
  - intros D4. destruct (_ || _)%bool; cbn; intros H; [injection H as <-; apply HD|discriminate].
Qed.
Print Assumptions C25_spin_orbital_denominators.
Example C25_instance_slow : exists d,
  get_denoms [("ccdTypeSlow", "UT2-CCD(7)")] [("occ_aa", (0%nat, Some 2%nat)); ("virt_aa", (2%nat, None))]
    [("eps_aa", [Q2Qc (-3 # 1); Q2Qc (-3 # 1); Q2Qc (1 # 1); Q2Qc (1 # 1)])] = Some d /\
  exists D4, slook "D4aa" d = Some D4 /\ data D4 [0;1;0;1;0;1;0;1]%nat = Q2Qc (-1 # 16).
Proof. eexists. split; [reflexivity|]. eexists. split; [reflexivity|]. apply Qc_is_canon. vm_compute. reflexivity. Qed.

(** The spin-integrated T2 routes: every block uses each spin's own energies, for any numbers of electrons. *)
Definition two_spins (na nb nva nvb : nat) : (spin -> nat) * (spin -> nat) :=
  ((fun s => match s with Up => na | Dn => nb end), (fun s => match s with Up => nva | Dn => nvb end)).
Definition spin_slices (na nb : nat) : list (string * slc) :=
  [("occ_aa", (0%nat, Some na)); ("virt_aa", (na, None)); ("occ_bb", (0%nat, Some nb)); ("virt_bb", (nb, None))].
Definition spin_eps (ea eb : list Qc) : spin -> nat -> Qc := fun s p => nth p (match s with Up => ea | Dn => eb end) 0%Qc.
Section Spin.
  Variables na nb nva nvb : nat.
  Variables ea eb : list Qc.
  Hypothesis La : length ea = (na + nva)%nat.
  Hypothesis Lb : length eb = (nb + nvb)%nat.
  Let n := fst (two_spins na nb nva nvb).
  Let m := snd (two_spins na nb nva nvb).
  Lemma spin_block ss : is_spin_denominator ss n m (spin_eps ea eb) (blockD n (fun s => match s with Up => ea | Dn => eb end) ss).
  Proof. apply block_ok. intros []; assumption. Qed.

  Theorem C25_spin_integrated_denominators : forall rt d,
    slook "ccdTypeSlow" rt = None -> (slook "ccdType" rt <> None \/ slook "fullCCType" rt <> None) ->
    get_denoms rt (spin_slices na nb) [("eps_aa", ea); ("eps_bb", eb)] = Some d ->
    exists Daa Dbb Dab, slook "D2aa" d = Some Daa /\ slook "D2bb" d = Some Dbb /\ slook "D2ab" d = Some Dab /\
      is_spin_denominator [Up; Up] n m (spin_eps ea eb) Daa /\
      is_spin_denominator [Dn; Dn] n m (spin_eps ea eb) Dbb /\
      is_spin_denominator [Up; Dn] n m (spin_eps ea eb) Dab.
  Proof.
    intros rt d HS HK H.
    exists (blockD n (fun s => match s with Up => ea | Dn => eb end) [Up; Up]),
      (blockD n (fun s => match s with Up => ea | Dn => eb end) [Dn; Dn]), (blockD n (fun s => match s with Up => ea | Dn => eb end) [Up; Dn]).
    assert (X : slook "D2aa" d = Some (blockD n (fun s => match s with Up => ea | Dn => eb end) [Up; Up]) /\
      slook "D2bb" d = Some (blockD n (fun s => match s with Up => ea | Dn => eb end) [Dn; Dn]) /\
      slook "D2ab" d = Some (blockD n (fun s => match s with Up => ea | Dn => eb end) [Up; Dn])).
    { unfold get_denoms, haskey in H. rewrite HS in H.
      assert (B : (match slook "ccdType" rt with Some _ => true | None => false end ||
                   match slook "fullCCType" rt with Some _ => true | None => false end)%bool = true).
      { destruct HK as [HK|HK]; destruct (slook "ccdType" rt), (slook "fullCCType" rt); try congruence; reflexivity. }
      cbn [negb andb orb] in H. rewrite B in H. cbn [negb andb orb spin_slices slook String.eqb Ascii.eqb Bool.eqb obind] in H.
      destruct (slook "fullCCType" rt); cbn [obind] in H.
      - destruct (hasvalue "CCSDTQ" rt || hasvalue "CCDQ" rt)%bool; cbn [negb orb] in H; injection H as <-; repeat split; reflexivity.
      - cbn [negb orb] in H; injection H as <-; repeat split; reflexivity. }
    destruct X as [X1 [X2 X3]]. repeat (split; [assumption|]). repeat split; try apply spin_block.
  Qed.
End Spin.
Print Assumptions C25_spin_integrated_denominators.
Example C25_instance_spin : exists d,
  get_denoms [("ccdType", "CCD")] (spin_slices 2 1)
    [("eps_aa", [Q2Qc (-3 # 1); Q2Qc (-2 # 1); Q2Qc (1 # 1)]); ("eps_bb", [Q2Qc (-3 # 1); Q2Qc (1 # 1); Q2Qc (2 # 1)])] = Some d /\
  exists D, slook "D2ab" d = Some D /\ shape D = [1; 2; 2; 1]%nat /\ data D [0; 1; 1; 0]%nat = Q2Qc (-1 # 8).
Proof. eexists. split; [reflexivity|]. eexists. split; [reflexivity|]. split; [reflexivity|]. apply Qc_is_canon. vm_compute. reflexivity. Qed.

(** Full CC with equal alpha and beta orbitals (closed shell): every array is a denominator of those orbitals. *)
Theorem C25_full_closed_shell : forall rt no nv eps d,
  slook "ccdTypeSlow" rt = None -> slook "fullCCType" rt <> None -> length eps = (no + nv)%nat ->
  get_denoms rt (spin_slices no no) [("eps_aa", eps); ("eps_bb", eps)] = Some d ->
  forall k keys, In (k, keys) [(1%nat, ["D1aa"; "D1bb"]); (2%nat, ["D2aa"; "D2bb"; "D2ab"]); (3%nat, ["D3aaa"; "D3bbb"; "D3aab"; "D3abb"]);
                               (4%nat, ["D4aaaa"; "D4bbbb"; "D4aaab"; "D4aabb"; "D4abbb"])] ->
  forall key D, In key keys -> slook key d = Some D -> is_denominator k no nv (fun p => nth p eps 0%Qc) D.
Proof.
  intros rt no nv eps d HS HF HL H k keys HK key D HI HD.
  assert (X : slook key d = Some (den k eps (0%nat, Some no) (no, None)) \/ slook key d = None).
  { unfold get_denoms, haskey in H. rewrite HS in H. destruct (slook "fullCCType" rt); [|congruence]. rewrite orb_true_r in H.
    cbn [negb andb orb spin_slices slook String.eqb Ascii.eqb Bool.eqb obind] in H.
    destruct (hasvalue "CCSDTQ" rt || hasvalue "CCDQ" rt)%bool; cbn [negb orb] in H; injection H as <-; cbn in HK;
      repeat (destruct HK as [HK|HK]; [injection HK as <- <-; cbn in HI; repeat (destruct HI as [<-|HI]; [first [left; reflexivity|right; reflexivity]|]); destruct HI|]);
      destruct HK. }
  destruct X as [X|X]; rewrite X in HD; [|discriminate]. injection HD as <-. apply den_ok, HL.
Qed.
Print Assumptions C25_full_closed_shell.
Example C25_instance_full : exists d,
  get_denoms [("fullCCType", "CCDQ")] (spin_slices 1 1) [("eps_aa", [Q2Qc (-3 # 1); Q2Qc (1 # 1)]); ("eps_bb", [Q2Qc (-3 # 1); Q2Qc (1 # 1)])] = Some d /\
  exists D, slook "D4aabb" d = Some D /\ data D [0;0;0;0;0;0;0;0]%nat = Q2Qc (-1 # 16).
Proof. eexists. split; [reflexivity|]. eexists. split; [reflexivity|]. apply Qc_is_canon. vm_compute. reflexivity. Qed.

(** "For mixed-spin blocks the entry uses each spin's own orbital energies" fails for full CC with different alpha and
    beta energies: beta singles and mixed triples and quadruples. *)
Definition full_blocks : list (string * list spin) :=
  [("D1aa", [Up]); ("D1bb", [Dn]); ("D3aab", [Up; Up; Dn]); ("D3abb", [Up; Dn; Dn]);
   ("D4aaab", [Up; Up; Up; Dn]); ("D4aabb", [Up; Up; Dn; Dn]); ("D4abbb", [Up; Dn; Dn; Dn])].
Definition uhf_ea : list Qc := [Q2Qc (-3 # 1); Q2Qc (1 # 1)].
Definition uhf_eb : list Qc := [Q2Qc (-2 # 1); Q2Qc (2 # 1)].
Definition full_uhf_denominators (key : string) (ss : list spin) : Prop :=
  forall na nb nva nvb ea eb d D, length ea = (na + nva)%nat -> length eb = (nb + nvb)%nat ->
    get_denoms [("fullCCType", "CCDQ")] (spin_slices na nb) [("eps_aa", ea); ("eps_bb", eb)] = Some d ->
    slook key d = Some D ->
    is_spin_denominator ss (fst (two_spins na nb nva nvb)) (snd (two_spins na nb nva nvb)) (spin_eps ea eb) D.
Definition cx_ea : list Qc := [Q2Qc (-3 # 1); Q2Qc (-1 # 1); Q2Qc (1 # 1); Q2Qc (5 # 1)].
Definition cx_eb : list Qc := [Q2Qc (-2 # 1); Q2Qc (7 # 2); Q2Qc (4 # 1); Q2Qc (9 # 1)].
Definition cx_differs (kb : string * list spin) : bool :=
  match get_denoms [("fullCCType", "CCDQ")] (spin_slices 2 1) [("eps_aa", cx_ea); ("eps_bb", cx_eb)] with
  | Some d => match slook (fst kb) d with
              | Some D => let z := repeat 0%nat (length (snd kb)) in
                  negb (Qeq_bool (this (data D (z ++ z)%list)) (this (/ spin_gap (fst (two_spins 2 1 2 3)) (spin_eps cx_ea cx_eb) (snd kb) z z)%Qc))
              | None => false end
  | None => false end.
Lemma cx_all : forallb cx_differs (tl full_blocks) = true.
Proof. vm_compute. reflexivity. Qed.
Lemma zeros_inr (h : spin -> nat) (ss : list spin) : (forall s, 0 < h s)%nat -> inr (repeat 0%nat (length ss)) (map h ss).
Proof. intros H. induction ss as [|x l IH]; [constructor|]. constructor; [apply H|exact IH]. Qed.
Theorem C25_full_uhf_refuted : forall key ss, In (key, ss) full_blocks -> key <> "D1aa" ->
  ~ full_uhf_denominators key ss.
Proof.
  intros key ss HI N1 H.
  assert (C : cx_differs (key, ss) = true).
  { pose proof cx_all as A. rewrite forallb_forall in A. apply A. destruct HI as [HI|HI]; [congruence|exact HI]. }
  unfold cx_differs in C. cbn [fst snd] in C. specialize (H 2%nat 1%nat 2%nat 3%nat cx_ea cx_eb).
  destruct (get_denoms _ _ _) as [d|]; [|discriminate]. destruct (slook key d) as [D|] eqn:ED; [|discriminate].
  specialize (H d D eq_refl eq_refl eq_refl ED). destruct H as [S1 H].
  specialize (H (repeat 0%nat (length ss)) (repeat 0%nat (length ss)) (repeat_length _ _)).
  rewrite H in C.
  - rewrite (proj2 (Qeq_bool_iff _ _) (Qeq_refl _)) in C. discriminate.
  - rewrite S1. apply Forall2_app; apply zeros_inr; intros []; cbn; lia.
Qed.
Print Assumptions C25_full_uhf_refuted.

Lemma Qcpos_add (a b : Qc) : (0 < a -> 0 < b -> 0 < a + b)%Qc.
Proof.
  intros Ha Hb. apply Qcle_lt_trans with (0 + 0)%Qc; [replace (0 + 0)%Qc with 0%Qc by ring; apply Qcle_refl|].
  unfold Qclt in *. cbn [this Qcplus Q2Qc] in *. rewrite !Qred_correct. apply Qplus_lt_le_compat; [exact Ha|apply Qlt_le_weak, Hb].
Qed.
(** Permuting indices of the same kind (and spin) does not change an entry. *)
Lemma suml_perm {X} (l l' : list X) f : Permutation l l' -> suml l f = suml l' f.
Proof. intros P. induction P; cbn [suml]; [reflexivity|rewrite IHP; reflexivity|ring|congruence]. Qed.
Theorem C25_permutation : forall ss n m e D virt occ virt' occ', is_spin_denominator ss n m e D ->
  length virt = length ss -> length virt' = length ss -> inr (virt ++ occ) (shape D) -> inr (virt' ++ occ') (shape D) ->
  Permutation (combine ss virt) (combine ss virt') -> Permutation (combine ss occ) (combine ss occ') ->
  data D (virt ++ occ) = data D (virt' ++ occ').
Proof.
  intros ss n m e D virt occ virt' occ' [S1 H] L1 L2 I1 I2 P1 P2. rewrite !H by assumption. unfold spin_gap.
  rewrite (suml_perm _ _ _ P1), (suml_perm _ _ _ P2). reflexivity.
Qed.
Print Assumptions C25_permutation.
Example C25_permutation_instance (e : spin -> list Qc) (H : forall s, length (e s) = 6%nat) :
  let D := blockD (fun _ => 3%nat) e [Up; Dn; Up] in data D [0; 2; 1; 2; 1; 0]%nat = data D [1; 2; 0; 0; 1; 2]%nat.
Proof.
  pose proof (block_ok (fun _ => 3%nat) (fun _ => 3%nat) e H [Up; Dn; Up]) as B.
  refine (C25_permutation [Up; Dn; Up] _ _ _ _ [0; 2; 1]%nat [2; 1; 0]%nat [1; 2; 0]%nat [0; 1; 2]%nat B eq_refl eq_refl _ _ _ _).
  - rewrite (proj1 B). repeat constructor.
  - rewrite (proj1 B). repeat constructor.
  - exact (Permutation_rev (combine _ _)).
  - exact (Permutation_rev (combine _ _)).
Qed.

(** With a HOMO-LUMO gap all entries are negative (in particular non-zero and finite). *)
Theorem C25_negative : forall ss n m e D, ss <> [] -> is_spin_denominator ss n m e D -> homo_lumo n m e ->
  forall idx, inr idx (shape D) -> (data D idx < 0)%Qc.
Proof.
  intros ss n m e D HN [S1 H] HG idx HI.
  assert (Lx : length idx = (length ss + length ss)%nat) by (rewrite (inr_len _ _ HI), S1, app_length, !map_length; reflexivity).
  rewrite <- (firstn_skipn (length ss) idx) in HI |- *. rewrite H; [|rewrite firstn_length; lia|exact HI].
  rewrite S1 in HI. apply Forall2_app_inv_l in HI. destruct HI as [m1 [m2 [F1 [F2 EQ]]]].
  assert (LM : length m1 = length (map m ss)) by (apply Forall2_len in F1; rewrite <- F1, firstn_length, map_length; lia).
  assert (EM : m1 = map m ss /\ m2 = map n ss).
  { clear -EQ LM. revert EQ LM. generalize (map m ss) (map n ss). intros l. revert m1. induction l as [|x l IH]; intros [|y m1] l2 EQ LM; try discriminate; [cbn in EQ; auto|].
    injection EQ as -> EQ. injection LM as LM. destruct (IH m1 l2 EQ LM) as [-> ->]. auto. }
  destruct EM as [-> ->]. clear EQ LM.
  set (vi := firstn (length ss) idx) in *. set (oc := skipn (length ss) idx) in *.
  assert (G : (spin_gap n e ss vi oc < 0)%Qc).
  { clearbody vi oc. clear -HN HG F1 F2. unfold spin_gap. revert vi oc F1 F2. 
    destruct ss as [|s ss]; [congruence|]. clear HN. revert s. induction ss as [|s' ss IH]; intros s vi oc F1 F2.
    - inversion F1 as [|a ? v' ? Ha F1']; subst. inversion F1'; subst. inversion F2 as [|i ? o' ? Hi F2']; subst. inversion F2'; subst.
      cbn [combine suml fst snd]. pose proof (HG s s i a Hi Ha) as X. apply Qclt_minus_iff in X. apply Qclt_minus_iff.
      replace (0 + - (e s i + 0 - (e s (n s + a)%nat + 0)))%Qc with (e s (n s + a)%nat + - e s i)%Qc by ring. exact X.
    - inversion F1 as [|a ? v' ? Ha F1']; subst. inversion F2 as [|i ? o' ? Hi F2']; subst.
      specialize (IH s' v' o' F1' F2').
      change (combine (s :: s' :: ss) (i :: o')) with ((s, i) :: combine (s' :: ss) o').
      change (combine (s :: s' :: ss) (a :: v')) with ((s, a) :: combine (s' :: ss) v').
      revert IH. generalize (combine (s' :: ss) o') (combine (s' :: ss) v'). intros lo lv IH. cbn [suml fst snd].
      revert IH. generalize (suml lo (fun p => e (fst p) (snd p))) (suml lv (fun p => e (fst p) (n (fst p) + snd p)%nat)). intros X Y IH.
      pose proof (HG s s i a Hi Ha) as Z. apply Qclt_minus_iff in Z. apply Qclt_minus_iff in IH. apply Qclt_minus_iff.
      replace (0 + - (e s i + X - (e s (n s + a)%nat + Y)))%Qc with ((e s (n s + a)%nat + - e s i) + (0 + - (X - Y)))%Qc by ring.
      apply Qcpos_add; assumption. }
  revert G. generalize (spin_gap n e ss vi oc). intros q Hq.
  unfold Qclt in *. cbn [Qcinv this Q2Qc] in *. rewrite !Qred_correct. 
  apply Qopp_lt_compat in Hq. unfold Qlt, Qopp, Qinv in *. cbn in *. destruct (Qnum q); cbn in *; lia.
Qed.
Print Assumptions C25_negative.
Example C25_negative_instance : homo_lumo (fst (two_spins 1 1 1 1)) (snd (two_spins 1 1 1 1)) (spin_eps uhf_ea uhf_eb).
Proof. intros [] [] i a Hi Ha; cbn in Hi, Ha; assert (i = 0%nat) as -> by lia; assert (a = 0%nat) as -> by lia; vm_compute; reflexivity. Qed.

Lemma flip_defined k t : (k <= 4)%nat -> length (shape t) = (k + k)%nat -> exists t', ttransp (flip k) t = Some t' /\ swapped k t t'.
Proof.
  intros Hk HL.
  assert (C : (Nat.eqb (length (flip k)) (length (shape t)) && is_permb (flip k))%bool = true).
  { rewrite HL. clear -Hk. do 5 (try destruct k as [|k]); try lia; reflexivity. }
  eexists. split; [unfold ttransp; rewrite C; reflexivity|]. split; cbn [shape data].
  - revert HL. generalize (shape t) as sh. intros sh HL. clear -Hk HL.
    do 5 (try destruct k as [|k]); try lia; cbn [Nat.add] in HL; dlist sh HL; reflexivity.
  - intros l1 l2 L1 Hi. f_equal.
    assert (L2 : length l2 = k) by (apply inr_len in Hi; rewrite app_length in Hi; lia).
    clear -Hk L1 L2. do 5 (try destruct k as [|k]); try lia; dlist l1 L1; dlist l2 L2; reflexivity.
Qed.

(** set_denoms.py: the occupied-first arrays are the same denominators with the halves exchanged. *)
Theorem C25_occupied_first : forall k no nv eps, (k <= 4)%nat -> length eps = (no + nv)%nat ->
  exists D D', den_slow k eps (0%nat, Some no) (no, None) = Some D' /\
    is_denominator k no nv (fun p => nth p eps 0%Qc) D /\ swapped k D D'.
Proof.
  intros k no nv eps Hk HL. pose proof (den_ok k eps no nv HL) as HD.
  destruct (flip_defined k (den k eps (0%nat, Some no) (no, None)) Hk) as [D' [E SW]].
  { rewrite (proj1 HD), app_length, !repeat_length. reflexivity. }
  exists (den k eps (0%nat, Some no) (no, None)), D'. split; [exact E|]. split; [exact HD|exact SW].
Qed.
Print Assumptions C25_occupied_first.
