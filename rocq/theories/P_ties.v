(** C73: the order in which the conversion puts spin orbitals of equal energy does not matter. *)
From Coq Require Import String Ascii List Arith ZArith QArith Qcanon Bool Lia Permutation.
From Verif Require Import Sums Tensor Interp Numpy Spec SpecDriver SpecFrag SpecRot Ints SpinOrb P_ints P_ints2 P_ints3 Kernel SlowCC P_slow P_rot3.
Import ListNotations.
Open Scope string_scope.
Open Scope list_scope.
Open Scope Qc_scope.

(** ** Sorted lists *)
Lemma sorted_unique : forall l l' : list Qc, Permutation l l' ->
  (forall i j, (i < j)%nat -> (j < length l)%nat -> nth i l 0 <= nth j l 0) -> (forall i j, (i < j)%nat -> (j < length l')%nat -> nth i l' 0 <= nth j l' 0) -> l = l'.
Proof.
  induction l as [|x l IH]; intros l' HP H H'; [apply Permutation_nil in HP; congruence|]. destruct l' as [|y l']; [apply Permutation_sym, Permutation_nil in HP; discriminate|].
  assert (MIN : forall (u : Qc) t, (forall i j, (i < j)%nat -> (j < length (u :: t))%nat -> nth i (u :: t) 0 <= nth j (u :: t) 0) -> forall z, In z (u :: t) -> u <= z).
  { intros u t Hs z Hz. apply (In_nth _ _ 0) in Hz. destruct Hz as [k [Lk <-]]. destruct k as [|k]; [apply Qcle_refl|]. exact (Hs 0%nat (S k) ltac:(lia) Lk). }
  assert (E : x = y).
  { apply Qcle_antisym; [apply (MIN x l H); apply (Permutation_in _ (Permutation_sym HP)); left; reflexivity|apply (MIN y l' H'); apply (Permutation_in _ HP); left; reflexivity]. }
  subst y. f_equal. apply IH; [exact (Permutation_cons_inv HP)| |].
  - intros i j Hi Hj. exact (H (S i) (S j) ltac:(lia) ltac:(cbn; lia)).
  - intros i j Hi Hj. exact (H' (S i) (S j) ltac:(lia) ltac:(cbn; lia)).
Qed.
Definition sorted_by (eps : list Qc) (p : list nat) : list Qc := map (fun k => nth k eps 0) p.
Lemma sorted_by_nth eps p k : (k < length p)%nat -> nth k (sorted_by eps p) 0 = nth (nth k p O) eps 0.
Proof.
  intros H. unfold sorted_by. rewrite (nth_indep (map (fun k => nth k eps 0) p) 0 ((fun k => nth k eps 0) O)) by (rewrite map_length; exact H).
  apply (map_nth (fun k => nth k eps 0)).
Qed.
Lemma argsort_unique eps p p' : is_argsort eps p -> is_argsort eps p' -> sorted_by eps p = sorted_by eps p'.
Proof.
  intros [P1 S1] [P2 S2]. pose proof (Permutation_length P1) as L1. pose proof (Permutation_length P2) as L2. rewrite seq_length in L1, L2. apply sorted_unique.
  - unfold sorted_by. apply Permutation_map. exact (Permutation_trans P1 (Permutation_sym P2)).
  - intros i j Hi Hj. unfold sorted_by in Hj. rewrite map_length in Hj. rewrite !sorted_by_nth by lia. apply S1; lia.
  - intros i j Hi Hj. unfold sorted_by in Hj. rewrite map_length in Hj. rewrite !sorted_by_nth by lia. apply S2; lia.
Qed.

(** ** Two orders of the same orbitals *)
Section Ties.
  Variables (eps : list Qc) (p p' : list nat) (N nv : nat).
  Hypothesis HP : is_argsort eps p.
  Hypothesis HP' : is_argsort eps p'.
  Hypothesis HL : length eps = (N + nv)%nat.
  Hypothesis HG : forall i a, (i < N)%nat -> (N <= a)%nat -> (a < N + nv)%nat -> nth i (sorted_by eps p) 0 < nth a (sorted_by eps p) 0.
  Definition rho (q q' : list nat) (k : nat) : nat := index_of (nth k q' O) q.
  Lemma rho_ok q q' k : is_argsort eps q -> is_argsort eps q' -> (k < N + nv)%nat -> nth (rho q q' k) q O = nth k q' O /\ (rho q q' k < N + nv)%nat.
  Proof using HL.
    intros [P1 _] [P2 _] Hk. pose proof (Permutation_length P1) as L1. pose proof (Permutation_length P2) as L2. rewrite seq_length, HL in L1, L2.
    assert (I : In (nth k q' O) q) by (apply (Permutation_in _ (Permutation_trans P2 (Permutation_sym P1))); apply nth_In; lia).
    unfold rho. rewrite <- L1. exact (index_nth q _ I).
  Qed.
  Lemma rho_val q q' k : is_argsort eps q -> is_argsort eps q' -> (k < N + nv)%nat -> nth (rho q q' k) (sorted_by eps p) 0 = nth k (sorted_by eps p) 0.
  Proof using HL HP.
    intros H1 H2 Hk. destruct (rho_ok q q' k H1 H2 Hk) as [E L]. rewrite (argsort_unique eps p q HP H1) at 1. rewrite (argsort_unique eps p q' HP H2).
    pose proof (Permutation_length (proj1 H1)) as L1. pose proof (Permutation_length (proj1 H2)) as L2. rewrite seq_length, HL in L1, L2.
    rewrite !sorted_by_nth by lia. rewrite E. reflexivity.
  Qed.
  Lemma rho_lt q q' k : is_argsort eps q -> is_argsort eps q' -> (k < N + nv)%nat -> (rho q q' k < N <-> k < N)%nat.
  Proof using HL HP HG.
    intros H1 H2 Hk. pose proof (rho_val q q' k H1 H2 Hk) as V. destruct (rho_ok q q' k H1 H2 Hk) as [_ L]. split; intros X.
    - destruct (Nat.lt_ge_cases k N) as [Y|Y]; [exact Y|exfalso]. pose proof (HG _ _ X Y Hk) as Z. rewrite V in Z. exact (Qclt_not_eq _ _ Z eq_refl).
    - destruct (Nat.lt_ge_cases (rho q q' k) N) as [Y|Y]; [exact Y|exfalso]. pose proof (HG _ _ X Y L) as Z. rewrite V in Z. exact (Qclt_not_eq _ _ Z eq_refl).
  Qed.
  Lemma rho_inv q q' k : is_argsort eps q -> is_argsort eps q' -> (k < N + nv)%nat -> rho q q' (rho q' q k) = k.
  Proof using HL.
    intros H1 H2 Hk. destruct (rho_ok q' q k H2 H1 Hk) as [E _]. unfold rho at 1. rewrite E. 
    pose proof (Permutation_length (proj1 H1)) as L1. rewrite seq_length, HL in L1. apply nth_index; [|lia].
    apply (Permutation_NoDup (Permutation_sym (proj1 H1))). apply seq_NoDup.
  Qed.
  Definition po : nat -> nat := rho p p'.
  Definition pv (a : nat) : nat := (rho p p' (N + a) - N)%nat.
  Lemma lab k : (k < N + nv)%nat -> klabel N po pv Al k = rho p p' k.
  Proof using HL HP HP' HG.
    intros Hk. cbn [klabel]. destruct (Nat.ltb_spec k N) as [L|L]; [reflexivity|]. unfold pv. replace (N + (k - N))%nat with k by lia.
    assert (~ (rho p p' k < N)%nat) by (intros X; apply (rho_lt p p' k HP HP' Hk) in X; lia). lia.
  Qed.
  Lemma rel_o : is_relabelling N po (fun _ => 1).
  Proof using HL HP HP' HG.
    split; [|split].
    - intros i Hi. split; [|ring]. apply (rho_lt p p' i HP HP'); lia.
    - exists (rho p' p). intros j Hj. split; [apply (rho_lt p' p j HP' HP); lia|apply (rho_inv p p' j HP HP'); lia].
    - intros i i' Hi Hi' E. unfold po in E. rewrite <- (rho_inv p' p i HP' HP), <- (rho_inv p' p i' HP' HP) by lia. rewrite E. reflexivity.
  Qed.
  Lemma rel_v : is_relabelling nv pv (fun _ => 1).
  Proof using HL HP HP' HG.
    assert (B : forall q q' a, is_argsort eps q -> is_argsort eps q' -> (a < nv)%nat -> (N <= rho q q' (N + a))%nat /\ (rho q q' (N + a) < N + nv)%nat).
    { intros q q' a H1 H2 Ha. split; [|apply rho_ok; auto; lia]. destruct (Nat.lt_ge_cases (rho q q' (N + a)) N) as [X|X]; [|exact X]. exfalso. assert (Hk : (N + a < N + nv)%nat) by lia. apply (rho_lt q q' (N + a) H1 H2 Hk) in X. lia. }
    split; [|split].
    - intros a Ha. split; [|ring]. destruct (B p p' a HP HP' Ha). unfold pv. lia.
    - exists (fun a => rho p' p (N + a) - N)%nat. intros a Ha. destruct (B p' p a HP' HP Ha). split; [lia|]. unfold pv.
      replace (N + (rho p' p (N + a) - N))%nat with (rho p' p (N + a)) by lia. rewrite (rho_inv p p' (N + a) HP HP') by lia. lia.
    - intros a a' Ha Ha' E. unfold pv in E. destruct (B p p' a HP HP' Ha), (B p p' a' HP HP' Ha'). assert (E2 : rho p p' (N + a) = rho p p' (N + a')) by lia.
      assert (E3 : (N + a = N + a')%nat) by (rewrite <- (rho_inv p' p (N + a) HP' HP), <- (rho_inv p' p (N + a') HP' HP) by lia; rewrite E2; reflexivity). lia.
  Qed.
  (** arrays of values that depend on the orbitals only *)
  Lemma rel2 (f f' : tensor) : shape f = [N + nv; N + nv]%nat -> shape f' = [N + nv; N + nv]%nat ->
    (forall P Q, (P < N + nv)%nat -> (Q < N + nv)%nat -> data f' [P; Q] = data f [rho p p' P; rho p p' Q]) -> relabelled N nv po pv (fun _ => 1) (fun _ => 1) [Al; Al] f f'.
  Proof using HL HP HP' HG.
    intros S1 S2 V. split; [exact S1|]. split; [exact S2|]. intros idx I. rewrite S2 in I. inversion I as [|P ? ? ? A1 I1]; subst. inversion I1 as [|Q ? ? ? A2 I2]; subst. inversion I2; subst.
    rewrite (V P Q A1 A2). unfold signs, labels. cbn [combine map fst snd fold_right]. rewrite !lab by assumption. unfold ksign. destruct (Nat.ltb P N), (Nat.ltb Q N); ring.
  Qed.
  Lemma rel4 (g g' : tensor) : shape g = [N + nv; N + nv; N + nv; N + nv]%nat -> shape g' = [N + nv; N + nv; N + nv; N + nv]%nat ->
    (forall P Q R S, (P < N + nv)%nat -> (Q < N + nv)%nat -> (R < N + nv)%nat -> (S < N + nv)%nat -> data g' [P; Q; R; S] = data g [rho p p' P; rho p p' Q; rho p p' R; rho p p' S]) ->
    relabelled N nv po pv (fun _ => 1) (fun _ => 1) [Al; Al; Al; Al] g g'.
  Proof using HL HP HP' HG.
    intros S1 S2 V. split; [exact S1|]. split; [exact S2|]. intros idx I. rewrite S2 in I. inversion I as [|P ? ? ? A1 I1]; subst. inversion I1 as [|Q ? ? ? A2 I2]; subst.
    inversion I2 as [|R ? ? ? A3 I3]; subst. inversion I3 as [|S ? ? ? A4 I4]; subst. inversion I4; subst.
    rewrite (V P Q R S A1 A2 A3 A4). unfold signs, labels. cbn [combine map fst snd fold_right]. rewrite !lab by assumption. unfold ksign. destruct (Nat.ltb P N), (Nat.ltb Q N), (Nat.ltb R N), (Nat.ltb S N); ring.
  Qed.
End Ties.

(** Arrays given entry by entry for another order [p'] of the same orbitals. *)
Lemma other_order : forall n m N nv I Ca Cb eps_a eps_b order p' F G e F' G' e' D1 D2 D3 D1' D2' D3' c solve w w',
  let eps := eps_a ++ eps_b in
  (0 < n)%nat -> eri_symmetric n I -> shape Ca = [n; m] -> shape Cb = [n; m] -> length eps_a = m -> length eps_b = m -> (2 * m = N + nv)%nat ->
  is_argsort eps (order eps) -> is_argsort eps p' -> convert_slow order I Ca Cb eps_a eps_b = Some (F, G, e) ->
  e' = sorted_by eps p' -> shape F' = [N + nv; N + nv]%nat -> shape G' = [N + nv; N + nv; N + nv; N + nv]%nat ->
  (forall P Q, (P < N + nv)%nat -> (Q < N + nv)%nat -> data F' [P; Q] = if Nat.eqb P Q then nth P e' 0 else 0) ->
  (forall P Q R S, (P < N + nv)%nat -> (Q < N + nv)%nat -> (R < N + nv)%nat -> (S < N + nv)%nat -> data G' [P; Q; R; S] = so_integral n m I Ca Cb p' P Q R S) ->
  (forall i a, (i < N)%nat -> (N <= a)%nat -> (a < N + nv)%nat -> nth i e 0 < nth a e 0) ->
  is_denominator 1 N nv (fun k => nth k e 0) D1 -> is_denominator 2 N nv (fun k => nth k e 0) D2 -> is_denominator 3 N nv (fun k => nth k e 0) D3 ->
  is_denominator 1 N nv (fun k => nth k e' 0) D1' -> is_denominator 2 N nv (fun k => nth k e' 0) D2' -> is_denominator 3 N nv (fun k => nth k e' 0) D3' ->
  cc_type c = "UCC(4)" \/ contains "UCC(4)" (cc_type c) = false ->
  e' = e /\ exists qo qv, is_relabelling N qo (fun _ => 1) /\ is_relabelling nv qv (fun _ => 1) /\
    same_end N nv (relabelling_matrix qo (fun _ => 1)) (relabelling_matrix qv (fun _ => 1)) (slow_kernel N nv F G D1 D2 D3 c solve w) (slow_kernel N nv F' G' D1' D2' D3' c solve w').
Proof.
  intros n m N nv I Ca Cb eps_a eps_b order p' F G e F' G' e' D1 D2 D3 D1' D2' D3' c solve w w' eps N0 HI Sa Sb La Lb Hm HP HP' EC Ee' SF' SG' EF' VG' HG K1 K2 K3 K1' K2' K3' HT.
  assert (HL : length eps = (N + nv)%nat) by (unfold eps; rewrite app_length; lia).
  assert (PM : Permutation (order eps) (seq 0 (2 * m))) by (destruct HP as [X _]; rewrite HL, <- Hm in X; exact X).
  destruct (C37_spin_orbital_integrals n m I Ca Cb eps_a eps_b order N0 HI Sa Sb La Lb PM) as [F1 [G1 [e1 [E1 [Ee [EF [IF [IG VG]]]]]]]].
  fold eps in Ee, VG. fold (sorted_by eps (order eps)) in Ee.
  rewrite EC in E1. injection E1 as <- <- <-. rewrite Hm in IF, IG, VG.
  assert (EE : e' = e) by (rewrite Ee, Ee'; symmetry; apply argsort_unique; assumption). split; [exact EE|].
  rewrite Ee in HG. set (p := order eps) in *.
  pose proof (rel_o eps p p' N nv HP HP' HL HG) as RO. pose proof (rel_v eps p p' N nv HP HP' HL HG) as RV.
  eexists _, _. split; [exact RO|]. split; [exact RV|].
  assert (VAL : forall k, (k < N + nv)%nat -> nth (rho p p' k) e 0 = nth k e 0) by (intros k Hk; rewrite Ee; apply (rho_val eps p N nv HP HL p p' k HP HP' Hk)).
  apply C68_run_relabelled with (eps := fun k => nth k e 0) (eps' := fun k => nth k e' 0); try assumption.
  - apply (rel2 eps p p' N nv HP HP' HL HG F F' (proj1 IF) SF'). intros P Q Hp Hq. rewrite (EF' P Q Hp Hq), EF, EE. unfold tdiag, arr2. cbn [data]. rewrite (VAL P Hp).
    destruct (Nat.eqb_spec P Q) as [->|NE]; [rewrite Nat.eqb_refl; reflexivity|]. destruct (Nat.eqb_spec (rho p p' P) (rho p p' Q)) as [X|_]; [|reflexivity].
    exfalso. apply NE. rewrite <- (rho_inv eps N nv HL p' p P HP' HP Hp), <- (rho_inv eps N nv HL p' p Q HP' HP Hq), X. reflexivity.
  - apply (rel4 eps p p' N nv HP HP' HL HG G G' (proj1 IG) SG'). intros P Q R S Hp Hq Hr Hs.
    destruct (rho_ok eps N nv HL p p' P HP HP' Hp) as [A1 B1]. destruct (rho_ok eps N nv HL p p' Q HP HP' Hq) as [A2 B2].
    destruct (rho_ok eps N nv HL p p' R HP HP' Hr) as [A3 B3]. destruct (rho_ok eps N nv HL p p' S HP HP' Hs) as [A4 B4].
    rewrite (VG _ _ _ _ B1 B2 B3 B4), (VG' _ _ _ _ Hp Hq Hr Hs). unfold so_integral. rewrite A1, A2, A3, A4. reflexivity.
  - intros i Hi. cbv beta. rewrite EE. symmetry. apply VAL. lia.
  - intros a Ha. cbv beta. rewrite EE. rewrite <- (VAL (N + a)%nat) by lia. f_equal. unfold pv.
    assert (Hk : (N + a < N + nv)%nat) by lia. pose proof (rho_lt eps p N nv HP HL HG p p' (N + a) HP HP' Hk). lia.
Qed.

(** C73.  The conversion sorts the alpha and beta orbitals by energy.  Whatever order `argsort` chooses for orbitals of equal energy (a
    closed-shell molecule has only such pairs, and numpy's default sort is not stable), if the highest occupied and the lowest virtual
    spin orbital have different energies: the same orbital energies are stored, and a spin-orbital calculation with any label ends in the
    same way: it returns the same energies and the same amplitudes, up to the order of the orbitals, or it exits or raises in both cases. *)
Theorem C73_order_of_equal_energies : forall n m N nv I Ca Cb eps_a eps_b order order' F G e F' G' e' D1 D2 D3 D1' D2' D3' c solve w w',
  let eps := eps_a ++ eps_b in
  (0 < n)%nat -> eri_symmetric n I -> shape Ca = [n; m] -> shape Cb = [n; m] -> length eps_a = m -> length eps_b = m -> (2 * m = N + nv)%nat ->
  is_argsort eps (order eps) -> is_argsort eps (order' eps) ->
  convert_slow order I Ca Cb eps_a eps_b = Some (F, G, e) -> convert_slow order' I Ca Cb eps_a eps_b = Some (F', G', e') ->
  (forall i a, (i < N)%nat -> (N <= a)%nat -> (a < N + nv)%nat -> nth i e 0 < nth a e 0) ->
  is_denominator 1 N nv (fun k => nth k e 0) D1 -> is_denominator 2 N nv (fun k => nth k e 0) D2 -> is_denominator 3 N nv (fun k => nth k e 0) D3 ->
  is_denominator 1 N nv (fun k => nth k e' 0) D1' -> is_denominator 2 N nv (fun k => nth k e' 0) D2' -> is_denominator 3 N nv (fun k => nth k e' 0) D3' ->
  cc_type c = "UCC(4)" \/ contains "UCC(4)" (cc_type c) = false ->
  e' = e /\ exists qo qv, is_relabelling N qo (fun _ => 1) /\ is_relabelling nv qv (fun _ => 1) /\
    same_end N nv (relabelling_matrix qo (fun _ => 1)) (relabelling_matrix qv (fun _ => 1)) (slow_kernel N nv F G D1 D2 D3 c solve w) (slow_kernel N nv F' G' D1' D2' D3' c solve w').
Proof.
  intros n m N nv I Ca Cb eps_a eps_b order order' F G e F' G' e' D1 D2 D3 D1' D2' D3' c solve w w' eps N0 HI Sa Sb La Lb Hm HP HP' EC EC' HG K1 K2 K3 K1' K2' K3' HT.
  assert (HL : length eps = (N + nv)%nat) by (unfold eps; rewrite app_length; lia).
  assert (PM' : Permutation (order' eps) (seq 0 (2 * m))) by (destruct HP' as [X _]; rewrite HL, <- Hm in X; exact X).
  destruct (C37_spin_orbital_integrals n m I Ca Cb eps_a eps_b order' N0 HI Sa Sb La Lb PM') as [F2 [G2 [e2 [E2 [Ee' [EF' [IF' [IG' VG']]]]]]]].
  rewrite EC' in E2. injection E2 as <- <- <-. rewrite Hm in IF', IG', VG'.
  apply (other_order n m N nv I Ca Cb eps_a eps_b order (order' eps) F G e F' G' e' D1 D2 D3 D1' D2' D3' c solve w w'); try assumption; [exact (proj1 IF')|exact (proj1 IG')|].
  intros P Q _ _. rewrite EF'. reflexivity.
Qed.
Print Assumptions C73_order_of_equal_energies.

(** C73 for the two conversions.  For a closed-shell molecule with canonical orbitals, a calculation on the interleaved arrays of
    `convertSCFinfo_slow` ends like the calculation on the sorted arrays of `convertSCFinfo_tmpslow`, whatever order `argsort`
    chooses for the pairs of equal energy. *)
Theorem C73_interleaved_run : forall n no nvir I h C f eps order F G e F' G' e' D1 D2 D3 D1' D2' D3' c solve w w', n = (no + nvir)%nat ->
  (0 < n)%nat -> eri_symmetric n I -> shape h = [n; n] -> closed_shell_fock n no I h C f -> P_ints2.canonical n n f C eps ->
  (forall i j, (i < j)%nat -> (j < n)%nat -> nth i eps 0 <= nth j eps 0) -> (forall i a, (i < no)%nat -> (no <= a)%nat -> (a < n)%nat -> nth i eps 0 < nth a eps 0) ->
  is_argsort (eps ++ eps) (order (eps ++ eps)) ->
  convert_slow order I C C eps eps = Some (F, G, e) -> convert_interleaved (2 * no) I h C eps = Some (F', G', e') ->
  let N := (2 * no)%nat in let nv := (2 * nvir)%nat in
  is_denominator 1 N nv (fun k => nth k e 0) D1 -> is_denominator 2 N nv (fun k => nth k e 0) D2 -> is_denominator 3 N nv (fun k => nth k e 0) D3 ->
  is_denominator 1 N nv (fun k => nth k e' 0) D1' -> is_denominator 2 N nv (fun k => nth k e' 0) D2' -> is_denominator 3 N nv (fun k => nth k e' 0) D3' ->
  cc_type c = "UCC(4)" \/ contains "UCC(4)" (cc_type c) = false ->
  e' = e /\ exists qo qv, is_relabelling N qo (fun _ => 1) /\ is_relabelling nv qv (fun _ => 1) /\
    same_end N nv (relabelling_matrix qo (fun _ => 1)) (relabelling_matrix qv (fun _ => 1)) (slow_kernel N nv F G D1 D2 D3 c solve w) (slow_kernel N nv F' G' D1' D2' D3' c solve w').
Proof.
  intros n no nvir I h C f eps order F G e F' G' e' D1 D2 D3 D1' D2' D3' c solve w w' En N0 HI Hh Hf Hcan Hs Hgap HP EC EC' N nv K1 K2 K3 K1' K2' K3' HT.
  assert (Hno : (no <= n)%nat) by lia.
  destruct (C72_same_as_driver n no I h C f eps (fun _ => interleave n) N0 HI Hh Hno Hf Hcan Hs) as [HP' X].
  destruct (X eq_refl) as [F1 [G1 [e1 [F2 [G2 [E1 [E2 [S1 [S2 [VF VG]]]]]]]]]]. rewrite EC' in E1. injection E1 as <- <- <-. clear X.
  destruct Hcan as [Sf [HC [Le Hcan]]].
  destruct (C37_spin_orbital_integrals n n I C C eps eps (fun _ => interleave n) N0 HI HC HC Le Le) as [F3 [G3 [e3 [E3 [Ee [EF [IF [IG VG']]]]]]]]; [apply interleave_perm|].
  rewrite E2 in E3. injection E3 as <- <- <-. assert (Hm : (2 * n = N + nv)%nat) by (unfold N, nv; lia). rewrite Hm in IF, IG, VF, VG, VG'.
  assert (EE : e' = e).
  { assert (PM : Permutation (order (eps ++ eps)) (seq 0 (2 * n))) by (destruct HP as [X _]; rewrite app_length, Le in X; replace (2 * n)%nat with (n + n)%nat by lia; exact X).
    destruct (C37_spin_orbital_integrals n n I C C eps eps order N0 HI HC HC Le Le PM) as [F4 [G4 [e4 [E4 [Ee4 _]]]]].
    rewrite EC in E4. injection E4 as _ _ <-. rewrite Ee, Ee4. symmetry. apply argsort_unique; assumption. }
  apply (other_order n n N nv I C C eps eps order (interleave n) F G e F' G' e' D1 D2 D3 D1' D2' D3' c solve w w'); try assumption.
  - rewrite S1. exact (proj1 IF).
  - rewrite S2. exact (proj1 IG).
  - intros P Q HPP HQ. rewrite (VF P Q HPP HQ), EF. reflexivity.
  - intros P Q R S HPP HQ HR HS. rewrite (VG P Q R S HPP HQ HR HS). apply VG'; assumption.
  - intros i a Hi Ha Ha'. rewrite <- EE, Ee. fold (sorted_by (eps ++ eps) (interleave n)).
    pose proof (Permutation_length (interleave_perm n)) as Li. rewrite seq_length in Li. rewrite !sorted_by_nth by lia.
    rewrite !(interleave_eps n eps) by (try exact Le; lia). apply Hgap.
    + apply Nat.div_lt_upper_bound; lia.
    + apply Nat.div_le_lower_bound; lia.
    + apply Nat.div_lt_upper_bound; lia.
Qed.
Print Assumptions C73_interleaved_run.

(** ** Concrete case: the two-electron molecule of C72, with beta before alpha in each pair of equal energies *)
Definition beta_first : list Qc -> list nat := fun _ => [2; 0; 3; 1]%nat.
Lemma beta_first_ok : is_argsort (q_eps ++ q_eps) (beta_first (q_eps ++ q_eps)).
Proof.
  split.
  - apply NoDup_Permutation_bis; [repeat constructor; cbn; intuition lia|cbn; lia|intros k; cbn; intuition lia].
  - intros i j Hi Hj. change (length (q_eps ++ q_eps)) with 4%nat in Hj.
    assert (D : forall k, (k < 4 -> k = 0 \/ k = 1 \/ k = 2 \/ k = 3)%nat) by lia.
    destruct (D i ltac:(lia)) as [->|[->|[->| ->]]]; destruct (D j Hj) as [->|[->|[->| ->]]]; try lia; vm_compute; discriminate.
Qed.
Lemma q_gap : forall i a, (i < 1)%nat -> (1 <= a)%nat -> (a < 2)%nat -> nth i q_eps 0 < nth a q_eps 0.
Proof. intros i a Hi Ha Ha'. assert (i = 0 /\ a = 1)%nat as [-> ->] by lia. vm_compute. reflexivity. Qed.
Example C73_instance : forall ty diis solve w w', ty = "UCC(4)" \/ contains "UCC(4)" ty = false ->
  exists F G e F' G' D1 D2 D3, convert_slow beta_first q_I (teye 2) (teye 2) q_eps q_eps = Some (F, G, e) /\
    convert_interleaved 2 q_I q_h (teye 2) q_eps = Some (F', G', e) /\
    exists qo qv, same_end 2 2 (relabelling_matrix qo (fun _ => 1)) (relabelling_matrix qv (fun _ => 1))
      (slow_kernel 2 2 F G D1 D2 D3 (i_calc ty diis) solve w) (slow_kernel 2 2 F' G' D1 D2 D3 (i_calc ty diis) solve w').
Proof.
  intros ty diis solve w w' HT.
  destruct (C37_spin_orbital_integrals 2 2 q_I (teye 2) (teye 2) q_eps q_eps beta_first ltac:(lia) q_I_ok eq_refl eq_refl eq_refl eq_refl (proj1 beta_first_ok))
    as [F [G [e [E [Ee _]]]]].
  destruct C72_instance as [F' [G' [e' [E' _]]]].
  destruct (C73_interleaved_run 2 1 1 q_I q_h (teye 2) q_f q_eps beta_first F G e F' G' e' _ _ _ _ _ _ (i_calc ty diis) solve w w' eq_refl ltac:(lia) q_I_ok eq_refl
    q_fock_ok q_canonical q_sorted q_gap beta_first_ok E E' (e_den_ok _ 1 2 2) (e_den_ok _ 2 2 2) (e_den_ok _ 3 2 2) (e_den_ok _ 1 2 2) (e_den_ok _ 2 2 2) (e_den_ok _ 3 2 2) HT)
    as [-> [qo [qv [_ [_ X]]]]].
  eexists F, G, e, F', G', _, _, _. split; [exact E|]. split; [exact E'|]. exists qo, qv. exact X.
Qed.
Lemma q_gap_sorted : forall i a, (i < 2)%nat -> (2 <= a)%nat -> (a < 2 + 2)%nat ->
  nth i (map (fun k => nth k (q_eps ++ q_eps) 0) [2; 0; 3; 1]%nat) 0 < nth a (map (fun k => nth k (q_eps ++ q_eps) 0) [2; 0; 3; 1]%nat) 0.
Proof. intros i a Hi Ha Ha'. assert (i = 0 \/ i = 1)%nat as [->| ->] by lia; assert (a = 2 \/ a = 3)%nat as [->| ->] by lia; vm_compute; reflexivity. Qed.
Lemma interleave2_ok : is_argsort (q_eps ++ q_eps) (interleave 2).
Proof. exact (proj1 (C72_same_as_driver 2 1 q_I q_h (teye 2) q_f q_eps (fun _ => interleave 2) ltac:(lia) q_I_ok eq_refl ltac:(lia) q_fock_ok q_canonical q_sorted)). Qed.
Example C73_orders_instance : forall ty diis solve w w', ty = "UCC(4)" \/ contains "UCC(4)" ty = false ->
  exists F G e F' G' D1 D2 D3, convert_slow beta_first q_I (teye 2) (teye 2) q_eps q_eps = Some (F, G, e) /\
    convert_slow (fun _ => interleave 2) q_I (teye 2) (teye 2) q_eps q_eps = Some (F', G', e) /\
    exists qo qv, same_end 2 2 (relabelling_matrix qo (fun _ => 1)) (relabelling_matrix qv (fun _ => 1))
      (slow_kernel 2 2 F G D1 D2 D3 (i_calc ty diis) solve w) (slow_kernel 2 2 F' G' D1 D2 D3 (i_calc ty diis) solve w').
Proof.
  intros ty diis solve w w' HT.
  destruct (C37_spin_orbital_integrals 2 2 q_I (teye 2) (teye 2) q_eps q_eps beta_first ltac:(lia) q_I_ok eq_refl eq_refl eq_refl eq_refl (proj1 beta_first_ok))
    as [F [G [e [E [Ee _]]]]].
  destruct (C37_spin_orbital_integrals 2 2 q_I (teye 2) (teye 2) q_eps q_eps (fun _ => interleave 2) ltac:(lia) q_I_ok eq_refl eq_refl eq_refl eq_refl (proj1 interleave2_ok))
    as [F' [G' [e' [E' _]]]].
  assert (HG : forall i a, (i < 2)%nat -> (2 <= a)%nat -> (a < 2 + 2)%nat -> nth i e 0 < nth a e 0) by (rewrite Ee; exact q_gap_sorted).
  destruct (C73_order_of_equal_energies 2 2 2 2 q_I (teye 2) (teye 2) q_eps q_eps beta_first (fun _ => interleave 2) F G e F' G' e' _ _ _ _ _ _ (i_calc ty diis) solve w w'
    ltac:(lia) q_I_ok eq_refl eq_refl eq_refl eq_refl eq_refl beta_first_ok interleave2_ok E E' HG
    (e_den_ok _ 1 2 2) (e_den_ok _ 2 2 2) (e_den_ok _ 3 2 2) (e_den_ok _ 1 2 2) (e_den_ok _ 2 2 2) (e_den_ok _ 3 2 2) HT)
    as [-> [qo [qv [_ [_ X]]]]].
  eexists F, G, e, F', G', _, _, _. split; [exact E|]. split; [exact E'|]. exists qo, qv. exact X.
Qed.
