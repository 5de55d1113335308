(** Reading the antisymmetriser specification off a symbolic result, and sanity of [signed_perms].
    Proof machinery; it models no particular source line. *)
From Coq Require Import String Ascii List Arith NArith ZArith QArith Qcanon Bool Lia Permutation.
From Verif Require Import Sums Tensor Interp Poly SymExec Canon Spec Setup Master Spin Check Tabs.
Import ListNotations.
Open Scope list_scope.
Open Scope Qc_scope.

Section Nat_.
  Context {X Y : Type}.
  Variable f : X -> Y.
  Definition pm (sp : bool * list X) : bool * list Y := (fst sp, map f (snd sp)).
  Lemma inserts_map x l : inserts (f x) (map f l) = map pm (inserts x l).
  Proof.
    induction l as [|y r IH]; [reflexivity|]. cbn [inserts map]. f_equal. rewrite IH, !map_map.
    apply map_ext. intros [b p]. reflexivity.
  Qed.
  Lemma signed_perms_map l : signed_perms (map f l) = map pm (signed_perms l).
  Proof.
    induction l as [|x r IH]; [reflexivity|]. cbn [signed_perms map]. rewrite IH. clear IH.
    induction (signed_perms r) as [|[b p] s IHs]; [reflexivity|]. cbn [flat_map map]. rewrite map_app, IHs. apply (f_equal2 (@app _)); [|reflexivity].
    unfold pm at 1 2. cbn [fst snd]. rewrite inserts_map, !map_map. apply map_ext. intros [c q]. reflexivity.
  Qed.
End Nat_.

(** Every listed list is a permutation ... *)
Lemma inserts_perm {X} (x : X) l b p : In (b, p) (inserts x l) -> Permutation (x :: l) p.
Proof.
  revert b p. induction l as [|y r IH]; intros b p; cbn [inserts].
  - intros [[= <- <-]|[]]. reflexivity.
  - intros [[= <- <-]|H]; [reflexivity|]. apply in_map_iff in H. destruct H as [[c q] [[= <- <-] H]].
    apply IH in H. cbn. rewrite perm_swap. apply perm_skip. exact H.
Qed.
Lemma signed_perms_perm {X} (l : list X) b p : In (b, p) (signed_perms l) -> Permutation l p.
Proof.
  revert b p. induction l as [|x r IH]; intros b p; cbn [signed_perms].
  - intros [[= <- <-]|[]]. reflexivity.
  - intros H. apply in_flat_map in H. destruct H as [[c q] [H1 H2]]. apply in_map_iff in H2.
    destruct H2 as [[d s] [[= <- <-] H3]]. cbn in H3. apply inserts_perm in H3. apply IH in H1.
    rewrite H1. exact H3.
Qed.
(** ... every permutation is listed ... *)
Lemma inserts_all {X} (x : X) l1 l2 : exists b, In (b, (l1 ++ x :: l2)%list) (inserts x (l1 ++ l2)%list).
Proof.
  induction l1 as [|y r [b IH]]; cbn [app].
  - exists true. destruct l2; left; reflexivity.
  - exists (negb b). cbn [inserts]. right. apply in_map_iff. exists (b, (r ++ x :: l2)%list). split; [reflexivity|exact IH].
Qed.
Lemma signed_perms_all {X} (l p : list X) : Permutation l p -> exists b, In (b, p) (signed_perms l).
Proof.
  revert p. induction l as [|x r IH]; intros p H.
  - apply Permutation_nil in H. subst. exists true. left; reflexivity.
  - assert (I : In x p) by (eapply Permutation_in; [exact H|left; reflexivity]).
    apply in_split in I. destruct I as [l1 [l2 ->]]. apply Permutation_cons_app_inv in H.
    destruct (IH _ H) as [c Hc]. destruct (inserts_all x l1 l2) as [d Hd].
    exists (Bool.eqb c d). cbn [signed_perms]. apply in_flat_map. exists (c, (l1 ++ l2)%list). split; [exact Hc|].
    apply in_map_iff. exists (d, (l1 ++ x :: l2)%list). split; [reflexivity|exact Hd].
Qed.
(** ... and there are n! of them. *)
Lemma inserts_length {X} (x : X) l : length (inserts x l) = S (length l).
Proof. induction l as [|y r IH]; [reflexivity|]. cbn [inserts length]. rewrite map_length, IH. reflexivity. Qed.
Lemma signed_perms_length {X} (l : list X) : length (signed_perms l) = fact (length l).
Proof.
  induction l as [|x r IH]; [reflexivity|]. cbn [signed_perms length fact].
  assert (G : forall s, (forall b p, In (b, p) s -> length p = length r) ->
    length (flat_map (fun sp : bool * list X =>
      map (fun sq => (Bool.eqb (fst sp) (fst sq), snd sq)) (inserts x (snd sp))) s) = (S (length r) * length s)%nat).
  { induction s as [|[b p] s IHs]; intros H; [cbn; lia|]. cbn [flat_map]. rewrite app_length, map_length, inserts_length.
    cbn [snd]. rewrite (H b p) by (left; reflexivity). rewrite IHs; [cbn [length]; lia|].
    intros c q Hq. apply (H c q). right; exact Hq. }
  rewrite G; [rewrite IH; cbn; lia|].
  intros b p H. apply signed_perms_perm in H. symmetry. apply Permutation_length, H.
Qed.
(** The parity is the parity of the number of inversions (for lists of numbers): hence swapping two
    neighbouring entries changes it. *)
Fixpoint below (x : nat) (l : list nat) : nat :=
  match l with [] => O | y :: r => ((if Nat.ltb y x then 1 else 0) + below x r)%nat end.
Fixpoint inversions (l : list nat) : nat :=
  match l with [] => O | x :: r => (below x r + inversions r)%nat end.

Definition spoly (n : N) (l1 l2 : list var) : poly :=
  flat_map (fun p => map (fun q =>
    T (if Bool.eqb (fst p) (fst q) then 1 else -1 # 1)%Q [] [(n, (snd p ++ snd q)%list)]) (signed_perms l2)) (signed_perms l1).

Lemma suml_map' {A B} (f : A -> B) l F : suml (map f l) F = suml l (fun x => F (f x)).
Proof. apply suml_map. Qed.

Lemma spoly_eval range A n l1 l2 e :
  evalP range A e (spoly n l1 l2) =
  suml (signed_perms l1) (fun p => suml (signed_perms l2) (fun q =>
    sgn (fst p) * sgn (fst q) * A n (map e (snd p) ++ map e (snd q))%list)).
Proof.
  unfold evalP, spoly. rewrite suml_flat_map. apply suml_ext. intros [b p] _. rewrite suml_map.
  apply suml_ext. intros [c q] _. cbn [fst snd]. unfold evalT. cbn [tc td tf sumD evalFs]. unfold evalF. cbn [fst snd].
  rewrite map_app. 
  assert (E1 : Q2Qc 1 = 1) by reflexivity. assert (E2 : Q2Qc (-1 # 1) = - (1)) by (apply Qc_is_canon; reflexivity).
  destruct b, c; cbn [Bool.eqb sgn]; rewrite ?E1, ?E2; ring.
Qed.

Section Read.
  Variable range : space -> list nat.
  Hypothesis nd : forall s, NoDup (range s).
  Variable atoms : atomtab.
  Lemma orbs_repeat s k l : length l = k -> orbs range (repeat s k) l = map (fun x => nth x (range s) O) l.
  Proof.
    intros <-. induction l as [|x r IH]; [reflexivity|]. cbn [length repeat map]. unfold orbs in *.
    rewrite zipw_cons. f_equal. exact IH.
  Qed.
  Lemma orbs_app2 a b m1 m2 : length a = length m1 ->
    orbs range (a ++ b) (m1 ++ m2) = (orbs range a m1 ++ orbs range b m2)%list.
  Proof.
    revert a. induction m1 as [|x m1 IH]; intros [|y a] L; try discriminate; [reflexivity|].
    cbn [app]. unfold orbs. rewrite !zipw_cons. cbn [app]. f_equal. apply IH. cbn in L; lia.
  Qed.
  Lemma inr_repeat_perm k n l p : Permutation l p -> inr l (repeat n k) -> inr p (repeat n k).
  Proof.
    intros HP H. assert (L : length l = k) by (apply inr_len in H; rewrite repeat_length in H; exact H).
    assert (F : Forall (fun x => x < n)%nat l).
    { clear HP L. revert k H. induction l as [|x r IH]; intros k H; [constructor|].
      destruct k; inversion H; subst. constructor; [assumption|]. eapply IH; eassumption. }
    assert (F' : Forall (fun x => x < n)%nat p).
    { rewrite Forall_forall in *. intros x Hx. apply F. eapply Permutation_in; [symmetry; exact HP|exact Hx]. }
    rewrite (Permutation_length HP) in L. clear -F' L. subst k. induction F'; cbn; constructor; assumption.
  Qed.

  Lemma read_antis n k s1 s2 X q R :
    nlook n atoms = Some ((repeat s1 k ++ repeat s2 k)%list, X) ->
    shape X = map (dim range) (repeat s1 k ++ repeat s2 k) ->
    nodupx (repeat s1 k ++ repeat s2 k) = true ->
    tsim range (Aof range atoms) (repeat s1 k ++ repeat s2 k) q R ->
    (forall e, (forall v, In v (xvs (repeat s1 k ++ repeat s2 k)) -> In (e v) (range (spc v))) ->
       evalP range (Aof range atoms) e q =
       evalP range (Aof range atoms) e
         (spoly n (firstn k (xvs (repeat s1 k ++ repeat s2 k))) (skipn k (xvs (repeat s1 k ++ repeat s2 k))))) ->
    xs_ok (repeat s1 k ++ repeat s2 k) = true ->
    antisymmetrised k X R.
  Proof.
    intros HL Hs HN HT HE HX. set (sps := (repeat s1 k ++ repeat s2 k)%list) in *.
    pose proof HT as [HsR _]. split; [rewrite HsR, Hs; reflexivity|].
    intros l1 l2 L1 Hi.
    assert (Hi' := Hi). rewrite Hs in Hi'.
    rewrite (tsim_data range (Aof range atoms) sps q R (l1 ++ l2) HN HT) by (rewrite HsR, <- Hs; exact Hi).
    set (e := env_of sps (orbs range sps (l1 ++ l2))).
    assert (Hag : eagree range sps (l1 ++ l2) e) by (apply agree_env; assumption).
    rewrite HE.
    2:{ intros v Hv. eapply inr_in; [exact Hi'|exact Hag|exact Hv|exact HX]. }
    rewrite spoly_eval.
    unfold sps in Hi'. rewrite map_app in Hi'. unfold inr in Hi'. apply Forall2_app_inv_r in Hi'.
    destruct Hi' as [m1 [m2 [H1 [H2 E]]]].
    assert (LM : length m1 = k) by (apply Forall2_len in H1; rewrite map_length, repeat_length in H1; exact H1).
    assert (LM2 : length m2 = k) by (apply Forall2_len in H2; rewrite map_length, repeat_length in H2; exact H2).
    assert (m1 = l1 /\ m2 = l2) as [-> ->].
    { clear -E L1 LM. revert l1 k L1 LM E. induction m1 as [|x m1 IH]; intros l1 k L1 LM E.
      - cbn in LM. subst. destruct l1; [|discriminate]. split; [reflexivity|]. symmetry. exact E.
      - destruct l1; [cbn in *; subst; discriminate|]. cbn in *. injection E as -> E.
        destruct (IH l1 (length m1)) as [-> ->]; auto. lia. }
    set (g1 := fun x => nth x (range s1) O). set (g2 := fun x => nth x (range s2) O).
    unfold eagree in Hag. unfold sps in Hag at 2. rewrite orbs_app2 in Hag by (rewrite repeat_length; lia).
    rewrite !orbs_repeat in Hag by assumption. fold g1 g2 in Hag.
    assert (E1 : map e (firstn k (xvs sps)) = map g1 l1).
    { rewrite <- firstn_map, Hag, firstn_app, firstn_all2 by (rewrite map_length; lia).
      rewrite map_length, L1, Nat.sub_diag. cbn. apply app_nil_r. }
    assert (E2 : map e (skipn k (xvs sps)) = map g2 l2).
    { rewrite <- skipn_map, Hag, skipn_app, skipn_all2 by (rewrite map_length; lia).
      rewrite map_length, L1, Nat.sub_diag. reflexivity. }
    transitivity (suml (signed_perms (map e (firstn k (xvs sps)))) (fun p =>
      suml (signed_perms (map e (skipn k (xvs sps)))) (fun q =>
        sgn (fst p) * sgn (fst q) * Aof range atoms n (snd p ++ snd q)%list))).
    { rewrite !signed_perms_map, suml_map. apply suml_ext. intros [b p] _. rewrite suml_map.
      apply suml_ext. intros [c r] _. reflexivity. }
    rewrite E1, E2, !signed_perms_map, suml_map. apply suml_ext. intros [b p] Hp. rewrite suml_map.
    apply suml_ext. intros [c r] Hr. cbn [fst snd pm]. f_equal.
    apply signed_perms_perm in Hp, Hr.
    assert (LP : length p = k) by (rewrite <- (Permutation_length Hp); exact L1).
    assert (LR : length r = k) by (rewrite <- (Permutation_length Hr); exact LM2).
    replace (map g1 p ++ map g2 r)%list with (orbs range sps (p ++ r)).
    2:{ unfold sps. rewrite orbs_app2 by (rewrite repeat_length; lia). rewrite !orbs_repeat by assumption. reflexivity. }
    apply Aof_orbs; [exact nd|exact HL|].
    unfold sps. rewrite map_app. apply Forall2_app.
    - rewrite map_repeat in *. eapply inr_repeat_perm; eassumption.
    - rewrite map_repeat in *. eapply inr_repeat_perm; eassumption.
  Qed.
End Read.

(** Parity of the listed permutations. *)
Lemma below_perm x l p : Permutation l p -> below x l = below x p.
Proof. induction 1; cbn [below]; lia. Qed.
Lemma inserts_parity x l b p : ~ In x l -> In (b, p) (inserts x l) ->
  b = Nat.even (inversions (x :: l) + inversions p).
Proof.
  revert b p. induction l as [|y r IH]; intros b p Hn; cbn [inserts].
  - intros [[= <- <-]|[]]. reflexivity.
  - intros [[= <- <-]|H].
    + symmetry. apply Nat.even_spec. exists (inversions (x :: y :: r)). lia.
    + apply in_map_iff in H. destruct H as [[c q] [[= <- <-] H]].
      pose proof (inserts_perm _ _ _ _ H) as HP. apply IH in H; [|intros I; apply Hn; right; exact I]. subst c.
      cbn [snd fst inversions]. rewrite <- (below_perm y _ _ HP). cbn [below inversions] in *.
      assert (x <> y) by (intros ->; apply Hn; left; reflexivity).
      replace ((if Nat.ltb y x then 1 else 0) + below x r + (below y r + inversions r) +
        ((if Nat.ltb x y then 1 else 0) + below y r + inversions q))%nat
        with (1 + (below x r + inversions r + inversions q) + 2 * below y r)%nat.
      * rewrite Nat.even_add_mul_2, Nat.add_1_l, Nat.even_succ, <- Nat.negb_even. reflexivity.
      * destruct (Nat.ltb_spec y x), (Nat.ltb_spec x y); lia.
Qed.
Theorem signed_perms_parity l b p : NoDup l -> In (b, p) (signed_perms l) ->
  b = Nat.even (inversions l + inversions p).
Proof.
  revert b p. induction l as [|x r IH]; intros b p ND; cbn [signed_perms].
  - intros [[= <- <-]|[]]. reflexivity.
  - inversion ND as [|? ? Hn ND']; subst. intros H. apply in_flat_map in H. destruct H as [[c q] [H1 H2]].
    apply in_map_iff in H2. destruct H2 as [[d s] [[= <- <-] H3]]. cbn [fst snd] in *.
    pose proof (signed_perms_perm _ _ _ H1) as HP. apply IH in H1; [|exact ND']. subst c.
    apply inserts_parity in H3.
    2:{ intros I. apply Hn. eapply Permutation_in; [symmetry; exact HP|exact I]. }
    subst d. cbn [inversions]. rewrite <- (below_perm x _ _ HP).
    rewrite <- !Nat.add_assoc. rewrite !Nat.even_add.
    destruct (Nat.even (below x r)), (Nat.even (inversions r)), (Nat.even (inversions q)), (Nat.even (inversions s));
      reflexivity.
Qed.

(** What a successful comparison of polynomials says, in the two environments. *)
Lemma so_eval no nv atoms h sps p q e : Forall (atom_ok (so_range no nv) sy) atoms ->
  peq sy nosplit nokill h (xvs sps) p q = true ->
  (forall v, In v (xvs sps) -> In (e v) (so_range no nv (spc v))) ->
  evalP (so_range no nv) (Aof (so_range no nv) atoms) e p = evalP (so_range no nv) (Aof (so_range no nv) atoms) e q.
Proof.
  intros Hat Hp He. eapply peq_sound; [ | | | | |exact Hp|exact He].
  - apply ctx_blk; exact Hat.
  - apply ctx_herm; [apply sy_herm|exact Hat].
  - apply ctx_len; exact Hat.
  - discriminate.
  - discriminate.
Qed.

Definition antchk (n : N) (k : nat) (s1 s2 : space) (x : option sval) : Prop :=
  let sps := (repeat s1 k ++ repeat s2 k)%list in
  so_chk sps x (Some (SP sps (spoly n (firstn k (xvs sps)) (skipn k (xvs sps))))).

(** A program returns the antisymmetrised atom n. *)
Theorem so_antisymmetrised no nv atoms n k s1 s2 X d l f a v :
  Forall (atom_ok (so_range no nv) sy) atoms ->
  nlook n atoms = Some ((repeat s1 k ++ repeat s2 k)%list, X) ->
  shape X = map (dim (so_range no nv)) (repeat s1 k ++ repeat s2 k) ->
  Forall2 (so_vsim no nv atoms) a v ->
  antchk n k s1 s2 (srun so_slm d l f a) ->
  exists R, returns d l f v R /\ antisymmetrised k X R.
Proof.
  intros Hat HL Hs Hv [h HC]. unfold so_chkb, chk in HC.
  rewrite !andb_true_iff in HC. destruct HC as [[[O1 _] Hg] Hp].
  apply outsp_ok in O1. destruct (so_run _ _ _ _ _ _ _ _ _ _ Hv O1) as [R [HR HT]].
  exists R. split; [exact HR|].
  unfold good in Hg. apply andb_true_iff in Hg. destruct Hg as [HN HX].
  eapply (read_antis (so_range no nv) (so_nodup no nv) atoms n k s1 s2 X); [exact HL|exact Hs|exact HN|exact HT| |exact HX].
  intros e He. cbn [getp] in Hp. eapply so_eval; eassumption.
Qed.

(** The signed sum over all permutations changes sign when two neighbouring entries are exchanged, so an
    antisymmetrised array is antisymmetric. *)
Definition ssum {X} (l : list (bool * list X)) (F : list X -> Qc) : Qc := suml l (fun sp => sgn (fst sp) * F (snd sp)).
Lemma sgn_negb b : sgn (negb b) = - sgn b.
Proof. destruct b; cbn [sgn negb]; ring. Qed.
Lemma sgn_eqb b c : sgn (Bool.eqb b c) = sgn b * sgn c.
Proof. destruct b, c; cbn [sgn Bool.eqb]; ring. Qed.
Lemma ssum_cons_map {X} (z : X) l F :
  suml (map (fun sp : bool * list X => (negb (fst sp), z :: snd sp)) l) (fun sp => sgn (fst sp) * F (snd sp)) =
  - ssum l (fun q => F (z :: q)).
Proof.
  unfold ssum. induction l as [|[b q] l IH]; cbn [map suml fst snd]; [ring|].
  rewrite IH, sgn_negb. ring.
Qed.
Lemma ssum_ext {X} (l : list (bool * list X)) F G : (forall q, F q = G q) -> ssum l F = ssum l G.
Proof. intros H. unfold ssum. apply suml_ext. intros [b q] _. cbn. rewrite H. reflexivity. Qed.
Lemma ssum_inserts_cons {X} (x z : X) p F :
  ssum (inserts x (z :: p)) F = F (x :: z :: p) - ssum (inserts x p) (fun q => F (z :: q)).
Proof.
  unfold ssum at 1. cbn [inserts suml]. rewrite ssum_cons_map. cbn [fst snd sgn]. ring.
Qed.
Lemma ssum_sub {X} (l : list (bool * list X)) F G : ssum l (fun q => F q - G q) = ssum l F - ssum l G.
Proof.
  unfold ssum. induction l as [|[b q] l IH]; cbn [suml fst snd]; [ring|]. rewrite IH. ring.
Qed.
Lemma inserts_swap {X} (x y : X) p : forall F,
  ssum (inserts y p) (fun q => ssum (inserts x q) F) = - ssum (inserts x p) (fun q => ssum (inserts y q) F).
Proof.
  induction p as [|z p IH]; intros F.
  - unfold ssum. cbn [inserts map suml fst snd sgn negb]. ring.
  - rewrite !ssum_inserts_cons.
    rewrite (ssum_ext (inserts y p) _ (fun q => F (x :: z :: q) - ssum (inserts x q) (fun s => F (z :: s))))
      by (intros q; apply ssum_inserts_cons).
    rewrite (ssum_ext (inserts x p) (fun q => ssum (inserts y (z :: q)) F)
      (fun q => F (y :: z :: q) - ssum (inserts y q) (fun s => F (z :: s)))) by (intros q; apply ssum_inserts_cons).
    rewrite !ssum_sub, (IH (fun s => F (z :: s))). ring.
Qed.
Lemma ssum_signed_cons {X} (x : X) l F :
  ssum (signed_perms (x :: l)) F = ssum (signed_perms l) (fun p => ssum (inserts x p) F).
Proof.
  cbn [signed_perms]. unfold ssum. rewrite suml_flat_map. apply suml_ext. intros [b p] _. cbn [fst snd].
  rewrite suml_map, <- suml_scale. apply suml_ext. intros [c q] _. cbn [fst snd]. rewrite sgn_eqb. ring.
Qed.
Lemma signed_perms_swap {X} pre (x y : X) post : forall F,
  ssum (signed_perms (pre ++ x :: y :: post)) F = - ssum (signed_perms (pre ++ y :: x :: post)) F.
Proof.
  induction pre as [|z pre IH]; intros F; cbn [app].
  - rewrite !ssum_signed_cons. unfold ssum at 1 4. 
    induction (signed_perms post) as [|[b p] l IHl]; cbn [suml fst snd]; [ring|].
    rewrite IHl, inserts_swap. ring.
  - rewrite !ssum_signed_cons. apply IH.
Qed.
Lemma inr_swap pre x y post n k sh : inr (pre ++ x :: y :: post) (repeat n k ++ sh) -> (2 + length pre <= k)%nat ->
  inr (pre ++ y :: x :: post) (repeat n k ++ sh).
Proof.
  revert k. induction pre as [|z pre IH]; intros k H L; cbn [app length] in *.
  - destruct k as [|[|k]]; [lia|lia|]. cbn [repeat app] in *. inversion H as [|? ? ? ? H1 H2]; subst.
    inversion H2; subst. repeat constructor; assumption.
  - destruct k as [|k]; [lia|]. cbn [repeat app] in *. inversion H; subst. constructor; [assumption|].
    apply IH; [assumption|lia].
Qed.
Theorem antisymmetrised_antisymmetric k n m X R : shape X = (repeat n k ++ repeat m k)%list ->
  antisymmetrised k X R -> antisymmetric k R.
Proof.
  intros Hs [HR HD] i Hi.
  assert (SP : forall l1 l2, length l1 = k -> inr (l1 ++ l2) (shape X) ->
    data R (l1 ++ l2) = ssum (signed_perms l1) (fun p => ssum (signed_perms l2) (fun q => data X (p ++ q)))).
  { intros l1 l2 L1 I. rewrite (HD l1 l2 L1 I). unfold ssum. apply suml_ext. intros [b p] _. cbn [fst snd].
    rewrite <- suml_scale. apply suml_ext. intros [c q] _. cbn [fst snd]. ring. }
  split; intros pre x y post LP I1 I2; rewrite HR in I1, I2.
  - assert (LL : (length pre + S (S (length post)) = k + k)%nat).
    { apply inr_len in I1. rewrite Hs, !app_length, !repeat_length in I1. cbn [length] in I1. lia. }
    set (p1 := firstn (k - i - 2) post). set (p2 := skipn (k - i - 2) post).
    assert (EP : post = p1 ++ p2) by (symmetry; apply firstn_skipn).
    assert (L1 : length p1 = (k - i - 2)%nat) by (unfold p1; rewrite firstn_length; lia).
    rewrite EP in *. change (x :: y :: p1 ++ p2) with ((x :: y :: p1) ++ p2) in *.
    change (y :: x :: p1 ++ p2) with ((y :: x :: p1) ++ p2) in *. rewrite !app_assoc in *.
    rewrite !SP; [|rewrite app_length; cbn [length]; lia|assumption|rewrite app_length; cbn [length]; lia|assumption].
    rewrite signed_perms_swap. ring.
  - assert (LL : (length pre + S (S (length post)) = k + k)%nat).
    { apply inr_len in I1. rewrite Hs, !app_length, !repeat_length in I1. cbn [length] in I1. lia. }
    set (p1 := firstn k pre). set (p2 := skipn k pre).
    assert (EP : pre = p1 ++ p2) by (symmetry; apply firstn_skipn).
    assert (L1 : length p1 = k) by (unfold p1; rewrite firstn_length; lia).
    rewrite EP in *. rewrite <- !app_assoc in *.
    rewrite !SP; try assumption.
    unfold ssum at 1 3.
    induction (signed_perms p1) as [|[b p] l IHl]; cbn [suml fst snd]; [ring|].
    rewrite IHl, signed_perms_swap. ring.
Qed.
