(** Normalisation of tensor polynomials: splitting of summation ranges, selection rules, sorting of
    symmetric index groups, canonical renaming of summation variables and collection of like terms.
    The choice of the renaming is heuristic and needs no proof; every step taken is checked and proved
    sound ([norm_sound]).  Proof machinery; it models no particular source line. *)
From Coq Require Import String Ascii List Arith NArith ZArith QArith Qcanon Bool Lia Permutation.
From Verif Require Import Sums Poly SymExec.
Import ListNotations.
Open Scope Qc_scope.

(** Symmetry of a tensor atom: consecutive index blocks inside which adjacent indices may be exchanged
    (with a sign if [anti]), and, if [herm], exchange of the first two blocks. *)
Record symd := SD { blk : list nat; anti : bool; herm : bool }.

(** ** Comparison *)
Fixpoint cmpl (a b : list N) : comparison :=
  match a, b with
  | [], [] => Eq
  | [], _ => Lt
  | _, [] => Gt
  | x :: a', y :: b' => match N.compare x y with Eq => cmpl a' b' | c => c end
  end.
Definition cmpf (a b : fac) : comparison :=
  match N.compare (fst a) (fst b) with Eq => cmpl (snd a) (snd b) | c => c end.
Fixpoint cmpfs (a b : list fac) : comparison :=
  match a, b with
  | [], [] => Eq
  | [], _ => Lt
  | _, [] => Gt
  | x :: a', y :: b' => match cmpf x y with Eq => cmpfs a' b' | c => c end
  end.
Fixpoint cmpll (a b : list (list N)) : comparison :=
  match a, b with
  | [], [] => Eq
  | [], _ => Lt
  | _, [] => Gt
  | x :: a', y :: b' => match cmpl x y with Eq => cmpll a' b' | c => c end
  end.

Lemma cmpl_eq a : forall b, cmpl a b = Eq -> a = b.
Proof.
  induction a as [|x a IH]; intros [|y b]; cbn; try discriminate; [reflexivity|].
  destruct (N.compare_spec x y); try discriminate. intros H'. apply IH in H'. congruence.
Qed.
Lemma cmpf_eq a b : cmpf a b = Eq -> a = b.
Proof.
  destruct a as [n l], b as [n' l']. unfold cmpf; cbn.
  destruct (N.compare_spec n n'); try discriminate. intros H'. apply cmpl_eq in H'. congruence.
Qed.
Lemma cmpfs_eq a : forall b, cmpfs a b = Eq -> a = b.
Proof.
  induction a as [|x a IH]; intros [|y b]; cbn; try discriminate; [reflexivity|].
  destruct (cmpf x y) eqn:E; try discriminate. apply cmpf_eq in E.
  intros H'. apply IH in H'. congruence.
Qed.

(** Generic insertion sort. *)
Section Sort.
  Context {X : Type}.
  Variable cmp : X -> X -> comparison.
  Fixpoint insertc (x : X) (l : list X) : list X :=
    match l with
    | [] => [x]
    | y :: r => match cmp x y with Gt => y :: insertc x r | _ => x :: l end
    end.
  Fixpoint sortc (l : list X) : list X :=
    match l with [] => [] | x :: r => insertc x (sortc r) end.
  Lemma insertc_perm x l : Permutation (insertc x l) (x :: l).
  Proof.
    induction l as [|y r IH]; cbn; [reflexivity|].
    destruct (cmp x y); try reflexivity.
    rewrite IH. apply perm_swap.
  Qed.
  Lemma sortc_perm l : Permutation (sortc l) l.
  Proof. induction l as [|x r IH]; cbn; [reflexivity|]. rewrite insertc_perm, IH. reflexivity. Qed.
End Sort.

(** ** Sorting indices inside symmetric blocks *)
Fixpoint inss (x : N) (l : list N) : bool * list N :=
  match l with
  | [] => (false, [x])
  | y :: r => if N.leb x y then (false, x :: l)
              else let (p, r') := inss x r in (negb p, y :: r')
  end.
Fixpoint isort (l : list N) : bool * list N :=
  match l with
  | [] => (false, [])
  | x :: r => let (p, r') := isort r in let (q, l') := inss x r' in (xorb p q, l')
  end.
Fixpoint adjdup (l : list N) : bool :=
  match l with
  | x :: ((y :: _) as r) => (N.eqb x y || adjdup r)%bool
  | _ => false
  end.
Fixpoint sortblocks (bl : list nat) (vs : list N) : bool * bool * list N :=
  match bl with
  | [] => (false, false, vs)
  | b :: bl' =>
      let (p, x) := isort (firstn b vs) in
      let '(q, z, r) := sortblocks bl' (skipn b vs) in
      (xorb p q, (adjdup x || z)%bool, (x ++ r)%list)
  end.
Definition hermswap (bl : list nat) (vs : list N) : list N :=
  match bl with
  | b :: _ => let vs' := (skipn b vs ++ firstn b vs)%list in
              match cmpl vs' vs with Lt => vs' | _ => vs end
  | [] => vs
  end.

Section Norm.
  Variable sym : N -> symd.

  (** (sign, vanishes, sorted factor) *)
  Definition normfac (f : fac) : bool * bool * fac :=
    let (n, vs) := f in
    let s := sym n in
    let '(p, z, vs') := sortblocks (blk s) vs in
    let vs'' := if herm s then hermswap (blk s) vs' else vs' in
    ((p && anti s)%bool, (z && anti s)%bool, (n, vs'')).
  Fixpoint normfacs (fs : list fac) : bool * bool * list fac :=
    match fs with
    | [] => (false, false, [])
    | f :: r =>
        let '(p, z, f') := normfac f in
        let '(q, y, r') := normfacs r in
        (xorb p q, (z || y)%bool, f' :: r')
    end.

  Inductive cres := CZ | CT (neg : bool) (ds : list var) (fs : list fac).

  Definition try_order (t : term) (o : list var) : option cres :=
    let m := combine o (number 16%N o) in
    match ren_term (vext m) t with
    | None => None
    | Some t1 =>
        let '(p, z, fs) := normfacs (tf t1) in
        if z then Some CZ
        else Some (CT p (sortc N.compare (td t1)) (sortc cmpf fs))
    end.

  Definition combine_c (a b : cres) : cres :=
    match a, b with
    | CZ, _ => CZ
    | _, CZ => CZ
    | CT n1 d1 f1, CT n2 d2 f2 =>
        match cmpfs f1 f2 with
        | Lt => a
        | Gt => b
        | Eq => match cmpl d1 d2 with
                | Eq => if Bool.eqb n1 n2 then a else CZ
                | Lt => a
                | Gt => b
                end
        end
    end.

  Fixpoint best (t : term) (os : list (list var)) (acc : option cres) : option cres :=
    match os with
    | [] => acc
    | o :: r =>
        let c := try_order t o in
        best t r (match acc, c with
                  | Some a, Some b => Some (combine_c a b)
                  | None, x => x
                  | x, None => x
                  end)
    end.

  (** *** Heuristic candidate orders (no proof needed) *)
  Definition colr := list (var * N).
  Fixpoint clook (v : var) (c : colr) : N :=
    match c with [] => v | (w, x) :: r => if N.eqb v w then x else clook v r end.
  Fixpoint blocksof (bl : list nat) (l : list N) : list (list N) :=
    match bl with
    | [] => match l with [] => [] | _ => map (fun x => [x]) l end
    | b :: bl' => sortc N.compare (firstn b l) :: blocksof bl' (skipn b l)
    end.
  Definition facsig (c : colr) (f : fac) : list N :=
    let s := sym (fst f) in
    let bs := blocksof (blk s) (map (fun v => clook v c) (snd f)) in
    let bs' := if herm s then sortc cmpl bs else bs in
    (fst f) :: concat bs'.
  (** one entry per (variable occurrence): block number, block colours, factor signature *)
  Fixpoint occs_b (v : var) (i : N) (hm : bool) (fsig : list N) (bl : list nat) (vs cs : list N)
    : list (list N) :=
    match bl with
    | [] => []
    | b :: bl' =>
        let rest := occs_b v (i + 1)%N hm fsig bl' (skipn b vs) (skipn b cs) in
        if memv v (firstn b vs)
        then ((if hm then 0%N else i) :: sortc N.compare (firstn b cs) ++ fsig)%list :: rest
        else rest
    end.
  Definition blks (f : fac) : list nat :=
    match blk (sym (fst f)) with [] => repeat 1%nat (length (snd f)) | b => b end.
  Definition varsig (c : colr) (fs : list (fac * list N)) (v : var) : list (list N) :=
    let occ := flat_map (fun fh : fac * list N =>
      let f := fst fh in
      let s := sym (fst f) in
      occs_b v 1%N (herm s) (snd fh) (blks f) (snd f) (map (fun w => clook w c) (snd f))) fs in
    [clook v c] :: sortc cmpl occ.
  Definition refine (ds : list var) (fs : list fac) (c : colr) : colr :=
    let fh := map (fun f => (f, facsig c f)) fs in
    let sg := map (fun v => (v, varsig c fh v)) ds in
    map (fun vs : var * list (list N) =>
      (fst vs, mkv (spc (fst vs)) (16 + N.of_nat (length (filter (fun ws : var * list (list N) =>
         match cmpll (snd ws) (snd vs) with Lt => true | _ => false end) sg)))%N)) sg.
  Fixpoint refines (n : nat) (ds : list var) (fs : list fac) (c : colr) : colr :=
    match n with
    | O => c
    | S n' => let c' := refine ds fs c in
              if nodupv (map snd c') then c'
              else match cmpl (map snd c) (map snd c') with
                   | Eq => c'
                   | _ => refines n' ds fs c'
                   end
    end.
  (** classes of equal colour in a colour-sorted list *)
  Fixpoint classes (l : colr) : list (list var) :=
    match l with
    | [] => []
    | (v, c) :: r =>
        match r with
        | (_, c') :: _ =>
            if N.eqb c c' then
              match classes r with
              | k :: ks => (v :: k) :: ks
              | [] => [[v]]
              end
            else [v] :: classes r
        | [] => [[v]]
        end
    end.
  (** interchangeable variables: in every factor they stand in the same blocks *)
  Fixpoint sameb (bl : list nat) (vs : list var) (v w : var) : bool :=
    match bl with
    | [] => true
    | b :: r => (Bool.eqb (memv v (firstn b vs)) (memv w (firstn b vs)) && sameb r (skipn b vs) v w)%bool
    end.
  Definition twin (fs : list fac) (v w : var) : bool := forallb (fun f => sameb (blks f) (snd f) v w) fs.
  Fixpoint reps (fs : list fac) (k : list var) : list var :=
    match k with
    | [] => []
    | v :: r => if existsb (twin fs v) r then reps fs r else v :: reps fs r
    end.
  Fixpoint firstnt (fs : list fac) (ks : list (list var)) : option (list var) :=
    match ks with
    | [] => None
    | k :: r => match reps fs k with
                | _ :: _ :: _ => Some (reps fs k)
                | _ => firstnt fs r
                end
    end.
  Definition bycol (c : colr) : colr := sortc (fun a b => N.compare (snd a) (snd b)) c.
  Definition swap2 (v w : var) (o : list var) : list var :=
    map (fun x => if N.eqb x v then w else if N.eqb x w then v else x) o.
  Definition leaf (c : colr) : list (list var) :=
    let l := bycol c in
    let o := map fst l in
    o :: flat_map (fun k => match k with v :: w :: _ => [swap2 v w o] | _ => [] end) (classes l).
  (** individualisation and refinement *)
  Fixpoint search (fuel : nat) (ds : list var) (fs : list fac) (c : colr) : list (list var) :=
    let c := refines 6 ds fs c in
    match fuel with
    | O => leaf c
    | S fuel' =>
        match firstnt fs (classes (bycol c)) with
        | None => leaf c
        | Some k => flat_map (fun v => search fuel' ds fs
            (map (fun wc : var * N => let (w, x) := wc in
               (w, if (N.eqb x (clook v c) && negb (N.eqb w v))%bool then (x + 1)%N else x)) c)) k
        end
    end.
  Definition orders (t : term) : list (list var) :=
    match td t with
    | [] | [_] => [td t]
    | _ => search (length (td t)) (td t) (tf t) (map (fun v => (v, mkv (spc v) 16%N)) (td t))
    end.

  (** ** Collecting like terms *)
  Definition cmpt (a b : term) : comparison :=
    match cmpfs (tf a) (tf b) with Eq => cmpl (td a) (td b) | c => c end.
  Fixpoint mergeT (l1 : list term) : list term -> list term :=
    match l1 with
    | [] => fun l2 => l2
    | a :: r1 =>
        fix go (l2 : list term) : list term :=
          match l2 with
          | [] => l1
          | b :: r2 =>
              match cmpt a b with
              | Lt => a :: mergeT r1 l2
              | Gt => b :: go r2
              | Eq => let c := Qred (tc a + tc b) in
                      if Z.eqb (Qnum c) 0 then mergeT r1 r2
                      else T c (td a) (tf a) :: mergeT r1 r2
              end
          end
    end.
  Fixpoint mpairs (ll : list (list term)) : list (list term) :=
    match ll with
    | a :: b :: r => mergeT a b :: mpairs r
    | _ => ll
    end.
  Fixpoint mall (fuel : nat) (ll : list (list term)) : list term :=
    match ll with
    | [] => []
    | [a] => a
    | _ => match fuel with
           | O => concat ll
           | S f => mall f (mpairs ll)
           end
    end.
  Definition nz (t : term) : bool := negb (Z.eqb (Qnum (tc t)) 0).
  Definition collect (p : poly) : poly := mall 40 (map (fun t => [t]) (filter nz p)).

  (** ** Splitting of ranges and selection rules *)
  Variable splitm : space -> option (list space).
  Variable kill : N -> list space -> bool.

  Definition killed (fs : list fac) : bool :=
    existsb (fun f : fac => kill (fst f) (map spc (snd f))) fs.
  Definition subst1 (d d' : var) (v : var) : var := if N.eqb v d then d' else v.
  Fixpoint expD (ds : list var) (fs : list fac) : list (list var * list fac) :=
    match ds with
    | [] => [([], fs)]
    | d :: r =>
        match splitm (spc d) with
        | None => map (fun x => (d :: fst x, snd x)) (expD r fs)
        | Some l =>
            if forallb (fun s => let d' := mkv s (idv d) in
                 (N.eqb (spc d') s && negb (memv d' (fvars fs)) && ren_ok (subst1 d d') r fs
                  && negb (memv d r))%bool) l
            then flat_map (fun s =>
                   let d' := mkv s (idv d) in
                   let fs' := map (ren_fac (subst1 d d')) fs in
                   if killed fs' then []
                   else map (fun x => (d' :: fst x, snd x)) (expD r fs')) l
            else [(d :: r, fs)]
        end
    end.
  Definition expand (t : term) : list term :=
    if killed (tf t) then []
    else map (fun x => T (tc t) (fst x) (snd x)) (expD (td t) (tf t)).

  (** [xs]: the external variables; every other variable must be summed over. *)
  Definition closed_term (xs : list var) (t : term) : bool :=
    forallb (fun v => (memv v (td t) || memv v xs)%bool) (fvars (tf t)).

  (** Normalisation guided by hints: for each expanded term the orders of its summed variables to try (as
      positions in the list of summed variables).  The hints come from the search above ([hints]) but the
      soundness of [norm] does not depend on them; they only make the check cheap to re-run. *)
  Definition order_of (t : term) (ps : list nat) : list var :=
    flat_map (fun k => match nth_error (td t) k with Some v => [v] | None => [] end) ps.
  Definition canonh (h : list (list nat)) (t : term) : list term :=
    match best t (map (order_of t) h) None with
    | Some CZ => []
    | Some (CT neg ds fs) => [T (if neg then Qopp (tc t) else tc t) ds fs]
    | None => [t]
    end.
  Fixpoint canons (hs : list (list (list nat))) (ts : list term) : list term :=
    match ts with
    | [] => []
    | t :: r => match hs with
                | [] => (t :: canons [] r)
                | h :: hr => (canonh h t ++ canons hr r)%list
                end
    end.
  Definition hints : Set := list (list (list nat)).
  Definition norm (hs : hints) (p : poly) : poly := collect (canons hs (flat_map expand p)).
  Fixpoint find_orders (t : term) (os : list (list var)) (acc : option (list (list var) * cres)) : list (list var) :=
    match os with
    | [] => match acc with Some (l, _) => l | None => [] end
    | o :: r =>
        find_orders t r
          (match try_order t o with
           | None => acc
           | Some b =>
               match acc with
               | None => Some ([o], b)
               | Some (l, a) =>
                   match a, b with
                   | CZ, _ => acc
                   | _, CZ => Some ([o], CZ)
                   | CT n1 d1 f1, CT n2 d2 f2 =>
                       match cmpfs f1 f2 with
                       | Lt => acc
                       | Gt => Some ([o], b)
                       | Eq => if Bool.eqb n1 n2 then acc else Some ((l ++ [o])%list, CZ)
                       end
                   end
               end
           end)
    end.
  Definition vindex (v : var) : list var -> nat -> nat :=
    fix go l k := match l with [] => k | w :: r => if N.eqb v w then k else go r (S k) end.
  Definition find_hint (t : term) : list (list nat) :=
    map (map (fun v => vindex v (td t) O)) (find_orders t (orders t) None).
  Definition find_hints (p : poly) : hints := map find_hint (flat_map expand p).

  (** ** Soundness *)
  Section Sound.
    Variable range : space -> list nat.
    Variable A : N -> list nat -> Qc.

    Definition sg (b : bool) : Qc := if b then - (1) else 1.
    Lemma sg_xorb a b : sg (xorb a b) = sg a * sg b.
    Proof. destruct a, b; cbn; ring. Qed.
    Lemma sg_negb a : sg (negb a) = - sg a.
    Proof. destruct a; cbn; ring. Qed.
    Lemma sg_sq a : sg a * sg a = 1.
    Proof. destruct a; cbn; ring. Qed.

    Definition swap_ok (n : N) (i : nat) : Prop := forall pre x y post, length pre = i ->
      A n (pre ++ x :: y :: post)%list = sg (anti (sym n)) * A n (pre ++ y :: x :: post)%list.
    Fixpoint blocks_ok (n : N) (s : nat) (bl : list nat) : Prop :=
      match bl with
      | [] => True
      | b :: r => (forall i, (s <= i)%nat -> (S i < s + b)%nat -> swap_ok n i) /\ blocks_ok n (s + b) r
      end.
    Definition herm_ok (n : N) : Prop := herm (sym n) = true ->
      match blk (sym n) with
      | b :: b' :: [] => b = b' /\
          forall l1 l2, length l1 = b -> length l2 = b -> A n (l1 ++ l2)%list = A n (l2 ++ l1)%list
      | _ => False
      end.
    Definition len_ok (n : N) : Prop :=
      forall l, length l <> fold_right Nat.add O (blk (sym n)) -> A n l = 0.
    Hypothesis Hblk : forall n, blocks_ok n 0 (blk (sym n)).
    Hypothesis Hherm : forall n, herm_ok n.
    Hypothesis Hlen : forall n, herm (sym n) = true -> len_ok n.

    Definition sga (n : N) (p : bool) : Qc := sg (p && anti (sym n))%bool.
    Lemma sga_xorb n a b : sga n (xorb a b) = sga n a * sga n b.
    Proof. unfold sga. destruct a, b, (anti (sym n)); cbn; ring. Qed.
    Lemma sga_negb n a : sga n (negb a) = sg (anti (sym n)) * sga n a.
    Proof. unfold sga. destruct a, (anti (sym n)); cbn; ring. Qed.
    Lemma sga_false n : sga n false = 1.
    Proof. reflexivity. Qed.

    Lemma inss_sound n e x l : forall pre post,
      (forall i, (length pre <= i)%nat -> (S i < length pre + S (length l))%nat -> swap_ok n i) ->
      let (p, l') := inss x l in
      length l' = S (length l) /\
      A n (pre ++ map e (x :: l) ++ post)%list = sga n p * A n (pre ++ map e l' ++ post)%list.
    Proof.
      induction l as [|y r IH]; intros pre post H; cbn [inss].
      - rewrite sga_false. split; [reflexivity|ring].
      - destruct (N.leb x y).
        + rewrite sga_false. split; [reflexivity|ring].
        + specialize (IH (pre ++ [e y])%list post).
          destruct (inss x r) as [p r'].
          destruct IH as [HL HA].
          { intros i H1 H2. rewrite app_length in H1, H2. cbn [length] in *. apply H; lia. }
          split; [cbn [length]; rewrite HL; reflexivity|].
          cbn [map app] in *. rewrite (H (length pre) ltac:(lia) ltac:(cbn [length]; lia) pre) by reflexivity.
          rewrite <- !app_assoc in HA. cbn [app] in HA. rewrite HA, sga_negb. ring.
    Qed.
    Lemma isort_sound n e l : forall pre post,
      (forall i, (length pre <= i)%nat -> (S i < length pre + length l)%nat -> swap_ok n i) ->
      let (p, l') := isort l in
      length l' = length l /\
      A n (pre ++ map e l ++ post)%list = sga n p * A n (pre ++ map e l' ++ post)%list.
    Proof.
      induction l as [|x r IH]; intros pre post H; cbn [isort].
      - rewrite sga_false. split; [reflexivity|ring].
      - specialize (IH (pre ++ [e x])%list post). destruct (isort r) as [p r'].
        destruct IH as [HL HA].
        { intros i H1 H2. rewrite app_length in H1, H2. cbn [length] in *. apply H; lia. }
        pose proof (inss_sound n e x r' pre post) as HI. destruct (inss x r') as [q l'].
        destruct HI as [HL2 HA2].
        { intros i H1 H2. rewrite HL in H2. apply H; cbn [length]; lia. }
        split; [cbn [length]; rewrite HL2, HL; reflexivity|].
        rewrite <- !app_assoc in HA. cbn [app] in HA. cbn [map app]. rewrite HA.
        cbn [map app] in HA2. rewrite HA2, sga_xorb. ring.
    Qed.
    Lemma adjdup_sound n e l : forall pre post, anti (sym n) = true ->
      (forall i, (length pre <= i)%nat -> (S i < length pre + length l)%nat -> swap_ok n i) ->
      adjdup l = true -> A n (pre ++ map e l ++ post)%list = 0.
    Proof.
      induction l as [|x r IH]; intros pre post Ha H; cbn [adjdup]; [discriminate|].
      destruct r as [|y r]; [discriminate|].
      destruct (N.eqb_spec x y) as [E|E]; cbn [orb].
      - intros _. subst y. apply Qc_self_opp. cbn [map app].
        rewrite (H (length pre) ltac:(lia) ltac:(cbn [length]; lia) pre) at 1 by reflexivity.
        rewrite Ha. cbn [sg]. ring.
      - intros HD. specialize (IH (pre ++ [e x])%list post Ha).
        rewrite <- !app_assoc in IH. cbn [map app] in *. apply IH; [|exact HD].
        intros i H1 H2. rewrite app_length in H1, H2. cbn [length] in *. apply H; lia.
    Qed.
    Lemma sortblocks_sound n e bl : forall pre vs,
      blocks_ok n (length pre) bl ->
      let '(p, z, vs') := sortblocks bl vs in
      length vs' = length vs /\
      A n (pre ++ map e vs)%list = sga n p * A n (pre ++ map e vs')%list /\
      (z = true -> anti (sym n) = true -> A n (pre ++ map e vs)%list = 0).
    Proof.
      induction bl as [|b bl IH]; intros pre vs HB; cbn [sortblocks].
      - rewrite sga_false. repeat split; [ring|discriminate].
      - destruct HB as [HB1 HB2].
        destruct (isort (firstn b vs)) as [p x] eqn:Ex.
        specialize (IH (pre ++ map e x)%list (skipn b vs)).
        destruct (sortblocks bl (skipn b vs)) as [[q z] r] eqn:Er.
        assert (HL : (length (firstn b vs) <= b)%nat) by (rewrite firstn_length; lia).
        pose proof (isort_sound n e (firstn b vs) pre (map e (skipn b vs))) as HI.
        rewrite Ex in HI. destruct HI as [HL1 HA1].
        { intros i H1 H2. apply HB1; lia. }
        rewrite <- map_app, firstn_skipn in HA1.
        destruct (Nat.le_gt_cases b (length vs)) as [Hb|Hb].
        + assert (HLb : length (firstn b vs) = b) by (rewrite firstn_length; lia).
          destruct IH as [HL2 [HA2 HZ2]].
          { rewrite app_length, map_length, HL1, HLb. exact HB2. }
          repeat split.
          * rewrite app_length, HL1, HL2, firstn_length, skipn_length. lia.
          * rewrite HA1, map_app. rewrite <- !app_assoc in HA2. rewrite HA2, sga_xorb. ring.
          * intros Hz Ha. apply orb_true_iff in Hz. destruct Hz as [Hz|Hz].
            -- rewrite HA1. rewrite (adjdup_sound n e x pre _ Ha); [ring| |exact Hz].
               intros i H1 H2. apply HB1; lia.
            -- rewrite HA1. rewrite <- !app_assoc in HZ2. rewrite HZ2 by assumption. ring.
        + (* too short: the remaining blocks are empty *)
          assert (Hs : skipn b vs = []) by (apply skipn_all2; lia).
          rewrite Hs in Er.
          assert (G : forall bl, sortblocks bl [] = (false, false, [])).
          { clear. induction bl as [|b bl IH]; [reflexivity|]. cbn [sortblocks].
            rewrite firstn_nil, skipn_nil. cbn [isort]. rewrite IH. reflexivity. }
          rewrite G in Er. injection Er as <- <- <-. rewrite app_nil_r, orb_false_r, xorb_false_r.
          rewrite Hs in HA1. cbn [map] in HA1. rewrite app_nil_r in HA1.
          repeat split.
          * rewrite HL1, firstn_length. lia.
          * exact HA1.
          * intros Hz Ha. rewrite HA1.
            pose proof (adjdup_sound n e x pre [] Ha) as D. rewrite app_nil_r in D. rewrite D; [ring| |exact Hz].
            intros i H1 H2. apply HB1; lia.
    Qed.

    Lemma hermswap_sound n e vs : herm (sym n) = true ->
      A n (map e (hermswap (blk (sym n)) vs)) = A n (map e vs).
    Proof.
      intros Hh. pose proof (Hherm n Hh) as H. pose proof (Hlen n Hh) as HL. unfold len_ok in HL.
      destruct (blk (sym n)) as [|b [|b' [|? ?]]]; try contradiction. destruct H as [<- H].
      cbn [hermswap fold_right] in *. destruct (cmpl _ _); try reflexivity.
      destruct (Nat.eq_dec (length vs) (b + b)) as [E|E].
      - rewrite map_app. rewrite H.
        + rewrite <- map_app, firstn_skipn. reflexivity.
        + rewrite map_length, skipn_length. lia.
        + rewrite map_length, firstn_length. lia.
      - rewrite !HL; [reflexivity| |]; rewrite map_length, ?app_length, ?skipn_length, ?firstn_length; lia.
    Qed.

    Lemma normfac_sound e f : let '(p, z, f') := normfac f in
      evalF A e f = sg p * evalF A e f' /\ (z = true -> evalF A e f = 0).
    Proof.
      destruct f as [n vs]. unfold normfac.
      pose proof (sortblocks_sound n e (blk (sym n)) [] vs (Hblk n)) as H.
      destruct (sortblocks (blk (sym n)) vs) as [[p z] vs'].
      destruct H as [_ [HA HZ]]. cbn [app] in *. unfold evalF; cbn [fst snd]. split.
      - rewrite HA. unfold sga. f_equal. destruct (herm (sym n)) eqn:Eh; [|reflexivity].
        symmetry. apply hermswap_sound, Eh.
      - intros Hz. apply andb_true_iff in Hz. apply HZ; tauto.
    Qed.
    Lemma normfacs_sound e fs : let '(p, z, fs') := normfacs fs in
      evalFs A fs e = sg p * evalFs A fs' e /\ (z = true -> evalFs A fs e = 0).
    Proof.
      induction fs as [|f r IH]; cbn [normfacs].
      - cbn. split; [ring|discriminate].
      - pose proof (normfac_sound e f) as H. destruct (normfac f) as [[p z] f'].
        destruct (normfacs r) as [[q y] r']. destruct H as [H1 H2], IH as [I1 I2].
        cbn [evalFs]. split.
        + rewrite H1, I1, sg_xorb. ring.
        + intros Hz. apply orb_true_iff in Hz. destruct Hz as [Hz|Hz].
          * rewrite (H2 Hz). ring.
          * rewrite (I2 Hz). ring.
    Qed.

    Lemma evalFs_perm e fs fs' : Permutation fs fs' -> evalFs A fs e = evalFs A fs' e.
    Proof.
      induction 1; cbn [evalFs]; try congruence. ring.
    Qed.

    Lemma sumD_perm fs d1 d2 : Permutation d1 d2 -> NoDup d1 ->
      forall e, sumD range d1 (evalFs A fs) e = sumD range d2 (evalFs A fs) e.
    Proof.
      induction 1 as [|d l l' HP IH|d d' l|l l' l'' H1 IH1 H2 IH2]; intros ND e.
      - reflexivity.
      - inversion ND; subst. cbn [sumD]. apply suml_ext; intros x _. apply IH. assumption.
      - cbn [sumD]. rewrite suml_swap. apply suml_ext; intros x _. apply suml_ext; intros y _.
        apply sumD_agree. intros v _ _. unfold upd.
        destruct (N.eqb_spec v d) as [E1|E1], (N.eqb_spec v d') as [E2|E2]; try reflexivity.
        exfalso. inversion ND as [|? ? Hn _]; subst. apply Hn. left. reflexivity.
      - rewrite IH1 by assumption. apply IH2. eapply Permutation_NoDup; eassumption.
    Qed.

    Definition okc (e : env) (t : term) (r : cres) : Prop :=
      match r with
      | CZ => evalT range A e t = 0
      | CT neg ds fs =>
          evalT range A e t = evalT range A e (T (if neg then Qopp (tc t) else tc t) ds fs)
      end.

    Lemma evalT_neg e (neg : bool) c ds fs :
      evalT range A e (T (if neg then Qopp c else c) ds fs) = sg neg * evalT range A e (T c ds fs).
    Proof.
      unfold evalT; cbn [tc td tf]. destruct neg; cbn [sg]; [rewrite Q2Qc_opp|]; ring.
    Qed.

    Lemma try_order_sound t o r e : try_order t o = Some r ->
      (forall v, In v (fvars (tf t)) -> ~ In v (td t) -> In v o -> False) -> okc e t r.
    Proof.
      unfold try_order. destruct (ren_term _ t) as [t1|] eqn:Er; [|discriminate].
      intros H Hv.
      assert (E1 : evalT range A e t1 = evalT range A e t).
      { eapply ren_term_sound; [exact Er|]. intros v H1 H2. unfold vext.
        rewrite vlook_notin; [reflexivity|]. intros I. eapply Hv; eassumption. }
      assert (HR : tc t1 = tc t /\ NoDup (td t1)).
      { unfold ren_term in Er. destruct (ren_ok _ _ _) eqn:Eo; [|discriminate].
        apply some_inj in Er; subst t1; cbn. split; [reflexivity|]. apply nodupv_NoDup.
        unfold ren_ok in Eo. rewrite !andb_true_iff in Eo. tauto. }
      destruct HR as [Hc HN].
      pose proof (fun e => normfacs_sound e (tf t1)) as HF.
      destruct (normfacs (tf t1)) as [[p z] fs].
      destruct z.
      - apply some_inj in H; subst r. cbn [okc]. rewrite <- E1. unfold evalT.
        rewrite (sumD_ext range _ _ (fun _ => 0)).
        + rewrite sumD_zero. ring.
        + intros e'. apply HF. reflexivity.
      - apply some_inj in H; subst r. cbn [okc]. rewrite <- E1, evalT_neg. unfold evalT; cbn [tc td tf].
        rewrite Hc. rewrite (sumD_ext range (td t1) _ (fun e' => sg p * evalFs A fs e')).
        2:{ intros e'. apply HF. }
        rewrite sumD_const.
        rewrite <- (sumD_perm _ _ _ (Permutation_sym (sortc_perm N.compare (td t1))) HN).
        rewrite (sumD_ext range _ (evalFs A (sortc cmpf fs)) (evalFs A fs)).
        + ring.
        + intros e'. apply evalFs_perm, sortc_perm.
    Qed.

    Lemma combine_c_sound e t a b : okc e t a -> okc e t b -> okc e t (combine_c a b).
    Proof.
      destruct a as [|n1 d1 f1], b as [|n2 d2 f2]; cbn [combine_c]; intros H1 H2; try assumption.
      destruct (cmpfs f1 f2) eqn:E1; try assumption. apply cmpfs_eq in E1; subst.
      destruct (cmpl d1 d2) eqn:E2; try assumption. apply cmpl_eq in E2; subst.
      destruct (Bool.eqb n1 n2) eqn:En; [assumption|]. cbn [okc] in *.
      rewrite evalT_neg in H1, H2. apply Qc_self_opp.
      destruct n1, n2; try discriminate En; cbn [sg] in *; rewrite H1 at 1; rewrite H2; ring.
    Qed.

    (** candidate orders only mention summed variables *)
    Definition order_ok (t : term) (o : list var) : Prop := forall v, In v o -> In v (td t).

    Lemma best_sound e t os : forall acc r,
      (forall o, In o os -> order_ok t o) ->
      (forall a, acc = Some a -> okc e t a) ->
      best t os acc = Some r -> okc e t r.
    Proof.
      induction os as [|o os IH]; cbn [best]; intros acc r Ho Ha.
      - apply Ha.
      - apply IH.
        + intros o' H'; apply Ho; right; exact H'.
        + intros a Ea.
          assert (Hc : forall b, try_order t o = Some b -> okc e t b).
          { intros b Hb. eapply try_order_sound; [exact Hb|]. intros v _ Hn Hi. apply Hn.
            apply (Ho o (or_introl eq_refl)), Hi. }
          destruct acc as [a0|].
          * destruct (try_order t o) as [b|].
            -- apply some_inj in Ea; subst. apply combine_c_sound; [apply Ha|apply Hc]; reflexivity.
            -- apply Ha, Ea.
          * apply Hc, Ea.
    Qed.

    Lemma order_of_ok t ps : order_ok t (order_of t ps).
    Proof.
      unfold order_ok, order_of. intros v Hv. apply in_flat_map in Hv. destruct Hv as [k [_ Hv]].
      destruct (nth_error (td t) k) as [w|] eqn:E; [|contradiction]. destruct Hv as [<-|[]].
      eapply nth_error_In; exact E.
    Qed.
    Lemma canonh_sound h e t : evalP range A e (canonh h t) = evalT range A e t.
    Proof.
      unfold canonh. destruct (best t (map (order_of t) h) None) as [r|] eqn:Eb.
      - apply best_sound with (e := e) in Eb; [| |discriminate].
        2:{ intros o Ho. apply in_map_iff in Ho. destruct Ho as [ps [<- _]]. apply order_of_ok. }
        destruct r as [|neg ds fs]; cbn [okc] in Eb; rewrite Eb; unfold evalP; cbn [suml]; ring.
      - unfold evalP; cbn [suml]; ring.
    Qed.

    Lemma mergeT_sound e l1 : forall l2,
      evalP range A e (mergeT l1 l2) = evalP range A e l1 + evalP range A e l2.
    Proof.
      induction l1 as [|a r1 IH1]; intros l2; [cbn [mergeT]; rewrite evalP_nil; ring|].
      induction l2 as [|b r2 IH2]; [cbn [mergeT]; rewrite evalP_nil; ring|].
      cbn [mergeT]. destruct (cmpt a b) eqn:E.
      - unfold cmpt in E. destruct (cmpfs (tf a) (tf b)) eqn:E1; try discriminate.
        apply cmpfs_eq in E1. apply cmpl_eq in E.
        assert (HE : evalT range A e a + evalT range A e b
                     = evalT range A e (T (Qred (tc a + tc b)) (td a) (tf a))).
        { unfold evalT; cbn [tc td tf]. rewrite Q2Qc_red, Q2Qc_plus, E, E1. ring. }
        destruct (Z.eqb_spec (Qnum (Qred (tc a + tc b))) 0) as [Ez|Ez].
        + rewrite IH1, !evalP_cons.
          assert (H0 : evalT range A e (T (Qred (tc a + tc b)) (td a) (tf a)) = 0).
          { unfold evalT; cbn [tc td tf]. rewrite (Q2Qc_num0 _ Ez). ring. }
          rewrite H0 in HE.
          replace (evalT range A e a + evalP range A e r1 + (evalT range A e b + evalP range A e r2))
            with ((evalT range A e a + evalT range A e b) + (evalP range A e r1 + evalP range A e r2)) by ring.
          rewrite HE. ring.
        + rewrite evalP_cons, IH1, !evalP_cons, <- HE. ring.
      - rewrite evalP_cons, IH1, !evalP_cons. ring.
      - rewrite evalP_cons.
        match goal with |- _ + evalP _ _ _ ?g = _ => change g with (mergeT (a :: r1) r2) end.
        rewrite IH2, !evalP_cons. ring.
    Qed.
    Lemma mpairs_sound e n : forall ll, (length ll <= n)%nat ->
      suml (mpairs ll) (evalP range A e) = suml ll (evalP range A e).
    Proof.
      induction n as [|n IH]; intros [|a [|b r]] H; cbn [length] in H; try lia; try reflexivity.
      cbn [mpairs suml]. rewrite IH by lia. rewrite mergeT_sound. ring.
    Qed.
    Lemma mall_sound e fuel : forall ll, evalP range A e (mall fuel ll) = suml ll (evalP range A e).
    Proof.
      assert (HC : forall ll, evalP range A e (concat ll) = suml ll (evalP range A e)).
      { induction ll as [|a r IH]; cbn [concat suml]; [reflexivity|]. rewrite evalP_app, IH. reflexivity. }
      induction fuel as [|f IH]; intros [|a [|b r]].
      - reflexivity.
      - cbn [mall suml]. ring.
      - cbn [mall]. apply HC.
      - reflexivity.
      - cbn [mall suml]. ring.
      - cbn [mall]. rewrite IH. eapply mpairs_sound. reflexivity.
    Qed.
    Lemma collect_sound e p : evalP range A e (collect p) = evalP range A e p.
    Proof.
      unfold collect. rewrite mall_sound, suml_map.
      induction p as [|t p IH]; cbn [filter]; [reflexivity|].
      rewrite evalP_cons, <- IH. unfold nz. destruct (Z.eqb_spec (Qnum (tc t)) 0) as [E|E]; cbn [negb suml].
      - unfold evalT. rewrite (Q2Qc_num0 _ E). ring.
      - rewrite evalP_cons, evalP_nil. ring.
    Qed.

    (** *** Splitting *)
    Hypothesis Hsplit : forall s l, splitm s = Some l -> Permutation (range s) (flat_map range l).
    Hypothesis Hkill : forall n ss xs, kill n ss = true ->
      Forall2 (fun x s => In x (range s)) xs ss -> A n xs = 0.

    Lemma sumD_zero_in fs ds : forall e,
      (forall e', (forall v, In v (fvars fs) -> In (e' v) (range (spc v))) -> evalFs A fs e' = 0) ->
      (forall v, In v (fvars fs) -> ~ In v ds -> In (e v) (range (spc v))) ->
      sumD range ds (evalFs A fs) e = 0.
    Proof.
      induction ds as [|d r IH]; cbn [sumD]; intros e H Hw.
      - apply H. intros v Hv. apply Hw; [exact Hv|intros []].
      - apply suml_zero. intros x Hx. apply IH; [exact H|].
        intros v Hv Hn. unfold upd. destruct (N.eqb_spec v d) as [E|E]; [subst; exact Hx|].
        apply Hw; [exact Hv|]. intros [I|I]; [congruence|contradiction].
    Qed.
    Lemma killed_zero fs e : killed fs = true ->
      (forall v, In v (fvars fs) -> In (e v) (range (spc v))) -> evalFs A fs e = 0.
    Proof.
      induction fs as [|[n vs] r IH]; cbn [killed existsb]; [discriminate|].
      rewrite orb_true_iff. intros H Hw. cbn [evalFs]. destruct H as [H|H].
      - assert (E : evalF A e (n, vs) = 0).
        { unfold evalF. eapply Hkill; [exact H|]. cbn [fst snd].
          assert (G : forall v, In v vs -> In (e v) (range (spc v))).
          { intros v Hv. apply Hw. unfold fvars; cbn. apply in_or_app; left; exact Hv. }
          clear -G. induction vs as [|v vs IH]; cbn; constructor; [apply G; left; reflexivity|].
          apply IH. intros w Hw; apply G; right; exact Hw. }
        rewrite E. ring.
      - rewrite IH; [ring|exact H|]. intros v Hv. apply Hw. unfold fvars; cbn.
        apply in_or_app; right; exact Hv.
    Qed.

    Lemma fvars_ren rho fs : fvars (map (ren_fac rho) fs) = map rho (fvars fs).
    Proof.
      unfold fvars. induction fs as [|[n vs] r IH]; cbn; [reflexivity|]. rewrite map_app, IH. reflexivity.
    Qed.

    Lemma expD_sound ds : forall fs e,
      (forall v, In v (fvars fs) -> ~ In v ds -> In (e v) (range (spc v))) ->
      suml (expD ds fs) (fun x => sumD range (fst x) (evalFs A (snd x)) e)
      = sumD range ds (evalFs A fs) e.
    Proof.
      induction ds as [|d r IH]; intros fs e Hw; cbn [expD].
      - cbn [suml fst snd sumD]. ring.
      - destruct (splitm (spc d)) as [l|] eqn:Es.
        + match goal with |- context [forallb ?f l] => destruct (forallb f l) eqn:Ef end;
            [|cbn [suml fst snd]; ring].
          rewrite forallb_forall in Ef. rewrite suml_flat_map. cbn [sumD].
          rewrite (suml_perm _ _ _ _ (Hsplit _ _ Es)), suml_flat_map.
          apply suml_ext. intros s Hs. specialize (Ef s Hs). cbn beta zeta in *.
          set (d' := mkv s (idv d)) in *. rewrite !andb_true_iff, !negb_true_iff in Ef.
          destruct Ef as [[[F1 F2] F3] F4]. apply N.eqb_eq in F1.
          apply memv_false in F2, F4.
          set (fs' := map (ren_fac (subst1 d d')) fs) in *.
          assert (Hmid : forall x, In x (range s) ->
             sumD range r (evalFs A fs) (upd e d x) = sumD range r (evalFs A fs') (upd e d' x)).
          { intros x Hx. unfold fs'. symmetry.
            assert (Er : map (subst1 d d') r = r).
            { rewrite <- (map_id r) at 2. apply map_ext_in. intros w Hw'. unfold subst1.
              destruct (N.eqb_spec w d) as [Ew|Ew]; [rewrite Ew in Hw'; contradiction|reflexivity]. }
            rewrite <- Er at 1. apply sumD_ren; [exact F3|].
            intros v Hv Hn. unfold subst1. destruct (N.eqb_spec v d) as [E|E].
            - rewrite E, !upd_same. reflexivity.
            - rewrite !upd_other; [reflexivity|exact E|].
              intros Ev. apply F2. rewrite <- Ev. exact Hv. }
          assert (Hw' : forall x, In x (range s) -> forall v, In v (fvars fs') -> ~ In v r ->
             In (upd e d' x v) (range (spc v))).
          { intros x Hx v Hv Hn. unfold upd. destruct (N.eqb_spec v d') as [E|E].
            - subst v. rewrite F1. exact Hx.
            - unfold fs' in Hv. rewrite fvars_ren in Hv. apply in_map_iff in Hv.
              destruct Hv as [w [Ew Hv]]. unfold subst1 in Ew.
              destruct (N.eqb_spec w d) as [E'|E']; [congruence|]. subst w.
              apply Hw; [exact Hv|]. intros [I|I]; [congruence|contradiction]. }
          destruct (killed fs') eqn:Ek.
          * cbn [suml]. symmetry. apply suml_zero. intros x Hx. rewrite Hmid by exact Hx.
            apply sumD_zero_in; [|apply Hw'; exact Hx].
            intros e' He'. apply killed_zero; assumption.
          * rewrite suml_map. cbn [fst snd sumD]. rewrite F1.
            rewrite suml_swap. apply suml_ext. intros x Hx. rewrite Hmid by exact Hx.
            apply (IH fs' (upd e d' x)). apply Hw'; exact Hx.
        + rewrite suml_map. cbn [fst snd sumD]. rewrite suml_swap. apply suml_ext. intros x Hx.
          apply (IH fs (upd e d x)). intros v Hv Hn. unfold upd.
          destruct (N.eqb_spec v d) as [E|E]; [subst; exact Hx|].
          apply Hw; [exact Hv|]. intros [I|I]; [congruence|contradiction].
    Qed.

    Definition wt (e : env) (t : term) : Prop :=
      forall v, In v (fvars (tf t)) -> ~ In v (td t) -> In (e v) (range (spc v)).

    Lemma expand_sound e t : wt e t -> evalP range A e (expand t) = evalT range A e t.
    Proof.
      unfold expand, wt. intros Hw. destruct (killed (tf t)) eqn:Ek.
      - rewrite evalP_nil. unfold evalT. rewrite sumD_zero_in; [ring| |exact Hw].
        intros e' He'. apply killed_zero; assumption.
      - unfold evalP. rewrite suml_map. unfold evalT at 2. rewrite <- (expD_sound _ _ _ Hw), <- suml_scale.
        apply suml_ext. intros [ds fs] _. reflexivity.
    Qed.

    Lemma canons_sound e q : forall hs, evalP range A e (canons hs q) = evalP range A e q.
    Proof.
      induction q as [|t q IH]; intros [|h hs]; cbn [canons]; try reflexivity.
      - rewrite !evalP_cons, IH. reflexivity.
      - rewrite evalP_app, canonh_sound, IH, evalP_cons. reflexivity.
    Qed.
    Lemma norm_sound hs e p : (forall t, In t p -> wt e t) -> evalP range A e (norm hs p) = evalP range A e p.
    Proof.
      intros Hw. unfold norm. rewrite collect_sound.
      rewrite canons_sound. unfold evalP at 1. rewrite suml_flat_map. apply suml_ext. intros t Ht.
      apply expand_sound, Hw, Ht.
    Qed.

    Lemma closed_wt xs e p : forallb (closed_term xs) p = true ->
      (forall v, In v xs -> In (e v) (range (spc v))) -> forall t, In t p -> wt e t.
    Proof.
      rewrite forallb_forall. intros H Hx t Ht v Hv Hn. specialize (H t Ht).
      unfold closed_term in H. rewrite forallb_forall in H. specialize (H v Hv).
      apply orb_true_iff in H. destruct H as [H|H]; apply memv_In in H; [contradiction|].
      apply Hx, H.
    Qed.

    Definition peq (hs : hints) (xs : list var) (p q : poly) : bool :=
      (forallb (closed_term xs) p && forallb (closed_term xs) q &&
       match norm hs (psub p q) with [] => true | _ => false end)%bool.
    Theorem peq_sound hs xs p q e : peq hs xs p q = true ->
      (forall v, In v xs -> In (e v) (range (spc v))) ->
      evalP range A e p = evalP range A e q.
    Proof.
      unfold peq. rewrite !andb_true_iff. intros [[H1 H2] H3] Hx.
      assert (E : evalP range A e (norm hs (psub p q)) = 0).
      { destruct (norm hs (psub p q)); [reflexivity|discriminate]. }
      rewrite norm_sound in E.
      - rewrite psub_sound in E.
        replace (evalP range A e p) with (evalP range A e p - evalP range A e q + evalP range A e q) by ring.
        rewrite E. ring.
      - apply (closed_wt xs); [|exact Hx]. unfold psub. rewrite forallb_app, H1, andb_true_r.
        unfold pscale. rewrite forallb_forall in *. intros t Ht. apply in_map_iff in Ht.
        destruct Ht as [u [<- Hu]]. exact (H2 u Hu).
    Qed.
  End Sound.
End Norm.
