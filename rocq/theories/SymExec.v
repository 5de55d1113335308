(** Symbolic execution of the modelled Python fragment ([Interp]) into tensor polynomials ([Poly]),
    with its soundness theorem [srun_sound]: whenever the symbolic run succeeds, the concrete run
    succeeds on every array environment it describes and its result is the polynomial's value.
    Proof machinery; it models no particular source line. *)
From Coq Require Import String Ascii List Arith NArith ZArith QArith Qcanon Bool Lia Permutation.
From Verif Require Import Sums Tensor Interp Poly.
Import ListNotations.
Open Scope Qc_scope.

Inductive sval :=
| SP (sps : list space) (p : poly)        (* array with one axis per space, entries given by p *)
| SFull (n : N) (axes : list N)           (* unsliced array: atom n, axis classes *)
| SSl (k : N)                             (* slice object number k *)
| SDim (s : space)                        (* integer: number of orbitals in s *)
| SNone
| SDict (d : list (string * sval)).

Fixpoint xvs_from (i : N) (sps : list space) : list var :=
  match sps with [] => [] | s :: r => mkv s i :: xvs_from (i + 1)%N r end.
Definition xvs (sps : list space) : list var := xvs_from 0%N sps.

Fixpoint vlook (v : var) (m : list (var * var)) : option var :=
  match m with [] => None | (w, x) :: r => if N.eqb v w then Some x else vlook v r end.
Definition vext (m : list (var * var)) (v : var) : var :=
  match vlook v m with Some w => w | None => v end.

Fixpoint number (i : N) (ds : list var) : list var :=
  match ds with [] => [] | d :: r => mkv (spc d) i :: number (i + 1)%N r end.

Definition relabel_rho (m : list (var * var)) (base : N) (t : term) : var -> var :=
  let dm := combine (td t) (number base (td t)) in
  fun v => match vlook v m with
           | Some w => w
           | None => match vlook v dm with Some w => w | None => v end
           end.
Definition relabel (m : list (var * var)) (base : N) (p : poly) : option poly :=
  omapl (fun t => ren_term (relabel_rho m base t) t) p.

Definition maxd (p : poly) : N :=
  fold_left (fun a t => N.max a (N.of_nat (length (td t)))) p 0%N.
Definition nextid (p : poly) : N :=
  fold_left (fun a t => fold_left (fun a v => N.max a (N.land v 63 + 1)) (td t) a) p 16%N.

Fixpoint eqb_sps (a b : list space) : bool :=
  match a, b with
  | [], [] => true
  | x :: a', y :: b' => (N.eqb x y && eqb_sps a' b')%bool
  | _, _ => false
  end.
Lemma eqb_sps_eq a : forall b, eqb_sps a b = true -> a = b.
Proof.
  induction a as [|x a IH]; intros [|y b]; cbn; try discriminate; [reflexivity|].
  rewrite andb_true_iff. intros [H1 H2]. apply N.eqb_eq in H1. apply IH in H2. congruence.
Qed.

(** ** Symbolic einsum *)
Fixpoint numc (i : N) (cs : list (letter * space)) : list (letter * (space * var)) :=
  match cs with [] => [] | (c, s) :: r => (c, (s, mkv s i)) :: numc (i + 1)%N r end.

Definition relabel_op (lv : list (letter * var)) (ls : list letter) (sps : list space)
    (base : N) (p : poly) : option poly :=
  match omap (fun c => alook c lv) ls with
  | Some ws => if nodupv (xvs sps) then relabel (combine (xvs sps) ws) base p else None
  | None => None
  end.

Fixpoint prodsym (lv : list (letter * var)) (ins : list (list letter))
    (ops : list (list space * poly)) (base : N) (acc : poly) : option poly :=
  match ins, ops with
  | [], [] => Some acc
  | ls :: ins', (sps, p) :: ops' =>
      match relabel_op lv ls sps base p with
      | Some p' =>
          match pmul acc p' with
          | Some acc' => prodsym lv ins' ops' (base + maxd p)%N acc'
          | None => None
          end
      | None => None
      end
  | _, _ => None
  end.

Definition optN_eqb (a : option N) (b : N) : bool :=
  match a with Some x => N.eqb x b | None => false end.

Definition seins (ins : list (list letter)) (out : list letter) (ops : list (list space * poly))
  : option (list space * poly) :=
  match bindall N.eqb ins (map fst ops) [] with
  | None => None
  | Some m =>
      if nodupb_letters out then
        match omap (fun c => alook c m) out with
        | None => None
        | Some osp =>
            let cl := numc 16%N (contracted out m) in
            let lv := (combine out (xvs osp) ++ map (fun x => (fst x, snd (snd x))) cl)%list in
            if (nodupv (map snd lv) &&
                forallb (fun x => optN_eqb (alook (fst x) m) (fst (snd x)) &&
                                  optN_eqb (alook (fst x) lv) (snd (snd x)) &&
                                  N.eqb (spc (snd (snd x))) (fst (snd x)))%bool cl)%bool
            then match prodsym lv ins ops (16 + N.of_nat (length cl))%N [T 1 [] []] with
                 | Some acc => Some (osp, psum (map (fun x => snd (snd x)) cl) acc)
                 | None => None
                 end
            else None
        end
      else None
  end.

(** ** Symbolic evaluation of expressions and functions *)
Section SEval.
  Variable slmap : N -> N -> option space.       (* axis class, slice object -> space *)
  Variable scall : string -> list sval -> option sval.
  Variable senv : list (string * sval).

  Definition asSP (v : sval) : option (list space * poly) :=
    match v with SP s p => Some (s, p) | _ => None end.
  Definition asSDim (v : sval) : option space := match v with SDim s => Some s | _ => None end.
  Definition asSDict (v : sval) := match v with SDict d => Some d | _ => None end.
  Definition asSSl (v : sval) := match v with SSl k => Some k | _ => None end.

  Definition sidx_sval (s : sidx) : option (option N) :=
    match s with
    | SAll => Some None
    | SV x => do v <- slook x senv; do k <- asSSl v; Some (Some k)
    end.

  Fixpoint slice_axes (axes : list N) (ks : list (option N)) : option (list space) :=
    match axes, ks with
    | [], [] => Some []
    | a :: ax', Some k :: ks' =>
        do s <- slmap a k; do r <- slice_axes ax' ks'; Some (s :: r)
    | _, _ => None
    end.
  Definition is_none {X} (o : option X) : bool := match o with None => true | _ => false end.

  Definition sslice (ks : list (option N)) (v : sval) : option sval :=
    match v with
    | SFull n axes => do sps <- slice_axes axes ks; Some (SP sps [T 1 [] [(n, xvs sps)]])
    | SP sps p => if (Nat.eqb (length ks) (length sps) && forallb is_none ks)%bool
                  then Some (SP sps p) else None
    | _ => None
    end.

  Definition stransp (p : list nat) (v : sval) : option sval :=
    match v with
    | SP sps q =>
        if (Nat.eqb (length p) (length sps) && is_permb p && nodupv (xvs sps))%bool then
          let sps' := map (fun k => nth k sps 0%N) p in
          let xs' := xvs sps' in
          let ws := map (fun i => nth (index_of i p) xs' 0%N) (seq 0 (length p)) in
          do q' <- relabel (combine (xvs sps) ws) 16%N q; Some (SP sps' q')
        else None
    | _ => None
    end.

  Definition sbin (f : poly -> poly -> option poly) (a b : option sval) : option sval :=
    do va <- a; do vb <- b; do x <- asSP va; do y <- asSP vb;
    if eqb_sps (fst x) (fst y) then do p <- f (snd x) (snd y); Some (SP (fst x) p) else None.
  Definition fadd (p q : poly) : option poly := Some (q ++ p)%list.
  Definition fsub (p q : poly) : option poly := Some (psub p q).
  Definition fmul (p q : poly) : option poly :=
    do q' <- relabel [] (nextid p) q; pmul p q'.

  Fixpoint seval (e : expr) : option sval :=
    let fix sevals (es : list expr) : option (list sval) :=
      match es with
      | [] => Some []
      | e :: r => do v <- seval e; do vs <- sevals r; Some (v :: vs)
      end in
    match e with
    | EVar x => slook x senv
    | EItem e k => do v <- seval e; do d <- asSDict v; slook k d
    | ESlice e ss => do v <- seval e; do ks <- omap sidx_sval ss; sslice ks v
    | ETransp e p => do v <- seval e; stransp p v
    | EEins spec es =>
        do vs <- sevals es; do ops <- omap asSP vs;
        let (ins, out) := parse_spec spec in
        do r <- seins ins out ops; Some (SP (fst r) (snd r))
    | EScale c e => do v <- seval e; do x <- asSP v; Some (SP (fst x) (pscale c (snd x)))
    | EAdd a b => sbin fadd (seval a) (seval b)
    | ESub a b => sbin fsub (seval a) (seval b)
    | EMul a b => sbin fmul (seval a) (seval b)
    | ENum c => Some (SP [] [T c [] []])
    | ENone => Some SNone
    | EShape e k => do v <- seval e; do x <- asSP v; do s <- nth_error (fst x) k; Some (SDim s)
    | EZeros es => do vs <- sevals es; do ss <- omap asSDim vs; Some (SP ss [])
    | ECall f es => do vs <- sevals es; scall f vs
    end.
  Fixpoint sevals (es : list expr) : option (list sval) :=
    match es with
    | [] => Some []
    | e :: r => do v <- seval e; do vs <- sevals r; Some (v :: vs)
    end.
End SEval.

Definition sstep slmap scall (senv : list (string * sval)) (s : stmt)
  : option (list (string * sval)) :=
  match s with
  | SAssign x e => do v <- seval slmap scall senv e; Some (sset x v senv)
  | SAug add x e =>
      do v <- sbin (if add then fadd else fsub) (slook x senv) (seval slmap scall senv e);
      Some (sset x v senv)
  end.
Fixpoint ssteps slmap scall senv (ss : list stmt) : option (list (string * sval)) :=
  match ss with
  | [] => Some senv
  | s :: r => do senv' <- sstep slmap scall senv s; ssteps slmap scall senv' r
  end.
Definition srun_with slmap scall (f : fn) (args : list sval) : option sval :=
  do senv <- bind_params (fparams f) args;
  do senv' <- ssteps slmap scall senv (fbody f);
  seval slmap scall senv' (fret f).
Fixpoint srun (slmap : N -> N -> option space) (d : nat) (lib : list (string * fn)) (f : fn)
    (args : list sval) : option sval :=
  srun_with slmap
    (match d with
     | O => fun _ _ => None
     | S d' => fun g vs => do h <- slook g lib; srun slmap d' lib h vs
     end) f args.

(** ** Soundness *)
Section ExprInd.
  Variable P : expr -> Prop.
  Hypothesis HVar : forall x, P (EVar x).
  Hypothesis HItem : forall e k, P e -> P (EItem e k).
  Hypothesis HSlice : forall e ss, P e -> P (ESlice e ss).
  Hypothesis HTransp : forall e p, P e -> P (ETransp e p).
  Hypothesis HEins : forall s es, Forall P es -> P (EEins s es).
  Hypothesis HScale : forall c e, P e -> P (EScale c e).
  Hypothesis HAdd : forall a b, P a -> P b -> P (EAdd a b).
  Hypothesis HSub : forall a b, P a -> P b -> P (ESub a b).
  Hypothesis HMul : forall a b, P a -> P b -> P (EMul a b).
  Hypothesis HNum : forall c, P (ENum c).
  Hypothesis HNone : P ENone.
  Hypothesis HShape : forall e k, P e -> P (EShape e k).
  Hypothesis HZeros : forall es, Forall P es -> P (EZeros es).
  Hypothesis HCall : forall f es, Forall P es -> P (ECall f es).
  Fixpoint expr_ind2 (e : expr) : P e :=
    let fix go (es : list expr) : Forall P es :=
      match es with
      | [] => Forall_nil _
      | e :: r => Forall_cons _ (expr_ind2 e) (go r)
      end in
    match e with
    | EVar x => HVar x
    | EItem e k => HItem e k (expr_ind2 e)
    | ESlice e ss => HSlice e ss (expr_ind2 e)
    | ETransp e p => HTransp e p (expr_ind2 e)
    | EEins s es => HEins s es (go es)
    | EScale c e => HScale c e (expr_ind2 e)
    | EAdd a b => HAdd a b (expr_ind2 a) (expr_ind2 b)
    | ESub a b => HSub a b (expr_ind2 a) (expr_ind2 b)
    | EMul a b => HMul a b (expr_ind2 a) (expr_ind2 b)
    | ENum c => HNum c
    | ENone => HNone
    | EShape e k => HShape e k (expr_ind2 e)
    | EZeros es => HZeros es (go es)
    | ECall f es => HCall f es (go es)
    end.
End ExprInd.

Lemma zipw_cons {X Y Z} (f : X -> Y -> Z) a l b m : zipw f (a :: l) (b :: m) = f a b :: zipw f l m.
Proof. reflexivity. Qed.

Lemma Forall2_imp {X Y} (P Q : X -> Y -> Prop) l m :
  (forall x y, P x y -> Q x y) -> Forall2 P l m -> Forall2 Q l m.
Proof. intros H; induction 1; constructor; auto. Qed.

Lemma Forall2_len {X Y} (P : X -> Y -> Prop) l m : Forall2 P l m -> length l = length m.
Proof. induction 1; cbn; congruence. Qed.

Lemma xvs_from_length i sps : length (xvs_from i sps) = length sps.
Proof. revert i; induction sps as [|s r IH]; cbn; intros i; [reflexivity|]. rewrite IH; reflexivity. Qed.
Lemma xvs_length sps : length (xvs sps) = length sps.
Proof. apply xvs_from_length. Qed.

Lemma omap_length {X Y} (f : X -> option Y) l r : omap f l = Some r -> length r = length l.
Proof.
  revert r; induction l as [|x l IH]; cbn; intros r.
  - intros H; apply some_inj in H; subst; reflexivity.
  - destruct (f x); [|discriminate]. destruct (omap f l) as [ys|]; [|discriminate].
    intros H; apply some_inj in H; subst. cbn. rewrite (IH ys); reflexivity.
Qed.

Lemma omap_Forall2 {X Y} (f : X -> option Y) l r : omap f l = Some r <-> Forall2 (fun x y => f x = Some y) l r.
Proof.
  revert r; induction l as [|x l IH]; cbn; intros r; split.
  - intros H; apply some_inj in H; subst; constructor.
  - intros H; inversion H; reflexivity.
  - destruct (f x) eqn:E; [|discriminate]. destruct (omap f l) as [ys|] eqn:El; [|discriminate].
    intros H; apply some_inj in H; subst. constructor; [exact E|]. apply IH; reflexivity.
  - intros H; inversion H; subst. rewrite H2. apply IH in H4. rewrite H4. reflexivity.
Qed.

Lemma vlook_notin v ks ws : ~ In v ks -> vlook v (combine ks ws) = None.
Proof.
  revert ws; induction ks as [|k ks IH]; intros [|w ws] H; cbn; try reflexivity.
  destruct (N.eqb_spec v k) as [E|E]; [exfalso; apply H; left; congruence|].
  apply IH. intros I; apply H; right; exact I.
Qed.

Lemma map_vext ks : forall ws, NoDup ks -> length ks = length ws -> map (vext (combine ks ws)) ks = ws.
Proof.
  induction ks as [|k ks IH]; intros [|w ws] ND L; cbn in *; try discriminate; [reflexivity|].
  inversion ND as [|? ? Hn ND']; subst.
  f_equal.
  - unfold vext; cbn. rewrite N.eqb_refl. reflexivity.
  - rewrite <- (IH ws) at 2; [|exact ND'|lia].
    apply map_ext_in. intros v Hv. unfold vext; cbn.
    destruct (N.eqb_spec v k) as [E|E]; [subst; contradiction|]. reflexivity.
Qed.

Section Sound.
  Variable range : space -> list nat.
  Variable A : N -> list nat -> Qc.
  Variable slc : N -> nat * option nat.
  Variable slmap : N -> N -> option space.
  Variable adim : N -> nat.
  Variable phi : N -> nat -> nat.

  Definition dim (s : space) : nat := length (range s).
  Definition slices_ok : Prop := forall a k s, slmap a k = Some s ->
    slice_len (fst (slc k)) (snd (slc k)) (adim a) = dim s /\
    forall m, (m < dim s)%nat -> phi a (slice_start (fst (slc k)) (adim a) + m) = nth m (range s) O.
  Hypothesis Hsl : slices_ok.

  Definition orbs (sps : list space) (idx : list nat) : list nat :=
    zipw (fun s x => nth x (range s) O) sps idx.
  Definition eagree (sps : list space) (idx : list nat) (e : env) : Prop :=
    map e (xvs sps) = orbs sps idx.
  Definition tsim (sps : list space) (p : poly) (t : tensor) : Prop :=
    shape t = map dim sps /\
    forall idx e, inr idx (shape t) -> eagree sps idx e -> data t idx = evalP range A e p.
  Definition fsim (n : N) (axes : list N) (t : tensor) : Prop :=
    shape t = map adim axes /\
    forall idx, inr idx (shape t) -> data t idx = A n (zipw phi axes idx).

  Inductive vsim : sval -> value -> Prop :=
  | vs_SP sps p t : tsim sps p t -> vsim (SP sps p) (VT t)
  | vs_Full n axes t : fsim n axes t -> vsim (SFull n axes) (VT t)
  | vs_Sl k : vsim (SSl k) (VSl (fst (slc k)) (snd (slc k)))
  | vs_Dim s : vsim (SDim s) (VInt (dim s))
  | vs_None : vsim SNone VNone
  | vs_Dict d d' : dsim d d' -> vsim (SDict d) (VDict d')
  with dsim : list (string * sval) -> list (string * value) -> Prop :=
  | ds_nil : dsim [] []
  | ds_cons k s v d d' : vsim s v -> dsim d d' -> dsim ((k, s) :: d) ((k, v) :: d').

  Lemma dsim_look d d' k s : dsim d d' -> slook k d = Some s ->
    exists v, slook k d' = Some v /\ vsim s v.
  Proof.
    induction 1 as [|k' s' v d d' Hv Hd IH]; cbn; [discriminate|].
    destruct (String.eqb k k'); [|apply IH].
    intros H; apply some_inj in H; subst. eauto.
  Qed.

  Lemma dsim_set d d' k s v : dsim d d' -> vsim s v -> dsim (sset k s d) (sset k v d').
  Proof.
    intros H Hv. induction H as [|k' s' v' d d' Hv' Hd IH]; cbn [sset]; [constructor; [exact Hv|constructor]|].
    destruct (String.eqb k k'); constructor; assumption.
  Qed.

  Lemma relabel_sound m base p p' e e' :
    relabel m base p = Some p' -> (forall v, e' (vext m v) = e v) ->
    evalP range A e' p' = evalP range A e p.
  Proof.
    unfold relabel. intros H He. unfold evalP at 2. eapply omapl_sum; [exact H|].
    intros t t' _ Ht. eapply ren_term_sound; [exact Ht|].
    intros v _ Hn. unfold relabel_rho. rewrite <- He. unfold vext.
    destruct (vlook v m); [reflexivity|]. rewrite vlook_notin by exact Hn. reflexivity.
  Qed.

  (** *** einsum *)
  Definition mapdim (m : list (letter * space)) : list (letter * nat) :=
    map (fun p => (fst p, dim (snd p))) m.
  Lemma alook_mapdim c m : alook c (mapdim m) = option_map dim (alook c m).
  Proof. induction m as [|[d n] r IH]; cbn; [reflexivity|]. destruct (Ascii.eqb c d); [reflexivity|apply IH]. Qed.

  Lemma bind1_dim ls : forall sps m m1, bind1 N.eqb ls sps m = Some m1 ->
    bind1 Nat.eqb ls (map dim sps) (mapdim m) = Some (mapdim m1).
  Proof.
    induction ls as [|c ls IH]; intros [|s sps] m m1; cbn [bind1 map]; try discriminate.
    - intros H; apply some_inj in H; subst; reflexivity.
    - rewrite alook_mapdim. destruct (alook c m) as [k|]; cbn [option_map].
      + destruct (N.eqb_spec k s) as [E|E]; [|discriminate]. subst.
        rewrite Nat.eqb_refl. apply IH.
      + intros H. apply (IH sps ((c, s) :: m)). exact H.
  Qed.
  Lemma bindall_dim ins : forall spss m m1, bindall N.eqb ins spss m = Some m1 ->
    bindall Nat.eqb ins (map (map dim) spss) (mapdim m) = Some (mapdim m1).
  Proof.
    induction ins as [|ls ins IH]; intros [|sps spss] m m1; cbn [bindall map]; try discriminate.
    - intros H; apply some_inj in H; subst; reflexivity.
    - destruct (bind1 N.eqb ls sps m) as [m'|] eqn:E; [|discriminate].
      rewrite (bind1_dim _ _ _ _ E). apply IH.
  Qed.

  Lemma bind1_mono ls : forall sps m m1 c s, bind1 N.eqb ls sps m = Some m1 ->
    alook c m = Some s -> alook c m1 = Some s.
  Proof.
    induction ls as [|d ls IH]; intros [|s' sps] m m1 c s; cbn [bind1]; try discriminate.
    - intros H; apply some_inj in H; subst; auto.
    - destruct (alook d m) as [k|] eqn:E.
      + destruct (N.eqb k s'); [|discriminate]. apply IH.
      + intros H Hc. eapply IH; [exact H|]. cbn. destruct (Ascii.eqb_spec c d) as [E'|E']; [congruence|exact Hc].
  Qed.
  Lemma bind1_look ls : forall sps m m1, bind1 N.eqb ls sps m = Some m1 ->
    Forall2 (fun c s => alook c m1 = Some s) ls sps.
  Proof.
    induction ls as [|d ls IH]; intros [|s' sps] m m1; cbn [bind1]; try discriminate.
    - constructor.
    - destruct (alook d m) as [k|] eqn:E.
      + destruct (N.eqb_spec k s') as [E'|E']; [|discriminate]. subst.
        intros H. constructor; [|eapply IH; exact H]. eapply bind1_mono; eassumption.
      + intros H. constructor; [|eapply IH; exact H]. eapply bind1_mono; [exact H|].
        cbn. rewrite Ascii.eqb_refl. reflexivity.
  Qed.
  Lemma bindall_mono ins : forall spss m m1 c s, bindall N.eqb ins spss m = Some m1 ->
    alook c m = Some s -> alook c m1 = Some s.
  Proof.
    induction ins as [|ls ins IH]; intros [|sps spss] m m1 c s; cbn [bindall]; try discriminate.
    - intros H; apply some_inj in H; subst; auto.
    - destruct (bind1 N.eqb ls sps m) as [m'|] eqn:E; [|discriminate].
      intros H Hc. eapply IH; [exact H|]. eapply bind1_mono; eassumption.
  Qed.
  Lemma bindall_look ins : forall spss m m1, bindall N.eqb ins spss m = Some m1 ->
    Forall2 (Forall2 (fun c s => alook c m1 = Some s)) ins spss.
  Proof.
    induction ins as [|ls ins IH]; intros [|sps spss] m m1; cbn [bindall]; try discriminate.
    - constructor.
    - destruct (bind1 N.eqb ls sps m) as [m'|] eqn:E; [|discriminate].
      intros H. constructor; [|eapply IH; exact H].
      eapply Forall2_imp; [|eapply bind1_look; exact E].
      cbn. intros c s Hc. eapply bindall_mono; eassumption.
  Qed.

  Lemma mem_letter_In c l : mem_letter c l = true <-> In c l.
  Proof.
    unfold mem_letter. rewrite existsb_exists. split.
    - intros [x [Hx E]]. apply Ascii.eqb_eq in E. subst; exact Hx.
    - intros H. exists c. split; [exact H|apply Ascii.eqb_refl].
  Qed.

  Lemma alook_In {X} c (m : list (letter * X)) s : alook c m = Some s -> In (c, s) m.
  Proof.
    induction m as [|[d n] r IH]; cbn; [discriminate|].
    destruct (Ascii.eqb_spec c d) as [E|E]; [|intros H; right; apply IH, H].
    intros H; apply some_inj in H; subst. left; reflexivity.
  Qed.

  Section Eins.
    Variable m : list (letter * space).
    Variable lv : list (letter * var).
    Hypothesis lv_inj : NoDup (map snd lv).

    Definition Rel (rem : list letter) (e : lenv) (en : env) : Prop :=
      forall c s w, alook c m = Some s -> alook c lv = Some w -> ~ In c rem ->
        (e c < dim s)%nat /\ en w = nth (e c) (range s) O.

    Lemma lv_inj' c c' w : alook c lv = Some w -> alook c' lv = Some w -> c = c'.
    Proof.
      intros H1 H2. apply alook_In in H1. apply alook_In in H2.
      assert (E : (c, w) = (c', w)) by (eapply NoDup_map_inj; [exact lv_inj|exact H1|exact H2|reflexivity]).
      congruence.
    Qed.

    Lemma sumC_sumD F G (cl : list (letter * (space * var))) :
      (forall c s w, In (c, (s, w)) cl -> alook c m = Some s /\ alook c lv = Some w /\ spc w = s) ->
      (forall e en, Rel [] e en -> F e = G en) ->
      forall e en, Rel (map fst cl) e en ->
      sumC (map (fun x => (fst x, dim (fst (snd x)))) cl) F e
      = sumD range (map (fun x => snd (snd x)) cl) G en.
    Proof.
      intros Hcl HFG. induction cl as [|[c [s w]] r IH]; cbn [map sumC sumD fst snd]; intros e en HR.
      - apply HFG, HR.
      - destruct (Hcl c s w (or_introl eq_refl)) as [H1 [H2 H3]].
        rewrite H3. rewrite <- (suml_nth _ (range s) O). apply suml_ext. intros x Hx.
        apply in_seq in Hx. apply IH.
        { intros c' s' w' I; apply Hcl; right; exact I. }
        intros c' s' w' H1' H2' Hn'. unfold lupd.
        destruct (Ascii.eqb_spec c' c) as [E|E].
        + subst c'. assert (w' = w) by congruence. assert (s' = s) by congruence. subst.
          rewrite upd_same. split; [unfold dim; lia|reflexivity].
        + rewrite upd_other.
          * apply HR; [exact H1'|exact H2'|]. cbn. intros [I|I]; [congruence|contradiction].
          * intros ->. apply E. eapply lv_inj'; eassumption.
    Qed.

    Lemma rel_base out : forall osp idx (xs : list var) rest en,
      omap (fun c => alook c m) out = Some osp ->
      inr idx (map dim osp) -> map en xs = orbs osp idx -> length xs = length osp ->
      forall c s w, In c out -> alook c m = Some s ->
        alook c (combine out xs ++ rest)%list = Some w ->
        (bindidx out idx c < dim s)%nat /\ en w = nth (bindidx out idx c) (range s) O.
    Proof.
      induction out as [|c0 out IH]; cbn [omap]; intros osp idx xs rest en Ho Hi Hx HL c s w Hc Hs Hw;
        [destruct Hc|].
      destruct (alook c0 m) as [s0|] eqn:E0; [|discriminate].
      destruct (omap (fun c => alook c m) out) as [osp'|] eqn:E1; [|discriminate].
      apply some_inj in Ho; subst osp. cbn [map] in Hi. inversion Hi as [|x n idx' sh' Hlt Hi']; subst.
      destruct xs as [|v xs]; [discriminate|]. cbn in Hx. cbn [combine app alook] in Hw.
      injection Hx as Hx0 Hx1. cbn [bindidx]. unfold lupd.
      destruct (Ascii.eqb_spec c c0) as [E|E].
      - subst c. apply some_inj in Hw; subst. assert (s = s0) by congruence. subst.
        split; assumption.
      - destruct Hc as [Hc|Hc]; [congruence|].
        eapply IH; try eassumption; [reflexivity|]. cbn in HL. lia.
    Qed.

    Lemma relabel_op_sound ls sps base p p' t e en :
      relabel_op lv ls sps base p = Some p' ->
      Forall2 (fun c s => alook c m = Some s) ls sps ->
      tsim sps p t -> Rel [] e en ->
      data t (map e ls) = evalP range A en p'.
    Proof.
      unfold relabel_op. destruct (omap (fun c => alook c lv) ls) as [ws|] eqn:Ew; [|discriminate].
      destruct (nodupv (xvs sps)) eqn:End; [|discriminate]. apply nodupv_NoDup in End.
      intros Hr HF [Hsh Hd] HR.
      assert (HL : length (xvs sps) = length ws).
      { rewrite xvs_length. apply omap_length in Ew. rewrite Ew. symmetry. eapply Forall2_len; eassumption. }
      apply omap_Forall2 in Ew.
      rewrite (relabel_sound _ _ _ _ (fun v => en (vext (combine (xvs sps) ws) v)) en Hr)
        by reflexivity.
      apply Hd.
      - rewrite Hsh. clear -HF Ew HR. unfold inr. revert ws Ew.
        induction HF as [|c s ls sps H1 H2 IH]; intros ws Ew; cbn; [constructor|].
        inversion Ew as [|? w ? ws' Hw Ew']; subst. constructor; [|eapply IH; exact Ew'].
        apply (HR c s w H1 Hw). intros [].
      - unfold eagree. rewrite <- map_map. rewrite map_vext by assumption.
        clear -HF Ew HR. revert ws Ew. unfold orbs.
        induction HF as [|c s ls sps H1 H2 IH]; intros ws Ew; inversion Ew as [|? w ? ws' Hw Ew'];
          subst; cbn [map]; [reflexivity|].
        rewrite zipw_cons. f_equal; [|apply IH; exact Ew'].
        apply (HR c s w H1 Hw). intros [].
    Qed.

    Lemma prodsym_sound ins : forall ops ts base acc acc' e en,
      prodsym lv ins ops base acc = Some acc' ->
      Forall2 (Forall2 (fun c s => alook c m = Some s)) ins (map fst ops) ->
      Forall2 (fun o t => tsim (fst o) (snd o) t) ops ts ->
      Rel [] e en ->
      evalP range A en acc' = evalP range A en acc * prodops ins ts e.
    Proof.
      induction ins as [|ls ins IH]; intros [|[sps p] ops] ts base acc acc' e en; cbn [prodsym];
        try discriminate.
      - intros H _ HF HR. apply some_inj in H; subst. inversion HF; subst. cbn. ring.
      - destruct (relabel_op lv ls sps base p) as [p'|] eqn:Er; [|discriminate].
        destruct (pmul acc p') as [acc1|] eqn:Ea; [|discriminate].
        intros H HF HT HR. inversion HT as [|? t ? ts' Ht HT']; subst. cbn [map fst] in HF.
        inversion HF as [|? ? ? ? Hls HF']; subst. cbn [fst snd] in *.
        rewrite (IH _ _ _ _ _ _ _ H HF' HT' HR).
        rewrite (pmul_sound _ _ _ _ _ _ Ea). cbn [prodops].
        rewrite (relabel_op_sound _ _ _ _ _ _ _ _ Er Hls Ht HR). ring.
    Qed.
  End Eins.

  Lemma evalP_one e : evalP range A e [T 1 [] []] = 1.
  Proof. unfold evalP, evalT; cbn [suml tc td tf sumD evalFs]. ring. Qed.

  Lemma contracted_mapdim out m : contracted out (mapdim m) = mapdim (contracted out m).
  Proof.
    unfold contracted, mapdim. induction m as [|[c s] r IH]; cbn; [reflexivity|].
    destruct (negb (mem_letter c out)); cbn; rewrite IH; reflexivity.
  Qed.
  Lemma numc_map i cs : map (fun x => (fst x, dim (fst (snd x)))) (numc i cs) = mapdim cs.
  Proof. revert i; induction cs as [|[c s] r IH]; cbn; intros i; [reflexivity|]. rewrite IH; reflexivity. Qed.
  Lemma numc_fst i cs : map fst (numc i cs) = map fst cs.
  Proof. revert i; induction cs as [|[c s] r IH]; cbn; intros i; [reflexivity|]. rewrite IH; reflexivity. Qed.

  Lemma seins_sound ins out ops ts sps p :
    seins ins out ops = Some (sps, p) ->
    Forall2 (fun o t => tsim (fst o) (snd o) t) ops ts ->
    exists t, einsum ins out ts = Some t /\ tsim sps p t.
  Proof.
    unfold seins, einsum.
    destruct (bindall N.eqb ins (map fst ops) []) as [m|] eqn:Em; [|discriminate].
    destruct (nodupb_letters out) eqn:En; [|discriminate].
    destruct (omap (fun c => alook c m) out) as [osp|] eqn:Eo; [|discriminate].
    set (cl := numc 16%N (contracted out m)).
    set (lv := (combine out (xvs osp) ++ map (fun x => (fst x, snd (snd x))) cl)%list).
    destruct (nodupv (map snd lv)) eqn:E1; [|discriminate]. apply nodupv_NoDup in E1.
    match goal with |- context [forallb ?f cl] => destruct (forallb f cl) eqn:E2 end; [|discriminate].
    rewrite forallb_forall in E2. cbn [andb].
    destruct (prodsym _ _ _ _ _) as [acc|] eqn:Ep; [|discriminate].
    intros H HT. apply some_inj in H. injection H as H3 H4. subst sps p.
    assert (Hsh : map shape ts = map (map dim) (map fst ops)).
    { clear -HT. induction HT as [|[s p] t ops ts [H1 H2] HT IH]; cbn; [reflexivity|].
      cbn in H1. rewrite H1, IH; reflexivity. }
    rewrite Hsh. change (@nil (letter * nat)) with (mapdim []). rewrite (bindall_dim _ _ _ _ Em).
    assert (Eo' : omap (fun c => alook c (mapdim m)) out = Some (map dim osp)).
    { clear -Eo. revert osp Eo. induction out as [|c out IH]; cbn [omap]; intros osp Eo.
      - apply some_inj in Eo; subst; reflexivity.
      - rewrite alook_mapdim. destruct (alook c m); [|discriminate].
        destruct (omap (fun c => alook c m) out) as [o'|]; [|discriminate].
        apply some_inj in Eo; subst. cbn. rewrite (IH o' eq_refl). reflexivity. }
    rewrite Eo'. eexists; split; [reflexivity|]. split; [reflexivity|].
    cbn [shape data]. intros idx en Hi Hag.
    rewrite psum_sound. rewrite contracted_mapdim, <- (numc_map 16%N). fold cl.
    apply (sumC_sumD m lv).
    - exact E1.
    - intros c s w Hin. specialize (E2 _ Hin). cbn [fst snd] in E2.
      rewrite !andb_true_iff in E2. destruct E2 as [[A1 A2] A3]. unfold optN_eqb in *.
      destruct (alook c m) as [s'|]; [|discriminate].
      destruct (alook c lv) as [w'|]; [|discriminate].
      apply N.eqb_eq in A1, A2, A3. subst. auto.
    - intros e en' HR. apply bindall_look in Em.
      rewrite (prodsym_sound m lv _ _ _ _ _ _ _ _ Ep Em HT HR).
      rewrite evalP_one. ring.
    - intros c s w H1 H2 Hn. unfold cl in Hn. rewrite numc_fst in Hn.
      eapply rel_base; [exact Eo|exact Hi|exact Hag|apply xvs_length| |exact H1|exact H2].
      apply mem_letter_In. destruct (mem_letter c out) eqn:E; [reflexivity|].
      exfalso; apply Hn. apply alook_In in H1. unfold contracted.
      apply in_map_iff. exists (c, s). split; [reflexivity|]. apply filter_In. split; [exact H1|].
      cbn. rewrite E. reflexivity.
  Qed.

  (** *** slices *)
  Lemma slice_axes_sound axes : forall ks sls sps,
    slice_axes slmap axes ks = Some sps ->
    Forall2 (fun k s => match k with Some k => s = slc k | None => s = (O, None) end) ks sls ->
    length sls = length axes /\
    zipw (fun s n => slice_len (fst s) (snd s) n) sls (map adim axes) = map dim sps /\
    (forall idx, inr idx (map dim sps) ->
      inr (zipw Nat.add (zipw (fun s n => slice_start (fst s) n) sls (map adim axes)) idx)
          (map adim axes) /\
      zipw phi axes (zipw Nat.add (zipw (fun s n => slice_start (fst s) n) sls (map adim axes)) idx)
      = orbs sps idx).
  Proof.
    induction axes as [|a axes IH]; intros [|[k|] ks] sls sps; cbn [slice_axes]; try discriminate.
    - intros H HF. apply some_inj in H; subst. inversion HF; subst. cbn.
      repeat split; try reflexivity.
      + inversion H; subst; cbn. constructor.
    - destruct (slmap a k) as [s|] eqn:Es; cbn [obind]; [|discriminate].
      destruct (slice_axes slmap axes ks) as [r|] eqn:Er; cbn [obind]; [|discriminate].
      intros H HF. apply some_inj in H; subst. inversion HF as [|? sl ? sls' Hsl' HF']; subst.
      destruct (IH _ _ _ Er HF') as [L [Hd Hi]].
      destruct (Hsl _ _ _ Es) as [S1 S2].
      cbn [map length]. rewrite !zipw_cons, S1, L, Hd. repeat split; try reflexivity.
      + inversion H as [|x n idx' sh Hx Hr]; subst. rewrite zipw_cons. constructor.
        * unfold slice_len, slice_start in *. destruct (slc k) as [st so]; cbn [fst snd] in *.
          assert (slice_stop so (adim a) <= adim a)%nat by (unfold slice_stop; destruct so; lia). lia.
        * apply Hi; exact Hr.
      + inversion H as [|x n idx' sh Hx Hr]; subst. rewrite !zipw_cons.
        unfold orbs. rewrite zipw_cons. f_equal; [apply S2; exact Hx|apply Hi; exact Hr].
  Qed.

  (** *** transposition *)
  Lemma index_of_lt i p : In i p -> (index_of i p < length p)%nat.
  Proof.
    induction p as [|j r IH]; cbn; [contradiction|]. intros [H|H].
    - subst. rewrite Nat.eqb_refl. lia.
    - destruct (Nat.eqb i j); [lia|]. apply IH in H. lia.
  Qed.
  Lemma nth_index_of i p d : In i p -> nth (index_of i p) p d = i.
  Proof.
    induction p as [|j r IH]; cbn; [contradiction|]. intros H.
    destruct (Nat.eqb_spec i j) as [E|E]; [congruence|]. destruct H as [H|H]; [congruence|].
    cbn. apply IH, H.
  Qed.
  Lemma map_nth_seq {X} (l : list X) d : map (fun i => nth i l d) (seq 0 (length l)) = l.
  Proof.
    induction l as [|x l IH]; cbn; [reflexivity|]. f_equal.
    rewrite <- seq_shift, map_map. exact IH.
  Qed.
  Lemma nth_zipw {X Y Z} (f : X -> Y -> Z) l1 : forall l2 i d1 d2 d,
    length l1 = length l2 -> (i < length l1)%nat ->
    nth i (zipw f l1 l2) d = f (nth i l1 d1) (nth i l2 d2).
  Proof.
    induction l1 as [|x l1 IH]; intros [|y l2] i d1 d2 d L Hi; cbn in *; try lia.
    destruct i as [|i]; [reflexivity|]. unfold zipw in IH. apply IH; lia.
  Qed.
  Lemma is_permb_in p i : is_permb p = true -> (i < length p)%nat -> In i p.
  Proof.
    unfold is_permb. rewrite forallb_forall. intros H Hi.
    specialize (H i). rewrite existsb_exists in H. destruct H as [x [Hx E]].
    - apply in_seq. lia.
    - apply Nat.eqb_eq in E. subst; exact Hx.
  Qed.
  Lemma Forall2_nth_lt l1 l2 i : Forall2 lt l1 l2 -> (i < length l1)%nat -> (nth i l1 O < nth i l2 O)%nat.
  Proof.
    intros H. revert i. induction H as [|x y l1 l2 H1 H2 IH]; cbn; intros i Hi; [lia|].
    destruct i; [exact H1|apply IH; lia].
  Qed.
  Lemma nth_map_lt {X Y} (f : X -> Y) l i d d' : (i < length l)%nat -> nth i (map f l) d' = f (nth i l d).
  Proof. revert i; induction l as [|x l IH]; cbn; intros i Hi; [lia|]. destruct i; [reflexivity|apply IH; lia]. Qed.

  Lemma stransp_sound p sps q v' t :
    stransp p (SP sps q) = Some v' -> tsim sps q t ->
    exists t', ttransp p t = Some t' /\ vsim v' (VT t').
  Proof.
    unfold stransp. destruct (Nat.eqb_spec (length p) (length sps)) as [EL|]; [|discriminate].
    destruct (is_permb p) eqn:Ep; [|discriminate].
    destruct (nodupv (xvs sps)) eqn:End; [|discriminate]. apply nodupv_NoDup in End. cbn [andb].
    set (sps' := map (fun k => nth k sps 0%N) p).
    set (ws := map (fun i => nth (index_of i p) (xvs sps') 0%N) (seq 0 (length p))).
    destruct (relabel _ _ q) as [q'|] eqn:Er; cbn [obind]; [|discriminate].
    intros H [Hsh Hd]. apply some_inj in H; subst v'. unfold ttransp.
    assert (EL' : length p = length (shape t)) by (rewrite Hsh, map_length; exact EL).
    rewrite <- EL', Nat.eqb_refl, Ep. cbn [andb]. eexists; split; [reflexivity|].
    assert (Hp : forall i, (i < length p)%nat -> In i p) by (intros; apply is_permb_in; assumption).
    assert (Hlt : forall k, In k p -> (k < length p)%nat).
    { (* p contains 0..n-1 and has length n *)
      intros k Hk. destruct (Nat.lt_ge_cases k (length p)) as [|G]; [assumption|exfalso].
      assert (I : incl (k :: seq 0 (length p)) p).
      { intros x [Hx|Hx]; [subst; exact Hk|]. apply Hp. apply in_seq in Hx. lia. }
      apply NoDup_incl_length in I; [cbn in I; rewrite seq_length in I; lia|].
      constructor; [|apply seq_NoDup]. rewrite in_seq. lia. }
    constructor. split.
    { cbn [shape]. unfold sps'. rewrite map_map. apply map_ext_in. intros k Hk.
      rewrite Hsh. apply nth_map_lt. rewrite <- EL. apply Hlt, Hk. }
    cbn [shape data]. intros idx en Hi Hag.
    assert (Hsh' : map (fun k => nth k (shape t) 0%nat) p = map dim sps').
    { unfold sps'. rewrite map_map. apply map_ext_in. intros k Hk.
      rewrite Hsh. apply nth_map_lt. rewrite <- EL. apply Hlt, Hk. }
    assert (HLi : length idx = length p).
    { apply Forall2_len in Hi. rewrite map_length in Hi. exact Hi. }
    assert (Hix : forall i, (i < length p)%nat ->
       (nth (index_of i p) idx O < nth i (shape t) O)%nat).
    { intros i Hlti. pose proof (index_of_lt i p (Hp i Hlti)) as Hk.
      apply Forall2_nth_lt with (i := index_of i p) in Hi; [|lia].
      rewrite nth_map_lt with (d := O) in Hi by lia.
      rewrite nth_index_of in Hi by (apply Hp; exact Hlti). exact Hi. }
    rewrite (relabel_sound _ _ _ _ (fun v => en (vext (combine (xvs sps) ws) v)) en Er)
      by reflexivity.
    apply Hd.
    - unfold inr. rewrite <- (map_nth_seq (shape t) O), <- EL'.
      clear -Hix. assert (G : forall l, (forall i, In i l -> (i < length p)%nat) ->
        Forall2 lt (map (fun i => nth (index_of i p) idx O) l) (map (fun i => nth i (shape t) O) l)).
      { induction l as [|i l IH]; cbn; intros H; constructor; [apply Hix, H; left; reflexivity|].
        apply IH. intros j Hj; apply H; right; exact Hj. }
      apply G. intros i H; apply in_seq in H; lia.
    - unfold eagree. rewrite <- map_map. rewrite map_vext.
      2: exact End.
      2:{ rewrite xvs_length. unfold ws. rewrite map_length, seq_length. symmetry; exact EL. }
      unfold ws. rewrite map_map.
      assert (Hox : forall k, (k < length p)%nat ->
         en (nth k (xvs sps') 0%N) = nth (nth k idx O) (range (nth k sps' 0%N)) O).
      { intros k Hk. unfold eagree in Hag.
        rewrite <- (nth_map_lt en (xvs sps') k 0%N O).
        2:{ rewrite xvs_length. unfold sps'. rewrite map_length. exact Hk. }
        rewrite Hag. unfold orbs. rewrite nth_zipw with (d1 := 0%N) (d2 := O); [reflexivity| |];
          unfold sps'; rewrite map_length; lia. }
      transitivity (map (fun i => nth (nth (index_of i p) idx O) (range (nth i sps 0%N)) O) (seq 0 (length p))).
      + apply map_ext_in. intros i Hin. apply in_seq in Hin.
        assert (Hii : In i p) by (apply Hp; lia).
        rewrite Hox by (apply index_of_lt, Hii). f_equal. f_equal. unfold sps'.
        rewrite nth_map_lt with (d := O) by (apply index_of_lt, Hii).
        rewrite nth_index_of by exact Hii. reflexivity.
      + unfold orbs. rewrite EL. clear. set (g := fun i => nth (index_of i p) idx 0%nat).
        change (map (fun i => nth (g i) (range (nth i sps 0%N)) 0%nat) (seq 0 (length sps)) =
                zipw (fun s x => nth x (range s) 0%nat) sps (map g (seq 0 (length sps)))).
        clearbody g. revert g. induction sps as [|s r IH]; intros g; [reflexivity|].
        cbn [length seq map]. rewrite zipw_cons. f_equal.
        rewrite <- seq_shift, !map_map. cbn [nth]. apply (IH (fun i => g (S i))).
  Qed.

  (** *** elementwise operations *)
  Lemma eqb_shape_refl l : eqb_shape l l = true.
  Proof. induction l; cbn; [reflexivity|]. rewrite Nat.eqb_refl. exact IHl. Qed.

  Lemma sbin_sound fs (fc : Qc -> Qc -> Qc) oa ob sv va vb :
    (forall p q r e, fs p q = Some r ->
       evalP range A e r = fc (evalP range A e p) (evalP range A e q)) ->
    (forall s, oa = Some s -> exists v, va = Some v /\ vsim s v) ->
    (forall s, ob = Some s -> exists v, vb = Some v /\ vsim s v) ->
    sbin fs oa ob = Some sv -> exists v, tbinv fc va vb = Some v /\ vsim sv v.
  Proof.
    unfold sbin, tbinv. intros Hf Ha Hb.
    destruct oa as [sa|]; cbn [obind]; [|discriminate]. destruct ob as [sb|]; cbn [obind]; [|discriminate].
    destruct (Ha sa eq_refl) as [v1 [-> S1]]. destruct (Hb sb eq_refl) as [v2 [-> S2]]. cbn [obind].
    destruct sa as [sps p| | | | |]; cbn [asSP obind]; try discriminate.
    destruct sb as [sps' q| | | | |]; cbn [asSP obind]; try discriminate. cbn [fst snd].
    destruct (eqb_sps sps sps') eqn:E; [|discriminate]. apply eqb_sps_eq in E; subst sps'.
    destruct (fs p q) as [r|] eqn:Er; cbn [obind]; [|discriminate].
    intros H; apply some_inj in H; subst sv.
    inversion S1 as [? ? t1 [Hs1 Hd1]| | | | |]; subst. inversion S2 as [? ? t2 [Hs2 Hd2]| | | | |]; subst.
    cbn [asT obind]. unfold tbin. rewrite Hs1, Hs2, eqb_shape_refl. cbn [obind].
    eexists; split; [reflexivity|]. constructor. split; [reflexivity|]. cbn [shape data].
    intros idx e Hi Hag. rewrite (Hf _ _ _ _ Er), (Hd1 idx e), (Hd2 idx e); [reflexivity| | | |];
      try assumption; rewrite ?Hs1, ?Hs2; assumption.
  Qed.

  Lemma fadd_ok p q r e : fadd p q = Some r -> evalP range A e r = evalP range A e p + evalP range A e q.
  Proof. intros H; apply some_inj in H; subst. rewrite evalP_app. ring. Qed.
  Lemma fsub_ok p q r e : fsub p q = Some r -> evalP range A e r = evalP range A e p - evalP range A e q.
  Proof. intros H; apply some_inj in H; subst. apply psub_sound. Qed.
  Lemma fmul_ok p q r e : fmul p q = Some r -> evalP range A e r = evalP range A e p * evalP range A e q.
  Proof.
    unfold fmul. destruct (relabel [] (nextid p) q) as [q'|] eqn:E; cbn [obind]; [|discriminate].
    intros H. rewrite (pmul_sound _ _ _ _ _ _ H). f_equal.
    eapply relabel_sound; [exact E|]. reflexivity.
  Qed.

  (** *** expressions *)
  Section Calls.
    Variable call : string -> list value -> option value.
    Variable scall : string -> list sval -> option sval.
    Hypothesis Hcall : forall f svs vs sv, scall f svs = Some sv -> Forall2 vsim svs vs ->
      exists v, call f vs = Some v /\ vsim sv v.

    Lemma seval_sound senv venv (He : dsim senv venv) : forall e sv,
      seval slmap scall senv e = Some sv -> exists v, eval call venv e = Some v /\ vsim sv v.
    Proof.
      assert (Hlist : forall es,
        Forall (fun e => forall sv, seval slmap scall senv e = Some sv ->
                  exists v, eval call venv e = Some v /\ vsim sv v) es ->
        forall svs, sevals slmap scall senv es = Some svs ->
        exists vs, evals call venv es = Some vs /\ Forall2 vsim svs vs).
      { induction 1 as [|e es H1 H2 IH]; intros svs; cbn [sevals evals].
        - intros H; apply some_inj in H; subst. exists []; split; [reflexivity|constructor].
        - destruct (seval slmap scall senv e) as [sv|]; cbn [obind]; [|discriminate].
          destruct (sevals slmap scall senv es) as [svs'|]; cbn [obind]; [|discriminate].
          intros H; apply some_inj in H; subst.
          destruct (H1 _ eq_refl) as [v [-> Hv]]. destruct (IH _ eq_refl) as [vs [-> Hvs]].
          cbn [obind]. eexists; split; [reflexivity|]. constructor; assumption. }
      induction e as [x|e k IH|e ss IH|e p IH|spec es IH|c e IH|a b IHa IHb|a b IHa IHb|a b IHa IHb
                     |c| |e k IH|es IH|f es IH] using expr_ind2; intros sv.
      - cbn [seval eval]. apply dsim_look, He.
      - cbn [seval eval]. destruct (seval slmap scall senv e) as [s|]; cbn [obind]; [|discriminate].
        destruct (IH _ eq_refl) as [v [-> Hv]]. cbn [obind].
        destruct s; cbn [asSDict obind]; try discriminate. inversion Hv; subst.
        cbn [asDict obind]. apply dsim_look. assumption.
      - cbn [seval eval]. destruct (seval slmap scall senv e) as [s|]; cbn [obind]; [|discriminate].
        destruct (IH _ eq_refl) as [v [-> Hv]]. cbn [obind].
        destruct (omap (sidx_sval senv) ss) as [ks|] eqn:Ek; cbn [obind]; [|discriminate].
        intros Hs.
        assert (Hsls : exists sls, omap (sidx_val venv) ss = Some sls /\
          Forall2 (fun k s => match k with Some k => s = slc k | None => s = (O, None) end) ks sls).
        { clear -Ek He. revert ks Ek. induction ss as [|s0 ss IH]; cbn [omap]; intros ks Ek.
          - apply some_inj in Ek; subst. eexists; split; [reflexivity|constructor].
          - destruct (sidx_sval senv s0) as [k0|] eqn:E0; [|discriminate].
            destruct (omap (sidx_sval senv) ss) as [ks'|]; [|discriminate].
            apply some_inj in Ek; subst. destruct (IH _ eq_refl) as [sls [-> HF]].
            destruct s0 as [x|]; cbn [sidx_sval sidx_val] in *.
            + destruct (slook x senv) as [sv0|] eqn:Ex; cbn [obind] in E0; [|discriminate].
              destruct (dsim_look _ _ _ _ He Ex) as [v0 [-> Hv0]]. cbn [obind].
              destruct sv0; cbn [asSSl obind] in E0; try discriminate.
              apply some_inj in E0; subst. inversion Hv0; subst. cbn [asSl].
              eexists; split; [reflexivity|]. constructor; [|exact HF]. destruct (slc k); reflexivity.
            + apply some_inj in E0; subst. eexists; split; [reflexivity|]. constructor; [reflexivity|exact HF]. }
        destruct Hsls as [sls [Esl HF]]. rewrite Esl.
        destruct s as [sps p|n axes| | | |]; cbn [sslice] in Hs; try discriminate.
        + destruct (Nat.eqb_spec (length ks) (length sps)) as [EL|]; [|discriminate].
          destruct (forallb is_none ks) eqn:Ekn; [|discriminate]. cbn [andb] in Hs.
          apply some_inj in Hs; subst sv. inversion Hv as [? ? t [Hsh Hd]| | | | |]; subst. cbn [asT obind].
          assert (Hl : sls = map (fun _ => (O, None)) (shape t)).
          { rewrite Hsh, map_map. clear -HF Ekn EL. revert sps EL.
            induction HF as [|k s ks sls Hk HF IH]; intros [|sp sps] EL; try discriminate; [reflexivity|].
            cbn in Ekn. apply andb_true_iff in Ekn. destruct Ekn as [E1 E2].
            destruct k; [discriminate|]. cbn [map]. subst. f_equal. apply IH; [exact E2|cbn in EL; lia]. }
          unfold tslice. rewrite Hl, map_length, Nat.eqb_refl. cbn [obind].
          eexists; split; [reflexivity|]. constructor.
          assert (Hshape : zipw (fun (s : nat * option nat) n => slice_len (fst s) (snd s) n)
                       (map (fun _ => (O, None)) (shape t)) (shape t) = shape t).
          { clear. induction (shape t) as [|n r IH]; [reflexivity|]. cbn [map].
            rewrite zipw_cons, IH. f_equal. unfold slice_len, slice_stop, slice_start; cbn. lia. }
          split; cbn [shape data]; rewrite Hshape; [exact Hsh|].
          intros idx en Hi Hag.
          assert (Hidx : zipw Nat.add (zipw (fun (s : nat * option nat) n => slice_start (fst s) n)
                          (map (fun _ => (O, None)) (shape t)) (shape t)) idx = idx).
          { clear -Hi. unfold inr in Hi. induction Hi as [|x n idx sh H1 H2 IH]; [reflexivity|].
            cbn [map]. rewrite !zipw_cons, IH. f_equal. }
          rewrite Hidx. apply Hd; assumption.
        + destruct (slice_axes slmap axes ks) as [sps|] eqn:Ea; cbn [obind] in Hs; [|discriminate].
          apply some_inj in Hs; subst sv. inversion Hv as [|? ? t [Hsh Hd]| | | |]; subst. cbn [asT obind].
          destruct (slice_axes_sound _ _ _ _ Ea HF) as [L [H1 H2]].
          unfold tslice. rewrite L, Hsh, map_length, Nat.eqb_refl. cbn [obind].
          eexists; split; [reflexivity|]. constructor. split; cbn [shape data]; [exact H1|].
          rewrite H1. intros idx en Hi Hag. destruct (H2 idx Hi) as [H3 H4].
          rewrite Hd by (rewrite Hsh; exact H3). rewrite H4.
          unfold evalP, evalT; cbn [suml tc td tf sumD evalFs].
          unfold evalF; cbn [fst snd]. unfold eagree in Hag. rewrite Hag. ring.
      - cbn [seval eval]. destruct (seval slmap scall senv e) as [s|]; cbn [obind]; [|discriminate].
        destruct (IH _ eq_refl) as [v [-> Hv]]. cbn [obind]. intros H.
        destruct s as [sps q| | | | |]; try discriminate. inversion Hv as [? ? t Ht| | | | |]; subst. cbn [asT obind].
        destruct (stransp_sound _ _ _ _ _ H Ht) as [t' [-> Ht']]. cbn [obind]. eauto.
      - change (seval slmap scall senv (EEins spec es)) with
          (do vs <- sevals slmap scall senv es; do ops <- omap asSP vs;
           let (ins, out) := parse_spec spec in
           do r <- seins ins out ops; Some (SP (fst r) (snd r))).
        change (eval call venv (EEins spec es)) with
          (do vs <- evals call venv es; do ts <- omap asT vs;
           let (ins, out) := parse_spec spec in
           do r <- einsum ins out ts; Some (VT r)).
        destruct (sevals slmap scall senv es) as [svs|] eqn:Es; cbn [obind]; [|discriminate].
        destruct (Hlist _ IH _ Es) as [vs [-> Hvs]]. cbn [obind].
        destruct (omap asSP svs) as [ops|] eqn:Eo; cbn [obind]; [|discriminate].
        assert (Hts : exists ts, omap asT vs = Some ts /\
                 Forall2 (fun o t => tsim (fst o) (snd o) t) ops ts).
        { clear -Hvs Eo. revert ops Eo. induction Hvs as [|s v svs vs H1 H2 IH]; cbn [omap]; intros ops Eo.
          - apply some_inj in Eo; subst. eexists; split; [reflexivity|constructor].
          - destruct (asSP s) as [o|] eqn:E1; [|discriminate].
            destruct (omap asSP svs) as [ops'|]; [|discriminate].
            apply some_inj in Eo; subst. destruct (IH _ eq_refl) as [ts [-> HF]].
            destruct s; try discriminate. inversion H1; subst. cbn in E1. apply some_inj in E1; subst.
            cbn [asT]. eexists; split; [reflexivity|]. constructor; assumption. }
        destruct Hts as [ts [-> Hts]]. cbn [obind]. destruct (parse_spec spec) as [ins out].
        destruct (seins ins out ops) as [[sps p]|] eqn:Ei; cbn [obind]; [|discriminate].
        intros H; apply some_inj in H; subst.
        destruct (seins_sound _ _ _ _ _ _ Ei Hts) as [t [-> Ht]]. cbn [obind].
        eexists; split; [reflexivity|]. constructor. exact Ht.
      - cbn [seval eval]. destruct (seval slmap scall senv e) as [s|]; cbn [obind]; [|discriminate].
        destruct (IH _ eq_refl) as [v [-> Hv]]. cbn [obind].
        destruct s as [sps p| | | | |]; cbn [asSP obind]; try discriminate.
        intros H; apply some_inj in H; subst. inversion Hv as [? ? t [Hsh Hd]| | | | |]; subst. cbn [asT obind].
        eexists; split; [reflexivity|]. constructor. split; [exact Hsh|]. cbn [shape data fst snd tscale].
        intros idx en Hi Hag. rewrite pscale_sound. f_equal. apply Hd; assumption.
      - apply (sbin_sound fadd Qcplus); [exact fadd_ok|exact IHa|exact IHb].
      - apply (sbin_sound fsub Qcminus); [exact fsub_ok|exact IHa|exact IHb].
      - apply (sbin_sound fmul Qcmult); [exact fmul_ok|exact IHa|exact IHb].
      - intros H. cbn [seval] in H. apply some_inj in H; subst. cbn [eval]. eexists; split; [reflexivity|].
        constructor. split; [reflexivity|]. intros idx en _ _.
        unfold evalP, evalT; cbn [suml tc td tf sumD evalFs tnum data]. ring.
      - intros H. cbn [seval] in H. apply some_inj in H; subst. cbn [eval]. eexists; split; [reflexivity|].
        constructor.
      - cbn [seval eval]. destruct (seval slmap scall senv e) as [s|]; cbn [obind]; [|discriminate].
        destruct (IH _ eq_refl) as [v [-> Hv]]. cbn [obind].
        destruct s as [sps p| | | | |]; cbn [asSP obind]; try discriminate. cbn [fst].
        destruct (nth_error sps k) as [s|] eqn:Ek; cbn [obind]; [|discriminate].
        intros H; apply some_inj in H; subst. inversion Hv as [? ? t [Hsh Hd]| | | | |]; subst. cbn [asT obind].
        rewrite Hsh. rewrite (map_nth_error dim k sps Ek). cbn [obind].
        eexists; split; [reflexivity|]. constructor.
      - change (seval slmap scall senv (EZeros es)) with
          (do vs <- sevals slmap scall senv es; do ss <- omap asSDim vs; Some (SP ss [])).
        change (eval call venv (EZeros es)) with
          (do vs <- evals call venv es; do ns <- omap asInt vs; Some (VT (tzeros ns))).
        destruct (sevals slmap scall senv es) as [svs|] eqn:Es; cbn [obind]; [|discriminate].
        destruct (Hlist _ IH _ Es) as [vs [-> Hvs]]. cbn [obind].
        destruct (omap asSDim svs) as [ss|] eqn:Eo; cbn [obind]; [|discriminate].
        intros H; apply some_inj in H; subst.
        assert (Hts : omap asInt vs = Some (map dim ss)).
        { clear -Hvs Eo. revert ss Eo. induction Hvs as [|s v svs vs H1 H2 IH]; cbn [omap]; intros ss Eo.
          - apply some_inj in Eo; subst. reflexivity.
          - destruct (asSDim s) as [o|] eqn:E1; [|discriminate].
            destruct (omap asSDim svs) as [ss'|]; [|discriminate].
            apply some_inj in Eo; subst. rewrite (IH _ eq_refl).
            destruct s; try discriminate. inversion H1; subst. cbn in E1. apply some_inj in E1; subst.
            reflexivity. }
        rewrite Hts. cbn [obind]. eexists; split; [reflexivity|]. constructor.
        split; [reflexivity|]. intros; reflexivity.
      - change (seval slmap scall senv (ECall f es)) with
          (do vs <- sevals slmap scall senv es; scall f vs).
        change (eval call venv (ECall f es)) with (do vs <- evals call venv es; call f vs).
        destruct (sevals slmap scall senv es) as [svs|] eqn:Es; cbn [obind]; [|discriminate].
        destruct (Hlist _ IH _ Es) as [vs [-> Hvs]]. cbn [obind].
        intros H. eapply Hcall; eassumption.
    Qed.

    Lemma sstep_sound senv venv s senv' : dsim senv venv ->
      sstep slmap scall senv s = Some senv' ->
      exists venv', step call venv s = Some venv' /\ dsim senv' venv'.
    Proof.
      intros He. destruct s as [x e|add x e]; cbn [sstep step].
      - destruct (seval slmap scall senv e) as [sv|] eqn:E; cbn [obind]; [|discriminate].
        intros H; apply some_inj in H; subst.
        destruct (seval_sound _ _ He _ _ E) as [v [-> Hv]]. cbn [obind].
        eexists; split; [reflexivity|]. apply dsim_set; assumption.
      - destruct (sbin _ _ _) as [sv|] eqn:E; cbn [obind]; [|discriminate].
        intros H; apply some_inj in H; subst.
        assert (G : exists v, tbinv (if add then Qcplus else Qcminus) (slook x venv) (eval call venv e)
                    = Some v /\ vsim sv v).
        { eapply (sbin_sound (if add then fadd else fsub)); [| | |exact E].
          - destruct add; [exact fadd_ok|exact fsub_ok].
          - intros s. apply dsim_look, He.
          - intros s. apply seval_sound, He. }
        destruct G as [v [-> Hv]]. cbn [obind]. eexists; split; [reflexivity|]. apply dsim_set; assumption.
    Qed.
    Lemma ssteps_sound ss : forall senv venv senv', dsim senv venv ->
      ssteps slmap scall senv ss = Some senv' ->
      exists venv', steps call venv ss = Some venv' /\ dsim senv' venv'.
    Proof.
      induction ss as [|s ss IH]; cbn [ssteps steps]; intros senv venv senv' He.
      - intros H; apply some_inj in H; subst. eauto.
      - destruct (sstep slmap scall senv s) as [senv1|] eqn:E; cbn [obind]; [|discriminate].
        destruct (sstep_sound _ _ _ _ He E) as [venv1 [-> He1]]. cbn [obind]. apply IH, He1.
    Qed.
    Lemma bind_params_sound ps : forall svs vs senv, Forall2 vsim svs vs ->
      bind_params ps svs = Some senv -> exists venv, bind_params ps vs = Some venv /\ dsim senv venv.
    Proof.
      induction ps as [|p ps IH]; intros svs vs senv HF; inversion HF as [|s v svs' vs' Hv HF']; subst;
        cbn [bind_params]; try discriminate.
      - intros H; apply some_inj in H; subst. eexists; split; [reflexivity|constructor].
      - destruct (bind_params ps svs') as [m|] eqn:E; cbn [obind]; [|discriminate].
        intros H; apply some_inj in H; subst. destruct (IH _ _ _ HF' E) as [m' [-> Hm]]. cbn [obind].
        eexists; split; [reflexivity|]. constructor; assumption.
    Qed.
    Lemma srun_with_sound f svs vs sv : Forall2 vsim svs vs ->
      srun_with slmap scall f svs = Some sv ->
      exists v, run_with call f vs = Some v /\ vsim sv v.
    Proof.
      unfold srun_with, run_with. intros HF.
      destruct (bind_params (fparams f) svs) as [senv|] eqn:E1; cbn [obind]; [|discriminate].
      destruct (bind_params_sound _ _ _ _ HF E1) as [venv [-> He]]. cbn [obind].
      destruct (ssteps slmap scall senv (fbody f)) as [senv'|] eqn:E2; cbn [obind]; [|discriminate].
      destruct (ssteps_sound _ _ _ _ He E2) as [venv' [-> He']]. cbn [obind].
      apply seval_sound, He'.
    Qed.
  End Calls.

  Theorem srun_sound d lib : forall f svs vs sv, Forall2 vsim svs vs ->
    srun slmap d lib f svs = Some sv -> exists v, run d lib f vs = Some v /\ vsim sv v.
  Proof.
    induction d as [|d IH]; intros f svs vs sv HF; cbn [srun run]; apply srun_with_sound; try exact HF.
    - discriminate.
    - intros g svs' vs' sv' H HF'. destruct (slook g lib) as [h|]; cbn [obind] in *; [|discriminate].
      eapply IH; eassumption.
  Qed.
End Sound.
