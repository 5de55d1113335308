(** Concrete arrays that meet the hypotheses of the theorems: for every spin labelling and every size there is a
    Hamiltonian and there are amplitudes of every rank; the Examples beside the theorems use them at two (spin:
    four) occupied and virtual orbitals.  This file models no source line. *)
From Coq Require Import String List Arith NArith ZArith QArith Qcanon Bool Lia Permutation.
From Verif Require Import Sums Tensor Interp Spec.
Import ListNotations.
Open Scope Qc_scope.

(** product of the differences x_j - x_i, i before j *)
Fixpoint vdm (l : list nat) : Qc :=
  match l with
  | [] => 1
  | x :: r => fold_right (fun y a => (qn y - qn x) * a) 1 r * vdm r
  end.
Lemma vdm_prod z pre x y post :
  fold_right (fun y a => (qn y - qn z) * a) 1 (pre ++ x :: y :: post) =
  fold_right (fun y a => (qn y - qn z) * a) 1 (pre ++ y :: x :: post).
Proof. induction pre as [|w pre IH]; cbn [app fold_right]; [ring|rewrite IH; reflexivity]. Qed.
Lemma vdm_swap pre x y post : vdm (pre ++ x :: y :: post) = - vdm (pre ++ y :: x :: post).
Proof.
  induction pre as [|w pre IH]; cbn [app vdm].
  - cbn [fold_right]. ring.
  - rewrite vdm_prod, IH. ring.
Qed.

Lemma count_swap f pre x y post : count f (pre ++ x :: y :: post) = count f (pre ++ y :: x :: post).
Proof.
  unfold count. rewrite !filter_app, !app_length. f_equal. cbn [filter]. destruct (f x), (f y); reflexivity.
Qed.

(** 2k-index array; entries with different numbers of P-indices and Q-indices vanish *)
Definition inst (k : nat) (P Q : nat -> bool) (sh : list nat) : tensor :=
  mkT sh (fun idx => vdm (firstn k idx) * vdm (skipn k idx) *
    (if Nat.eqb (count P (firstn k idx)) (count Q (skipn k idx)) then 1 else 0)).

Lemma inr_length idx sh : inr idx sh -> length idx = length sh.
Proof. induction 1; cbn; congruence. Qed.

Lemma inst_antisym k P Q sh : length sh = (2 * k)%nat -> antisymmetric k (inst k P Q sh).
Proof.
  intros HL i Hi. split; intros pre x y post Hp H1 H2; unfold inst; cbn [data shape] in *.
  - assert (E : forall a b, firstn k (pre ++ a :: b :: post) = (pre ++ a :: b :: firstn (k - i - 2) post)%list /\
                            skipn k (pre ++ a :: b :: post) = skipn (k - i - 2) post).
    { intros a b. rewrite firstn_app, skipn_app, firstn_all2, skipn_all2 by lia. rewrite Hp.
      destruct (k - i)%nat as [|[|m]] eqn:E; try lia. cbn [firstn skipn app].
      replace (S (S m) - 2)%nat with m by lia. split; reflexivity. }
    destruct (E x y) as [-> ->]. destruct (E y x) as [-> ->].
    rewrite count_swap, vdm_swap. ring.
  - assert (E : forall a b, exists u w, firstn k (pre ++ a :: b :: post) = u /\ u = firstn k pre /\
                            skipn k (pre ++ a :: b :: post) = (w ++ a :: b :: post)%list /\ w = skipn k pre).
    { intros a b. exists (firstn k pre), (skipn k pre). rewrite firstn_app, skipn_app, Hp.
      replace (k - (k + i))%nat with O by lia. cbn [firstn skipn]. rewrite app_nil_r. auto. }
    destruct (E x y) as [u [w [-> [-> [-> ->]]]]]. destruct (E y x) as [u' [w' [-> [-> [-> ->]]]]].
    rewrite count_swap, (vdm_swap (skipn k pre)). ring.
Qed.

Lemma fs_app {X} k (l1 l2 : list X) : length l1 = k -> firstn k (l1 ++ l2) = l1 /\ skipn k (l1 ++ l2) = l2.
Proof.
  intros <-. rewrite firstn_app, skipn_app, Nat.sub_diag, firstn_all, skipn_all. cbn. rewrite app_nil_r. auto.
Qed.
Lemma inst_herm k P sh : hermitian k (inst k P P sh).
Proof.
  intros l1 l2 H1 H2 _. unfold inst; cbn [data].
  destruct (fs_app k l1 l2 H1) as [-> ->]. destruct (fs_app k l2 l1 H2) as [-> ->].
  rewrite (Nat.eqb_sym (count P l2)). ring.
Qed.
Lemma inst_zero k P Q sh l1 l2 : length l1 = k -> count P l1 <> count Q l2 -> data (inst k P Q sh) (l1 ++ l2) = 0.
Proof.
  intros H1 H. unfold inst; cbn [data]. destruct (fs_app k l1 l2 H1) as [-> ->].
  apply Nat.eqb_neq in H. rewrite H. ring.
Qed.

(** ** Without spin *)
Definition none (_ : nat) : bool := false.
Definition i_fock (n : nat) : tensor := inst 1 none none [n; n].
Definition i_tei (n : nat) : tensor := inst 2 none none [n; n; n; n].
Definition i_amp (k no nv : nat) : tensor := inst k none none (repeat nv k ++ repeat no k).
Definition i_amp_ov (k no nv : nat) : tensor := inst k none none (repeat no k ++ repeat nv k).
Lemma i_fock_ok n : is_fock n (i_fock n). Proof. split; [reflexivity|apply inst_herm]. Qed.
Lemma i_tei_ok n : is_tei n (i_tei n).
Proof. split; [reflexivity|]. split; [apply inst_antisym; reflexivity|apply inst_herm]. Qed.
Lemma len_amp k (a b : nat) : length (repeat a k ++ repeat b k)%list = (2 * k)%nat.
Proof. rewrite app_length, !repeat_length. lia. Qed.
Lemma i_amp_ok k no nv : is_amp k no nv (i_amp k no nv).
Proof. split; [reflexivity|]. apply inst_antisym, len_amp. Qed.
Lemma i_amp_ov_ok k no nv : is_amp_ov k no nv (i_amp_ov k no nv).
Proof. split; [reflexivity|]. apply inst_antisym, len_amp. Qed.

(** ** With spin *)
Section SP.
  Variable S : spinmap.
  Variables no nv : nat.
  Let n := (2 * no + 2 * nv)%nat.
  Definition s_fock : tensor := inst 1 (isup S no) (isup S no) [n; n].
  Definition s_tei : tensor := inst 2 (isup S no) (isup S no) [n; n; n; n].
  Definition s_amp (k : nat) : tensor := inst k (isup_vir S) (isup_occ S) (repeat (2 * nv)%nat k ++ repeat (2 * no)%nat k).
  Definition s_amp_ov (k : nat) : tensor := inst k (isup_occ S) (isup_vir S) (repeat (2 * no)%nat k ++ repeat (2 * nv)%nat k).
  Definition blk_full (ss : list spin) (t : tensor) : tensor :=
    mkT (repeat (no + nv)%nat (length ss)) (fun idx => data t (zipw (orb S no) ss idx)).
  Definition blk_amp (ss : list spin) (t : tensor) : tensor :=
    mkT (repeat nv (length ss) ++ repeat no (length ss)) (fun idx => data t
      (zipw (fun s a => nth a (vir S s) O) ss (firstn (length ss) idx) ++
       zipw (fun s i => nth i (occ S s) O) ss (skipn (length ss) idx))).
  Definition blk_amp_ov (ss : list spin) (t : tensor) : tensor :=
    mkT (repeat no (length ss) ++ repeat nv (length ss)) (fun idx => data t
      (zipw (fun s i => nth i (occ S s) O) ss (firstn (length ss) idx) ++
       zipw (fun s a => nth a (vir S s) O) ss (skipn (length ss) idx))).
  Lemma blk_full_ok ss t : block_full S no nv ss t (blk_full ss t).
  Proof. split; reflexivity. Qed.
  Lemma blk_amp_ok ss t : block_amp S no nv ss t (blk_amp ss t).
  Proof.
    split; [reflexivity|]. intros l1 l2 H1 _. unfold blk_amp; cbn [data]. destruct (fs_app _ l1 l2 H1) as [-> ->]. reflexivity.
  Qed.
  Lemma blk_amp_ov_ok ss t : block_amp_ov S no nv ss t (blk_amp_ov ss t).
  Proof.
    split; [reflexivity|]. intros l1 l2 H1 _. unfold blk_amp_ov; cbn [data]. destruct (fs_app _ l1 l2 H1) as [-> ->]. reflexivity.
  Qed.
  Lemma s_amp_ok k : spin_amp S k no nv (s_amp k).
  Proof.
    split; [split; [reflexivity|apply inst_antisym, len_amp]|].
    intros l1 l2 H1 H2 _ H. apply inst_zero; assumption.
  Qed.
  Lemma s_amp_ov_ok k : spin_amp_ov S k no nv (s_amp_ov k).
  Proof.
    split; [split; [reflexivity|apply inst_antisym, len_amp]|].
    intros l1 l2 H1 H2 _ H. apply inst_zero; assumption.
  Qed.
  Lemma s_ham_ok : spin_hamiltonian S no nv s_fock s_tei
    (blk_full [Up; Up] s_fock) (blk_full [Dn; Dn] s_fock)
    (blk_full [Up; Up; Up; Up] s_tei) (blk_full [Dn; Dn; Dn; Dn] s_tei) (blk_full [Up; Dn; Up; Dn] s_tei).
  Proof.
    split. { split; [reflexivity|apply inst_herm]. }
    split. { intros l1 l2 H1 H2 _ H. apply inst_zero; assumption. }
    split. { split; [reflexivity|]. split; [apply inst_antisym; reflexivity|apply inst_herm]. }
    split. { intros l1 l2 H1 H2 _ H. apply inst_zero; assumption. }
    repeat (split; [apply blk_full_ok|]). apply blk_full_ok.
  Qed.
  Lemma blocks1_ok T : blocks1 S no nv T (blk_amp [Up] T) (blk_amp [Dn] T).
  Proof. split; apply blk_amp_ok. Qed.
  Lemma blocks2_ok T : blocks2 S no nv T (blk_amp [Up; Up] T) (blk_amp [Dn; Dn] T) (blk_amp [Up; Dn] T).
  Proof. repeat (split; [apply blk_amp_ok|]); apply blk_amp_ok. Qed.
  Lemma blocks2_ov_ok T : blocks2_ov S no nv T (blk_amp_ov [Up; Up] T) (blk_amp_ov [Dn; Dn] T) (blk_amp_ov [Up; Dn] T).
  Proof. repeat (split; [apply blk_amp_ov_ok|]); apply blk_amp_ov_ok. Qed.
  Lemma blocks3_ok T : blocks3 S no nv T (blk_amp [Up; Up; Up] T) (blk_amp [Up; Up; Dn] T)
    (blk_amp [Up; Dn; Dn] T) (blk_amp [Dn; Dn; Dn] T).
  Proof. repeat (split; [apply blk_amp_ok|]); apply blk_amp_ok. Qed.
  Lemma blocks4_ok T : blocks4 S no nv T (blk_amp [Up; Up; Up; Up] T) (blk_amp [Up; Up; Up; Dn] T)
    (blk_amp [Up; Up; Dn; Dn] T) (blk_amp [Up; Dn; Dn; Dn] T) (blk_amp [Dn; Dn; Dn; Dn] T).
  Proof. repeat (split; [apply blk_amp_ok|]); apply blk_amp_ok. Qed.
End SP.

(** the other index order *)
Definition swap_t (k : nat) (t : tensor) : tensor :=
  mkT (skipn k (shape t) ++ firstn k (shape t))
    (fun idx => data t (skipn (length idx - k) idx ++ firstn (length idx - k) idx)).
Lemma swap_t_ok k t : swapped k t (swap_t k t).
Proof.
  split; [reflexivity|]. intros l1 l2 H1 _. unfold swap_t; cbn [data].
  rewrite app_length, H1. replace (length l2 + k - k)%nat with (length l2) by lia.
  destruct (fs_app (length l2) l2 l1 eq_refl) as [-> ->]. reflexivity.
Qed.

(** alternating spins, two occupied and two virtual spatial orbitals *)
Definition S22 : spinmap :=
  mkSM (fun s => match s with Up => [0; 2]%nat | Dn => [1; 3]%nat end)
       (fun s => match s with Up => [0; 2]%nat | Dn => [1; 3]%nat end).
Lemma S22_ok : spin_ok 2 2 S22.
Proof.
  assert (P : Permutation [0; 2; 1; 3]%nat [0; 1; 2; 3]%nat) by (apply perm_skip, perm_swap).
  repeat split; try (intros []; reflexivity); exact P.
Qed.

(** The instances are not trivial. *)
Example nonzero_tei : data (i_tei 4) [0; 3; 1; 2]%nat <> 0. Proof. vm_compute. discriminate. Qed.
Example nonzero_amp4 : data (i_amp 4 4 4) [0; 3; 1; 2; 0; 1; 2; 3]%nat <> 0. Proof. vm_compute. discriminate. Qed.
Example nonzero_samp4 : data (s_amp S22 2 2 4) [0; 3; 1; 2; 0; 1; 2; 3]%nat <> 0. Proof. vm_compute. discriminate. Qed.
Example nonzero_stei : data (s_tei S22 2 2) [0; 7; 1; 2]%nat <> 0. Proof. vm_compute. discriminate. Qed.
Example zero_stei : data (s_tei S22 2 2) [0; 7; 4; 2]%nat = 0. Proof. vm_compute. apply Qc_is_canon. reflexivity. Qed.
Example nonzero_block : data (blk_amp S22 2 2 [Up; Up; Dn; Dn] (s_amp S22 2 2 4)) [0; 1; 0; 1; 1; 0; 0; 1]%nat <> 0.
Proof. vm_compute. discriminate. Qed.
Definition z_t (sh : list nat) : tensor := mkT sh (fun _ => 0).
Lemma z_t_ok sh : zero_tensor (z_t sh). Proof. intros idx _. reflexivity. Qed.
