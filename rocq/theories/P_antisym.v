(** C21: the antisymmetrisers. *)
From Coq Require Import String Ascii List Arith NArith ZArith QArith Qcanon Bool Lia Permutation.
From Verif Require Import Sums Tensor Interp Poly SymExec Canon Spec Instances Setup Master Spin Check Tabs Antisym.
From Verif Require Code_tamps Code_antisym_t4resids.
Import ListNotations.
Open Scope string_scope.

(** Everything a caller needs to know about an antisymmetriser [f] for arrays with k occupied and k virtual
    axes: it is the signed sum over all (k!)^2 permutations, its result is antisymmetric, and it multiplies
    an antisymmetric array by (k!)^2. *)
Definition is_antisymmetriser (f : fn) (k : nat) : Prop :=
  forall no nv X, shape X = (repeat no k ++ repeat nv k)%list ->
  exists R, returns 0 [] f [VT X; VInt no; VInt nv] R /\
    antisymmetrised k X R /\ antisymmetric k R /\
    (antisymmetric k X -> forall idx, inr idx (shape X) ->
       data R idx = Q2Qc (inject_Z (Z.of_nat (fact k * fact k))) * data X idx)%Qc.

Definition asym_args (n : N) (k : nat) : list sval := [at_ n (repeat 0%N k ++ repeat 1%N k); SDim 0; SDim 1].
Definition atom_of (k : nat) : N := match k with 1%nat => 2%N | 2%nat => 3%N | 3%nat => 4%N | _ => 5%N end.
Definition antisym_check1 (f : fn) (k : nat) : Prop := antchk 8 k 0 1 (srun so_slm 0 [] f (asym_args 8 k)).
Definition antisym_check2 (f : fn) (k : nat) : Prop :=
  let sps := (repeat 0%N k ++ repeat 1%N k)%list in
  let n := atom_of k in
  so_chk sps (srun so_slm 0 [] f (asym_args n k))
     (Some (SP sps [T (inject_Z (Z.of_nat (fact k * fact k))) [] [(n, xvs sps)]])).

Lemma antisymmetriser_of_checks f k : (1 <= k <= 4)%nat -> antisym_check1 f k -> antisym_check2 f k ->
  is_antisymmetriser f k.
Proof.
  intros Hk C1 C3 no nv X Hs.
  set (sps := (repeat 0%N k ++ repeat 1%N k)%list) in *.
  assert (Hs' : shape X = map (dim (so_range no nv)) sps) by (unfold sps; rewrite sh_ov; exact Hs).
  set (atoms := [(8%N, (sps, X))] : atomtab).
  assert (OK : Forall (atom_ok (so_range no nv) sy) atoms).
  { constructor; [|constructor]. apply atom_ok_gen; [reflexivity|exact Hs']. }
  assert (VS : Forall2 (so_vsim no nv atoms) (asym_args 8 k) [VT X; VInt no; VInt nv]).
  { unfold asym_args. fold sps. constructor; [|constructor; [|constructor; [|constructor]]].
    - apply so_atom; [reflexivity|exact Hs'].
    - apply so_dimO.
    - apply so_dimV. }
  destruct (so_antisymmetrised no nv atoms 8%N k 0 1 X 0 [] f _ _ OK eq_refl Hs' VS C1) as [R [HR HA]].
  exists R. split; [exact HR|]. split; [exact HA|]. split.
  - eapply antisymmetrised_antisymmetric; [exact Hs|exact HA].
  - intros HX idx Hidx. unfold antisym_check2 in C3. cbv zeta in C3. set (n := atom_of k) in *.
    set (atoms' := [(n, (sps, X))] : atomtab).
    assert (Hn : sy n = SD [k; k] true false).
    { unfold n, atom_of. destruct k as [|[|[|[|[|k]]]]]; try lia; reflexivity. }
    assert (NL : nlook n atoms' = Some (sps, X)).
    { unfold atoms'. cbn [nlook]. rewrite N.eqb_refl. reflexivity. }
    assert (OK' : Forall (atom_ok (so_range no nv) sy) atoms').
    { constructor; [|constructor]. apply atom_ok_amp; [exact Hn|lia|exact Hs'|exact HX]. }
    assert (VS' : Forall2 (so_vsim no nv atoms') (asym_args n k) [VT X; VInt no; VInt nv]).
    { unfold asym_args. fold sps. constructor; [|constructor; [|constructor; [|constructor]]].
      - apply so_atom; [exact NL|exact Hs'].
      - apply so_dimO.
      - apply so_dimV. }
    destruct C3 as [h C3]. fold sps in C3. unfold so_chkb, chk in C3. rewrite !andb_true_iff in C3. destruct C3 as [[[O1 _] Hg] Hp].
    apply outsp_ok in O1. destruct (so_run _ _ _ _ _ _ _ _ _ _ VS' O1) as [R' [HR' HT]].
    assert (R' = R) as -> by (unfold returns in *; congruence).
    pose proof (tsim_atom (so_range no nv) atoms' (so_nodup no nv) n sps X NL Hs') as HTX.
    set (c := inject_Z (Z.of_nat (fact k * fact k))) in *.
    assert (HTX' : so_tsim no nv atoms' sps [T c [] [(n, xvs sps)]] (tscale (Q2Qc c) X)).
    { destruct HTX as [A1 A2]. split; [exact A1|]. intros idx' e Hi Hag. cbn [data tscale].
      rewrite (A2 idx' e Hi Hag). unfold evalP, evalT. cbn [suml tc td tf sumD].
      change (Q2Qc 1) with 1%Qc. ring. }
    cbn [getp] in Hp.
    pose proof (so_peq no nv atoms' OK' h sps _ _ _ _ Hg Hp HT HTX') as [E1 E2].
    rewrite E2; [reflexivity|]. destruct HT as [-> _]. rewrite <- Hs'. exact Hidx.
Qed.

(** C21.  Every antisymmetriser of the code base, for all array sizes and contents. *)
Theorem C21_antisymmetrisers :
  is_antisymmetriser Code_tamps.antisym_T2 2 /\
  is_antisymmetriser Code_tamps.antisym_T3 3 /\
  is_antisymmetriser Code_tamps.antisym_T4 4 /\
  is_antisymmetriser Code_antisym_t4resids.antisymmetrize_residual_2_2 2 /\
  is_antisymmetriser Code_antisym_t4resids.antisym_t4_residual 4.
Proof.
  split; [|split; [|split; [|split]]].
  - apply antisymmetriser_of_checks; [lia|unfold antisym_check1, antchk; cbv zeta; chk_|unfold antisym_check2; cbv zeta; chk_].
  - apply antisymmetriser_of_checks; [lia|unfold antisym_check1, antchk; cbv zeta; chk_|unfold antisym_check2; cbv zeta; chk_].
  - apply antisymmetriser_of_checks; [lia|unfold antisym_check1, antchk; cbv zeta; chk_|unfold antisym_check2; cbv zeta; chk_].
  - apply antisymmetriser_of_checks; [lia|unfold antisym_check1, antchk; cbv zeta; chk_|unfold antisym_check2; cbv zeta; chk_].
  - apply antisymmetriser_of_checks; [lia|unfold antisym_check1, antchk; cbv zeta; chk_|unfold antisym_check2; cbv zeta; chk_].
Qed.
Print Assumptions C21_antisymmetrisers.

(** Non-trivial instances: the antisymmetriser of a 2x2x2x2 array with the single non-zero entry [0,1,0,1]
    has the four entries +1,-1,-1,+1; and the parity convention of the specification. *)
Example signed_perms_012 : signed_perms [0;1;2]%nat =
  [(true, [0;1;2]); (false, [1;0;2]); (true, [1;2;0]); (false, [0;2;1]); (true, [2;0;1]); (false, [2;1;0])]%nat.
Proof. reflexivity. Qed.
Example antisym_T2_on_a_unit : exists R,
  returns 0 [] Code_tamps.antisym_T2
    [VT (mkT [2;2;2;2]%nat (fun i => match i with [0;1;0;1]%nat => 1%Qc | _ => 0%Qc end)); VInt 2; VInt 2] R /\
  data R [0;1;0;1]%nat = 1%Qc /\ data R [1;0;0;1]%nat = (-(1))%Qc /\ data R [0;1;1;0]%nat = (-(1))%Qc /\
  data R [1;0;1;0]%nat = 1%Qc /\ data R [0;0;0;1]%nat = 0%Qc.
Proof.
  eexists. split; [reflexivity|]. repeat split; vm_compute; apply Qc_is_canon; reflexivity.
Qed.
