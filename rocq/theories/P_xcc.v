(** The XCCD(n) contributions of XCCDbasebuilder.build_XCCDbase: for antisymmetric T2 every order returns an
    antisymmetric array (part of C01). *)
From Coq Require Import String Ascii List Arith NArith ZArith QArith Qcanon Bool Lia Permutation.
From Verif Require Import Sums Tensor Interp Numpy Poly SymExec Canon Spec Instances Setup Master Spin Check Tabs NF Antisym P_antisym.
From Verif Require Import Diis Kernel SlowCC Cut.
From Verif Require Code_XCCDbasebuilder Code_antisym_t4resids.
Import ListNotations.
Open Scope string_scope.

Definition ov4 : list N := [0;0;0;0;1;1;1;1]%N.
Definition xcc_info : sval :=
  SDict [("nocc", SDim 0); ("nvir", SDim 1); ("tamps", zr [1;1;0;0]%N); ("ints", SFull 1 [0;0;0;0]%N); ("oa", SSl 0); ("va", SSl 1)].
Definition xcc_args (pickle : bool) : list sval :=
  ([at_ 3 [1;1;0;0]%N; SNone; xcc_info] ++ if pickle then [at_ 8 ov4] else [])%list.

(** the array handed to the antisymmetriser has four occupied and four virtual axes *)
Definition pre_ok (f : fn) (n : nat) (a : string) (pk : bool) : bool :=
  match (do e <- spre xcc_lib f n (xcc_args pk); sevals so_slm (scall1 xcc_lib) e [EVar a; EVar "nocc"; EVar "nvir"]) with
  | Some [SP s _; SDim d0; SDim d1] => (eqb_sps s ov4 && N.eqb d0 0 && N.eqb d1 1)%bool
  | _ => false
  end.
Definition post (f : fn) (n : nat) (pk : bool) : option sval :=
  spost xcc_lib f n "t4" (at_ 5 ov4) (spre xcc_lib f n (xcc_args pk)).

Section Xcc.
  Variables no nv : nat.
  Variables g t2 : tensor.
  Hypothesis Hg : is_tei (no + nv) g.
  Hypothesis Ht : is_amp 2 no nv t2.
  Definition xshape : list nat := [no; no; no; no; nv; nv; nv; nv].
  Section Tab.
    Variables p T4 : tensor.
    Hypothesis Hp : shape p = xshape.
    Hypothesis H4 : is_amp_ov 4 no nv T4.
    Definition xcc_tab : atomtab :=
      [(1%N, ([6;6;6;6]%N, g)); (3%N, ([1;1;0;0]%N, t2)); (8%N, (ov4, p)); (5%N, (ov4, T4))].
    Lemma xshape_ok : xshape = map (dim (so_range no nv)) ov4.
    Proof. symmetry. exact (sh_ov no nv 4). Qed.
    Lemma xcc_ok : Forall (atom_ok (so_range no nv) sy) xcc_tab.
    Proof.
      unfold xcc_tab. constructor; [apply ok_tei; exact Hg|]. constructor; [apply (ok_amp _ _ _ 2); [reflexivity|lia|exact Ht]|].
      constructor; [apply atom_ok_gen; [reflexivity|rewrite Hp; apply xshape_ok]|].
      constructor; [|constructor]. apply (ok_amp_ov _ _ _ 4); [reflexivity|lia|exact H4].
    Qed.
    Definition xcc_vals (pk : bool) : list value :=
      ([VT t2; VNone; contract_info no nv g] ++ if pk then [VT p] else [])%list.
    Lemma xcc_vs pk : Forall2 (so_vsim no nv xcc_tab) (xcc_args pk) (xcc_vals pk).
    Proof.
      assert (HI : so_vsim no nv xcc_tab xcc_info (contract_info no nv g)).
      { unfold xcc_info, contract_info. constructor.
        apply (ds_cons _ _ _ _ _ "nocc"); [apply so_dimO|]. apply (ds_cons _ _ _ _ _ "nvir"); [apply so_dimV|].
          apply (ds_cons _ _ _ _ _ "tamps"); [apply (v_zero_vo _ _ _ 2); [reflexivity|intros i; reflexivity]|].
          apply (ds_cons _ _ _ _ _ "ints"); [apply v_tei; [reflexivity|exact Hg]|].
          apply (ds_cons _ _ _ _ _ "oa"); [apply v_o|]. apply (ds_cons _ _ _ _ _ "va"); [apply v_v|constructor]. }
      unfold xcc_args, xcc_vals. cbn [app]. constructor; [eapply (v_amp _ _ _ _ 2); [reflexivity|exact Ht]|].
      constructor; [apply so_none|]. constructor; [exact HI|]. destruct pk; constructor; [|constructor].
      apply so_atom; [reflexivity|]. rewrite Hp. apply xshape_ok.
    Qed.
  End Tab.
  Lemma xcc_cut f n a (pk : bool) p :
    nth_error (fbody f) n = Some (SAssign "t4" (ECall "antisym.antisym_t4_residual" [EVar a; EVar "nocc"; EVar "nvir"])) ->
    pre_ok f n a pk = true ->
    (pk = true -> shape p = xshape) ->
    exists p' T, Forall (atom_ok (so_range no nv) sy) (xcc_tab p' T) /\
      forall r, post f n pk = Some r -> exists R, run 1 xcc_lib f (xcc_vals p pk) = Some R /\ so_vsim no nv (xcc_tab p' T) r R.
  Proof.
    intros Hn HP Hpk.
    assert (exists p', shape p' = xshape /\ xcc_vals p pk = xcc_vals p' pk) as [p' [Hp' ->]].
    { destruct pk; [exists p; split; [apply Hpk; reflexivity|reflexivity]|]. exists (tzeros xshape). split; reflexivity. }
    unfold pre_ok in HP.
    destruct (do e <- spre _ _ _ _; _) as [l|] eqn:EP; [|discriminate].
    destruct l as [|[s q| | | | |] [|[| | |d0| |] [|[| | |d1| |] [|]]]]; try discriminate.
    rewrite !andb_true_iff in HP. destruct HP as [[E1 E2] E3]. apply eqb_sps_eq in E1. apply N.eqb_eq in E2, E3. subst s d0 d1.
    destruct (so_cut no nv xcc_lib _ f n (xcc_args pk) (xcc_vals p' pk) "t4" _ _ a "nocc" "nvir" ov4 q Hn eq_refl
                (xcc_vs p' (tzeros xshape) Hp' pk) EP) as [U [_ [SU HU]]].
    destruct (proj2 (proj2 (proj2 (proj2 C21_antisymmetrisers))) no nv U) as [T [HT [[ST _] [AT _]]]].
    { rewrite SU, <- xshape_ok. reflexivity. }
    assert (HT4 : is_amp_ov 4 no nv T).
    { split; [|exact AT]. rewrite ST, SU, <- xshape_ok. reflexivity. }
    exists p', T. split; [exact (xcc_ok p' T Hp' HT4)|]. intros r ER.
    assert (VS := xcc_vs p' T Hp' pk).
    destruct (HU T HT (xcc_tab p' T) (at_ 5 ov4) VS) with (r := r) as [R [HR VR]]; [|exact ER|].
    { apply so_atom; [reflexivity|]. rewrite ST. exact SU. }
    exists R. split; assumption.
  Qed.
  (** a builder runs and its result is antisymmetric *)
  Theorem xcc_runs f n a (pk : bool) p :
    nth_error (fbody f) n = Some (SAssign "t4" (ECall "antisym.antisym_t4_residual" [EVar a; EVar "nocc"; EVar "nvir"])) ->
    pre_ok f n a pk = true -> (antis [1;1;0;0]%N 0 (post f n pk) /\ antis [1;1;0;0]%N 2 (post f n pk)) ->
    (pk = true -> shape p = xshape) ->
    exists R, call1 f (xcc_vals p pk) = Some R /\ is_amp 2 no nv R.
  Proof.
    intros Hn HP [HA0 HA2] Hpk. destruct (xcc_cut f n a pk p Hn HP Hpk) as [p' [T [OK HC]]].
    destruct (post f n pk) as [r|] eqn:ER; [|destruct HA0 as [h HA0]; discriminate].
    destruct (HC r eq_refl) as [R [HR VR]].
    assert (exists q', r = SP [1;1;0;0]%N q') as [q' ->].
    { destruct HA0 as [h HA0]. unfold so_chkb, chk in HA0. rewrite !andb_true_iff in HA0. destruct HA0 as [[[O1 _] _] _].
      apply outsp_ok in O1. injection O1 as O1. eexists. exact O1. }
    inversion VR as [? ? R' T1| | | | |]; subst. exists R'. split; [unfold call1; rewrite HR; reflexivity|]. split.
    - destruct T1 as [-> _]. exact (sh_vo no nv 2).
    - intros i Hi. assert (i = 0%nat) as -> by lia.
      split; [|change (2 + 0)%nat with 2%nat]; (eapply (so_vs_antis no nv _ [1;1;0;0]%N); [exact OK|cbn; lia|cbn; lia|exact VR|]).
      + exact HA0.
      + exact HA2.
  Qed.
  (** the array written to the file *)
  Theorem dump_runs : exists P, call1 Code_XCCDbasebuilder.build_XCCDbase_5_dump (xcc_vals (tzeros []) false) = Some P /\ shape P = xshape.
  Proof.
    destruct (xcc_cut Code_XCCDbasebuilder.build_XCCDbase_5_dump 15 "Roooovvvv" false (tzeros [])) as [p' [T [OK HC]]];
      [reflexivity|vm_compute; reflexivity|discriminate|].
    destruct (HC (at_ 5 ov4)) as [R [HR VR]]; [vm_compute; reflexivity|].
    inversion VR as [? ? R' T1| | | | |]; subst. exists R'. split; [unfold call1; rewrite HR; reflexivity|].
    destruct T1 as [-> _]. symmetry. apply xshape_ok.
  Qed.
End Xcc.

Ltac xcc_ f n a pk := eapply (xcc_runs _ _ _ _ ltac:(eassumption) ltac:(eassumption) f n a pk); [reflexivity|vm_compute; reflexivity|unfold post; split; chk_|first [discriminate|intros _; eassumption]].
Section Builders.
  Variables no nv : nat.
  Variables g t2 : tensor.
  Hypothesis Hg : is_tei (no + nv) g.
  Hypothesis Ht : is_amp 2 no nv t2.
  Lemma base5 p : exists R, call1 Code_XCCDbasebuilder.build_XCCDbase_5 (xcc_vals no nv g t2 p false) = Some R /\ is_amp 2 no nv R.
  Proof. xcc_ Code_XCCDbasebuilder.build_XCCDbase_5 15%nat "Roooovvvv" false. Qed.
  Lemma base6 p : exists R, call1 Code_XCCDbasebuilder.build_XCCDbase_6 (xcc_vals no nv g t2 p false) = Some R /\ is_amp 2 no nv R.
  Proof. xcc_ Code_XCCDbasebuilder.build_XCCDbase_6 15%nat "Roooovvvv" false. Qed.
  Lemma base8 p : exists R, call1 Code_XCCDbasebuilder.build_XCCDbase_8 (xcc_vals no nv g t2 p false) = Some R /\ is_amp 2 no nv R.
  Proof. xcc_ Code_XCCDbasebuilder.build_XCCDbase_8 13%nat "t4" false. Qed.
  Lemma base7 p : shape p = xshape no nv ->
    exists R, call1 Code_XCCDbasebuilder.build_XCCDbase_7 (xcc_vals no nv g t2 p true) = Some R /\ is_amp 2 no nv R.
  Proof. intros HP. xcc_ Code_XCCDbasebuilder.build_XCCDbase_7 15%nat "Roooovvvv" true. Qed.
  Lemma base9 p : shape p = xshape no nv ->
    exists R, call1 Code_XCCDbasebuilder.build_XCCDbase_9 (xcc_vals no nv g t2 p true) = Some R /\ is_amp 2 no nv R.
  Proof. intros HP. xcc_ Code_XCCDbasebuilder.build_XCCDbase_9 15%nat "Roooovvvv" true. Qed.

  (** Every order 5 to 9 succeeds on antisymmetric amplitudes and returns an antisymmetric array; orders 7 and 9
      need the file to hold an array of the right shape, and no order changes that. *)
  Definition good_disk (w : disk) : Prop := exists p, w = Some p /\ shape p = xshape no nv.
  Theorem xcc_base_ok order w : (5 <= order <= 9)%nat -> (order = 5%nat \/ good_disk w) ->
    exists R w', xcc_base no nv g order t2 w = Some (R, w') /\ is_amp 2 no nv R /\ (order = 5%nat \/ w' = w) /\ good_disk w'.
  Proof.
    intros Ho Hd. destruct (base5 (tzeros [])) as [R5 [H5 A5]]. destruct (dump_runs no nv g t2 Hg Ht) as [P [HP SP]].
    destruct (base6 (tzeros [])) as [R6 [H6 A6]]. destruct (base8 (tzeros [])) as [R8 [H8 A8]].
    unfold xcc_vals in *. cbn [app] in *.
    assert (D : order = 5%nat \/ (order <> 5%nat /\ good_disk w)) by (destruct Hd; [left; assumption|destruct (Nat.eq_dec order 5); auto]).
    destruct D as [->|[N5 [p [-> Sp]]]].
    - exists R5, (Some P). unfold xcc_base. rewrite H5, HP. cbn [obind]. repeat (split; [auto|]). exists P. auto.
    - destruct (base7 p Sp) as [R7 [H7 A7]]. destruct (base9 p Sp) as [R9 [H9 A9]]. unfold xcc_vals in *. cbn [app] in *.
      assert (order = 6 \/ order = 7 \/ order = 8 \/ order = 9)%nat as [->|[->|[->| ->]]] by lia; unfold xcc_base; cbn [obind].
      + exists R6, (Some p). rewrite H6. cbn [obind]. repeat (split; [auto|]). exists p. auto.
      + exists R7, (Some p). rewrite H7. cbn [obind]. repeat (split; [auto|]). exists p. auto.
      + exists R8, (Some p). rewrite H8. cbn [obind]. repeat (split; [auto|]). exists p. auto.
      + exists R9, (Some p). rewrite H9. cbn [obind]. repeat (split; [auto|]). exists p. auto.
  Qed.
End Builders.
