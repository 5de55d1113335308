(** Model of the older, function-based iteration loop run_ccd.ccd_kernel (/repo/UT2/run_ccd.py:247-601).
    The equations are the transcribed functions of the Code_ files.  [None] = an exception.
    Simplifications: as in SpinCC.v (elementwise operations need equal shapes, 1/0 = 0 in [trecip]); printing is left
    out; the eigenvalue step of the label "DiagCCD" is a parameter [diag]. *)
From Coq Require Import String Ascii List Arith ZArith QArith Qcanon Bool Lia.
From Coq Require Qcabs.
From Verif Require Import Sums Tensor Interp Numpy Spec Diis Kernel SlowCC SpinCC.
From Verif Require Code_t2residEqns Code_t2energy Code_modify_T2resid_T4Qf1 Code_modify_T2resid_T4Qf2 Code_modify_T2energy_pertQf.
Import ListNotations.
Open Scope string_scope.

(** the three amplitude arrays t2aaaa, t2bbbb, t2abab *)
Record amps3 := mkA { A_aa : tensor; A_bb : tensor; A_ab : tensor }.
(** run_ccd.py:311-312: 75 passes, threshold 1e-12 *)
Definition legacy_max_iter : nat := 75.
Definition legacy_eps : Qc := Q2Qc (1 # 1000000000000).

(** run_ccd.py:417-425 and 475-479: a zero array of shape (nv, nv, no, no) whose entries [a,a,i,i] are copied from [r];
    raises IndexError when [r] is smaller *)
Definition pairs_of (nv no : nat) (r : tensor) : option tensor :=
  match shape r with
  | [s0; s1; s2; s3] =>
      if (Nat.eqb nv 0 || Nat.eqb no 0 || (Nat.leb nv s0 && Nat.leb nv s1 && Nat.leb no s2 && Nat.leb no s3))%bool
      then Some (mkT [nv; nv; no; no] (fun idx =>
             match idx with
             | [a; b; i; j] => if (Nat.eqb a b && Nat.eqb i j)%bool then data r [a; a; i; i] else 0%Qc
             | _ => 0%Qc
             end))
      else None
  | _ => None
  end.

Section Legacy.
  Variables na nb nva nvb : nat.
  Variables f_aa f_bb g_aaaa g_bbbb g_abab : tensor.
  Variables Daa Dbb Dab : tensor.                                    (* eabij_aa, eabij_bb, eabij_ab *)
  Variables hfE nucE : Qc.
  Variable dsize : option nat.                                       (* diis_size *)
  Variable dstart : nat.                                             (* diis_start_cycle *)
  Variable ty : string.                                              (* cc_runtype["ccdType"] *)
  Variable solve : solver.
  (* run_ccd.py:483-520: what the eigenvalue step binds t2aaaa, t2bbbb, t2abab to *)
  Variable diag : amps3 -> option amps3.

  Definition largs (t : amps3) := base_args na nb f_aa f_bb g_aaaa g_bbbb g_abab (A_aa t) (A_bb t) (A_ab t).
  (** run_ccd.py:320-324 *)
  Definition adjoint (t : amps3) : option amps3 :=
    do a <- ttransp [2; 3; 0; 1]%nat (A_aa t); do b <- ttransp [2; 3; 0; 1]%nat (A_bb t); do c <- ttransp [2; 3; 0; 1]%nat (A_ab t);
    Some (mkA a b c).
  Definition qargs (l t : amps3) : list value :=
    [three g_aaaa g_bbbb g_abab; three (A_aa l) (A_bb l) (A_ab l); three (A_aa t) (A_bb t) (A_ab t); o_ na; v_ na].

  (** run_ccd.py:328-382: `ccd_t2_xxxx_residual(...) + fock_e_abij * t2xxxx`, with fock_e_abij the reciprocal of eabij *)
  (** (the last argument, cc_runtype, is not read by these routines) *)
  Definition shifted (f : fn) (D x : tensor) (t : amps3) : option tensor :=
    do r <- call0 f (largs t ++ [VNone])%list; do y <- tbin Qcmult (trecip D) x; tbin Qcplus r y.
  (** run_ccd.py:385-408: the label-dependent additions *)
  Definition lqf (f1 f2 : fn) (l t : amps3) (r : tensor) : option tensor :=
    if ty =? "CCDQf-1" then do q1 <- call0 f1 (qargs l t); tbin Qcplus r (tscale (Q2Qc (1 # 2)) q1)
    else if ty =? "CCDQf-2" then
      do q1 <- call0 f1 (qargs l t); do q2 <- call0 f2 (qargs l t);
      do x <- tbin Qcplus (tscale (Q2Qc (1 # 2)) q1) (tscale (Q2Qc (1 # 6)) q2); tbin Qcplus r x
    else Some r.
  (** run_ccd.py:328-430: resid_aaaa, resid_bbbb, resid_abab, after the first pCCD block *)
  Definition lresid (l t : amps3) : option amps3 :=
    do raa <- shifted Code_t2residEqns.ccd_t2_aaaa_residual Daa (A_aa t) t;
    do rbb <- shifted Code_t2residEqns.ccd_t2_bbbb_residual Dbb (A_bb t) t;
    do rab <- shifted Code_t2residEqns.ccd_t2_abab_residual Dab (A_ab t) t;
    do raa <- lqf Code_modify_T2resid_T4Qf1.residQf1_aaaa Code_modify_T2resid_T4Qf2.residQf2_aaaa l t raa;
    do rbb <- lqf Code_modify_T2resid_T4Qf1.residQf1_bbbb Code_modify_T2resid_T4Qf2.residQf2_bbbb l t rbb;
    do rab <- lqf Code_modify_T2resid_T4Qf1.residQf1_abab Code_modify_T2resid_T4Qf2.residQf2_abab l t rab;
    if ty =? "pCCD" then
      do _ <- pairs_of nva na raa; do _ <- pairs_of nva na rbb; do tab <- pairs_of nva na rab;
      Some (mkA (tscale 0 raa) (tscale 0 rbb) tab)
    else Some (mkA raa rbb rab).
  (** run_ccd.py:431-482: new_doubles_aaaa, _bbbb, _abab *)
  Definition lnew (r : amps3) : option amps3 :=
    do naa <- tbin Qcmult (A_aa r) Daa; do nbb <- tbin Qcmult (A_bb r) Dbb; do nab <- tbin Qcmult (A_ab r) Dab;
    if ty =? "pCCD" then
      let naa := tscale 0 naa in
      do tmp <- pairs_of nva na (A_ab r); do nab <- tbin Qcmult tmp Dab;
      Some (mkA naa naa nab)
    else Some (mkA naa nbb nab).

  Record lstate := mkL { lamps : amps3; lvec : vec; ldiis : diis }.
  Definition stack3 (t : amps3) : vec := hstack (map flatten [A_aa t; A_bb t; A_ab t]).
  (** run_ccd.py:523-542: the arrays get the shapes of the current t2aaaa, t2bbbb, t2abab *)
  Definition unstack3 (t : amps3) (v : vec) : option amps3 :=
    let da := size (shape (A_aa t)) in let db := size (shape (A_bb t)) in
    do a <- reshape (shape (A_aa t)) (vslice 0 da v);
    do b <- reshape (shape (A_bb t)) (vslice da (da + db) v);
    do c <- reshape (shape (A_ab t)) (vfrom (da + db) v);
    Some (mkA a b c).
  Definition ldiis_block (cur new : amps3) (s : lstate) : option (amps3 * vec * diis) :=
    match dsize with
    | None => Some (new, lvec s, ldiis s)
    | Some _ =>
        do err <- vbin Qcminus (lvec s) (stack3 new);
        do nd <- compute_new_vec solve (ldiis s) (stack3 new) err;
        do n <- unstack3 cur (fst nd);
        Some (n, fst nd, snd nd)
    end.
  Definition lenergy (t : amps3) : option Qc :=
    do e <- call0 Code_t2energy.ccd_energy_with_spin (largs t); Some (data e []).

  (** one pass, run_ccd.py:319-557: the new state and current_energy *)
  Definition lpass (s : lstate) : option (lstate * Qc) :=
    let t := lamps s in
    do l <- adjoint t;
    do r <- lresid l t;
    do n <- lnew r;
    do cur <- (if ty =? "DiagCCD" then diag n else Some t);
    do x <- ldiis_block cur n s;
    do e <- lenergy (fst (fst x));
    Some (mkL (fst (fst x)) (snd (fst x)) (snd x), e).
  (** run_ccd.py:318-579: the `for ... else` loop; returns the last state, current_energy and the amplitudes the last
      pass started from (the t2 and l2 dictionaries still refer to them after the loop) *)
  Fixpoint lloop (n : nat) (s : lstate) (old : Qc) : option (lstate * Qc * amps3) :=
    match n with
    | O => None                                                       (* raise ValueError *)
    | S n' =>
        do se <- lpass s;
        if Qclt_le_dec (Qcabs.Qcabs (old - snd se)) legacy_eps then Some (fst se, snd se, lamps s)
        else lloop n' (fst se) (snd se)
    end.
  (** run_ccd.py:270-309; old_vec and the DIIS object exist, and are read, only with diis_size *)
  Definition linit : lstate :=
    let z := mkA (tzeros [nva; nva; na; na]) (tzeros [nvb; nvb; nb; nb]) (tzeros [nva; nvb; na; nb]) in
    mkL z (stack3 z) (diis_new (match dsize with Some n => n | None => O end) dstart).
  (** the whole function: (t2aaaa, t2bbbb, t2abab, tfinalEnergy, corrE), run_ccd.py:581-601 *)
  Definition legacy_kernel : option (amps3 * Qc * Qc) :=
    do e0 <- lenergy (lamps linit);
    do r <- lloop legacy_max_iter linit e0;
    let '(s, e, t) := r in
    if ty =? "CCD(Qf)" then
      do l <- adjoint t;
      do q <- call0 Code_modify_T2energy_pertQf.energy_pertQf (qargs l t);
      Some (lamps s, e + nucE + data q [], data q [])%Qc
    else Some (lamps s, e + nucE, nucE + e)%Qc.
End Legacy.
