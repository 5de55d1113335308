(** Generated by tools/transcribe.py from /repo/UT2/build_approxT3full.py; do not edit. *)
From Coq Require Import String List QArith.
From Verif Require Import Interp.
Import ListNotations.
Open Scope string_scope.

(** /repo/UT2/build_approxT3full.py:5-43  def ccsdtq_t3_aaaaaa_residual *)
Definition ccsdtq_t3_aaaaaa_residual : fn := mkFn
  ["t2_aaaa"; "t2_bbbb"; "t2_abab"; "g_aaaa"; "g_bbbb"; "g_abab"; "oa"; "ob"; "va"; "vb"]
  [(*L10*) SAssign "o" (EVar "oa");
   (*L11*) SAssign "v" (EVar "va");
   (*L14*) SAssign "contracted_intermediate" (EScale (-1 # 1) (EEins "lajk,bcil->abcijk" [(ESlice (EVar "g_aaaa") [SV "o"; SV "v"; SV "o"; SV "o"]); (EVar "t2_aaaa")]));
   (*L15*) SAssign "triples_res" (EAdd (EAdd (EAdd (EScale (1 # 1) (EVar "contracted_intermediate")) (EScale (-1 # 1) (EEins "abcijk->abcjik" [(EVar "contracted_intermediate")]))) (EScale (-1 # 1) (EEins "abcijk->bacijk" [(EVar "contracted_intermediate")]))) (EScale (1 # 1) (EEins "abcijk->bacjik" [(EVar "contracted_intermediate")])));
   (*L18*) SAssign "contracted_intermediate" (EScale (-1 # 1) (EEins "laij,bckl->abcijk" [(ESlice (EVar "g_aaaa") [SV "o"; SV "v"; SV "o"; SV "o"]); (EVar "t2_aaaa")]));
   (*L19*) SAug true "triples_res" (EAdd (EScale (1 # 1) (EVar "contracted_intermediate")) (EScale (-1 # 1) (EEins "abcijk->bacijk" [(EVar "contracted_intermediate")])));
   (*L22*) SAssign "contracted_intermediate" (EScale (-1 # 1) (EEins "lcjk,abil->abcijk" [(ESlice (EVar "g_aaaa") [SV "o"; SV "v"; SV "o"; SV "o"]); (EVar "t2_aaaa")]));
   (*L23*) SAug true "triples_res" (EAdd (EScale (1 # 1) (EVar "contracted_intermediate")) (EScale (-1 # 1) (EEins "abcijk->abcjik" [(EVar "contracted_intermediate")])));
   (*L26*) SAug true "triples_res" (EScale (-1 # 1) (EEins "lcij,abkl->abcijk" [(ESlice (EVar "g_aaaa") [SV "o"; SV "v"; SV "o"; SV "o"]); (EVar "t2_aaaa")]));
   (*L29*) SAssign "contracted_intermediate" (EScale (-1 # 1) (EEins "abdk,dcij->abcijk" [(ESlice (EVar "g_aaaa") [SV "v"; SV "v"; SV "v"; SV "o"]); (EVar "t2_aaaa")]));
   (*L30*) SAug true "triples_res" (EAdd (EAdd (EAdd (EScale (1 # 1) (EVar "contracted_intermediate")) (EScale (-1 # 1) (EEins "abcijk->abcikj" [(EVar "contracted_intermediate")]))) (EScale (-1 # 1) (EEins "abcijk->acbijk" [(EVar "contracted_intermediate")]))) (EScale (1 # 1) (EEins "abcijk->acbikj" [(EVar "contracted_intermediate")])));
   (*L33*) SAssign "contracted_intermediate" (EScale (-1 # 1) (EEins "abdi,dcjk->abcijk" [(ESlice (EVar "g_aaaa") [SV "v"; SV "v"; SV "v"; SV "o"]); (EVar "t2_aaaa")]));
   (*L34*) SAug true "triples_res" (EAdd (EScale (1 # 1) (EVar "contracted_intermediate")) (EScale (-1 # 1) (EEins "abcijk->acbijk" [(EVar "contracted_intermediate")])));
   (*L37*) SAssign "contracted_intermediate" (EScale (-1 # 1) (EEins "bcdk,daij->abcijk" [(ESlice (EVar "g_aaaa") [SV "v"; SV "v"; SV "v"; SV "o"]); (EVar "t2_aaaa")]));
   (*L38*) SAug true "triples_res" (EAdd (EScale (1 # 1) (EVar "contracted_intermediate")) (EScale (-1 # 1) (EEins "abcijk->abcikj" [(EVar "contracted_intermediate")])));
   (*L41*) SAug true "triples_res" (EScale (-1 # 1) (EEins "bcdi,dajk->abcijk" [(ESlice (EVar "g_aaaa") [SV "v"; SV "v"; SV "v"; SV "o"]); (EVar "t2_aaaa")]))]
  (*L43*) (EVar "triples_res").

(** /repo/UT2/build_approxT3full.py:46-91  def ccsdtq_t3_aabaab_residual *)
Definition ccsdtq_t3_aabaab_residual : fn := mkFn
  ["t2_aaaa"; "t2_bbbb"; "t2_abab"; "g_aaaa"; "g_bbbb"; "g_abab"; "oa"; "ob"; "va"; "vb"]
  [(*L51*) SAssign "o" (EVar "oa");
   (*L52*) SAssign "v" (EVar "va");
   (*L55*) SAssign "contracted_intermediate" (EScale (1 # 1) (EEins "aljk,bcil->abcijk" [(ESlice (EVar "g_abab") [SV "v"; SV "o"; SV "o"; SV "o"]); (EVar "t2_abab")]));
   (*L56*) SAssign "triples_res" (EAdd (EAdd (EAdd (EScale (1 # 1) (EVar "contracted_intermediate")) (EScale (-1 # 1) (EEins "abcijk->abcjik" [(EVar "contracted_intermediate")]))) (EScale (-1 # 1) (EEins "abcijk->bacijk" [(EVar "contracted_intermediate")]))) (EScale (1 # 1) (EEins "abcijk->bacjik" [(EVar "contracted_intermediate")])));
   (*L59*) SAssign "contracted_intermediate" (EScale (1 # 1) (EEins "laij,bclk->abcijk" [(ESlice (EVar "g_aaaa") [SV "o"; SV "v"; SV "o"; SV "o"]); (EVar "t2_abab")]));
   (*L60*) SAug true "triples_res" (EAdd (EScale (1 # 1) (EVar "contracted_intermediate")) (EScale (-1 # 1) (EEins "abcijk->bacijk" [(EVar "contracted_intermediate")])));
   (*L63*) SAssign "contracted_intermediate" (EScale (-1 # 1) (EEins "lcjk,abil->abcijk" [(ESlice (EVar "g_abab") [SV "o"; SV "v"; SV "o"; SV "o"]); (EVar "t2_aaaa")]));
   (*L64*) SAug true "triples_res" (EAdd (EScale (1 # 1) (EVar "contracted_intermediate")) (EScale (-1 # 1) (EEins "abcijk->abcjik" [(EVar "contracted_intermediate")])));
   (*L67*) SAug true "triples_res" (EScale (1 # 1) (EEins "acdk,dbij->abcijk" [(ESlice (EVar "g_abab") [SV "v"; SV "v"; SV "v"; SV "o"]); (EVar "t2_aaaa")]));
   (*L70*) SAug true "triples_res" (EScale (1 # 1) (EEins "abdj,dcik->abcijk" [(ESlice (EVar "g_aaaa") [SV "v"; SV "v"; SV "v"; SV "o"]); (EVar "t2_abab")]));
   (*L73*) SAug true "triples_res" (EScale (-1 # 1) (EEins "acjd,bdik->abcijk" [(ESlice (EVar "g_abab") [SV "v"; SV "v"; SV "o"; SV "v"]); (EVar "t2_abab")]));
   (*L76*) SAug true "triples_res" (EScale (-1 # 1) (EEins "abdi,dcjk->abcijk" [(ESlice (EVar "g_aaaa") [SV "v"; SV "v"; SV "v"; SV "o"]); (EVar "t2_abab")]));
   (*L79*) SAug true "triples_res" (EScale (1 # 1) (EEins "acid,bdjk->abcijk" [(ESlice (EVar "g_abab") [SV "v"; SV "v"; SV "o"; SV "v"]); (EVar "t2_abab")]));
   (*L82*) SAug true "triples_res" (EScale (-1 # 1) (EEins "bcdk,daij->abcijk" [(ESlice (EVar "g_abab") [SV "v"; SV "v"; SV "v"; SV "o"]); (EVar "t2_aaaa")]));
   (*L85*) SAug true "triples_res" (EScale (1 # 1) (EEins "bcjd,adik->abcijk" [(ESlice (EVar "g_abab") [SV "v"; SV "v"; SV "o"; SV "v"]); (EVar "t2_abab")]));
   (*L88*) SAug true "triples_res" (EScale (-1 # 1) (EEins "bcid,adjk->abcijk" [(ESlice (EVar "g_abab") [SV "v"; SV "v"; SV "o"; SV "v"]); (EVar "t2_abab")]))]
  (*L91*) (EVar "triples_res").

(** /repo/UT2/build_approxT3full.py:94-139  def ccsdtq_t3_abbabb_residual *)
Definition ccsdtq_t3_abbabb_residual : fn := mkFn
  ["t2_aaaa"; "t2_bbbb"; "t2_abab"; "g_aaaa"; "g_bbbb"; "g_abab"; "oa"; "ob"; "va"; "vb"]
  [(*L99*) SAssign "o" (EVar "oa");
   (*L100*) SAssign "v" (EVar "va");
   (*L103*) SAssign "triples_res" (EScale (1 # 1) (EEins "lbjk,acil->abcijk" [(ESlice (EVar "g_bbbb") [SV "o"; SV "v"; SV "o"; SV "o"]); (EVar "t2_abab")]));
   (*L106*) SAug true "triples_res" (EScale (-1 # 1) (EEins "alik,bcjl->abcijk" [(ESlice (EVar "g_abab") [SV "v"; SV "o"; SV "o"; SV "o"]); (EVar "t2_bbbb")]));
   (*L109*) SAug true "triples_res" (EScale (1 # 1) (EEins "lbik,aclj->abcijk" [(ESlice (EVar "g_abab") [SV "o"; SV "v"; SV "o"; SV "o"]); (EVar "t2_abab")]));
   (*L112*) SAug true "triples_res" (EScale (1 # 1) (EEins "alij,bckl->abcijk" [(ESlice (EVar "g_abab") [SV "v"; SV "o"; SV "o"; SV "o"]); (EVar "t2_bbbb")]));
   (*L115*) SAug true "triples_res" (EScale (-1 # 1) (EEins "lbij,aclk->abcijk" [(ESlice (EVar "g_abab") [SV "o"; SV "v"; SV "o"; SV "o"]); (EVar "t2_abab")]));
   (*L118*) SAug true "triples_res" (EScale (-1 # 1) (EEins "lcjk,abil->abcijk" [(ESlice (EVar "g_bbbb") [SV "o"; SV "v"; SV "o"; SV "o"]); (EVar "t2_abab")]));
   (*L121*) SAug true "triples_res" (EScale (-1 # 1) (EEins "lcik,ablj->abcijk" [(ESlice (EVar "g_abab") [SV "o"; SV "v"; SV "o"; SV "o"]); (EVar "t2_abab")]));
   (*L124*) SAug true "triples_res" (EScale (1 # 1) (EEins "lcij,ablk->abcijk" [(ESlice (EVar "g_abab") [SV "o"; SV "v"; SV "o"; SV "o"]); (EVar "t2_abab")]));
   (*L127*) SAssign "contracted_intermediate" (EScale (-1 # 1) (EEins "abdk,dcij->abcijk" [(ESlice (EVar "g_abab") [SV "v"; SV "v"; SV "v"; SV "o"]); (EVar "t2_abab")]));
   (*L128*) SAug true "triples_res" (EAdd (EAdd (EAdd (EScale (1 # 1) (EVar "contracted_intermediate")) (EScale (-1 # 1) (EEins "abcijk->abcikj" [(EVar "contracted_intermediate")]))) (EScale (-1 # 1) (EEins "abcijk->acbijk" [(EVar "contracted_intermediate")]))) (EScale (1 # 1) (EEins "abcijk->acbikj" [(EVar "contracted_intermediate")])));
   (*L131*) SAssign "contracted_intermediate" (EScale (1 # 1) (EEins "abid,dcjk->abcijk" [(ESlice (EVar "g_abab") [SV "v"; SV "v"; SV "o"; SV "v"]); (EVar "t2_bbbb")]));
   (*L132*) SAug true "triples_res" (EAdd (EScale (1 # 1) (EVar "contracted_intermediate")) (EScale (-1 # 1) (EEins "abcijk->acbijk" [(EVar "contracted_intermediate")])));
   (*L135*) SAssign "contracted_intermediate" (EScale (1 # 1) (EEins "bcdk,adij->abcijk" [(ESlice (EVar "g_bbbb") [SV "v"; SV "v"; SV "v"; SV "o"]); (EVar "t2_abab")]));
   (*L136*) SAug true "triples_res" (EAdd (EScale (1 # 1) (EVar "contracted_intermediate")) (EScale (-1 # 1) (EEins "abcijk->abcikj" [(EVar "contracted_intermediate")])))]
  (*L139*) (EVar "triples_res").

(** /repo/UT2/build_approxT3full.py:142-181  def ccsdtq_t3_bbbbbb_residual *)
Definition ccsdtq_t3_bbbbbb_residual : fn := mkFn
  ["t2_aaaa"; "t2_bbbb"; "t2_abab"; "g_aaaa"; "g_bbbb"; "g_abab"; "oa"; "ob"; "va"; "vb"]
  [(*L147*) SAssign "o" (EVar "oa");
   (*L148*) SAssign "v" (EVar "va");
   (*L151*) SAssign "contracted_intermediate" (EScale (-1 # 1) (EEins "lajk,bcil->abcijk" [(ESlice (EVar "g_bbbb") [SV "o"; SV "v"; SV "o"; SV "o"]); (EVar "t2_bbbb")]));
   (*L152*) SAssign "triples_res" (EAdd (EAdd (EAdd (EScale (1 # 1) (EVar "contracted_intermediate")) (EScale (-1 # 1) (EEins "abcijk->abcjik" [(EVar "contracted_intermediate")]))) (EScale (-1 # 1) (EEins "abcijk->bacijk" [(EVar "contracted_intermediate")]))) (EScale (1 # 1) (EEins "abcijk->bacjik" [(EVar "contracted_intermediate")])));
   (*L155*) SAssign "contracted_intermediate" (EScale (-1 # 1) (EEins "laij,bckl->abcijk" [(ESlice (EVar "g_bbbb") [SV "o"; SV "v"; SV "o"; SV "o"]); (EVar "t2_bbbb")]));
   (*L156*) SAug true "triples_res" (EAdd (EScale (1 # 1) (EVar "contracted_intermediate")) (EScale (-1 # 1) (EEins "abcijk->bacijk" [(EVar "contracted_intermediate")])));
   (*L159*) SAssign "contracted_intermediate" (EScale (-1 # 1) (EEins "lcjk,abil->abcijk" [(ESlice (EVar "g_bbbb") [SV "o"; SV "v"; SV "o"; SV "o"]); (EVar "t2_bbbb")]));
   (*L160*) SAug true "triples_res" (EAdd (EScale (1 # 1) (EVar "contracted_intermediate")) (EScale (-1 # 1) (EEins "abcijk->abcjik" [(EVar "contracted_intermediate")])));
   (*L163*) SAug true "triples_res" (EScale (-1 # 1) (EEins "lcij,abkl->abcijk" [(ESlice (EVar "g_bbbb") [SV "o"; SV "v"; SV "o"; SV "o"]); (EVar "t2_bbbb")]));
   (*L166*) SAssign "contracted_intermediate" (EScale (-1 # 1) (EEins "abdk,dcij->abcijk" [(ESlice (EVar "g_bbbb") [SV "v"; SV "v"; SV "v"; SV "o"]); (EVar "t2_bbbb")]));
   (*L167*) SAug true "triples_res" (EAdd (EAdd (EAdd (EScale (1 # 1) (EVar "contracted_intermediate")) (EScale (-1 # 1) (EEins "abcijk->abcikj" [(EVar "contracted_intermediate")]))) (EScale (-1 # 1) (EEins "abcijk->acbijk" [(EVar "contracted_intermediate")]))) (EScale (1 # 1) (EEins "abcijk->acbikj" [(EVar "contracted_intermediate")])));
   (*L170*) SAssign "contracted_intermediate" (EScale (-1 # 1) (EEins "abdi,dcjk->abcijk" [(ESlice (EVar "g_bbbb") [SV "v"; SV "v"; SV "v"; SV "o"]); (EVar "t2_bbbb")]));
   (*L171*) SAug true "triples_res" (EAdd (EScale (1 # 1) (EVar "contracted_intermediate")) (EScale (-1 # 1) (EEins "abcijk->acbijk" [(EVar "contracted_intermediate")])));
   (*L174*) SAssign "contracted_intermediate" (EScale (-1 # 1) (EEins "bcdk,daij->abcijk" [(ESlice (EVar "g_bbbb") [SV "v"; SV "v"; SV "v"; SV "o"]); (EVar "t2_bbbb")]));
   (*L175*) SAug true "triples_res" (EAdd (EScale (1 # 1) (EVar "contracted_intermediate")) (EScale (-1 # 1) (EEins "abcijk->abcikj" [(EVar "contracted_intermediate")])));
   (*L178*) SAug true "triples_res" (EScale (-1 # 1) (EEins "bcdi,dajk->abcijk" [(ESlice (EVar "g_bbbb") [SV "v"; SV "v"; SV "v"; SV "o"]); (EVar "t2_bbbb")]))]
  (*L181*) (EVar "triples_res").
