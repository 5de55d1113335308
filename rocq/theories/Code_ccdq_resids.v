(** Generated by tools/transcribe.py from /repo/UT2/ccdq_resids.py; do not edit. *)
From Coq Require Import String List QArith.
From Verif Require Import Interp.
Import ListNotations.
Open Scope string_scope.

(** /repo/UT2/ccdq_resids.py:3-104  def ccdq_t2_aaaa_residual *)
Definition ccdq_t2_aaaa_residual : fn := mkFn
  ["t2_aaaa"; "t2_bbbb"; "t2_abab"; "t4_aaaaaaaa"; "t4_aaabaaab"; "t4_aabbaabb"; "t4_abbbabbb"; "t4_bbbbbbbb"; "f_aa"; "f_bb"; "g_aaaa"; "g_bbbb"; "g_abab"; "oa"; "ob"; "va"; "vb"]
  [(*L9*) SAssign "o" (EVar "oa");
   (*L10*) SAssign "v" (EVar "va");
   (*L13*) SAssign "contracted_intermediate" (EScale (-1 # 1) (EEins "kj,abik->abij" [(ESlice (EVar "f_aa") [SV "o"; SV "o"]); (EVar "t2_aaaa")]));
   (*L14*) SAssign "doubles_res" (EAdd (EScale (1 # 1) (EVar "contracted_intermediate")) (EScale (-1 # 1) (EEins "abij->abji" [(EVar "contracted_intermediate")])));
   (*L17*) SAssign "contracted_intermediate" (EScale (1 # 1) (EEins "ac,cbij->abij" [(ESlice (EVar "f_aa") [SV "v"; SV "v"]); (EVar "t2_aaaa")]));
   (*L18*) SAug true "doubles_res" (EAdd (EScale (1 # 1) (EVar "contracted_intermediate")) (EScale (-1 # 1) (EEins "abij->baij" [(EVar "contracted_intermediate")])));
   (*L21*) SAug true "doubles_res" (EScale (1 # 1) (EEins "abij->abij" [(ESlice (EVar "g_aaaa") [SV "v"; SV "v"; SV "o"; SV "o"])]));
   (*L24*) SAug true "doubles_res" (EScale (1 # 2) (EEins "lkij,ablk->abij" [(ESlice (EVar "g_aaaa") [SV "o"; SV "o"; SV "o"; SV "o"]); (EVar "t2_aaaa")]));
   (*L27*) SAssign "contracted_intermediate" (EScale (1 # 1) (EEins "kacj,cbik->abij" [(ESlice (EVar "g_aaaa") [SV "o"; SV "v"; SV "v"; SV "o"]); (EVar "t2_aaaa")]));
   (*L28*) SAug true "doubles_res" (EAdd (EAdd (EAdd (EScale (1 # 1) (EVar "contracted_intermediate")) (EScale (-1 # 1) (EEins "abij->abji" [(EVar "contracted_intermediate")]))) (EScale (-1 # 1) (EEins "abij->baij" [(EVar "contracted_intermediate")]))) (EScale (1 # 1) (EEins "abij->baji" [(EVar "contracted_intermediate")])));
   (*L31*) SAssign "contracted_intermediate" (EScale (-1 # 1) (EEins "akjc,bcik->abij" [(ESlice (EVar "g_abab") [SV "v"; SV "o"; SV "o"; SV "v"]); (EVar "t2_abab")]));
   (*L32*) SAug true "doubles_res" (EAdd (EAdd (EAdd (EScale (1 # 1) (EVar "contracted_intermediate")) (EScale (-1 # 1) (EEins "abij->abji" [(EVar "contracted_intermediate")]))) (EScale (-1 # 1) (EEins "abij->baij" [(EVar "contracted_intermediate")]))) (EScale (1 # 1) (EEins "abij->baji" [(EVar "contracted_intermediate")])));
   (*L35*) SAug true "doubles_res" (EScale (1 # 2) (EEins "abcd,cdij->abij" [(ESlice (EVar "g_aaaa") [SV "v"; SV "v"; SV "v"; SV "v"]); (EVar "t2_aaaa")]));
   (*L38*) SAug true "doubles_res" (EScale (1 # 4) (EEins "lkcd,cdabijlk->abij" [(ESlice (EVar "g_aaaa") [SV "o"; SV "o"; SV "v"; SV "v"]); (ESlice (EVar "t4_aaaaaaaa") [SAll; SAll; SAll; SAll; SAll; SAll; SAll; SAll])]));
   (*L41*) SAug true "doubles_res" (EScale (-1 # 4) (EEins "lkcd,cbadijlk->abij" [(ESlice (EVar "g_abab") [SV "o"; SV "o"; SV "v"; SV "v"]); (ESlice (EVar "t4_aaabaaab") [SAll; SAll; SAll; SAll; SAll; SAll; SAll; SAll])]));
   (*L44*) SAug true "doubles_res" (EScale (-1 # 4) (EEins "klcd,cbadijkl->abij" [(ESlice (EVar "g_abab") [SV "o"; SV "o"; SV "v"; SV "v"]); (ESlice (EVar "t4_aaabaaab") [SAll; SAll; SAll; SAll; SAll; SAll; SAll; SAll])]));
   (*L47*) SAug true "doubles_res" (EScale (1 # 4) (EEins "lkdc,bdacijlk->abij" [(ESlice (EVar "g_abab") [SV "o"; SV "o"; SV "v"; SV "v"]); (ESlice (EVar "t4_aaabaaab") [SAll; SAll; SAll; SAll; SAll; SAll; SAll; SAll])]));
   (*L50*) SAug true "doubles_res" (EScale (1 # 4) (EEins "kldc,bdacijkl->abij" [(ESlice (EVar "g_abab") [SV "o"; SV "o"; SV "v"; SV "v"]); (ESlice (EVar "t4_aaabaaab") [SAll; SAll; SAll; SAll; SAll; SAll; SAll; SAll])]));
   (*L53*) SAug true "doubles_res" (EScale (1 # 4) (EEins "lkcd,abcdijlk->abij" [(ESlice (EVar "g_bbbb") [SV "o"; SV "o"; SV "v"; SV "v"]); (ESlice (EVar "t4_aabbaabb") [SAll; SAll; SAll; SAll; SAll; SAll; SAll; SAll])]));
   (*L56*) SAssign "contracted_intermediate" (EScale (-1 # 2) (EEins "lkcd,cdjk,abil->abij" [(ESlice (EVar "g_aaaa") [SV "o"; SV "o"; SV "v"; SV "v"]); (EVar "t2_aaaa"); (EVar "t2_aaaa")]));
   (*L57*) SAug true "doubles_res" (EAdd (EScale (1 # 1) (EVar "contracted_intermediate")) (EScale (-1 # 1) (EEins "abij->abji" [(EVar "contracted_intermediate")])));
   (*L60*) SAssign "contracted_intermediate" (EScale (-1 # 2) (EEins "lkcd,cdjk,abil->abij" [(ESlice (EVar "g_abab") [SV "o"; SV "o"; SV "v"; SV "v"]); (EVar "t2_abab"); (EVar "t2_aaaa")]));
   (*L61*) SAug true "doubles_res" (EAdd (EScale (1 # 1) (EVar "contracted_intermediate")) (EScale (-1 # 1) (EEins "abij->abji" [(EVar "contracted_intermediate")])));
   (*L64*) SAssign "contracted_intermediate" (EScale (-1 # 2) (EEins "lkdc,dcjk,abil->abij" [(ESlice (EVar "g_abab") [SV "o"; SV "o"; SV "v"; SV "v"]); (EVar "t2_abab"); (EVar "t2_aaaa")]));
   (*L65*) SAug true "doubles_res" (EAdd (EScale (1 # 1) (EVar "contracted_intermediate")) (EScale (-1 # 1) (EEins "abij->abji" [(EVar "contracted_intermediate")])));
   (*L68*) SAug true "doubles_res" (EScale (1 # 4) (EEins "lkcd,cdij,ablk->abij" [(ESlice (EVar "g_aaaa") [SV "o"; SV "o"; SV "v"; SV "v"]); (EVar "t2_aaaa"); (EVar "t2_aaaa")]));
   (*L71*) SAug true "doubles_res" (EScale (-1 # 2) (EEins "lkcd,calk,dbij->abij" [(ESlice (EVar "g_aaaa") [SV "o"; SV "o"; SV "v"; SV "v"]); (EVar "t2_aaaa"); (EVar "t2_aaaa")]));
   (*L74*) SAug true "doubles_res" (EScale (-1 # 2) (EEins "lkdc,aclk,dbij->abij" [(ESlice (EVar "g_abab") [SV "o"; SV "o"; SV "v"; SV "v"]); (EVar "t2_abab"); (EVar "t2_aaaa")]));
   (*L77*) SAug true "doubles_res" (EScale (-1 # 2) (EEins "kldc,ackl,dbij->abij" [(ESlice (EVar "g_abab") [SV "o"; SV "o"; SV "v"; SV "v"]); (EVar "t2_abab"); (EVar "t2_aaaa")]));
   (*L80*) SAssign "contracted_intermediate" (EScale (1 # 1) (EEins "lkcd,cajk,dbil->abij" [(ESlice (EVar "g_aaaa") [SV "o"; SV "o"; SV "v"; SV "v"]); (EVar "t2_aaaa"); (EVar "t2_aaaa")]));
   (*L81*) SAug true "doubles_res" (EAdd (EScale (1 # 1) (EVar "contracted_intermediate")) (EScale (-1 # 1) (EEins "abij->abji" [(EVar "contracted_intermediate")])));
   (*L84*) SAssign "contracted_intermediate" (EScale (1 # 1) (EEins "klcd,cajk,bdil->abij" [(ESlice (EVar "g_abab") [SV "o"; SV "o"; SV "v"; SV "v"]); (EVar "t2_aaaa"); (EVar "t2_abab")]));
   (*L85*) SAug true "doubles_res" (EAdd (EScale (1 # 1) (EVar "contracted_intermediate")) (EScale (-1 # 1) (EEins "abij->abji" [(EVar "contracted_intermediate")])));
   (*L88*) SAssign "contracted_intermediate" (EScale (1 # 1) (EEins "lkdc,acjk,dbil->abij" [(ESlice (EVar "g_abab") [SV "o"; SV "o"; SV "v"; SV "v"]); (EVar "t2_abab"); (EVar "t2_aaaa")]));
   (*L89*) SAug true "doubles_res" (EAdd (EScale (1 # 1) (EVar "contracted_intermediate")) (EScale (-1 # 1) (EEins "abij->abji" [(EVar "contracted_intermediate")])));
   (*L92*) SAssign "contracted_intermediate" (EScale (1 # 1) (EEins "lkcd,acjk,bdil->abij" [(ESlice (EVar "g_bbbb") [SV "o"; SV "o"; SV "v"; SV "v"]); (EVar "t2_abab"); (EVar "t2_abab")]));
   (*L93*) SAug true "doubles_res" (EAdd (EScale (1 # 1) (EVar "contracted_intermediate")) (EScale (-1 # 1) (EEins "abij->abji" [(EVar "contracted_intermediate")])));
   (*L96*) SAug true "doubles_res" (EScale (-1 # 2) (EEins "lkcd,caij,dblk->abij" [(ESlice (EVar "g_aaaa") [SV "o"; SV "o"; SV "v"; SV "v"]); (EVar "t2_aaaa"); (EVar "t2_aaaa")]));
   (*L99*) SAug true "doubles_res" (EScale (1 # 2) (EEins "lkcd,caij,bdlk->abij" [(ESlice (EVar "g_abab") [SV "o"; SV "o"; SV "v"; SV "v"]); (EVar "t2_aaaa"); (EVar "t2_abab")]));
   (*L102*) SAug true "doubles_res" (EScale (1 # 2) (EEins "klcd,caij,bdkl->abij" [(ESlice (EVar "g_abab") [SV "o"; SV "o"; SV "v"; SV "v"]); (EVar "t2_aaaa"); (EVar "t2_abab")]))]
  (*L104*) (EVar "doubles_res").

(** /repo/UT2/ccdq_resids.py:107-242  def ccdq_t2_abab_residual *)
Definition ccdq_t2_abab_residual : fn := mkFn
  ["t2_aaaa"; "t2_bbbb"; "t2_abab"; "t4_aaaaaaaa"; "t4_aaabaaab"; "t4_aabbaabb"; "t4_abbbabbb"; "t4_bbbbbbbb"; "f_aa"; "f_bb"; "g_aaaa"; "g_bbbb"; "g_abab"; "oa"; "ob"; "va"; "vb"]
  [(*L113*) SAssign "o" (EVar "oa");
   (*L114*) SAssign "v" (EVar "va");
   (*L117*) SAssign "doubles_res" (EScale (-1 # 1) (EEins "kj,abik->abij" [(ESlice (EVar "f_bb") [SV "o"; SV "o"]); (EVar "t2_abab")]));
   (*L120*) SAug true "doubles_res" (EScale (-1 # 1) (EEins "ki,abkj->abij" [(ESlice (EVar "f_aa") [SV "o"; SV "o"]); (EVar "t2_abab")]));
   (*L123*) SAug true "doubles_res" (EScale (1 # 1) (EEins "ac,cbij->abij" [(ESlice (EVar "f_aa") [SV "v"; SV "v"]); (EVar "t2_abab")]));
   (*L126*) SAug true "doubles_res" (EScale (1 # 1) (EEins "bc,acij->abij" [(ESlice (EVar "f_bb") [SV "v"; SV "v"]); (EVar "t2_abab")]));
   (*L129*) SAug true "doubles_res" (EScale (1 # 1) (EEins "abij->abij" [(ESlice (EVar "g_abab") [SV "v"; SV "v"; SV "o"; SV "o"])]));
   (*L132*) SAug true "doubles_res" (EScale (1 # 2) (EEins "lkij,ablk->abij" [(ESlice (EVar "g_abab") [SV "o"; SV "o"; SV "o"; SV "o"]); (EVar "t2_abab")]));
   (*L135*) SAug true "doubles_res" (EScale (1 # 2) (EEins "klij,abkl->abij" [(ESlice (EVar "g_abab") [SV "o"; SV "o"; SV "o"; SV "o"]); (EVar "t2_abab")]));
   (*L138*) SAug true "doubles_res" (EScale (-1 # 1) (EEins "akcj,cbik->abij" [(ESlice (EVar "g_abab") [SV "v"; SV "o"; SV "v"; SV "o"]); (EVar "t2_abab")]));
   (*L141*) SAug true "doubles_res" (EScale (-1 # 1) (EEins "kbcj,caik->abij" [(ESlice (EVar "g_abab") [SV "o"; SV "v"; SV "v"; SV "o"]); (EVar "t2_aaaa")]));
   (*L144*) SAug true "doubles_res" (EScale (1 # 1) (EEins "kbcj,acik->abij" [(ESlice (EVar "g_bbbb") [SV "o"; SV "v"; SV "v"; SV "o"]); (EVar "t2_abab")]));
   (*L147*) SAug true "doubles_res" (EScale (1 # 1) (EEins "kaci,cbkj->abij" [(ESlice (EVar "g_aaaa") [SV "o"; SV "v"; SV "v"; SV "o"]); (EVar "t2_abab")]));
   (*L150*) SAug true "doubles_res" (EScale (-1 # 1) (EEins "akic,cbjk->abij" [(ESlice (EVar "g_abab") [SV "v"; SV "o"; SV "o"; SV "v"]); (EVar "t2_bbbb")]));
   (*L153*) SAug true "doubles_res" (EScale (-1 # 1) (EEins "kbic,ackj->abij" [(ESlice (EVar "g_abab") [SV "o"; SV "v"; SV "o"; SV "v"]); (EVar "t2_abab")]));
   (*L156*) SAug true "doubles_res" (EScale (1 # 2) (EEins "abcd,cdij->abij" [(ESlice (EVar "g_abab") [SV "v"; SV "v"; SV "v"; SV "v"]); (EVar "t2_abab")]));
   (*L159*) SAug true "doubles_res" (EScale (1 # 2) (EEins "abdc,dcij->abij" [(ESlice (EVar "g_abab") [SV "v"; SV "v"; SV "v"; SV "v"]); (EVar "t2_abab")]));
   (*L162*) SAug true "doubles_res" (EScale (-1 # 4) (EEins "lkcd,cdabiklj->abij" [(ESlice (EVar "g_aaaa") [SV "o"; SV "o"; SV "v"; SV "v"]); (ESlice (EVar "t4_aaabaaab") [SAll; SAll; SAll; SAll; SAll; SAll; SAll; SAll])]));
   (*L165*) SAug true "doubles_res" (EScale (1 # 4) (EEins "lkcd,cadbiljk->abij" [(ESlice (EVar "g_abab") [SV "o"; SV "o"; SV "v"; SV "v"]); (ESlice (EVar "t4_aabbaabb") [SAll; SAll; SAll; SAll; SAll; SAll; SAll; SAll])]));
   (*L168*) SAug true "doubles_res" (EScale (-1 # 4) (EEins "klcd,cadbiklj->abij" [(ESlice (EVar "g_abab") [SV "o"; SV "o"; SV "v"; SV "v"]); (ESlice (EVar "t4_aabbaabb") [SAll; SAll; SAll; SAll; SAll; SAll; SAll; SAll])]));
   (*L171*) SAug true "doubles_res" (EScale (-1 # 4) (EEins "lkdc,adcbiljk->abij" [(ESlice (EVar "g_abab") [SV "o"; SV "o"; SV "v"; SV "v"]); (ESlice (EVar "t4_aabbaabb") [SAll; SAll; SAll; SAll; SAll; SAll; SAll; SAll])]));
   (*L174*) SAug true "doubles_res" (EScale (1 # 4) (EEins "kldc,adcbiklj->abij" [(ESlice (EVar "g_abab") [SV "o"; SV "o"; SV "v"; SV "v"]); (ESlice (EVar "t4_aabbaabb") [SAll; SAll; SAll; SAll; SAll; SAll; SAll; SAll])]));
   (*L177*) SAug true "doubles_res" (EScale (-1 # 4) (EEins "lkcd,adcbijlk->abij" [(ESlice (EVar "g_bbbb") [SV "o"; SV "o"; SV "v"; SV "v"]); (ESlice (EVar "t4_abbbabbb") [SAll; SAll; SAll; SAll; SAll; SAll; SAll; SAll])]));
   (*L180*) SAug true "doubles_res" (EScale (-1 # 2) (EEins "klcd,cdkj,abil->abij" [(ESlice (EVar "g_abab") [SV "o"; SV "o"; SV "v"; SV "v"]); (EVar "t2_abab"); (EVar "t2_abab")]));
   (*L183*) SAug true "doubles_res" (EScale (-1 # 2) (EEins "kldc,dckj,abil->abij" [(ESlice (EVar "g_abab") [SV "o"; SV "o"; SV "v"; SV "v"]); (EVar "t2_abab"); (EVar "t2_abab")]));
   (*L186*) SAug true "doubles_res" (EScale (-1 # 2) (EEins "lkcd,cdjk,abil->abij" [(ESlice (EVar "g_bbbb") [SV "o"; SV "o"; SV "v"; SV "v"]); (EVar "t2_bbbb"); (EVar "t2_abab")]));
   (*L189*) SAug true "doubles_res" (EScale (-1 # 2) (EEins "lkcd,cdik,ablj->abij" [(ESlice (EVar "g_aaaa") [SV "o"; SV "o"; SV "v"; SV "v"]); (EVar "t2_aaaa"); (EVar "t2_abab")]));
   (*L192*) SAug true "doubles_res" (EScale (-1 # 2) (EEins "lkcd,cdik,ablj->abij" [(ESlice (EVar "g_abab") [SV "o"; SV "o"; SV "v"; SV "v"]); (EVar "t2_abab"); (EVar "t2_abab")]));
   (*L195*) SAug true "doubles_res" (EScale (-1 # 2) (EEins "lkdc,dcik,ablj->abij" [(ESlice (EVar "g_abab") [SV "o"; SV "o"; SV "v"; SV "v"]); (EVar "t2_abab"); (EVar "t2_abab")]));
   (*L198*) SAug true "doubles_res" (EScale (1 # 4) (EEins "lkcd,cdij,ablk->abij" [(ESlice (EVar "g_abab") [SV "o"; SV "o"; SV "v"; SV "v"]); (EVar "t2_abab"); (EVar "t2_abab")]));
   (*L201*) SAug true "doubles_res" (EScale (1 # 4) (EEins "klcd,cdij,abkl->abij" [(ESlice (EVar "g_abab") [SV "o"; SV "o"; SV "v"; SV "v"]); (EVar "t2_abab"); (EVar "t2_abab")]));
   (*L204*) SAug true "doubles_res" (EScale (1 # 4) (EEins "lkdc,dcij,ablk->abij" [(ESlice (EVar "g_abab") [SV "o"; SV "o"; SV "v"; SV "v"]); (EVar "t2_abab"); (EVar "t2_abab")]));
   (*L207*) SAug true "doubles_res" (EScale (1 # 4) (EEins "kldc,dcij,abkl->abij" [(ESlice (EVar "g_abab") [SV "o"; SV "o"; SV "v"; SV "v"]); (EVar "t2_abab"); (EVar "t2_abab")]));
   (*L210*) SAug true "doubles_res" (EScale (-1 # 2) (EEins "lkcd,calk,dbij->abij" [(ESlice (EVar "g_aaaa") [SV "o"; SV "o"; SV "v"; SV "v"]); (EVar "t2_aaaa"); (EVar "t2_abab")]));
   (*L213*) SAug true "doubles_res" (EScale (-1 # 2) (EEins "lkdc,aclk,dbij->abij" [(ESlice (EVar "g_abab") [SV "o"; SV "o"; SV "v"; SV "v"]); (EVar "t2_abab"); (EVar "t2_abab")]));
   (*L216*) SAug true "doubles_res" (EScale (-1 # 2) (EEins "kldc,ackl,dbij->abij" [(ESlice (EVar "g_abab") [SV "o"; SV "o"; SV "v"; SV "v"]); (EVar "t2_abab"); (EVar "t2_abab")]));
   (*L219*) SAug true "doubles_res" (EScale (1 # 1) (EEins "kldc,ackj,dbil->abij" [(ESlice (EVar "g_abab") [SV "o"; SV "o"; SV "v"; SV "v"]); (EVar "t2_abab"); (EVar "t2_abab")]));
   (*L222*) SAug true "doubles_res" (EScale (1 # 1) (EEins "lkcd,caik,dblj->abij" [(ESlice (EVar "g_aaaa") [SV "o"; SV "o"; SV "v"; SV "v"]); (EVar "t2_aaaa"); (EVar "t2_abab")]));
   (*L225*) SAug true "doubles_res" (EScale (1 # 1) (EEins "klcd,caik,dbjl->abij" [(ESlice (EVar "g_abab") [SV "o"; SV "o"; SV "v"; SV "v"]); (EVar "t2_aaaa"); (EVar "t2_bbbb")]));
   (*L228*) SAug true "doubles_res" (EScale (1 # 1) (EEins "lkdc,acik,dblj->abij" [(ESlice (EVar "g_abab") [SV "o"; SV "o"; SV "v"; SV "v"]); (EVar "t2_abab"); (EVar "t2_abab")]));
   (*L231*) SAug true "doubles_res" (EScale (1 # 1) (EEins "lkcd,acik,dbjl->abij" [(ESlice (EVar "g_bbbb") [SV "o"; SV "o"; SV "v"; SV "v"]); (EVar "t2_abab"); (EVar "t2_bbbb")]));
   (*L234*) SAug true "doubles_res" (EScale (-1 # 2) (EEins "lkdc,acij,dblk->abij" [(ESlice (EVar "g_abab") [SV "o"; SV "o"; SV "v"; SV "v"]); (EVar "t2_abab"); (EVar "t2_abab")]));
   (*L237*) SAug true "doubles_res" (EScale (-1 # 2) (EEins "kldc,acij,dbkl->abij" [(ESlice (EVar "g_abab") [SV "o"; SV "o"; SV "v"; SV "v"]); (EVar "t2_abab"); (EVar "t2_abab")]));
   (*L240*) SAug true "doubles_res" (EScale (1 # 2) (EEins "lkcd,acij,dblk->abij" [(ESlice (EVar "g_bbbb") [SV "o"; SV "o"; SV "v"; SV "v"]); (EVar "t2_abab"); (EVar "t2_bbbb")]))]
  (*L242*) (EVar "doubles_res").

(** /repo/UT2/ccdq_resids.py:245-346  def ccdq_t2_bbbb_residual *)
Definition ccdq_t2_bbbb_residual : fn := mkFn
  ["t2_aaaa"; "t2_bbbb"; "t2_abab"; "t4_aaaaaaaa"; "t4_aaabaaab"; "t4_aabbaabb"; "t4_abbbabbb"; "t4_bbbbbbbb"; "f_aa"; "f_bb"; "g_aaaa"; "g_bbbb"; "g_abab"; "oa"; "ob"; "va"; "vb"]
  [(*L251*) SAssign "o" (EVar "oa");
   (*L252*) SAssign "v" (EVar "va");
   (*L255*) SAssign "contracted_intermediate" (EScale (-1 # 1) (EEins "kj,abik->abij" [(ESlice (EVar "f_bb") [SV "o"; SV "o"]); (EVar "t2_bbbb")]));
   (*L256*) SAssign "doubles_res" (EAdd (EScale (1 # 1) (EVar "contracted_intermediate")) (EScale (-1 # 1) (EEins "abij->abji" [(EVar "contracted_intermediate")])));
   (*L259*) SAssign "contracted_intermediate" (EScale (1 # 1) (EEins "ac,cbij->abij" [(ESlice (EVar "f_bb") [SV "v"; SV "v"]); (EVar "t2_bbbb")]));
   (*L260*) SAug true "doubles_res" (EAdd (EScale (1 # 1) (EVar "contracted_intermediate")) (EScale (-1 # 1) (EEins "abij->baij" [(EVar "contracted_intermediate")])));
   (*L263*) SAug true "doubles_res" (EScale (1 # 1) (EEins "abij->abij" [(ESlice (EVar "g_bbbb") [SV "v"; SV "v"; SV "o"; SV "o"])]));
   (*L266*) SAug true "doubles_res" (EScale (1 # 2) (EEins "lkij,ablk->abij" [(ESlice (EVar "g_bbbb") [SV "o"; SV "o"; SV "o"; SV "o"]); (EVar "t2_bbbb")]));
   (*L269*) SAssign "contracted_intermediate" (EScale (-1 # 1) (EEins "kacj,cbki->abij" [(ESlice (EVar "g_abab") [SV "o"; SV "v"; SV "v"; SV "o"]); (EVar "t2_abab")]));
   (*L270*) SAug true "doubles_res" (EAdd (EAdd (EAdd (EScale (1 # 1) (EVar "contracted_intermediate")) (EScale (-1 # 1) (EEins "abij->abji" [(EVar "contracted_intermediate")]))) (EScale (-1 # 1) (EEins "abij->baij" [(EVar "contracted_intermediate")]))) (EScale (1 # 1) (EEins "abij->baji" [(EVar "contracted_intermediate")])));
   (*L273*) SAssign "contracted_intermediate" (EScale (1 # 1) (EEins "kacj,cbik->abij" [(ESlice (EVar "g_bbbb") [SV "o"; SV "v"; SV "v"; SV "o"]); (EVar "t2_bbbb")]));
   (*L274*) SAug true "doubles_res" (EAdd (EAdd (EAdd (EScale (1 # 1) (EVar "contracted_intermediate")) (EScale (-1 # 1) (EEins "abij->abji" [(EVar "contracted_intermediate")]))) (EScale (-1 # 1) (EEins "abij->baij" [(EVar "contracted_intermediate")]))) (EScale (1 # 1) (EEins "abij->baji" [(EVar "contracted_intermediate")])));
   (*L277*) SAug true "doubles_res" (EScale (1 # 2) (EEins "abcd,cdij->abij" [(ESlice (EVar "g_bbbb") [SV "v"; SV "v"; SV "v"; SV "v"]); (EVar "t2_bbbb")]));
   (*L280*) SAug true "doubles_res" (EScale (1 # 4) (EEins "lkcd,cdablkij->abij" [(ESlice (EVar "g_aaaa") [SV "o"; SV "o"; SV "v"; SV "v"]); (ESlice (EVar "t4_aabbaabb") [SAll; SAll; SAll; SAll; SAll; SAll; SAll; SAll])]));
   (*L283*) SAug true "doubles_res" (EScale (-1 # 4) (EEins "lkcd,cdabljik->abij" [(ESlice (EVar "g_abab") [SV "o"; SV "o"; SV "v"; SV "v"]); (ESlice (EVar "t4_abbbabbb") [SAll; SAll; SAll; SAll; SAll; SAll; SAll; SAll])]));
   (*L286*) SAug true "doubles_res" (EScale (1 # 4) (EEins "klcd,cdabkjli->abij" [(ESlice (EVar "g_abab") [SV "o"; SV "o"; SV "v"; SV "v"]); (ESlice (EVar "t4_abbbabbb") [SAll; SAll; SAll; SAll; SAll; SAll; SAll; SAll])]));
   (*L289*) SAug true "doubles_res" (EScale (-1 # 4) (EEins "lkdc,dcabljik->abij" [(ESlice (EVar "g_abab") [SV "o"; SV "o"; SV "v"; SV "v"]); (ESlice (EVar "t4_abbbabbb") [SAll; SAll; SAll; SAll; SAll; SAll; SAll; SAll])]));
   (*L292*) SAug true "doubles_res" (EScale (1 # 4) (EEins "kldc,dcabkjli->abij" [(ESlice (EVar "g_abab") [SV "o"; SV "o"; SV "v"; SV "v"]); (ESlice (EVar "t4_abbbabbb") [SAll; SAll; SAll; SAll; SAll; SAll; SAll; SAll])]));
   (*L295*) SAug true "doubles_res" (EScale (1 # 4) (EEins "lkcd,cdabijlk->abij" [(ESlice (EVar "g_bbbb") [SV "o"; SV "o"; SV "v"; SV "v"]); (ESlice (EVar "t4_bbbbbbbb") [SAll; SAll; SAll; SAll; SAll; SAll; SAll; SAll])]));
   (*L298*) SAssign "contracted_intermediate" (EScale (-1 # 2) (EEins "klcd,cdkj,abil->abij" [(ESlice (EVar "g_abab") [SV "o"; SV "o"; SV "v"; SV "v"]); (EVar "t2_abab"); (EVar "t2_bbbb")]));
   (*L299*) SAug true "doubles_res" (EAdd (EScale (1 # 1) (EVar "contracted_intermediate")) (EScale (-1 # 1) (EEins "abij->abji" [(EVar "contracted_intermediate")])));
   (*L302*) SAssign "contracted_intermediate" (EScale (-1 # 2) (EEins "kldc,dckj,abil->abij" [(ESlice (EVar "g_abab") [SV "o"; SV "o"; SV "v"; SV "v"]); (EVar "t2_abab"); (EVar "t2_bbbb")]));
   (*L303*) SAug true "doubles_res" (EAdd (EScale (1 # 1) (EVar "contracted_intermediate")) (EScale (-1 # 1) (EEins "abij->abji" [(EVar "contracted_intermediate")])));
   (*L306*) SAssign "contracted_intermediate" (EScale (-1 # 2) (EEins "lkcd,cdjk,abil->abij" [(ESlice (EVar "g_bbbb") [SV "o"; SV "o"; SV "v"; SV "v"]); (EVar "t2_bbbb"); (EVar "t2_bbbb")]));
   (*L307*) SAug true "doubles_res" (EAdd (EScale (1 # 1) (EVar "contracted_intermediate")) (EScale (-1 # 1) (EEins "abij->abji" [(EVar "contracted_intermediate")])));
   (*L310*) SAug true "doubles_res" (EScale (1 # 4) (EEins "lkcd,cdij,ablk->abij" [(ESlice (EVar "g_bbbb") [SV "o"; SV "o"; SV "v"; SV "v"]); (EVar "t2_bbbb"); (EVar "t2_bbbb")]));
   (*L313*) SAug true "doubles_res" (EScale (-1 # 2) (EEins "lkcd,calk,dbij->abij" [(ESlice (EVar "g_abab") [SV "o"; SV "o"; SV "v"; SV "v"]); (EVar "t2_abab"); (EVar "t2_bbbb")]));
   (*L316*) SAug true "doubles_res" (EScale (-1 # 2) (EEins "klcd,cakl,dbij->abij" [(ESlice (EVar "g_abab") [SV "o"; SV "o"; SV "v"; SV "v"]); (EVar "t2_abab"); (EVar "t2_bbbb")]));
   (*L319*) SAug true "doubles_res" (EScale (-1 # 2) (EEins "lkcd,calk,dbij->abij" [(ESlice (EVar "g_bbbb") [SV "o"; SV "o"; SV "v"; SV "v"]); (EVar "t2_bbbb"); (EVar "t2_bbbb")]));
   (*L322*) SAssign "contracted_intermediate" (EScale (1 # 1) (EEins "lkcd,cakj,dbli->abij" [(ESlice (EVar "g_aaaa") [SV "o"; SV "o"; SV "v"; SV "v"]); (EVar "t2_abab"); (EVar "t2_abab")]));
   (*L323*) SAug true "doubles_res" (EAdd (EScale (1 # 1) (EVar "contracted_intermediate")) (EScale (-1 # 1) (EEins "abij->abji" [(EVar "contracted_intermediate")])));
   (*L326*) SAssign "contracted_intermediate" (EScale (1 # 1) (EEins "klcd,cakj,dbil->abij" [(ESlice (EVar "g_abab") [SV "o"; SV "o"; SV "v"; SV "v"]); (EVar "t2_abab"); (EVar "t2_bbbb")]));
   (*L327*) SAug true "doubles_res" (EAdd (EScale (1 # 1) (EVar "contracted_intermediate")) (EScale (-1 # 1) (EEins "abij->abji" [(EVar "contracted_intermediate")])));
   (*L330*) SAssign "contracted_intermediate" (EScale (1 # 1) (EEins "lkdc,cajk,dbli->abij" [(ESlice (EVar "g_abab") [SV "o"; SV "o"; SV "v"; SV "v"]); (EVar "t2_bbbb"); (EVar "t2_abab")]));
   (*L331*) SAug true "doubles_res" (EAdd (EScale (1 # 1) (EVar "contracted_intermediate")) (EScale (-1 # 1) (EEins "abij->abji" [(EVar "contracted_intermediate")])));
   (*L334*) SAssign "contracted_intermediate" (EScale (1 # 1) (EEins "lkcd,cajk,dbil->abij" [(ESlice (EVar "g_bbbb") [SV "o"; SV "o"; SV "v"; SV "v"]); (EVar "t2_bbbb"); (EVar "t2_bbbb")]));
   (*L335*) SAug true "doubles_res" (EAdd (EScale (1 # 1) (EVar "contracted_intermediate")) (EScale (-1 # 1) (EEins "abij->abji" [(EVar "contracted_intermediate")])));
   (*L338*) SAug true "doubles_res" (EScale (1 # 2) (EEins "lkdc,caij,dblk->abij" [(ESlice (EVar "g_abab") [SV "o"; SV "o"; SV "v"; SV "v"]); (EVar "t2_bbbb"); (EVar "t2_abab")]));
   (*L341*) SAug true "doubles_res" (EScale (1 # 2) (EEins "kldc,caij,dbkl->abij" [(ESlice (EVar "g_abab") [SV "o"; SV "o"; SV "v"; SV "v"]); (EVar "t2_bbbb"); (EVar "t2_abab")]));
   (*L344*) SAug true "doubles_res" (EScale (-1 # 2) (EEins "lkcd,caij,dblk->abij" [(ESlice (EVar "g_bbbb") [SV "o"; SV "o"; SV "v"; SV "v"]); (EVar "t2_bbbb"); (EVar "t2_bbbb")]))]
  (*L346*) (EVar "doubles_res").

(** /repo/UT2/ccdq_resids.py:349-1418  def ccdq_t4_aaaaaaaa_residual *)
Definition ccdq_t4_aaaaaaaa_residual : fn := mkFn
  ["t2_aaaa"; "t2_bbbb"; "t2_abab"; "t4_aaaaaaaa"; "t4_aaabaaab"; "t4_aabbaabb"; "t4_abbbabbb"; "t4_bbbbbbbb"; "f_aa"; "f_bb"; "g_aaaa"; "g_bbbb"; "g_abab"; "oa"; "ob"; "va"; "vb"]
  [(*L355*) SAssign "o" (EVar "oa");
   (*L356*) SAssign "v" (EVar "va");
   (*L359*) SAssign "contracted_intermediate" (EScale (-100000000000001 # 100000000000000) (EEins "ml,abcdijkm->abcdijkl" [(ESlice (EVar "f_aa") [SV "o"; SV "o"]); (ESlice (EVar "t4_aaaaaaaa") [SAll; SAll; SAll; SAll; SAll; SAll; SAll; SAll])]));
   (*L360*) SAssign "quadruples_res" (EAdd (EScale (1 # 1) (EVar "contracted_intermediate")) (EScale (-1 # 1) (EEins "abcdijkl->abcdijlk" [(EVar "contracted_intermediate")])));
   (*L363*) SAssign "contracted_intermediate" (EScale (-100000000000001 # 100000000000000) (EEins "mj,abcdiklm->abcdijkl" [(ESlice (EVar "f_aa") [SV "o"; SV "o"]); (ESlice (EVar "t4_aaaaaaaa") [SAll; SAll; SAll; SAll; SAll; SAll; SAll; SAll])]));
   (*L364*) SAug true "quadruples_res" (EAdd (EScale (1 # 1) (EVar "contracted_intermediate")) (EScale (-1 # 1) (EEins "abcdijkl->abcdjikl" [(EVar "contracted_intermediate")])));
   (*L367*) SAssign "contracted_intermediate" (EScale (100000000000001 # 100000000000000) (EEins "ae,ebcdijkl->abcdijkl" [(ESlice (EVar "f_aa") [SV "v"; SV "v"]); (ESlice (EVar "t4_aaaaaaaa") [SAll; SAll; SAll; SAll; SAll; SAll; SAll; SAll])]));
   (*L368*) SAug true "quadruples_res" (EAdd (EScale (1 # 1) (EVar "contracted_intermediate")) (EScale (-1 # 1) (EEins "abcdijkl->bacdijkl" [(EVar "contracted_intermediate")])));
   (*L371*) SAssign "contracted_intermediate" (EScale (100000000000001 # 100000000000000) (EEins "ce,eabdijkl->abcdijkl" [(ESlice (EVar "f_aa") [SV "v"; SV "v"]); (ESlice (EVar "t4_aaaaaaaa") [SAll; SAll; SAll; SAll; SAll; SAll; SAll; SAll])]));
   (*L372*) SAug true "quadruples_res" (EAdd (EScale (1 # 1) (EVar "contracted_intermediate")) (EScale (-1 # 1) (EEins "abcdijkl->abdcijkl" [(EVar "contracted_intermediate")])));
   (*L375*) SAssign "contracted_intermediate" (EScale (50000000000001 # 100000000000000) (EEins "nmkl,abcdijnm->abcdijkl" [(ESlice (EVar "g_aaaa") [SV "o"; SV "o"; SV "o"; SV "o"]); (ESlice (EVar "t4_aaaaaaaa") [SAll; SAll; SAll; SAll; SAll; SAll; SAll; SAll])]));
   (*L376*) SAug true "quadruples_res" (EAdd (EScale (1 # 1) (EVar "contracted_intermediate")) (EScale (-1 # 1) (EEins "abcdijkl->abcdikjl" [(EVar "contracted_intermediate")])));
   (*L379*) SAssign "contracted_intermediate" (EScale (50000000000001 # 100000000000000) (EEins "nmil,abcdjknm->abcdijkl" [(ESlice (EVar "g_aaaa") [SV "o"; SV "o"; SV "o"; SV "o"]); (ESlice (EVar "t4_aaaaaaaa") [SAll; SAll; SAll; SAll; SAll; SAll; SAll; SAll])]));
   (*L380*) SAug true "quadruples_res" (EAdd (EScale (1 # 1) (EVar "contracted_intermediate")) (EScale (-1 # 1) (EEins "abcdijkl->abcdijlk" [(EVar "contracted_intermediate")])));
   (*L383*) SAssign "contracted_intermediate" (EScale (50000000000001 # 100000000000000) (EEins "nmjk,abcdilnm->abcdijkl" [(ESlice (EVar "g_aaaa") [SV "o"; SV "o"; SV "o"; SV "o"]); (ESlice (EVar "t4_aaaaaaaa") [SAll; SAll; SAll; SAll; SAll; SAll; SAll; SAll])]));
   (*L384*) SAug true "quadruples_res" (EAdd (EScale (1 # 1) (EVar "contracted_intermediate")) (EScale (-1 # 1) (EEins "abcdijkl->abcdkjil" [(EVar "contracted_intermediate")])));
   (*L387*) SAssign "contracted_intermediate" (EScale (50000000000001 # 50000000000000) (EEins "mael,ebcdijkm->abcdijkl" [(ESlice (EVar "g_aaaa") [SV "o"; SV "v"; SV "v"; SV "o"]); (ESlice (EVar "t4_aaaaaaaa") [SAll; SAll; SAll; SAll; SAll; SAll; SAll; SAll])]));
   (*L388*) SAug true "quadruples_res" (EAdd (EAdd (EAdd (EScale (1 # 1) (EVar "contracted_intermediate")) (EScale (-1 # 1) (EEins "abcdijkl->abcdijlk" [(EVar "contracted_intermediate")]))) (EScale (-1 # 1) (EEins "abcdijkl->bacdijkl" [(EVar "contracted_intermediate")]))) (EScale (1 # 1) (EEins "abcdijkl->bacdijlk" [(EVar "contracted_intermediate")])));
   (*L391*) SAssign "contracted_intermediate" (EScale (-50000000000001 # 50000000000000) (EEins "amle,dbceijkm->abcdijkl" [(ESlice (EVar "g_abab") [SV "v"; SV "o"; SV "o"; SV "v"]); (ESlice (EVar "t4_aaabaaab") [SAll; SAll; SAll; SAll; SAll; SAll; SAll; SAll])]));
   (*L392*) SAug true "quadruples_res" (EAdd (EAdd (EAdd (EScale (1 # 1) (EVar "contracted_intermediate")) (EScale (-1 # 1) (EEins "abcdijkl->abcdijlk" [(EVar "contracted_intermediate")]))) (EScale (-1 # 1) (EEins "abcdijkl->bacdijkl" [(EVar "contracted_intermediate")]))) (EScale (1 # 1) (EEins "abcdijkl->bacdijlk" [(EVar "contracted_intermediate")])));
   (*L395*) SAssign "contracted_intermediate" (EScale (50000000000001 # 50000000000000) (EEins "maej,ebcdiklm->abcdijkl" [(ESlice (EVar "g_aaaa") [SV "o"; SV "v"; SV "v"; SV "o"]); (ESlice (EVar "t4_aaaaaaaa") [SAll; SAll; SAll; SAll; SAll; SAll; SAll; SAll])]));
   (*L396*) SAug true "quadruples_res" (EAdd (EAdd (EAdd (EScale (1 # 1) (EVar "contracted_intermediate")) (EScale (-1 # 1) (EEins "abcdijkl->abcdjikl" [(EVar "contracted_intermediate")]))) (EScale (-1 # 1) (EEins "abcdijkl->bacdijkl" [(EVar "contracted_intermediate")]))) (EScale (1 # 1) (EEins "abcdijkl->bacdjikl" [(EVar "contracted_intermediate")])));
   (*L399*) SAssign "contracted_intermediate" (EScale (-50000000000001 # 50000000000000) (EEins "amje,dbceiklm->abcdijkl" [(ESlice (EVar "g_abab") [SV "v"; SV "o"; SV "o"; SV "v"]); (ESlice (EVar "t4_aaabaaab") [SAll; SAll; SAll; SAll; SAll; SAll; SAll; SAll])]));
   (*L400*) SAug true "quadruples_res" (EAdd (EAdd (EAdd (EScale (1 # 1) (EVar "contracted_intermediate")) (EScale (-1 # 1) (EEins "abcdijkl->abcdjikl" [(EVar "contracted_intermediate")]))) (EScale (-1 # 1) (EEins "abcdijkl->bacdijkl" [(EVar "contracted_intermediate")]))) (EScale (1 # 1) (EEins "abcdijkl->bacdjikl" [(EVar "contracted_intermediate")])));
   (*L403*) SAssign "contracted_intermediate" (EScale (50000000000001 # 50000000000000) (EEins "mcel,eabdijkm->abcdijkl" [(ESlice (EVar "g_aaaa") [SV "o"; SV "v"; SV "v"; SV "o"]); (ESlice (EVar "t4_aaaaaaaa") [SAll; SAll; SAll; SAll; SAll; SAll; SAll; SAll])]));
   (*L404*) SAug true "quadruples_res" (EAdd (EAdd (EAdd (EScale (1 # 1) (EVar "contracted_intermediate")) (EScale (-1 # 1) (EEins "abcdijkl->abcdijlk" [(EVar "contracted_intermediate")]))) (EScale (-1 # 1) (EEins "abcdijkl->abdcijkl" [(EVar "contracted_intermediate")]))) (EScale (1 # 1) (EEins "abcdijkl->abdcijlk" [(EVar "contracted_intermediate")])));
   (*L407*) SAssign "contracted_intermediate" (EScale (-50000000000001 # 50000000000000) (EEins "cmle,dabeijkm->abcdijkl" [(ESlice (EVar "g_abab") [SV "v"; SV "o"; SV "o"; SV "v"]); (ESlice (EVar "t4_aaabaaab") [SAll; SAll; SAll; SAll; SAll; SAll; SAll; SAll])]));
   (*L408*) SAug true "quadruples_res" (EAdd (EAdd (EAdd (EScale (1 # 1) (EVar "contracted_intermediate")) (EScale (-1 # 1) (EEins "abcdijkl->abcdijlk" [(EVar "contracted_intermediate")]))) (EScale (-1 # 1) (EEins "abcdijkl->abdcijkl" [(EVar "contracted_intermediate")]))) (EScale (1 # 1) (EEins "abcdijkl->abdcijlk" [(EVar "contracted_intermediate")])));
   (*L411*) SAssign "contracted_intermediate" (EScale (50000000000001 # 50000000000000) (EEins "mcej,eabdiklm->abcdijkl" [(ESlice (EVar "g_aaaa") [SV "o"; SV "v"; SV "v"; SV "o"]); (ESlice (EVar "t4_aaaaaaaa") [SAll; SAll; SAll; SAll; SAll; SAll; SAll; SAll])]));
   (*L412*) SAug true "quadruples_res" (EAdd (EAdd (EAdd (EScale (1 # 1) (EVar "contracted_intermediate")) (EScale (-1 # 1) (EEins "abcdijkl->abcdjikl" [(EVar "contracted_intermediate")]))) (EScale (-1 # 1) (EEins "abcdijkl->abdcijkl" [(EVar "contracted_intermediate")]))) (EScale (1 # 1) (EEins "abcdijkl->abdcjikl" [(EVar "contracted_intermediate")])));
   (*L415*) SAssign "contracted_intermediate" (EScale (-50000000000001 # 50000000000000) (EEins "cmje,dabeiklm->abcdijkl" [(ESlice (EVar "g_abab") [SV "v"; SV "o"; SV "o"; SV "v"]); (ESlice (EVar "t4_aaabaaab") [SAll; SAll; SAll; SAll; SAll; SAll; SAll; SAll])]));
   (*L416*) SAug true "quadruples_res" (EAdd (EAdd (EAdd (EScale (1 # 1) (EVar "contracted_intermediate")) (EScale (-1 # 1) (EEins "abcdijkl->abcdjikl" [(EVar "contracted_intermediate")]))) (EScale (-1 # 1) (EEins "abcdijkl->abdcijkl" [(EVar "contracted_intermediate")]))) (EScale (1 # 1) (EEins "abcdijkl->abdcjikl" [(EVar "contracted_intermediate")])));
   (*L419*) SAssign "contracted_intermediate" (EScale (50000000000001 # 100000000000000) (EEins "abef,efcdijkl->abcdijkl" [(ESlice (EVar "g_aaaa") [SV "v"; SV "v"; SV "v"; SV "v"]); (ESlice (EVar "t4_aaaaaaaa") [SAll; SAll; SAll; SAll; SAll; SAll; SAll; SAll])]));
   (*L420*) SAug true "quadruples_res" (EAdd (EScale (1 # 1) (EVar "contracted_intermediate")) (EScale (-1 # 1) (EEins "abcdijkl->acbdijkl" [(EVar "contracted_intermediate")])));
   (*L423*) SAssign "contracted_intermediate" (EScale (50000000000001 # 100000000000000) (EEins "adef,efbcijkl->abcdijkl" [(ESlice (EVar "g_aaaa") [SV "v"; SV "v"; SV "v"; SV "v"]); (ESlice (EVar "t4_aaaaaaaa") [SAll; SAll; SAll; SAll; SAll; SAll; SAll; SAll])]));
   (*L424*) SAug true "quadruples_res" (EAdd (EScale (1 # 1) (EVar "contracted_intermediate")) (EScale (-1 # 1) (EEins "abcdijkl->bacdijkl" [(EVar "contracted_intermediate")])));
   (*L427*) SAssign "contracted_intermediate" (EScale (50000000000001 # 100000000000000) (EEins "bcef,efadijkl->abcdijkl" [(ESlice (EVar "g_aaaa") [SV "v"; SV "v"; SV "v"; SV "v"]); (ESlice (EVar "t4_aaaaaaaa") [SAll; SAll; SAll; SAll; SAll; SAll; SAll; SAll])]));
   (*L428*) SAug true "quadruples_res" (EAdd (EScale (1 # 1) (EVar "contracted_intermediate")) (EScale (-1 # 1) (EEins "abcdijkl->adcbijkl" [(EVar "contracted_intermediate")])));
   (*L431*) SAssign "contracted_intermediate" (EScale (-9999999999999 # 20000000000000) (EEins "nmef,eflm,abcdijkn->abcdijkl" [(ESlice (EVar "g_aaaa") [SV "o"; SV "o"; SV "v"; SV "v"]); (EVar "t2_aaaa"); (ESlice (EVar "t4_aaaaaaaa") [SAll; SAll; SAll; SAll; SAll; SAll; SAll; SAll])]));
   (*L432*) SAug true "quadruples_res" (EAdd (EScale (1 # 1) (EVar "contracted_intermediate")) (EScale (-1 # 1) (EEins "abcdijkl->abcdijlk" [(EVar "contracted_intermediate")])));
   (*L435*) SAssign "contracted_intermediate" (EScale (-9999999999999 # 20000000000000) (EEins "nmef,eflm,abcdijkn->abcdijkl" [(ESlice (EVar "g_abab") [SV "o"; SV "o"; SV "v"; SV "v"]); (EVar "t2_abab"); (ESlice (EVar "t4_aaaaaaaa") [SAll; SAll; SAll; SAll; SAll; SAll; SAll; SAll])]));
   (*L436*) SAug true "quadruples_res" (EAdd (EScale (1 # 1) (EVar "contracted_intermediate")) (EScale (-1 # 1) (EEins "abcdijkl->abcdijlk" [(EVar "contracted_intermediate")])));
   (*L439*) SAssign "contracted_intermediate" (EScale (-9999999999999 # 20000000000000) (EEins "nmfe,felm,abcdijkn->abcdijkl" [(ESlice (EVar "g_abab") [SV "o"; SV "o"; SV "v"; SV "v"]); (EVar "t2_abab"); (ESlice (EVar "t4_aaaaaaaa") [SAll; SAll; SAll; SAll; SAll; SAll; SAll; SAll])]));
   (*L440*) SAug true "quadruples_res" (EAdd (EScale (1 # 1) (EVar "contracted_intermediate")) (EScale (-1 # 1) (EEins "abcdijkl->abcdijlk" [(EVar "contracted_intermediate")])));
   (*L443*) SAssign "contracted_intermediate" (EScale (-9999999999999 # 20000000000000) (EEins "nmef,efjm,abcdikln->abcdijkl" [(ESlice (EVar "g_aaaa") [SV "o"; SV "o"; SV "v"; SV "v"]); (EVar "t2_aaaa"); (ESlice (EVar "t4_aaaaaaaa") [SAll; SAll; SAll; SAll; SAll; SAll; SAll; SAll])]));
   (*L444*) SAug true "quadruples_res" (EAdd (EScale (1 # 1) (EVar "contracted_intermediate")) (EScale (-1 # 1) (EEins "abcdijkl->abcdjikl" [(EVar "contracted_intermediate")])));
   (*L447*) SAssign "contracted_intermediate" (EScale (-9999999999999 # 20000000000000) (EEins "nmef,efjm,abcdikln->abcdijkl" [(ESlice (EVar "g_abab") [SV "o"; SV "o"; SV "v"; SV "v"]); (EVar "t2_abab"); (ESlice (EVar "t4_aaaaaaaa") [SAll; SAll; SAll; SAll; SAll; SAll; SAll; SAll])]));
   (*L448*) SAug true "quadruples_res" (EAdd (EScale (1 # 1) (EVar "contracted_intermediate")) (EScale (-1 # 1) (EEins "abcdijkl->abcdjikl" [(EVar "contracted_intermediate")])));
   (*L451*) SAssign "contracted_intermediate" (EScale (-9999999999999 # 20000000000000) (EEins "nmfe,fejm,abcdikln->abcdijkl" [(ESlice (EVar "g_abab") [SV "o"; SV "o"; SV "v"; SV "v"]); (EVar "t2_abab"); (ESlice (EVar "t4_aaaaaaaa") [SAll; SAll; SAll; SAll; SAll; SAll; SAll; SAll])]));
   (*L452*) SAug true "quadruples_res" (EAdd (EScale (1 # 1) (EVar "contracted_intermediate")) (EScale (-1 # 1) (EEins "abcdijkl->abcdjikl" [(EVar "contracted_intermediate")])));
   (*L455*) SAssign "contracted_intermediate" (EScale (25000000000001 # 100000000000000) (EEins "nmef,efkl,abcdijnm->abcdijkl" [(ESlice (EVar "g_aaaa") [SV "o"; SV "o"; SV "v"; SV "v"]); (EVar "t2_aaaa"); (ESlice (EVar "t4_aaaaaaaa") [SAll; SAll; SAll; SAll; SAll; SAll; SAll; SAll])]));
   (*L456*) SAug true "quadruples_res" (EAdd (EScale (1 # 1) (EVar "contracted_intermediate")) (EScale (-1 # 1) (EEins "abcdijkl->abcdikjl" [(EVar "contracted_intermediate")])));
   (*L459*) SAssign "contracted_intermediate" (EScale (25000000000001 # 100000000000000) (EEins "nmef,efil,abcdjknm->abcdijkl" [(ESlice (EVar "g_aaaa") [SV "o"; SV "o"; SV "v"; SV "v"]); (EVar "t2_aaaa"); (ESlice (EVar "t4_aaaaaaaa") [SAll; SAll; SAll; SAll; SAll; SAll; SAll; SAll])]));
   (*L460*) SAug true "quadruples_res" (EAdd (EScale (1 # 1) (EVar "contracted_intermediate")) (EScale (-1 # 1) (EEins "abcdijkl->abcdijlk" [(EVar "contracted_intermediate")])));
   (*L463*) SAssign "contracted_intermediate" (EScale (25000000000001 # 100000000000000) (EEins "nmef,efjk,abcdilnm->abcdijkl" [(ESlice (EVar "g_aaaa") [SV "o"; SV "o"; SV "v"; SV "v"]); (EVar "t2_aaaa"); (ESlice (EVar "t4_aaaaaaaa") [SAll; SAll; SAll; SAll; SAll; SAll; SAll; SAll])]));
   (*L464*) SAug true "quadruples_res" (EAdd (EScale (1 # 1) (EVar "contracted_intermediate")) (EScale (-1 # 1) (EEins "abcdijkl->abcdkjil" [(EVar "contracted_intermediate")])));
   (*L467*) SAssign "contracted_intermediate" (EScale (-9999999999999 # 20000000000000) (EEins "nmef,eanm,fbcdijkl->abcdijkl" [(ESlice (EVar "g_aaaa") [SV "o"; SV "o"; SV "v"; SV "v"]); (EVar "t2_aaaa"); (ESlice (EVar "t4_aaaaaaaa") [SAll; SAll; SAll; SAll; SAll; SAll; SAll; SAll])]));
   (*L468*) SAug true "quadruples_res" (EAdd (EScale (1 # 1) (EVar "contracted_intermediate")) (EScale (-1 # 1) (EEins "abcdijkl->bacdijkl" [(EVar "contracted_intermediate")])));
   (*L471*) SAssign "contracted_intermediate" (EScale (-9999999999999 # 20000000000000) (EEins "nmfe,aenm,fbcdijkl->abcdijkl" [(ESlice (EVar "g_abab") [SV "o"; SV "o"; SV "v"; SV "v"]); (EVar "t2_abab"); (ESlice (EVar "t4_aaaaaaaa") [SAll; SAll; SAll; SAll; SAll; SAll; SAll; SAll])]));
   (*L472*) SAug true "quadruples_res" (EAdd (EScale (1 # 1) (EVar "contracted_intermediate")) (EScale (-1 # 1) (EEins "abcdijkl->bacdijkl" [(EVar "contracted_intermediate")])));
   (*L475*) SAssign "contracted_intermediate" (EScale (-9999999999999 # 20000000000000) (EEins "mnfe,aemn,fbcdijkl->abcdijkl" [(ESlice (EVar "g_abab") [SV "o"; SV "o"; SV "v"; SV "v"]); (EVar "t2_abab"); (ESlice (EVar "t4_aaaaaaaa") [SAll; SAll; SAll; SAll; SAll; SAll; SAll; SAll])]));
   (*L476*) SAug true "quadruples_res" (EAdd (EScale (1 # 1) (EVar "contracted_intermediate")) (EScale (-1 # 1) (EEins "abcdijkl->bacdijkl" [(EVar "contracted_intermediate")])));
   (*L479*) SAssign "contracted_intermediate" (EScale (6249999999999 # 6250000000000) (EEins "nmef,ealm,fbcdijkn->abcdijkl" [(ESlice (EVar "g_aaaa") [SV "o"; SV "o"; SV "v"; SV "v"]); (EVar "t2_aaaa"); (ESlice (EVar "t4_aaaaaaaa") [SAll; SAll; SAll; SAll; SAll; SAll; SAll; SAll])]));
   (*L480*) SAug true "quadruples_res" (EAdd (EAdd (EAdd (EScale (1 # 1) (EVar "contracted_intermediate")) (EScale (-1 # 1) (EEins "abcdijkl->abcdijlk" [(EVar "contracted_intermediate")]))) (EScale (-1 # 1) (EEins "abcdijkl->bacdijkl" [(EVar "contracted_intermediate")]))) (EScale (1 # 1) (EEins "abcdijkl->bacdijlk" [(EVar "contracted_intermediate")])));
   (*L483*) SAssign "contracted_intermediate" (EScale (6249999999999 # 6250000000000) (EEins "mnef,ealm,dbcfijkn->abcdijkl" [(ESlice (EVar "g_abab") [SV "o"; SV "o"; SV "v"; SV "v"]); (EVar "t2_aaaa"); (ESlice (EVar "t4_aaabaaab") [SAll; SAll; SAll; SAll; SAll; SAll; SAll; SAll])]));
   (*L484*) SAug true "quadruples_res" (EAdd (EAdd (EAdd (EScale (1 # 1) (EVar "contracted_intermediate")) (EScale (-1 # 1) (EEins "abcdijkl->abcdijlk" [(EVar "contracted_intermediate")]))) (EScale (-1 # 1) (EEins "abcdijkl->bacdijkl" [(EVar "contracted_intermediate")]))) (EScale (1 # 1) (EEins "abcdijkl->bacdijlk" [(EVar "contracted_intermediate")])));
   (*L487*) SAssign "contracted_intermediate" (EScale (6249999999999 # 6250000000000) (EEins "nmfe,aelm,fbcdijkn->abcdijkl" [(ESlice (EVar "g_abab") [SV "o"; SV "o"; SV "v"; SV "v"]); (EVar "t2_abab"); (ESlice (EVar "t4_aaaaaaaa") [SAll; SAll; SAll; SAll; SAll; SAll; SAll; SAll])]));
   (*L488*) SAug true "quadruples_res" (EAdd (EAdd (EAdd (EScale (1 # 1) (EVar "contracted_intermediate")) (EScale (-1 # 1) (EEins "abcdijkl->abcdijlk" [(EVar "contracted_intermediate")]))) (EScale (-1 # 1) (EEins "abcdijkl->bacdijkl" [(EVar "contracted_intermediate")]))) (EScale (1 # 1) (EEins "abcdijkl->bacdijlk" [(EVar "contracted_intermediate")])));
   (*L491*) SAssign "contracted_intermediate" (EScale (6249999999999 # 6250000000000) (EEins "nmef,aelm,dbcfijkn->abcdijkl" [(ESlice (EVar "g_bbbb") [SV "o"; SV "o"; SV "v"; SV "v"]); (EVar "t2_abab"); (ESlice (EVar "t4_aaabaaab") [SAll; SAll; SAll; SAll; SAll; SAll; SAll; SAll])]));
   (*L492*) SAug true "quadruples_res" (EAdd (EAdd (EAdd (EScale (1 # 1) (EVar "contracted_intermediate")) (EScale (-1 # 1) (EEins "abcdijkl->abcdijlk" [(EVar "contracted_intermediate")]))) (EScale (-1 # 1) (EEins "abcdijkl->bacdijkl" [(EVar "contracted_intermediate")]))) (EScale (1 # 1) (EEins "abcdijkl->bacdijlk" [(EVar "contracted_intermediate")])));
   (*L495*) SAssign "contracted_intermediate" (EScale (6249999999999 # 6250000000000) (EEins "nmef,eajm,fbcdikln->abcdijkl" [(ESlice (EVar "g_aaaa") [SV "o"; SV "o"; SV "v"; SV "v"]); (EVar "t2_aaaa"); (ESlice (EVar "t4_aaaaaaaa") [SAll; SAll; SAll; SAll; SAll; SAll; SAll; SAll])]));
   (*L496*) SAug true "quadruples_res" (EAdd (EAdd (EAdd (EScale (1 # 1) (EVar "contracted_intermediate")) (EScale (-1 # 1) (EEins "abcdijkl->abcdjikl" [(EVar "contracted_intermediate")]))) (EScale (-1 # 1) (EEins "abcdijkl->bacdijkl" [(EVar "contracted_intermediate")]))) (EScale (1 # 1) (EEins "abcdijkl->bacdjikl" [(EVar "contracted_intermediate")])));
   (*L499*) SAssign "contracted_intermediate" (EScale (6249999999999 # 6250000000000) (EEins "mnef,eajm,dbcfikln->abcdijkl" [(ESlice (EVar "g_abab") [SV "o"; SV "o"; SV "v"; SV "v"]); (EVar "t2_aaaa"); (ESlice (EVar "t4_aaabaaab") [SAll; SAll; SAll; SAll; SAll; SAll; SAll; SAll])]));
   (*L500*) SAug true "quadruples_res" (EAdd (EAdd (EAdd (EScale (1 # 1) (EVar "contracted_intermediate")) (EScale (-1 # 1) (EEins "abcdijkl->abcdjikl" [(EVar "contracted_intermediate")]))) (EScale (-1 # 1) (EEins "abcdijkl->bacdijkl" [(EVar "contracted_intermediate")]))) (EScale (1 # 1) (EEins "abcdijkl->bacdjikl" [(EVar "contracted_intermediate")])));
   (*L503*) SAssign "contracted_intermediate" (EScale (6249999999999 # 6250000000000) (EEins "nmfe,aejm,fbcdikln->abcdijkl" [(ESlice (EVar "g_abab") [SV "o"; SV "o"; SV "v"; SV "v"]); (EVar "t2_abab"); (ESlice (EVar "t4_aaaaaaaa") [SAll; SAll; SAll; SAll; SAll; SAll; SAll; SAll])]));
   (*L504*) SAug true "quadruples_res" (EAdd (EAdd (EAdd (EScale (1 # 1) (EVar "contracted_intermediate")) (EScale (-1 # 1) (EEins "abcdijkl->abcdjikl" [(EVar "contracted_intermediate")]))) (EScale (-1 # 1) (EEins "abcdijkl->bacdijkl" [(EVar "contracted_intermediate")]))) (EScale (1 # 1) (EEins "abcdijkl->bacdjikl" [(EVar "contracted_intermediate")])));
   (*L507*) SAssign "contracted_intermediate" (EScale (6249999999999 # 6250000000000) (EEins "nmef,aejm,dbcfikln->abcdijkl" [(ESlice (EVar "g_bbbb") [SV "o"; SV "o"; SV "v"; SV "v"]); (EVar "t2_abab"); (ESlice (EVar "t4_aaabaaab") [SAll; SAll; SAll; SAll; SAll; SAll; SAll; SAll])]));
   (*L508*) SAug true "quadruples_res" (EAdd (EAdd (EAdd (EScale (1 # 1) (EVar "contracted_intermediate")) (EScale (-1 # 1) (EEins "abcdijkl->abcdjikl" [(EVar "contracted_intermediate")]))) (EScale (-1 # 1) (EEins "abcdijkl->bacdijkl" [(EVar "contracted_intermediate")]))) (EScale (1 # 1) (EEins "abcdijkl->bacdjikl" [(EVar "contracted_intermediate")])));
   (*L511*) SAssign "contracted_intermediate" (EScale (-9999999999999 # 20000000000000) (EEins "nmef,eakl,fbcdijnm->abcdijkl" [(ESlice (EVar "g_aaaa") [SV "o"; SV "o"; SV "v"; SV "v"]); (EVar "t2_aaaa"); (ESlice (EVar "t4_aaaaaaaa") [SAll; SAll; SAll; SAll; SAll; SAll; SAll; SAll])]));
   (*L512*) SAug true "quadruples_res" (EAdd (EAdd (EAdd (EScale (1 # 1) (EVar "contracted_intermediate")) (EScale (-1 # 1) (EEins "abcdijkl->abcdikjl" [(EVar "contracted_intermediate")]))) (EScale (-1 # 1) (EEins "abcdijkl->bacdijkl" [(EVar "contracted_intermediate")]))) (EScale (1 # 1) (EEins "abcdijkl->bacdikjl" [(EVar "contracted_intermediate")])));
   (*L515*) SAssign "contracted_intermediate" (EScale (9999999999999 # 20000000000000) (EEins "nmef,eakl,dbcfijnm->abcdijkl" [(ESlice (EVar "g_abab") [SV "o"; SV "o"; SV "v"; SV "v"]); (EVar "t2_aaaa"); (ESlice (EVar "t4_aaabaaab") [SAll; SAll; SAll; SAll; SAll; SAll; SAll; SAll])]));
   (*L516*) SAug true "quadruples_res" (EAdd (EAdd (EAdd (EScale (1 # 1) (EVar "contracted_intermediate")) (EScale (-1 # 1) (EEins "abcdijkl->abcdikjl" [(EVar "contracted_intermediate")]))) (EScale (-1 # 1) (EEins "abcdijkl->bacdijkl" [(EVar "contracted_intermediate")]))) (EScale (1 # 1) (EEins "abcdijkl->bacdikjl" [(EVar "contracted_intermediate")])));
   (*L519*) SAssign "contracted_intermediate" (EScale (9999999999999 # 20000000000000) (EEins "mnef,eakl,dbcfijmn->abcdijkl" [(ESlice (EVar "g_abab") [SV "o"; SV "o"; SV "v"; SV "v"]); (EVar "t2_aaaa"); (ESlice (EVar "t4_aaabaaab") [SAll; SAll; SAll; SAll; SAll; SAll; SAll; SAll])]));
   (*L520*) SAug true "quadruples_res" (EAdd (EAdd (EAdd (EScale (1 # 1) (EVar "contracted_intermediate")) (EScale (-1 # 1) (EEins "abcdijkl->abcdikjl" [(EVar "contracted_intermediate")]))) (EScale (-1 # 1) (EEins "abcdijkl->bacdijkl" [(EVar "contracted_intermediate")]))) (EScale (1 # 1) (EEins "abcdijkl->bacdikjl" [(EVar "contracted_intermediate")])));
   (*L523*) SAssign "contracted_intermediate" (EScale (-9999999999999 # 20000000000000) (EEins "nmef,eail,fbcdjknm->abcdijkl" [(ESlice (EVar "g_aaaa") [SV "o"; SV "o"; SV "v"; SV "v"]); (EVar "t2_aaaa"); (ESlice (EVar "t4_aaaaaaaa") [SAll; SAll; SAll; SAll; SAll; SAll; SAll; SAll])]));
   (*L524*) SAug true "quadruples_res" (EAdd (EAdd (EAdd (EScale (1 # 1) (EVar "contracted_intermediate")) (EScale (-1 # 1) (EEins "abcdijkl->abcdijlk" [(EVar "contracted_intermediate")]))) (EScale (-1 # 1) (EEins "abcdijkl->bacdijkl" [(EVar "contracted_intermediate")]))) (EScale (1 # 1) (EEins "abcdijkl->bacdijlk" [(EVar "contracted_intermediate")])));
   (*L527*) SAssign "contracted_intermediate" (EScale (9999999999999 # 20000000000000) (EEins "nmef,eail,dbcfjknm->abcdijkl" [(ESlice (EVar "g_abab") [SV "o"; SV "o"; SV "v"; SV "v"]); (EVar "t2_aaaa"); (ESlice (EVar "t4_aaabaaab") [SAll; SAll; SAll; SAll; SAll; SAll; SAll; SAll])]));
   (*L528*) SAug true "quadruples_res" (EAdd (EAdd (EAdd (EScale (1 # 1) (EVar "contracted_intermediate")) (EScale (-1 # 1) (EEins "abcdijkl->abcdijlk" [(EVar "contracted_intermediate")]))) (EScale (-1 # 1) (EEins "abcdijkl->bacdijkl" [(EVar "contracted_intermediate")]))) (EScale (1 # 1) (EEins "abcdijkl->bacdijlk" [(EVar "contracted_intermediate")])));
   (*L531*) SAssign "contracted_intermediate" (EScale (9999999999999 # 20000000000000) (EEins "mnef,eail,dbcfjkmn->abcdijkl" [(ESlice (EVar "g_abab") [SV "o"; SV "o"; SV "v"; SV "v"]); (EVar "t2_aaaa"); (ESlice (EVar "t4_aaabaaab") [SAll; SAll; SAll; SAll; SAll; SAll; SAll; SAll])]));
   (*L532*) SAug true "quadruples_res" (EAdd (EAdd (EAdd (EScale (1 # 1) (EVar "contracted_intermediate")) (EScale (-1 # 1) (EEins "abcdijkl->abcdijlk" [(EVar "contracted_intermediate")]))) (EScale (-1 # 1) (EEins "abcdijkl->bacdijkl" [(EVar "contracted_intermediate")]))) (EScale (1 # 1) (EEins "abcdijkl->bacdijlk" [(EVar "contracted_intermediate")])));
   (*L535*) SAssign "contracted_intermediate" (EScale (-9999999999999 # 20000000000000) (EEins "nmef,eajk,fbcdilnm->abcdijkl" [(ESlice (EVar "g_aaaa") [SV "o"; SV "o"; SV "v"; SV "v"]); (EVar "t2_aaaa"); (ESlice (EVar "t4_aaaaaaaa") [SAll; SAll; SAll; SAll; SAll; SAll; SAll; SAll])]));
   (*L536*) SAug true "quadruples_res" (EAdd (EAdd (EAdd (EScale (1 # 1) (EVar "contracted_intermediate")) (EScale (-1 # 1) (EEins "abcdijkl->abcdkjil" [(EVar "contracted_intermediate")]))) (EScale (-1 # 1) (EEins "abcdijkl->bacdijkl" [(EVar "contracted_intermediate")]))) (EScale (1 # 1) (EEins "abcdijkl->bacdkjil" [(EVar "contracted_intermediate")])));
   (*L539*) SAssign "contracted_intermediate" (EScale (9999999999999 # 20000000000000) (EEins "nmef,eajk,dbcfilnm->abcdijkl" [(ESlice (EVar "g_abab") [SV "o"; SV "o"; SV "v"; SV "v"]); (EVar "t2_aaaa"); (ESlice (EVar "t4_aaabaaab") [SAll; SAll; SAll; SAll; SAll; SAll; SAll; SAll])]));
   (*L540*) SAug true "quadruples_res" (EAdd (EAdd (EAdd (EScale (1 # 1) (EVar "contracted_intermediate")) (EScale (-1 # 1) (EEins "abcdijkl->abcdkjil" [(EVar "contracted_intermediate")]))) (EScale (-1 # 1) (EEins "abcdijkl->bacdijkl" [(EVar "contracted_intermediate")]))) (EScale (1 # 1) (EEins "abcdijkl->bacdkjil" [(EVar "contracted_intermediate")])));
   (*L543*) SAssign "contracted_intermediate" (EScale (9999999999999 # 20000000000000) (EEins "mnef,eajk,dbcfilmn->abcdijkl" [(ESlice (EVar "g_abab") [SV "o"; SV "o"; SV "v"; SV "v"]); (EVar "t2_aaaa"); (ESlice (EVar "t4_aaabaaab") [SAll; SAll; SAll; SAll; SAll; SAll; SAll; SAll])]));
   (*L544*) SAug true "quadruples_res" (EAdd (EAdd (EAdd (EScale (1 # 1) (EVar "contracted_intermediate")) (EScale (-1 # 1) (EEins "abcdijkl->abcdkjil" [(EVar "contracted_intermediate")]))) (EScale (-1 # 1) (EEins "abcdijkl->bacdijkl" [(EVar "contracted_intermediate")]))) (EScale (1 # 1) (EEins "abcdijkl->bacdkjil" [(EVar "contracted_intermediate")])));
   (*L547*) SAssign "contracted_intermediate" (EScale (-9999999999999 # 20000000000000) (EEins "nmef,ecnm,fabdijkl->abcdijkl" [(ESlice (EVar "g_aaaa") [SV "o"; SV "o"; SV "v"; SV "v"]); (EVar "t2_aaaa"); (ESlice (EVar "t4_aaaaaaaa") [SAll; SAll; SAll; SAll; SAll; SAll; SAll; SAll])]));
   (*L548*) SAug true "quadruples_res" (EAdd (EScale (1 # 1) (EVar "contracted_intermediate")) (EScale (-1 # 1) (EEins "abcdijkl->abdcijkl" [(EVar "contracted_intermediate")])));
   (*L551*) SAssign "contracted_intermediate" (EScale (-9999999999999 # 20000000000000) (EEins "nmfe,cenm,fabdijkl->abcdijkl" [(ESlice (EVar "g_abab") [SV "o"; SV "o"; SV "v"; SV "v"]); (EVar "t2_abab"); (ESlice (EVar "t4_aaaaaaaa") [SAll; SAll; SAll; SAll; SAll; SAll; SAll; SAll])]));
   (*L552*) SAug true "quadruples_res" (EAdd (EScale (1 # 1) (EVar "contracted_intermediate")) (EScale (-1 # 1) (EEins "abcdijkl->abdcijkl" [(EVar "contracted_intermediate")])));
   (*L555*) SAssign "contracted_intermediate" (EScale (-9999999999999 # 20000000000000) (EEins "mnfe,cemn,fabdijkl->abcdijkl" [(ESlice (EVar "g_abab") [SV "o"; SV "o"; SV "v"; SV "v"]); (EVar "t2_abab"); (ESlice (EVar "t4_aaaaaaaa") [SAll; SAll; SAll; SAll; SAll; SAll; SAll; SAll])]));
   (*L556*) SAug true "quadruples_res" (EAdd (EScale (1 # 1) (EVar "contracted_intermediate")) (EScale (-1 # 1) (EEins "abcdijkl->abdcijkl" [(EVar "contracted_intermediate")])));
   (*L559*) SAssign "contracted_intermediate" (EScale (6249999999999 # 6250000000000) (EEins "nmef,eclm,fabdijkn->abcdijkl" [(ESlice (EVar "g_aaaa") [SV "o"; SV "o"; SV "v"; SV "v"]); (EVar "t2_aaaa"); (ESlice (EVar "t4_aaaaaaaa") [SAll; SAll; SAll; SAll; SAll; SAll; SAll; SAll])]));
   (*L560*) SAug true "quadruples_res" (EAdd (EAdd (EAdd (EScale (1 # 1) (EVar "contracted_intermediate")) (EScale (-1 # 1) (EEins "abcdijkl->abcdijlk" [(EVar "contracted_intermediate")]))) (EScale (-1 # 1) (EEins "abcdijkl->abdcijkl" [(EVar "contracted_intermediate")]))) (EScale (1 # 1) (EEins "abcdijkl->abdcijlk" [(EVar "contracted_intermediate")])));
   (*L563*) SAssign "contracted_intermediate" (EScale (6249999999999 # 6250000000000) (EEins "mnef,eclm,dabfijkn->abcdijkl" [(ESlice (EVar "g_abab") [SV "o"; SV "o"; SV "v"; SV "v"]); (EVar "t2_aaaa"); (ESlice (EVar "t4_aaabaaab") [SAll; SAll; SAll; SAll; SAll; SAll; SAll; SAll])]));
   (*L564*) SAug true "quadruples_res" (EAdd (EAdd (EAdd (EScale (1 # 1) (EVar "contracted_intermediate")) (EScale (-1 # 1) (EEins "abcdijkl->abcdijlk" [(EVar "contracted_intermediate")]))) (EScale (-1 # 1) (EEins "abcdijkl->abdcijkl" [(EVar "contracted_intermediate")]))) (EScale (1 # 1) (EEins "abcdijkl->abdcijlk" [(EVar "contracted_intermediate")])));
   (*L567*) SAssign "contracted_intermediate" (EScale (6249999999999 # 6250000000000) (EEins "nmfe,celm,fabdijkn->abcdijkl" [(ESlice (EVar "g_abab") [SV "o"; SV "o"; SV "v"; SV "v"]); (EVar "t2_abab"); (ESlice (EVar "t4_aaaaaaaa") [SAll; SAll; SAll; SAll; SAll; SAll; SAll; SAll])]));
   (*L568*) SAug true "quadruples_res" (EAdd (EAdd (EAdd (EScale (1 # 1) (EVar "contracted_intermediate")) (EScale (-1 # 1) (EEins "abcdijkl->abcdijlk" [(EVar "contracted_intermediate")]))) (EScale (-1 # 1) (EEins "abcdijkl->abdcijkl" [(EVar "contracted_intermediate")]))) (EScale (1 # 1) (EEins "abcdijkl->abdcijlk" [(EVar "contracted_intermediate")])));
   (*L571*) SAssign "contracted_intermediate" (EScale (6249999999999 # 6250000000000) (EEins "nmef,celm,dabfijkn->abcdijkl" [(ESlice (EVar "g_bbbb") [SV "o"; SV "o"; SV "v"; SV "v"]); (EVar "t2_abab"); (ESlice (EVar "t4_aaabaaab") [SAll; SAll; SAll; SAll; SAll; SAll; SAll; SAll])]));
   (*L572*) SAug true "quadruples_res" (EAdd (EAdd (EAdd (EScale (1 # 1) (EVar "contracted_intermediate")) (EScale (-1 # 1) (EEins "abcdijkl->abcdijlk" [(EVar "contracted_intermediate")]))) (EScale (-1 # 1) (EEins "abcdijkl->abdcijkl" [(EVar "contracted_intermediate")]))) (EScale (1 # 1) (EEins "abcdijkl->abdcijlk" [(EVar "contracted_intermediate")])));
   (*L575*) SAssign "contracted_intermediate" (EScale (6249999999999 # 6250000000000) (EEins "nmef,ecjm,fabdikln->abcdijkl" [(ESlice (EVar "g_aaaa") [SV "o"; SV "o"; SV "v"; SV "v"]); (EVar "t2_aaaa"); (ESlice (EVar "t4_aaaaaaaa") [SAll; SAll; SAll; SAll; SAll; SAll; SAll; SAll])]));
   (*L576*) SAug true "quadruples_res" (EAdd (EAdd (EAdd (EScale (1 # 1) (EVar "contracted_intermediate")) (EScale (-1 # 1) (EEins "abcdijkl->abcdjikl" [(EVar "contracted_intermediate")]))) (EScale (-1 # 1) (EEins "abcdijkl->abdcijkl" [(EVar "contracted_intermediate")]))) (EScale (1 # 1) (EEins "abcdijkl->abdcjikl" [(EVar "contracted_intermediate")])));
   (*L579*) SAssign "contracted_intermediate" (EScale (6249999999999 # 6250000000000) (EEins "mnef,ecjm,dabfikln->abcdijkl" [(ESlice (EVar "g_abab") [SV "o"; SV "o"; SV "v"; SV "v"]); (EVar "t2_aaaa"); (ESlice (EVar "t4_aaabaaab") [SAll; SAll; SAll; SAll; SAll; SAll; SAll; SAll])]));
   (*L580*) SAug true "quadruples_res" (EAdd (EAdd (EAdd (EScale (1 # 1) (EVar "contracted_intermediate")) (EScale (-1 # 1) (EEins "abcdijkl->abcdjikl" [(EVar "contracted_intermediate")]))) (EScale (-1 # 1) (EEins "abcdijkl->abdcijkl" [(EVar "contracted_intermediate")]))) (EScale (1 # 1) (EEins "abcdijkl->abdcjikl" [(EVar "contracted_intermediate")])));
   (*L583*) SAssign "contracted_intermediate" (EScale (6249999999999 # 6250000000000) (EEins "nmfe,cejm,fabdikln->abcdijkl" [(ESlice (EVar "g_abab") [SV "o"; SV "o"; SV "v"; SV "v"]); (EVar "t2_abab"); (ESlice (EVar "t4_aaaaaaaa") [SAll; SAll; SAll; SAll; SAll; SAll; SAll; SAll])]));
   (*L584*) SAug true "quadruples_res" (EAdd (EAdd (EAdd (EScale (1 # 1) (EVar "contracted_intermediate")) (EScale (-1 # 1) (EEins "abcdijkl->abcdjikl" [(EVar "contracted_intermediate")]))) (EScale (-1 # 1) (EEins "abcdijkl->abdcijkl" [(EVar "contracted_intermediate")]))) (EScale (1 # 1) (EEins "abcdijkl->abdcjikl" [(EVar "contracted_intermediate")])));
   (*L587*) SAssign "contracted_intermediate" (EScale (6249999999999 # 6250000000000) (EEins "nmef,cejm,dabfikln->abcdijkl" [(ESlice (EVar "g_bbbb") [SV "o"; SV "o"; SV "v"; SV "v"]); (EVar "t2_abab"); (ESlice (EVar "t4_aaabaaab") [SAll; SAll; SAll; SAll; SAll; SAll; SAll; SAll])]));
   (*L588*) SAug true "quadruples_res" (EAdd (EAdd (EAdd (EScale (1 # 1) (EVar "contracted_intermediate")) (EScale (-1 # 1) (EEins "abcdijkl->abcdjikl" [(EVar "contracted_intermediate")]))) (EScale (-1 # 1) (EEins "abcdijkl->abdcijkl" [(EVar "contracted_intermediate")]))) (EScale (1 # 1) (EEins "abcdijkl->abdcjikl" [(EVar "contracted_intermediate")])));
   (*L591*) SAssign "contracted_intermediate" (EScale (-9999999999999 # 20000000000000) (EEins "nmef,eckl,fabdijnm->abcdijkl" [(ESlice (EVar "g_aaaa") [SV "o"; SV "o"; SV "v"; SV "v"]); (EVar "t2_aaaa"); (ESlice (EVar "t4_aaaaaaaa") [SAll; SAll; SAll; SAll; SAll; SAll; SAll; SAll])]));
   (*L592*) SAug true "quadruples_res" (EAdd (EAdd (EAdd (EScale (1 # 1) (EVar "contracted_intermediate")) (EScale (-1 # 1) (EEins "abcdijkl->abcdikjl" [(EVar "contracted_intermediate")]))) (EScale (-1 # 1) (EEins "abcdijkl->abdcijkl" [(EVar "contracted_intermediate")]))) (EScale (1 # 1) (EEins "abcdijkl->abdcikjl" [(EVar "contracted_intermediate")])));
   (*L595*) SAssign "contracted_intermediate" (EScale (9999999999999 # 20000000000000) (EEins "nmef,eckl,dabfijnm->abcdijkl" [(ESlice (EVar "g_abab") [SV "o"; SV "o"; SV "v"; SV "v"]); (EVar "t2_aaaa"); (ESlice (EVar "t4_aaabaaab") [SAll; SAll; SAll; SAll; SAll; SAll; SAll; SAll])]));
   (*L596*) SAug true "quadruples_res" (EAdd (EAdd (EAdd (EScale (1 # 1) (EVar "contracted_intermediate")) (EScale (-1 # 1) (EEins "abcdijkl->abcdikjl" [(EVar "contracted_intermediate")]))) (EScale (-1 # 1) (EEins "abcdijkl->abdcijkl" [(EVar "contracted_intermediate")]))) (EScale (1 # 1) (EEins "abcdijkl->abdcikjl" [(EVar "contracted_intermediate")])));
   (*L599*) SAssign "contracted_intermediate" (EScale (9999999999999 # 20000000000000) (EEins "mnef,eckl,dabfijmn->abcdijkl" [(ESlice (EVar "g_abab") [SV "o"; SV "o"; SV "v"; SV "v"]); (EVar "t2_aaaa"); (ESlice (EVar "t4_aaabaaab") [SAll; SAll; SAll; SAll; SAll; SAll; SAll; SAll])]));
   (*L600*) SAug true "quadruples_res" (EAdd (EAdd (EAdd (EScale (1 # 1) (EVar "contracted_intermediate")) (EScale (-1 # 1) (EEins "abcdijkl->abcdikjl" [(EVar "contracted_intermediate")]))) (EScale (-1 # 1) (EEins "abcdijkl->abdcijkl" [(EVar "contracted_intermediate")]))) (EScale (1 # 1) (EEins "abcdijkl->abdcikjl" [(EVar "contracted_intermediate")])));
   (*L603*) SAssign "contracted_intermediate" (EScale (-9999999999999 # 20000000000000) (EEins "nmef,ecil,fabdjknm->abcdijkl" [(ESlice (EVar "g_aaaa") [SV "o"; SV "o"; SV "v"; SV "v"]); (EVar "t2_aaaa"); (ESlice (EVar "t4_aaaaaaaa") [SAll; SAll; SAll; SAll; SAll; SAll; SAll; SAll])]));
   (*L604*) SAug true "quadruples_res" (EAdd (EAdd (EAdd (EScale (1 # 1) (EVar "contracted_intermediate")) (EScale (-1 # 1) (EEins "abcdijkl->abcdijlk" [(EVar "contracted_intermediate")]))) (EScale (-1 # 1) (EEins "abcdijkl->abdcijkl" [(EVar "contracted_intermediate")]))) (EScale (1 # 1) (EEins "abcdijkl->abdcijlk" [(EVar "contracted_intermediate")])));
   (*L607*) SAssign "contracted_intermediate" (EScale (9999999999999 # 20000000000000) (EEins "nmef,ecil,dabfjknm->abcdijkl" [(ESlice (EVar "g_abab") [SV "o"; SV "o"; SV "v"; SV "v"]); (EVar "t2_aaaa"); (ESlice (EVar "t4_aaabaaab") [SAll; SAll; SAll; SAll; SAll; SAll; SAll; SAll])]));
   (*L608*) SAug true "quadruples_res" (EAdd (EAdd (EAdd (EScale (1 # 1) (EVar "contracted_intermediate")) (EScale (-1 # 1) (EEins "abcdijkl->abcdijlk" [(EVar "contracted_intermediate")]))) (EScale (-1 # 1) (EEins "abcdijkl->abdcijkl" [(EVar "contracted_intermediate")]))) (EScale (1 # 1) (EEins "abcdijkl->abdcijlk" [(EVar "contracted_intermediate")])));
   (*L611*) SAssign "contracted_intermediate" (EScale (9999999999999 # 20000000000000) (EEins "mnef,ecil,dabfjkmn->abcdijkl" [(ESlice (EVar "g_abab") [SV "o"; SV "o"; SV "v"; SV "v"]); (EVar "t2_aaaa"); (ESlice (EVar "t4_aaabaaab") [SAll; SAll; SAll; SAll; SAll; SAll; SAll; SAll])]));
   (*L612*) SAug true "quadruples_res" (EAdd (EAdd (EAdd (EScale (1 # 1) (EVar "contracted_intermediate")) (EScale (-1 # 1) (EEins "abcdijkl->abcdijlk" [(EVar "contracted_intermediate")]))) (EScale (-1 # 1) (EEins "abcdijkl->abdcijkl" [(EVar "contracted_intermediate")]))) (EScale (1 # 1) (EEins "abcdijkl->abdcijlk" [(EVar "contracted_intermediate")])));
   (*L615*) SAssign "contracted_intermediate" (EScale (-9999999999999 # 20000000000000) (EEins "nmef,ecjk,fabdilnm->abcdijkl" [(ESlice (EVar "g_aaaa") [SV "o"; SV "o"; SV "v"; SV "v"]); (EVar "t2_aaaa"); (ESlice (EVar "t4_aaaaaaaa") [SAll; SAll; SAll; SAll; SAll; SAll; SAll; SAll])]));
   (*L616*) SAug true "quadruples_res" (EAdd (EAdd (EAdd (EScale (1 # 1) (EVar "contracted_intermediate")) (EScale (-1 # 1) (EEins "abcdijkl->abcdkjil" [(EVar "contracted_intermediate")]))) (EScale (-1 # 1) (EEins "abcdijkl->abdcijkl" [(EVar "contracted_intermediate")]))) (EScale (1 # 1) (EEins "abcdijkl->abdckjil" [(EVar "contracted_intermediate")])));
   (*L619*) SAssign "contracted_intermediate" (EScale (9999999999999 # 20000000000000) (EEins "nmef,ecjk,dabfilnm->abcdijkl" [(ESlice (EVar "g_abab") [SV "o"; SV "o"; SV "v"; SV "v"]); (EVar "t2_aaaa"); (ESlice (EVar "t4_aaabaaab") [SAll; SAll; SAll; SAll; SAll; SAll; SAll; SAll])]));
   (*L620*) SAug true "quadruples_res" (EAdd (EAdd (EAdd (EScale (1 # 1) (EVar "contracted_intermediate")) (EScale (-1 # 1) (EEins "abcdijkl->abcdkjil" [(EVar "contracted_intermediate")]))) (EScale (-1 # 1) (EEins "abcdijkl->abdcijkl" [(EVar "contracted_intermediate")]))) (EScale (1 # 1) (EEins "abcdijkl->abdckjil" [(EVar "contracted_intermediate")])));
   (*L623*) SAssign "contracted_intermediate" (EScale (9999999999999 # 20000000000000) (EEins "mnef,ecjk,dabfilmn->abcdijkl" [(ESlice (EVar "g_abab") [SV "o"; SV "o"; SV "v"; SV "v"]); (EVar "t2_aaaa"); (ESlice (EVar "t4_aaabaaab") [SAll; SAll; SAll; SAll; SAll; SAll; SAll; SAll])]));
   (*L624*) SAug true "quadruples_res" (EAdd (EAdd (EAdd (EScale (1 # 1) (EVar "contracted_intermediate")) (EScale (-1 # 1) (EEins "abcdijkl->abcdkjil" [(EVar "contracted_intermediate")]))) (EScale (-1 # 1) (EEins "abcdijkl->abdcijkl" [(EVar "contracted_intermediate")]))) (EScale (1 # 1) (EEins "abcdijkl->abdckjil" [(EVar "contracted_intermediate")])));
   (*L627*) SAssign "contracted_intermediate" (EScale (25000000000001 # 100000000000000) (EEins "nmef,abnm,efcdijkl->abcdijkl" [(ESlice (EVar "g_aaaa") [SV "o"; SV "o"; SV "v"; SV "v"]); (EVar "t2_aaaa"); (ESlice (EVar "t4_aaaaaaaa") [SAll; SAll; SAll; SAll; SAll; SAll; SAll; SAll])]));
   (*L628*) SAug true "quadruples_res" (EAdd (EScale (1 # 1) (EVar "contracted_intermediate")) (EScale (-1 # 1) (EEins "abcdijkl->acbdijkl" [(EVar "contracted_intermediate")])));
   (*L631*) SAssign "contracted_intermediate" (EScale (-9999999999999 # 20000000000000) (EEins "nmef,ablm,efcdijkn->abcdijkl" [(ESlice (EVar "g_aaaa") [SV "o"; SV "o"; SV "v"; SV "v"]); (EVar "t2_aaaa"); (ESlice (EVar "t4_aaaaaaaa") [SAll; SAll; SAll; SAll; SAll; SAll; SAll; SAll])]));
   (*L632*) SAug true "quadruples_res" (EAdd (EAdd (EAdd (EScale (1 # 1) (EVar "contracted_intermediate")) (EScale (-1 # 1) (EEins "abcdijkl->abcdijlk" [(EVar "contracted_intermediate")]))) (EScale (-1 # 1) (EEins "abcdijkl->acbdijkl" [(EVar "contracted_intermediate")]))) (EScale (1 # 1) (EEins "abcdijkl->acbdijlk" [(EVar "contracted_intermediate")])));
   (*L635*) SAssign "contracted_intermediate" (EScale (-9999999999999 # 20000000000000) (EEins "mnef,ablm,edcfijkn->abcdijkl" [(ESlice (EVar "g_abab") [SV "o"; SV "o"; SV "v"; SV "v"]); (EVar "t2_aaaa"); (ESlice (EVar "t4_aaabaaab") [SAll; SAll; SAll; SAll; SAll; SAll; SAll; SAll])]));
   (*L636*) SAug true "quadruples_res" (EAdd (EAdd (EAdd (EScale (1 # 1) (EVar "contracted_intermediate")) (EScale (-1 # 1) (EEins "abcdijkl->abcdijlk" [(EVar "contracted_intermediate")]))) (EScale (-1 # 1) (EEins "abcdijkl->acbdijkl" [(EVar "contracted_intermediate")]))) (EScale (1 # 1) (EEins "abcdijkl->acbdijlk" [(EVar "contracted_intermediate")])));
   (*L639*) SAssign "contracted_intermediate" (EScale (9999999999999 # 20000000000000) (EEins "mnfe,ablm,dfceijkn->abcdijkl" [(ESlice (EVar "g_abab") [SV "o"; SV "o"; SV "v"; SV "v"]); (EVar "t2_aaaa"); (ESlice (EVar "t4_aaabaaab") [SAll; SAll; SAll; SAll; SAll; SAll; SAll; SAll])]));
   (*L640*) SAug true "quadruples_res" (EAdd (EAdd (EAdd (EScale (1 # 1) (EVar "contracted_intermediate")) (EScale (-1 # 1) (EEins "abcdijkl->abcdijlk" [(EVar "contracted_intermediate")]))) (EScale (-1 # 1) (EEins "abcdijkl->acbdijkl" [(EVar "contracted_intermediate")]))) (EScale (1 # 1) (EEins "abcdijkl->acbdijlk" [(EVar "contracted_intermediate")])));
   (*L643*) SAssign "contracted_intermediate" (EScale (-9999999999999 # 20000000000000) (EEins "nmef,abjm,efcdikln->abcdijkl" [(ESlice (EVar "g_aaaa") [SV "o"; SV "o"; SV "v"; SV "v"]); (EVar "t2_aaaa"); (ESlice (EVar "t4_aaaaaaaa") [SAll; SAll; SAll; SAll; SAll; SAll; SAll; SAll])]));
   (*L644*) SAug true "quadruples_res" (EAdd (EAdd (EAdd (EScale (1 # 1) (EVar "contracted_intermediate")) (EScale (-1 # 1) (EEins "abcdijkl->abcdjikl" [(EVar "contracted_intermediate")]))) (EScale (-1 # 1) (EEins "abcdijkl->acbdijkl" [(EVar "contracted_intermediate")]))) (EScale (1 # 1) (EEins "abcdijkl->acbdjikl" [(EVar "contracted_intermediate")])));
   (*L647*) SAssign "contracted_intermediate" (EScale (-9999999999999 # 20000000000000) (EEins "mnef,abjm,edcfikln->abcdijkl" [(ESlice (EVar "g_abab") [SV "o"; SV "o"; SV "v"; SV "v"]); (EVar "t2_aaaa"); (ESlice (EVar "t4_aaabaaab") [SAll; SAll; SAll; SAll; SAll; SAll; SAll; SAll])]));
   (*L648*) SAug true "quadruples_res" (EAdd (EAdd (EAdd (EScale (1 # 1) (EVar "contracted_intermediate")) (EScale (-1 # 1) (EEins "abcdijkl->abcdjikl" [(EVar "contracted_intermediate")]))) (EScale (-1 # 1) (EEins "abcdijkl->acbdijkl" [(EVar "contracted_intermediate")]))) (EScale (1 # 1) (EEins "abcdijkl->acbdjikl" [(EVar "contracted_intermediate")])));
   (*L651*) SAssign "contracted_intermediate" (EScale (9999999999999 # 20000000000000) (EEins "mnfe,abjm,dfceikln->abcdijkl" [(ESlice (EVar "g_abab") [SV "o"; SV "o"; SV "v"; SV "v"]); (EVar "t2_aaaa"); (ESlice (EVar "t4_aaabaaab") [SAll; SAll; SAll; SAll; SAll; SAll; SAll; SAll])]));
   (*L652*) SAug true "quadruples_res" (EAdd (EAdd (EAdd (EScale (1 # 1) (EVar "contracted_intermediate")) (EScale (-1 # 1) (EEins "abcdijkl->abcdjikl" [(EVar "contracted_intermediate")]))) (EScale (-1 # 1) (EEins "abcdijkl->acbdijkl" [(EVar "contracted_intermediate")]))) (EScale (1 # 1) (EEins "abcdijkl->acbdjikl" [(EVar "contracted_intermediate")])));
   (*L655*) SAssign "contracted_intermediate" (EScale (25000000000001 # 100000000000000) (EEins "nmef,adnm,efbcijkl->abcdijkl" [(ESlice (EVar "g_aaaa") [SV "o"; SV "o"; SV "v"; SV "v"]); (EVar "t2_aaaa"); (ESlice (EVar "t4_aaaaaaaa") [SAll; SAll; SAll; SAll; SAll; SAll; SAll; SAll])]));
   (*L656*) SAug true "quadruples_res" (EAdd (EScale (1 # 1) (EVar "contracted_intermediate")) (EScale (-1 # 1) (EEins "abcdijkl->bacdijkl" [(EVar "contracted_intermediate")])));
   (*L659*) SAssign "contracted_intermediate" (EScale (-9999999999999 # 20000000000000) (EEins "nmef,adlm,efbcijkn->abcdijkl" [(ESlice (EVar "g_aaaa") [SV "o"; SV "o"; SV "v"; SV "v"]); (EVar "t2_aaaa"); (ESlice (EVar "t4_aaaaaaaa") [SAll; SAll; SAll; SAll; SAll; SAll; SAll; SAll])]));
   (*L660*) SAug true "quadruples_res" (EAdd (EAdd (EAdd (EScale (1 # 1) (EVar "contracted_intermediate")) (EScale (-1 # 1) (EEins "abcdijkl->abcdijlk" [(EVar "contracted_intermediate")]))) (EScale (-1 # 1) (EEins "abcdijkl->bacdijkl" [(EVar "contracted_intermediate")]))) (EScale (1 # 1) (EEins "abcdijkl->bacdijlk" [(EVar "contracted_intermediate")])));
   (*L663*) SAssign "contracted_intermediate" (EScale (-9999999999999 # 20000000000000) (EEins "mnef,adlm,ecbfijkn->abcdijkl" [(ESlice (EVar "g_abab") [SV "o"; SV "o"; SV "v"; SV "v"]); (EVar "t2_aaaa"); (ESlice (EVar "t4_aaabaaab") [SAll; SAll; SAll; SAll; SAll; SAll; SAll; SAll])]));
   (*L664*) SAug true "quadruples_res" (EAdd (EAdd (EAdd (EScale (1 # 1) (EVar "contracted_intermediate")) (EScale (-1 # 1) (EEins "abcdijkl->abcdijlk" [(EVar "contracted_intermediate")]))) (EScale (-1 # 1) (EEins "abcdijkl->bacdijkl" [(EVar "contracted_intermediate")]))) (EScale (1 # 1) (EEins "abcdijkl->bacdijlk" [(EVar "contracted_intermediate")])));
   (*L667*) SAssign "contracted_intermediate" (EScale (9999999999999 # 20000000000000) (EEins "mnfe,adlm,cfbeijkn->abcdijkl" [(ESlice (EVar "g_abab") [SV "o"; SV "o"; SV "v"; SV "v"]); (EVar "t2_aaaa"); (ESlice (EVar "t4_aaabaaab") [SAll; SAll; SAll; SAll; SAll; SAll; SAll; SAll])]));
   (*L668*) SAug true "quadruples_res" (EAdd (EAdd (EAdd (EScale (1 # 1) (EVar "contracted_intermediate")) (EScale (-1 # 1) (EEins "abcdijkl->abcdijlk" [(EVar "contracted_intermediate")]))) (EScale (-1 # 1) (EEins "abcdijkl->bacdijkl" [(EVar "contracted_intermediate")]))) (EScale (1 # 1) (EEins "abcdijkl->bacdijlk" [(EVar "contracted_intermediate")])));
   (*L671*) SAssign "contracted_intermediate" (EScale (-9999999999999 # 20000000000000) (EEins "nmef,adjm,efbcikln->abcdijkl" [(ESlice (EVar "g_aaaa") [SV "o"; SV "o"; SV "v"; SV "v"]); (EVar "t2_aaaa"); (ESlice (EVar "t4_aaaaaaaa") [SAll; SAll; SAll; SAll; SAll; SAll; SAll; SAll])]));
   (*L672*) SAug true "quadruples_res" (EAdd (EAdd (EAdd (EScale (1 # 1) (EVar "contracted_intermediate")) (EScale (-1 # 1) (EEins "abcdijkl->abcdjikl" [(EVar "contracted_intermediate")]))) (EScale (-1 # 1) (EEins "abcdijkl->bacdijkl" [(EVar "contracted_intermediate")]))) (EScale (1 # 1) (EEins "abcdijkl->bacdjikl" [(EVar "contracted_intermediate")])));
   (*L675*) SAssign "contracted_intermediate" (EScale (-9999999999999 # 20000000000000) (EEins "mnef,adjm,ecbfikln->abcdijkl" [(ESlice (EVar "g_abab") [SV "o"; SV "o"; SV "v"; SV "v"]); (EVar "t2_aaaa"); (ESlice (EVar "t4_aaabaaab") [SAll; SAll; SAll; SAll; SAll; SAll; SAll; SAll])]));
   (*L676*) SAug true "quadruples_res" (EAdd (EAdd (EAdd (EScale (1 # 1) (EVar "contracted_intermediate")) (EScale (-1 # 1) (EEins "abcdijkl->abcdjikl" [(EVar "contracted_intermediate")]))) (EScale (-1 # 1) (EEins "abcdijkl->bacdijkl" [(EVar "contracted_intermediate")]))) (EScale (1 # 1) (EEins "abcdijkl->bacdjikl" [(EVar "contracted_intermediate")])));
   (*L679*) SAssign "contracted_intermediate" (EScale (9999999999999 # 20000000000000) (EEins "mnfe,adjm,cfbeikln->abcdijkl" [(ESlice (EVar "g_abab") [SV "o"; SV "o"; SV "v"; SV "v"]); (EVar "t2_aaaa"); (ESlice (EVar "t4_aaabaaab") [SAll; SAll; SAll; SAll; SAll; SAll; SAll; SAll])]));
   (*L680*) SAug true "quadruples_res" (EAdd (EAdd (EAdd (EScale (1 # 1) (EVar "contracted_intermediate")) (EScale (-1 # 1) (EEins "abcdijkl->abcdjikl" [(EVar "contracted_intermediate")]))) (EScale (-1 # 1) (EEins "abcdijkl->bacdijkl" [(EVar "contracted_intermediate")]))) (EScale (1 # 1) (EEins "abcdijkl->bacdjikl" [(EVar "contracted_intermediate")])));
   (*L683*) SAssign "contracted_intermediate" (EScale (25000000000001 # 100000000000000) (EEins "nmef,bcnm,efadijkl->abcdijkl" [(ESlice (EVar "g_aaaa") [SV "o"; SV "o"; SV "v"; SV "v"]); (EVar "t2_aaaa"); (ESlice (EVar "t4_aaaaaaaa") [SAll; SAll; SAll; SAll; SAll; SAll; SAll; SAll])]));
   (*L684*) SAug true "quadruples_res" (EAdd (EScale (1 # 1) (EVar "contracted_intermediate")) (EScale (-1 # 1) (EEins "abcdijkl->adcbijkl" [(EVar "contracted_intermediate")])));
   (*L687*) SAssign "contracted_intermediate" (EScale (-9999999999999 # 20000000000000) (EEins "nmef,bclm,efadijkn->abcdijkl" [(ESlice (EVar "g_aaaa") [SV "o"; SV "o"; SV "v"; SV "v"]); (EVar "t2_aaaa"); (ESlice (EVar "t4_aaaaaaaa") [SAll; SAll; SAll; SAll; SAll; SAll; SAll; SAll])]));
   (*L688*) SAug true "quadruples_res" (EAdd (EAdd (EAdd (EScale (1 # 1) (EVar "contracted_intermediate")) (EScale (-1 # 1) (EEins "abcdijkl->abcdijlk" [(EVar "contracted_intermediate")]))) (EScale (-1 # 1) (EEins "abcdijkl->adcbijkl" [(EVar "contracted_intermediate")]))) (EScale (1 # 1) (EEins "abcdijkl->adcbijlk" [(EVar "contracted_intermediate")])));
   (*L691*) SAssign "contracted_intermediate" (EScale (-9999999999999 # 20000000000000) (EEins "mnef,bclm,edafijkn->abcdijkl" [(ESlice (EVar "g_abab") [SV "o"; SV "o"; SV "v"; SV "v"]); (EVar "t2_aaaa"); (ESlice (EVar "t4_aaabaaab") [SAll; SAll; SAll; SAll; SAll; SAll; SAll; SAll])]));
   (*L692*) SAug true "quadruples_res" (EAdd (EAdd (EAdd (EScale (1 # 1) (EVar "contracted_intermediate")) (EScale (-1 # 1) (EEins "abcdijkl->abcdijlk" [(EVar "contracted_intermediate")]))) (EScale (-1 # 1) (EEins "abcdijkl->adcbijkl" [(EVar "contracted_intermediate")]))) (EScale (1 # 1) (EEins "abcdijkl->adcbijlk" [(EVar "contracted_intermediate")])));
   (*L695*) SAssign "contracted_intermediate" (EScale (9999999999999 # 20000000000000) (EEins "mnfe,bclm,dfaeijkn->abcdijkl" [(ESlice (EVar "g_abab") [SV "o"; SV "o"; SV "v"; SV "v"]); (EVar "t2_aaaa"); (ESlice (EVar "t4_aaabaaab") [SAll; SAll; SAll; SAll; SAll; SAll; SAll; SAll])]));
   (*L696*) SAug true "quadruples_res" (EAdd (EAdd (EAdd (EScale (1 # 1) (EVar "contracted_intermediate")) (EScale (-1 # 1) (EEins "abcdijkl->abcdijlk" [(EVar "contracted_intermediate")]))) (EScale (-1 # 1) (EEins "abcdijkl->adcbijkl" [(EVar "contracted_intermediate")]))) (EScale (1 # 1) (EEins "abcdijkl->adcbijlk" [(EVar "contracted_intermediate")])));
   (*L699*) SAssign "contracted_intermediate" (EScale (-9999999999999 # 20000000000000) (EEins "nmef,bcjm,efadikln->abcdijkl" [(ESlice (EVar "g_aaaa") [SV "o"; SV "o"; SV "v"; SV "v"]); (EVar "t2_aaaa"); (ESlice (EVar "t4_aaaaaaaa") [SAll; SAll; SAll; SAll; SAll; SAll; SAll; SAll])]));
   (*L700*) SAug true "quadruples_res" (EAdd (EAdd (EAdd (EScale (1 # 1) (EVar "contracted_intermediate")) (EScale (-1 # 1) (EEins "abcdijkl->abcdjikl" [(EVar "contracted_intermediate")]))) (EScale (-1 # 1) (EEins "abcdijkl->adcbijkl" [(EVar "contracted_intermediate")]))) (EScale (1 # 1) (EEins "abcdijkl->adcbjikl" [(EVar "contracted_intermediate")])));
   (*L703*) SAssign "contracted_intermediate" (EScale (-9999999999999 # 20000000000000) (EEins "mnef,bcjm,edafikln->abcdijkl" [(ESlice (EVar "g_abab") [SV "o"; SV "o"; SV "v"; SV "v"]); (EVar "t2_aaaa"); (ESlice (EVar "t4_aaabaaab") [SAll; SAll; SAll; SAll; SAll; SAll; SAll; SAll])]));
   (*L704*) SAug true "quadruples_res" (EAdd (EAdd (EAdd (EScale (1 # 1) (EVar "contracted_intermediate")) (EScale (-1 # 1) (EEins "abcdijkl->abcdjikl" [(EVar "contracted_intermediate")]))) (EScale (-1 # 1) (EEins "abcdijkl->adcbijkl" [(EVar "contracted_intermediate")]))) (EScale (1 # 1) (EEins "abcdijkl->adcbjikl" [(EVar "contracted_intermediate")])));
   (*L707*) SAssign "contracted_intermediate" (EScale (9999999999999 # 20000000000000) (EEins "mnfe,bcjm,dfaeikln->abcdijkl" [(ESlice (EVar "g_abab") [SV "o"; SV "o"; SV "v"; SV "v"]); (EVar "t2_aaaa"); (ESlice (EVar "t4_aaabaaab") [SAll; SAll; SAll; SAll; SAll; SAll; SAll; SAll])]));
   (*L708*) SAug true "quadruples_res" (EAdd (EAdd (EAdd (EScale (1 # 1) (EVar "contracted_intermediate")) (EScale (-1 # 1) (EEins "abcdijkl->abcdjikl" [(EVar "contracted_intermediate")]))) (EScale (-1 # 1) (EEins "abcdijkl->adcbijkl" [(EVar "contracted_intermediate")]))) (EScale (1 # 1) (EEins "abcdijkl->adcbjikl" [(EVar "contracted_intermediate")])));
   (*L711*) SAssign "contracted_intermediate" (EScale (-1 # 1) (EEins "nmkl,abjm,cdin->abcdijkl" [(ESlice (EVar "g_aaaa") [SV "o"; SV "o"; SV "o"; SV "o"]); (EVar "t2_aaaa"); (EVar "t2_aaaa")]));
   (*L712*) SAug true "quadruples_res" (EAdd (EAdd (EAdd (EScale (1 # 1) (EVar "contracted_intermediate")) (EScale (-1 # 1) (EEins "abcdijkl->abcdjikl" [(EVar "contracted_intermediate")]))) (EScale (-1 # 1) (EEins "abcdijkl->acbdijkl" [(EVar "contracted_intermediate")]))) (EScale (1 # 1) (EEins "abcdijkl->acbdjikl" [(EVar "contracted_intermediate")])));
   (*L715*) SAssign "contracted_intermediate" (EScale (-1 # 1) (EEins "nmkl,adjm,bcin->abcdijkl" [(ESlice (EVar "g_aaaa") [SV "o"; SV "o"; SV "o"; SV "o"]); (EVar "t2_aaaa"); (EVar "t2_aaaa")]));
   (*L716*) SAug true "quadruples_res" (EAdd (EScale (1 # 1) (EVar "contracted_intermediate")) (EScale (-1 # 1) (EEins "abcdijkl->abcdjikl" [(EVar "contracted_intermediate")])));
   (*L719*) SAssign "contracted_intermediate" (EScale (1 # 1) (EEins "nmjl,abkm,cdin->abcdijkl" [(ESlice (EVar "g_aaaa") [SV "o"; SV "o"; SV "o"; SV "o"]); (EVar "t2_aaaa"); (EVar "t2_aaaa")]));
   (*L720*) SAug true "quadruples_res" (EAdd (EAdd (EAdd (EScale (1 # 1) (EVar "contracted_intermediate")) (EScale (-1 # 1) (EEins "abcdijkl->abcdkjil" [(EVar "contracted_intermediate")]))) (EScale (-1 # 1) (EEins "abcdijkl->acbdijkl" [(EVar "contracted_intermediate")]))) (EScale (1 # 1) (EEins "abcdijkl->acbdkjil" [(EVar "contracted_intermediate")])));
   (*L723*) SAssign "contracted_intermediate" (EScale (1 # 1) (EEins "nmjl,adkm,bcin->abcdijkl" [(ESlice (EVar "g_aaaa") [SV "o"; SV "o"; SV "o"; SV "o"]); (EVar "t2_aaaa"); (EVar "t2_aaaa")]));
   (*L724*) SAug true "quadruples_res" (EAdd (EScale (1 # 1) (EVar "contracted_intermediate")) (EScale (-1 # 1) (EEins "abcdijkl->abcdkjil" [(EVar "contracted_intermediate")])));
   (*L727*) SAssign "contracted_intermediate" (EScale (-1 # 1) (EEins "nmil,abkm,cdjn->abcdijkl" [(ESlice (EVar "g_aaaa") [SV "o"; SV "o"; SV "o"; SV "o"]); (EVar "t2_aaaa"); (EVar "t2_aaaa")]));
   (*L728*) SAug true "quadruples_res" (EAdd (EAdd (EAdd (EScale (1 # 1) (EVar "contracted_intermediate")) (EScale (-1 # 1) (EEins "abcdijkl->abcdikjl" [(EVar "contracted_intermediate")]))) (EScale (-1 # 1) (EEins "abcdijkl->acbdijkl" [(EVar "contracted_intermediate")]))) (EScale (1 # 1) (EEins "abcdijkl->acbdikjl" [(EVar "contracted_intermediate")])));
   (*L731*) SAssign "contracted_intermediate" (EScale (-1 # 1) (EEins "nmil,adkm,bcjn->abcdijkl" [(ESlice (EVar "g_aaaa") [SV "o"; SV "o"; SV "o"; SV "o"]); (EVar "t2_aaaa"); (EVar "t2_aaaa")]));
   (*L732*) SAug true "quadruples_res" (EAdd (EScale (1 # 1) (EVar "contracted_intermediate")) (EScale (-1 # 1) (EEins "abcdijkl->abcdikjl" [(EVar "contracted_intermediate")])));
   (*L735*) SAssign "contracted_intermediate" (EScale (-1 # 1) (EEins "nmjk,ablm,cdin->abcdijkl" [(ESlice (EVar "g_aaaa") [SV "o"; SV "o"; SV "o"; SV "o"]); (EVar "t2_aaaa"); (EVar "t2_aaaa")]));
   (*L736*) SAug true "quadruples_res" (EAdd (EAdd (EAdd (EScale (1 # 1) (EVar "contracted_intermediate")) (EScale (-1 # 1) (EEins "abcdijkl->abcdljki" [(EVar "contracted_intermediate")]))) (EScale (-1 # 1) (EEins "abcdijkl->acbdijkl" [(EVar "contracted_intermediate")]))) (EScale (1 # 1) (EEins "abcdijkl->acbdljki" [(EVar "contracted_intermediate")])));
   (*L739*) SAssign "contracted_intermediate" (EScale (-1 # 1) (EEins "nmjk,adlm,bcin->abcdijkl" [(ESlice (EVar "g_aaaa") [SV "o"; SV "o"; SV "o"; SV "o"]); (EVar "t2_aaaa"); (EVar "t2_aaaa")]));
   (*L740*) SAug true "quadruples_res" (EAdd (EScale (1 # 1) (EVar "contracted_intermediate")) (EScale (-1 # 1) (EEins "abcdijkl->abcdljki" [(EVar "contracted_intermediate")])));
   (*L743*) SAssign "contracted_intermediate" (EScale (1 # 1) (EEins "nmik,ablm,cdjn->abcdijkl" [(ESlice (EVar "g_aaaa") [SV "o"; SV "o"; SV "o"; SV "o"]); (EVar "t2_aaaa"); (EVar "t2_aaaa")]));
   (*L744*) SAug true "quadruples_res" (EAdd (EAdd (EAdd (EScale (1 # 1) (EVar "contracted_intermediate")) (EScale (-1 # 1) (EEins "abcdijkl->abcdilkj" [(EVar "contracted_intermediate")]))) (EScale (-1 # 1) (EEins "abcdijkl->acbdijkl" [(EVar "contracted_intermediate")]))) (EScale (1 # 1) (EEins "abcdijkl->acbdilkj" [(EVar "contracted_intermediate")])));
   (*L747*) SAssign "contracted_intermediate" (EScale (1 # 1) (EEins "nmik,adlm,bcjn->abcdijkl" [(ESlice (EVar "g_aaaa") [SV "o"; SV "o"; SV "o"; SV "o"]); (EVar "t2_aaaa"); (EVar "t2_aaaa")]));
   (*L748*) SAug true "quadruples_res" (EAdd (EScale (1 # 1) (EVar "contracted_intermediate")) (EScale (-1 # 1) (EEins "abcdijkl->abcdilkj" [(EVar "contracted_intermediate")])));
   (*L751*) SAssign "contracted_intermediate" (EScale (-1 # 1) (EEins "nmij,ablm,cdkn->abcdijkl" [(ESlice (EVar "g_aaaa") [SV "o"; SV "o"; SV "o"; SV "o"]); (EVar "t2_aaaa"); (EVar "t2_aaaa")]));
   (*L752*) SAug true "quadruples_res" (EAdd (EAdd (EAdd (EScale (1 # 1) (EVar "contracted_intermediate")) (EScale (-1 # 1) (EEins "abcdijkl->abcdijlk" [(EVar "contracted_intermediate")]))) (EScale (-1 # 1) (EEins "abcdijkl->acbdijkl" [(EVar "contracted_intermediate")]))) (EScale (1 # 1) (EEins "abcdijkl->acbdijlk" [(EVar "contracted_intermediate")])));
   (*L755*) SAssign "contracted_intermediate" (EScale (-1 # 1) (EEins "nmij,adlm,bckn->abcdijkl" [(ESlice (EVar "g_aaaa") [SV "o"; SV "o"; SV "o"; SV "o"]); (EVar "t2_aaaa"); (EVar "t2_aaaa")]));
   (*L756*) SAug true "quadruples_res" (EAdd (EScale (1 # 1) (EVar "contracted_intermediate")) (EScale (-1 # 1) (EEins "abcdijkl->abcdijlk" [(EVar "contracted_intermediate")])));
   (*L759*) SAssign "contracted_intermediate" (EScale (1 # 1) (EEins "mael,ebjk,cdim->abcdijkl" [(ESlice (EVar "g_aaaa") [SV "o"; SV "v"; SV "v"; SV "o"]); (EVar "t2_aaaa"); (EVar "t2_aaaa")]));
   (*L760*) SAug true "quadruples_res" (EAdd (EAdd (EAdd (EScale (1 # 1) (EVar "contracted_intermediate")) (EScale (-1 # 1) (EEins "abcdijkl->abcdjikl" [(EVar "contracted_intermediate")]))) (EScale (-1 # 1) (EEins "abcdijkl->acbdijkl" [(EVar "contracted_intermediate")]))) (EScale (1 # 1) (EEins "abcdijkl->acbdjikl" [(EVar "contracted_intermediate")])));
   (*L763*) SAssign "contracted_intermediate" (EScale (1 # 1) (EEins "mael,ebij,cdkm->abcdijkl" [(ESlice (EVar "g_aaaa") [SV "o"; SV "v"; SV "v"; SV "o"]); (EVar "t2_aaaa"); (EVar "t2_aaaa")]));
   (*L764*) SAug true "quadruples_res" (EAdd (EAdd (EAdd (EScale (1 # 1) (EVar "contracted_intermediate")) (EScale (-1 # 1) (EEins "abcdijkl->abcdijlk" [(EVar "contracted_intermediate")]))) (EScale (-1 # 1) (EEins "abcdijkl->acbdijkl" [(EVar "contracted_intermediate")]))) (EScale (1 # 1) (EEins "abcdijkl->acbdijlk" [(EVar "contracted_intermediate")])));
   (*L767*) SAssign "contracted_intermediate" (EScale (1 # 1) (EEins "mael,edjk,bcim->abcdijkl" [(ESlice (EVar "g_aaaa") [SV "o"; SV "v"; SV "v"; SV "o"]); (EVar "t2_aaaa"); (EVar "t2_aaaa")]));
   (*L768*) SAug true "quadruples_res" (EAdd (EAdd (EAdd (EScale (1 # 1) (EVar "contracted_intermediate")) (EScale (-1 # 1) (EEins "abcdijkl->abcdjikl" [(EVar "contracted_intermediate")]))) (EScale (-1 # 1) (EEins "abcdijkl->bacdijkl" [(EVar "contracted_intermediate")]))) (EScale (1 # 1) (EEins "abcdijkl->bacdjikl" [(EVar "contracted_intermediate")])));
   (*L771*) SAssign "contracted_intermediate" (EScale (1 # 1) (EEins "mael,edij,bckm->abcdijkl" [(ESlice (EVar "g_aaaa") [SV "o"; SV "v"; SV "v"; SV "o"]); (EVar "t2_aaaa"); (EVar "t2_aaaa")]));
   (*L772*) SAug true "quadruples_res" (EAdd (EAdd (EAdd (EScale (1 # 1) (EVar "contracted_intermediate")) (EScale (-1 # 1) (EEins "abcdijkl->abcdijlk" [(EVar "contracted_intermediate")]))) (EScale (-1 # 1) (EEins "abcdijkl->bacdijkl" [(EVar "contracted_intermediate")]))) (EScale (1 # 1) (EEins "abcdijkl->bacdijlk" [(EVar "contracted_intermediate")])));
   (*L775*) SAssign "contracted_intermediate" (EScale (-1 # 1) (EEins "maek,ebjl,cdim->abcdijkl" [(ESlice (EVar "g_aaaa") [SV "o"; SV "v"; SV "v"; SV "o"]); (EVar "t2_aaaa"); (EVar "t2_aaaa")]));
   (*L776*) SAug true "quadruples_res" (EAdd (EAdd (EAdd (EScale (1 # 1) (EVar "contracted_intermediate")) (EScale (-1 # 1) (EEins "abcdijkl->abcdjikl" [(EVar "contracted_intermediate")]))) (EScale (-1 # 1) (EEins "abcdijkl->acbdijkl" [(EVar "contracted_intermediate")]))) (EScale (1 # 1) (EEins "abcdijkl->acbdjikl" [(EVar "contracted_intermediate")])));
   (*L779*) SAssign "contracted_intermediate" (EScale (-1 # 1) (EEins "maek,edjl,bcim->abcdijkl" [(ESlice (EVar "g_aaaa") [SV "o"; SV "v"; SV "v"; SV "o"]); (EVar "t2_aaaa"); (EVar "t2_aaaa")]));
   (*L780*) SAug true "quadruples_res" (EAdd (EAdd (EAdd (EScale (1 # 1) (EVar "contracted_intermediate")) (EScale (-1 # 1) (EEins "abcdijkl->abcdjikl" [(EVar "contracted_intermediate")]))) (EScale (-1 # 1) (EEins "abcdijkl->bacdijkl" [(EVar "contracted_intermediate")]))) (EScale (1 # 1) (EEins "abcdijkl->bacdjikl" [(EVar "contracted_intermediate")])));
   (*L783*) SAssign "contracted_intermediate" (EScale (1 # 1) (EEins "maej,ebkl,cdim->abcdijkl" [(ESlice (EVar "g_aaaa") [SV "o"; SV "v"; SV "v"; SV "o"]); (EVar "t2_aaaa"); (EVar "t2_aaaa")]));
   (*L784*) SAug true "quadruples_res" (EAdd (EAdd (EAdd (EScale (1 # 1) (EVar "contracted_intermediate")) (EScale (-1 # 1) (EEins "abcdijkl->abcdkjil" [(EVar "contracted_intermediate")]))) (EScale (-1 # 1) (EEins "abcdijkl->acbdijkl" [(EVar "contracted_intermediate")]))) (EScale (1 # 1) (EEins "abcdijkl->acbdkjil" [(EVar "contracted_intermediate")])));
   (*L787*) SAssign "contracted_intermediate" (EScale (1 # 1) (EEins "maej,ebik,cdlm->abcdijkl" [(ESlice (EVar "g_aaaa") [SV "o"; SV "v"; SV "v"; SV "o"]); (EVar "t2_aaaa"); (EVar "t2_aaaa")]));
   (*L788*) SAug true "quadruples_res" (EAdd (EAdd (EAdd (EScale (1 # 1) (EVar "contracted_intermediate")) (EScale (-1 # 1) (EEins "abcdijkl->abcdjikl" [(EVar "contracted_intermediate")]))) (EScale (-1 # 1) (EEins "abcdijkl->acbdijkl" [(EVar "contracted_intermediate")]))) (EScale (1 # 1) (EEins "abcdijkl->acbdjikl" [(EVar "contracted_intermediate")])));
   (*L791*) SAssign "contracted_intermediate" (EScale (1 # 1) (EEins "maej,edkl,bcim->abcdijkl" [(ESlice (EVar "g_aaaa") [SV "o"; SV "v"; SV "v"; SV "o"]); (EVar "t2_aaaa"); (EVar "t2_aaaa")]));
   (*L792*) SAug true "quadruples_res" (EAdd (EAdd (EAdd (EScale (1 # 1) (EVar "contracted_intermediate")) (EScale (-1 # 1) (EEins "abcdijkl->abcdkjil" [(EVar "contracted_intermediate")]))) (EScale (-1 # 1) (EEins "abcdijkl->bacdijkl" [(EVar "contracted_intermediate")]))) (EScale (1 # 1) (EEins "abcdijkl->bacdkjil" [(EVar "contracted_intermediate")])));
   (*L795*) SAssign "contracted_intermediate" (EScale (1 # 1) (EEins "maej,edik,bclm->abcdijkl" [(ESlice (EVar "g_aaaa") [SV "o"; SV "v"; SV "v"; SV "o"]); (EVar "t2_aaaa"); (EVar "t2_aaaa")]));
   (*L796*) SAug true "quadruples_res" (EAdd (EAdd (EAdd (EScale (1 # 1) (EVar "contracted_intermediate")) (EScale (-1 # 1) (EEins "abcdijkl->abcdjikl" [(EVar "contracted_intermediate")]))) (EScale (-1 # 1) (EEins "abcdijkl->bacdijkl" [(EVar "contracted_intermediate")]))) (EScale (1 # 1) (EEins "abcdijkl->bacdjikl" [(EVar "contracted_intermediate")])));
   (*L799*) SAssign "contracted_intermediate" (EScale (-1 # 1) (EEins "maei,ebkl,cdjm->abcdijkl" [(ESlice (EVar "g_aaaa") [SV "o"; SV "v"; SV "v"; SV "o"]); (EVar "t2_aaaa"); (EVar "t2_aaaa")]));
   (*L800*) SAug true "quadruples_res" (EAdd (EAdd (EAdd (EScale (1 # 1) (EVar "contracted_intermediate")) (EScale (-1 # 1) (EEins "abcdijkl->abcdikjl" [(EVar "contracted_intermediate")]))) (EScale (-1 # 1) (EEins "abcdijkl->acbdijkl" [(EVar "contracted_intermediate")]))) (EScale (1 # 1) (EEins "abcdijkl->acbdikjl" [(EVar "contracted_intermediate")])));
   (*L803*) SAssign "contracted_intermediate" (EScale (-1 # 1) (EEins "maei,edkl,bcjm->abcdijkl" [(ESlice (EVar "g_aaaa") [SV "o"; SV "v"; SV "v"; SV "o"]); (EVar "t2_aaaa"); (EVar "t2_aaaa")]));
   (*L804*) SAug true "quadruples_res" (EAdd (EAdd (EAdd (EScale (1 # 1) (EVar "contracted_intermediate")) (EScale (-1 # 1) (EEins "abcdijkl->abcdikjl" [(EVar "contracted_intermediate")]))) (EScale (-1 # 1) (EEins "abcdijkl->bacdijkl" [(EVar "contracted_intermediate")]))) (EScale (1 # 1) (EEins "abcdijkl->bacdikjl" [(EVar "contracted_intermediate")])));
   (*L807*) SAssign "contracted_intermediate" (EScale (-1 # 1) (EEins "mbel,eajk,cdim->abcdijkl" [(ESlice (EVar "g_aaaa") [SV "o"; SV "v"; SV "v"; SV "o"]); (EVar "t2_aaaa"); (EVar "t2_aaaa")]));
   (*L808*) SAug true "quadruples_res" (EAdd (EAdd (EAdd (EScale (1 # 1) (EVar "contracted_intermediate")) (EScale (-1 # 1) (EEins "abcdijkl->abcdjikl" [(EVar "contracted_intermediate")]))) (EScale (-1 # 1) (EEins "abcdijkl->cbadijkl" [(EVar "contracted_intermediate")]))) (EScale (1 # 1) (EEins "abcdijkl->cbadjikl" [(EVar "contracted_intermediate")])));
   (*L811*) SAssign "contracted_intermediate" (EScale (-1 # 1) (EEins "mbel,eaij,cdkm->abcdijkl" [(ESlice (EVar "g_aaaa") [SV "o"; SV "v"; SV "v"; SV "o"]); (EVar "t2_aaaa"); (EVar "t2_aaaa")]));
   (*L812*) SAug true "quadruples_res" (EAdd (EAdd (EAdd (EScale (1 # 1) (EVar "contracted_intermediate")) (EScale (-1 # 1) (EEins "abcdijkl->abcdijlk" [(EVar "contracted_intermediate")]))) (EScale (-1 # 1) (EEins "abcdijkl->cbadijkl" [(EVar "contracted_intermediate")]))) (EScale (1 # 1) (EEins "abcdijkl->cbadijlk" [(EVar "contracted_intermediate")])));
   (*L815*) SAssign "contracted_intermediate" (EScale (1 # 1) (EEins "mbek,eajl,cdim->abcdijkl" [(ESlice (EVar "g_aaaa") [SV "o"; SV "v"; SV "v"; SV "o"]); (EVar "t2_aaaa"); (EVar "t2_aaaa")]));
   (*L816*) SAug true "quadruples_res" (EAdd (EAdd (EAdd (EScale (1 # 1) (EVar "contracted_intermediate")) (EScale (-1 # 1) (EEins "abcdijkl->abcdjikl" [(EVar "contracted_intermediate")]))) (EScale (-1 # 1) (EEins "abcdijkl->cbadijkl" [(EVar "contracted_intermediate")]))) (EScale (1 # 1) (EEins "abcdijkl->cbadjikl" [(EVar "contracted_intermediate")])));
   (*L819*) SAssign "contracted_intermediate" (EScale (-1 # 1) (EEins "mbej,eakl,cdim->abcdijkl" [(ESlice (EVar "g_aaaa") [SV "o"; SV "v"; SV "v"; SV "o"]); (EVar "t2_aaaa"); (EVar "t2_aaaa")]));
   (*L820*) SAug true "quadruples_res" (EAdd (EAdd (EAdd (EScale (1 # 1) (EVar "contracted_intermediate")) (EScale (-1 # 1) (EEins "abcdijkl->abcdkjil" [(EVar "contracted_intermediate")]))) (EScale (-1 # 1) (EEins "abcdijkl->cbadijkl" [(EVar "contracted_intermediate")]))) (EScale (1 # 1) (EEins "abcdijkl->cbadkjil" [(EVar "contracted_intermediate")])));
   (*L823*) SAssign "contracted_intermediate" (EScale (-1 # 1) (EEins "mbej,eaik,cdlm->abcdijkl" [(ESlice (EVar "g_aaaa") [SV "o"; SV "v"; SV "v"; SV "o"]); (EVar "t2_aaaa"); (EVar "t2_aaaa")]));
   (*L824*) SAug true "quadruples_res" (EAdd (EAdd (EAdd (EScale (1 # 1) (EVar "contracted_intermediate")) (EScale (-1 # 1) (EEins "abcdijkl->abcdjikl" [(EVar "contracted_intermediate")]))) (EScale (-1 # 1) (EEins "abcdijkl->cbadijkl" [(EVar "contracted_intermediate")]))) (EScale (1 # 1) (EEins "abcdijkl->cbadjikl" [(EVar "contracted_intermediate")])));
   (*L827*) SAssign "contracted_intermediate" (EScale (1 # 1) (EEins "mbei,eakl,cdjm->abcdijkl" [(ESlice (EVar "g_aaaa") [SV "o"; SV "v"; SV "v"; SV "o"]); (EVar "t2_aaaa"); (EVar "t2_aaaa")]));
   (*L828*) SAug true "quadruples_res" (EAdd (EAdd (EAdd (EScale (1 # 1) (EVar "contracted_intermediate")) (EScale (-1 # 1) (EEins "abcdijkl->abcdikjl" [(EVar "contracted_intermediate")]))) (EScale (-1 # 1) (EEins "abcdijkl->cbadijkl" [(EVar "contracted_intermediate")]))) (EScale (1 # 1) (EEins "abcdijkl->cbadikjl" [(EVar "contracted_intermediate")])));
   (*L831*) SAssign "contracted_intermediate" (EScale (1 # 1) (EEins "mcel,eajk,bdim->abcdijkl" [(ESlice (EVar "g_aaaa") [SV "o"; SV "v"; SV "v"; SV "o"]); (EVar "t2_aaaa"); (EVar "t2_aaaa")]));
   (*L832*) SAug true "quadruples_res" (EAdd (EAdd (EAdd (EScale (1 # 1) (EVar "contracted_intermediate")) (EScale (-1 # 1) (EEins "abcdijkl->abcdjikl" [(EVar "contracted_intermediate")]))) (EScale (-1 # 1) (EEins "abcdijkl->bacdijkl" [(EVar "contracted_intermediate")]))) (EScale (1 # 1) (EEins "abcdijkl->bacdjikl" [(EVar "contracted_intermediate")])));
   (*L835*) SAssign "contracted_intermediate" (EScale (1 # 1) (EEins "mcel,eaij,bdkm->abcdijkl" [(ESlice (EVar "g_aaaa") [SV "o"; SV "v"; SV "v"; SV "o"]); (EVar "t2_aaaa"); (EVar "t2_aaaa")]));
   (*L836*) SAug true "quadruples_res" (EAdd (EAdd (EAdd (EScale (1 # 1) (EVar "contracted_intermediate")) (EScale (-1 # 1) (EEins "abcdijkl->abcdijlk" [(EVar "contracted_intermediate")]))) (EScale (-1 # 1) (EEins "abcdijkl->bacdijkl" [(EVar "contracted_intermediate")]))) (EScale (1 # 1) (EEins "abcdijkl->bacdijlk" [(EVar "contracted_intermediate")])));
   (*L839*) SAssign "contracted_intermediate" (EScale (1 # 1) (EEins "mcel,edjk,abim->abcdijkl" [(ESlice (EVar "g_aaaa") [SV "o"; SV "v"; SV "v"; SV "o"]); (EVar "t2_aaaa"); (EVar "t2_aaaa")]));
   (*L840*) SAug true "quadruples_res" (EAdd (EAdd (EAdd (EScale (1 # 1) (EVar "contracted_intermediate")) (EScale (-1 # 1) (EEins "abcdijkl->abcdjikl" [(EVar "contracted_intermediate")]))) (EScale (-1 # 1) (EEins "abcdijkl->abdcijkl" [(EVar "contracted_intermediate")]))) (EScale (1 # 1) (EEins "abcdijkl->abdcjikl" [(EVar "contracted_intermediate")])));
   (*L843*) SAssign "contracted_intermediate" (EScale (1 # 1) (EEins "mcel,edij,abkm->abcdijkl" [(ESlice (EVar "g_aaaa") [SV "o"; SV "v"; SV "v"; SV "o"]); (EVar "t2_aaaa"); (EVar "t2_aaaa")]));
   (*L844*) SAug true "quadruples_res" (EAdd (EAdd (EAdd (EScale (1 # 1) (EVar "contracted_intermediate")) (EScale (-1 # 1) (EEins "abcdijkl->abcdijlk" [(EVar "contracted_intermediate")]))) (EScale (-1 # 1) (EEins "abcdijkl->abdcijkl" [(EVar "contracted_intermediate")]))) (EScale (1 # 1) (EEins "abcdijkl->abdcijlk" [(EVar "contracted_intermediate")])));
   (*L847*) SAssign "contracted_intermediate" (EScale (-1 # 1) (EEins "mcek,eajl,bdim->abcdijkl" [(ESlice (EVar "g_aaaa") [SV "o"; SV "v"; SV "v"; SV "o"]); (EVar "t2_aaaa"); (EVar "t2_aaaa")]));
   (*L848*) SAug true "quadruples_res" (EAdd (EAdd (EAdd (EScale (1 # 1) (EVar "contracted_intermediate")) (EScale (-1 # 1) (EEins "abcdijkl->abcdjikl" [(EVar "contracted_intermediate")]))) (EScale (-1 # 1) (EEins "abcdijkl->bacdijkl" [(EVar "contracted_intermediate")]))) (EScale (1 # 1) (EEins "abcdijkl->bacdjikl" [(EVar "contracted_intermediate")])));
   (*L851*) SAssign "contracted_intermediate" (EScale (-1 # 1) (EEins "mcek,edjl,abim->abcdijkl" [(ESlice (EVar "g_aaaa") [SV "o"; SV "v"; SV "v"; SV "o"]); (EVar "t2_aaaa"); (EVar "t2_aaaa")]));
   (*L852*) SAug true "quadruples_res" (EAdd (EAdd (EAdd (EScale (1 # 1) (EVar "contracted_intermediate")) (EScale (-1 # 1) (EEins "abcdijkl->abcdjikl" [(EVar "contracted_intermediate")]))) (EScale (-1 # 1) (EEins "abcdijkl->abdcijkl" [(EVar "contracted_intermediate")]))) (EScale (1 # 1) (EEins "abcdijkl->abdcjikl" [(EVar "contracted_intermediate")])));
   (*L855*) SAssign "contracted_intermediate" (EScale (1 # 1) (EEins "mcej,eakl,bdim->abcdijkl" [(ESlice (EVar "g_aaaa") [SV "o"; SV "v"; SV "v"; SV "o"]); (EVar "t2_aaaa"); (EVar "t2_aaaa")]));
   (*L856*) SAug true "quadruples_res" (EAdd (EAdd (EAdd (EScale (1 # 1) (EVar "contracted_intermediate")) (EScale (-1 # 1) (EEins "abcdijkl->abcdkjil" [(EVar "contracted_intermediate")]))) (EScale (-1 # 1) (EEins "abcdijkl->bacdijkl" [(EVar "contracted_intermediate")]))) (EScale (1 # 1) (EEins "abcdijkl->bacdkjil" [(EVar "contracted_intermediate")])));
   (*L859*) SAssign "contracted_intermediate" (EScale (1 # 1) (EEins "mcej,eaik,bdlm->abcdijkl" [(ESlice (EVar "g_aaaa") [SV "o"; SV "v"; SV "v"; SV "o"]); (EVar "t2_aaaa"); (EVar "t2_aaaa")]));
   (*L860*) SAug true "quadruples_res" (EAdd (EAdd (EAdd (EScale (1 # 1) (EVar "contracted_intermediate")) (EScale (-1 # 1) (EEins "abcdijkl->abcdjikl" [(EVar "contracted_intermediate")]))) (EScale (-1 # 1) (EEins "abcdijkl->bacdijkl" [(EVar "contracted_intermediate")]))) (EScale (1 # 1) (EEins "abcdijkl->bacdjikl" [(EVar "contracted_intermediate")])));
   (*L863*) SAssign "contracted_intermediate" (EScale (1 # 1) (EEins "mcej,edkl,abim->abcdijkl" [(ESlice (EVar "g_aaaa") [SV "o"; SV "v"; SV "v"; SV "o"]); (EVar "t2_aaaa"); (EVar "t2_aaaa")]));
   (*L864*) SAug true "quadruples_res" (EAdd (EAdd (EAdd (EScale (1 # 1) (EVar "contracted_intermediate")) (EScale (-1 # 1) (EEins "abcdijkl->abcdkjil" [(EVar "contracted_intermediate")]))) (EScale (-1 # 1) (EEins "abcdijkl->abdcijkl" [(EVar "contracted_intermediate")]))) (EScale (1 # 1) (EEins "abcdijkl->abdckjil" [(EVar "contracted_intermediate")])));
   (*L867*) SAssign "contracted_intermediate" (EScale (1 # 1) (EEins "mcej,edik,ablm->abcdijkl" [(ESlice (EVar "g_aaaa") [SV "o"; SV "v"; SV "v"; SV "o"]); (EVar "t2_aaaa"); (EVar "t2_aaaa")]));
   (*L868*) SAug true "quadruples_res" (EAdd (EAdd (EAdd (EScale (1 # 1) (EVar "contracted_intermediate")) (EScale (-1 # 1) (EEins "abcdijkl->abcdjikl" [(EVar "contracted_intermediate")]))) (EScale (-1 # 1) (EEins "abcdijkl->abdcijkl" [(EVar "contracted_intermediate")]))) (EScale (1 # 1) (EEins "abcdijkl->abdcjikl" [(EVar "contracted_intermediate")])));
   (*L871*) SAssign "contracted_intermediate" (EScale (-1 # 1) (EEins "mcei,eakl,bdjm->abcdijkl" [(ESlice (EVar "g_aaaa") [SV "o"; SV "v"; SV "v"; SV "o"]); (EVar "t2_aaaa"); (EVar "t2_aaaa")]));
   (*L872*) SAug true "quadruples_res" (EAdd (EAdd (EAdd (EScale (1 # 1) (EVar "contracted_intermediate")) (EScale (-1 # 1) (EEins "abcdijkl->abcdikjl" [(EVar "contracted_intermediate")]))) (EScale (-1 # 1) (EEins "abcdijkl->bacdijkl" [(EVar "contracted_intermediate")]))) (EScale (1 # 1) (EEins "abcdijkl->bacdikjl" [(EVar "contracted_intermediate")])));
   (*L875*) SAssign "contracted_intermediate" (EScale (-1 # 1) (EEins "mcei,edkl,abjm->abcdijkl" [(ESlice (EVar "g_aaaa") [SV "o"; SV "v"; SV "v"; SV "o"]); (EVar "t2_aaaa"); (EVar "t2_aaaa")]));
   (*L876*) SAug true "quadruples_res" (EAdd (EAdd (EAdd (EScale (1 # 1) (EVar "contracted_intermediate")) (EScale (-1 # 1) (EEins "abcdijkl->abcdikjl" [(EVar "contracted_intermediate")]))) (EScale (-1 # 1) (EEins "abcdijkl->abdcijkl" [(EVar "contracted_intermediate")]))) (EScale (1 # 1) (EEins "abcdijkl->abdcikjl" [(EVar "contracted_intermediate")])));
   (*L879*) SAssign "contracted_intermediate" (EScale (-1 # 1) (EEins "mdel,eajk,bcim->abcdijkl" [(ESlice (EVar "g_aaaa") [SV "o"; SV "v"; SV "v"; SV "o"]); (EVar "t2_aaaa"); (EVar "t2_aaaa")]));
   (*L880*) SAug true "quadruples_res" (EAdd (EAdd (EAdd (EScale (1 # 1) (EVar "contracted_intermediate")) (EScale (-1 # 1) (EEins "abcdijkl->abcdjikl" [(EVar "contracted_intermediate")]))) (EScale (-1 # 1) (EEins "abcdijkl->bacdijkl" [(EVar "contracted_intermediate")]))) (EScale (1 # 1) (EEins "abcdijkl->bacdjikl" [(EVar "contracted_intermediate")])));
   (*L883*) SAssign "contracted_intermediate" (EScale (-1 # 1) (EEins "mdel,eaij,bckm->abcdijkl" [(ESlice (EVar "g_aaaa") [SV "o"; SV "v"; SV "v"; SV "o"]); (EVar "t2_aaaa"); (EVar "t2_aaaa")]));
   (*L884*) SAug true "quadruples_res" (EAdd (EAdd (EAdd (EScale (1 # 1) (EVar "contracted_intermediate")) (EScale (-1 # 1) (EEins "abcdijkl->abcdijlk" [(EVar "contracted_intermediate")]))) (EScale (-1 # 1) (EEins "abcdijkl->bacdijkl" [(EVar "contracted_intermediate")]))) (EScale (1 # 1) (EEins "abcdijkl->bacdijlk" [(EVar "contracted_intermediate")])));
   (*L887*) SAssign "contracted_intermediate" (EScale (1 # 1) (EEins "mdek,eajl,bcim->abcdijkl" [(ESlice (EVar "g_aaaa") [SV "o"; SV "v"; SV "v"; SV "o"]); (EVar "t2_aaaa"); (EVar "t2_aaaa")]));
   (*L888*) SAug true "quadruples_res" (EAdd (EAdd (EAdd (EScale (1 # 1) (EVar "contracted_intermediate")) (EScale (-1 # 1) (EEins "abcdijkl->abcdjikl" [(EVar "contracted_intermediate")]))) (EScale (-1 # 1) (EEins "abcdijkl->bacdijkl" [(EVar "contracted_intermediate")]))) (EScale (1 # 1) (EEins "abcdijkl->bacdjikl" [(EVar "contracted_intermediate")])));
   (*L891*) SAssign "contracted_intermediate" (EScale (-1 # 1) (EEins "mdej,eakl,bcim->abcdijkl" [(ESlice (EVar "g_aaaa") [SV "o"; SV "v"; SV "v"; SV "o"]); (EVar "t2_aaaa"); (EVar "t2_aaaa")]));
   (*L892*) SAug true "quadruples_res" (EAdd (EAdd (EAdd (EScale (1 # 1) (EVar "contracted_intermediate")) (EScale (-1 # 1) (EEins "abcdijkl->abcdkjil" [(EVar "contracted_intermediate")]))) (EScale (-1 # 1) (EEins "abcdijkl->bacdijkl" [(EVar "contracted_intermediate")]))) (EScale (1 # 1) (EEins "abcdijkl->bacdkjil" [(EVar "contracted_intermediate")])));
   (*L895*) SAssign "contracted_intermediate" (EScale (-1 # 1) (EEins "mdej,eaik,bclm->abcdijkl" [(ESlice (EVar "g_aaaa") [SV "o"; SV "v"; SV "v"; SV "o"]); (EVar "t2_aaaa"); (EVar "t2_aaaa")]));
   (*L896*) SAug true "quadruples_res" (EAdd (EAdd (EAdd (EScale (1 # 1) (EVar "contracted_intermediate")) (EScale (-1 # 1) (EEins "abcdijkl->abcdjikl" [(EVar "contracted_intermediate")]))) (EScale (-1 # 1) (EEins "abcdijkl->bacdijkl" [(EVar "contracted_intermediate")]))) (EScale (1 # 1) (EEins "abcdijkl->bacdjikl" [(EVar "contracted_intermediate")])));
   (*L899*) SAssign "contracted_intermediate" (EScale (1 # 1) (EEins "mdei,eakl,bcjm->abcdijkl" [(ESlice (EVar "g_aaaa") [SV "o"; SV "v"; SV "v"; SV "o"]); (EVar "t2_aaaa"); (EVar "t2_aaaa")]));
   (*L900*) SAug true "quadruples_res" (EAdd (EAdd (EAdd (EScale (1 # 1) (EVar "contracted_intermediate")) (EScale (-1 # 1) (EEins "abcdijkl->abcdikjl" [(EVar "contracted_intermediate")]))) (EScale (-1 # 1) (EEins "abcdijkl->bacdijkl" [(EVar "contracted_intermediate")]))) (EScale (1 # 1) (EEins "abcdijkl->bacdikjl" [(EVar "contracted_intermediate")])));
   (*L903*) SAssign "contracted_intermediate" (EScale (-1 # 1) (EEins "abef,eckl,fdij->abcdijkl" [(ESlice (EVar "g_aaaa") [SV "v"; SV "v"; SV "v"; SV "v"]); (EVar "t2_aaaa"); (EVar "t2_aaaa")]));
   (*L904*) SAug true "quadruples_res" (EAdd (EAdd (EAdd (EScale (1 # 1) (EVar "contracted_intermediate")) (EScale (-1 # 1) (EEins "abcdijkl->abcdikjl" [(EVar "contracted_intermediate")]))) (EScale (-1 # 1) (EEins "abcdijkl->acbdijkl" [(EVar "contracted_intermediate")]))) (EScale (1 # 1) (EEins "abcdijkl->acbdikjl" [(EVar "contracted_intermediate")])));
   (*L907*) SAssign "contracted_intermediate" (EScale (-1 # 1) (EEins "abef,ecil,fdjk->abcdijkl" [(ESlice (EVar "g_aaaa") [SV "v"; SV "v"; SV "v"; SV "v"]); (EVar "t2_aaaa"); (EVar "t2_aaaa")]));
   (*L908*) SAug true "quadruples_res" (EAdd (EAdd (EAdd (EScale (1 # 1) (EVar "contracted_intermediate")) (EScale (-1 # 1) (EEins "abcdijkl->abcdijlk" [(EVar "contracted_intermediate")]))) (EScale (-1 # 1) (EEins "abcdijkl->acbdijkl" [(EVar "contracted_intermediate")]))) (EScale (1 # 1) (EEins "abcdijkl->acbdijlk" [(EVar "contracted_intermediate")])));
   (*L911*) SAssign "contracted_intermediate" (EScale (-1 # 1) (EEins "abef,ecjk,fdil->abcdijkl" [(ESlice (EVar "g_aaaa") [SV "v"; SV "v"; SV "v"; SV "v"]); (EVar "t2_aaaa"); (EVar "t2_aaaa")]));
   (*L912*) SAug true "quadruples_res" (EAdd (EAdd (EAdd (EScale (1 # 1) (EVar "contracted_intermediate")) (EScale (-1 # 1) (EEins "abcdijkl->abcdkjil" [(EVar "contracted_intermediate")]))) (EScale (-1 # 1) (EEins "abcdijkl->acbdijkl" [(EVar "contracted_intermediate")]))) (EScale (1 # 1) (EEins "abcdijkl->acbdkjil" [(EVar "contracted_intermediate")])));
   (*L915*) SAssign "contracted_intermediate" (EScale (-1 # 1) (EEins "adef,ebkl,fcij->abcdijkl" [(ESlice (EVar "g_aaaa") [SV "v"; SV "v"; SV "v"; SV "v"]); (EVar "t2_aaaa"); (EVar "t2_aaaa")]));
   (*L916*) SAug true "quadruples_res" (EAdd (EAdd (EAdd (EScale (1 # 1) (EVar "contracted_intermediate")) (EScale (-1 # 1) (EEins "abcdijkl->abcdikjl" [(EVar "contracted_intermediate")]))) (EScale (-1 # 1) (EEins "abcdijkl->bacdijkl" [(EVar "contracted_intermediate")]))) (EScale (1 # 1) (EEins "abcdijkl->bacdikjl" [(EVar "contracted_intermediate")])));
   (*L919*) SAssign "contracted_intermediate" (EScale (-1 # 1) (EEins "adef,ebil,fcjk->abcdijkl" [(ESlice (EVar "g_aaaa") [SV "v"; SV "v"; SV "v"; SV "v"]); (EVar "t2_aaaa"); (EVar "t2_aaaa")]));
   (*L920*) SAug true "quadruples_res" (EAdd (EAdd (EAdd (EScale (1 # 1) (EVar "contracted_intermediate")) (EScale (-1 # 1) (EEins "abcdijkl->abcdijlk" [(EVar "contracted_intermediate")]))) (EScale (-1 # 1) (EEins "abcdijkl->bacdijkl" [(EVar "contracted_intermediate")]))) (EScale (1 # 1) (EEins "abcdijkl->bacdijlk" [(EVar "contracted_intermediate")])));
   (*L923*) SAssign "contracted_intermediate" (EScale (-1 # 1) (EEins "adef,ebjk,fcil->abcdijkl" [(ESlice (EVar "g_aaaa") [SV "v"; SV "v"; SV "v"; SV "v"]); (EVar "t2_aaaa"); (EVar "t2_aaaa")]));
   (*L924*) SAug true "quadruples_res" (EAdd (EAdd (EAdd (EScale (1 # 1) (EVar "contracted_intermediate")) (EScale (-1 # 1) (EEins "abcdijkl->abcdkjil" [(EVar "contracted_intermediate")]))) (EScale (-1 # 1) (EEins "abcdijkl->bacdijkl" [(EVar "contracted_intermediate")]))) (EScale (1 # 1) (EEins "abcdijkl->bacdkjil" [(EVar "contracted_intermediate")])));
   (*L927*) SAssign "contracted_intermediate" (EScale (-1 # 1) (EEins "bcef,eakl,fdij->abcdijkl" [(ESlice (EVar "g_aaaa") [SV "v"; SV "v"; SV "v"; SV "v"]); (EVar "t2_aaaa"); (EVar "t2_aaaa")]));
   (*L928*) SAug true "quadruples_res" (EAdd (EAdd (EAdd (EScale (1 # 1) (EVar "contracted_intermediate")) (EScale (-1 # 1) (EEins "abcdijkl->abcdikjl" [(EVar "contracted_intermediate")]))) (EScale (-1 # 1) (EEins "abcdijkl->adcbijkl" [(EVar "contracted_intermediate")]))) (EScale (1 # 1) (EEins "abcdijkl->adcbikjl" [(EVar "contracted_intermediate")])));
   (*L931*) SAssign "contracted_intermediate" (EScale (-1 # 1) (EEins "bcef,eail,fdjk->abcdijkl" [(ESlice (EVar "g_aaaa") [SV "v"; SV "v"; SV "v"; SV "v"]); (EVar "t2_aaaa"); (EVar "t2_aaaa")]));
   (*L932*) SAug true "quadruples_res" (EAdd (EAdd (EAdd (EScale (1 # 1) (EVar "contracted_intermediate")) (EScale (-1 # 1) (EEins "abcdijkl->abcdijlk" [(EVar "contracted_intermediate")]))) (EScale (-1 # 1) (EEins "abcdijkl->adcbijkl" [(EVar "contracted_intermediate")]))) (EScale (1 # 1) (EEins "abcdijkl->adcbijlk" [(EVar "contracted_intermediate")])));
   (*L935*) SAssign "contracted_intermediate" (EScale (-1 # 1) (EEins "bcef,eajk,fdil->abcdijkl" [(ESlice (EVar "g_aaaa") [SV "v"; SV "v"; SV "v"; SV "v"]); (EVar "t2_aaaa"); (EVar "t2_aaaa")]));
   (*L936*) SAug true "quadruples_res" (EAdd (EAdd (EAdd (EScale (1 # 1) (EVar "contracted_intermediate")) (EScale (-1 # 1) (EEins "abcdijkl->abcdkjil" [(EVar "contracted_intermediate")]))) (EScale (-1 # 1) (EEins "abcdijkl->adcbijkl" [(EVar "contracted_intermediate")]))) (EScale (1 # 1) (EEins "abcdijkl->adcbkjil" [(EVar "contracted_intermediate")])));
   (*L939*) SAssign "contracted_intermediate" (EScale (-1 # 2) (EEins "nmef,efkl,abjm,cdin->abcdijkl" [(ESlice (EVar "g_aaaa") [SV "o"; SV "o"; SV "v"; SV "v"]); (EVar "t2_aaaa"); (EVar "t2_aaaa"); (EVar "t2_aaaa")]));
   (*L940*) SAug true "quadruples_res" (EAdd (EAdd (EAdd (EScale (1 # 1) (EVar "contracted_intermediate")) (EScale (-1 # 1) (EEins "abcdijkl->abcdjikl" [(EVar "contracted_intermediate")]))) (EScale (-1 # 1) (EEins "abcdijkl->acbdijkl" [(EVar "contracted_intermediate")]))) (EScale (1 # 1) (EEins "abcdijkl->acbdjikl" [(EVar "contracted_intermediate")])));
   (*L943*) SAssign "contracted_intermediate" (EScale (-1 # 2) (EEins "nmef,efkl,adjm,bcin->abcdijkl" [(ESlice (EVar "g_aaaa") [SV "o"; SV "o"; SV "v"; SV "v"]); (EVar "t2_aaaa"); (EVar "t2_aaaa"); (EVar "t2_aaaa")]));
   (*L944*) SAug true "quadruples_res" (EAdd (EScale (1 # 1) (EVar "contracted_intermediate")) (EScale (-1 # 1) (EEins "abcdijkl->abcdjikl" [(EVar "contracted_intermediate")])));
   (*L947*) SAssign "contracted_intermediate" (EScale (1 # 2) (EEins "nmef,efjl,abkm,cdin->abcdijkl" [(ESlice (EVar "g_aaaa") [SV "o"; SV "o"; SV "v"; SV "v"]); (EVar "t2_aaaa"); (EVar "t2_aaaa"); (EVar "t2_aaaa")]));
   (*L948*) SAug true "quadruples_res" (EAdd (EAdd (EAdd (EScale (1 # 1) (EVar "contracted_intermediate")) (EScale (-1 # 1) (EEins "abcdijkl->abcdkjil" [(EVar "contracted_intermediate")]))) (EScale (-1 # 1) (EEins "abcdijkl->acbdijkl" [(EVar "contracted_intermediate")]))) (EScale (1 # 1) (EEins "abcdijkl->acbdkjil" [(EVar "contracted_intermediate")])));
   (*L951*) SAssign "contracted_intermediate" (EScale (1 # 2) (EEins "nmef,efjl,adkm,bcin->abcdijkl" [(ESlice (EVar "g_aaaa") [SV "o"; SV "o"; SV "v"; SV "v"]); (EVar "t2_aaaa"); (EVar "t2_aaaa"); (EVar "t2_aaaa")]));
   (*L952*) SAug true "quadruples_res" (EAdd (EScale (1 # 1) (EVar "contracted_intermediate")) (EScale (-1 # 1) (EEins "abcdijkl->abcdkjil" [(EVar "contracted_intermediate")])));
   (*L955*) SAssign "contracted_intermediate" (EScale (-1 # 2) (EEins "nmef,efil,abkm,cdjn->abcdijkl" [(ESlice (EVar "g_aaaa") [SV "o"; SV "o"; SV "v"; SV "v"]); (EVar "t2_aaaa"); (EVar "t2_aaaa"); (EVar "t2_aaaa")]));
   (*L956*) SAug true "quadruples_res" (EAdd (EAdd (EAdd (EScale (1 # 1) (EVar "contracted_intermediate")) (EScale (-1 # 1) (EEins "abcdijkl->abcdikjl" [(EVar "contracted_intermediate")]))) (EScale (-1 # 1) (EEins "abcdijkl->acbdijkl" [(EVar "contracted_intermediate")]))) (EScale (1 # 1) (EEins "abcdijkl->acbdikjl" [(EVar "contracted_intermediate")])));
   (*L959*) SAssign "contracted_intermediate" (EScale (-1 # 2) (EEins "nmef,efil,adkm,bcjn->abcdijkl" [(ESlice (EVar "g_aaaa") [SV "o"; SV "o"; SV "v"; SV "v"]); (EVar "t2_aaaa"); (EVar "t2_aaaa"); (EVar "t2_aaaa")]));
   (*L960*) SAug true "quadruples_res" (EAdd (EScale (1 # 1) (EVar "contracted_intermediate")) (EScale (-1 # 1) (EEins "abcdijkl->abcdikjl" [(EVar "contracted_intermediate")])));
   (*L963*) SAssign "contracted_intermediate" (EScale (-1 # 2) (EEins "nmef,efjk,ablm,cdin->abcdijkl" [(ESlice (EVar "g_aaaa") [SV "o"; SV "o"; SV "v"; SV "v"]); (EVar "t2_aaaa"); (EVar "t2_aaaa"); (EVar "t2_aaaa")]));
   (*L964*) SAug true "quadruples_res" (EAdd (EAdd (EAdd (EScale (1 # 1) (EVar "contracted_intermediate")) (EScale (-1 # 1) (EEins "abcdijkl->abcdljki" [(EVar "contracted_intermediate")]))) (EScale (-1 # 1) (EEins "abcdijkl->acbdijkl" [(EVar "contracted_intermediate")]))) (EScale (1 # 1) (EEins "abcdijkl->acbdljki" [(EVar "contracted_intermediate")])));
   (*L967*) SAssign "contracted_intermediate" (EScale (-1 # 2) (EEins "nmef,efjk,adlm,bcin->abcdijkl" [(ESlice (EVar "g_aaaa") [SV "o"; SV "o"; SV "v"; SV "v"]); (EVar "t2_aaaa"); (EVar "t2_aaaa"); (EVar "t2_aaaa")]));
   (*L968*) SAug true "quadruples_res" (EAdd (EScale (1 # 1) (EVar "contracted_intermediate")) (EScale (-1 # 1) (EEins "abcdijkl->abcdljki" [(EVar "contracted_intermediate")])));
   (*L971*) SAssign "contracted_intermediate" (EScale (1 # 2) (EEins "nmef,efik,ablm,cdjn->abcdijkl" [(ESlice (EVar "g_aaaa") [SV "o"; SV "o"; SV "v"; SV "v"]); (EVar "t2_aaaa"); (EVar "t2_aaaa"); (EVar "t2_aaaa")]));
   (*L972*) SAug true "quadruples_res" (EAdd (EAdd (EAdd (EScale (1 # 1) (EVar "contracted_intermediate")) (EScale (-1 # 1) (EEins "abcdijkl->abcdilkj" [(EVar "contracted_intermediate")]))) (EScale (-1 # 1) (EEins "abcdijkl->acbdijkl" [(EVar "contracted_intermediate")]))) (EScale (1 # 1) (EEins "abcdijkl->acbdilkj" [(EVar "contracted_intermediate")])));
   (*L975*) SAssign "contracted_intermediate" (EScale (1 # 2) (EEins "nmef,efik,adlm,bcjn->abcdijkl" [(ESlice (EVar "g_aaaa") [SV "o"; SV "o"; SV "v"; SV "v"]); (EVar "t2_aaaa"); (EVar "t2_aaaa"); (EVar "t2_aaaa")]));
   (*L976*) SAug true "quadruples_res" (EAdd (EScale (1 # 1) (EVar "contracted_intermediate")) (EScale (-1 # 1) (EEins "abcdijkl->abcdilkj" [(EVar "contracted_intermediate")])));
   (*L979*) SAssign "contracted_intermediate" (EScale (-1 # 2) (EEins "nmef,efij,ablm,cdkn->abcdijkl" [(ESlice (EVar "g_aaaa") [SV "o"; SV "o"; SV "v"; SV "v"]); (EVar "t2_aaaa"); (EVar "t2_aaaa"); (EVar "t2_aaaa")]));
   (*L980*) SAug true "quadruples_res" (EAdd (EAdd (EAdd (EScale (1 # 1) (EVar "contracted_intermediate")) (EScale (-1 # 1) (EEins "abcdijkl->abcdijlk" [(EVar "contracted_intermediate")]))) (EScale (-1 # 1) (EEins "abcdijkl->acbdijkl" [(EVar "contracted_intermediate")]))) (EScale (1 # 1) (EEins "abcdijkl->acbdijlk" [(EVar "contracted_intermediate")])));
   (*L983*) SAssign "contracted_intermediate" (EScale (-1 # 2) (EEins "nmef,efij,adlm,bckn->abcdijkl" [(ESlice (EVar "g_aaaa") [SV "o"; SV "o"; SV "v"; SV "v"]); (EVar "t2_aaaa"); (EVar "t2_aaaa"); (EVar "t2_aaaa")]));
   (*L984*) SAug true "quadruples_res" (EAdd (EScale (1 # 1) (EVar "contracted_intermediate")) (EScale (-1 # 1) (EEins "abcdijkl->abcdijlk" [(EVar "contracted_intermediate")])));
   (*L987*) SAssign "contracted_intermediate" (EScale (1 # 1) (EEins "nmef,ealm,fbjk,cdin->abcdijkl" [(ESlice (EVar "g_aaaa") [SV "o"; SV "o"; SV "v"; SV "v"]); (EVar "t2_aaaa"); (EVar "t2_aaaa"); (EVar "t2_aaaa")]));
   (*L988*) SAug true "quadruples_res" (EAdd (EAdd (EAdd (EScale (1 # 1) (EVar "contracted_intermediate")) (EScale (-1 # 1) (EEins "abcdijkl->abcdjikl" [(EVar "contracted_intermediate")]))) (EScale (-1 # 1) (EEins "abcdijkl->acbdijkl" [(EVar "contracted_intermediate")]))) (EScale (1 # 1) (EEins "abcdijkl->acbdjikl" [(EVar "contracted_intermediate")])));
   (*L991*) SAssign "contracted_intermediate" (EScale (1 # 1) (EEins "nmfe,aelm,fbjk,cdin->abcdijkl" [(ESlice (EVar "g_abab") [SV "o"; SV "o"; SV "v"; SV "v"]); (EVar "t2_abab"); (EVar "t2_aaaa"); (EVar "t2_aaaa")]));
   (*L992*) SAug true "quadruples_res" (EAdd (EAdd (EAdd (EScale (1 # 1) (EVar "contracted_intermediate")) (EScale (-1 # 1) (EEins "abcdijkl->abcdjikl" [(EVar "contracted_intermediate")]))) (EScale (-1 # 1) (EEins "abcdijkl->acbdijkl" [(EVar "contracted_intermediate")]))) (EScale (1 # 1) (EEins "abcdijkl->acbdjikl" [(EVar "contracted_intermediate")])));
   (*L995*) SAssign "contracted_intermediate" (EScale (1 # 1) (EEins "nmef,ealm,fbij,cdkn->abcdijkl" [(ESlice (EVar "g_aaaa") [SV "o"; SV "o"; SV "v"; SV "v"]); (EVar "t2_aaaa"); (EVar "t2_aaaa"); (EVar "t2_aaaa")]));
   (*L996*) SAug true "quadruples_res" (EAdd (EAdd (EAdd (EScale (1 # 1) (EVar "contracted_intermediate")) (EScale (-1 # 1) (EEins "abcdijkl->abcdijlk" [(EVar "contracted_intermediate")]))) (EScale (-1 # 1) (EEins "abcdijkl->acbdijkl" [(EVar "contracted_intermediate")]))) (EScale (1 # 1) (EEins "abcdijkl->acbdijlk" [(EVar "contracted_intermediate")])));
   (*L999*) SAssign "contracted_intermediate" (EScale (1 # 1) (EEins "nmfe,aelm,fbij,cdkn->abcdijkl" [(ESlice (EVar "g_abab") [SV "o"; SV "o"; SV "v"; SV "v"]); (EVar "t2_abab"); (EVar "t2_aaaa"); (EVar "t2_aaaa")]));
   (*L1000*) SAug true "quadruples_res" (EAdd (EAdd (EAdd (EScale (1 # 1) (EVar "contracted_intermediate")) (EScale (-1 # 1) (EEins "abcdijkl->abcdijlk" [(EVar "contracted_intermediate")]))) (EScale (-1 # 1) (EEins "abcdijkl->acbdijkl" [(EVar "contracted_intermediate")]))) (EScale (1 # 1) (EEins "abcdijkl->acbdijlk" [(EVar "contracted_intermediate")])));
   (*L1003*) SAssign "contracted_intermediate" (EScale (1 # 1) (EEins "nmef,ealm,fdjk,bcin->abcdijkl" [(ESlice (EVar "g_aaaa") [SV "o"; SV "o"; SV "v"; SV "v"]); (EVar "t2_aaaa"); (EVar "t2_aaaa"); (EVar "t2_aaaa")]));
   (*L1004*) SAug true "quadruples_res" (EAdd (EAdd (EAdd (EScale (1 # 1) (EVar "contracted_intermediate")) (EScale (-1 # 1) (EEins "abcdijkl->abcdjikl" [(EVar "contracted_intermediate")]))) (EScale (-1 # 1) (EEins "abcdijkl->bacdijkl" [(EVar "contracted_intermediate")]))) (EScale (1 # 1) (EEins "abcdijkl->bacdjikl" [(EVar "contracted_intermediate")])));
   (*L1007*) SAssign "contracted_intermediate" (EScale (1 # 1) (EEins "nmfe,aelm,fdjk,bcin->abcdijkl" [(ESlice (EVar "g_abab") [SV "o"; SV "o"; SV "v"; SV "v"]); (EVar "t2_abab"); (EVar "t2_aaaa"); (EVar "t2_aaaa")]));
   (*L1008*) SAug true "quadruples_res" (EAdd (EAdd (EAdd (EScale (1 # 1) (EVar "contracted_intermediate")) (EScale (-1 # 1) (EEins "abcdijkl->abcdjikl" [(EVar "contracted_intermediate")]))) (EScale (-1 # 1) (EEins "abcdijkl->bacdijkl" [(EVar "contracted_intermediate")]))) (EScale (1 # 1) (EEins "abcdijkl->bacdjikl" [(EVar "contracted_intermediate")])));
   (*L1011*) SAssign "contracted_intermediate" (EScale (1 # 1) (EEins "nmef,ealm,fdij,bckn->abcdijkl" [(ESlice (EVar "g_aaaa") [SV "o"; SV "o"; SV "v"; SV "v"]); (EVar "t2_aaaa"); (EVar "t2_aaaa"); (EVar "t2_aaaa")]));
   (*L1012*) SAug true "quadruples_res" (EAdd (EAdd (EAdd (EScale (1 # 1) (EVar "contracted_intermediate")) (EScale (-1 # 1) (EEins "abcdijkl->abcdijlk" [(EVar "contracted_intermediate")]))) (EScale (-1 # 1) (EEins "abcdijkl->bacdijkl" [(EVar "contracted_intermediate")]))) (EScale (1 # 1) (EEins "abcdijkl->bacdijlk" [(EVar "contracted_intermediate")])));
   (*L1015*) SAssign "contracted_intermediate" (EScale (1 # 1) (EEins "nmfe,aelm,fdij,bckn->abcdijkl" [(ESlice (EVar "g_abab") [SV "o"; SV "o"; SV "v"; SV "v"]); (EVar "t2_abab"); (EVar "t2_aaaa"); (EVar "t2_aaaa")]));
   (*L1016*) SAug true "quadruples_res" (EAdd (EAdd (EAdd (EScale (1 # 1) (EVar "contracted_intermediate")) (EScale (-1 # 1) (EEins "abcdijkl->abcdijlk" [(EVar "contracted_intermediate")]))) (EScale (-1 # 1) (EEins "abcdijkl->bacdijkl" [(EVar "contracted_intermediate")]))) (EScale (1 # 1) (EEins "abcdijkl->bacdijlk" [(EVar "contracted_intermediate")])));
   (*L1019*) SAssign "contracted_intermediate" (EScale (-1 # 1) (EEins "nmef,eakm,fbjl,cdin->abcdijkl" [(ESlice (EVar "g_aaaa") [SV "o"; SV "o"; SV "v"; SV "v"]); (EVar "t2_aaaa"); (EVar "t2_aaaa"); (EVar "t2_aaaa")]));
   (*L1020*) SAug true "quadruples_res" (EAdd (EAdd (EAdd (EScale (1 # 1) (EVar "contracted_intermediate")) (EScale (-1 # 1) (EEins "abcdijkl->abcdjikl" [(EVar "contracted_intermediate")]))) (EScale (-1 # 1) (EEins "abcdijkl->acbdijkl" [(EVar "contracted_intermediate")]))) (EScale (1 # 1) (EEins "abcdijkl->acbdjikl" [(EVar "contracted_intermediate")])));
   (*L1023*) SAssign "contracted_intermediate" (EScale (-1 # 1) (EEins "nmfe,aekm,fbjl,cdin->abcdijkl" [(ESlice (EVar "g_abab") [SV "o"; SV "o"; SV "v"; SV "v"]); (EVar "t2_abab"); (EVar "t2_aaaa"); (EVar "t2_aaaa")]));
   (*L1024*) SAug true "quadruples_res" (EAdd (EAdd (EAdd (EScale (1 # 1) (EVar "contracted_intermediate")) (EScale (-1 # 1) (EEins "abcdijkl->abcdjikl" [(EVar "contracted_intermediate")]))) (EScale (-1 # 1) (EEins "abcdijkl->acbdijkl" [(EVar "contracted_intermediate")]))) (EScale (1 # 1) (EEins "abcdijkl->acbdjikl" [(EVar "contracted_intermediate")])));
   (*L1027*) SAssign "contracted_intermediate" (EScale (-1 # 1) (EEins "nmef,eakm,fdjl,bcin->abcdijkl" [(ESlice (EVar "g_aaaa") [SV "o"; SV "o"; SV "v"; SV "v"]); (EVar "t2_aaaa"); (EVar "t2_aaaa"); (EVar "t2_aaaa")]));
   (*L1028*) SAug true "quadruples_res" (EAdd (EAdd (EAdd (EScale (1 # 1) (EVar "contracted_intermediate")) (EScale (-1 # 1) (EEins "abcdijkl->abcdjikl" [(EVar "contracted_intermediate")]))) (EScale (-1 # 1) (EEins "abcdijkl->bacdijkl" [(EVar "contracted_intermediate")]))) (EScale (1 # 1) (EEins "abcdijkl->bacdjikl" [(EVar "contracted_intermediate")])));
   (*L1031*) SAssign "contracted_intermediate" (EScale (-1 # 1) (EEins "nmfe,aekm,fdjl,bcin->abcdijkl" [(ESlice (EVar "g_abab") [SV "o"; SV "o"; SV "v"; SV "v"]); (EVar "t2_abab"); (EVar "t2_aaaa"); (EVar "t2_aaaa")]));
   (*L1032*) SAug true "quadruples_res" (EAdd (EAdd (EAdd (EScale (1 # 1) (EVar "contracted_intermediate")) (EScale (-1 # 1) (EEins "abcdijkl->abcdjikl" [(EVar "contracted_intermediate")]))) (EScale (-1 # 1) (EEins "abcdijkl->bacdijkl" [(EVar "contracted_intermediate")]))) (EScale (1 # 1) (EEins "abcdijkl->bacdjikl" [(EVar "contracted_intermediate")])));
   (*L1035*) SAssign "contracted_intermediate" (EScale (1 # 1) (EEins "nmef,eajm,fbkl,cdin->abcdijkl" [(ESlice (EVar "g_aaaa") [SV "o"; SV "o"; SV "v"; SV "v"]); (EVar "t2_aaaa"); (EVar "t2_aaaa"); (EVar "t2_aaaa")]));
   (*L1036*) SAug true "quadruples_res" (EAdd (EAdd (EAdd (EScale (1 # 1) (EVar "contracted_intermediate")) (EScale (-1 # 1) (EEins "abcdijkl->abcdkjil" [(EVar "contracted_intermediate")]))) (EScale (-1 # 1) (EEins "abcdijkl->acbdijkl" [(EVar "contracted_intermediate")]))) (EScale (1 # 1) (EEins "abcdijkl->acbdkjil" [(EVar "contracted_intermediate")])));
   (*L1039*) SAssign "contracted_intermediate" (EScale (1 # 1) (EEins "nmfe,aejm,fbkl,cdin->abcdijkl" [(ESlice (EVar "g_abab") [SV "o"; SV "o"; SV "v"; SV "v"]); (EVar "t2_abab"); (EVar "t2_aaaa"); (EVar "t2_aaaa")]));
   (*L1040*) SAug true "quadruples_res" (EAdd (EAdd (EAdd (EScale (1 # 1) (EVar "contracted_intermediate")) (EScale (-1 # 1) (EEins "abcdijkl->abcdkjil" [(EVar "contracted_intermediate")]))) (EScale (-1 # 1) (EEins "abcdijkl->acbdijkl" [(EVar "contracted_intermediate")]))) (EScale (1 # 1) (EEins "abcdijkl->acbdkjil" [(EVar "contracted_intermediate")])));
   (*L1043*) SAssign "contracted_intermediate" (EScale (1 # 1) (EEins "nmef,eajm,fbik,cdln->abcdijkl" [(ESlice (EVar "g_aaaa") [SV "o"; SV "o"; SV "v"; SV "v"]); (EVar "t2_aaaa"); (EVar "t2_aaaa"); (EVar "t2_aaaa")]));
   (*L1044*) SAug true "quadruples_res" (EAdd (EAdd (EAdd (EScale (1 # 1) (EVar "contracted_intermediate")) (EScale (-1 # 1) (EEins "abcdijkl->abcdjikl" [(EVar "contracted_intermediate")]))) (EScale (-1 # 1) (EEins "abcdijkl->acbdijkl" [(EVar "contracted_intermediate")]))) (EScale (1 # 1) (EEins "abcdijkl->acbdjikl" [(EVar "contracted_intermediate")])));
   (*L1047*) SAssign "contracted_intermediate" (EScale (1 # 1) (EEins "nmfe,aejm,fbik,cdln->abcdijkl" [(ESlice (EVar "g_abab") [SV "o"; SV "o"; SV "v"; SV "v"]); (EVar "t2_abab"); (EVar "t2_aaaa"); (EVar "t2_aaaa")]));
   (*L1048*) SAug true "quadruples_res" (EAdd (EAdd (EAdd (EScale (1 # 1) (EVar "contracted_intermediate")) (EScale (-1 # 1) (EEins "abcdijkl->abcdjikl" [(EVar "contracted_intermediate")]))) (EScale (-1 # 1) (EEins "abcdijkl->acbdijkl" [(EVar "contracted_intermediate")]))) (EScale (1 # 1) (EEins "abcdijkl->acbdjikl" [(EVar "contracted_intermediate")])));
   (*L1051*) SAssign "contracted_intermediate" (EScale (1 # 1) (EEins "nmef,eajm,fdkl,bcin->abcdijkl" [(ESlice (EVar "g_aaaa") [SV "o"; SV "o"; SV "v"; SV "v"]); (EVar "t2_aaaa"); (EVar "t2_aaaa"); (EVar "t2_aaaa")]));
   (*L1052*) SAug true "quadruples_res" (EAdd (EAdd (EAdd (EScale (1 # 1) (EVar "contracted_intermediate")) (EScale (-1 # 1) (EEins "abcdijkl->abcdkjil" [(EVar "contracted_intermediate")]))) (EScale (-1 # 1) (EEins "abcdijkl->bacdijkl" [(EVar "contracted_intermediate")]))) (EScale (1 # 1) (EEins "abcdijkl->bacdkjil" [(EVar "contracted_intermediate")])));
   (*L1055*) SAssign "contracted_intermediate" (EScale (1 # 1) (EEins "nmfe,aejm,fdkl,bcin->abcdijkl" [(ESlice (EVar "g_abab") [SV "o"; SV "o"; SV "v"; SV "v"]); (EVar "t2_abab"); (EVar "t2_aaaa"); (EVar "t2_aaaa")]));
   (*L1056*) SAug true "quadruples_res" (EAdd (EAdd (EAdd (EScale (1 # 1) (EVar "contracted_intermediate")) (EScale (-1 # 1) (EEins "abcdijkl->abcdkjil" [(EVar "contracted_intermediate")]))) (EScale (-1 # 1) (EEins "abcdijkl->bacdijkl" [(EVar "contracted_intermediate")]))) (EScale (1 # 1) (EEins "abcdijkl->bacdkjil" [(EVar "contracted_intermediate")])));
   (*L1059*) SAssign "contracted_intermediate" (EScale (1 # 1) (EEins "nmef,eajm,fdik,bcln->abcdijkl" [(ESlice (EVar "g_aaaa") [SV "o"; SV "o"; SV "v"; SV "v"]); (EVar "t2_aaaa"); (EVar "t2_aaaa"); (EVar "t2_aaaa")]));
   (*L1060*) SAug true "quadruples_res" (EAdd (EAdd (EAdd (EScale (1 # 1) (EVar "contracted_intermediate")) (EScale (-1 # 1) (EEins "abcdijkl->abcdjikl" [(EVar "contracted_intermediate")]))) (EScale (-1 # 1) (EEins "abcdijkl->bacdijkl" [(EVar "contracted_intermediate")]))) (EScale (1 # 1) (EEins "abcdijkl->bacdjikl" [(EVar "contracted_intermediate")])));
   (*L1063*) SAssign "contracted_intermediate" (EScale (1 # 1) (EEins "nmfe,aejm,fdik,bcln->abcdijkl" [(ESlice (EVar "g_abab") [SV "o"; SV "o"; SV "v"; SV "v"]); (EVar "t2_abab"); (EVar "t2_aaaa"); (EVar "t2_aaaa")]));
   (*L1064*) SAug true "quadruples_res" (EAdd (EAdd (EAdd (EScale (1 # 1) (EVar "contracted_intermediate")) (EScale (-1 # 1) (EEins "abcdijkl->abcdjikl" [(EVar "contracted_intermediate")]))) (EScale (-1 # 1) (EEins "abcdijkl->bacdijkl" [(EVar "contracted_intermediate")]))) (EScale (1 # 1) (EEins "abcdijkl->bacdjikl" [(EVar "contracted_intermediate")])));
   (*L1067*) SAssign "contracted_intermediate" (EScale (-1 # 1) (EEins "nmef,eaim,fbkl,cdjn->abcdijkl" [(ESlice (EVar "g_aaaa") [SV "o"; SV "o"; SV "v"; SV "v"]); (EVar "t2_aaaa"); (EVar "t2_aaaa"); (EVar "t2_aaaa")]));
   (*L1068*) SAug true "quadruples_res" (EAdd (EAdd (EAdd (EScale (1 # 1) (EVar "contracted_intermediate")) (EScale (-1 # 1) (EEins "abcdijkl->abcdikjl" [(EVar "contracted_intermediate")]))) (EScale (-1 # 1) (EEins "abcdijkl->acbdijkl" [(EVar "contracted_intermediate")]))) (EScale (1 # 1) (EEins "abcdijkl->acbdikjl" [(EVar "contracted_intermediate")])));
   (*L1071*) SAssign "contracted_intermediate" (EScale (-1 # 1) (EEins "nmfe,aeim,fbkl,cdjn->abcdijkl" [(ESlice (EVar "g_abab") [SV "o"; SV "o"; SV "v"; SV "v"]); (EVar "t2_abab"); (EVar "t2_aaaa"); (EVar "t2_aaaa")]));
   (*L1072*) SAug true "quadruples_res" (EAdd (EAdd (EAdd (EScale (1 # 1) (EVar "contracted_intermediate")) (EScale (-1 # 1) (EEins "abcdijkl->abcdikjl" [(EVar "contracted_intermediate")]))) (EScale (-1 # 1) (EEins "abcdijkl->acbdijkl" [(EVar "contracted_intermediate")]))) (EScale (1 # 1) (EEins "abcdijkl->acbdikjl" [(EVar "contracted_intermediate")])));
   (*L1075*) SAssign "contracted_intermediate" (EScale (-1 # 1) (EEins "nmef,eaim,fdkl,bcjn->abcdijkl" [(ESlice (EVar "g_aaaa") [SV "o"; SV "o"; SV "v"; SV "v"]); (EVar "t2_aaaa"); (EVar "t2_aaaa"); (EVar "t2_aaaa")]));
   (*L1076*) SAug true "quadruples_res" (EAdd (EAdd (EAdd (EScale (1 # 1) (EVar "contracted_intermediate")) (EScale (-1 # 1) (EEins "abcdijkl->abcdikjl" [(EVar "contracted_intermediate")]))) (EScale (-1 # 1) (EEins "abcdijkl->bacdijkl" [(EVar "contracted_intermediate")]))) (EScale (1 # 1) (EEins "abcdijkl->bacdikjl" [(EVar "contracted_intermediate")])));
   (*L1079*) SAssign "contracted_intermediate" (EScale (-1 # 1) (EEins "nmfe,aeim,fdkl,bcjn->abcdijkl" [(ESlice (EVar "g_abab") [SV "o"; SV "o"; SV "v"; SV "v"]); (EVar "t2_abab"); (EVar "t2_aaaa"); (EVar "t2_aaaa")]));
   (*L1080*) SAug true "quadruples_res" (EAdd (EAdd (EAdd (EScale (1 # 1) (EVar "contracted_intermediate")) (EScale (-1 # 1) (EEins "abcdijkl->abcdikjl" [(EVar "contracted_intermediate")]))) (EScale (-1 # 1) (EEins "abcdijkl->bacdijkl" [(EVar "contracted_intermediate")]))) (EScale (1 # 1) (EEins "abcdijkl->bacdikjl" [(EVar "contracted_intermediate")])));
   (*L1083*) SAssign "contracted_intermediate" (EScale (1 # 1) (EEins "nmef,eakl,fbjm,cdin->abcdijkl" [(ESlice (EVar "g_aaaa") [SV "o"; SV "o"; SV "v"; SV "v"]); (EVar "t2_aaaa"); (EVar "t2_aaaa"); (EVar "t2_aaaa")]));
   (*L1084*) SAug true "quadruples_res" (EAdd (EAdd (EAdd (EScale (1 # 1) (EVar "contracted_intermediate")) (EScale (-1 # 1) (EEins "abcdijkl->abcdjikl" [(EVar "contracted_intermediate")]))) (EScale (-1 # 1) (EEins "abcdijkl->acbdijkl" [(EVar "contracted_intermediate")]))) (EScale (1 # 1) (EEins "abcdijkl->acbdjikl" [(EVar "contracted_intermediate")])));
   (*L1087*) SAssign "contracted_intermediate" (EScale (-1 # 1) (EEins "nmef,eakl,bfjm,cdin->abcdijkl" [(ESlice (EVar "g_abab") [SV "o"; SV "o"; SV "v"; SV "v"]); (EVar "t2_aaaa"); (EVar "t2_abab"); (EVar "t2_aaaa")]));
   (*L1088*) SAug true "quadruples_res" (EAdd (EAdd (EAdd (EScale (1 # 1) (EVar "contracted_intermediate")) (EScale (-1 # 1) (EEins "abcdijkl->abcdjikl" [(EVar "contracted_intermediate")]))) (EScale (-1 # 1) (EEins "abcdijkl->acbdijkl" [(EVar "contracted_intermediate")]))) (EScale (1 # 1) (EEins "abcdijkl->acbdjikl" [(EVar "contracted_intermediate")])));
   (*L1091*) SAssign "contracted_intermediate" (EScale (-1 # 2) (EEins "nmef,eakl,fbij,cdnm->abcdijkl" [(ESlice (EVar "g_aaaa") [SV "o"; SV "o"; SV "v"; SV "v"]); (EVar "t2_aaaa"); (EVar "t2_aaaa"); (EVar "t2_aaaa")]));
   (*L1092*) SAug true "quadruples_res" (EAdd (EAdd (EAdd (EScale (1 # 1) (EVar "contracted_intermediate")) (EScale (-1 # 1) (EEins "abcdijkl->abcdikjl" [(EVar "contracted_intermediate")]))) (EScale (-1 # 1) (EEins "abcdijkl->acbdijkl" [(EVar "contracted_intermediate")]))) (EScale (1 # 1) (EEins "abcdijkl->acbdikjl" [(EVar "contracted_intermediate")])));
   (*L1095*) SAssign "contracted_intermediate" (EScale (1 # 1) (EEins "nmef,eakl,fdjm,bcin->abcdijkl" [(ESlice (EVar "g_aaaa") [SV "o"; SV "o"; SV "v"; SV "v"]); (EVar "t2_aaaa"); (EVar "t2_aaaa"); (EVar "t2_aaaa")]));
   (*L1096*) SAug true "quadruples_res" (EAdd (EAdd (EAdd (EScale (1 # 1) (EVar "contracted_intermediate")) (EScale (-1 # 1) (EEins "abcdijkl->abcdjikl" [(EVar "contracted_intermediate")]))) (EScale (-1 # 1) (EEins "abcdijkl->bacdijkl" [(EVar "contracted_intermediate")]))) (EScale (1 # 1) (EEins "abcdijkl->bacdjikl" [(EVar "contracted_intermediate")])));
   (*L1099*) SAssign "contracted_intermediate" (EScale (-1 # 1) (EEins "nmef,eakl,dfjm,bcin->abcdijkl" [(ESlice (EVar "g_abab") [SV "o"; SV "o"; SV "v"; SV "v"]); (EVar "t2_aaaa"); (EVar "t2_abab"); (EVar "t2_aaaa")]));
   (*L1100*) SAug true "quadruples_res" (EAdd (EAdd (EAdd (EScale (1 # 1) (EVar "contracted_intermediate")) (EScale (-1 # 1) (EEins "abcdijkl->abcdjikl" [(EVar "contracted_intermediate")]))) (EScale (-1 # 1) (EEins "abcdijkl->bacdijkl" [(EVar "contracted_intermediate")]))) (EScale (1 # 1) (EEins "abcdijkl->bacdjikl" [(EVar "contracted_intermediate")])));
   (*L1103*) SAssign "contracted_intermediate" (EScale (-1 # 2) (EEins "nmef,eakl,fdij,bcnm->abcdijkl" [(ESlice (EVar "g_aaaa") [SV "o"; SV "o"; SV "v"; SV "v"]); (EVar "t2_aaaa"); (EVar "t2_aaaa"); (EVar "t2_aaaa")]));
   (*L1104*) SAug true "quadruples_res" (EAdd (EAdd (EAdd (EScale (1 # 1) (EVar "contracted_intermediate")) (EScale (-1 # 1) (EEins "abcdijkl->abcdikjl" [(EVar "contracted_intermediate")]))) (EScale (-1 # 1) (EEins "abcdijkl->bacdijkl" [(EVar "contracted_intermediate")]))) (EScale (1 # 1) (EEins "abcdijkl->bacdikjl" [(EVar "contracted_intermediate")])));
   (*L1107*) SAssign "contracted_intermediate" (EScale (-1 # 1) (EEins "nmef,eajl,fbkm,cdin->abcdijkl" [(ESlice (EVar "g_aaaa") [SV "o"; SV "o"; SV "v"; SV "v"]); (EVar "t2_aaaa"); (EVar "t2_aaaa"); (EVar "t2_aaaa")]));
   (*L1108*) SAug true "quadruples_res" (EAdd (EAdd (EAdd (EScale (1 # 1) (EVar "contracted_intermediate")) (EScale (-1 # 1) (EEins "abcdijkl->abcdkjil" [(EVar "contracted_intermediate")]))) (EScale (-1 # 1) (EEins "abcdijkl->acbdijkl" [(EVar "contracted_intermediate")]))) (EScale (1 # 1) (EEins "abcdijkl->acbdkjil" [(EVar "contracted_intermediate")])));
   (*L1111*) SAssign "contracted_intermediate" (EScale (1 # 1) (EEins "nmef,eajl,bfkm,cdin->abcdijkl" [(ESlice (EVar "g_abab") [SV "o"; SV "o"; SV "v"; SV "v"]); (EVar "t2_aaaa"); (EVar "t2_abab"); (EVar "t2_aaaa")]));
   (*L1112*) SAug true "quadruples_res" (EAdd (EAdd (EAdd (EScale (1 # 1) (EVar "contracted_intermediate")) (EScale (-1 # 1) (EEins "abcdijkl->abcdkjil" [(EVar "contracted_intermediate")]))) (EScale (-1 # 1) (EEins "abcdijkl->acbdijkl" [(EVar "contracted_intermediate")]))) (EScale (1 # 1) (EEins "abcdijkl->acbdkjil" [(EVar "contracted_intermediate")])));
   (*L1115*) SAssign "contracted_intermediate" (EScale (-1 # 1) (EEins "nmef,eajl,fdkm,bcin->abcdijkl" [(ESlice (EVar "g_aaaa") [SV "o"; SV "o"; SV "v"; SV "v"]); (EVar "t2_aaaa"); (EVar "t2_aaaa"); (EVar "t2_aaaa")]));
   (*L1116*) SAug true "quadruples_res" (EAdd (EAdd (EAdd (EScale (1 # 1) (EVar "contracted_intermediate")) (EScale (-1 # 1) (EEins "abcdijkl->abcdkjil" [(EVar "contracted_intermediate")]))) (EScale (-1 # 1) (EEins "abcdijkl->bacdijkl" [(EVar "contracted_intermediate")]))) (EScale (1 # 1) (EEins "abcdijkl->bacdkjil" [(EVar "contracted_intermediate")])));
   (*L1119*) SAssign "contracted_intermediate" (EScale (1 # 1) (EEins "nmef,eajl,dfkm,bcin->abcdijkl" [(ESlice (EVar "g_abab") [SV "o"; SV "o"; SV "v"; SV "v"]); (EVar "t2_aaaa"); (EVar "t2_abab"); (EVar "t2_aaaa")]));
   (*L1120*) SAug true "quadruples_res" (EAdd (EAdd (EAdd (EScale (1 # 1) (EVar "contracted_intermediate")) (EScale (-1 # 1) (EEins "abcdijkl->abcdkjil" [(EVar "contracted_intermediate")]))) (EScale (-1 # 1) (EEins "abcdijkl->bacdijkl" [(EVar "contracted_intermediate")]))) (EScale (1 # 1) (EEins "abcdijkl->bacdkjil" [(EVar "contracted_intermediate")])));
   (*L1123*) SAssign "contracted_intermediate" (EScale (1 # 1) (EEins "nmef,eail,fbkm,cdjn->abcdijkl" [(ESlice (EVar "g_aaaa") [SV "o"; SV "o"; SV "v"; SV "v"]); (EVar "t2_aaaa"); (EVar "t2_aaaa"); (EVar "t2_aaaa")]));
   (*L1124*) SAug true "quadruples_res" (EAdd (EAdd (EAdd (EScale (1 # 1) (EVar "contracted_intermediate")) (EScale (-1 # 1) (EEins "abcdijkl->abcdikjl" [(EVar "contracted_intermediate")]))) (EScale (-1 # 1) (EEins "abcdijkl->acbdijkl" [(EVar "contracted_intermediate")]))) (EScale (1 # 1) (EEins "abcdijkl->acbdikjl" [(EVar "contracted_intermediate")])));
   (*L1127*) SAssign "contracted_intermediate" (EScale (-1 # 1) (EEins "nmef,eail,bfkm,cdjn->abcdijkl" [(ESlice (EVar "g_abab") [SV "o"; SV "o"; SV "v"; SV "v"]); (EVar "t2_aaaa"); (EVar "t2_abab"); (EVar "t2_aaaa")]));
   (*L1128*) SAug true "quadruples_res" (EAdd (EAdd (EAdd (EScale (1 # 1) (EVar "contracted_intermediate")) (EScale (-1 # 1) (EEins "abcdijkl->abcdikjl" [(EVar "contracted_intermediate")]))) (EScale (-1 # 1) (EEins "abcdijkl->acbdijkl" [(EVar "contracted_intermediate")]))) (EScale (1 # 1) (EEins "abcdijkl->acbdikjl" [(EVar "contracted_intermediate")])));
   (*L1131*) SAssign "contracted_intermediate" (EScale (-1 # 2) (EEins "nmef,eail,fbjk,cdnm->abcdijkl" [(ESlice (EVar "g_aaaa") [SV "o"; SV "o"; SV "v"; SV "v"]); (EVar "t2_aaaa"); (EVar "t2_aaaa"); (EVar "t2_aaaa")]));
   (*L1132*) SAug true "quadruples_res" (EAdd (EAdd (EAdd (EScale (1 # 1) (EVar "contracted_intermediate")) (EScale (-1 # 1) (EEins "abcdijkl->abcdijlk" [(EVar "contracted_intermediate")]))) (EScale (-1 # 1) (EEins "abcdijkl->acbdijkl" [(EVar "contracted_intermediate")]))) (EScale (1 # 1) (EEins "abcdijkl->acbdijlk" [(EVar "contracted_intermediate")])));
   (*L1135*) SAssign "contracted_intermediate" (EScale (1 # 1) (EEins "nmef,eail,fdkm,bcjn->abcdijkl" [(ESlice (EVar "g_aaaa") [SV "o"; SV "o"; SV "v"; SV "v"]); (EVar "t2_aaaa"); (EVar "t2_aaaa"); (EVar "t2_aaaa")]));
   (*L1136*) SAug true "quadruples_res" (EAdd (EAdd (EAdd (EScale (1 # 1) (EVar "contracted_intermediate")) (EScale (-1 # 1) (EEins "abcdijkl->abcdikjl" [(EVar "contracted_intermediate")]))) (EScale (-1 # 1) (EEins "abcdijkl->bacdijkl" [(EVar "contracted_intermediate")]))) (EScale (1 # 1) (EEins "abcdijkl->bacdikjl" [(EVar "contracted_intermediate")])));
   (*L1139*) SAssign "contracted_intermediate" (EScale (-1 # 1) (EEins "nmef,eail,dfkm,bcjn->abcdijkl" [(ESlice (EVar "g_abab") [SV "o"; SV "o"; SV "v"; SV "v"]); (EVar "t2_aaaa"); (EVar "t2_abab"); (EVar "t2_aaaa")]));
   (*L1140*) SAug true "quadruples_res" (EAdd (EAdd (EAdd (EScale (1 # 1) (EVar "contracted_intermediate")) (EScale (-1 # 1) (EEins "abcdijkl->abcdikjl" [(EVar "contracted_intermediate")]))) (EScale (-1 # 1) (EEins "abcdijkl->bacdijkl" [(EVar "contracted_intermediate")]))) (EScale (1 # 1) (EEins "abcdijkl->bacdikjl" [(EVar "contracted_intermediate")])));
   (*L1143*) SAssign "contracted_intermediate" (EScale (-1 # 2) (EEins "nmef,eail,fdjk,bcnm->abcdijkl" [(ESlice (EVar "g_aaaa") [SV "o"; SV "o"; SV "v"; SV "v"]); (EVar "t2_aaaa"); (EVar "t2_aaaa"); (EVar "t2_aaaa")]));
   (*L1144*) SAug true "quadruples_res" (EAdd (EAdd (EAdd (EScale (1 # 1) (EVar "contracted_intermediate")) (EScale (-1 # 1) (EEins "abcdijkl->abcdijlk" [(EVar "contracted_intermediate")]))) (EScale (-1 # 1) (EEins "abcdijkl->bacdijkl" [(EVar "contracted_intermediate")]))) (EScale (1 # 1) (EEins "abcdijkl->bacdijlk" [(EVar "contracted_intermediate")])));
   (*L1147*) SAssign "contracted_intermediate" (EScale (1 # 1) (EEins "nmef,eajk,fblm,cdin->abcdijkl" [(ESlice (EVar "g_aaaa") [SV "o"; SV "o"; SV "v"; SV "v"]); (EVar "t2_aaaa"); (EVar "t2_aaaa"); (EVar "t2_aaaa")]));
   (*L1148*) SAug true "quadruples_res" (EAdd (EAdd (EAdd (EScale (1 # 1) (EVar "contracted_intermediate")) (EScale (-1 # 1) (EEins "abcdijkl->abcdljki" [(EVar "contracted_intermediate")]))) (EScale (-1 # 1) (EEins "abcdijkl->acbdijkl" [(EVar "contracted_intermediate")]))) (EScale (1 # 1) (EEins "abcdijkl->acbdljki" [(EVar "contracted_intermediate")])));
   (*L1151*) SAssign "contracted_intermediate" (EScale (-1 # 1) (EEins "nmef,eajk,bflm,cdin->abcdijkl" [(ESlice (EVar "g_abab") [SV "o"; SV "o"; SV "v"; SV "v"]); (EVar "t2_aaaa"); (EVar "t2_abab"); (EVar "t2_aaaa")]));
   (*L1152*) SAug true "quadruples_res" (EAdd (EAdd (EAdd (EScale (1 # 1) (EVar "contracted_intermediate")) (EScale (-1 # 1) (EEins "abcdijkl->abcdljki" [(EVar "contracted_intermediate")]))) (EScale (-1 # 1) (EEins "abcdijkl->acbdijkl" [(EVar "contracted_intermediate")]))) (EScale (1 # 1) (EEins "abcdijkl->acbdljki" [(EVar "contracted_intermediate")])));
   (*L1155*) SAssign "contracted_intermediate" (EScale (-1 # 2) (EEins "nmef,eajk,fbil,cdnm->abcdijkl" [(ESlice (EVar "g_aaaa") [SV "o"; SV "o"; SV "v"; SV "v"]); (EVar "t2_aaaa"); (EVar "t2_aaaa"); (EVar "t2_aaaa")]));
   (*L1156*) SAug true "quadruples_res" (EAdd (EAdd (EAdd (EScale (1 # 1) (EVar "contracted_intermediate")) (EScale (-1 # 1) (EEins "abcdijkl->abcdkjil" [(EVar "contracted_intermediate")]))) (EScale (-1 # 1) (EEins "abcdijkl->acbdijkl" [(EVar "contracted_intermediate")]))) (EScale (1 # 1) (EEins "abcdijkl->acbdkjil" [(EVar "contracted_intermediate")])));
   (*L1159*) SAssign "contracted_intermediate" (EScale (1 # 1) (EEins "nmef,eajk,fdlm,bcin->abcdijkl" [(ESlice (EVar "g_aaaa") [SV "o"; SV "o"; SV "v"; SV "v"]); (EVar "t2_aaaa"); (EVar "t2_aaaa"); (EVar "t2_aaaa")]));
   (*L1160*) SAug true "quadruples_res" (EAdd (EAdd (EAdd (EScale (1 # 1) (EVar "contracted_intermediate")) (EScale (-1 # 1) (EEins "abcdijkl->abcdljki" [(EVar "contracted_intermediate")]))) (EScale (-1 # 1) (EEins "abcdijkl->bacdijkl" [(EVar "contracted_intermediate")]))) (EScale (1 # 1) (EEins "abcdijkl->bacdljki" [(EVar "contracted_intermediate")])));
   (*L1163*) SAssign "contracted_intermediate" (EScale (-1 # 1) (EEins "nmef,eajk,dflm,bcin->abcdijkl" [(ESlice (EVar "g_abab") [SV "o"; SV "o"; SV "v"; SV "v"]); (EVar "t2_aaaa"); (EVar "t2_abab"); (EVar "t2_aaaa")]));
   (*L1164*) SAug true "quadruples_res" (EAdd (EAdd (EAdd (EScale (1 # 1) (EVar "contracted_intermediate")) (EScale (-1 # 1) (EEins "abcdijkl->abcdljki" [(EVar "contracted_intermediate")]))) (EScale (-1 # 1) (EEins "abcdijkl->bacdijkl" [(EVar "contracted_intermediate")]))) (EScale (1 # 1) (EEins "abcdijkl->bacdljki" [(EVar "contracted_intermediate")])));
   (*L1167*) SAssign "contracted_intermediate" (EScale (-1 # 2) (EEins "nmef,eajk,fdil,bcnm->abcdijkl" [(ESlice (EVar "g_aaaa") [SV "o"; SV "o"; SV "v"; SV "v"]); (EVar "t2_aaaa"); (EVar "t2_aaaa"); (EVar "t2_aaaa")]));
   (*L1168*) SAug true "quadruples_res" (EAdd (EAdd (EAdd (EScale (1 # 1) (EVar "contracted_intermediate")) (EScale (-1 # 1) (EEins "abcdijkl->abcdkjil" [(EVar "contracted_intermediate")]))) (EScale (-1 # 1) (EEins "abcdijkl->bacdijkl" [(EVar "contracted_intermediate")]))) (EScale (1 # 1) (EEins "abcdijkl->bacdkjil" [(EVar "contracted_intermediate")])));
   (*L1171*) SAssign "contracted_intermediate" (EScale (-1 # 1) (EEins "nmef,eaik,fblm,cdjn->abcdijkl" [(ESlice (EVar "g_aaaa") [SV "o"; SV "o"; SV "v"; SV "v"]); (EVar "t2_aaaa"); (EVar "t2_aaaa"); (EVar "t2_aaaa")]));
   (*L1172*) SAug true "quadruples_res" (EAdd (EAdd (EAdd (EScale (1 # 1) (EVar "contracted_intermediate")) (EScale (-1 # 1) (EEins "abcdijkl->abcdilkj" [(EVar "contracted_intermediate")]))) (EScale (-1 # 1) (EEins "abcdijkl->acbdijkl" [(EVar "contracted_intermediate")]))) (EScale (1 # 1) (EEins "abcdijkl->acbdilkj" [(EVar "contracted_intermediate")])));
   (*L1175*) SAssign "contracted_intermediate" (EScale (1 # 1) (EEins "nmef,eaik,bflm,cdjn->abcdijkl" [(ESlice (EVar "g_abab") [SV "o"; SV "o"; SV "v"; SV "v"]); (EVar "t2_aaaa"); (EVar "t2_abab"); (EVar "t2_aaaa")]));
   (*L1176*) SAug true "quadruples_res" (EAdd (EAdd (EAdd (EScale (1 # 1) (EVar "contracted_intermediate")) (EScale (-1 # 1) (EEins "abcdijkl->abcdilkj" [(EVar "contracted_intermediate")]))) (EScale (-1 # 1) (EEins "abcdijkl->acbdijkl" [(EVar "contracted_intermediate")]))) (EScale (1 # 1) (EEins "abcdijkl->acbdilkj" [(EVar "contracted_intermediate")])));
   (*L1179*) SAssign "contracted_intermediate" (EScale (-1 # 1) (EEins "nmef,eaik,fdlm,bcjn->abcdijkl" [(ESlice (EVar "g_aaaa") [SV "o"; SV "o"; SV "v"; SV "v"]); (EVar "t2_aaaa"); (EVar "t2_aaaa"); (EVar "t2_aaaa")]));
   (*L1180*) SAug true "quadruples_res" (EAdd (EAdd (EAdd (EScale (1 # 1) (EVar "contracted_intermediate")) (EScale (-1 # 1) (EEins "abcdijkl->abcdilkj" [(EVar "contracted_intermediate")]))) (EScale (-1 # 1) (EEins "abcdijkl->bacdijkl" [(EVar "contracted_intermediate")]))) (EScale (1 # 1) (EEins "abcdijkl->bacdilkj" [(EVar "contracted_intermediate")])));
   (*L1183*) SAssign "contracted_intermediate" (EScale (1 # 1) (EEins "nmef,eaik,dflm,bcjn->abcdijkl" [(ESlice (EVar "g_abab") [SV "o"; SV "o"; SV "v"; SV "v"]); (EVar "t2_aaaa"); (EVar "t2_abab"); (EVar "t2_aaaa")]));
   (*L1184*) SAug true "quadruples_res" (EAdd (EAdd (EAdd (EScale (1 # 1) (EVar "contracted_intermediate")) (EScale (-1 # 1) (EEins "abcdijkl->abcdilkj" [(EVar "contracted_intermediate")]))) (EScale (-1 # 1) (EEins "abcdijkl->bacdijkl" [(EVar "contracted_intermediate")]))) (EScale (1 # 1) (EEins "abcdijkl->bacdilkj" [(EVar "contracted_intermediate")])));
   (*L1187*) SAssign "contracted_intermediate" (EScale (1 # 1) (EEins "nmef,eaij,fblm,cdkn->abcdijkl" [(ESlice (EVar "g_aaaa") [SV "o"; SV "o"; SV "v"; SV "v"]); (EVar "t2_aaaa"); (EVar "t2_aaaa"); (EVar "t2_aaaa")]));
   (*L1188*) SAug true "quadruples_res" (EAdd (EAdd (EAdd (EScale (1 # 1) (EVar "contracted_intermediate")) (EScale (-1 # 1) (EEins "abcdijkl->abcdijlk" [(EVar "contracted_intermediate")]))) (EScale (-1 # 1) (EEins "abcdijkl->acbdijkl" [(EVar "contracted_intermediate")]))) (EScale (1 # 1) (EEins "abcdijkl->acbdijlk" [(EVar "contracted_intermediate")])));
   (*L1191*) SAssign "contracted_intermediate" (EScale (-1 # 1) (EEins "nmef,eaij,bflm,cdkn->abcdijkl" [(ESlice (EVar "g_abab") [SV "o"; SV "o"; SV "v"; SV "v"]); (EVar "t2_aaaa"); (EVar "t2_abab"); (EVar "t2_aaaa")]));
   (*L1192*) SAug true "quadruples_res" (EAdd (EAdd (EAdd (EScale (1 # 1) (EVar "contracted_intermediate")) (EScale (-1 # 1) (EEins "abcdijkl->abcdijlk" [(EVar "contracted_intermediate")]))) (EScale (-1 # 1) (EEins "abcdijkl->acbdijkl" [(EVar "contracted_intermediate")]))) (EScale (1 # 1) (EEins "abcdijkl->acbdijlk" [(EVar "contracted_intermediate")])));
   (*L1195*) SAssign "contracted_intermediate" (EScale (1 # 1) (EEins "nmef,eaij,fdlm,bckn->abcdijkl" [(ESlice (EVar "g_aaaa") [SV "o"; SV "o"; SV "v"; SV "v"]); (EVar "t2_aaaa"); (EVar "t2_aaaa"); (EVar "t2_aaaa")]));
   (*L1196*) SAug true "quadruples_res" (EAdd (EAdd (EAdd (EScale (1 # 1) (EVar "contracted_intermediate")) (EScale (-1 # 1) (EEins "abcdijkl->abcdijlk" [(EVar "contracted_intermediate")]))) (EScale (-1 # 1) (EEins "abcdijkl->bacdijkl" [(EVar "contracted_intermediate")]))) (EScale (1 # 1) (EEins "abcdijkl->bacdijlk" [(EVar "contracted_intermediate")])));
   (*L1199*) SAssign "contracted_intermediate" (EScale (-1 # 1) (EEins "nmef,eaij,dflm,bckn->abcdijkl" [(ESlice (EVar "g_abab") [SV "o"; SV "o"; SV "v"; SV "v"]); (EVar "t2_aaaa"); (EVar "t2_abab"); (EVar "t2_aaaa")]));
   (*L1200*) SAug true "quadruples_res" (EAdd (EAdd (EAdd (EScale (1 # 1) (EVar "contracted_intermediate")) (EScale (-1 # 1) (EEins "abcdijkl->abcdijlk" [(EVar "contracted_intermediate")]))) (EScale (-1 # 1) (EEins "abcdijkl->bacdijkl" [(EVar "contracted_intermediate")]))) (EScale (1 # 1) (EEins "abcdijkl->bacdijlk" [(EVar "contracted_intermediate")])));
   (*L1203*) SAssign "contracted_intermediate" (EScale (1 # 1) (EEins "nmef,eblm,fcjk,adin->abcdijkl" [(ESlice (EVar "g_aaaa") [SV "o"; SV "o"; SV "v"; SV "v"]); (EVar "t2_aaaa"); (EVar "t2_aaaa"); (EVar "t2_aaaa")]));
   (*L1204*) SAug true "quadruples_res" (EAdd (EScale (1 # 1) (EVar "contracted_intermediate")) (EScale (-1 # 1) (EEins "abcdijkl->abcdjikl" [(EVar "contracted_intermediate")])));
   (*L1207*) SAssign "contracted_intermediate" (EScale (1 # 1) (EEins "nmfe,belm,fcjk,adin->abcdijkl" [(ESlice (EVar "g_abab") [SV "o"; SV "o"; SV "v"; SV "v"]); (EVar "t2_abab"); (EVar "t2_aaaa"); (EVar "t2_aaaa")]));
   (*L1208*) SAug true "quadruples_res" (EAdd (EScale (1 # 1) (EVar "contracted_intermediate")) (EScale (-1 # 1) (EEins "abcdijkl->abcdjikl" [(EVar "contracted_intermediate")])));
   (*L1211*) SAssign "contracted_intermediate" (EScale (1 # 1) (EEins "nmef,eblm,fcij,adkn->abcdijkl" [(ESlice (EVar "g_aaaa") [SV "o"; SV "o"; SV "v"; SV "v"]); (EVar "t2_aaaa"); (EVar "t2_aaaa"); (EVar "t2_aaaa")]));
   (*L1212*) SAug true "quadruples_res" (EAdd (EScale (1 # 1) (EVar "contracted_intermediate")) (EScale (-1 # 1) (EEins "abcdijkl->abcdijlk" [(EVar "contracted_intermediate")])));
   (*L1215*) SAssign "contracted_intermediate" (EScale (1 # 1) (EEins "nmfe,belm,fcij,adkn->abcdijkl" [(ESlice (EVar "g_abab") [SV "o"; SV "o"; SV "v"; SV "v"]); (EVar "t2_abab"); (EVar "t2_aaaa"); (EVar "t2_aaaa")]));
   (*L1216*) SAug true "quadruples_res" (EAdd (EScale (1 # 1) (EVar "contracted_intermediate")) (EScale (-1 # 1) (EEins "abcdijkl->abcdijlk" [(EVar "contracted_intermediate")])));
   (*L1219*) SAssign "contracted_intermediate" (EScale (-1 # 1) (EEins "nmef,ebkm,fcjl,adin->abcdijkl" [(ESlice (EVar "g_aaaa") [SV "o"; SV "o"; SV "v"; SV "v"]); (EVar "t2_aaaa"); (EVar "t2_aaaa"); (EVar "t2_aaaa")]));
   (*L1220*) SAug true "quadruples_res" (EAdd (EScale (1 # 1) (EVar "contracted_intermediate")) (EScale (-1 # 1) (EEins "abcdijkl->abcdjikl" [(EVar "contracted_intermediate")])));
   (*L1223*) SAssign "contracted_intermediate" (EScale (-1 # 1) (EEins "nmfe,bekm,fcjl,adin->abcdijkl" [(ESlice (EVar "g_abab") [SV "o"; SV "o"; SV "v"; SV "v"]); (EVar "t2_abab"); (EVar "t2_aaaa"); (EVar "t2_aaaa")]));
   (*L1224*) SAug true "quadruples_res" (EAdd (EScale (1 # 1) (EVar "contracted_intermediate")) (EScale (-1 # 1) (EEins "abcdijkl->abcdjikl" [(EVar "contracted_intermediate")])));
   (*L1227*) SAssign "contracted_intermediate" (EScale (1 # 1) (EEins "nmef,ebjm,fckl,adin->abcdijkl" [(ESlice (EVar "g_aaaa") [SV "o"; SV "o"; SV "v"; SV "v"]); (EVar "t2_aaaa"); (EVar "t2_aaaa"); (EVar "t2_aaaa")]));
   (*L1228*) SAug true "quadruples_res" (EAdd (EScale (1 # 1) (EVar "contracted_intermediate")) (EScale (-1 # 1) (EEins "abcdijkl->abcdkjil" [(EVar "contracted_intermediate")])));
   (*L1231*) SAssign "contracted_intermediate" (EScale (1 # 1) (EEins "nmfe,bejm,fckl,adin->abcdijkl" [(ESlice (EVar "g_abab") [SV "o"; SV "o"; SV "v"; SV "v"]); (EVar "t2_abab"); (EVar "t2_aaaa"); (EVar "t2_aaaa")]));
   (*L1232*) SAug true "quadruples_res" (EAdd (EScale (1 # 1) (EVar "contracted_intermediate")) (EScale (-1 # 1) (EEins "abcdijkl->abcdkjil" [(EVar "contracted_intermediate")])));
   (*L1235*) SAssign "contracted_intermediate" (EScale (1 # 1) (EEins "nmef,ebjm,fcik,adln->abcdijkl" [(ESlice (EVar "g_aaaa") [SV "o"; SV "o"; SV "v"; SV "v"]); (EVar "t2_aaaa"); (EVar "t2_aaaa"); (EVar "t2_aaaa")]));
   (*L1236*) SAug true "quadruples_res" (EAdd (EScale (1 # 1) (EVar "contracted_intermediate")) (EScale (-1 # 1) (EEins "abcdijkl->abcdjikl" [(EVar "contracted_intermediate")])));
   (*L1239*) SAssign "contracted_intermediate" (EScale (1 # 1) (EEins "nmfe,bejm,fcik,adln->abcdijkl" [(ESlice (EVar "g_abab") [SV "o"; SV "o"; SV "v"; SV "v"]); (EVar "t2_abab"); (EVar "t2_aaaa"); (EVar "t2_aaaa")]));
   (*L1240*) SAug true "quadruples_res" (EAdd (EScale (1 # 1) (EVar "contracted_intermediate")) (EScale (-1 # 1) (EEins "abcdijkl->abcdjikl" [(EVar "contracted_intermediate")])));
   (*L1243*) SAssign "contracted_intermediate" (EScale (-1 # 1) (EEins "nmef,ebim,fckl,adjn->abcdijkl" [(ESlice (EVar "g_aaaa") [SV "o"; SV "o"; SV "v"; SV "v"]); (EVar "t2_aaaa"); (EVar "t2_aaaa"); (EVar "t2_aaaa")]));
   (*L1244*) SAug true "quadruples_res" (EAdd (EScale (1 # 1) (EVar "contracted_intermediate")) (EScale (-1 # 1) (EEins "abcdijkl->abcdikjl" [(EVar "contracted_intermediate")])));
   (*L1247*) SAssign "contracted_intermediate" (EScale (-1 # 1) (EEins "nmfe,beim,fckl,adjn->abcdijkl" [(ESlice (EVar "g_abab") [SV "o"; SV "o"; SV "v"; SV "v"]); (EVar "t2_abab"); (EVar "t2_aaaa"); (EVar "t2_aaaa")]));
   (*L1248*) SAug true "quadruples_res" (EAdd (EScale (1 # 1) (EVar "contracted_intermediate")) (EScale (-1 # 1) (EEins "abcdijkl->abcdikjl" [(EVar "contracted_intermediate")])));
   (*L1251*) SAssign "contracted_intermediate" (EScale (1 # 1) (EEins "nmef,ebkl,fcjm,adin->abcdijkl" [(ESlice (EVar "g_aaaa") [SV "o"; SV "o"; SV "v"; SV "v"]); (EVar "t2_aaaa"); (EVar "t2_aaaa"); (EVar "t2_aaaa")]));
   (*L1252*) SAug true "quadruples_res" (EAdd (EScale (1 # 1) (EVar "contracted_intermediate")) (EScale (-1 # 1) (EEins "abcdijkl->abcdjikl" [(EVar "contracted_intermediate")])));
   (*L1255*) SAssign "contracted_intermediate" (EScale (-1 # 1) (EEins "nmef,ebkl,cfjm,adin->abcdijkl" [(ESlice (EVar "g_abab") [SV "o"; SV "o"; SV "v"; SV "v"]); (EVar "t2_aaaa"); (EVar "t2_abab"); (EVar "t2_aaaa")]));
   (*L1256*) SAug true "quadruples_res" (EAdd (EScale (1 # 1) (EVar "contracted_intermediate")) (EScale (-1 # 1) (EEins "abcdijkl->abcdjikl" [(EVar "contracted_intermediate")])));
   (*L1259*) SAssign "contracted_intermediate" (EScale (-1 # 2) (EEins "nmef,ebkl,fcij,adnm->abcdijkl" [(ESlice (EVar "g_aaaa") [SV "o"; SV "o"; SV "v"; SV "v"]); (EVar "t2_aaaa"); (EVar "t2_aaaa"); (EVar "t2_aaaa")]));
   (*L1260*) SAug true "quadruples_res" (EAdd (EScale (1 # 1) (EVar "contracted_intermediate")) (EScale (-1 # 1) (EEins "abcdijkl->abcdikjl" [(EVar "contracted_intermediate")])));
   (*L1263*) SAssign "contracted_intermediate" (EScale (-1 # 1) (EEins "nmef,ebjl,fckm,adin->abcdijkl" [(ESlice (EVar "g_aaaa") [SV "o"; SV "o"; SV "v"; SV "v"]); (EVar "t2_aaaa"); (EVar "t2_aaaa"); (EVar "t2_aaaa")]));
   (*L1264*) SAug true "quadruples_res" (EAdd (EScale (1 # 1) (EVar "contracted_intermediate")) (EScale (-1 # 1) (EEins "abcdijkl->abcdkjil" [(EVar "contracted_intermediate")])));
   (*L1267*) SAssign "contracted_intermediate" (EScale (1 # 1) (EEins "nmef,ebjl,cfkm,adin->abcdijkl" [(ESlice (EVar "g_abab") [SV "o"; SV "o"; SV "v"; SV "v"]); (EVar "t2_aaaa"); (EVar "t2_abab"); (EVar "t2_aaaa")]));
   (*L1268*) SAug true "quadruples_res" (EAdd (EScale (1 # 1) (EVar "contracted_intermediate")) (EScale (-1 # 1) (EEins "abcdijkl->abcdkjil" [(EVar "contracted_intermediate")])));
   (*L1271*) SAssign "contracted_intermediate" (EScale (1 # 1) (EEins "nmef,ebil,fckm,adjn->abcdijkl" [(ESlice (EVar "g_aaaa") [SV "o"; SV "o"; SV "v"; SV "v"]); (EVar "t2_aaaa"); (EVar "t2_aaaa"); (EVar "t2_aaaa")]));
   (*L1272*) SAug true "quadruples_res" (EAdd (EScale (1 # 1) (EVar "contracted_intermediate")) (EScale (-1 # 1) (EEins "abcdijkl->abcdikjl" [(EVar "contracted_intermediate")])));
   (*L1275*) SAssign "contracted_intermediate" (EScale (-1 # 1) (EEins "nmef,ebil,cfkm,adjn->abcdijkl" [(ESlice (EVar "g_abab") [SV "o"; SV "o"; SV "v"; SV "v"]); (EVar "t2_aaaa"); (EVar "t2_abab"); (EVar "t2_aaaa")]));
   (*L1276*) SAug true "quadruples_res" (EAdd (EScale (1 # 1) (EVar "contracted_intermediate")) (EScale (-1 # 1) (EEins "abcdijkl->abcdikjl" [(EVar "contracted_intermediate")])));
   (*L1279*) SAssign "contracted_intermediate" (EScale (-1 # 2) (EEins "nmef,ebil,fcjk,adnm->abcdijkl" [(ESlice (EVar "g_aaaa") [SV "o"; SV "o"; SV "v"; SV "v"]); (EVar "t2_aaaa"); (EVar "t2_aaaa"); (EVar "t2_aaaa")]));
   (*L1280*) SAug true "quadruples_res" (EAdd (EScale (1 # 1) (EVar "contracted_intermediate")) (EScale (-1 # 1) (EEins "abcdijkl->abcdijlk" [(EVar "contracted_intermediate")])));
   (*L1283*) SAssign "contracted_intermediate" (EScale (1 # 1) (EEins "nmef,ebjk,fclm,adin->abcdijkl" [(ESlice (EVar "g_aaaa") [SV "o"; SV "o"; SV "v"; SV "v"]); (EVar "t2_aaaa"); (EVar "t2_aaaa"); (EVar "t2_aaaa")]));
   (*L1284*) SAug true "quadruples_res" (EAdd (EScale (1 # 1) (EVar "contracted_intermediate")) (EScale (-1 # 1) (EEins "abcdijkl->abcdljki" [(EVar "contracted_intermediate")])));
   (*L1287*) SAssign "contracted_intermediate" (EScale (-1 # 1) (EEins "nmef,ebjk,cflm,adin->abcdijkl" [(ESlice (EVar "g_abab") [SV "o"; SV "o"; SV "v"; SV "v"]); (EVar "t2_aaaa"); (EVar "t2_abab"); (EVar "t2_aaaa")]));
   (*L1288*) SAug true "quadruples_res" (EAdd (EScale (1 # 1) (EVar "contracted_intermediate")) (EScale (-1 # 1) (EEins "abcdijkl->abcdljki" [(EVar "contracted_intermediate")])));
   (*L1291*) SAssign "contracted_intermediate" (EScale (-1 # 2) (EEins "nmef,ebjk,fcil,adnm->abcdijkl" [(ESlice (EVar "g_aaaa") [SV "o"; SV "o"; SV "v"; SV "v"]); (EVar "t2_aaaa"); (EVar "t2_aaaa"); (EVar "t2_aaaa")]));
   (*L1292*) SAug true "quadruples_res" (EAdd (EScale (1 # 1) (EVar "contracted_intermediate")) (EScale (-1 # 1) (EEins "abcdijkl->abcdkjil" [(EVar "contracted_intermediate")])));
   (*L1295*) SAssign "contracted_intermediate" (EScale (-1 # 1) (EEins "nmef,ebik,fclm,adjn->abcdijkl" [(ESlice (EVar "g_aaaa") [SV "o"; SV "o"; SV "v"; SV "v"]); (EVar "t2_aaaa"); (EVar "t2_aaaa"); (EVar "t2_aaaa")]));
   (*L1296*) SAug true "quadruples_res" (EAdd (EScale (1 # 1) (EVar "contracted_intermediate")) (EScale (-1 # 1) (EEins "abcdijkl->abcdilkj" [(EVar "contracted_intermediate")])));
   (*L1299*) SAssign "contracted_intermediate" (EScale (1 # 1) (EEins "nmef,ebik,cflm,adjn->abcdijkl" [(ESlice (EVar "g_abab") [SV "o"; SV "o"; SV "v"; SV "v"]); (EVar "t2_aaaa"); (EVar "t2_abab"); (EVar "t2_aaaa")]));
   (*L1300*) SAug true "quadruples_res" (EAdd (EScale (1 # 1) (EVar "contracted_intermediate")) (EScale (-1 # 1) (EEins "abcdijkl->abcdilkj" [(EVar "contracted_intermediate")])));
   (*L1303*) SAssign "contracted_intermediate" (EScale (1 # 1) (EEins "nmef,ebij,fclm,adkn->abcdijkl" [(ESlice (EVar "g_aaaa") [SV "o"; SV "o"; SV "v"; SV "v"]); (EVar "t2_aaaa"); (EVar "t2_aaaa"); (EVar "t2_aaaa")]));
   (*L1304*) SAug true "quadruples_res" (EAdd (EScale (1 # 1) (EVar "contracted_intermediate")) (EScale (-1 # 1) (EEins "abcdijkl->abcdijlk" [(EVar "contracted_intermediate")])));
   (*L1307*) SAssign "contracted_intermediate" (EScale (-1 # 1) (EEins "nmef,ebij,cflm,adkn->abcdijkl" [(ESlice (EVar "g_abab") [SV "o"; SV "o"; SV "v"; SV "v"]); (EVar "t2_aaaa"); (EVar "t2_abab"); (EVar "t2_aaaa")]));
   (*L1308*) SAug true "quadruples_res" (EAdd (EScale (1 # 1) (EVar "contracted_intermediate")) (EScale (-1 # 1) (EEins "abcdijkl->abcdijlk" [(EVar "contracted_intermediate")])));
   (*L1311*) SAssign "contracted_intermediate" (EScale (1 # 1) (EEins "nmef,eclm,fdjk,abin->abcdijkl" [(ESlice (EVar "g_aaaa") [SV "o"; SV "o"; SV "v"; SV "v"]); (EVar "t2_aaaa"); (EVar "t2_aaaa"); (EVar "t2_aaaa")]));
   (*L1312*) SAug true "quadruples_res" (EAdd (EScale (1 # 1) (EVar "contracted_intermediate")) (EScale (-1 # 1) (EEins "abcdijkl->abcdjikl" [(EVar "contracted_intermediate")])));
   (*L1315*) SAssign "contracted_intermediate" (EScale (1 # 1) (EEins "nmfe,celm,fdjk,abin->abcdijkl" [(ESlice (EVar "g_abab") [SV "o"; SV "o"; SV "v"; SV "v"]); (EVar "t2_abab"); (EVar "t2_aaaa"); (EVar "t2_aaaa")]));
   (*L1316*) SAug true "quadruples_res" (EAdd (EScale (1 # 1) (EVar "contracted_intermediate")) (EScale (-1 # 1) (EEins "abcdijkl->abcdjikl" [(EVar "contracted_intermediate")])));
   (*L1319*) SAssign "contracted_intermediate" (EScale (1 # 1) (EEins "nmef,eclm,fdij,abkn->abcdijkl" [(ESlice (EVar "g_aaaa") [SV "o"; SV "o"; SV "v"; SV "v"]); (EVar "t2_aaaa"); (EVar "t2_aaaa"); (EVar "t2_aaaa")]));
   (*L1320*) SAug true "quadruples_res" (EAdd (EScale (1 # 1) (EVar "contracted_intermediate")) (EScale (-1 # 1) (EEins "abcdijkl->abcdijlk" [(EVar "contracted_intermediate")])));
   (*L1323*) SAssign "contracted_intermediate" (EScale (1 # 1) (EEins "nmfe,celm,fdij,abkn->abcdijkl" [(ESlice (EVar "g_abab") [SV "o"; SV "o"; SV "v"; SV "v"]); (EVar "t2_abab"); (EVar "t2_aaaa"); (EVar "t2_aaaa")]));
   (*L1324*) SAug true "quadruples_res" (EAdd (EScale (1 # 1) (EVar "contracted_intermediate")) (EScale (-1 # 1) (EEins "abcdijkl->abcdijlk" [(EVar "contracted_intermediate")])));
   (*L1327*) SAssign "contracted_intermediate" (EScale (-1 # 1) (EEins "nmef,eckm,fdjl,abin->abcdijkl" [(ESlice (EVar "g_aaaa") [SV "o"; SV "o"; SV "v"; SV "v"]); (EVar "t2_aaaa"); (EVar "t2_aaaa"); (EVar "t2_aaaa")]));
   (*L1328*) SAug true "quadruples_res" (EAdd (EScale (1 # 1) (EVar "contracted_intermediate")) (EScale (-1 # 1) (EEins "abcdijkl->abcdjikl" [(EVar "contracted_intermediate")])));
   (*L1331*) SAssign "contracted_intermediate" (EScale (-1 # 1) (EEins "nmfe,cekm,fdjl,abin->abcdijkl" [(ESlice (EVar "g_abab") [SV "o"; SV "o"; SV "v"; SV "v"]); (EVar "t2_abab"); (EVar "t2_aaaa"); (EVar "t2_aaaa")]));
   (*L1332*) SAug true "quadruples_res" (EAdd (EScale (1 # 1) (EVar "contracted_intermediate")) (EScale (-1 # 1) (EEins "abcdijkl->abcdjikl" [(EVar "contracted_intermediate")])));
   (*L1335*) SAssign "contracted_intermediate" (EScale (1 # 1) (EEins "nmef,ecjm,fdkl,abin->abcdijkl" [(ESlice (EVar "g_aaaa") [SV "o"; SV "o"; SV "v"; SV "v"]); (EVar "t2_aaaa"); (EVar "t2_aaaa"); (EVar "t2_aaaa")]));
   (*L1336*) SAug true "quadruples_res" (EAdd (EScale (1 # 1) (EVar "contracted_intermediate")) (EScale (-1 # 1) (EEins "abcdijkl->abcdkjil" [(EVar "contracted_intermediate")])));
   (*L1339*) SAssign "contracted_intermediate" (EScale (1 # 1) (EEins "nmfe,cejm,fdkl,abin->abcdijkl" [(ESlice (EVar "g_abab") [SV "o"; SV "o"; SV "v"; SV "v"]); (EVar "t2_abab"); (EVar "t2_aaaa"); (EVar "t2_aaaa")]));
   (*L1340*) SAug true "quadruples_res" (EAdd (EScale (1 # 1) (EVar "contracted_intermediate")) (EScale (-1 # 1) (EEins "abcdijkl->abcdkjil" [(EVar "contracted_intermediate")])));
   (*L1343*) SAssign "contracted_intermediate" (EScale (1 # 1) (EEins "nmef,ecjm,fdik,abln->abcdijkl" [(ESlice (EVar "g_aaaa") [SV "o"; SV "o"; SV "v"; SV "v"]); (EVar "t2_aaaa"); (EVar "t2_aaaa"); (EVar "t2_aaaa")]));
   (*L1344*) SAug true "quadruples_res" (EAdd (EScale (1 # 1) (EVar "contracted_intermediate")) (EScale (-1 # 1) (EEins "abcdijkl->abcdjikl" [(EVar "contracted_intermediate")])));
   (*L1347*) SAssign "contracted_intermediate" (EScale (1 # 1) (EEins "nmfe,cejm,fdik,abln->abcdijkl" [(ESlice (EVar "g_abab") [SV "o"; SV "o"; SV "v"; SV "v"]); (EVar "t2_abab"); (EVar "t2_aaaa"); (EVar "t2_aaaa")]));
   (*L1348*) SAug true "quadruples_res" (EAdd (EScale (1 # 1) (EVar "contracted_intermediate")) (EScale (-1 # 1) (EEins "abcdijkl->abcdjikl" [(EVar "contracted_intermediate")])));
   (*L1351*) SAssign "contracted_intermediate" (EScale (-1 # 1) (EEins "nmef,ecim,fdkl,abjn->abcdijkl" [(ESlice (EVar "g_aaaa") [SV "o"; SV "o"; SV "v"; SV "v"]); (EVar "t2_aaaa"); (EVar "t2_aaaa"); (EVar "t2_aaaa")]));
   (*L1352*) SAug true "quadruples_res" (EAdd (EScale (1 # 1) (EVar "contracted_intermediate")) (EScale (-1 # 1) (EEins "abcdijkl->abcdikjl" [(EVar "contracted_intermediate")])));
   (*L1355*) SAssign "contracted_intermediate" (EScale (-1 # 1) (EEins "nmfe,ceim,fdkl,abjn->abcdijkl" [(ESlice (EVar "g_abab") [SV "o"; SV "o"; SV "v"; SV "v"]); (EVar "t2_abab"); (EVar "t2_aaaa"); (EVar "t2_aaaa")]));
   (*L1356*) SAug true "quadruples_res" (EAdd (EScale (1 # 1) (EVar "contracted_intermediate")) (EScale (-1 # 1) (EEins "abcdijkl->abcdikjl" [(EVar "contracted_intermediate")])));
   (*L1359*) SAssign "contracted_intermediate" (EScale (1 # 1) (EEins "nmef,eckl,fdjm,abin->abcdijkl" [(ESlice (EVar "g_aaaa") [SV "o"; SV "o"; SV "v"; SV "v"]); (EVar "t2_aaaa"); (EVar "t2_aaaa"); (EVar "t2_aaaa")]));
   (*L1360*) SAug true "quadruples_res" (EAdd (EScale (1 # 1) (EVar "contracted_intermediate")) (EScale (-1 # 1) (EEins "abcdijkl->abcdjikl" [(EVar "contracted_intermediate")])));
   (*L1363*) SAssign "contracted_intermediate" (EScale (-1 # 1) (EEins "nmef,eckl,dfjm,abin->abcdijkl" [(ESlice (EVar "g_abab") [SV "o"; SV "o"; SV "v"; SV "v"]); (EVar "t2_aaaa"); (EVar "t2_abab"); (EVar "t2_aaaa")]));
   (*L1364*) SAug true "quadruples_res" (EAdd (EScale (1 # 1) (EVar "contracted_intermediate")) (EScale (-1 # 1) (EEins "abcdijkl->abcdjikl" [(EVar "contracted_intermediate")])));
   (*L1367*) SAssign "contracted_intermediate" (EScale (-1 # 2) (EEins "nmef,eckl,fdij,abnm->abcdijkl" [(ESlice (EVar "g_aaaa") [SV "o"; SV "o"; SV "v"; SV "v"]); (EVar "t2_aaaa"); (EVar "t2_aaaa"); (EVar "t2_aaaa")]));
   (*L1368*) SAug true "quadruples_res" (EAdd (EScale (1 # 1) (EVar "contracted_intermediate")) (EScale (-1 # 1) (EEins "abcdijkl->abcdikjl" [(EVar "contracted_intermediate")])));
   (*L1371*) SAssign "contracted_intermediate" (EScale (-1 # 1) (EEins "nmef,ecjl,fdkm,abin->abcdijkl" [(ESlice (EVar "g_aaaa") [SV "o"; SV "o"; SV "v"; SV "v"]); (EVar "t2_aaaa"); (EVar "t2_aaaa"); (EVar "t2_aaaa")]));
   (*L1372*) SAug true "quadruples_res" (EAdd (EScale (1 # 1) (EVar "contracted_intermediate")) (EScale (-1 # 1) (EEins "abcdijkl->abcdkjil" [(EVar "contracted_intermediate")])));
   (*L1375*) SAssign "contracted_intermediate" (EScale (1 # 1) (EEins "nmef,ecjl,dfkm,abin->abcdijkl" [(ESlice (EVar "g_abab") [SV "o"; SV "o"; SV "v"; SV "v"]); (EVar "t2_aaaa"); (EVar "t2_abab"); (EVar "t2_aaaa")]));
   (*L1376*) SAug true "quadruples_res" (EAdd (EScale (1 # 1) (EVar "contracted_intermediate")) (EScale (-1 # 1) (EEins "abcdijkl->abcdkjil" [(EVar "contracted_intermediate")])));
   (*L1379*) SAssign "contracted_intermediate" (EScale (1 # 1) (EEins "nmef,ecil,fdkm,abjn->abcdijkl" [(ESlice (EVar "g_aaaa") [SV "o"; SV "o"; SV "v"; SV "v"]); (EVar "t2_aaaa"); (EVar "t2_aaaa"); (EVar "t2_aaaa")]));
   (*L1380*) SAug true "quadruples_res" (EAdd (EScale (1 # 1) (EVar "contracted_intermediate")) (EScale (-1 # 1) (EEins "abcdijkl->abcdikjl" [(EVar "contracted_intermediate")])));
   (*L1383*) SAssign "contracted_intermediate" (EScale (-1 # 1) (EEins "nmef,ecil,dfkm,abjn->abcdijkl" [(ESlice (EVar "g_abab") [SV "o"; SV "o"; SV "v"; SV "v"]); (EVar "t2_aaaa"); (EVar "t2_abab"); (EVar "t2_aaaa")]));
   (*L1384*) SAug true "quadruples_res" (EAdd (EScale (1 # 1) (EVar "contracted_intermediate")) (EScale (-1 # 1) (EEins "abcdijkl->abcdikjl" [(EVar "contracted_intermediate")])));
   (*L1387*) SAssign "contracted_intermediate" (EScale (-1 # 2) (EEins "nmef,ecil,fdjk,abnm->abcdijkl" [(ESlice (EVar "g_aaaa") [SV "o"; SV "o"; SV "v"; SV "v"]); (EVar "t2_aaaa"); (EVar "t2_aaaa"); (EVar "t2_aaaa")]));
   (*L1388*) SAug true "quadruples_res" (EAdd (EScale (1 # 1) (EVar "contracted_intermediate")) (EScale (-1 # 1) (EEins "abcdijkl->abcdijlk" [(EVar "contracted_intermediate")])));
   (*L1391*) SAssign "contracted_intermediate" (EScale (1 # 1) (EEins "nmef,ecjk,fdlm,abin->abcdijkl" [(ESlice (EVar "g_aaaa") [SV "o"; SV "o"; SV "v"; SV "v"]); (EVar "t2_aaaa"); (EVar "t2_aaaa"); (EVar "t2_aaaa")]));
   (*L1392*) SAug true "quadruples_res" (EAdd (EScale (1 # 1) (EVar "contracted_intermediate")) (EScale (-1 # 1) (EEins "abcdijkl->abcdljki" [(EVar "contracted_intermediate")])));
   (*L1395*) SAssign "contracted_intermediate" (EScale (-1 # 1) (EEins "nmef,ecjk,dflm,abin->abcdijkl" [(ESlice (EVar "g_abab") [SV "o"; SV "o"; SV "v"; SV "v"]); (EVar "t2_aaaa"); (EVar "t2_abab"); (EVar "t2_aaaa")]));
   (*L1396*) SAug true "quadruples_res" (EAdd (EScale (1 # 1) (EVar "contracted_intermediate")) (EScale (-1 # 1) (EEins "abcdijkl->abcdljki" [(EVar "contracted_intermediate")])));
   (*L1399*) SAssign "contracted_intermediate" (EScale (-1 # 2) (EEins "nmef,ecjk,fdil,abnm->abcdijkl" [(ESlice (EVar "g_aaaa") [SV "o"; SV "o"; SV "v"; SV "v"]); (EVar "t2_aaaa"); (EVar "t2_aaaa"); (EVar "t2_aaaa")]));
   (*L1400*) SAug true "quadruples_res" (EAdd (EScale (1 # 1) (EVar "contracted_intermediate")) (EScale (-1 # 1) (EEins "abcdijkl->abcdkjil" [(EVar "contracted_intermediate")])));
   (*L1403*) SAssign "contracted_intermediate" (EScale (-1 # 1) (EEins "nmef,ecik,fdlm,abjn->abcdijkl" [(ESlice (EVar "g_aaaa") [SV "o"; SV "o"; SV "v"; SV "v"]); (EVar "t2_aaaa"); (EVar "t2_aaaa"); (EVar "t2_aaaa")]));
   (*L1404*) SAug true "quadruples_res" (EAdd (EScale (1 # 1) (EVar "contracted_intermediate")) (EScale (-1 # 1) (EEins "abcdijkl->abcdilkj" [(EVar "contracted_intermediate")])));
   (*L1407*) SAssign "contracted_intermediate" (EScale (1 # 1) (EEins "nmef,ecik,dflm,abjn->abcdijkl" [(ESlice (EVar "g_abab") [SV "o"; SV "o"; SV "v"; SV "v"]); (EVar "t2_aaaa"); (EVar "t2_abab"); (EVar "t2_aaaa")]));
   (*L1408*) SAug true "quadruples_res" (EAdd (EScale (1 # 1) (EVar "contracted_intermediate")) (EScale (-1 # 1) (EEins "abcdijkl->abcdilkj" [(EVar "contracted_intermediate")])));
   (*L1411*) SAssign "contracted_intermediate" (EScale (1 # 1) (EEins "nmef,ecij,fdlm,abkn->abcdijkl" [(ESlice (EVar "g_aaaa") [SV "o"; SV "o"; SV "v"; SV "v"]); (EVar "t2_aaaa"); (EVar "t2_aaaa"); (EVar "t2_aaaa")]));
   (*L1412*) SAug true "quadruples_res" (EAdd (EScale (1 # 1) (EVar "contracted_intermediate")) (EScale (-1 # 1) (EEins "abcdijkl->abcdijlk" [(EVar "contracted_intermediate")])));
   (*L1415*) SAssign "contracted_intermediate" (EScale (-1 # 1) (EEins "nmef,ecij,dflm,abkn->abcdijkl" [(ESlice (EVar "g_abab") [SV "o"; SV "o"; SV "v"; SV "v"]); (EVar "t2_aaaa"); (EVar "t2_abab"); (EVar "t2_aaaa")]));
   (*L1416*) SAug true "quadruples_res" (EAdd (EScale (1 # 1) (EVar "contracted_intermediate")) (EScale (-1 # 1) (EEins "abcdijkl->abcdijlk" [(EVar "contracted_intermediate")])))]
  (*L1418*) (EVar "quadruples_res").

(** /repo/UT2/ccdq_resids.py:1421-2679  def ccdq_t4_aaabaaab_residual *)
Definition ccdq_t4_aaabaaab_residual : fn := mkFn
  ["t2_aaaa"; "t2_bbbb"; "t2_abab"; "t4_aaaaaaaa"; "t4_aaabaaab"; "t4_aabbaabb"; "t4_abbbabbb"; "t4_bbbbbbbb"; "f_aa"; "f_bb"; "g_aaaa"; "g_bbbb"; "g_abab"; "oa"; "ob"; "va"; "vb"]
  [(*L1427*) SAssign "o" (EVar "oa");
   (*L1428*) SAssign "v" (EVar "va");
   (*L1431*) SAssign "quadruples_res" (EScale (-100000000000001 # 100000000000000) (EEins "ml,abcdijkm->abcdijkl" [(ESlice (EVar "f_bb") [SV "o"; SV "o"]); (ESlice (EVar "t4_aaabaaab") [SAll; SAll; SAll; SAll; SAll; SAll; SAll; SAll])]));
   (*L1434*) SAug true "quadruples_res" (EScale (-100000000000001 # 100000000000000) (EEins "mk,abcdijml->abcdijkl" [(ESlice (EVar "f_aa") [SV "o"; SV "o"]); (ESlice (EVar "t4_aaabaaab") [SAll; SAll; SAll; SAll; SAll; SAll; SAll; SAll])]));
   (*L1437*) SAssign "contracted_intermediate" (EScale (100000000000001 # 100000000000000) (EEins "mj,abcdikml->abcdijkl" [(ESlice (EVar "f_aa") [SV "o"; SV "o"]); (ESlice (EVar "t4_aaabaaab") [SAll; SAll; SAll; SAll; SAll; SAll; SAll; SAll])]));
   (*L1438*) SAug true "quadruples_res" (EAdd (EScale (1 # 1) (EVar "contracted_intermediate")) (EScale (-1 # 1) (EEins "abcdijkl->abcdjikl" [(EVar "contracted_intermediate")])));
   (*L1441*) SAssign "contracted_intermediate" (EScale (100000000000001 # 100000000000000) (EEins "ae,ebcdijkl->abcdijkl" [(ESlice (EVar "f_aa") [SV "v"; SV "v"]); (ESlice (EVar "t4_aaabaaab") [SAll; SAll; SAll; SAll; SAll; SAll; SAll; SAll])]));
   (*L1442*) SAug true "quadruples_res" (EAdd (EScale (1 # 1) (EVar "contracted_intermediate")) (EScale (-1 # 1) (EEins "abcdijkl->bacdijkl" [(EVar "contracted_intermediate")])));
   (*L1445*) SAug true "quadruples_res" (EScale (100000000000001 # 100000000000000) (EEins "ce,eabdijkl->abcdijkl" [(ESlice (EVar "f_aa") [SV "v"; SV "v"]); (ESlice (EVar "t4_aaabaaab") [SAll; SAll; SAll; SAll; SAll; SAll; SAll; SAll])]));
   (*L1448*) SAug true "quadruples_res" (EScale (100000000000001 # 100000000000000) (EEins "de,cabeijkl->abcdijkl" [(ESlice (EVar "f_bb") [SV "v"; SV "v"]); (ESlice (EVar "t4_aaabaaab") [SAll; SAll; SAll; SAll; SAll; SAll; SAll; SAll])]));
   (*L1451*) SAssign "contracted_intermediate" (EScale (50000000000001 # 100000000000000) (EEins "nmkl,abcdijnm->abcdijkl" [(ESlice (EVar "g_abab") [SV "o"; SV "o"; SV "o"; SV "o"]); (ESlice (EVar "t4_aaabaaab") [SAll; SAll; SAll; SAll; SAll; SAll; SAll; SAll])]));
   (*L1452*) SAug true "quadruples_res" (EAdd (EScale (1 # 1) (EVar "contracted_intermediate")) (EScale (-1 # 1) (EEins "abcdijkl->abcdikjl" [(EVar "contracted_intermediate")])));
   (*L1455*) SAssign "contracted_intermediate" (EScale (50000000000001 # 100000000000000) (EEins "mnkl,abcdijmn->abcdijkl" [(ESlice (EVar "g_abab") [SV "o"; SV "o"; SV "o"; SV "o"]); (ESlice (EVar "t4_aaabaaab") [SAll; SAll; SAll; SAll; SAll; SAll; SAll; SAll])]));
   (*L1456*) SAug true "quadruples_res" (EAdd (EScale (1 # 1) (EVar "contracted_intermediate")) (EScale (-1 # 1) (EEins "abcdijkl->abcdikjl" [(EVar "contracted_intermediate")])));
   (*L1459*) SAug true "quadruples_res" (EScale (50000000000001 # 100000000000000) (EEins "nmil,abcdjknm->abcdijkl" [(ESlice (EVar "g_abab") [SV "o"; SV "o"; SV "o"; SV "o"]); (ESlice (EVar "t4_aaabaaab") [SAll; SAll; SAll; SAll; SAll; SAll; SAll; SAll])]));
   (*L1462*) SAug true "quadruples_res" (EScale (50000000000001 # 100000000000000) (EEins "mnil,abcdjkmn->abcdijkl" [(ESlice (EVar "g_abab") [SV "o"; SV "o"; SV "o"; SV "o"]); (ESlice (EVar "t4_aaabaaab") [SAll; SAll; SAll; SAll; SAll; SAll; SAll; SAll])]));
   (*L1465*) SAug true "quadruples_res" (EScale (50000000000001 # 100000000000000) (EEins "nmik,abcdjmnl->abcdijkl" [(ESlice (EVar "g_aaaa") [SV "o"; SV "o"; SV "o"; SV "o"]); (ESlice (EVar "t4_aaabaaab") [SAll; SAll; SAll; SAll; SAll; SAll; SAll; SAll])]));
   (*L1468*) SAssign "contracted_intermediate" (EScale (-50000000000001 # 100000000000000) (EEins "nmjk,abcdimnl->abcdijkl" [(ESlice (EVar "g_aaaa") [SV "o"; SV "o"; SV "o"; SV "o"]); (ESlice (EVar "t4_aaabaaab") [SAll; SAll; SAll; SAll; SAll; SAll; SAll; SAll])]));
   (*L1469*) SAug true "quadruples_res" (EAdd (EScale (1 # 1) (EVar "contracted_intermediate")) (EScale (-1 # 1) (EEins "abcdijkl->abcdkjil" [(EVar "contracted_intermediate")])));
   (*L1472*) SAssign "contracted_intermediate" (EScale (-50000000000001 # 50000000000000) (EEins "amel,ebcdijkm->abcdijkl" [(ESlice (EVar "g_abab") [SV "v"; SV "o"; SV "v"; SV "o"]); (ESlice (EVar "t4_aaabaaab") [SAll; SAll; SAll; SAll; SAll; SAll; SAll; SAll])]));
   (*L1473*) SAug true "quadruples_res" (EAdd (EScale (1 # 1) (EVar "contracted_intermediate")) (EScale (-1 # 1) (EEins "abcdijkl->bacdijkl" [(EVar "contracted_intermediate")])));
   (*L1476*) SAssign "contracted_intermediate" (EScale (50000000000001 # 50000000000000) (EEins "maek,ebcdijml->abcdijkl" [(ESlice (EVar "g_aaaa") [SV "o"; SV "v"; SV "v"; SV "o"]); (ESlice (EVar "t4_aaabaaab") [SAll; SAll; SAll; SAll; SAll; SAll; SAll; SAll])]));
   (*L1477*) SAug true "quadruples_res" (EAdd (EScale (1 # 1) (EVar "contracted_intermediate")) (EScale (-1 # 1) (EEins "abcdijkl->bacdijkl" [(EVar "contracted_intermediate")])));
   (*L1480*) SAssign "contracted_intermediate" (EScale (50000000000001 # 50000000000000) (EEins "amke,cbedijlm->abcdijkl" [(ESlice (EVar "g_abab") [SV "v"; SV "o"; SV "o"; SV "v"]); (ESlice (EVar "t4_aabbaabb") [SAll; SAll; SAll; SAll; SAll; SAll; SAll; SAll])]));
   (*L1481*) SAug true "quadruples_res" (EAdd (EScale (1 # 1) (EVar "contracted_intermediate")) (EScale (-1 # 1) (EEins "abcdijkl->bacdijkl" [(EVar "contracted_intermediate")])));
   (*L1484*) SAssign "contracted_intermediate" (EScale (-50000000000001 # 50000000000000) (EEins "maej,ebcdikml->abcdijkl" [(ESlice (EVar "g_aaaa") [SV "o"; SV "v"; SV "v"; SV "o"]); (ESlice (EVar "t4_aaabaaab") [SAll; SAll; SAll; SAll; SAll; SAll; SAll; SAll])]));
   (*L1485*) SAug true "quadruples_res" (EAdd (EAdd (EAdd (EScale (1 # 1) (EVar "contracted_intermediate")) (EScale (-1 # 1) (EEins "abcdijkl->abcdjikl" [(EVar "contracted_intermediate")]))) (EScale (-1 # 1) (EEins "abcdijkl->bacdijkl" [(EVar "contracted_intermediate")]))) (EScale (1 # 1) (EEins "abcdijkl->bacdjikl" [(EVar "contracted_intermediate")])));
   (*L1488*) SAssign "contracted_intermediate" (EScale (-50000000000001 # 50000000000000) (EEins "amje,cbediklm->abcdijkl" [(ESlice (EVar "g_abab") [SV "v"; SV "o"; SV "o"; SV "v"]); (ESlice (EVar "t4_aabbaabb") [SAll; SAll; SAll; SAll; SAll; SAll; SAll; SAll])]));
   (*L1489*) SAug true "quadruples_res" (EAdd (EAdd (EAdd (EScale (1 # 1) (EVar "contracted_intermediate")) (EScale (-1 # 1) (EEins "abcdijkl->abcdjikl" [(EVar "contracted_intermediate")]))) (EScale (-1 # 1) (EEins "abcdijkl->bacdijkl" [(EVar "contracted_intermediate")]))) (EScale (1 # 1) (EEins "abcdijkl->bacdjikl" [(EVar "contracted_intermediate")])));
   (*L1492*) SAug true "quadruples_res" (EScale (-50000000000001 # 50000000000000) (EEins "cmel,eabdijkm->abcdijkl" [(ESlice (EVar "g_abab") [SV "v"; SV "o"; SV "v"; SV "o"]); (ESlice (EVar "t4_aaabaaab") [SAll; SAll; SAll; SAll; SAll; SAll; SAll; SAll])]));
   (*L1495*) SAug true "quadruples_res" (EScale (-50000000000001 # 50000000000000) (EEins "mdel,eabcijkm->abcdijkl" [(ESlice (EVar "g_abab") [SV "o"; SV "v"; SV "v"; SV "o"]); (ESlice (EVar "t4_aaaaaaaa") [SAll; SAll; SAll; SAll; SAll; SAll; SAll; SAll])]));
   (*L1498*) SAug true "quadruples_res" (EScale (50000000000001 # 50000000000000) (EEins "mdel,cabeijkm->abcdijkl" [(ESlice (EVar "g_bbbb") [SV "o"; SV "v"; SV "v"; SV "o"]); (ESlice (EVar "t4_aaabaaab") [SAll; SAll; SAll; SAll; SAll; SAll; SAll; SAll])]));
   (*L1501*) SAug true "quadruples_res" (EScale (50000000000001 # 50000000000000) (EEins "mcek,eabdijml->abcdijkl" [(ESlice (EVar "g_aaaa") [SV "o"; SV "v"; SV "v"; SV "o"]); (ESlice (EVar "t4_aaabaaab") [SAll; SAll; SAll; SAll; SAll; SAll; SAll; SAll])]));
   (*L1504*) SAug true "quadruples_res" (EScale (50000000000001 # 50000000000000) (EEins "cmke,baedijlm->abcdijkl" [(ESlice (EVar "g_abab") [SV "v"; SV "o"; SV "o"; SV "v"]); (ESlice (EVar "t4_aabbaabb") [SAll; SAll; SAll; SAll; SAll; SAll; SAll; SAll])]));
   (*L1507*) SAug true "quadruples_res" (EScale (-50000000000001 # 50000000000000) (EEins "mdke,cabeijml->abcdijkl" [(ESlice (EVar "g_abab") [SV "o"; SV "v"; SV "o"; SV "v"]); (ESlice (EVar "t4_aaabaaab") [SAll; SAll; SAll; SAll; SAll; SAll; SAll; SAll])]));
   (*L1510*) SAssign "contracted_intermediate" (EScale (-50000000000001 # 50000000000000) (EEins "mcej,eabdikml->abcdijkl" [(ESlice (EVar "g_aaaa") [SV "o"; SV "v"; SV "v"; SV "o"]); (ESlice (EVar "t4_aaabaaab") [SAll; SAll; SAll; SAll; SAll; SAll; SAll; SAll])]));
   (*L1511*) SAug true "quadruples_res" (EAdd (EScale (1 # 1) (EVar "contracted_intermediate")) (EScale (-1 # 1) (EEins "abcdijkl->abcdjikl" [(EVar "contracted_intermediate")])));
   (*L1514*) SAssign "contracted_intermediate" (EScale (-50000000000001 # 50000000000000) (EEins "cmje,baediklm->abcdijkl" [(ESlice (EVar "g_abab") [SV "v"; SV "o"; SV "o"; SV "v"]); (ESlice (EVar "t4_aabbaabb") [SAll; SAll; SAll; SAll; SAll; SAll; SAll; SAll])]));
   (*L1515*) SAug true "quadruples_res" (EAdd (EScale (1 # 1) (EVar "contracted_intermediate")) (EScale (-1 # 1) (EEins "abcdijkl->abcdjikl" [(EVar "contracted_intermediate")])));
   (*L1518*) SAssign "contracted_intermediate" (EScale (50000000000001 # 50000000000000) (EEins "mdje,cabeikml->abcdijkl" [(ESlice (EVar "g_abab") [SV "o"; SV "v"; SV "o"; SV "v"]); (ESlice (EVar "t4_aaabaaab") [SAll; SAll; SAll; SAll; SAll; SAll; SAll; SAll])]));
   (*L1519*) SAug true "quadruples_res" (EAdd (EScale (1 # 1) (EVar "contracted_intermediate")) (EScale (-1 # 1) (EEins "abcdijkl->abcdjikl" [(EVar "contracted_intermediate")])));
   (*L1522*) SAssign "contracted_intermediate" (EScale (50000000000001 # 100000000000000) (EEins "abef,efcdijkl->abcdijkl" [(ESlice (EVar "g_aaaa") [SV "v"; SV "v"; SV "v"; SV "v"]); (ESlice (EVar "t4_aaabaaab") [SAll; SAll; SAll; SAll; SAll; SAll; SAll; SAll])]));
   (*L1523*) SAug true "quadruples_res" (EAdd (EScale (1 # 1) (EVar "contracted_intermediate")) (EScale (-1 # 1) (EEins "abcdijkl->acbdijkl" [(EVar "contracted_intermediate")])));
   (*L1526*) SAssign "contracted_intermediate" (EScale (-50000000000001 # 100000000000000) (EEins "adef,ecbfijkl->abcdijkl" [(ESlice (EVar "g_abab") [SV "v"; SV "v"; SV "v"; SV "v"]); (ESlice (EVar "t4_aaabaaab") [SAll; SAll; SAll; SAll; SAll; SAll; SAll; SAll])]));
   (*L1527*) SAug true "quadruples_res" (EAdd (EScale (1 # 1) (EVar "contracted_intermediate")) (EScale (-1 # 1) (EEins "abcdijkl->bacdijkl" [(EVar "contracted_intermediate")])));
   (*L1530*) SAssign "contracted_intermediate" (EScale (50000000000001 # 100000000000000) (EEins "adfe,cfbeijkl->abcdijkl" [(ESlice (EVar "g_abab") [SV "v"; SV "v"; SV "v"; SV "v"]); (ESlice (EVar "t4_aaabaaab") [SAll; SAll; SAll; SAll; SAll; SAll; SAll; SAll])]));
   (*L1531*) SAug true "quadruples_res" (EAdd (EScale (1 # 1) (EVar "contracted_intermediate")) (EScale (-1 # 1) (EEins "abcdijkl->bacdijkl" [(EVar "contracted_intermediate")])));
   (*L1534*) SAug true "quadruples_res" (EScale (50000000000001 # 100000000000000) (EEins "bcef,efadijkl->abcdijkl" [(ESlice (EVar "g_aaaa") [SV "v"; SV "v"; SV "v"; SV "v"]); (ESlice (EVar "t4_aaabaaab") [SAll; SAll; SAll; SAll; SAll; SAll; SAll; SAll])]));
   (*L1537*) SAug true "quadruples_res" (EScale (-50000000000001 # 100000000000000) (EEins "cdef,ebafijkl->abcdijkl" [(ESlice (EVar "g_abab") [SV "v"; SV "v"; SV "v"; SV "v"]); (ESlice (EVar "t4_aaabaaab") [SAll; SAll; SAll; SAll; SAll; SAll; SAll; SAll])]));
   (*L1540*) SAug true "quadruples_res" (EScale (50000000000001 # 100000000000000) (EEins "cdfe,bfaeijkl->abcdijkl" [(ESlice (EVar "g_abab") [SV "v"; SV "v"; SV "v"; SV "v"]); (ESlice (EVar "t4_aaabaaab") [SAll; SAll; SAll; SAll; SAll; SAll; SAll; SAll])]));
   (*L1543*) SAug true "quadruples_res" (EScale (-9999999999999 # 20000000000000) (EEins "mnef,efml,abcdijkn->abcdijkl" [(ESlice (EVar "g_abab") [SV "o"; SV "o"; SV "v"; SV "v"]); (EVar "t2_abab"); (ESlice (EVar "t4_aaabaaab") [SAll; SAll; SAll; SAll; SAll; SAll; SAll; SAll])]));
   (*L1546*) SAug true "quadruples_res" (EScale (-9999999999999 # 20000000000000) (EEins "mnfe,feml,abcdijkn->abcdijkl" [(ESlice (EVar "g_abab") [SV "o"; SV "o"; SV "v"; SV "v"]); (EVar "t2_abab"); (ESlice (EVar "t4_aaabaaab") [SAll; SAll; SAll; SAll; SAll; SAll; SAll; SAll])]));
   (*L1549*) SAug true "quadruples_res" (EScale (-9999999999999 # 20000000000000) (EEins "nmef,eflm,abcdijkn->abcdijkl" [(ESlice (EVar "g_bbbb") [SV "o"; SV "o"; SV "v"; SV "v"]); (EVar "t2_bbbb"); (ESlice (EVar "t4_aaabaaab") [SAll; SAll; SAll; SAll; SAll; SAll; SAll; SAll])]));
   (*L1552*) SAug true "quadruples_res" (EScale (-9999999999999 # 20000000000000) (EEins "nmef,efkm,abcdijnl->abcdijkl" [(ESlice (EVar "g_aaaa") [SV "o"; SV "o"; SV "v"; SV "v"]); (EVar "t2_aaaa"); (ESlice (EVar "t4_aaabaaab") [SAll; SAll; SAll; SAll; SAll; SAll; SAll; SAll])]));
   (*L1555*) SAug true "quadruples_res" (EScale (-9999999999999 # 20000000000000) (EEins "nmef,efkm,abcdijnl->abcdijkl" [(ESlice (EVar "g_abab") [SV "o"; SV "o"; SV "v"; SV "v"]); (EVar "t2_abab"); (ESlice (EVar "t4_aaabaaab") [SAll; SAll; SAll; SAll; SAll; SAll; SAll; SAll])]));
   (*L1558*) SAug true "quadruples_res" (EScale (-9999999999999 # 20000000000000) (EEins "nmfe,fekm,abcdijnl->abcdijkl" [(ESlice (EVar "g_abab") [SV "o"; SV "o"; SV "v"; SV "v"]); (EVar "t2_abab"); (ESlice (EVar "t4_aaabaaab") [SAll; SAll; SAll; SAll; SAll; SAll; SAll; SAll])]));
   (*L1561*) SAssign "contracted_intermediate" (EScale (9999999999999 # 20000000000000) (EEins "nmef,efjm,abcdiknl->abcdijkl" [(ESlice (EVar "g_aaaa") [SV "o"; SV "o"; SV "v"; SV "v"]); (EVar "t2_aaaa"); (ESlice (EVar "t4_aaabaaab") [SAll; SAll; SAll; SAll; SAll; SAll; SAll; SAll])]));
   (*L1562*) SAug true "quadruples_res" (EAdd (EScale (1 # 1) (EVar "contracted_intermediate")) (EScale (-1 # 1) (EEins "abcdijkl->abcdjikl" [(EVar "contracted_intermediate")])));
   (*L1565*) SAssign "contracted_intermediate" (EScale (9999999999999 # 20000000000000) (EEins "nmef,efjm,abcdiknl->abcdijkl" [(ESlice (EVar "g_abab") [SV "o"; SV "o"; SV "v"; SV "v"]); (EVar "t2_abab"); (ESlice (EVar "t4_aaabaaab") [SAll; SAll; SAll; SAll; SAll; SAll; SAll; SAll])]));
   (*L1566*) SAug true "quadruples_res" (EAdd (EScale (1 # 1) (EVar "contracted_intermediate")) (EScale (-1 # 1) (EEins "abcdijkl->abcdjikl" [(EVar "contracted_intermediate")])));
   (*L1569*) SAssign "contracted_intermediate" (EScale (9999999999999 # 20000000000000) (EEins "nmfe,fejm,abcdiknl->abcdijkl" [(ESlice (EVar "g_abab") [SV "o"; SV "o"; SV "v"; SV "v"]); (EVar "t2_abab"); (ESlice (EVar "t4_aaabaaab") [SAll; SAll; SAll; SAll; SAll; SAll; SAll; SAll])]));
   (*L1570*) SAug true "quadruples_res" (EAdd (EScale (1 # 1) (EVar "contracted_intermediate")) (EScale (-1 # 1) (EEins "abcdijkl->abcdjikl" [(EVar "contracted_intermediate")])));
   (*L1573*) SAssign "contracted_intermediate" (EScale (25000000000001 # 100000000000000) (EEins "nmef,efkl,abcdijnm->abcdijkl" [(ESlice (EVar "g_abab") [SV "o"; SV "o"; SV "v"; SV "v"]); (EVar "t2_abab"); (ESlice (EVar "t4_aaabaaab") [SAll; SAll; SAll; SAll; SAll; SAll; SAll; SAll])]));
   (*L1574*) SAug true "quadruples_res" (EAdd (EScale (1 # 1) (EVar "contracted_intermediate")) (EScale (-1 # 1) (EEins "abcdijkl->abcdikjl" [(EVar "contracted_intermediate")])));
   (*L1577*) SAssign "contracted_intermediate" (EScale (25000000000001 # 100000000000000) (EEins "mnef,efkl,abcdijmn->abcdijkl" [(ESlice (EVar "g_abab") [SV "o"; SV "o"; SV "v"; SV "v"]); (EVar "t2_abab"); (ESlice (EVar "t4_aaabaaab") [SAll; SAll; SAll; SAll; SAll; SAll; SAll; SAll])]));
   (*L1578*) SAug true "quadruples_res" (EAdd (EScale (1 # 1) (EVar "contracted_intermediate")) (EScale (-1 # 1) (EEins "abcdijkl->abcdikjl" [(EVar "contracted_intermediate")])));
   (*L1581*) SAssign "contracted_intermediate" (EScale (25000000000001 # 100000000000000) (EEins "nmfe,fekl,abcdijnm->abcdijkl" [(ESlice (EVar "g_abab") [SV "o"; SV "o"; SV "v"; SV "v"]); (EVar "t2_abab"); (ESlice (EVar "t4_aaabaaab") [SAll; SAll; SAll; SAll; SAll; SAll; SAll; SAll])]));
   (*L1582*) SAug true "quadruples_res" (EAdd (EScale (1 # 1) (EVar "contracted_intermediate")) (EScale (-1 # 1) (EEins "abcdijkl->abcdikjl" [(EVar "contracted_intermediate")])));
   (*L1585*) SAssign "contracted_intermediate" (EScale (25000000000001 # 100000000000000) (EEins "mnfe,fekl,abcdijmn->abcdijkl" [(ESlice (EVar "g_abab") [SV "o"; SV "o"; SV "v"; SV "v"]); (EVar "t2_abab"); (ESlice (EVar "t4_aaabaaab") [SAll; SAll; SAll; SAll; SAll; SAll; SAll; SAll])]));
   (*L1586*) SAug true "quadruples_res" (EAdd (EScale (1 # 1) (EVar "contracted_intermediate")) (EScale (-1 # 1) (EEins "abcdijkl->abcdikjl" [(EVar "contracted_intermediate")])));
   (*L1589*) SAug true "quadruples_res" (EScale (25000000000001 # 100000000000000) (EEins "nmef,efil,abcdjknm->abcdijkl" [(ESlice (EVar "g_abab") [SV "o"; SV "o"; SV "v"; SV "v"]); (EVar "t2_abab"); (ESlice (EVar "t4_aaabaaab") [SAll; SAll; SAll; SAll; SAll; SAll; SAll; SAll])]));
   (*L1592*) SAug true "quadruples_res" (EScale (25000000000001 # 100000000000000) (EEins "mnef,efil,abcdjkmn->abcdijkl" [(ESlice (EVar "g_abab") [SV "o"; SV "o"; SV "v"; SV "v"]); (EVar "t2_abab"); (ESlice (EVar "t4_aaabaaab") [SAll; SAll; SAll; SAll; SAll; SAll; SAll; SAll])]));
   (*L1595*) SAug true "quadruples_res" (EScale (25000000000001 # 100000000000000) (EEins "nmfe,feil,abcdjknm->abcdijkl" [(ESlice (EVar "g_abab") [SV "o"; SV "o"; SV "v"; SV "v"]); (EVar "t2_abab"); (ESlice (EVar "t4_aaabaaab") [SAll; SAll; SAll; SAll; SAll; SAll; SAll; SAll])]));
   (*L1598*) SAug true "quadruples_res" (EScale (25000000000001 # 100000000000000) (EEins "mnfe,feil,abcdjkmn->abcdijkl" [(ESlice (EVar "g_abab") [SV "o"; SV "o"; SV "v"; SV "v"]); (EVar "t2_abab"); (ESlice (EVar "t4_aaabaaab") [SAll; SAll; SAll; SAll; SAll; SAll; SAll; SAll])]));
   (*L1601*) SAug true "quadruples_res" (EScale (25000000000001 # 100000000000000) (EEins "nmef,efik,abcdjmnl->abcdijkl" [(ESlice (EVar "g_aaaa") [SV "o"; SV "o"; SV "v"; SV "v"]); (EVar "t2_aaaa"); (ESlice (EVar "t4_aaabaaab") [SAll; SAll; SAll; SAll; SAll; SAll; SAll; SAll])]));
   (*L1604*) SAssign "contracted_intermediate" (EScale (-25000000000001 # 100000000000000) (EEins "nmef,efjk,abcdimnl->abcdijkl" [(ESlice (EVar "g_aaaa") [SV "o"; SV "o"; SV "v"; SV "v"]); (EVar "t2_aaaa"); (ESlice (EVar "t4_aaabaaab") [SAll; SAll; SAll; SAll; SAll; SAll; SAll; SAll])]));
   (*L1605*) SAug true "quadruples_res" (EAdd (EScale (1 # 1) (EVar "contracted_intermediate")) (EScale (-1 # 1) (EEins "abcdijkl->abcdkjil" [(EVar "contracted_intermediate")])));
   (*L1608*) SAssign "contracted_intermediate" (EScale (-9999999999999 # 20000000000000) (EEins "nmef,eanm,fbcdijkl->abcdijkl" [(ESlice (EVar "g_aaaa") [SV "o"; SV "o"; SV "v"; SV "v"]); (EVar "t2_aaaa"); (ESlice (EVar "t4_aaabaaab") [SAll; SAll; SAll; SAll; SAll; SAll; SAll; SAll])]));
   (*L1609*) SAug true "quadruples_res" (EAdd (EScale (1 # 1) (EVar "contracted_intermediate")) (EScale (-1 # 1) (EEins "abcdijkl->bacdijkl" [(EVar "contracted_intermediate")])));
   (*L1612*) SAssign "contracted_intermediate" (EScale (-9999999999999 # 20000000000000) (EEins "nmfe,aenm,fbcdijkl->abcdijkl" [(ESlice (EVar "g_abab") [SV "o"; SV "o"; SV "v"; SV "v"]); (EVar "t2_abab"); (ESlice (EVar "t4_aaabaaab") [SAll; SAll; SAll; SAll; SAll; SAll; SAll; SAll])]));
   (*L1613*) SAug true "quadruples_res" (EAdd (EScale (1 # 1) (EVar "contracted_intermediate")) (EScale (-1 # 1) (EEins "abcdijkl->bacdijkl" [(EVar "contracted_intermediate")])));
   (*L1616*) SAssign "contracted_intermediate" (EScale (-9999999999999 # 20000000000000) (EEins "mnfe,aemn,fbcdijkl->abcdijkl" [(ESlice (EVar "g_abab") [SV "o"; SV "o"; SV "v"; SV "v"]); (EVar "t2_abab"); (ESlice (EVar "t4_aaabaaab") [SAll; SAll; SAll; SAll; SAll; SAll; SAll; SAll])]));
   (*L1617*) SAug true "quadruples_res" (EAdd (EScale (1 # 1) (EVar "contracted_intermediate")) (EScale (-1 # 1) (EEins "abcdijkl->bacdijkl" [(EVar "contracted_intermediate")])));
   (*L1620*) SAssign "contracted_intermediate" (EScale (6249999999999 # 6250000000000) (EEins "mnfe,aeml,fbcdijkn->abcdijkl" [(ESlice (EVar "g_abab") [SV "o"; SV "o"; SV "v"; SV "v"]); (EVar "t2_abab"); (ESlice (EVar "t4_aaabaaab") [SAll; SAll; SAll; SAll; SAll; SAll; SAll; SAll])]));
   (*L1621*) SAug true "quadruples_res" (EAdd (EScale (1 # 1) (EVar "contracted_intermediate")) (EScale (-1 # 1) (EEins "abcdijkl->bacdijkl" [(EVar "contracted_intermediate")])));
   (*L1624*) SAssign "contracted_intermediate" (EScale (6249999999999 # 6250000000000) (EEins "nmef,eakm,fbcdijnl->abcdijkl" [(ESlice (EVar "g_aaaa") [SV "o"; SV "o"; SV "v"; SV "v"]); (EVar "t2_aaaa"); (ESlice (EVar "t4_aaabaaab") [SAll; SAll; SAll; SAll; SAll; SAll; SAll; SAll])]));
   (*L1625*) SAug true "quadruples_res" (EAdd (EScale (1 # 1) (EVar "contracted_intermediate")) (EScale (-1 # 1) (EEins "abcdijkl->bacdijkl" [(EVar "contracted_intermediate")])));
   (*L1628*) SAssign "contracted_intermediate" (EScale (-6249999999999 # 6250000000000) (EEins "mnef,eakm,cbfdijln->abcdijkl" [(ESlice (EVar "g_abab") [SV "o"; SV "o"; SV "v"; SV "v"]); (EVar "t2_aaaa"); (ESlice (EVar "t4_aabbaabb") [SAll; SAll; SAll; SAll; SAll; SAll; SAll; SAll])]));
   (*L1629*) SAug true "quadruples_res" (EAdd (EScale (1 # 1) (EVar "contracted_intermediate")) (EScale (-1 # 1) (EEins "abcdijkl->bacdijkl" [(EVar "contracted_intermediate")])));
   (*L1632*) SAssign "contracted_intermediate" (EScale (6249999999999 # 6250000000000) (EEins "nmfe,aekm,fbcdijnl->abcdijkl" [(ESlice (EVar "g_abab") [SV "o"; SV "o"; SV "v"; SV "v"]); (EVar "t2_abab"); (ESlice (EVar "t4_aaabaaab") [SAll; SAll; SAll; SAll; SAll; SAll; SAll; SAll])]));
   (*L1633*) SAug true "quadruples_res" (EAdd (EScale (1 # 1) (EVar "contracted_intermediate")) (EScale (-1 # 1) (EEins "abcdijkl->bacdijkl" [(EVar "contracted_intermediate")])));
   (*L1636*) SAssign "contracted_intermediate" (EScale (-6249999999999 # 6250000000000) (EEins "nmef,aekm,cbfdijln->abcdijkl" [(ESlice (EVar "g_bbbb") [SV "o"; SV "o"; SV "v"; SV "v"]); (EVar "t2_abab"); (ESlice (EVar "t4_aabbaabb") [SAll; SAll; SAll; SAll; SAll; SAll; SAll; SAll])]));
   (*L1637*) SAug true "quadruples_res" (EAdd (EScale (1 # 1) (EVar "contracted_intermediate")) (EScale (-1 # 1) (EEins "abcdijkl->bacdijkl" [(EVar "contracted_intermediate")])));
   (*L1640*) SAssign "contracted_intermediate" (EScale (-6249999999999 # 6250000000000) (EEins "nmef,eajm,fbcdiknl->abcdijkl" [(ESlice (EVar "g_aaaa") [SV "o"; SV "o"; SV "v"; SV "v"]); (EVar "t2_aaaa"); (ESlice (EVar "t4_aaabaaab") [SAll; SAll; SAll; SAll; SAll; SAll; SAll; SAll])]));
   (*L1641*) SAug true "quadruples_res" (EAdd (EAdd (EAdd (EScale (1 # 1) (EVar "contracted_intermediate")) (EScale (-1 # 1) (EEins "abcdijkl->abcdjikl" [(EVar "contracted_intermediate")]))) (EScale (-1 # 1) (EEins "abcdijkl->bacdijkl" [(EVar "contracted_intermediate")]))) (EScale (1 # 1) (EEins "abcdijkl->bacdjikl" [(EVar "contracted_intermediate")])));
   (*L1644*) SAssign "contracted_intermediate" (EScale (6249999999999 # 6250000000000) (EEins "mnef,eajm,cbfdikln->abcdijkl" [(ESlice (EVar "g_abab") [SV "o"; SV "o"; SV "v"; SV "v"]); (EVar "t2_aaaa"); (ESlice (EVar "t4_aabbaabb") [SAll; SAll; SAll; SAll; SAll; SAll; SAll; SAll])]));
   (*L1645*) SAug true "quadruples_res" (EAdd (EAdd (EAdd (EScale (1 # 1) (EVar "contracted_intermediate")) (EScale (-1 # 1) (EEins "abcdijkl->abcdjikl" [(EVar "contracted_intermediate")]))) (EScale (-1 # 1) (EEins "abcdijkl->bacdijkl" [(EVar "contracted_intermediate")]))) (EScale (1 # 1) (EEins "abcdijkl->bacdjikl" [(EVar "contracted_intermediate")])));
   (*L1648*) SAssign "contracted_intermediate" (EScale (-6249999999999 # 6250000000000) (EEins "nmfe,aejm,fbcdiknl->abcdijkl" [(ESlice (EVar "g_abab") [SV "o"; SV "o"; SV "v"; SV "v"]); (EVar "t2_abab"); (ESlice (EVar "t4_aaabaaab") [SAll; SAll; SAll; SAll; SAll; SAll; SAll; SAll])]));
   (*L1649*) SAug true "quadruples_res" (EAdd (EAdd (EAdd (EScale (1 # 1) (EVar "contracted_intermediate")) (EScale (-1 # 1) (EEins "abcdijkl->abcdjikl" [(EVar "contracted_intermediate")]))) (EScale (-1 # 1) (EEins "abcdijkl->bacdijkl" [(EVar "contracted_intermediate")]))) (EScale (1 # 1) (EEins "abcdijkl->bacdjikl" [(EVar "contracted_intermediate")])));
   (*L1652*) SAssign "contracted_intermediate" (EScale (6249999999999 # 6250000000000) (EEins "nmef,aejm,cbfdikln->abcdijkl" [(ESlice (EVar "g_bbbb") [SV "o"; SV "o"; SV "v"; SV "v"]); (EVar "t2_abab"); (ESlice (EVar "t4_aabbaabb") [SAll; SAll; SAll; SAll; SAll; SAll; SAll; SAll])]));
   (*L1653*) SAug true "quadruples_res" (EAdd (EAdd (EAdd (EScale (1 # 1) (EVar "contracted_intermediate")) (EScale (-1 # 1) (EEins "abcdijkl->abcdjikl" [(EVar "contracted_intermediate")]))) (EScale (-1 # 1) (EEins "abcdijkl->bacdijkl" [(EVar "contracted_intermediate")]))) (EScale (1 # 1) (EEins "abcdijkl->bacdjikl" [(EVar "contracted_intermediate")])));
   (*L1656*) SAssign "contracted_intermediate" (EScale (-9999999999999 # 20000000000000) (EEins "nmfe,aekl,fbcdijnm->abcdijkl" [(ESlice (EVar "g_abab") [SV "o"; SV "o"; SV "v"; SV "v"]); (EVar "t2_abab"); (ESlice (EVar "t4_aaabaaab") [SAll; SAll; SAll; SAll; SAll; SAll; SAll; SAll])]));
   (*L1657*) SAug true "quadruples_res" (EAdd (EAdd (EAdd (EScale (1 # 1) (EVar "contracted_intermediate")) (EScale (-1 # 1) (EEins "abcdijkl->abcdikjl" [(EVar "contracted_intermediate")]))) (EScale (-1 # 1) (EEins "abcdijkl->bacdijkl" [(EVar "contracted_intermediate")]))) (EScale (1 # 1) (EEins "abcdijkl->bacdikjl" [(EVar "contracted_intermediate")])));
   (*L1660*) SAssign "contracted_intermediate" (EScale (-9999999999999 # 20000000000000) (EEins "mnfe,aekl,fbcdijmn->abcdijkl" [(ESlice (EVar "g_abab") [SV "o"; SV "o"; SV "v"; SV "v"]); (EVar "t2_abab"); (ESlice (EVar "t4_aaabaaab") [SAll; SAll; SAll; SAll; SAll; SAll; SAll; SAll])]));
   (*L1661*) SAug true "quadruples_res" (EAdd (EAdd (EAdd (EScale (1 # 1) (EVar "contracted_intermediate")) (EScale (-1 # 1) (EEins "abcdijkl->abcdikjl" [(EVar "contracted_intermediate")]))) (EScale (-1 # 1) (EEins "abcdijkl->bacdijkl" [(EVar "contracted_intermediate")]))) (EScale (1 # 1) (EEins "abcdijkl->bacdikjl" [(EVar "contracted_intermediate")])));
   (*L1664*) SAssign "contracted_intermediate" (EScale (-9999999999999 # 20000000000000) (EEins "nmef,aekl,cbfdijnm->abcdijkl" [(ESlice (EVar "g_bbbb") [SV "o"; SV "o"; SV "v"; SV "v"]); (EVar "t2_abab"); (ESlice (EVar "t4_aabbaabb") [SAll; SAll; SAll; SAll; SAll; SAll; SAll; SAll])]));
   (*L1665*) SAug true "quadruples_res" (EAdd (EAdd (EAdd (EScale (1 # 1) (EVar "contracted_intermediate")) (EScale (-1 # 1) (EEins "abcdijkl->abcdikjl" [(EVar "contracted_intermediate")]))) (EScale (-1 # 1) (EEins "abcdijkl->bacdijkl" [(EVar "contracted_intermediate")]))) (EScale (1 # 1) (EEins "abcdijkl->bacdikjl" [(EVar "contracted_intermediate")])));
   (*L1668*) SAssign "contracted_intermediate" (EScale (-9999999999999 # 20000000000000) (EEins "nmfe,aeil,fbcdjknm->abcdijkl" [(ESlice (EVar "g_abab") [SV "o"; SV "o"; SV "v"; SV "v"]); (EVar "t2_abab"); (ESlice (EVar "t4_aaabaaab") [SAll; SAll; SAll; SAll; SAll; SAll; SAll; SAll])]));
   (*L1669*) SAug true "quadruples_res" (EAdd (EScale (1 # 1) (EVar "contracted_intermediate")) (EScale (-1 # 1) (EEins "abcdijkl->bacdijkl" [(EVar "contracted_intermediate")])));
   (*L1672*) SAssign "contracted_intermediate" (EScale (-9999999999999 # 20000000000000) (EEins "mnfe,aeil,fbcdjkmn->abcdijkl" [(ESlice (EVar "g_abab") [SV "o"; SV "o"; SV "v"; SV "v"]); (EVar "t2_abab"); (ESlice (EVar "t4_aaabaaab") [SAll; SAll; SAll; SAll; SAll; SAll; SAll; SAll])]));
   (*L1673*) SAug true "quadruples_res" (EAdd (EScale (1 # 1) (EVar "contracted_intermediate")) (EScale (-1 # 1) (EEins "abcdijkl->bacdijkl" [(EVar "contracted_intermediate")])));
   (*L1676*) SAssign "contracted_intermediate" (EScale (-9999999999999 # 20000000000000) (EEins "nmef,aeil,cbfdjknm->abcdijkl" [(ESlice (EVar "g_bbbb") [SV "o"; SV "o"; SV "v"; SV "v"]); (EVar "t2_abab"); (ESlice (EVar "t4_aabbaabb") [SAll; SAll; SAll; SAll; SAll; SAll; SAll; SAll])]));
   (*L1677*) SAug true "quadruples_res" (EAdd (EScale (1 # 1) (EVar "contracted_intermediate")) (EScale (-1 # 1) (EEins "abcdijkl->bacdijkl" [(EVar "contracted_intermediate")])));
   (*L1680*) SAssign "contracted_intermediate" (EScale (-9999999999999 # 20000000000000) (EEins "nmef,eaik,fbcdjmnl->abcdijkl" [(ESlice (EVar "g_aaaa") [SV "o"; SV "o"; SV "v"; SV "v"]); (EVar "t2_aaaa"); (ESlice (EVar "t4_aaabaaab") [SAll; SAll; SAll; SAll; SAll; SAll; SAll; SAll])]));
   (*L1681*) SAug true "quadruples_res" (EAdd (EScale (1 # 1) (EVar "contracted_intermediate")) (EScale (-1 # 1) (EEins "abcdijkl->bacdijkl" [(EVar "contracted_intermediate")])));
   (*L1684*) SAssign "contracted_intermediate" (EScale (9999999999999 # 20000000000000) (EEins "nmef,eaik,cbfdjnlm->abcdijkl" [(ESlice (EVar "g_abab") [SV "o"; SV "o"; SV "v"; SV "v"]); (EVar "t2_aaaa"); (ESlice (EVar "t4_aabbaabb") [SAll; SAll; SAll; SAll; SAll; SAll; SAll; SAll])]));
   (*L1685*) SAug true "quadruples_res" (EAdd (EScale (1 # 1) (EVar "contracted_intermediate")) (EScale (-1 # 1) (EEins "abcdijkl->bacdijkl" [(EVar "contracted_intermediate")])));
   (*L1688*) SAssign "contracted_intermediate" (EScale (-9999999999999 # 20000000000000) (EEins "mnef,eaik,cbfdjmnl->abcdijkl" [(ESlice (EVar "g_abab") [SV "o"; SV "o"; SV "v"; SV "v"]); (EVar "t2_aaaa"); (ESlice (EVar "t4_aabbaabb") [SAll; SAll; SAll; SAll; SAll; SAll; SAll; SAll])]));
   (*L1689*) SAug true "quadruples_res" (EAdd (EScale (1 # 1) (EVar "contracted_intermediate")) (EScale (-1 # 1) (EEins "abcdijkl->bacdijkl" [(EVar "contracted_intermediate")])));
   (*L1692*) SAssign "contracted_intermediate" (EScale (9999999999999 # 20000000000000) (EEins "nmef,eajk,fbcdimnl->abcdijkl" [(ESlice (EVar "g_aaaa") [SV "o"; SV "o"; SV "v"; SV "v"]); (EVar "t2_aaaa"); (ESlice (EVar "t4_aaabaaab") [SAll; SAll; SAll; SAll; SAll; SAll; SAll; SAll])]));
   (*L1693*) SAug true "quadruples_res" (EAdd (EAdd (EAdd (EScale (1 # 1) (EVar "contracted_intermediate")) (EScale (-1 # 1) (EEins "abcdijkl->abcdkjil" [(EVar "contracted_intermediate")]))) (EScale (-1 # 1) (EEins "abcdijkl->bacdijkl" [(EVar "contracted_intermediate")]))) (EScale (1 # 1) (EEins "abcdijkl->bacdkjil" [(EVar "contracted_intermediate")])));
   (*L1696*) SAssign "contracted_intermediate" (EScale (-9999999999999 # 20000000000000) (EEins "nmef,eajk,cbfdinlm->abcdijkl" [(ESlice (EVar "g_abab") [SV "o"; SV "o"; SV "v"; SV "v"]); (EVar "t2_aaaa"); (ESlice (EVar "t4_aabbaabb") [SAll; SAll; SAll; SAll; SAll; SAll; SAll; SAll])]));
   (*L1697*) SAug true "quadruples_res" (EAdd (EAdd (EAdd (EScale (1 # 1) (EVar "contracted_intermediate")) (EScale (-1 # 1) (EEins "abcdijkl->abcdkjil" [(EVar "contracted_intermediate")]))) (EScale (-1 # 1) (EEins "abcdijkl->bacdijkl" [(EVar "contracted_intermediate")]))) (EScale (1 # 1) (EEins "abcdijkl->bacdkjil" [(EVar "contracted_intermediate")])));
   (*L1700*) SAssign "contracted_intermediate" (EScale (9999999999999 # 20000000000000) (EEins "mnef,eajk,cbfdimnl->abcdijkl" [(ESlice (EVar "g_abab") [SV "o"; SV "o"; SV "v"; SV "v"]); (EVar "t2_aaaa"); (ESlice (EVar "t4_aabbaabb") [SAll; SAll; SAll; SAll; SAll; SAll; SAll; SAll])]));
   (*L1701*) SAug true "quadruples_res" (EAdd (EAdd (EAdd (EScale (1 # 1) (EVar "contracted_intermediate")) (EScale (-1 # 1) (EEins "abcdijkl->abcdkjil" [(EVar "contracted_intermediate")]))) (EScale (-1 # 1) (EEins "abcdijkl->bacdijkl" [(EVar "contracted_intermediate")]))) (EScale (1 # 1) (EEins "abcdijkl->bacdkjil" [(EVar "contracted_intermediate")])));
   (*L1704*) SAug true "quadruples_res" (EScale (-9999999999999 # 20000000000000) (EEins "nmef,ecnm,fabdijkl->abcdijkl" [(ESlice (EVar "g_aaaa") [SV "o"; SV "o"; SV "v"; SV "v"]); (EVar "t2_aaaa"); (ESlice (EVar "t4_aaabaaab") [SAll; SAll; SAll; SAll; SAll; SAll; SAll; SAll])]));
   (*L1707*) SAug true "quadruples_res" (EScale (-9999999999999 # 20000000000000) (EEins "nmfe,cenm,fabdijkl->abcdijkl" [(ESlice (EVar "g_abab") [SV "o"; SV "o"; SV "v"; SV "v"]); (EVar "t2_abab"); (ESlice (EVar "t4_aaabaaab") [SAll; SAll; SAll; SAll; SAll; SAll; SAll; SAll])]));
   (*L1710*) SAug true "quadruples_res" (EScale (-9999999999999 # 20000000000000) (EEins "mnfe,cemn,fabdijkl->abcdijkl" [(ESlice (EVar "g_abab") [SV "o"; SV "o"; SV "v"; SV "v"]); (EVar "t2_abab"); (ESlice (EVar "t4_aaabaaab") [SAll; SAll; SAll; SAll; SAll; SAll; SAll; SAll])]));
   (*L1713*) SAug true "quadruples_res" (EScale (-9999999999999 # 20000000000000) (EEins "nmef,ednm,cabfijkl->abcdijkl" [(ESlice (EVar "g_abab") [SV "o"; SV "o"; SV "v"; SV "v"]); (EVar "t2_abab"); (ESlice (EVar "t4_aaabaaab") [SAll; SAll; SAll; SAll; SAll; SAll; SAll; SAll])]));
   (*L1716*) SAug true "quadruples_res" (EScale (-9999999999999 # 20000000000000) (EEins "mnef,edmn,cabfijkl->abcdijkl" [(ESlice (EVar "g_abab") [SV "o"; SV "o"; SV "v"; SV "v"]); (EVar "t2_abab"); (ESlice (EVar "t4_aaabaaab") [SAll; SAll; SAll; SAll; SAll; SAll; SAll; SAll])]));
   (*L1719*) SAug true "quadruples_res" (EScale (-9999999999999 # 20000000000000) (EEins "nmef,ednm,cabfijkl->abcdijkl" [(ESlice (EVar "g_bbbb") [SV "o"; SV "o"; SV "v"; SV "v"]); (EVar "t2_bbbb"); (ESlice (EVar "t4_aaabaaab") [SAll; SAll; SAll; SAll; SAll; SAll; SAll; SAll])]));
   (*L1722*) SAug true "quadruples_res" (EScale (6249999999999 # 6250000000000) (EEins "mnfe,ceml,fabdijkn->abcdijkl" [(ESlice (EVar "g_abab") [SV "o"; SV "o"; SV "v"; SV "v"]); (EVar "t2_abab"); (ESlice (EVar "t4_aaabaaab") [SAll; SAll; SAll; SAll; SAll; SAll; SAll; SAll])]));
   (*L1725*) SAug true "quadruples_res" (EScale (6249999999999 # 6250000000000) (EEins "nmef,edml,fabcijkn->abcdijkl" [(ESlice (EVar "g_aaaa") [SV "o"; SV "o"; SV "v"; SV "v"]); (EVar "t2_abab"); (ESlice (EVar "t4_aaaaaaaa") [SAll; SAll; SAll; SAll; SAll; SAll; SAll; SAll])]));
   (*L1728*) SAug true "quadruples_res" (EScale (6249999999999 # 6250000000000) (EEins "mnef,edml,cabfijkn->abcdijkl" [(ESlice (EVar "g_abab") [SV "o"; SV "o"; SV "v"; SV "v"]); (EVar "t2_abab"); (ESlice (EVar "t4_aaabaaab") [SAll; SAll; SAll; SAll; SAll; SAll; SAll; SAll])]));
   (*L1731*) SAug true "quadruples_res" (EScale (6249999999999 # 6250000000000) (EEins "nmfe,edlm,fabcijkn->abcdijkl" [(ESlice (EVar "g_abab") [SV "o"; SV "o"; SV "v"; SV "v"]); (EVar "t2_bbbb"); (ESlice (EVar "t4_aaaaaaaa") [SAll; SAll; SAll; SAll; SAll; SAll; SAll; SAll])]));
   (*L1734*) SAug true "quadruples_res" (EScale (6249999999999 # 6250000000000) (EEins "nmef,edlm,cabfijkn->abcdijkl" [(ESlice (EVar "g_bbbb") [SV "o"; SV "o"; SV "v"; SV "v"]); (EVar "t2_bbbb"); (ESlice (EVar "t4_aaabaaab") [SAll; SAll; SAll; SAll; SAll; SAll; SAll; SAll])]));
   (*L1737*) SAug true "quadruples_res" (EScale (6249999999999 # 6250000000000) (EEins "nmef,eckm,fabdijnl->abcdijkl" [(ESlice (EVar "g_aaaa") [SV "o"; SV "o"; SV "v"; SV "v"]); (EVar "t2_aaaa"); (ESlice (EVar "t4_aaabaaab") [SAll; SAll; SAll; SAll; SAll; SAll; SAll; SAll])]));
   (*L1740*) SAug true "quadruples_res" (EScale (-6249999999999 # 6250000000000) (EEins "mnef,eckm,bafdijln->abcdijkl" [(ESlice (EVar "g_abab") [SV "o"; SV "o"; SV "v"; SV "v"]); (EVar "t2_aaaa"); (ESlice (EVar "t4_aabbaabb") [SAll; SAll; SAll; SAll; SAll; SAll; SAll; SAll])]));
   (*L1743*) SAug true "quadruples_res" (EScale (6249999999999 # 6250000000000) (EEins "nmfe,cekm,fabdijnl->abcdijkl" [(ESlice (EVar "g_abab") [SV "o"; SV "o"; SV "v"; SV "v"]); (EVar "t2_abab"); (ESlice (EVar "t4_aaabaaab") [SAll; SAll; SAll; SAll; SAll; SAll; SAll; SAll])]));
   (*L1746*) SAug true "quadruples_res" (EScale (-6249999999999 # 6250000000000) (EEins "nmef,cekm,bafdijln->abcdijkl" [(ESlice (EVar "g_bbbb") [SV "o"; SV "o"; SV "v"; SV "v"]); (EVar "t2_abab"); (ESlice (EVar "t4_aabbaabb") [SAll; SAll; SAll; SAll; SAll; SAll; SAll; SAll])]));
   (*L1749*) SAug true "quadruples_res" (EScale (6249999999999 # 6250000000000) (EEins "nmef,edkm,cabfijnl->abcdijkl" [(ESlice (EVar "g_abab") [SV "o"; SV "o"; SV "v"; SV "v"]); (EVar "t2_abab"); (ESlice (EVar "t4_aaabaaab") [SAll; SAll; SAll; SAll; SAll; SAll; SAll; SAll])]));
   (*L1752*) SAssign "contracted_intermediate" (EScale (-6249999999999 # 6250000000000) (EEins "nmef,ecjm,fabdiknl->abcdijkl" [(ESlice (EVar "g_aaaa") [SV "o"; SV "o"; SV "v"; SV "v"]); (EVar "t2_aaaa"); (ESlice (EVar "t4_aaabaaab") [SAll; SAll; SAll; SAll; SAll; SAll; SAll; SAll])]));
   (*L1753*) SAug true "quadruples_res" (EAdd (EScale (1 # 1) (EVar "contracted_intermediate")) (EScale (-1 # 1) (EEins "abcdijkl->abcdjikl" [(EVar "contracted_intermediate")])));
   (*L1756*) SAssign "contracted_intermediate" (EScale (6249999999999 # 6250000000000) (EEins "mnef,ecjm,bafdikln->abcdijkl" [(ESlice (EVar "g_abab") [SV "o"; SV "o"; SV "v"; SV "v"]); (EVar "t2_aaaa"); (ESlice (EVar "t4_aabbaabb") [SAll; SAll; SAll; SAll; SAll; SAll; SAll; SAll])]));
   (*L1757*) SAug true "quadruples_res" (EAdd (EScale (1 # 1) (EVar "contracted_intermediate")) (EScale (-1 # 1) (EEins "abcdijkl->abcdjikl" [(EVar "contracted_intermediate")])));
   (*L1760*) SAssign "contracted_intermediate" (EScale (-6249999999999 # 6250000000000) (EEins "nmfe,cejm,fabdiknl->abcdijkl" [(ESlice (EVar "g_abab") [SV "o"; SV "o"; SV "v"; SV "v"]); (EVar "t2_abab"); (ESlice (EVar "t4_aaabaaab") [SAll; SAll; SAll; SAll; SAll; SAll; SAll; SAll])]));
   (*L1761*) SAug true "quadruples_res" (EAdd (EScale (1 # 1) (EVar "contracted_intermediate")) (EScale (-1 # 1) (EEins "abcdijkl->abcdjikl" [(EVar "contracted_intermediate")])));
   (*L1764*) SAssign "contracted_intermediate" (EScale (6249999999999 # 6250000000000) (EEins "nmef,cejm,bafdikln->abcdijkl" [(ESlice (EVar "g_bbbb") [SV "o"; SV "o"; SV "v"; SV "v"]); (EVar "t2_abab"); (ESlice (EVar "t4_aabbaabb") [SAll; SAll; SAll; SAll; SAll; SAll; SAll; SAll])]));
   (*L1765*) SAug true "quadruples_res" (EAdd (EScale (1 # 1) (EVar "contracted_intermediate")) (EScale (-1 # 1) (EEins "abcdijkl->abcdjikl" [(EVar "contracted_intermediate")])));
   (*L1768*) SAssign "contracted_intermediate" (EScale (-6249999999999 # 6250000000000) (EEins "nmef,edjm,cabfiknl->abcdijkl" [(ESlice (EVar "g_abab") [SV "o"; SV "o"; SV "v"; SV "v"]); (EVar "t2_abab"); (ESlice (EVar "t4_aaabaaab") [SAll; SAll; SAll; SAll; SAll; SAll; SAll; SAll])]));
   (*L1769*) SAug true "quadruples_res" (EAdd (EScale (1 # 1) (EVar "contracted_intermediate")) (EScale (-1 # 1) (EEins "abcdijkl->abcdjikl" [(EVar "contracted_intermediate")])));
   (*L1772*) SAssign "contracted_intermediate" (EScale (-9999999999999 # 20000000000000) (EEins "nmfe,cekl,fabdijnm->abcdijkl" [(ESlice (EVar "g_abab") [SV "o"; SV "o"; SV "v"; SV "v"]); (EVar "t2_abab"); (ESlice (EVar "t4_aaabaaab") [SAll; SAll; SAll; SAll; SAll; SAll; SAll; SAll])]));
   (*L1773*) SAug true "quadruples_res" (EAdd (EScale (1 # 1) (EVar "contracted_intermediate")) (EScale (-1 # 1) (EEins "abcdijkl->abcdikjl" [(EVar "contracted_intermediate")])));
   (*L1776*) SAssign "contracted_intermediate" (EScale (-9999999999999 # 20000000000000) (EEins "mnfe,cekl,fabdijmn->abcdijkl" [(ESlice (EVar "g_abab") [SV "o"; SV "o"; SV "v"; SV "v"]); (EVar "t2_abab"); (ESlice (EVar "t4_aaabaaab") [SAll; SAll; SAll; SAll; SAll; SAll; SAll; SAll])]));
   (*L1777*) SAug true "quadruples_res" (EAdd (EScale (1 # 1) (EVar "contracted_intermediate")) (EScale (-1 # 1) (EEins "abcdijkl->abcdikjl" [(EVar "contracted_intermediate")])));
   (*L1780*) SAssign "contracted_intermediate" (EScale (-9999999999999 # 20000000000000) (EEins "nmef,cekl,bafdijnm->abcdijkl" [(ESlice (EVar "g_bbbb") [SV "o"; SV "o"; SV "v"; SV "v"]); (EVar "t2_abab"); (ESlice (EVar "t4_aabbaabb") [SAll; SAll; SAll; SAll; SAll; SAll; SAll; SAll])]));
   (*L1781*) SAug true "quadruples_res" (EAdd (EScale (1 # 1) (EVar "contracted_intermediate")) (EScale (-1 # 1) (EEins "abcdijkl->abcdikjl" [(EVar "contracted_intermediate")])));
   (*L1784*) SAssign "contracted_intermediate" (EScale (9999999999999 # 20000000000000) (EEins "nmef,edkl,fabcijnm->abcdijkl" [(ESlice (EVar "g_aaaa") [SV "o"; SV "o"; SV "v"; SV "v"]); (EVar "t2_abab"); (ESlice (EVar "t4_aaaaaaaa") [SAll; SAll; SAll; SAll; SAll; SAll; SAll; SAll])]));
   (*L1785*) SAug true "quadruples_res" (EAdd (EScale (1 # 1) (EVar "contracted_intermediate")) (EScale (-1 # 1) (EEins "abcdijkl->abcdikjl" [(EVar "contracted_intermediate")])));
   (*L1788*) SAssign "contracted_intermediate" (EScale (-9999999999999 # 20000000000000) (EEins "nmef,edkl,cabfijnm->abcdijkl" [(ESlice (EVar "g_abab") [SV "o"; SV "o"; SV "v"; SV "v"]); (EVar "t2_abab"); (ESlice (EVar "t4_aaabaaab") [SAll; SAll; SAll; SAll; SAll; SAll; SAll; SAll])]));
   (*L1789*) SAug true "quadruples_res" (EAdd (EScale (1 # 1) (EVar "contracted_intermediate")) (EScale (-1 # 1) (EEins "abcdijkl->abcdikjl" [(EVar "contracted_intermediate")])));
   (*L1792*) SAssign "contracted_intermediate" (EScale (-9999999999999 # 20000000000000) (EEins "mnef,edkl,cabfijmn->abcdijkl" [(ESlice (EVar "g_abab") [SV "o"; SV "o"; SV "v"; SV "v"]); (EVar "t2_abab"); (ESlice (EVar "t4_aaabaaab") [SAll; SAll; SAll; SAll; SAll; SAll; SAll; SAll])]));
   (*L1793*) SAug true "quadruples_res" (EAdd (EScale (1 # 1) (EVar "contracted_intermediate")) (EScale (-1 # 1) (EEins "abcdijkl->abcdikjl" [(EVar "contracted_intermediate")])));
   (*L1796*) SAug true "quadruples_res" (EScale (-9999999999999 # 20000000000000) (EEins "nmfe,ceil,fabdjknm->abcdijkl" [(ESlice (EVar "g_abab") [SV "o"; SV "o"; SV "v"; SV "v"]); (EVar "t2_abab"); (ESlice (EVar "t4_aaabaaab") [SAll; SAll; SAll; SAll; SAll; SAll; SAll; SAll])]));
   (*L1799*) SAug true "quadruples_res" (EScale (-9999999999999 # 20000000000000) (EEins "mnfe,ceil,fabdjkmn->abcdijkl" [(ESlice (EVar "g_abab") [SV "o"; SV "o"; SV "v"; SV "v"]); (EVar "t2_abab"); (ESlice (EVar "t4_aaabaaab") [SAll; SAll; SAll; SAll; SAll; SAll; SAll; SAll])]));
   (*L1802*) SAug true "quadruples_res" (EScale (-9999999999999 # 20000000000000) (EEins "nmef,ceil,bafdjknm->abcdijkl" [(ESlice (EVar "g_bbbb") [SV "o"; SV "o"; SV "v"; SV "v"]); (EVar "t2_abab"); (ESlice (EVar "t4_aabbaabb") [SAll; SAll; SAll; SAll; SAll; SAll; SAll; SAll])]));
   (*L1805*) SAug true "quadruples_res" (EScale (9999999999999 # 20000000000000) (EEins "nmef,edil,fabcjknm->abcdijkl" [(ESlice (EVar "g_aaaa") [SV "o"; SV "o"; SV "v"; SV "v"]); (EVar "t2_abab"); (ESlice (EVar "t4_aaaaaaaa") [SAll; SAll; SAll; SAll; SAll; SAll; SAll; SAll])]));
   (*L1808*) SAug true "quadruples_res" (EScale (-9999999999999 # 20000000000000) (EEins "nmef,edil,cabfjknm->abcdijkl" [(ESlice (EVar "g_abab") [SV "o"; SV "o"; SV "v"; SV "v"]); (EVar "t2_abab"); (ESlice (EVar "t4_aaabaaab") [SAll; SAll; SAll; SAll; SAll; SAll; SAll; SAll])]));
   (*L1811*) SAug true "quadruples_res" (EScale (-9999999999999 # 20000000000000) (EEins "mnef,edil,cabfjkmn->abcdijkl" [(ESlice (EVar "g_abab") [SV "o"; SV "o"; SV "v"; SV "v"]); (EVar "t2_abab"); (ESlice (EVar "t4_aaabaaab") [SAll; SAll; SAll; SAll; SAll; SAll; SAll; SAll])]));
   (*L1814*) SAug true "quadruples_res" (EScale (-9999999999999 # 20000000000000) (EEins "nmef,ecik,fabdjmnl->abcdijkl" [(ESlice (EVar "g_aaaa") [SV "o"; SV "o"; SV "v"; SV "v"]); (EVar "t2_aaaa"); (ESlice (EVar "t4_aaabaaab") [SAll; SAll; SAll; SAll; SAll; SAll; SAll; SAll])]));
   (*L1817*) SAug true "quadruples_res" (EScale (9999999999999 # 20000000000000) (EEins "nmef,ecik,bafdjnlm->abcdijkl" [(ESlice (EVar "g_abab") [SV "o"; SV "o"; SV "v"; SV "v"]); (EVar "t2_aaaa"); (ESlice (EVar "t4_aabbaabb") [SAll; SAll; SAll; SAll; SAll; SAll; SAll; SAll])]));
   (*L1820*) SAug true "quadruples_res" (EScale (-9999999999999 # 20000000000000) (EEins "mnef,ecik,bafdjmnl->abcdijkl" [(ESlice (EVar "g_abab") [SV "o"; SV "o"; SV "v"; SV "v"]); (EVar "t2_aaaa"); (ESlice (EVar "t4_aabbaabb") [SAll; SAll; SAll; SAll; SAll; SAll; SAll; SAll])]));
   (*L1823*) SAssign "contracted_intermediate" (EScale (9999999999999 # 20000000000000) (EEins "nmef,ecjk,fabdimnl->abcdijkl" [(ESlice (EVar "g_aaaa") [SV "o"; SV "o"; SV "v"; SV "v"]); (EVar "t2_aaaa"); (ESlice (EVar "t4_aaabaaab") [SAll; SAll; SAll; SAll; SAll; SAll; SAll; SAll])]));
   (*L1824*) SAug true "quadruples_res" (EAdd (EScale (1 # 1) (EVar "contracted_intermediate")) (EScale (-1 # 1) (EEins "abcdijkl->abcdkjil" [(EVar "contracted_intermediate")])));
   (*L1827*) SAssign "contracted_intermediate" (EScale (-9999999999999 # 20000000000000) (EEins "nmef,ecjk,bafdinlm->abcdijkl" [(ESlice (EVar "g_abab") [SV "o"; SV "o"; SV "v"; SV "v"]); (EVar "t2_aaaa"); (ESlice (EVar "t4_aabbaabb") [SAll; SAll; SAll; SAll; SAll; SAll; SAll; SAll])]));
   (*L1828*) SAug true "quadruples_res" (EAdd (EScale (1 # 1) (EVar "contracted_intermediate")) (EScale (-1 # 1) (EEins "abcdijkl->abcdkjil" [(EVar "contracted_intermediate")])));
   (*L1831*) SAssign "contracted_intermediate" (EScale (9999999999999 # 20000000000000) (EEins "mnef,ecjk,bafdimnl->abcdijkl" [(ESlice (EVar "g_abab") [SV "o"; SV "o"; SV "v"; SV "v"]); (EVar "t2_aaaa"); (ESlice (EVar "t4_aabbaabb") [SAll; SAll; SAll; SAll; SAll; SAll; SAll; SAll])]));
   (*L1832*) SAug true "quadruples_res" (EAdd (EScale (1 # 1) (EVar "contracted_intermediate")) (EScale (-1 # 1) (EEins "abcdijkl->abcdkjil" [(EVar "contracted_intermediate")])));
   (*L1835*) SAssign "contracted_intermediate" (EScale (25000000000001 # 100000000000000) (EEins "nmef,abnm,efcdijkl->abcdijkl" [(ESlice (EVar "g_aaaa") [SV "o"; SV "o"; SV "v"; SV "v"]); (EVar "t2_aaaa"); (ESlice (EVar "t4_aaabaaab") [SAll; SAll; SAll; SAll; SAll; SAll; SAll; SAll])]));
   (*L1836*) SAug true "quadruples_res" (EAdd (EScale (1 # 1) (EVar "contracted_intermediate")) (EScale (-1 # 1) (EEins "abcdijkl->acbdijkl" [(EVar "contracted_intermediate")])));
   (*L1839*) SAssign "contracted_intermediate" (EScale (-9999999999999 # 20000000000000) (EEins "nmef,abkm,efcdijnl->abcdijkl" [(ESlice (EVar "g_aaaa") [SV "o"; SV "o"; SV "v"; SV "v"]); (EVar "t2_aaaa"); (ESlice (EVar "t4_aaabaaab") [SAll; SAll; SAll; SAll; SAll; SAll; SAll; SAll])]));
   (*L1840*) SAug true "quadruples_res" (EAdd (EScale (1 # 1) (EVar "contracted_intermediate")) (EScale (-1 # 1) (EEins "abcdijkl->acbdijkl" [(EVar "contracted_intermediate")])));
   (*L1843*) SAssign "contracted_intermediate" (EScale (9999999999999 # 20000000000000) (EEins "mnef,abkm,ecfdijln->abcdijkl" [(ESlice (EVar "g_abab") [SV "o"; SV "o"; SV "v"; SV "v"]); (EVar "t2_aaaa"); (ESlice (EVar "t4_aabbaabb") [SAll; SAll; SAll; SAll; SAll; SAll; SAll; SAll])]));
   (*L1844*) SAug true "quadruples_res" (EAdd (EScale (1 # 1) (EVar "contracted_intermediate")) (EScale (-1 # 1) (EEins "abcdijkl->acbdijkl" [(EVar "contracted_intermediate")])));
   (*L1847*) SAssign "contracted_intermediate" (EScale (-9999999999999 # 20000000000000) (EEins "mnfe,abkm,cfedijln->abcdijkl" [(ESlice (EVar "g_abab") [SV "o"; SV "o"; SV "v"; SV "v"]); (EVar "t2_aaaa"); (ESlice (EVar "t4_aabbaabb") [SAll; SAll; SAll; SAll; SAll; SAll; SAll; SAll])]));
   (*L1848*) SAug true "quadruples_res" (EAdd (EScale (1 # 1) (EVar "contracted_intermediate")) (EScale (-1 # 1) (EEins "abcdijkl->acbdijkl" [(EVar "contracted_intermediate")])));
   (*L1851*) SAssign "contracted_intermediate" (EScale (9999999999999 # 20000000000000) (EEins "nmef,abjm,efcdiknl->abcdijkl" [(ESlice (EVar "g_aaaa") [SV "o"; SV "o"; SV "v"; SV "v"]); (EVar "t2_aaaa"); (ESlice (EVar "t4_aaabaaab") [SAll; SAll; SAll; SAll; SAll; SAll; SAll; SAll])]));
   (*L1852*) SAug true "quadruples_res" (EAdd (EAdd (EAdd (EScale (1 # 1) (EVar "contracted_intermediate")) (EScale (-1 # 1) (EEins "abcdijkl->abcdjikl" [(EVar "contracted_intermediate")]))) (EScale (-1 # 1) (EEins "abcdijkl->acbdijkl" [(EVar "contracted_intermediate")]))) (EScale (1 # 1) (EEins "abcdijkl->acbdjikl" [(EVar "contracted_intermediate")])));
   (*L1855*) SAssign "contracted_intermediate" (EScale (-9999999999999 # 20000000000000) (EEins "mnef,abjm,ecfdikln->abcdijkl" [(ESlice (EVar "g_abab") [SV "o"; SV "o"; SV "v"; SV "v"]); (EVar "t2_aaaa"); (ESlice (EVar "t4_aabbaabb") [SAll; SAll; SAll; SAll; SAll; SAll; SAll; SAll])]));
   (*L1856*) SAug true "quadruples_res" (EAdd (EAdd (EAdd (EScale (1 # 1) (EVar "contracted_intermediate")) (EScale (-1 # 1) (EEins "abcdijkl->abcdjikl" [(EVar "contracted_intermediate")]))) (EScale (-1 # 1) (EEins "abcdijkl->acbdijkl" [(EVar "contracted_intermediate")]))) (EScale (1 # 1) (EEins "abcdijkl->acbdjikl" [(EVar "contracted_intermediate")])));
   (*L1859*) SAssign "contracted_intermediate" (EScale (9999999999999 # 20000000000000) (EEins "mnfe,abjm,cfedikln->abcdijkl" [(ESlice (EVar "g_abab") [SV "o"; SV "o"; SV "v"; SV "v"]); (EVar "t2_aaaa"); (ESlice (EVar "t4_aabbaabb") [SAll; SAll; SAll; SAll; SAll; SAll; SAll; SAll])]));
   (*L1860*) SAug true "quadruples_res" (EAdd (EAdd (EAdd (EScale (1 # 1) (EVar "contracted_intermediate")) (EScale (-1 # 1) (EEins "abcdijkl->abcdjikl" [(EVar "contracted_intermediate")]))) (EScale (-1 # 1) (EEins "abcdijkl->acbdijkl" [(EVar "contracted_intermediate")]))) (EScale (1 # 1) (EEins "abcdijkl->acbdjikl" [(EVar "contracted_intermediate")])));
   (*L1863*) SAssign "contracted_intermediate" (EScale (-25000000000001 # 100000000000000) (EEins "nmef,adnm,ecbfijkl->abcdijkl" [(ESlice (EVar "g_abab") [SV "o"; SV "o"; SV "v"; SV "v"]); (EVar "t2_abab"); (ESlice (EVar "t4_aaabaaab") [SAll; SAll; SAll; SAll; SAll; SAll; SAll; SAll])]));
   (*L1864*) SAug true "quadruples_res" (EAdd (EScale (1 # 1) (EVar "contracted_intermediate")) (EScale (-1 # 1) (EEins "abcdijkl->bacdijkl" [(EVar "contracted_intermediate")])));
   (*L1867*) SAssign "contracted_intermediate" (EScale (25000000000001 # 100000000000000) (EEins "nmfe,adnm,cfbeijkl->abcdijkl" [(ESlice (EVar "g_abab") [SV "o"; SV "o"; SV "v"; SV "v"]); (EVar "t2_abab"); (ESlice (EVar "t4_aaabaaab") [SAll; SAll; SAll; SAll; SAll; SAll; SAll; SAll])]));
   (*L1868*) SAug true "quadruples_res" (EAdd (EScale (1 # 1) (EVar "contracted_intermediate")) (EScale (-1 # 1) (EEins "abcdijkl->bacdijkl" [(EVar "contracted_intermediate")])));
   (*L1871*) SAssign "contracted_intermediate" (EScale (-25000000000001 # 100000000000000) (EEins "mnef,admn,ecbfijkl->abcdijkl" [(ESlice (EVar "g_abab") [SV "o"; SV "o"; SV "v"; SV "v"]); (EVar "t2_abab"); (ESlice (EVar "t4_aaabaaab") [SAll; SAll; SAll; SAll; SAll; SAll; SAll; SAll])]));
   (*L1872*) SAug true "quadruples_res" (EAdd (EScale (1 # 1) (EVar "contracted_intermediate")) (EScale (-1 # 1) (EEins "abcdijkl->bacdijkl" [(EVar "contracted_intermediate")])));
   (*L1875*) SAssign "contracted_intermediate" (EScale (25000000000001 # 100000000000000) (EEins "mnfe,admn,cfbeijkl->abcdijkl" [(ESlice (EVar "g_abab") [SV "o"; SV "o"; SV "v"; SV "v"]); (EVar "t2_abab"); (ESlice (EVar "t4_aaabaaab") [SAll; SAll; SAll; SAll; SAll; SAll; SAll; SAll])]));
   (*L1876*) SAug true "quadruples_res" (EAdd (EScale (1 # 1) (EVar "contracted_intermediate")) (EScale (-1 # 1) (EEins "abcdijkl->bacdijkl" [(EVar "contracted_intermediate")])));
   (*L1879*) SAssign "contracted_intermediate" (EScale (9999999999999 # 20000000000000) (EEins "nmef,adml,efbcijkn->abcdijkl" [(ESlice (EVar "g_aaaa") [SV "o"; SV "o"; SV "v"; SV "v"]); (EVar "t2_abab"); (ESlice (EVar "t4_aaaaaaaa") [SAll; SAll; SAll; SAll; SAll; SAll; SAll; SAll])]));
   (*L1880*) SAug true "quadruples_res" (EAdd (EScale (1 # 1) (EVar "contracted_intermediate")) (EScale (-1 # 1) (EEins "abcdijkl->bacdijkl" [(EVar "contracted_intermediate")])));
   (*L1883*) SAssign "contracted_intermediate" (EScale (9999999999999 # 20000000000000) (EEins "mnef,adml,ecbfijkn->abcdijkl" [(ESlice (EVar "g_abab") [SV "o"; SV "o"; SV "v"; SV "v"]); (EVar "t2_abab"); (ESlice (EVar "t4_aaabaaab") [SAll; SAll; SAll; SAll; SAll; SAll; SAll; SAll])]));
   (*L1884*) SAug true "quadruples_res" (EAdd (EScale (1 # 1) (EVar "contracted_intermediate")) (EScale (-1 # 1) (EEins "abcdijkl->bacdijkl" [(EVar "contracted_intermediate")])));
   (*L1887*) SAssign "contracted_intermediate" (EScale (-9999999999999 # 20000000000000) (EEins "mnfe,adml,cfbeijkn->abcdijkl" [(ESlice (EVar "g_abab") [SV "o"; SV "o"; SV "v"; SV "v"]); (EVar "t2_abab"); (ESlice (EVar "t4_aaabaaab") [SAll; SAll; SAll; SAll; SAll; SAll; SAll; SAll])]));
   (*L1888*) SAug true "quadruples_res" (EAdd (EScale (1 # 1) (EVar "contracted_intermediate")) (EScale (-1 # 1) (EEins "abcdijkl->bacdijkl" [(EVar "contracted_intermediate")])));
   (*L1891*) SAssign "contracted_intermediate" (EScale (9999999999999 # 20000000000000) (EEins "nmef,adkm,ecbfijnl->abcdijkl" [(ESlice (EVar "g_abab") [SV "o"; SV "o"; SV "v"; SV "v"]); (EVar "t2_abab"); (ESlice (EVar "t4_aaabaaab") [SAll; SAll; SAll; SAll; SAll; SAll; SAll; SAll])]));
   (*L1892*) SAug true "quadruples_res" (EAdd (EScale (1 # 1) (EVar "contracted_intermediate")) (EScale (-1 # 1) (EEins "abcdijkl->bacdijkl" [(EVar "contracted_intermediate")])));
   (*L1895*) SAssign "contracted_intermediate" (EScale (-9999999999999 # 20000000000000) (EEins "nmfe,adkm,cfbeijnl->abcdijkl" [(ESlice (EVar "g_abab") [SV "o"; SV "o"; SV "v"; SV "v"]); (EVar "t2_abab"); (ESlice (EVar "t4_aaabaaab") [SAll; SAll; SAll; SAll; SAll; SAll; SAll; SAll])]));
   (*L1896*) SAug true "quadruples_res" (EAdd (EScale (1 # 1) (EVar "contracted_intermediate")) (EScale (-1 # 1) (EEins "abcdijkl->bacdijkl" [(EVar "contracted_intermediate")])));
   (*L1899*) SAssign "contracted_intermediate" (EScale (9999999999999 # 20000000000000) (EEins "nmef,adkm,bcefijln->abcdijkl" [(ESlice (EVar "g_bbbb") [SV "o"; SV "o"; SV "v"; SV "v"]); (EVar "t2_abab"); (ESlice (EVar "t4_aabbaabb") [SAll; SAll; SAll; SAll; SAll; SAll; SAll; SAll])]));
   (*L1900*) SAug true "quadruples_res" (EAdd (EScale (1 # 1) (EVar "contracted_intermediate")) (EScale (-1 # 1) (EEins "abcdijkl->bacdijkl" [(EVar "contracted_intermediate")])));
   (*L1903*) SAssign "contracted_intermediate" (EScale (-9999999999999 # 20000000000000) (EEins "nmef,adjm,ecbfiknl->abcdijkl" [(ESlice (EVar "g_abab") [SV "o"; SV "o"; SV "v"; SV "v"]); (EVar "t2_abab"); (ESlice (EVar "t4_aaabaaab") [SAll; SAll; SAll; SAll; SAll; SAll; SAll; SAll])]));
   (*L1904*) SAug true "quadruples_res" (EAdd (EAdd (EAdd (EScale (1 # 1) (EVar "contracted_intermediate")) (EScale (-1 # 1) (EEins "abcdijkl->abcdjikl" [(EVar "contracted_intermediate")]))) (EScale (-1 # 1) (EEins "abcdijkl->bacdijkl" [(EVar "contracted_intermediate")]))) (EScale (1 # 1) (EEins "abcdijkl->bacdjikl" [(EVar "contracted_intermediate")])));
   (*L1907*) SAssign "contracted_intermediate" (EScale (9999999999999 # 20000000000000) (EEins "nmfe,adjm,cfbeiknl->abcdijkl" [(ESlice (EVar "g_abab") [SV "o"; SV "o"; SV "v"; SV "v"]); (EVar "t2_abab"); (ESlice (EVar "t4_aaabaaab") [SAll; SAll; SAll; SAll; SAll; SAll; SAll; SAll])]));
   (*L1908*) SAug true "quadruples_res" (EAdd (EAdd (EAdd (EScale (1 # 1) (EVar "contracted_intermediate")) (EScale (-1 # 1) (EEins "abcdijkl->abcdjikl" [(EVar "contracted_intermediate")]))) (EScale (-1 # 1) (EEins "abcdijkl->bacdijkl" [(EVar "contracted_intermediate")]))) (EScale (1 # 1) (EEins "abcdijkl->bacdjikl" [(EVar "contracted_intermediate")])));
   (*L1911*) SAssign "contracted_intermediate" (EScale (-9999999999999 # 20000000000000) (EEins "nmef,adjm,bcefikln->abcdijkl" [(ESlice (EVar "g_bbbb") [SV "o"; SV "o"; SV "v"; SV "v"]); (EVar "t2_abab"); (ESlice (EVar "t4_aabbaabb") [SAll; SAll; SAll; SAll; SAll; SAll; SAll; SAll])]));
   (*L1912*) SAug true "quadruples_res" (EAdd (EAdd (EAdd (EScale (1 # 1) (EVar "contracted_intermediate")) (EScale (-1 # 1) (EEins "abcdijkl->abcdjikl" [(EVar "contracted_intermediate")]))) (EScale (-1 # 1) (EEins "abcdijkl->bacdijkl" [(EVar "contracted_intermediate")]))) (EScale (1 # 1) (EEins "abcdijkl->bacdjikl" [(EVar "contracted_intermediate")])));
   (*L1915*) SAug true "quadruples_res" (EScale (25000000000001 # 100000000000000) (EEins "nmef,bcnm,efadijkl->abcdijkl" [(ESlice (EVar "g_aaaa") [SV "o"; SV "o"; SV "v"; SV "v"]); (EVar "t2_aaaa"); (ESlice (EVar "t4_aaabaaab") [SAll; SAll; SAll; SAll; SAll; SAll; SAll; SAll])]));
   (*L1918*) SAug true "quadruples_res" (EScale (-25000000000001 # 100000000000000) (EEins "nmef,cdnm,ebafijkl->abcdijkl" [(ESlice (EVar "g_abab") [SV "o"; SV "o"; SV "v"; SV "v"]); (EVar "t2_abab"); (ESlice (EVar "t4_aaabaaab") [SAll; SAll; SAll; SAll; SAll; SAll; SAll; SAll])]));
   (*L1921*) SAug true "quadruples_res" (EScale (25000000000001 # 100000000000000) (EEins "nmfe,cdnm,bfaeijkl->abcdijkl" [(ESlice (EVar "g_abab") [SV "o"; SV "o"; SV "v"; SV "v"]); (EVar "t2_abab"); (ESlice (EVar "t4_aaabaaab") [SAll; SAll; SAll; SAll; SAll; SAll; SAll; SAll])]));
   (*L1924*) SAug true "quadruples_res" (EScale (-25000000000001 # 100000000000000) (EEins "mnef,cdmn,ebafijkl->abcdijkl" [(ESlice (EVar "g_abab") [SV "o"; SV "o"; SV "v"; SV "v"]); (EVar "t2_abab"); (ESlice (EVar "t4_aaabaaab") [SAll; SAll; SAll; SAll; SAll; SAll; SAll; SAll])]));
   (*L1927*) SAug true "quadruples_res" (EScale (25000000000001 # 100000000000000) (EEins "mnfe,cdmn,bfaeijkl->abcdijkl" [(ESlice (EVar "g_abab") [SV "o"; SV "o"; SV "v"; SV "v"]); (EVar "t2_abab"); (ESlice (EVar "t4_aaabaaab") [SAll; SAll; SAll; SAll; SAll; SAll; SAll; SAll])]));
   (*L1930*) SAug true "quadruples_res" (EScale (9999999999999 # 20000000000000) (EEins "nmef,cdml,efabijkn->abcdijkl" [(ESlice (EVar "g_aaaa") [SV "o"; SV "o"; SV "v"; SV "v"]); (EVar "t2_abab"); (ESlice (EVar "t4_aaaaaaaa") [SAll; SAll; SAll; SAll; SAll; SAll; SAll; SAll])]));
   (*L1933*) SAug true "quadruples_res" (EScale (9999999999999 # 20000000000000) (EEins "mnef,cdml,ebafijkn->abcdijkl" [(ESlice (EVar "g_abab") [SV "o"; SV "o"; SV "v"; SV "v"]); (EVar "t2_abab"); (ESlice (EVar "t4_aaabaaab") [SAll; SAll; SAll; SAll; SAll; SAll; SAll; SAll])]));
   (*L1936*) SAug true "quadruples_res" (EScale (-9999999999999 # 20000000000000) (EEins "mnfe,cdml,bfaeijkn->abcdijkl" [(ESlice (EVar "g_abab") [SV "o"; SV "o"; SV "v"; SV "v"]); (EVar "t2_abab"); (ESlice (EVar "t4_aaabaaab") [SAll; SAll; SAll; SAll; SAll; SAll; SAll; SAll])]));
   (*L1939*) SAug true "quadruples_res" (EScale (-9999999999999 # 20000000000000) (EEins "nmef,bckm,efadijnl->abcdijkl" [(ESlice (EVar "g_aaaa") [SV "o"; SV "o"; SV "v"; SV "v"]); (EVar "t2_aaaa"); (ESlice (EVar "t4_aaabaaab") [SAll; SAll; SAll; SAll; SAll; SAll; SAll; SAll])]));
   (*L1942*) SAug true "quadruples_res" (EScale (9999999999999 # 20000000000000) (EEins "mnef,bckm,eafdijln->abcdijkl" [(ESlice (EVar "g_abab") [SV "o"; SV "o"; SV "v"; SV "v"]); (EVar "t2_aaaa"); (ESlice (EVar "t4_aabbaabb") [SAll; SAll; SAll; SAll; SAll; SAll; SAll; SAll])]));
   (*L1945*) SAug true "quadruples_res" (EScale (-9999999999999 # 20000000000000) (EEins "mnfe,bckm,afedijln->abcdijkl" [(ESlice (EVar "g_abab") [SV "o"; SV "o"; SV "v"; SV "v"]); (EVar "t2_aaaa"); (ESlice (EVar "t4_aabbaabb") [SAll; SAll; SAll; SAll; SAll; SAll; SAll; SAll])]));
   (*L1948*) SAug true "quadruples_res" (EScale (9999999999999 # 20000000000000) (EEins "nmef,cdkm,ebafijnl->abcdijkl" [(ESlice (EVar "g_abab") [SV "o"; SV "o"; SV "v"; SV "v"]); (EVar "t2_abab"); (ESlice (EVar "t4_aaabaaab") [SAll; SAll; SAll; SAll; SAll; SAll; SAll; SAll])]));
   (*L1951*) SAug true "quadruples_res" (EScale (-9999999999999 # 20000000000000) (EEins "nmfe,cdkm,bfaeijnl->abcdijkl" [(ESlice (EVar "g_abab") [SV "o"; SV "o"; SV "v"; SV "v"]); (EVar "t2_abab"); (ESlice (EVar "t4_aaabaaab") [SAll; SAll; SAll; SAll; SAll; SAll; SAll; SAll])]));
   (*L1954*) SAug true "quadruples_res" (EScale (9999999999999 # 20000000000000) (EEins "nmef,cdkm,abefijln->abcdijkl" [(ESlice (EVar "g_bbbb") [SV "o"; SV "o"; SV "v"; SV "v"]); (EVar "t2_abab"); (ESlice (EVar "t4_aabbaabb") [SAll; SAll; SAll; SAll; SAll; SAll; SAll; SAll])]));
   (*L1957*) SAssign "contracted_intermediate" (EScale (9999999999999 # 20000000000000) (EEins "nmef,bcjm,efadiknl->abcdijkl" [(ESlice (EVar "g_aaaa") [SV "o"; SV "o"; SV "v"; SV "v"]); (EVar "t2_aaaa"); (ESlice (EVar "t4_aaabaaab") [SAll; SAll; SAll; SAll; SAll; SAll; SAll; SAll])]));
   (*L1958*) SAug true "quadruples_res" (EAdd (EScale (1 # 1) (EVar "contracted_intermediate")) (EScale (-1 # 1) (EEins "abcdijkl->abcdjikl" [(EVar "contracted_intermediate")])));
   (*L1961*) SAssign "contracted_intermediate" (EScale (-9999999999999 # 20000000000000) (EEins "mnef,bcjm,eafdikln->abcdijkl" [(ESlice (EVar "g_abab") [SV "o"; SV "o"; SV "v"; SV "v"]); (EVar "t2_aaaa"); (ESlice (EVar "t4_aabbaabb") [SAll; SAll; SAll; SAll; SAll; SAll; SAll; SAll])]));
   (*L1962*) SAug true "quadruples_res" (EAdd (EScale (1 # 1) (EVar "contracted_intermediate")) (EScale (-1 # 1) (EEins "abcdijkl->abcdjikl" [(EVar "contracted_intermediate")])));
   (*L1965*) SAssign "contracted_intermediate" (EScale (9999999999999 # 20000000000000) (EEins "mnfe,bcjm,afedikln->abcdijkl" [(ESlice (EVar "g_abab") [SV "o"; SV "o"; SV "v"; SV "v"]); (EVar "t2_aaaa"); (ESlice (EVar "t4_aabbaabb") [SAll; SAll; SAll; SAll; SAll; SAll; SAll; SAll])]));
   (*L1966*) SAug true "quadruples_res" (EAdd (EScale (1 # 1) (EVar "contracted_intermediate")) (EScale (-1 # 1) (EEins "abcdijkl->abcdjikl" [(EVar "contracted_intermediate")])));
   (*L1969*) SAssign "contracted_intermediate" (EScale (-9999999999999 # 20000000000000) (EEins "nmef,cdjm,ebafiknl->abcdijkl" [(ESlice (EVar "g_abab") [SV "o"; SV "o"; SV "v"; SV "v"]); (EVar "t2_abab"); (ESlice (EVar "t4_aaabaaab") [SAll; SAll; SAll; SAll; SAll; SAll; SAll; SAll])]));
   (*L1970*) SAug true "quadruples_res" (EAdd (EScale (1 # 1) (EVar "contracted_intermediate")) (EScale (-1 # 1) (EEins "abcdijkl->abcdjikl" [(EVar "contracted_intermediate")])));
   (*L1973*) SAssign "contracted_intermediate" (EScale (9999999999999 # 20000000000000) (EEins "nmfe,cdjm,bfaeiknl->abcdijkl" [(ESlice (EVar "g_abab") [SV "o"; SV "o"; SV "v"; SV "v"]); (EVar "t2_abab"); (ESlice (EVar "t4_aaabaaab") [SAll; SAll; SAll; SAll; SAll; SAll; SAll; SAll])]));
   (*L1974*) SAug true "quadruples_res" (EAdd (EScale (1 # 1) (EVar "contracted_intermediate")) (EScale (-1 # 1) (EEins "abcdijkl->abcdjikl" [(EVar "contracted_intermediate")])));
   (*L1977*) SAssign "contracted_intermediate" (EScale (-9999999999999 # 20000000000000) (EEins "nmef,cdjm,abefikln->abcdijkl" [(ESlice (EVar "g_bbbb") [SV "o"; SV "o"; SV "v"; SV "v"]); (EVar "t2_abab"); (ESlice (EVar "t4_aabbaabb") [SAll; SAll; SAll; SAll; SAll; SAll; SAll; SAll])]));
   (*L1978*) SAug true "quadruples_res" (EAdd (EScale (1 # 1) (EVar "contracted_intermediate")) (EScale (-1 # 1) (EEins "abcdijkl->abcdjikl" [(EVar "contracted_intermediate")])));
   (*L1981*) SAssign "contracted_intermediate" (EScale (1 # 1) (EEins "mnkl,abjm,cdin->abcdijkl" [(ESlice (EVar "g_abab") [SV "o"; SV "o"; SV "o"; SV "o"]); (EVar "t2_aaaa"); (EVar "t2_abab")]));
   (*L1982*) SAug true "quadruples_res" (EAdd (EAdd (EAdd (EScale (1 # 1) (EVar "contracted_intermediate")) (EScale (-1 # 1) (EEins "abcdijkl->abcdjikl" [(EVar "contracted_intermediate")]))) (EScale (-1 # 1) (EEins "abcdijkl->acbdijkl" [(EVar "contracted_intermediate")]))) (EScale (1 # 1) (EEins "abcdijkl->acbdjikl" [(EVar "contracted_intermediate")])));
   (*L1985*) SAssign "contracted_intermediate" (EScale (-1 # 1) (EEins "nmkl,adjm,bcin->abcdijkl" [(ESlice (EVar "g_abab") [SV "o"; SV "o"; SV "o"; SV "o"]); (EVar "t2_abab"); (EVar "t2_aaaa")]));
   (*L1986*) SAug true "quadruples_res" (EAdd (EScale (1 # 1) (EVar "contracted_intermediate")) (EScale (-1 # 1) (EEins "abcdijkl->abcdjikl" [(EVar "contracted_intermediate")])));
   (*L1989*) SAssign "contracted_intermediate" (EScale (-1 # 1) (EEins "mnjl,abkm,cdin->abcdijkl" [(ESlice (EVar "g_abab") [SV "o"; SV "o"; SV "o"; SV "o"]); (EVar "t2_aaaa"); (EVar "t2_abab")]));
   (*L1990*) SAug true "quadruples_res" (EAdd (EAdd (EAdd (EScale (1 # 1) (EVar "contracted_intermediate")) (EScale (-1 # 1) (EEins "abcdijkl->abcdkjil" [(EVar "contracted_intermediate")]))) (EScale (-1 # 1) (EEins "abcdijkl->acbdijkl" [(EVar "contracted_intermediate")]))) (EScale (1 # 1) (EEins "abcdijkl->acbdkjil" [(EVar "contracted_intermediate")])));
   (*L1993*) SAssign "contracted_intermediate" (EScale (1 # 1) (EEins "nmjl,adkm,bcin->abcdijkl" [(ESlice (EVar "g_abab") [SV "o"; SV "o"; SV "o"; SV "o"]); (EVar "t2_abab"); (EVar "t2_aaaa")]));
   (*L1994*) SAug true "quadruples_res" (EAdd (EScale (1 # 1) (EVar "contracted_intermediate")) (EScale (-1 # 1) (EEins "abcdijkl->abcdkjil" [(EVar "contracted_intermediate")])));
   (*L1997*) SAssign "contracted_intermediate" (EScale (1 # 1) (EEins "mnil,abkm,cdjn->abcdijkl" [(ESlice (EVar "g_abab") [SV "o"; SV "o"; SV "o"; SV "o"]); (EVar "t2_aaaa"); (EVar "t2_abab")]));
   (*L1998*) SAug true "quadruples_res" (EAdd (EAdd (EAdd (EScale (1 # 1) (EVar "contracted_intermediate")) (EScale (-1 # 1) (EEins "abcdijkl->abcdikjl" [(EVar "contracted_intermediate")]))) (EScale (-1 # 1) (EEins "abcdijkl->acbdijkl" [(EVar "contracted_intermediate")]))) (EScale (1 # 1) (EEins "abcdijkl->acbdikjl" [(EVar "contracted_intermediate")])));
   (*L2001*) SAssign "contracted_intermediate" (EScale (-1 # 1) (EEins "nmil,adkm,bcjn->abcdijkl" [(ESlice (EVar "g_abab") [SV "o"; SV "o"; SV "o"; SV "o"]); (EVar "t2_abab"); (EVar "t2_aaaa")]));
   (*L2002*) SAug true "quadruples_res" (EAdd (EScale (1 # 1) (EVar "contracted_intermediate")) (EScale (-1 # 1) (EEins "abcdijkl->abcdikjl" [(EVar "contracted_intermediate")])));
   (*L2005*) SAssign "contracted_intermediate" (EScale (-1 # 1) (EEins "nmjk,abim,cdnl->abcdijkl" [(ESlice (EVar "g_aaaa") [SV "o"; SV "o"; SV "o"; SV "o"]); (EVar "t2_aaaa"); (EVar "t2_abab")]));
   (*L2006*) SAug true "quadruples_res" (EAdd (EScale (1 # 1) (EVar "contracted_intermediate")) (EScale (-1 # 1) (EEins "abcdijkl->acbdijkl" [(EVar "contracted_intermediate")])));
   (*L2009*) SAug true "quadruples_res" (EScale (1 # 1) (EEins "nmjk,adml,bcin->abcdijkl" [(ESlice (EVar "g_aaaa") [SV "o"; SV "o"; SV "o"; SV "o"]); (EVar "t2_abab"); (EVar "t2_aaaa")]));
   (*L2012*) SAssign "contracted_intermediate" (EScale (1 # 1) (EEins "nmik,abjm,cdnl->abcdijkl" [(ESlice (EVar "g_aaaa") [SV "o"; SV "o"; SV "o"; SV "o"]); (EVar "t2_aaaa"); (EVar "t2_abab")]));
   (*L2013*) SAug true "quadruples_res" (EAdd (EScale (1 # 1) (EVar "contracted_intermediate")) (EScale (-1 # 1) (EEins "abcdijkl->acbdijkl" [(EVar "contracted_intermediate")])));
   (*L2016*) SAug true "quadruples_res" (EScale (-1 # 1) (EEins "nmik,adml,bcjn->abcdijkl" [(ESlice (EVar "g_aaaa") [SV "o"; SV "o"; SV "o"; SV "o"]); (EVar "t2_abab"); (EVar "t2_aaaa")]));
   (*L2019*) SAssign "contracted_intermediate" (EScale (-1 # 1) (EEins "nmij,abkm,cdnl->abcdijkl" [(ESlice (EVar "g_aaaa") [SV "o"; SV "o"; SV "o"; SV "o"]); (EVar "t2_aaaa"); (EVar "t2_abab")]));
   (*L2020*) SAug true "quadruples_res" (EAdd (EScale (1 # 1) (EVar "contracted_intermediate")) (EScale (-1 # 1) (EEins "abcdijkl->acbdijkl" [(EVar "contracted_intermediate")])));
   (*L2023*) SAug true "quadruples_res" (EScale (1 # 1) (EEins "nmij,adml,bckn->abcdijkl" [(ESlice (EVar "g_aaaa") [SV "o"; SV "o"; SV "o"; SV "o"]); (EVar "t2_abab"); (EVar "t2_aaaa")]));
   (*L2026*) SAssign "contracted_intermediate" (EScale (-1 # 1) (EEins "amel,ebjk,cdim->abcdijkl" [(ESlice (EVar "g_abab") [SV "v"; SV "o"; SV "v"; SV "o"]); (EVar "t2_aaaa"); (EVar "t2_abab")]));
   (*L2027*) SAug true "quadruples_res" (EAdd (EAdd (EAdd (EScale (1 # 1) (EVar "contracted_intermediate")) (EScale (-1 # 1) (EEins "abcdijkl->abcdjikl" [(EVar "contracted_intermediate")]))) (EScale (-1 # 1) (EEins "abcdijkl->acbdijkl" [(EVar "contracted_intermediate")]))) (EScale (1 # 1) (EEins "abcdijkl->acbdjikl" [(EVar "contracted_intermediate")])));
   (*L2030*) SAssign "contracted_intermediate" (EScale (-1 # 1) (EEins "amel,ebij,cdkm->abcdijkl" [(ESlice (EVar "g_abab") [SV "v"; SV "o"; SV "v"; SV "o"]); (EVar "t2_aaaa"); (EVar "t2_abab")]));
   (*L2031*) SAug true "quadruples_res" (EAdd (EScale (1 # 1) (EVar "contracted_intermediate")) (EScale (-1 # 1) (EEins "abcdijkl->acbdijkl" [(EVar "contracted_intermediate")])));
   (*L2034*) SAssign "contracted_intermediate" (EScale (1 # 1) (EEins "maek,ebij,cdml->abcdijkl" [(ESlice (EVar "g_aaaa") [SV "o"; SV "v"; SV "v"; SV "o"]); (EVar "t2_aaaa"); (EVar "t2_abab")]));
   (*L2035*) SAug true "quadruples_res" (EAdd (EScale (1 # 1) (EVar "contracted_intermediate")) (EScale (-1 # 1) (EEins "abcdijkl->acbdijkl" [(EVar "contracted_intermediate")])));
   (*L2038*) SAssign "contracted_intermediate" (EScale (1 # 1) (EEins "amke,bejl,cdim->abcdijkl" [(ESlice (EVar "g_abab") [SV "v"; SV "o"; SV "o"; SV "v"]); (EVar "t2_abab"); (EVar "t2_abab")]));
   (*L2039*) SAug true "quadruples_res" (EAdd (EAdd (EAdd (EScale (1 # 1) (EVar "contracted_intermediate")) (EScale (-1 # 1) (EEins "abcdijkl->abcdjikl" [(EVar "contracted_intermediate")]))) (EScale (-1 # 1) (EEins "abcdijkl->acbdijkl" [(EVar "contracted_intermediate")]))) (EScale (1 # 1) (EEins "abcdijkl->acbdjikl" [(EVar "contracted_intermediate")])));
   (*L2042*) SAssign "contracted_intermediate" (EScale (-1 # 1) (EEins "maek,edjl,bcim->abcdijkl" [(ESlice (EVar "g_aaaa") [SV "o"; SV "v"; SV "v"; SV "o"]); (EVar "t2_abab"); (EVar "t2_aaaa")]));
   (*L2043*) SAug true "quadruples_res" (EAdd (EAdd (EAdd (EScale (1 # 1) (EVar "contracted_intermediate")) (EScale (-1 # 1) (EEins "abcdijkl->abcdjikl" [(EVar "contracted_intermediate")]))) (EScale (-1 # 1) (EEins "abcdijkl->bacdijkl" [(EVar "contracted_intermediate")]))) (EScale (1 # 1) (EEins "abcdijkl->bacdjikl" [(EVar "contracted_intermediate")])));
   (*L2046*) SAssign "contracted_intermediate" (EScale (-1 # 1) (EEins "amje,bekl,cdim->abcdijkl" [(ESlice (EVar "g_abab") [SV "v"; SV "o"; SV "o"; SV "v"]); (EVar "t2_abab"); (EVar "t2_abab")]));
   (*L2047*) SAug true "quadruples_res" (EAdd (EAdd (EAdd (EScale (1 # 1) (EVar "contracted_intermediate")) (EScale (-1 # 1) (EEins "abcdijkl->abcdkjil" [(EVar "contracted_intermediate")]))) (EScale (-1 # 1) (EEins "abcdijkl->acbdijkl" [(EVar "contracted_intermediate")]))) (EScale (1 # 1) (EEins "abcdijkl->acbdkjil" [(EVar "contracted_intermediate")])));
   (*L2050*) SAssign "contracted_intermediate" (EScale (-1 # 1) (EEins "maej,ebik,cdml->abcdijkl" [(ESlice (EVar "g_aaaa") [SV "o"; SV "v"; SV "v"; SV "o"]); (EVar "t2_aaaa"); (EVar "t2_abab")]));
   (*L2051*) SAug true "quadruples_res" (EAdd (EAdd (EAdd (EScale (1 # 1) (EVar "contracted_intermediate")) (EScale (-1 # 1) (EEins "abcdijkl->abcdjikl" [(EVar "contracted_intermediate")]))) (EScale (-1 # 1) (EEins "abcdijkl->acbdijkl" [(EVar "contracted_intermediate")]))) (EScale (1 # 1) (EEins "abcdijkl->acbdjikl" [(EVar "contracted_intermediate")])));
   (*L2054*) SAssign "contracted_intermediate" (EScale (1 # 1) (EEins "maej,edkl,bcim->abcdijkl" [(ESlice (EVar "g_aaaa") [SV "o"; SV "v"; SV "v"; SV "o"]); (EVar "t2_abab"); (EVar "t2_aaaa")]));
   (*L2055*) SAug true "quadruples_res" (EAdd (EAdd (EAdd (EScale (1 # 1) (EVar "contracted_intermediate")) (EScale (-1 # 1) (EEins "abcdijkl->abcdkjil" [(EVar "contracted_intermediate")]))) (EScale (-1 # 1) (EEins "abcdijkl->bacdijkl" [(EVar "contracted_intermediate")]))) (EScale (1 # 1) (EEins "abcdijkl->bacdkjil" [(EVar "contracted_intermediate")])));
   (*L2058*) SAssign "contracted_intermediate" (EScale (1 # 1) (EEins "amie,bekl,cdjm->abcdijkl" [(ESlice (EVar "g_abab") [SV "v"; SV "o"; SV "o"; SV "v"]); (EVar "t2_abab"); (EVar "t2_abab")]));
   (*L2059*) SAug true "quadruples_res" (EAdd (EAdd (EAdd (EScale (1 # 1) (EVar "contracted_intermediate")) (EScale (-1 # 1) (EEins "abcdijkl->abcdikjl" [(EVar "contracted_intermediate")]))) (EScale (-1 # 1) (EEins "abcdijkl->acbdijkl" [(EVar "contracted_intermediate")]))) (EScale (1 # 1) (EEins "abcdijkl->acbdikjl" [(EVar "contracted_intermediate")])));
   (*L2062*) SAssign "contracted_intermediate" (EScale (-1 # 1) (EEins "maei,edkl,bcjm->abcdijkl" [(ESlice (EVar "g_aaaa") [SV "o"; SV "v"; SV "v"; SV "o"]); (EVar "t2_abab"); (EVar "t2_aaaa")]));
   (*L2063*) SAug true "quadruples_res" (EAdd (EAdd (EAdd (EScale (1 # 1) (EVar "contracted_intermediate")) (EScale (-1 # 1) (EEins "abcdijkl->abcdikjl" [(EVar "contracted_intermediate")]))) (EScale (-1 # 1) (EEins "abcdijkl->bacdijkl" [(EVar "contracted_intermediate")]))) (EScale (1 # 1) (EEins "abcdijkl->bacdikjl" [(EVar "contracted_intermediate")])));
   (*L2066*) SAssign "contracted_intermediate" (EScale (1 # 1) (EEins "bmel,eajk,cdim->abcdijkl" [(ESlice (EVar "g_abab") [SV "v"; SV "o"; SV "v"; SV "o"]); (EVar "t2_aaaa"); (EVar "t2_abab")]));
   (*L2067*) SAug true "quadruples_res" (EAdd (EAdd (EAdd (EScale (1 # 1) (EVar "contracted_intermediate")) (EScale (-1 # 1) (EEins "abcdijkl->abcdjikl" [(EVar "contracted_intermediate")]))) (EScale (-1 # 1) (EEins "abcdijkl->cbadijkl" [(EVar "contracted_intermediate")]))) (EScale (1 # 1) (EEins "abcdijkl->cbadjikl" [(EVar "contracted_intermediate")])));
   (*L2070*) SAssign "contracted_intermediate" (EScale (1 # 1) (EEins "bmel,eaij,cdkm->abcdijkl" [(ESlice (EVar "g_abab") [SV "v"; SV "o"; SV "v"; SV "o"]); (EVar "t2_aaaa"); (EVar "t2_abab")]));
   (*L2071*) SAug true "quadruples_res" (EAdd (EScale (1 # 1) (EVar "contracted_intermediate")) (EScale (-1 # 1) (EEins "abcdijkl->cbadijkl" [(EVar "contracted_intermediate")])));
   (*L2074*) SAssign "contracted_intermediate" (EScale (-1 # 1) (EEins "mbek,eaij,cdml->abcdijkl" [(ESlice (EVar "g_aaaa") [SV "o"; SV "v"; SV "v"; SV "o"]); (EVar "t2_aaaa"); (EVar "t2_abab")]));
   (*L2075*) SAug true "quadruples_res" (EAdd (EScale (1 # 1) (EVar "contracted_intermediate")) (EScale (-1 # 1) (EEins "abcdijkl->cbadijkl" [(EVar "contracted_intermediate")])));
   (*L2078*) SAssign "contracted_intermediate" (EScale (-1 # 1) (EEins "bmke,aejl,cdim->abcdijkl" [(ESlice (EVar "g_abab") [SV "v"; SV "o"; SV "o"; SV "v"]); (EVar "t2_abab"); (EVar "t2_abab")]));
   (*L2079*) SAug true "quadruples_res" (EAdd (EAdd (EAdd (EScale (1 # 1) (EVar "contracted_intermediate")) (EScale (-1 # 1) (EEins "abcdijkl->abcdjikl" [(EVar "contracted_intermediate")]))) (EScale (-1 # 1) (EEins "abcdijkl->cbadijkl" [(EVar "contracted_intermediate")]))) (EScale (1 # 1) (EEins "abcdijkl->cbadjikl" [(EVar "contracted_intermediate")])));
   (*L2082*) SAssign "contracted_intermediate" (EScale (1 # 1) (EEins "bmje,aekl,cdim->abcdijkl" [(ESlice (EVar "g_abab") [SV "v"; SV "o"; SV "o"; SV "v"]); (EVar "t2_abab"); (EVar "t2_abab")]));
   (*L2083*) SAug true "quadruples_res" (EAdd (EAdd (EAdd (EScale (1 # 1) (EVar "contracted_intermediate")) (EScale (-1 # 1) (EEins "abcdijkl->abcdkjil" [(EVar "contracted_intermediate")]))) (EScale (-1 # 1) (EEins "abcdijkl->cbadijkl" [(EVar "contracted_intermediate")]))) (EScale (1 # 1) (EEins "abcdijkl->cbadkjil" [(EVar "contracted_intermediate")])));
   (*L2086*) SAssign "contracted_intermediate" (EScale (1 # 1) (EEins "mbej,eaik,cdml->abcdijkl" [(ESlice (EVar "g_aaaa") [SV "o"; SV "v"; SV "v"; SV "o"]); (EVar "t2_aaaa"); (EVar "t2_abab")]));
   (*L2087*) SAug true "quadruples_res" (EAdd (EAdd (EAdd (EScale (1 # 1) (EVar "contracted_intermediate")) (EScale (-1 # 1) (EEins "abcdijkl->abcdjikl" [(EVar "contracted_intermediate")]))) (EScale (-1 # 1) (EEins "abcdijkl->cbadijkl" [(EVar "contracted_intermediate")]))) (EScale (1 # 1) (EEins "abcdijkl->cbadjikl" [(EVar "contracted_intermediate")])));
   (*L2090*) SAssign "contracted_intermediate" (EScale (-1 # 1) (EEins "bmie,aekl,cdjm->abcdijkl" [(ESlice (EVar "g_abab") [SV "v"; SV "o"; SV "o"; SV "v"]); (EVar "t2_abab"); (EVar "t2_abab")]));
   (*L2091*) SAug true "quadruples_res" (EAdd (EAdd (EAdd (EScale (1 # 1) (EVar "contracted_intermediate")) (EScale (-1 # 1) (EEins "abcdijkl->abcdikjl" [(EVar "contracted_intermediate")]))) (EScale (-1 # 1) (EEins "abcdijkl->cbadijkl" [(EVar "contracted_intermediate")]))) (EScale (1 # 1) (EEins "abcdijkl->cbadikjl" [(EVar "contracted_intermediate")])));
   (*L2094*) SAssign "contracted_intermediate" (EScale (-1 # 1) (EEins "cmel,eajk,bdim->abcdijkl" [(ESlice (EVar "g_abab") [SV "v"; SV "o"; SV "v"; SV "o"]); (EVar "t2_aaaa"); (EVar "t2_abab")]));
   (*L2095*) SAug true "quadruples_res" (EAdd (EAdd (EAdd (EScale (1 # 1) (EVar "contracted_intermediate")) (EScale (-1 # 1) (EEins "abcdijkl->abcdjikl" [(EVar "contracted_intermediate")]))) (EScale (-1 # 1) (EEins "abcdijkl->bacdijkl" [(EVar "contracted_intermediate")]))) (EScale (1 # 1) (EEins "abcdijkl->bacdjikl" [(EVar "contracted_intermediate")])));
   (*L2098*) SAssign "contracted_intermediate" (EScale (-1 # 1) (EEins "cmel,eaij,bdkm->abcdijkl" [(ESlice (EVar "g_abab") [SV "v"; SV "o"; SV "v"; SV "o"]); (EVar "t2_aaaa"); (EVar "t2_abab")]));
   (*L2099*) SAug true "quadruples_res" (EAdd (EScale (1 # 1) (EVar "contracted_intermediate")) (EScale (-1 # 1) (EEins "abcdijkl->bacdijkl" [(EVar "contracted_intermediate")])));
   (*L2102*) SAssign "contracted_intermediate" (EScale (1 # 1) (EEins "mcek,eaij,bdml->abcdijkl" [(ESlice (EVar "g_aaaa") [SV "o"; SV "v"; SV "v"; SV "o"]); (EVar "t2_aaaa"); (EVar "t2_abab")]));
   (*L2103*) SAug true "quadruples_res" (EAdd (EScale (1 # 1) (EVar "contracted_intermediate")) (EScale (-1 # 1) (EEins "abcdijkl->bacdijkl" [(EVar "contracted_intermediate")])));
   (*L2106*) SAssign "contracted_intermediate" (EScale (-1 # 1) (EEins "mdel,ecjk,abim->abcdijkl" [(ESlice (EVar "g_abab") [SV "o"; SV "v"; SV "v"; SV "o"]); (EVar "t2_aaaa"); (EVar "t2_aaaa")]));
   (*L2107*) SAug true "quadruples_res" (EAdd (EScale (1 # 1) (EVar "contracted_intermediate")) (EScale (-1 # 1) (EEins "abcdijkl->abcdjikl" [(EVar "contracted_intermediate")])));
   (*L2110*) SAug true "quadruples_res" (EScale (-1 # 1) (EEins "mdel,ecij,abkm->abcdijkl" [(ESlice (EVar "g_abab") [SV "o"; SV "v"; SV "v"; SV "o"]); (EVar "t2_aaaa"); (EVar "t2_aaaa")]));
   (*L2113*) SAssign "contracted_intermediate" (EScale (1 # 1) (EEins "cmke,aejl,bdim->abcdijkl" [(ESlice (EVar "g_abab") [SV "v"; SV "o"; SV "o"; SV "v"]); (EVar "t2_abab"); (EVar "t2_abab")]));
   (*L2114*) SAug true "quadruples_res" (EAdd (EAdd (EAdd (EScale (1 # 1) (EVar "contracted_intermediate")) (EScale (-1 # 1) (EEins "abcdijkl->abcdjikl" [(EVar "contracted_intermediate")]))) (EScale (-1 # 1) (EEins "abcdijkl->bacdijkl" [(EVar "contracted_intermediate")]))) (EScale (1 # 1) (EEins "abcdijkl->bacdjikl" [(EVar "contracted_intermediate")])));
   (*L2117*) SAssign "contracted_intermediate" (EScale (-1 # 1) (EEins "mcek,edjl,abim->abcdijkl" [(ESlice (EVar "g_aaaa") [SV "o"; SV "v"; SV "v"; SV "o"]); (EVar "t2_abab"); (EVar "t2_aaaa")]));
   (*L2118*) SAug true "quadruples_res" (EAdd (EScale (1 # 1) (EVar "contracted_intermediate")) (EScale (-1 # 1) (EEins "abcdijkl->abcdjikl" [(EVar "contracted_intermediate")])));
   (*L2121*) SAssign "contracted_intermediate" (EScale (1 # 1) (EEins "mdke,cejl,abim->abcdijkl" [(ESlice (EVar "g_abab") [SV "o"; SV "v"; SV "o"; SV "v"]); (EVar "t2_abab"); (EVar "t2_aaaa")]));
   (*L2122*) SAug true "quadruples_res" (EAdd (EScale (1 # 1) (EVar "contracted_intermediate")) (EScale (-1 # 1) (EEins "abcdijkl->abcdjikl" [(EVar "contracted_intermediate")])));
   (*L2125*) SAssign "contracted_intermediate" (EScale (-1 # 1) (EEins "cmje,aekl,bdim->abcdijkl" [(ESlice (EVar "g_abab") [SV "v"; SV "o"; SV "o"; SV "v"]); (EVar "t2_abab"); (EVar "t2_abab")]));
   (*L2126*) SAug true "quadruples_res" (EAdd (EAdd (EAdd (EScale (1 # 1) (EVar "contracted_intermediate")) (EScale (-1 # 1) (EEins "abcdijkl->abcdkjil" [(EVar "contracted_intermediate")]))) (EScale (-1 # 1) (EEins "abcdijkl->bacdijkl" [(EVar "contracted_intermediate")]))) (EScale (1 # 1) (EEins "abcdijkl->bacdkjil" [(EVar "contracted_intermediate")])));
   (*L2129*) SAssign "contracted_intermediate" (EScale (-1 # 1) (EEins "mcej,eaik,bdml->abcdijkl" [(ESlice (EVar "g_aaaa") [SV "o"; SV "v"; SV "v"; SV "o"]); (EVar "t2_aaaa"); (EVar "t2_abab")]));
   (*L2130*) SAug true "quadruples_res" (EAdd (EAdd (EAdd (EScale (1 # 1) (EVar "contracted_intermediate")) (EScale (-1 # 1) (EEins "abcdijkl->abcdjikl" [(EVar "contracted_intermediate")]))) (EScale (-1 # 1) (EEins "abcdijkl->bacdijkl" [(EVar "contracted_intermediate")]))) (EScale (1 # 1) (EEins "abcdijkl->bacdjikl" [(EVar "contracted_intermediate")])));
   (*L2133*) SAssign "contracted_intermediate" (EScale (1 # 1) (EEins "mcej,edkl,abim->abcdijkl" [(ESlice (EVar "g_aaaa") [SV "o"; SV "v"; SV "v"; SV "o"]); (EVar "t2_abab"); (EVar "t2_aaaa")]));
   (*L2134*) SAug true "quadruples_res" (EAdd (EScale (1 # 1) (EVar "contracted_intermediate")) (EScale (-1 # 1) (EEins "abcdijkl->abcdkjil" [(EVar "contracted_intermediate")])));
   (*L2137*) SAssign "contracted_intermediate" (EScale (-1 # 1) (EEins "mdje,cekl,abim->abcdijkl" [(ESlice (EVar "g_abab") [SV "o"; SV "v"; SV "o"; SV "v"]); (EVar "t2_abab"); (EVar "t2_aaaa")]));
   (*L2138*) SAug true "quadruples_res" (EAdd (EScale (1 # 1) (EVar "contracted_intermediate")) (EScale (-1 # 1) (EEins "abcdijkl->abcdkjil" [(EVar "contracted_intermediate")])));
   (*L2141*) SAssign "contracted_intermediate" (EScale (1 # 1) (EEins "cmie,aekl,bdjm->abcdijkl" [(ESlice (EVar "g_abab") [SV "v"; SV "o"; SV "o"; SV "v"]); (EVar "t2_abab"); (EVar "t2_abab")]));
   (*L2142*) SAug true "quadruples_res" (EAdd (EAdd (EAdd (EScale (1 # 1) (EVar "contracted_intermediate")) (EScale (-1 # 1) (EEins "abcdijkl->abcdikjl" [(EVar "contracted_intermediate")]))) (EScale (-1 # 1) (EEins "abcdijkl->bacdijkl" [(EVar "contracted_intermediate")]))) (EScale (1 # 1) (EEins "abcdijkl->bacdikjl" [(EVar "contracted_intermediate")])));
   (*L2145*) SAssign "contracted_intermediate" (EScale (-1 # 1) (EEins "mcei,edkl,abjm->abcdijkl" [(ESlice (EVar "g_aaaa") [SV "o"; SV "v"; SV "v"; SV "o"]); (EVar "t2_abab"); (EVar "t2_aaaa")]));
   (*L2146*) SAug true "quadruples_res" (EAdd (EScale (1 # 1) (EVar "contracted_intermediate")) (EScale (-1 # 1) (EEins "abcdijkl->abcdikjl" [(EVar "contracted_intermediate")])));
   (*L2149*) SAssign "contracted_intermediate" (EScale (1 # 1) (EEins "mdie,cekl,abjm->abcdijkl" [(ESlice (EVar "g_abab") [SV "o"; SV "v"; SV "o"; SV "v"]); (EVar "t2_abab"); (EVar "t2_aaaa")]));
   (*L2150*) SAug true "quadruples_res" (EAdd (EScale (1 # 1) (EVar "contracted_intermediate")) (EScale (-1 # 1) (EEins "abcdijkl->abcdikjl" [(EVar "contracted_intermediate")])));
   (*L2153*) SAssign "contracted_intermediate" (EScale (-1 # 1) (EEins "mdel,eajk,bcim->abcdijkl" [(ESlice (EVar "g_abab") [SV "o"; SV "v"; SV "v"; SV "o"]); (EVar "t2_aaaa"); (EVar "t2_aaaa")]));
   (*L2154*) SAug true "quadruples_res" (EAdd (EAdd (EAdd (EScale (1 # 1) (EVar "contracted_intermediate")) (EScale (-1 # 1) (EEins "abcdijkl->abcdjikl" [(EVar "contracted_intermediate")]))) (EScale (-1 # 1) (EEins "abcdijkl->bacdijkl" [(EVar "contracted_intermediate")]))) (EScale (1 # 1) (EEins "abcdijkl->bacdjikl" [(EVar "contracted_intermediate")])));
   (*L2157*) SAssign "contracted_intermediate" (EScale (-1 # 1) (EEins "mdel,eaij,bckm->abcdijkl" [(ESlice (EVar "g_abab") [SV "o"; SV "v"; SV "v"; SV "o"]); (EVar "t2_aaaa"); (EVar "t2_aaaa")]));
   (*L2158*) SAug true "quadruples_res" (EAdd (EScale (1 # 1) (EVar "contracted_intermediate")) (EScale (-1 # 1) (EEins "abcdijkl->bacdijkl" [(EVar "contracted_intermediate")])));
   (*L2161*) SAssign "contracted_intermediate" (EScale (1 # 1) (EEins "mdke,aejl,bcim->abcdijkl" [(ESlice (EVar "g_abab") [SV "o"; SV "v"; SV "o"; SV "v"]); (EVar "t2_abab"); (EVar "t2_aaaa")]));
   (*L2162*) SAug true "quadruples_res" (EAdd (EAdd (EAdd (EScale (1 # 1) (EVar "contracted_intermediate")) (EScale (-1 # 1) (EEins "abcdijkl->abcdjikl" [(EVar "contracted_intermediate")]))) (EScale (-1 # 1) (EEins "abcdijkl->bacdijkl" [(EVar "contracted_intermediate")]))) (EScale (1 # 1) (EEins "abcdijkl->bacdjikl" [(EVar "contracted_intermediate")])));
   (*L2165*) SAssign "contracted_intermediate" (EScale (-1 # 1) (EEins "mdje,aekl,bcim->abcdijkl" [(ESlice (EVar "g_abab") [SV "o"; SV "v"; SV "o"; SV "v"]); (EVar "t2_abab"); (EVar "t2_aaaa")]));
   (*L2166*) SAug true "quadruples_res" (EAdd (EAdd (EAdd (EScale (1 # 1) (EVar "contracted_intermediate")) (EScale (-1 # 1) (EEins "abcdijkl->abcdkjil" [(EVar "contracted_intermediate")]))) (EScale (-1 # 1) (EEins "abcdijkl->bacdijkl" [(EVar "contracted_intermediate")]))) (EScale (1 # 1) (EEins "abcdijkl->bacdkjil" [(EVar "contracted_intermediate")])));
   (*L2169*) SAssign "contracted_intermediate" (EScale (1 # 1) (EEins "mdie,aekl,bcjm->abcdijkl" [(ESlice (EVar "g_abab") [SV "o"; SV "v"; SV "o"; SV "v"]); (EVar "t2_abab"); (EVar "t2_aaaa")]));
   (*L2170*) SAug true "quadruples_res" (EAdd (EAdd (EAdd (EScale (1 # 1) (EVar "contracted_intermediate")) (EScale (-1 # 1) (EEins "abcdijkl->abcdikjl" [(EVar "contracted_intermediate")]))) (EScale (-1 # 1) (EEins "abcdijkl->bacdijkl" [(EVar "contracted_intermediate")]))) (EScale (1 # 1) (EEins "abcdijkl->bacdikjl" [(EVar "contracted_intermediate")])));
   (*L2173*) SAssign "contracted_intermediate" (EScale (1 # 1) (EEins "abef,ecik,fdjl->abcdijkl" [(ESlice (EVar "g_aaaa") [SV "v"; SV "v"; SV "v"; SV "v"]); (EVar "t2_aaaa"); (EVar "t2_abab")]));
   (*L2174*) SAug true "quadruples_res" (EAdd (EScale (1 # 1) (EVar "contracted_intermediate")) (EScale (-1 # 1) (EEins "abcdijkl->acbdijkl" [(EVar "contracted_intermediate")])));
   (*L2177*) SAssign "contracted_intermediate" (EScale (-1 # 1) (EEins "abef,ecjk,fdil->abcdijkl" [(ESlice (EVar "g_aaaa") [SV "v"; SV "v"; SV "v"; SV "v"]); (EVar "t2_aaaa"); (EVar "t2_abab")]));
   (*L2178*) SAug true "quadruples_res" (EAdd (EAdd (EAdd (EScale (1 # 1) (EVar "contracted_intermediate")) (EScale (-1 # 1) (EEins "abcdijkl->abcdkjil" [(EVar "contracted_intermediate")]))) (EScale (-1 # 1) (EEins "abcdijkl->acbdijkl" [(EVar "contracted_intermediate")]))) (EScale (1 # 1) (EEins "abcdijkl->acbdkjil" [(EVar "contracted_intermediate")])));
   (*L2181*) SAssign "contracted_intermediate" (EScale (-1 # 1) (EEins "adfe,bekl,fcij->abcdijkl" [(ESlice (EVar "g_abab") [SV "v"; SV "v"; SV "v"; SV "v"]); (EVar "t2_abab"); (EVar "t2_aaaa")]));
   (*L2182*) SAug true "quadruples_res" (EAdd (EAdd (EAdd (EScale (1 # 1) (EVar "contracted_intermediate")) (EScale (-1 # 1) (EEins "abcdijkl->abcdikjl" [(EVar "contracted_intermediate")]))) (EScale (-1 # 1) (EEins "abcdijkl->bacdijkl" [(EVar "contracted_intermediate")]))) (EScale (1 # 1) (EEins "abcdijkl->bacdikjl" [(EVar "contracted_intermediate")])));
   (*L2185*) SAssign "contracted_intermediate" (EScale (-1 # 1) (EEins "adfe,beil,fcjk->abcdijkl" [(ESlice (EVar "g_abab") [SV "v"; SV "v"; SV "v"; SV "v"]); (EVar "t2_abab"); (EVar "t2_aaaa")]));
   (*L2186*) SAug true "quadruples_res" (EAdd (EScale (1 # 1) (EVar "contracted_intermediate")) (EScale (-1 # 1) (EEins "abcdijkl->bacdijkl" [(EVar "contracted_intermediate")])));
   (*L2189*) SAssign "contracted_intermediate" (EScale (-1 # 1) (EEins "adef,ebik,cfjl->abcdijkl" [(ESlice (EVar "g_abab") [SV "v"; SV "v"; SV "v"; SV "v"]); (EVar "t2_aaaa"); (EVar "t2_abab")]));
   (*L2190*) SAug true "quadruples_res" (EAdd (EScale (1 # 1) (EVar "contracted_intermediate")) (EScale (-1 # 1) (EEins "abcdijkl->bacdijkl" [(EVar "contracted_intermediate")])));
   (*L2193*) SAssign "contracted_intermediate" (EScale (1 # 1) (EEins "adef,ebjk,cfil->abcdijkl" [(ESlice (EVar "g_abab") [SV "v"; SV "v"; SV "v"; SV "v"]); (EVar "t2_aaaa"); (EVar "t2_abab")]));
   (*L2194*) SAug true "quadruples_res" (EAdd (EAdd (EAdd (EScale (1 # 1) (EVar "contracted_intermediate")) (EScale (-1 # 1) (EEins "abcdijkl->abcdkjil" [(EVar "contracted_intermediate")]))) (EScale (-1 # 1) (EEins "abcdijkl->bacdijkl" [(EVar "contracted_intermediate")]))) (EScale (1 # 1) (EEins "abcdijkl->bacdkjil" [(EVar "contracted_intermediate")])));
   (*L2197*) SAssign "contracted_intermediate" (EScale (-1 # 1) (EEins "cdfe,aekl,fbij->abcdijkl" [(ESlice (EVar "g_abab") [SV "v"; SV "v"; SV "v"; SV "v"]); (EVar "t2_abab"); (EVar "t2_aaaa")]));
   (*L2198*) SAug true "quadruples_res" (EAdd (EScale (1 # 1) (EVar "contracted_intermediate")) (EScale (-1 # 1) (EEins "abcdijkl->abcdikjl" [(EVar "contracted_intermediate")])));
   (*L2201*) SAug true "quadruples_res" (EScale (-1 # 1) (EEins "cdfe,aeil,fbjk->abcdijkl" [(ESlice (EVar "g_abab") [SV "v"; SV "v"; SV "v"; SV "v"]); (EVar "t2_abab"); (EVar "t2_aaaa")]));
   (*L2204*) SAug true "quadruples_res" (EScale (1 # 1) (EEins "bcef,eaik,fdjl->abcdijkl" [(ESlice (EVar "g_aaaa") [SV "v"; SV "v"; SV "v"; SV "v"]); (EVar "t2_aaaa"); (EVar "t2_abab")]));
   (*L2207*) SAug true "quadruples_res" (EScale (-1 # 1) (EEins "cdef,eaik,bfjl->abcdijkl" [(ESlice (EVar "g_abab") [SV "v"; SV "v"; SV "v"; SV "v"]); (EVar "t2_aaaa"); (EVar "t2_abab")]));
   (*L2210*) SAssign "contracted_intermediate" (EScale (-1 # 1) (EEins "bcef,eajk,fdil->abcdijkl" [(ESlice (EVar "g_aaaa") [SV "v"; SV "v"; SV "v"; SV "v"]); (EVar "t2_aaaa"); (EVar "t2_abab")]));
   (*L2211*) SAug true "quadruples_res" (EAdd (EScale (1 # 1) (EVar "contracted_intermediate")) (EScale (-1 # 1) (EEins "abcdijkl->abcdkjil" [(EVar "contracted_intermediate")])));
   (*L2214*) SAssign "contracted_intermediate" (EScale (1 # 1) (EEins "cdef,eajk,bfil->abcdijkl" [(ESlice (EVar "g_abab") [SV "v"; SV "v"; SV "v"; SV "v"]); (EVar "t2_aaaa"); (EVar "t2_abab")]));
   (*L2215*) SAug true "quadruples_res" (EAdd (EScale (1 # 1) (EVar "contracted_intermediate")) (EScale (-1 # 1) (EEins "abcdijkl->abcdkjil" [(EVar "contracted_intermediate")])));
   (*L2218*) SAssign "contracted_intermediate" (EScale (1 # 2) (EEins "mnef,efkl,abjm,cdin->abcdijkl" [(ESlice (EVar "g_abab") [SV "o"; SV "o"; SV "v"; SV "v"]); (EVar "t2_abab"); (EVar "t2_aaaa"); (EVar "t2_abab")]));
   (*L2219*) SAug true "quadruples_res" (EAdd (EAdd (EAdd (EScale (1 # 1) (EVar "contracted_intermediate")) (EScale (-1 # 1) (EEins "abcdijkl->abcdjikl" [(EVar "contracted_intermediate")]))) (EScale (-1 # 1) (EEins "abcdijkl->acbdijkl" [(EVar "contracted_intermediate")]))) (EScale (1 # 1) (EEins "abcdijkl->acbdjikl" [(EVar "contracted_intermediate")])));
   (*L2222*) SAssign "contracted_intermediate" (EScale (1 # 2) (EEins "mnfe,fekl,abjm,cdin->abcdijkl" [(ESlice (EVar "g_abab") [SV "o"; SV "o"; SV "v"; SV "v"]); (EVar "t2_abab"); (EVar "t2_aaaa"); (EVar "t2_abab")]));
   (*L2223*) SAug true "quadruples_res" (EAdd (EAdd (EAdd (EScale (1 # 1) (EVar "contracted_intermediate")) (EScale (-1 # 1) (EEins "abcdijkl->abcdjikl" [(EVar "contracted_intermediate")]))) (EScale (-1 # 1) (EEins "abcdijkl->acbdijkl" [(EVar "contracted_intermediate")]))) (EScale (1 # 1) (EEins "abcdijkl->acbdjikl" [(EVar "contracted_intermediate")])));
   (*L2226*) SAssign "contracted_intermediate" (EScale (-1 # 2) (EEins "nmef,efkl,adjm,bcin->abcdijkl" [(ESlice (EVar "g_abab") [SV "o"; SV "o"; SV "v"; SV "v"]); (EVar "t2_abab"); (EVar "t2_abab"); (EVar "t2_aaaa")]));
   (*L2227*) SAug true "quadruples_res" (EAdd (EScale (1 # 1) (EVar "contracted_intermediate")) (EScale (-1 # 1) (EEins "abcdijkl->abcdjikl" [(EVar "contracted_intermediate")])));
   (*L2230*) SAssign "contracted_intermediate" (EScale (-1 # 2) (EEins "nmfe,fekl,adjm,bcin->abcdijkl" [(ESlice (EVar "g_abab") [SV "o"; SV "o"; SV "v"; SV "v"]); (EVar "t2_abab"); (EVar "t2_abab"); (EVar "t2_aaaa")]));
   (*L2231*) SAug true "quadruples_res" (EAdd (EScale (1 # 1) (EVar "contracted_intermediate")) (EScale (-1 # 1) (EEins "abcdijkl->abcdjikl" [(EVar "contracted_intermediate")])));
   (*L2234*) SAssign "contracted_intermediate" (EScale (-1 # 2) (EEins "mnef,efjl,abkm,cdin->abcdijkl" [(ESlice (EVar "g_abab") [SV "o"; SV "o"; SV "v"; SV "v"]); (EVar "t2_abab"); (EVar "t2_aaaa"); (EVar "t2_abab")]));
   (*L2235*) SAug true "quadruples_res" (EAdd (EAdd (EAdd (EScale (1 # 1) (EVar "contracted_intermediate")) (EScale (-1 # 1) (EEins "abcdijkl->abcdkjil" [(EVar "contracted_intermediate")]))) (EScale (-1 # 1) (EEins "abcdijkl->acbdijkl" [(EVar "contracted_intermediate")]))) (EScale (1 # 1) (EEins "abcdijkl->acbdkjil" [(EVar "contracted_intermediate")])));
   (*L2238*) SAssign "contracted_intermediate" (EScale (-1 # 2) (EEins "mnfe,fejl,abkm,cdin->abcdijkl" [(ESlice (EVar "g_abab") [SV "o"; SV "o"; SV "v"; SV "v"]); (EVar "t2_abab"); (EVar "t2_aaaa"); (EVar "t2_abab")]));
   (*L2239*) SAug true "quadruples_res" (EAdd (EAdd (EAdd (EScale (1 # 1) (EVar "contracted_intermediate")) (EScale (-1 # 1) (EEins "abcdijkl->abcdkjil" [(EVar "contracted_intermediate")]))) (EScale (-1 # 1) (EEins "abcdijkl->acbdijkl" [(EVar "contracted_intermediate")]))) (EScale (1 # 1) (EEins "abcdijkl->acbdkjil" [(EVar "contracted_intermediate")])));
   (*L2242*) SAssign "contracted_intermediate" (EScale (1 # 2) (EEins "nmef,efjl,adkm,bcin->abcdijkl" [(ESlice (EVar "g_abab") [SV "o"; SV "o"; SV "v"; SV "v"]); (EVar "t2_abab"); (EVar "t2_abab"); (EVar "t2_aaaa")]));
   (*L2243*) SAug true "quadruples_res" (EAdd (EScale (1 # 1) (EVar "contracted_intermediate")) (EScale (-1 # 1) (EEins "abcdijkl->abcdkjil" [(EVar "contracted_intermediate")])));
   (*L2246*) SAssign "contracted_intermediate" (EScale (1 # 2) (EEins "nmfe,fejl,adkm,bcin->abcdijkl" [(ESlice (EVar "g_abab") [SV "o"; SV "o"; SV "v"; SV "v"]); (EVar "t2_abab"); (EVar "t2_abab"); (EVar "t2_aaaa")]));
   (*L2247*) SAug true "quadruples_res" (EAdd (EScale (1 # 1) (EVar "contracted_intermediate")) (EScale (-1 # 1) (EEins "abcdijkl->abcdkjil" [(EVar "contracted_intermediate")])));
   (*L2250*) SAssign "contracted_intermediate" (EScale (1 # 2) (EEins "mnef,efil,abkm,cdjn->abcdijkl" [(ESlice (EVar "g_abab") [SV "o"; SV "o"; SV "v"; SV "v"]); (EVar "t2_abab"); (EVar "t2_aaaa"); (EVar "t2_abab")]));
   (*L2251*) SAug true "quadruples_res" (EAdd (EAdd (EAdd (EScale (1 # 1) (EVar "contracted_intermediate")) (EScale (-1 # 1) (EEins "abcdijkl->abcdikjl" [(EVar "contracted_intermediate")]))) (EScale (-1 # 1) (EEins "abcdijkl->acbdijkl" [(EVar "contracted_intermediate")]))) (EScale (1 # 1) (EEins "abcdijkl->acbdikjl" [(EVar "contracted_intermediate")])));
   (*L2254*) SAssign "contracted_intermediate" (EScale (1 # 2) (EEins "mnfe,feil,abkm,cdjn->abcdijkl" [(ESlice (EVar "g_abab") [SV "o"; SV "o"; SV "v"; SV "v"]); (EVar "t2_abab"); (EVar "t2_aaaa"); (EVar "t2_abab")]));
   (*L2255*) SAug true "quadruples_res" (EAdd (EAdd (EAdd (EScale (1 # 1) (EVar "contracted_intermediate")) (EScale (-1 # 1) (EEins "abcdijkl->abcdikjl" [(EVar "contracted_intermediate")]))) (EScale (-1 # 1) (EEins "abcdijkl->acbdijkl" [(EVar "contracted_intermediate")]))) (EScale (1 # 1) (EEins "abcdijkl->acbdikjl" [(EVar "contracted_intermediate")])));
   (*L2258*) SAssign "contracted_intermediate" (EScale (-1 # 2) (EEins "nmef,efil,adkm,bcjn->abcdijkl" [(ESlice (EVar "g_abab") [SV "o"; SV "o"; SV "v"; SV "v"]); (EVar "t2_abab"); (EVar "t2_abab"); (EVar "t2_aaaa")]));
   (*L2259*) SAug true "quadruples_res" (EAdd (EScale (1 # 1) (EVar "contracted_intermediate")) (EScale (-1 # 1) (EEins "abcdijkl->abcdikjl" [(EVar "contracted_intermediate")])));
   (*L2262*) SAssign "contracted_intermediate" (EScale (-1 # 2) (EEins "nmfe,feil,adkm,bcjn->abcdijkl" [(ESlice (EVar "g_abab") [SV "o"; SV "o"; SV "v"; SV "v"]); (EVar "t2_abab"); (EVar "t2_abab"); (EVar "t2_aaaa")]));
   (*L2263*) SAug true "quadruples_res" (EAdd (EScale (1 # 1) (EVar "contracted_intermediate")) (EScale (-1 # 1) (EEins "abcdijkl->abcdikjl" [(EVar "contracted_intermediate")])));
   (*L2266*) SAssign "contracted_intermediate" (EScale (-1 # 2) (EEins "nmef,efjk,abim,cdnl->abcdijkl" [(ESlice (EVar "g_aaaa") [SV "o"; SV "o"; SV "v"; SV "v"]); (EVar "t2_aaaa"); (EVar "t2_aaaa"); (EVar "t2_abab")]));
   (*L2267*) SAug true "quadruples_res" (EAdd (EScale (1 # 1) (EVar "contracted_intermediate")) (EScale (-1 # 1) (EEins "abcdijkl->acbdijkl" [(EVar "contracted_intermediate")])));
   (*L2270*) SAug true "quadruples_res" (EScale (1 # 2) (EEins "nmef,efjk,adml,bcin->abcdijkl" [(ESlice (EVar "g_aaaa") [SV "o"; SV "o"; SV "v"; SV "v"]); (EVar "t2_aaaa"); (EVar "t2_abab"); (EVar "t2_aaaa")]));
   (*L2273*) SAssign "contracted_intermediate" (EScale (1 # 2) (EEins "nmef,efik,abjm,cdnl->abcdijkl" [(ESlice (EVar "g_aaaa") [SV "o"; SV "o"; SV "v"; SV "v"]); (EVar "t2_aaaa"); (EVar "t2_aaaa"); (EVar "t2_abab")]));
   (*L2274*) SAug true "quadruples_res" (EAdd (EScale (1 # 1) (EVar "contracted_intermediate")) (EScale (-1 # 1) (EEins "abcdijkl->acbdijkl" [(EVar "contracted_intermediate")])));
   (*L2277*) SAug true "quadruples_res" (EScale (-1 # 2) (EEins "nmef,efik,adml,bcjn->abcdijkl" [(ESlice (EVar "g_aaaa") [SV "o"; SV "o"; SV "v"; SV "v"]); (EVar "t2_aaaa"); (EVar "t2_abab"); (EVar "t2_aaaa")]));
   (*L2280*) SAssign "contracted_intermediate" (EScale (-1 # 2) (EEins "nmef,efij,abkm,cdnl->abcdijkl" [(ESlice (EVar "g_aaaa") [SV "o"; SV "o"; SV "v"; SV "v"]); (EVar "t2_aaaa"); (EVar "t2_aaaa"); (EVar "t2_abab")]));
   (*L2281*) SAug true "quadruples_res" (EAdd (EScale (1 # 1) (EVar "contracted_intermediate")) (EScale (-1 # 1) (EEins "abcdijkl->acbdijkl" [(EVar "contracted_intermediate")])));
   (*L2284*) SAug true "quadruples_res" (EScale (1 # 2) (EEins "nmef,efij,adml,bckn->abcdijkl" [(ESlice (EVar "g_aaaa") [SV "o"; SV "o"; SV "v"; SV "v"]); (EVar "t2_aaaa"); (EVar "t2_abab"); (EVar "t2_aaaa")]));
   (*L2287*) SAssign "contracted_intermediate" (EScale (1 # 1) (EEins "mnfe,aeml,fbjk,cdin->abcdijkl" [(ESlice (EVar "g_abab") [SV "o"; SV "o"; SV "v"; SV "v"]); (EVar "t2_abab"); (EVar "t2_aaaa"); (EVar "t2_abab")]));
   (*L2288*) SAug true "quadruples_res" (EAdd (EAdd (EAdd (EScale (1 # 1) (EVar "contracted_intermediate")) (EScale (-1 # 1) (EEins "abcdijkl->abcdjikl" [(EVar "contracted_intermediate")]))) (EScale (-1 # 1) (EEins "abcdijkl->acbdijkl" [(EVar "contracted_intermediate")]))) (EScale (1 # 1) (EEins "abcdijkl->acbdjikl" [(EVar "contracted_intermediate")])));
   (*L2291*) SAssign "contracted_intermediate" (EScale (1 # 1) (EEins "mnfe,aeml,fbij,cdkn->abcdijkl" [(ESlice (EVar "g_abab") [SV "o"; SV "o"; SV "v"; SV "v"]); (EVar "t2_abab"); (EVar "t2_aaaa"); (EVar "t2_abab")]));
   (*L2292*) SAug true "quadruples_res" (EAdd (EScale (1 # 1) (EVar "contracted_intermediate")) (EScale (-1 # 1) (EEins "abcdijkl->acbdijkl" [(EVar "contracted_intermediate")])));
   (*L2295*) SAssign "contracted_intermediate" (EScale (1 # 1) (EEins "nmef,eakm,fbij,cdnl->abcdijkl" [(ESlice (EVar "g_aaaa") [SV "o"; SV "o"; SV "v"; SV "v"]); (EVar "t2_aaaa"); (EVar "t2_aaaa"); (EVar "t2_abab")]));
   (*L2296*) SAug true "quadruples_res" (EAdd (EScale (1 # 1) (EVar "contracted_intermediate")) (EScale (-1 # 1) (EEins "abcdijkl->acbdijkl" [(EVar "contracted_intermediate")])));
   (*L2299*) SAssign "contracted_intermediate" (EScale (1 # 1) (EEins "nmfe,aekm,fbij,cdnl->abcdijkl" [(ESlice (EVar "g_abab") [SV "o"; SV "o"; SV "v"; SV "v"]); (EVar "t2_abab"); (EVar "t2_aaaa"); (EVar "t2_abab")]));
   (*L2300*) SAug true "quadruples_res" (EAdd (EScale (1 # 1) (EVar "contracted_intermediate")) (EScale (-1 # 1) (EEins "abcdijkl->acbdijkl" [(EVar "contracted_intermediate")])));
   (*L2303*) SAssign "contracted_intermediate" (EScale (-1 # 1) (EEins "mnef,eakm,bfjl,cdin->abcdijkl" [(ESlice (EVar "g_abab") [SV "o"; SV "o"; SV "v"; SV "v"]); (EVar "t2_aaaa"); (EVar "t2_abab"); (EVar "t2_abab")]));
   (*L2304*) SAug true "quadruples_res" (EAdd (EAdd (EAdd (EScale (1 # 1) (EVar "contracted_intermediate")) (EScale (-1 # 1) (EEins "abcdijkl->abcdjikl" [(EVar "contracted_intermediate")]))) (EScale (-1 # 1) (EEins "abcdijkl->acbdijkl" [(EVar "contracted_intermediate")]))) (EScale (1 # 1) (EEins "abcdijkl->acbdjikl" [(EVar "contracted_intermediate")])));
   (*L2307*) SAssign "contracted_intermediate" (EScale (-1 # 1) (EEins "nmef,aekm,bfjl,cdin->abcdijkl" [(ESlice (EVar "g_bbbb") [SV "o"; SV "o"; SV "v"; SV "v"]); (EVar "t2_abab"); (EVar "t2_abab"); (EVar "t2_abab")]));
   (*L2308*) SAug true "quadruples_res" (EAdd (EAdd (EAdd (EScale (1 # 1) (EVar "contracted_intermediate")) (EScale (-1 # 1) (EEins "abcdijkl->abcdjikl" [(EVar "contracted_intermediate")]))) (EScale (-1 # 1) (EEins "abcdijkl->acbdijkl" [(EVar "contracted_intermediate")]))) (EScale (1 # 1) (EEins "abcdijkl->acbdjikl" [(EVar "contracted_intermediate")])));
   (*L2311*) SAssign "contracted_intermediate" (EScale (-1 # 1) (EEins "nmef,eakm,fdjl,bcin->abcdijkl" [(ESlice (EVar "g_aaaa") [SV "o"; SV "o"; SV "v"; SV "v"]); (EVar "t2_aaaa"); (EVar "t2_abab"); (EVar "t2_aaaa")]));
   (*L2312*) SAug true "quadruples_res" (EAdd (EAdd (EAdd (EScale (1 # 1) (EVar "contracted_intermediate")) (EScale (-1 # 1) (EEins "abcdijkl->abcdjikl" [(EVar "contracted_intermediate")]))) (EScale (-1 # 1) (EEins "abcdijkl->bacdijkl" [(EVar "contracted_intermediate")]))) (EScale (1 # 1) (EEins "abcdijkl->bacdjikl" [(EVar "contracted_intermediate")])));
   (*L2315*) SAssign "contracted_intermediate" (EScale (-1 # 1) (EEins "nmfe,aekm,fdjl,bcin->abcdijkl" [(ESlice (EVar "g_abab") [SV "o"; SV "o"; SV "v"; SV "v"]); (EVar "t2_abab"); (EVar "t2_abab"); (EVar "t2_aaaa")]));
   (*L2316*) SAug true "quadruples_res" (EAdd (EAdd (EAdd (EScale (1 # 1) (EVar "contracted_intermediate")) (EScale (-1 # 1) (EEins "abcdijkl->abcdjikl" [(EVar "contracted_intermediate")]))) (EScale (-1 # 1) (EEins "abcdijkl->bacdijkl" [(EVar "contracted_intermediate")]))) (EScale (1 # 1) (EEins "abcdijkl->bacdjikl" [(EVar "contracted_intermediate")])));
   (*L2319*) SAssign "contracted_intermediate" (EScale (1 # 1) (EEins "mnef,eajm,bfkl,cdin->abcdijkl" [(ESlice (EVar "g_abab") [SV "o"; SV "o"; SV "v"; SV "v"]); (EVar "t2_aaaa"); (EVar "t2_abab"); (EVar "t2_abab")]));
   (*L2320*) SAug true "quadruples_res" (EAdd (EAdd (EAdd (EScale (1 # 1) (EVar "contracted_intermediate")) (EScale (-1 # 1) (EEins "abcdijkl->abcdkjil" [(EVar "contracted_intermediate")]))) (EScale (-1 # 1) (EEins "abcdijkl->acbdijkl" [(EVar "contracted_intermediate")]))) (EScale (1 # 1) (EEins "abcdijkl->acbdkjil" [(EVar "contracted_intermediate")])));
   (*L2323*) SAssign "contracted_intermediate" (EScale (1 # 1) (EEins "nmef,aejm,bfkl,cdin->abcdijkl" [(ESlice (EVar "g_bbbb") [SV "o"; SV "o"; SV "v"; SV "v"]); (EVar "t2_abab"); (EVar "t2_abab"); (EVar "t2_abab")]));
   (*L2324*) SAug true "quadruples_res" (EAdd (EAdd (EAdd (EScale (1 # 1) (EVar "contracted_intermediate")) (EScale (-1 # 1) (EEins "abcdijkl->abcdkjil" [(EVar "contracted_intermediate")]))) (EScale (-1 # 1) (EEins "abcdijkl->acbdijkl" [(EVar "contracted_intermediate")]))) (EScale (1 # 1) (EEins "abcdijkl->acbdkjil" [(EVar "contracted_intermediate")])));
   (*L2327*) SAssign "contracted_intermediate" (EScale (-1 # 1) (EEins "nmef,eajm,fbik,cdnl->abcdijkl" [(ESlice (EVar "g_aaaa") [SV "o"; SV "o"; SV "v"; SV "v"]); (EVar "t2_aaaa"); (EVar "t2_aaaa"); (EVar "t2_abab")]));
   (*L2328*) SAug true "quadruples_res" (EAdd (EAdd (EAdd (EScale (1 # 1) (EVar "contracted_intermediate")) (EScale (-1 # 1) (EEins "abcdijkl->abcdjikl" [(EVar "contracted_intermediate")]))) (EScale (-1 # 1) (EEins "abcdijkl->acbdijkl" [(EVar "contracted_intermediate")]))) (EScale (1 # 1) (EEins "abcdijkl->acbdjikl" [(EVar "contracted_intermediate")])));
   (*L2331*) SAssign "contracted_intermediate" (EScale (-1 # 1) (EEins "nmfe,aejm,fbik,cdnl->abcdijkl" [(ESlice (EVar "g_abab") [SV "o"; SV "o"; SV "v"; SV "v"]); (EVar "t2_abab"); (EVar "t2_aaaa"); (EVar "t2_abab")]));
   (*L2332*) SAug true "quadruples_res" (EAdd (EAdd (EAdd (EScale (1 # 1) (EVar "contracted_intermediate")) (EScale (-1 # 1) (EEins "abcdijkl->abcdjikl" [(EVar "contracted_intermediate")]))) (EScale (-1 # 1) (EEins "abcdijkl->acbdijkl" [(EVar "contracted_intermediate")]))) (EScale (1 # 1) (EEins "abcdijkl->acbdjikl" [(EVar "contracted_intermediate")])));
   (*L2335*) SAssign "contracted_intermediate" (EScale (1 # 1) (EEins "nmef,eajm,fdkl,bcin->abcdijkl" [(ESlice (EVar "g_aaaa") [SV "o"; SV "o"; SV "v"; SV "v"]); (EVar "t2_aaaa"); (EVar "t2_abab"); (EVar "t2_aaaa")]));
   (*L2336*) SAug true "quadruples_res" (EAdd (EAdd (EAdd (EScale (1 # 1) (EVar "contracted_intermediate")) (EScale (-1 # 1) (EEins "abcdijkl->abcdkjil" [(EVar "contracted_intermediate")]))) (EScale (-1 # 1) (EEins "abcdijkl->bacdijkl" [(EVar "contracted_intermediate")]))) (EScale (1 # 1) (EEins "abcdijkl->bacdkjil" [(EVar "contracted_intermediate")])));
   (*L2339*) SAssign "contracted_intermediate" (EScale (1 # 1) (EEins "nmfe,aejm,fdkl,bcin->abcdijkl" [(ESlice (EVar "g_abab") [SV "o"; SV "o"; SV "v"; SV "v"]); (EVar "t2_abab"); (EVar "t2_abab"); (EVar "t2_aaaa")]));
   (*L2340*) SAug true "quadruples_res" (EAdd (EAdd (EAdd (EScale (1 # 1) (EVar "contracted_intermediate")) (EScale (-1 # 1) (EEins "abcdijkl->abcdkjil" [(EVar "contracted_intermediate")]))) (EScale (-1 # 1) (EEins "abcdijkl->bacdijkl" [(EVar "contracted_intermediate")]))) (EScale (1 # 1) (EEins "abcdijkl->bacdkjil" [(EVar "contracted_intermediate")])));
   (*L2343*) SAssign "contracted_intermediate" (EScale (-1 # 1) (EEins "mnef,eaim,bfkl,cdjn->abcdijkl" [(ESlice (EVar "g_abab") [SV "o"; SV "o"; SV "v"; SV "v"]); (EVar "t2_aaaa"); (EVar "t2_abab"); (EVar "t2_abab")]));
   (*L2344*) SAug true "quadruples_res" (EAdd (EAdd (EAdd (EScale (1 # 1) (EVar "contracted_intermediate")) (EScale (-1 # 1) (EEins "abcdijkl->abcdikjl" [(EVar "contracted_intermediate")]))) (EScale (-1 # 1) (EEins "abcdijkl->acbdijkl" [(EVar "contracted_intermediate")]))) (EScale (1 # 1) (EEins "abcdijkl->acbdikjl" [(EVar "contracted_intermediate")])));
   (*L2347*) SAssign "contracted_intermediate" (EScale (-1 # 1) (EEins "nmef,aeim,bfkl,cdjn->abcdijkl" [(ESlice (EVar "g_bbbb") [SV "o"; SV "o"; SV "v"; SV "v"]); (EVar "t2_abab"); (EVar "t2_abab"); (EVar "t2_abab")]));
   (*L2348*) SAug true "quadruples_res" (EAdd (EAdd (EAdd (EScale (1 # 1) (EVar "contracted_intermediate")) (EScale (-1 # 1) (EEins "abcdijkl->abcdikjl" [(EVar "contracted_intermediate")]))) (EScale (-1 # 1) (EEins "abcdijkl->acbdijkl" [(EVar "contracted_intermediate")]))) (EScale (1 # 1) (EEins "abcdijkl->acbdikjl" [(EVar "contracted_intermediate")])));
   (*L2351*) SAssign "contracted_intermediate" (EScale (-1 # 1) (EEins "nmef,eaim,fdkl,bcjn->abcdijkl" [(ESlice (EVar "g_aaaa") [SV "o"; SV "o"; SV "v"; SV "v"]); (EVar "t2_aaaa"); (EVar "t2_abab"); (EVar "t2_aaaa")]));
   (*L2352*) SAug true "quadruples_res" (EAdd (EAdd (EAdd (EScale (1 # 1) (EVar "contracted_intermediate")) (EScale (-1 # 1) (EEins "abcdijkl->abcdikjl" [(EVar "contracted_intermediate")]))) (EScale (-1 # 1) (EEins "abcdijkl->bacdijkl" [(EVar "contracted_intermediate")]))) (EScale (1 # 1) (EEins "abcdijkl->bacdikjl" [(EVar "contracted_intermediate")])));
   (*L2355*) SAssign "contracted_intermediate" (EScale (-1 # 1) (EEins "nmfe,aeim,fdkl,bcjn->abcdijkl" [(ESlice (EVar "g_abab") [SV "o"; SV "o"; SV "v"; SV "v"]); (EVar "t2_abab"); (EVar "t2_abab"); (EVar "t2_aaaa")]));
   (*L2356*) SAug true "quadruples_res" (EAdd (EAdd (EAdd (EScale (1 # 1) (EVar "contracted_intermediate")) (EScale (-1 # 1) (EEins "abcdijkl->abcdikjl" [(EVar "contracted_intermediate")]))) (EScale (-1 # 1) (EEins "abcdijkl->bacdijkl" [(EVar "contracted_intermediate")]))) (EScale (1 # 1) (EEins "abcdijkl->bacdikjl" [(EVar "contracted_intermediate")])));
   (*L2359*) SAssign "contracted_intermediate" (EScale (-1 # 1) (EEins "mnfe,aekl,fbjm,cdin->abcdijkl" [(ESlice (EVar "g_abab") [SV "o"; SV "o"; SV "v"; SV "v"]); (EVar "t2_abab"); (EVar "t2_aaaa"); (EVar "t2_abab")]));
   (*L2360*) SAug true "quadruples_res" (EAdd (EAdd (EAdd (EScale (1 # 1) (EVar "contracted_intermediate")) (EScale (-1 # 1) (EEins "abcdijkl->abcdjikl" [(EVar "contracted_intermediate")]))) (EScale (-1 # 1) (EEins "abcdijkl->acbdijkl" [(EVar "contracted_intermediate")]))) (EScale (1 # 1) (EEins "abcdijkl->acbdjikl" [(EVar "contracted_intermediate")])));
   (*L2363*) SAssign "contracted_intermediate" (EScale (1 # 1) (EEins "nmef,aekl,bfjm,cdin->abcdijkl" [(ESlice (EVar "g_bbbb") [SV "o"; SV "o"; SV "v"; SV "v"]); (EVar "t2_abab"); (EVar "t2_abab"); (EVar "t2_abab")]));
   (*L2364*) SAug true "quadruples_res" (EAdd (EAdd (EAdd (EScale (1 # 1) (EVar "contracted_intermediate")) (EScale (-1 # 1) (EEins "abcdijkl->abcdjikl" [(EVar "contracted_intermediate")]))) (EScale (-1 # 1) (EEins "abcdijkl->acbdijkl" [(EVar "contracted_intermediate")]))) (EScale (1 # 1) (EEins "abcdijkl->acbdjikl" [(EVar "contracted_intermediate")])));
   (*L2367*) SAssign "contracted_intermediate" (EScale (-1 # 2) (EEins "nmfe,aekl,fbij,cdnm->abcdijkl" [(ESlice (EVar "g_abab") [SV "o"; SV "o"; SV "v"; SV "v"]); (EVar "t2_abab"); (EVar "t2_aaaa"); (EVar "t2_abab")]));
   (*L2368*) SAug true "quadruples_res" (EAdd (EAdd (EAdd (EScale (1 # 1) (EVar "contracted_intermediate")) (EScale (-1 # 1) (EEins "abcdijkl->abcdikjl" [(EVar "contracted_intermediate")]))) (EScale (-1 # 1) (EEins "abcdijkl->acbdijkl" [(EVar "contracted_intermediate")]))) (EScale (1 # 1) (EEins "abcdijkl->acbdikjl" [(EVar "contracted_intermediate")])));
   (*L2371*) SAssign "contracted_intermediate" (EScale (-1 # 2) (EEins "mnfe,aekl,fbij,cdmn->abcdijkl" [(ESlice (EVar "g_abab") [SV "o"; SV "o"; SV "v"; SV "v"]); (EVar "t2_abab"); (EVar "t2_aaaa"); (EVar "t2_abab")]));
   (*L2372*) SAug true "quadruples_res" (EAdd (EAdd (EAdd (EScale (1 # 1) (EVar "contracted_intermediate")) (EScale (-1 # 1) (EEins "abcdijkl->abcdikjl" [(EVar "contracted_intermediate")]))) (EScale (-1 # 1) (EEins "abcdijkl->acbdijkl" [(EVar "contracted_intermediate")]))) (EScale (1 # 1) (EEins "abcdijkl->acbdikjl" [(EVar "contracted_intermediate")])));
   (*L2375*) SAssign "contracted_intermediate" (EScale (1 # 1) (EEins "nmfe,aekl,fdjm,bcin->abcdijkl" [(ESlice (EVar "g_abab") [SV "o"; SV "o"; SV "v"; SV "v"]); (EVar "t2_abab"); (EVar "t2_abab"); (EVar "t2_aaaa")]));
   (*L2376*) SAug true "quadruples_res" (EAdd (EAdd (EAdd (EScale (1 # 1) (EVar "contracted_intermediate")) (EScale (-1 # 1) (EEins "abcdijkl->abcdjikl" [(EVar "contracted_intermediate")]))) (EScale (-1 # 1) (EEins "abcdijkl->bacdijkl" [(EVar "contracted_intermediate")]))) (EScale (1 # 1) (EEins "abcdijkl->bacdjikl" [(EVar "contracted_intermediate")])));
   (*L2379*) SAssign "contracted_intermediate" (EScale (1 # 1) (EEins "mnfe,aejl,fbkm,cdin->abcdijkl" [(ESlice (EVar "g_abab") [SV "o"; SV "o"; SV "v"; SV "v"]); (EVar "t2_abab"); (EVar "t2_aaaa"); (EVar "t2_abab")]));
   (*L2380*) SAug true "quadruples_res" (EAdd (EAdd (EAdd (EScale (1 # 1) (EVar "contracted_intermediate")) (EScale (-1 # 1) (EEins "abcdijkl->abcdkjil" [(EVar "contracted_intermediate")]))) (EScale (-1 # 1) (EEins "abcdijkl->acbdijkl" [(EVar "contracted_intermediate")]))) (EScale (1 # 1) (EEins "abcdijkl->acbdkjil" [(EVar "contracted_intermediate")])));
   (*L2383*) SAssign "contracted_intermediate" (EScale (-1 # 1) (EEins "nmef,aejl,bfkm,cdin->abcdijkl" [(ESlice (EVar "g_bbbb") [SV "o"; SV "o"; SV "v"; SV "v"]); (EVar "t2_abab"); (EVar "t2_abab"); (EVar "t2_abab")]));
   (*L2384*) SAug true "quadruples_res" (EAdd (EAdd (EAdd (EScale (1 # 1) (EVar "contracted_intermediate")) (EScale (-1 # 1) (EEins "abcdijkl->abcdkjil" [(EVar "contracted_intermediate")]))) (EScale (-1 # 1) (EEins "abcdijkl->acbdijkl" [(EVar "contracted_intermediate")]))) (EScale (1 # 1) (EEins "abcdijkl->acbdkjil" [(EVar "contracted_intermediate")])));
   (*L2387*) SAssign "contracted_intermediate" (EScale (-1 # 1) (EEins "nmfe,aejl,fdkm,bcin->abcdijkl" [(ESlice (EVar "g_abab") [SV "o"; SV "o"; SV "v"; SV "v"]); (EVar "t2_abab"); (EVar "t2_abab"); (EVar "t2_aaaa")]));
   (*L2388*) SAug true "quadruples_res" (EAdd (EAdd (EAdd (EScale (1 # 1) (EVar "contracted_intermediate")) (EScale (-1 # 1) (EEins "abcdijkl->abcdkjil" [(EVar "contracted_intermediate")]))) (EScale (-1 # 1) (EEins "abcdijkl->bacdijkl" [(EVar "contracted_intermediate")]))) (EScale (1 # 1) (EEins "abcdijkl->bacdkjil" [(EVar "contracted_intermediate")])));
   (*L2391*) SAssign "contracted_intermediate" (EScale (-1 # 1) (EEins "mnfe,aeil,fbkm,cdjn->abcdijkl" [(ESlice (EVar "g_abab") [SV "o"; SV "o"; SV "v"; SV "v"]); (EVar "t2_abab"); (EVar "t2_aaaa"); (EVar "t2_abab")]));
   (*L2392*) SAug true "quadruples_res" (EAdd (EAdd (EAdd (EScale (1 # 1) (EVar "contracted_intermediate")) (EScale (-1 # 1) (EEins "abcdijkl->abcdikjl" [(EVar "contracted_intermediate")]))) (EScale (-1 # 1) (EEins "abcdijkl->acbdijkl" [(EVar "contracted_intermediate")]))) (EScale (1 # 1) (EEins "abcdijkl->acbdikjl" [(EVar "contracted_intermediate")])));
   (*L2395*) SAssign "contracted_intermediate" (EScale (1 # 1) (EEins "nmef,aeil,bfkm,cdjn->abcdijkl" [(ESlice (EVar "g_bbbb") [SV "o"; SV "o"; SV "v"; SV "v"]); (EVar "t2_abab"); (EVar "t2_abab"); (EVar "t2_abab")]));
   (*L2396*) SAug true "quadruples_res" (EAdd (EAdd (EAdd (EScale (1 # 1) (EVar "contracted_intermediate")) (EScale (-1 # 1) (EEins "abcdijkl->abcdikjl" [(EVar "contracted_intermediate")]))) (EScale (-1 # 1) (EEins "abcdijkl->acbdijkl" [(EVar "contracted_intermediate")]))) (EScale (1 # 1) (EEins "abcdijkl->acbdikjl" [(EVar "contracted_intermediate")])));
   (*L2399*) SAssign "contracted_intermediate" (EScale (-1 # 2) (EEins "nmfe,aeil,fbjk,cdnm->abcdijkl" [(ESlice (EVar "g_abab") [SV "o"; SV "o"; SV "v"; SV "v"]); (EVar "t2_abab"); (EVar "t2_aaaa"); (EVar "t2_abab")]));
   (*L2400*) SAug true "quadruples_res" (EAdd (EScale (1 # 1) (EVar "contracted_intermediate")) (EScale (-1 # 1) (EEins "abcdijkl->acbdijkl" [(EVar "contracted_intermediate")])));
   (*L2403*) SAssign "contracted_intermediate" (EScale (-1 # 2) (EEins "mnfe,aeil,fbjk,cdmn->abcdijkl" [(ESlice (EVar "g_abab") [SV "o"; SV "o"; SV "v"; SV "v"]); (EVar "t2_abab"); (EVar "t2_aaaa"); (EVar "t2_abab")]));
   (*L2404*) SAug true "quadruples_res" (EAdd (EScale (1 # 1) (EVar "contracted_intermediate")) (EScale (-1 # 1) (EEins "abcdijkl->acbdijkl" [(EVar "contracted_intermediate")])));
   (*L2407*) SAssign "contracted_intermediate" (EScale (-1 # 2) (EEins "nmef,eaik,bfjl,cdnm->abcdijkl" [(ESlice (EVar "g_abab") [SV "o"; SV "o"; SV "v"; SV "v"]); (EVar "t2_aaaa"); (EVar "t2_abab"); (EVar "t2_abab")]));
   (*L2408*) SAug true "quadruples_res" (EAdd (EScale (1 # 1) (EVar "contracted_intermediate")) (EScale (-1 # 1) (EEins "abcdijkl->acbdijkl" [(EVar "contracted_intermediate")])));
   (*L2411*) SAssign "contracted_intermediate" (EScale (-1 # 2) (EEins "mnef,eaik,bfjl,cdmn->abcdijkl" [(ESlice (EVar "g_abab") [SV "o"; SV "o"; SV "v"; SV "v"]); (EVar "t2_aaaa"); (EVar "t2_abab"); (EVar "t2_abab")]));
   (*L2412*) SAug true "quadruples_res" (EAdd (EScale (1 # 1) (EVar "contracted_intermediate")) (EScale (-1 # 1) (EEins "abcdijkl->acbdijkl" [(EVar "contracted_intermediate")])));
   (*L2415*) SAssign "contracted_intermediate" (EScale (1 # 1) (EEins "nmfe,aeil,fdkm,bcjn->abcdijkl" [(ESlice (EVar "g_abab") [SV "o"; SV "o"; SV "v"; SV "v"]); (EVar "t2_abab"); (EVar "t2_abab"); (EVar "t2_aaaa")]));
   (*L2416*) SAug true "quadruples_res" (EAdd (EAdd (EAdd (EScale (1 # 1) (EVar "contracted_intermediate")) (EScale (-1 # 1) (EEins "abcdijkl->abcdikjl" [(EVar "contracted_intermediate")]))) (EScale (-1 # 1) (EEins "abcdijkl->bacdijkl" [(EVar "contracted_intermediate")]))) (EScale (1 # 1) (EEins "abcdijkl->bacdikjl" [(EVar "contracted_intermediate")])));
   (*L2419*) SAssign "contracted_intermediate" (EScale (1 # 2) (EEins "nmef,eaik,fdjl,bcnm->abcdijkl" [(ESlice (EVar "g_aaaa") [SV "o"; SV "o"; SV "v"; SV "v"]); (EVar "t2_aaaa"); (EVar "t2_abab"); (EVar "t2_aaaa")]));
   (*L2420*) SAug true "quadruples_res" (EAdd (EScale (1 # 1) (EVar "contracted_intermediate")) (EScale (-1 # 1) (EEins "abcdijkl->bacdijkl" [(EVar "contracted_intermediate")])));
   (*L2423*) SAssign "contracted_intermediate" (EScale (-1 # 1) (EEins "mnef,eajk,bfml,cdin->abcdijkl" [(ESlice (EVar "g_abab") [SV "o"; SV "o"; SV "v"; SV "v"]); (EVar "t2_aaaa"); (EVar "t2_abab"); (EVar "t2_abab")]));
   (*L2424*) SAug true "quadruples_res" (EAdd (EScale (1 # 1) (EVar "contracted_intermediate")) (EScale (-1 # 1) (EEins "abcdijkl->acbdijkl" [(EVar "contracted_intermediate")])));
   (*L2427*) SAssign "contracted_intermediate" (EScale (1 # 1) (EEins "nmef,eajk,fbim,cdnl->abcdijkl" [(ESlice (EVar "g_aaaa") [SV "o"; SV "o"; SV "v"; SV "v"]); (EVar "t2_aaaa"); (EVar "t2_aaaa"); (EVar "t2_abab")]));
   (*L2428*) SAug true "quadruples_res" (EAdd (EScale (1 # 1) (EVar "contracted_intermediate")) (EScale (-1 # 1) (EEins "abcdijkl->acbdijkl" [(EVar "contracted_intermediate")])));
   (*L2431*) SAssign "contracted_intermediate" (EScale (-1 # 1) (EEins "nmef,eajk,bfim,cdnl->abcdijkl" [(ESlice (EVar "g_abab") [SV "o"; SV "o"; SV "v"; SV "v"]); (EVar "t2_aaaa"); (EVar "t2_abab"); (EVar "t2_abab")]));
   (*L2432*) SAug true "quadruples_res" (EAdd (EScale (1 # 1) (EVar "contracted_intermediate")) (EScale (-1 # 1) (EEins "abcdijkl->acbdijkl" [(EVar "contracted_intermediate")])));
   (*L2435*) SAssign "contracted_intermediate" (EScale (1 # 2) (EEins "nmef,eajk,bfil,cdnm->abcdijkl" [(ESlice (EVar "g_abab") [SV "o"; SV "o"; SV "v"; SV "v"]); (EVar "t2_aaaa"); (EVar "t2_abab"); (EVar "t2_abab")]));
   (*L2436*) SAug true "quadruples_res" (EAdd (EAdd (EAdd (EScale (1 # 1) (EVar "contracted_intermediate")) (EScale (-1 # 1) (EEins "abcdijkl->abcdkjil" [(EVar "contracted_intermediate")]))) (EScale (-1 # 1) (EEins "abcdijkl->acbdijkl" [(EVar "contracted_intermediate")]))) (EScale (1 # 1) (EEins "abcdijkl->acbdkjil" [(EVar "contracted_intermediate")])));
   (*L2439*) SAssign "contracted_intermediate" (EScale (1 # 2) (EEins "mnef,eajk,bfil,cdmn->abcdijkl" [(ESlice (EVar "g_abab") [SV "o"; SV "o"; SV "v"; SV "v"]); (EVar "t2_aaaa"); (EVar "t2_abab"); (EVar "t2_abab")]));
   (*L2440*) SAug true "quadruples_res" (EAdd (EAdd (EAdd (EScale (1 # 1) (EVar "contracted_intermediate")) (EScale (-1 # 1) (EEins "abcdijkl->abcdkjil" [(EVar "contracted_intermediate")]))) (EScale (-1 # 1) (EEins "abcdijkl->acbdijkl" [(EVar "contracted_intermediate")]))) (EScale (1 # 1) (EEins "abcdijkl->acbdkjil" [(EVar "contracted_intermediate")])));
   (*L2443*) SAssign "contracted_intermediate" (EScale (-1 # 1) (EEins "nmef,eajk,fdml,bcin->abcdijkl" [(ESlice (EVar "g_aaaa") [SV "o"; SV "o"; SV "v"; SV "v"]); (EVar "t2_aaaa"); (EVar "t2_abab"); (EVar "t2_aaaa")]));
   (*L2444*) SAug true "quadruples_res" (EAdd (EScale (1 # 1) (EVar "contracted_intermediate")) (EScale (-1 # 1) (EEins "abcdijkl->bacdijkl" [(EVar "contracted_intermediate")])));
   (*L2447*) SAssign "contracted_intermediate" (EScale (1 # 1) (EEins "nmef,eajk,fdlm,bcin->abcdijkl" [(ESlice (EVar "g_abab") [SV "o"; SV "o"; SV "v"; SV "v"]); (EVar "t2_aaaa"); (EVar "t2_bbbb"); (EVar "t2_aaaa")]));
   (*L2448*) SAug true "quadruples_res" (EAdd (EScale (1 # 1) (EVar "contracted_intermediate")) (EScale (-1 # 1) (EEins "abcdijkl->bacdijkl" [(EVar "contracted_intermediate")])));
   (*L2451*) SAssign "contracted_intermediate" (EScale (-1 # 2) (EEins "nmef,eajk,fdil,bcnm->abcdijkl" [(ESlice (EVar "g_aaaa") [SV "o"; SV "o"; SV "v"; SV "v"]); (EVar "t2_aaaa"); (EVar "t2_abab"); (EVar "t2_aaaa")]));
   (*L2452*) SAug true "quadruples_res" (EAdd (EAdd (EAdd (EScale (1 # 1) (EVar "contracted_intermediate")) (EScale (-1 # 1) (EEins "abcdijkl->abcdkjil" [(EVar "contracted_intermediate")]))) (EScale (-1 # 1) (EEins "abcdijkl->bacdijkl" [(EVar "contracted_intermediate")]))) (EScale (1 # 1) (EEins "abcdijkl->bacdkjil" [(EVar "contracted_intermediate")])));
   (*L2455*) SAssign "contracted_intermediate" (EScale (1 # 1) (EEins "mnef,eaik,bfml,cdjn->abcdijkl" [(ESlice (EVar "g_abab") [SV "o"; SV "o"; SV "v"; SV "v"]); (EVar "t2_aaaa"); (EVar "t2_abab"); (EVar "t2_abab")]));
   (*L2456*) SAug true "quadruples_res" (EAdd (EScale (1 # 1) (EVar "contracted_intermediate")) (EScale (-1 # 1) (EEins "abcdijkl->acbdijkl" [(EVar "contracted_intermediate")])));
   (*L2459*) SAssign "contracted_intermediate" (EScale (-1 # 1) (EEins "nmef,eaik,fbjm,cdnl->abcdijkl" [(ESlice (EVar "g_aaaa") [SV "o"; SV "o"; SV "v"; SV "v"]); (EVar "t2_aaaa"); (EVar "t2_aaaa"); (EVar "t2_abab")]));
   (*L2460*) SAug true "quadruples_res" (EAdd (EScale (1 # 1) (EVar "contracted_intermediate")) (EScale (-1 # 1) (EEins "abcdijkl->acbdijkl" [(EVar "contracted_intermediate")])));
   (*L2463*) SAssign "contracted_intermediate" (EScale (1 # 1) (EEins "nmef,eaik,bfjm,cdnl->abcdijkl" [(ESlice (EVar "g_abab") [SV "o"; SV "o"; SV "v"; SV "v"]); (EVar "t2_aaaa"); (EVar "t2_abab"); (EVar "t2_abab")]));
   (*L2464*) SAug true "quadruples_res" (EAdd (EScale (1 # 1) (EVar "contracted_intermediate")) (EScale (-1 # 1) (EEins "abcdijkl->acbdijkl" [(EVar "contracted_intermediate")])));
   (*L2467*) SAssign "contracted_intermediate" (EScale (1 # 1) (EEins "nmef,eaik,fdml,bcjn->abcdijkl" [(ESlice (EVar "g_aaaa") [SV "o"; SV "o"; SV "v"; SV "v"]); (EVar "t2_aaaa"); (EVar "t2_abab"); (EVar "t2_aaaa")]));
   (*L2468*) SAug true "quadruples_res" (EAdd (EScale (1 # 1) (EVar "contracted_intermediate")) (EScale (-1 # 1) (EEins "abcdijkl->bacdijkl" [(EVar "contracted_intermediate")])));
   (*L2471*) SAssign "contracted_intermediate" (EScale (-1 # 1) (EEins "nmef,eaik,fdlm,bcjn->abcdijkl" [(ESlice (EVar "g_abab") [SV "o"; SV "o"; SV "v"; SV "v"]); (EVar "t2_aaaa"); (EVar "t2_bbbb"); (EVar "t2_aaaa")]));
   (*L2472*) SAug true "quadruples_res" (EAdd (EScale (1 # 1) (EVar "contracted_intermediate")) (EScale (-1 # 1) (EEins "abcdijkl->bacdijkl" [(EVar "contracted_intermediate")])));
   (*L2475*) SAssign "contracted_intermediate" (EScale (-1 # 1) (EEins "mnef,eaij,bfml,cdkn->abcdijkl" [(ESlice (EVar "g_abab") [SV "o"; SV "o"; SV "v"; SV "v"]); (EVar "t2_aaaa"); (EVar "t2_abab"); (EVar "t2_abab")]));
   (*L2476*) SAug true "quadruples_res" (EAdd (EScale (1 # 1) (EVar "contracted_intermediate")) (EScale (-1 # 1) (EEins "abcdijkl->acbdijkl" [(EVar "contracted_intermediate")])));
   (*L2479*) SAssign "contracted_intermediate" (EScale (1 # 1) (EEins "nmef,eaij,fbkm,cdnl->abcdijkl" [(ESlice (EVar "g_aaaa") [SV "o"; SV "o"; SV "v"; SV "v"]); (EVar "t2_aaaa"); (EVar "t2_aaaa"); (EVar "t2_abab")]));
   (*L2480*) SAug true "quadruples_res" (EAdd (EScale (1 # 1) (EVar "contracted_intermediate")) (EScale (-1 # 1) (EEins "abcdijkl->acbdijkl" [(EVar "contracted_intermediate")])));
   (*L2483*) SAssign "contracted_intermediate" (EScale (-1 # 1) (EEins "nmef,eaij,bfkm,cdnl->abcdijkl" [(ESlice (EVar "g_abab") [SV "o"; SV "o"; SV "v"; SV "v"]); (EVar "t2_aaaa"); (EVar "t2_abab"); (EVar "t2_abab")]));
   (*L2484*) SAug true "quadruples_res" (EAdd (EScale (1 # 1) (EVar "contracted_intermediate")) (EScale (-1 # 1) (EEins "abcdijkl->acbdijkl" [(EVar "contracted_intermediate")])));
   (*L2487*) SAssign "contracted_intermediate" (EScale (-1 # 1) (EEins "nmef,eaij,fdml,bckn->abcdijkl" [(ESlice (EVar "g_aaaa") [SV "o"; SV "o"; SV "v"; SV "v"]); (EVar "t2_aaaa"); (EVar "t2_abab"); (EVar "t2_aaaa")]));
   (*L2488*) SAug true "quadruples_res" (EAdd (EScale (1 # 1) (EVar "contracted_intermediate")) (EScale (-1 # 1) (EEins "abcdijkl->bacdijkl" [(EVar "contracted_intermediate")])));
   (*L2491*) SAssign "contracted_intermediate" (EScale (1 # 1) (EEins "nmef,eaij,fdlm,bckn->abcdijkl" [(ESlice (EVar "g_abab") [SV "o"; SV "o"; SV "v"; SV "v"]); (EVar "t2_aaaa"); (EVar "t2_bbbb"); (EVar "t2_aaaa")]));
   (*L2492*) SAug true "quadruples_res" (EAdd (EScale (1 # 1) (EVar "contracted_intermediate")) (EScale (-1 # 1) (EEins "abcdijkl->bacdijkl" [(EVar "contracted_intermediate")])));
   (*L2495*) SAssign "contracted_intermediate" (EScale (1 # 1) (EEins "mnfe,beml,fcjk,adin->abcdijkl" [(ESlice (EVar "g_abab") [SV "o"; SV "o"; SV "v"; SV "v"]); (EVar "t2_abab"); (EVar "t2_aaaa"); (EVar "t2_abab")]));
   (*L2496*) SAug true "quadruples_res" (EAdd (EScale (1 # 1) (EVar "contracted_intermediate")) (EScale (-1 # 1) (EEins "abcdijkl->abcdjikl" [(EVar "contracted_intermediate")])));
   (*L2499*) SAug true "quadruples_res" (EScale (1 # 1) (EEins "mnfe,beml,fcij,adkn->abcdijkl" [(ESlice (EVar "g_abab") [SV "o"; SV "o"; SV "v"; SV "v"]); (EVar "t2_abab"); (EVar "t2_aaaa"); (EVar "t2_abab")]));
   (*L2502*) SAug true "quadruples_res" (EScale (1 # 1) (EEins "nmef,ebkm,fcij,adnl->abcdijkl" [(ESlice (EVar "g_aaaa") [SV "o"; SV "o"; SV "v"; SV "v"]); (EVar "t2_aaaa"); (EVar "t2_aaaa"); (EVar "t2_abab")]));
   (*L2505*) SAug true "quadruples_res" (EScale (1 # 1) (EEins "nmfe,bekm,fcij,adnl->abcdijkl" [(ESlice (EVar "g_abab") [SV "o"; SV "o"; SV "v"; SV "v"]); (EVar "t2_abab"); (EVar "t2_aaaa"); (EVar "t2_abab")]));
   (*L2508*) SAssign "contracted_intermediate" (EScale (-1 # 1) (EEins "mnef,ebkm,cfjl,adin->abcdijkl" [(ESlice (EVar "g_abab") [SV "o"; SV "o"; SV "v"; SV "v"]); (EVar "t2_aaaa"); (EVar "t2_abab"); (EVar "t2_abab")]));
   (*L2509*) SAug true "quadruples_res" (EAdd (EScale (1 # 1) (EVar "contracted_intermediate")) (EScale (-1 # 1) (EEins "abcdijkl->abcdjikl" [(EVar "contracted_intermediate")])));
   (*L2512*) SAssign "contracted_intermediate" (EScale (-1 # 1) (EEins "nmef,bekm,cfjl,adin->abcdijkl" [(ESlice (EVar "g_bbbb") [SV "o"; SV "o"; SV "v"; SV "v"]); (EVar "t2_abab"); (EVar "t2_abab"); (EVar "t2_abab")]));
   (*L2513*) SAug true "quadruples_res" (EAdd (EScale (1 # 1) (EVar "contracted_intermediate")) (EScale (-1 # 1) (EEins "abcdijkl->abcdjikl" [(EVar "contracted_intermediate")])));
   (*L2516*) SAssign "contracted_intermediate" (EScale (1 # 1) (EEins "mnef,ebjm,cfkl,adin->abcdijkl" [(ESlice (EVar "g_abab") [SV "o"; SV "o"; SV "v"; SV "v"]); (EVar "t2_aaaa"); (EVar "t2_abab"); (EVar "t2_abab")]));
   (*L2517*) SAug true "quadruples_res" (EAdd (EScale (1 # 1) (EVar "contracted_intermediate")) (EScale (-1 # 1) (EEins "abcdijkl->abcdkjil" [(EVar "contracted_intermediate")])));
   (*L2520*) SAssign "contracted_intermediate" (EScale (1 # 1) (EEins "nmef,bejm,cfkl,adin->abcdijkl" [(ESlice (EVar "g_bbbb") [SV "o"; SV "o"; SV "v"; SV "v"]); (EVar "t2_abab"); (EVar "t2_abab"); (EVar "t2_abab")]));
   (*L2521*) SAug true "quadruples_res" (EAdd (EScale (1 # 1) (EVar "contracted_intermediate")) (EScale (-1 # 1) (EEins "abcdijkl->abcdkjil" [(EVar "contracted_intermediate")])));
   (*L2524*) SAssign "contracted_intermediate" (EScale (-1 # 1) (EEins "nmef,ebjm,fcik,adnl->abcdijkl" [(ESlice (EVar "g_aaaa") [SV "o"; SV "o"; SV "v"; SV "v"]); (EVar "t2_aaaa"); (EVar "t2_aaaa"); (EVar "t2_abab")]));
   (*L2525*) SAug true "quadruples_res" (EAdd (EScale (1 # 1) (EVar "contracted_intermediate")) (EScale (-1 # 1) (EEins "abcdijkl->abcdjikl" [(EVar "contracted_intermediate")])));
   (*L2528*) SAssign "contracted_intermediate" (EScale (-1 # 1) (EEins "nmfe,bejm,fcik,adnl->abcdijkl" [(ESlice (EVar "g_abab") [SV "o"; SV "o"; SV "v"; SV "v"]); (EVar "t2_abab"); (EVar "t2_aaaa"); (EVar "t2_abab")]));
   (*L2529*) SAug true "quadruples_res" (EAdd (EScale (1 # 1) (EVar "contracted_intermediate")) (EScale (-1 # 1) (EEins "abcdijkl->abcdjikl" [(EVar "contracted_intermediate")])));
   (*L2532*) SAssign "contracted_intermediate" (EScale (-1 # 1) (EEins "mnef,ebim,cfkl,adjn->abcdijkl" [(ESlice (EVar "g_abab") [SV "o"; SV "o"; SV "v"; SV "v"]); (EVar "t2_aaaa"); (EVar "t2_abab"); (EVar "t2_abab")]));
   (*L2533*) SAug true "quadruples_res" (EAdd (EScale (1 # 1) (EVar "contracted_intermediate")) (EScale (-1 # 1) (EEins "abcdijkl->abcdikjl" [(EVar "contracted_intermediate")])));
   (*L2536*) SAssign "contracted_intermediate" (EScale (-1 # 1) (EEins "nmef,beim,cfkl,adjn->abcdijkl" [(ESlice (EVar "g_bbbb") [SV "o"; SV "o"; SV "v"; SV "v"]); (EVar "t2_abab"); (EVar "t2_abab"); (EVar "t2_abab")]));
   (*L2537*) SAug true "quadruples_res" (EAdd (EScale (1 # 1) (EVar "contracted_intermediate")) (EScale (-1 # 1) (EEins "abcdijkl->abcdikjl" [(EVar "contracted_intermediate")])));
   (*L2540*) SAssign "contracted_intermediate" (EScale (-1 # 1) (EEins "mnfe,bekl,fcjm,adin->abcdijkl" [(ESlice (EVar "g_abab") [SV "o"; SV "o"; SV "v"; SV "v"]); (EVar "t2_abab"); (EVar "t2_aaaa"); (EVar "t2_abab")]));
   (*L2541*) SAug true "quadruples_res" (EAdd (EScale (1 # 1) (EVar "contracted_intermediate")) (EScale (-1 # 1) (EEins "abcdijkl->abcdjikl" [(EVar "contracted_intermediate")])));
   (*L2544*) SAssign "contracted_intermediate" (EScale (1 # 1) (EEins "nmef,bekl,cfjm,adin->abcdijkl" [(ESlice (EVar "g_bbbb") [SV "o"; SV "o"; SV "v"; SV "v"]); (EVar "t2_abab"); (EVar "t2_abab"); (EVar "t2_abab")]));
   (*L2545*) SAug true "quadruples_res" (EAdd (EScale (1 # 1) (EVar "contracted_intermediate")) (EScale (-1 # 1) (EEins "abcdijkl->abcdjikl" [(EVar "contracted_intermediate")])));
   (*L2548*) SAssign "contracted_intermediate" (EScale (-1 # 2) (EEins "nmfe,bekl,fcij,adnm->abcdijkl" [(ESlice (EVar "g_abab") [SV "o"; SV "o"; SV "v"; SV "v"]); (EVar "t2_abab"); (EVar "t2_aaaa"); (EVar "t2_abab")]));
   (*L2549*) SAug true "quadruples_res" (EAdd (EScale (1 # 1) (EVar "contracted_intermediate")) (EScale (-1 # 1) (EEins "abcdijkl->abcdikjl" [(EVar "contracted_intermediate")])));
   (*L2552*) SAssign "contracted_intermediate" (EScale (-1 # 2) (EEins "mnfe,bekl,fcij,admn->abcdijkl" [(ESlice (EVar "g_abab") [SV "o"; SV "o"; SV "v"; SV "v"]); (EVar "t2_abab"); (EVar "t2_aaaa"); (EVar "t2_abab")]));
   (*L2553*) SAug true "quadruples_res" (EAdd (EScale (1 # 1) (EVar "contracted_intermediate")) (EScale (-1 # 1) (EEins "abcdijkl->abcdikjl" [(EVar "contracted_intermediate")])));
   (*L2556*) SAssign "contracted_intermediate" (EScale (1 # 1) (EEins "mnfe,bejl,fckm,adin->abcdijkl" [(ESlice (EVar "g_abab") [SV "o"; SV "o"; SV "v"; SV "v"]); (EVar "t2_abab"); (EVar "t2_aaaa"); (EVar "t2_abab")]));
   (*L2557*) SAug true "quadruples_res" (EAdd (EScale (1 # 1) (EVar "contracted_intermediate")) (EScale (-1 # 1) (EEins "abcdijkl->abcdkjil" [(EVar "contracted_intermediate")])));
   (*L2560*) SAssign "contracted_intermediate" (EScale (-1 # 1) (EEins "nmef,bejl,cfkm,adin->abcdijkl" [(ESlice (EVar "g_bbbb") [SV "o"; SV "o"; SV "v"; SV "v"]); (EVar "t2_abab"); (EVar "t2_abab"); (EVar "t2_abab")]));
   (*L2561*) SAug true "quadruples_res" (EAdd (EScale (1 # 1) (EVar "contracted_intermediate")) (EScale (-1 # 1) (EEins "abcdijkl->abcdkjil" [(EVar "contracted_intermediate")])));
   (*L2564*) SAssign "contracted_intermediate" (EScale (-1 # 1) (EEins "mnfe,beil,fckm,adjn->abcdijkl" [(ESlice (EVar "g_abab") [SV "o"; SV "o"; SV "v"; SV "v"]); (EVar "t2_abab"); (EVar "t2_aaaa"); (EVar "t2_abab")]));
   (*L2565*) SAug true "quadruples_res" (EAdd (EScale (1 # 1) (EVar "contracted_intermediate")) (EScale (-1 # 1) (EEins "abcdijkl->abcdikjl" [(EVar "contracted_intermediate")])));
   (*L2568*) SAssign "contracted_intermediate" (EScale (1 # 1) (EEins "nmef,beil,cfkm,adjn->abcdijkl" [(ESlice (EVar "g_bbbb") [SV "o"; SV "o"; SV "v"; SV "v"]); (EVar "t2_abab"); (EVar "t2_abab"); (EVar "t2_abab")]));
   (*L2569*) SAug true "quadruples_res" (EAdd (EScale (1 # 1) (EVar "contracted_intermediate")) (EScale (-1 # 1) (EEins "abcdijkl->abcdikjl" [(EVar "contracted_intermediate")])));
   (*L2572*) SAug true "quadruples_res" (EScale (-1 # 2) (EEins "nmfe,beil,fcjk,adnm->abcdijkl" [(ESlice (EVar "g_abab") [SV "o"; SV "o"; SV "v"; SV "v"]); (EVar "t2_abab"); (EVar "t2_aaaa"); (EVar "t2_abab")]));
   (*L2575*) SAug true "quadruples_res" (EScale (-1 # 2) (EEins "mnfe,beil,fcjk,admn->abcdijkl" [(ESlice (EVar "g_abab") [SV "o"; SV "o"; SV "v"; SV "v"]); (EVar "t2_abab"); (EVar "t2_aaaa"); (EVar "t2_abab")]));
   (*L2578*) SAug true "quadruples_res" (EScale (-1 # 2) (EEins "nmef,ebik,cfjl,adnm->abcdijkl" [(ESlice (EVar "g_abab") [SV "o"; SV "o"; SV "v"; SV "v"]); (EVar "t2_aaaa"); (EVar "t2_abab"); (EVar "t2_abab")]));
   (*L2581*) SAug true "quadruples_res" (EScale (-1 # 2) (EEins "mnef,ebik,cfjl,admn->abcdijkl" [(ESlice (EVar "g_abab") [SV "o"; SV "o"; SV "v"; SV "v"]); (EVar "t2_aaaa"); (EVar "t2_abab"); (EVar "t2_abab")]));
   (*L2584*) SAug true "quadruples_res" (EScale (-1 # 1) (EEins "mnef,ebjk,cfml,adin->abcdijkl" [(ESlice (EVar "g_abab") [SV "o"; SV "o"; SV "v"; SV "v"]); (EVar "t2_aaaa"); (EVar "t2_abab"); (EVar "t2_abab")]));
   (*L2587*) SAug true "quadruples_res" (EScale (1 # 1) (EEins "nmef,ebjk,fcim,adnl->abcdijkl" [(ESlice (EVar "g_aaaa") [SV "o"; SV "o"; SV "v"; SV "v"]); (EVar "t2_aaaa"); (EVar "t2_aaaa"); (EVar "t2_abab")]));
   (*L2590*) SAug true "quadruples_res" (EScale (-1 # 1) (EEins "nmef,ebjk,cfim,adnl->abcdijkl" [(ESlice (EVar "g_abab") [SV "o"; SV "o"; SV "v"; SV "v"]); (EVar "t2_aaaa"); (EVar "t2_abab"); (EVar "t2_abab")]));
   (*L2593*) SAssign "contracted_intermediate" (EScale (1 # 2) (EEins "nmef,ebjk,cfil,adnm->abcdijkl" [(ESlice (EVar "g_abab") [SV "o"; SV "o"; SV "v"; SV "v"]); (EVar "t2_aaaa"); (EVar "t2_abab"); (EVar "t2_abab")]));
   (*L2594*) SAug true "quadruples_res" (EAdd (EScale (1 # 1) (EVar "contracted_intermediate")) (EScale (-1 # 1) (EEins "abcdijkl->abcdkjil" [(EVar "contracted_intermediate")])));
   (*L2597*) SAssign "contracted_intermediate" (EScale (1 # 2) (EEins "mnef,ebjk,cfil,admn->abcdijkl" [(ESlice (EVar "g_abab") [SV "o"; SV "o"; SV "v"; SV "v"]); (EVar "t2_aaaa"); (EVar "t2_abab"); (EVar "t2_abab")]));
   (*L2598*) SAug true "quadruples_res" (EAdd (EScale (1 # 1) (EVar "contracted_intermediate")) (EScale (-1 # 1) (EEins "abcdijkl->abcdkjil" [(EVar "contracted_intermediate")])));
   (*L2601*) SAug true "quadruples_res" (EScale (1 # 1) (EEins "mnef,ebik,cfml,adjn->abcdijkl" [(ESlice (EVar "g_abab") [SV "o"; SV "o"; SV "v"; SV "v"]); (EVar "t2_aaaa"); (EVar "t2_abab"); (EVar "t2_abab")]));
   (*L2604*) SAug true "quadruples_res" (EScale (-1 # 1) (EEins "nmef,ebik,fcjm,adnl->abcdijkl" [(ESlice (EVar "g_aaaa") [SV "o"; SV "o"; SV "v"; SV "v"]); (EVar "t2_aaaa"); (EVar "t2_aaaa"); (EVar "t2_abab")]));
   (*L2607*) SAug true "quadruples_res" (EScale (1 # 1) (EEins "nmef,ebik,cfjm,adnl->abcdijkl" [(ESlice (EVar "g_abab") [SV "o"; SV "o"; SV "v"; SV "v"]); (EVar "t2_aaaa"); (EVar "t2_abab"); (EVar "t2_abab")]));
   (*L2610*) SAug true "quadruples_res" (EScale (-1 # 1) (EEins "mnef,ebij,cfml,adkn->abcdijkl" [(ESlice (EVar "g_abab") [SV "o"; SV "o"; SV "v"; SV "v"]); (EVar "t2_aaaa"); (EVar "t2_abab"); (EVar "t2_abab")]));
   (*L2613*) SAug true "quadruples_res" (EScale (1 # 1) (EEins "nmef,ebij,fckm,adnl->abcdijkl" [(ESlice (EVar "g_aaaa") [SV "o"; SV "o"; SV "v"; SV "v"]); (EVar "t2_aaaa"); (EVar "t2_aaaa"); (EVar "t2_abab")]));
   (*L2616*) SAug true "quadruples_res" (EScale (-1 # 1) (EEins "nmef,ebij,cfkm,adnl->abcdijkl" [(ESlice (EVar "g_abab") [SV "o"; SV "o"; SV "v"; SV "v"]); (EVar "t2_aaaa"); (EVar "t2_abab"); (EVar "t2_abab")]));
   (*L2619*) SAssign "contracted_intermediate" (EScale (-1 # 1) (EEins "nmef,eckm,fdjl,abin->abcdijkl" [(ESlice (EVar "g_aaaa") [SV "o"; SV "o"; SV "v"; SV "v"]); (EVar "t2_aaaa"); (EVar "t2_abab"); (EVar "t2_aaaa")]));
   (*L2620*) SAug true "quadruples_res" (EAdd (EScale (1 # 1) (EVar "contracted_intermediate")) (EScale (-1 # 1) (EEins "abcdijkl->abcdjikl" [(EVar "contracted_intermediate")])));
   (*L2623*) SAssign "contracted_intermediate" (EScale (-1 # 1) (EEins "nmfe,cekm,fdjl,abin->abcdijkl" [(ESlice (EVar "g_abab") [SV "o"; SV "o"; SV "v"; SV "v"]); (EVar "t2_abab"); (EVar "t2_abab"); (EVar "t2_aaaa")]));
   (*L2624*) SAug true "quadruples_res" (EAdd (EScale (1 # 1) (EVar "contracted_intermediate")) (EScale (-1 # 1) (EEins "abcdijkl->abcdjikl" [(EVar "contracted_intermediate")])));
   (*L2627*) SAssign "contracted_intermediate" (EScale (1 # 1) (EEins "nmef,ecjm,fdkl,abin->abcdijkl" [(ESlice (EVar "g_aaaa") [SV "o"; SV "o"; SV "v"; SV "v"]); (EVar "t2_aaaa"); (EVar "t2_abab"); (EVar "t2_aaaa")]));
   (*L2628*) SAug true "quadruples_res" (EAdd (EScale (1 # 1) (EVar "contracted_intermediate")) (EScale (-1 # 1) (EEins "abcdijkl->abcdkjil" [(EVar "contracted_intermediate")])));
   (*L2631*) SAssign "contracted_intermediate" (EScale (1 # 1) (EEins "nmfe,cejm,fdkl,abin->abcdijkl" [(ESlice (EVar "g_abab") [SV "o"; SV "o"; SV "v"; SV "v"]); (EVar "t2_abab"); (EVar "t2_abab"); (EVar "t2_aaaa")]));
   (*L2632*) SAug true "quadruples_res" (EAdd (EScale (1 # 1) (EVar "contracted_intermediate")) (EScale (-1 # 1) (EEins "abcdijkl->abcdkjil" [(EVar "contracted_intermediate")])));
   (*L2635*) SAssign "contracted_intermediate" (EScale (-1 # 1) (EEins "nmef,ecim,fdkl,abjn->abcdijkl" [(ESlice (EVar "g_aaaa") [SV "o"; SV "o"; SV "v"; SV "v"]); (EVar "t2_aaaa"); (EVar "t2_abab"); (EVar "t2_aaaa")]));
   (*L2636*) SAug true "quadruples_res" (EAdd (EScale (1 # 1) (EVar "contracted_intermediate")) (EScale (-1 # 1) (EEins "abcdijkl->abcdikjl" [(EVar "contracted_intermediate")])));
   (*L2639*) SAssign "contracted_intermediate" (EScale (-1 # 1) (EEins "nmfe,ceim,fdkl,abjn->abcdijkl" [(ESlice (EVar "g_abab") [SV "o"; SV "o"; SV "v"; SV "v"]); (EVar "t2_abab"); (EVar "t2_abab"); (EVar "t2_aaaa")]));
   (*L2640*) SAug true "quadruples_res" (EAdd (EScale (1 # 1) (EVar "contracted_intermediate")) (EScale (-1 # 1) (EEins "abcdijkl->abcdikjl" [(EVar "contracted_intermediate")])));
   (*L2643*) SAssign "contracted_intermediate" (EScale (1 # 1) (EEins "nmfe,cekl,fdjm,abin->abcdijkl" [(ESlice (EVar "g_abab") [SV "o"; SV "o"; SV "v"; SV "v"]); (EVar "t2_abab"); (EVar "t2_abab"); (EVar "t2_aaaa")]));
   (*L2644*) SAug true "quadruples_res" (EAdd (EScale (1 # 1) (EVar "contracted_intermediate")) (EScale (-1 # 1) (EEins "abcdijkl->abcdjikl" [(EVar "contracted_intermediate")])));
   (*L2647*) SAssign "contracted_intermediate" (EScale (-1 # 1) (EEins "nmfe,cejl,fdkm,abin->abcdijkl" [(ESlice (EVar "g_abab") [SV "o"; SV "o"; SV "v"; SV "v"]); (EVar "t2_abab"); (EVar "t2_abab"); (EVar "t2_aaaa")]));
   (*L2648*) SAug true "quadruples_res" (EAdd (EScale (1 # 1) (EVar "contracted_intermediate")) (EScale (-1 # 1) (EEins "abcdijkl->abcdkjil" [(EVar "contracted_intermediate")])));
   (*L2651*) SAssign "contracted_intermediate" (EScale (1 # 1) (EEins "nmfe,ceil,fdkm,abjn->abcdijkl" [(ESlice (EVar "g_abab") [SV "o"; SV "o"; SV "v"; SV "v"]); (EVar "t2_abab"); (EVar "t2_abab"); (EVar "t2_aaaa")]));
   (*L2652*) SAug true "quadruples_res" (EAdd (EScale (1 # 1) (EVar "contracted_intermediate")) (EScale (-1 # 1) (EEins "abcdijkl->abcdikjl" [(EVar "contracted_intermediate")])));
   (*L2655*) SAug true "quadruples_res" (EScale (1 # 2) (EEins "nmef,ecik,fdjl,abnm->abcdijkl" [(ESlice (EVar "g_aaaa") [SV "o"; SV "o"; SV "v"; SV "v"]); (EVar "t2_aaaa"); (EVar "t2_abab"); (EVar "t2_aaaa")]));
   (*L2658*) SAug true "quadruples_res" (EScale (-1 # 1) (EEins "nmef,ecjk,fdml,abin->abcdijkl" [(ESlice (EVar "g_aaaa") [SV "o"; SV "o"; SV "v"; SV "v"]); (EVar "t2_aaaa"); (EVar "t2_abab"); (EVar "t2_aaaa")]));
   (*L2661*) SAug true "quadruples_res" (EScale (1 # 1) (EEins "nmef,ecjk,fdlm,abin->abcdijkl" [(ESlice (EVar "g_abab") [SV "o"; SV "o"; SV "v"; SV "v"]); (EVar "t2_aaaa"); (EVar "t2_bbbb"); (EVar "t2_aaaa")]));
   (*L2664*) SAssign "contracted_intermediate" (EScale (-1 # 2) (EEins "nmef,ecjk,fdil,abnm->abcdijkl" [(ESlice (EVar "g_aaaa") [SV "o"; SV "o"; SV "v"; SV "v"]); (EVar "t2_aaaa"); (EVar "t2_abab"); (EVar "t2_aaaa")]));
   (*L2665*) SAug true "quadruples_res" (EAdd (EScale (1 # 1) (EVar "contracted_intermediate")) (EScale (-1 # 1) (EEins "abcdijkl->abcdkjil" [(EVar "contracted_intermediate")])));
   (*L2668*) SAug true "quadruples_res" (EScale (1 # 1) (EEins "nmef,ecik,fdml,abjn->abcdijkl" [(ESlice (EVar "g_aaaa") [SV "o"; SV "o"; SV "v"; SV "v"]); (EVar "t2_aaaa"); (EVar "t2_abab"); (EVar "t2_aaaa")]));
   (*L2671*) SAug true "quadruples_res" (EScale (-1 # 1) (EEins "nmef,ecik,fdlm,abjn->abcdijkl" [(ESlice (EVar "g_abab") [SV "o"; SV "o"; SV "v"; SV "v"]); (EVar "t2_aaaa"); (EVar "t2_bbbb"); (EVar "t2_aaaa")]));
   (*L2674*) SAug true "quadruples_res" (EScale (-1 # 1) (EEins "nmef,ecij,fdml,abkn->abcdijkl" [(ESlice (EVar "g_aaaa") [SV "o"; SV "o"; SV "v"; SV "v"]); (EVar "t2_aaaa"); (EVar "t2_abab"); (EVar "t2_aaaa")]));
   (*L2677*) SAug true "quadruples_res" (EScale (1 # 1) (EEins "nmef,ecij,fdlm,abkn->abcdijkl" [(ESlice (EVar "g_abab") [SV "o"; SV "o"; SV "v"; SV "v"]); (EVar "t2_aaaa"); (EVar "t2_bbbb"); (EVar "t2_aaaa")]))]
  (*L2679*) (EVar "quadruples_res").

(** /repo/UT2/ccdq_resids.py:2682-4075  def ccdq_t4_aabbaabb_residual *)
Definition ccdq_t4_aabbaabb_residual : fn := mkFn
  ["t2_aaaa"; "t2_bbbb"; "t2_abab"; "t4_aaaaaaaa"; "t4_aaabaaab"; "t4_aabbaabb"; "t4_abbbabbb"; "t4_bbbbbbbb"; "f_aa"; "f_bb"; "g_aaaa"; "g_bbbb"; "g_abab"; "oa"; "ob"; "va"; "vb"]
  [(*L2688*) SAssign "o" (EVar "oa");
   (*L2689*) SAssign "v" (EVar "va");
   (*L2692*) SAssign "contracted_intermediate" (EScale (-100000000000001 # 100000000000000) (EEins "ml,abcdijkm->abcdijkl" [(ESlice (EVar "f_bb") [SV "o"; SV "o"]); (ESlice (EVar "t4_aabbaabb") [SAll; SAll; SAll; SAll; SAll; SAll; SAll; SAll])]));
   (*L2693*) SAssign "quadruples_res" (EAdd (EScale (1 # 1) (EVar "contracted_intermediate")) (EScale (-1 # 1) (EEins "abcdijkl->abcdijlk" [(EVar "contracted_intermediate")])));
   (*L2696*) SAssign "contracted_intermediate" (EScale (100000000000001 # 100000000000000) (EEins "mj,abcdimlk->abcdijkl" [(ESlice (EVar "f_aa") [SV "o"; SV "o"]); (ESlice (EVar "t4_aabbaabb") [SAll; SAll; SAll; SAll; SAll; SAll; SAll; SAll])]));
   (*L2697*) SAug true "quadruples_res" (EAdd (EScale (1 # 1) (EVar "contracted_intermediate")) (EScale (-1 # 1) (EEins "abcdijkl->abcdjikl" [(EVar "contracted_intermediate")])));
   (*L2700*) SAssign "contracted_intermediate" (EScale (100000000000001 # 100000000000000) (EEins "ae,ebcdijkl->abcdijkl" [(ESlice (EVar "f_aa") [SV "v"; SV "v"]); (ESlice (EVar "t4_aabbaabb") [SAll; SAll; SAll; SAll; SAll; SAll; SAll; SAll])]));
   (*L2701*) SAug true "quadruples_res" (EAdd (EScale (1 # 1) (EVar "contracted_intermediate")) (EScale (-1 # 1) (EEins "abcdijkl->bacdijkl" [(EVar "contracted_intermediate")])));
   (*L2704*) SAssign "contracted_intermediate" (EScale (-100000000000001 # 100000000000000) (EEins "ce,baedijkl->abcdijkl" [(ESlice (EVar "f_bb") [SV "v"; SV "v"]); (ESlice (EVar "t4_aabbaabb") [SAll; SAll; SAll; SAll; SAll; SAll; SAll; SAll])]));
   (*L2705*) SAug true "quadruples_res" (EAdd (EScale (1 # 1) (EVar "contracted_intermediate")) (EScale (-1 # 1) (EEins "abcdijkl->abdcijkl" [(EVar "contracted_intermediate")])));
   (*L2708*) SAug true "quadruples_res" (EScale (50000000000001 # 100000000000000) (EEins "nmkl,abcdijnm->abcdijkl" [(ESlice (EVar "g_bbbb") [SV "o"; SV "o"; SV "o"; SV "o"]); (ESlice (EVar "t4_aabbaabb") [SAll; SAll; SAll; SAll; SAll; SAll; SAll; SAll])]));
   (*L2711*) SAug true "quadruples_res" (EScale (50000000000001 # 100000000000000) (EEins "nmjl,abcdinkm->abcdijkl" [(ESlice (EVar "g_abab") [SV "o"; SV "o"; SV "o"; SV "o"]); (ESlice (EVar "t4_aabbaabb") [SAll; SAll; SAll; SAll; SAll; SAll; SAll; SAll])]));
   (*L2714*) SAug true "quadruples_res" (EScale (-50000000000001 # 100000000000000) (EEins "mnjl,abcdimnk->abcdijkl" [(ESlice (EVar "g_abab") [SV "o"; SV "o"; SV "o"; SV "o"]); (ESlice (EVar "t4_aabbaabb") [SAll; SAll; SAll; SAll; SAll; SAll; SAll; SAll])]));
   (*L2717*) SAssign "contracted_intermediate" (EScale (-50000000000001 # 100000000000000) (EEins "nmil,abcdjnkm->abcdijkl" [(ESlice (EVar "g_abab") [SV "o"; SV "o"; SV "o"; SV "o"]); (ESlice (EVar "t4_aabbaabb") [SAll; SAll; SAll; SAll; SAll; SAll; SAll; SAll])]));
   (*L2718*) SAug true "quadruples_res" (EAdd (EScale (1 # 1) (EVar "contracted_intermediate")) (EScale (-1 # 1) (EEins "abcdijkl->abcdijlk" [(EVar "contracted_intermediate")])));
   (*L2721*) SAssign "contracted_intermediate" (EScale (50000000000001 # 100000000000000) (EEins "mnil,abcdjmnk->abcdijkl" [(ESlice (EVar "g_abab") [SV "o"; SV "o"; SV "o"; SV "o"]); (ESlice (EVar "t4_aabbaabb") [SAll; SAll; SAll; SAll; SAll; SAll; SAll; SAll])]));
   (*L2722*) SAug true "quadruples_res" (EAdd (EScale (1 # 1) (EVar "contracted_intermediate")) (EScale (-1 # 1) (EEins "abcdijkl->abcdijlk" [(EVar "contracted_intermediate")])));
   (*L2725*) SAug true "quadruples_res" (EScale (-50000000000001 # 100000000000000) (EEins "nmjk,abcdinlm->abcdijkl" [(ESlice (EVar "g_abab") [SV "o"; SV "o"; SV "o"; SV "o"]); (ESlice (EVar "t4_aabbaabb") [SAll; SAll; SAll; SAll; SAll; SAll; SAll; SAll])]));
   (*L2728*) SAug true "quadruples_res" (EScale (50000000000001 # 100000000000000) (EEins "mnjk,abcdimnl->abcdijkl" [(ESlice (EVar "g_abab") [SV "o"; SV "o"; SV "o"; SV "o"]); (ESlice (EVar "t4_aabbaabb") [SAll; SAll; SAll; SAll; SAll; SAll; SAll; SAll])]));
   (*L2731*) SAug true "quadruples_res" (EScale (-50000000000001 # 100000000000000) (EEins "nmji,abcdnmkl->abcdijkl" [(ESlice (EVar "g_aaaa") [SV "o"; SV "o"; SV "o"; SV "o"]); (ESlice (EVar "t4_aabbaabb") [SAll; SAll; SAll; SAll; SAll; SAll; SAll; SAll])]));
   (*L2734*) SAssign "contracted_intermediate" (EScale (-50000000000001 # 50000000000000) (EEins "amel,ebcdijkm->abcdijkl" [(ESlice (EVar "g_abab") [SV "v"; SV "o"; SV "v"; SV "o"]); (ESlice (EVar "t4_aabbaabb") [SAll; SAll; SAll; SAll; SAll; SAll; SAll; SAll])]));
   (*L2735*) SAug true "quadruples_res" (EAdd (EAdd (EAdd (EScale (1 # 1) (EVar "contracted_intermediate")) (EScale (-1 # 1) (EEins "abcdijkl->abcdijlk" [(EVar "contracted_intermediate")]))) (EScale (-1 # 1) (EEins "abcdijkl->bacdijkl" [(EVar "contracted_intermediate")]))) (EScale (1 # 1) (EEins "abcdijkl->bacdijlk" [(EVar "contracted_intermediate")])));
   (*L2738*) SAssign "contracted_intermediate" (EScale (-50000000000001 # 50000000000000) (EEins "maej,ebcdimlk->abcdijkl" [(ESlice (EVar "g_aaaa") [SV "o"; SV "v"; SV "v"; SV "o"]); (ESlice (EVar "t4_aabbaabb") [SAll; SAll; SAll; SAll; SAll; SAll; SAll; SAll])]));
   (*L2739*) SAug true "quadruples_res" (EAdd (EAdd (EAdd (EScale (1 # 1) (EVar "contracted_intermediate")) (EScale (-1 # 1) (EEins "abcdijkl->abcdjikl" [(EVar "contracted_intermediate")]))) (EScale (-1 # 1) (EEins "abcdijkl->bacdijkl" [(EVar "contracted_intermediate")]))) (EScale (1 # 1) (EEins "abcdijkl->bacdjikl" [(EVar "contracted_intermediate")])));
   (*L2742*) SAssign "contracted_intermediate" (EScale (-50000000000001 # 50000000000000) (EEins "amje,becdiklm->abcdijkl" [(ESlice (EVar "g_abab") [SV "v"; SV "o"; SV "o"; SV "v"]); (ESlice (EVar "t4_abbbabbb") [SAll; SAll; SAll; SAll; SAll; SAll; SAll; SAll])]));
   (*L2743*) SAug true "quadruples_res" (EAdd (EAdd (EAdd (EScale (1 # 1) (EVar "contracted_intermediate")) (EScale (-1 # 1) (EEins "abcdijkl->abcdjikl" [(EVar "contracted_intermediate")]))) (EScale (-1 # 1) (EEins "abcdijkl->bacdijkl" [(EVar "contracted_intermediate")]))) (EScale (1 # 1) (EEins "abcdijkl->bacdjikl" [(EVar "contracted_intermediate")])));
   (*L2746*) SAssign "contracted_intermediate" (EScale (-50000000000001 # 50000000000000) (EEins "mcel,eabdijmk->abcdijkl" [(ESlice (EVar "g_abab") [SV "o"; SV "v"; SV "v"; SV "o"]); (ESlice (EVar "t4_aaabaaab") [SAll; SAll; SAll; SAll; SAll; SAll; SAll; SAll])]));
   (*L2747*) SAug true "quadruples_res" (EAdd (EAdd (EAdd (EScale (1 # 1) (EVar "contracted_intermediate")) (EScale (-1 # 1) (EEins "abcdijkl->abcdijlk" [(EVar "contracted_intermediate")]))) (EScale (-1 # 1) (EEins "abcdijkl->abdcijkl" [(EVar "contracted_intermediate")]))) (EScale (1 # 1) (EEins "abcdijkl->abdcijlk" [(EVar "contracted_intermediate")])));
   (*L2750*) SAssign "contracted_intermediate" (EScale (-50000000000001 # 50000000000000) (EEins "mcel,baedijkm->abcdijkl" [(ESlice (EVar "g_bbbb") [SV "o"; SV "v"; SV "v"; SV "o"]); (ESlice (EVar "t4_aabbaabb") [SAll; SAll; SAll; SAll; SAll; SAll; SAll; SAll])]));
   (*L2751*) SAug true "quadruples_res" (EAdd (EAdd (EAdd (EScale (1 # 1) (EVar "contracted_intermediate")) (EScale (-1 # 1) (EEins "abcdijkl->abcdijlk" [(EVar "contracted_intermediate")]))) (EScale (-1 # 1) (EEins "abcdijkl->abdcijkl" [(EVar "contracted_intermediate")]))) (EScale (1 # 1) (EEins "abcdijkl->abdcijlk" [(EVar "contracted_intermediate")])));
   (*L2754*) SAssign "contracted_intermediate" (EScale (-50000000000001 # 50000000000000) (EEins "mcje,baedimlk->abcdijkl" [(ESlice (EVar "g_abab") [SV "o"; SV "v"; SV "o"; SV "v"]); (ESlice (EVar "t4_aabbaabb") [SAll; SAll; SAll; SAll; SAll; SAll; SAll; SAll])]));
   (*L2755*) SAug true "quadruples_res" (EAdd (EAdd (EAdd (EScale (1 # 1) (EVar "contracted_intermediate")) (EScale (-1 # 1) (EEins "abcdijkl->abcdjikl" [(EVar "contracted_intermediate")]))) (EScale (-1 # 1) (EEins "abcdijkl->abdcijkl" [(EVar "contracted_intermediate")]))) (EScale (1 # 1) (EEins "abcdijkl->abdcjikl" [(EVar "contracted_intermediate")])));
   (*L2758*) SAug true "quadruples_res" (EScale (50000000000001 # 100000000000000) (EEins "abef,efcdijkl->abcdijkl" [(ESlice (EVar "g_aaaa") [SV "v"; SV "v"; SV "v"; SV "v"]); (ESlice (EVar "t4_aabbaabb") [SAll; SAll; SAll; SAll; SAll; SAll; SAll; SAll])]));
   (*L2761*) SAug true "quadruples_res" (EScale (50000000000001 # 100000000000000) (EEins "acef,ebfdijkl->abcdijkl" [(ESlice (EVar "g_abab") [SV "v"; SV "v"; SV "v"; SV "v"]); (ESlice (EVar "t4_aabbaabb") [SAll; SAll; SAll; SAll; SAll; SAll; SAll; SAll])]));
   (*L2764*) SAug true "quadruples_res" (EScale (-50000000000001 # 100000000000000) (EEins "acfe,bfedijkl->abcdijkl" [(ESlice (EVar "g_abab") [SV "v"; SV "v"; SV "v"; SV "v"]); (ESlice (EVar "t4_aabbaabb") [SAll; SAll; SAll; SAll; SAll; SAll; SAll; SAll])]));
   (*L2767*) SAssign "contracted_intermediate" (EScale (-50000000000001 # 100000000000000) (EEins "adef,ebfcijkl->abcdijkl" [(ESlice (EVar "g_abab") [SV "v"; SV "v"; SV "v"; SV "v"]); (ESlice (EVar "t4_aabbaabb") [SAll; SAll; SAll; SAll; SAll; SAll; SAll; SAll])]));
   (*L2768*) SAug true "quadruples_res" (EAdd (EScale (1 # 1) (EVar "contracted_intermediate")) (EScale (-1 # 1) (EEins "abcdijkl->bacdijkl" [(EVar "contracted_intermediate")])));
   (*L2771*) SAssign "contracted_intermediate" (EScale (50000000000001 # 100000000000000) (EEins "adfe,bfecijkl->abcdijkl" [(ESlice (EVar "g_abab") [SV "v"; SV "v"; SV "v"; SV "v"]); (ESlice (EVar "t4_aabbaabb") [SAll; SAll; SAll; SAll; SAll; SAll; SAll; SAll])]));
   (*L2772*) SAug true "quadruples_res" (EAdd (EScale (1 # 1) (EVar "contracted_intermediate")) (EScale (-1 # 1) (EEins "abcdijkl->bacdijkl" [(EVar "contracted_intermediate")])));
   (*L2775*) SAug true "quadruples_res" (EScale (-50000000000001 # 100000000000000) (EEins "bcef,eafdijkl->abcdijkl" [(ESlice (EVar "g_abab") [SV "v"; SV "v"; SV "v"; SV "v"]); (ESlice (EVar "t4_aabbaabb") [SAll; SAll; SAll; SAll; SAll; SAll; SAll; SAll])]));
   (*L2778*) SAug true "quadruples_res" (EScale (50000000000001 # 100000000000000) (EEins "bcfe,afedijkl->abcdijkl" [(ESlice (EVar "g_abab") [SV "v"; SV "v"; SV "v"; SV "v"]); (ESlice (EVar "t4_aabbaabb") [SAll; SAll; SAll; SAll; SAll; SAll; SAll; SAll])]));
   (*L2781*) SAug true "quadruples_res" (EScale (-50000000000001 # 100000000000000) (EEins "dcef,abefijkl->abcdijkl" [(ESlice (EVar "g_bbbb") [SV "v"; SV "v"; SV "v"; SV "v"]); (ESlice (EVar "t4_aabbaabb") [SAll; SAll; SAll; SAll; SAll; SAll; SAll; SAll])]));
   (*L2784*) SAssign "contracted_intermediate" (EScale (-9999999999999 # 20000000000000) (EEins "mnef,efml,abcdijkn->abcdijkl" [(ESlice (EVar "g_abab") [SV "o"; SV "o"; SV "v"; SV "v"]); (EVar "t2_abab"); (ESlice (EVar "t4_aabbaabb") [SAll; SAll; SAll; SAll; SAll; SAll; SAll; SAll])]));
   (*L2785*) SAug true "quadruples_res" (EAdd (EScale (1 # 1) (EVar "contracted_intermediate")) (EScale (-1 # 1) (EEins "abcdijkl->abcdijlk" [(EVar "contracted_intermediate")])));
   (*L2788*) SAssign "contracted_intermediate" (EScale (-9999999999999 # 20000000000000) (EEins "mnfe,feml,abcdijkn->abcdijkl" [(ESlice (EVar "g_abab") [SV "o"; SV "o"; SV "v"; SV "v"]); (EVar "t2_abab"); (ESlice (EVar "t4_aabbaabb") [SAll; SAll; SAll; SAll; SAll; SAll; SAll; SAll])]));
   (*L2789*) SAug true "quadruples_res" (EAdd (EScale (1 # 1) (EVar "contracted_intermediate")) (EScale (-1 # 1) (EEins "abcdijkl->abcdijlk" [(EVar "contracted_intermediate")])));
   (*L2792*) SAssign "contracted_intermediate" (EScale (-9999999999999 # 20000000000000) (EEins "nmef,eflm,abcdijkn->abcdijkl" [(ESlice (EVar "g_bbbb") [SV "o"; SV "o"; SV "v"; SV "v"]); (EVar "t2_bbbb"); (ESlice (EVar "t4_aabbaabb") [SAll; SAll; SAll; SAll; SAll; SAll; SAll; SAll])]));
   (*L2793*) SAug true "quadruples_res" (EAdd (EScale (1 # 1) (EVar "contracted_intermediate")) (EScale (-1 # 1) (EEins "abcdijkl->abcdijlk" [(EVar "contracted_intermediate")])));
   (*L2796*) SAssign "contracted_intermediate" (EScale (9999999999999 # 20000000000000) (EEins "nmef,efjm,abcdinlk->abcdijkl" [(ESlice (EVar "g_aaaa") [SV "o"; SV "o"; SV "v"; SV "v"]); (EVar "t2_aaaa"); (ESlice (EVar "t4_aabbaabb") [SAll; SAll; SAll; SAll; SAll; SAll; SAll; SAll])]));
   (*L2797*) SAug true "quadruples_res" (EAdd (EScale (1 # 1) (EVar "contracted_intermediate")) (EScale (-1 # 1) (EEins "abcdijkl->abcdjikl" [(EVar "contracted_intermediate")])));
   (*L2800*) SAssign "contracted_intermediate" (EScale (9999999999999 # 20000000000000) (EEins "nmef,efjm,abcdinlk->abcdijkl" [(ESlice (EVar "g_abab") [SV "o"; SV "o"; SV "v"; SV "v"]); (EVar "t2_abab"); (ESlice (EVar "t4_aabbaabb") [SAll; SAll; SAll; SAll; SAll; SAll; SAll; SAll])]));
   (*L2801*) SAug true "quadruples_res" (EAdd (EScale (1 # 1) (EVar "contracted_intermediate")) (EScale (-1 # 1) (EEins "abcdijkl->abcdjikl" [(EVar "contracted_intermediate")])));
   (*L2804*) SAssign "contracted_intermediate" (EScale (9999999999999 # 20000000000000) (EEins "nmfe,fejm,abcdinlk->abcdijkl" [(ESlice (EVar "g_abab") [SV "o"; SV "o"; SV "v"; SV "v"]); (EVar "t2_abab"); (ESlice (EVar "t4_aabbaabb") [SAll; SAll; SAll; SAll; SAll; SAll; SAll; SAll])]));
   (*L2805*) SAug true "quadruples_res" (EAdd (EScale (1 # 1) (EVar "contracted_intermediate")) (EScale (-1 # 1) (EEins "abcdijkl->abcdjikl" [(EVar "contracted_intermediate")])));
   (*L2808*) SAug true "quadruples_res" (EScale (25000000000001 # 100000000000000) (EEins "nmef,efkl,abcdijnm->abcdijkl" [(ESlice (EVar "g_bbbb") [SV "o"; SV "o"; SV "v"; SV "v"]); (EVar "t2_bbbb"); (ESlice (EVar "t4_aabbaabb") [SAll; SAll; SAll; SAll; SAll; SAll; SAll; SAll])]));
   (*L2811*) SAug true "quadruples_res" (EScale (25000000000001 # 100000000000000) (EEins "nmef,efjl,abcdinkm->abcdijkl" [(ESlice (EVar "g_abab") [SV "o"; SV "o"; SV "v"; SV "v"]); (EVar "t2_abab"); (ESlice (EVar "t4_aabbaabb") [SAll; SAll; SAll; SAll; SAll; SAll; SAll; SAll])]));
   (*L2814*) SAug true "quadruples_res" (EScale (-25000000000001 # 100000000000000) (EEins "mnef,efjl,abcdimnk->abcdijkl" [(ESlice (EVar "g_abab") [SV "o"; SV "o"; SV "v"; SV "v"]); (EVar "t2_abab"); (ESlice (EVar "t4_aabbaabb") [SAll; SAll; SAll; SAll; SAll; SAll; SAll; SAll])]));
   (*L2817*) SAug true "quadruples_res" (EScale (25000000000001 # 100000000000000) (EEins "nmfe,fejl,abcdinkm->abcdijkl" [(ESlice (EVar "g_abab") [SV "o"; SV "o"; SV "v"; SV "v"]); (EVar "t2_abab"); (ESlice (EVar "t4_aabbaabb") [SAll; SAll; SAll; SAll; SAll; SAll; SAll; SAll])]));
   (*L2820*) SAug true "quadruples_res" (EScale (-25000000000001 # 100000000000000) (EEins "mnfe,fejl,abcdimnk->abcdijkl" [(ESlice (EVar "g_abab") [SV "o"; SV "o"; SV "v"; SV "v"]); (EVar "t2_abab"); (ESlice (EVar "t4_aabbaabb") [SAll; SAll; SAll; SAll; SAll; SAll; SAll; SAll])]));
   (*L2823*) SAssign "contracted_intermediate" (EScale (-25000000000001 # 100000000000000) (EEins "nmef,efil,abcdjnkm->abcdijkl" [(ESlice (EVar "g_abab") [SV "o"; SV "o"; SV "v"; SV "v"]); (EVar "t2_abab"); (ESlice (EVar "t4_aabbaabb") [SAll; SAll; SAll; SAll; SAll; SAll; SAll; SAll])]));
   (*L2824*) SAug true "quadruples_res" (EAdd (EScale (1 # 1) (EVar "contracted_intermediate")) (EScale (-1 # 1) (EEins "abcdijkl->abcdijlk" [(EVar "contracted_intermediate")])));
   (*L2827*) SAssign "contracted_intermediate" (EScale (25000000000001 # 100000000000000) (EEins "mnef,efil,abcdjmnk->abcdijkl" [(ESlice (EVar "g_abab") [SV "o"; SV "o"; SV "v"; SV "v"]); (EVar "t2_abab"); (ESlice (EVar "t4_aabbaabb") [SAll; SAll; SAll; SAll; SAll; SAll; SAll; SAll])]));
   (*L2828*) SAug true "quadruples_res" (EAdd (EScale (1 # 1) (EVar "contracted_intermediate")) (EScale (-1 # 1) (EEins "abcdijkl->abcdijlk" [(EVar "contracted_intermediate")])));
   (*L2831*) SAssign "contracted_intermediate" (EScale (-25000000000001 # 100000000000000) (EEins "nmfe,feil,abcdjnkm->abcdijkl" [(ESlice (EVar "g_abab") [SV "o"; SV "o"; SV "v"; SV "v"]); (EVar "t2_abab"); (ESlice (EVar "t4_aabbaabb") [SAll; SAll; SAll; SAll; SAll; SAll; SAll; SAll])]));
   (*L2832*) SAug true "quadruples_res" (EAdd (EScale (1 # 1) (EVar "contracted_intermediate")) (EScale (-1 # 1) (EEins "abcdijkl->abcdijlk" [(EVar "contracted_intermediate")])));
   (*L2835*) SAssign "contracted_intermediate" (EScale (25000000000001 # 100000000000000) (EEins "mnfe,feil,abcdjmnk->abcdijkl" [(ESlice (EVar "g_abab") [SV "o"; SV "o"; SV "v"; SV "v"]); (EVar "t2_abab"); (ESlice (EVar "t4_aabbaabb") [SAll; SAll; SAll; SAll; SAll; SAll; SAll; SAll])]));
   (*L2836*) SAug true "quadruples_res" (EAdd (EScale (1 # 1) (EVar "contracted_intermediate")) (EScale (-1 # 1) (EEins "abcdijkl->abcdijlk" [(EVar "contracted_intermediate")])));
   (*L2839*) SAug true "quadruples_res" (EScale (-25000000000001 # 100000000000000) (EEins "nmef,efjk,abcdinlm->abcdijkl" [(ESlice (EVar "g_abab") [SV "o"; SV "o"; SV "v"; SV "v"]); (EVar "t2_abab"); (ESlice (EVar "t4_aabbaabb") [SAll; SAll; SAll; SAll; SAll; SAll; SAll; SAll])]));
   (*L2842*) SAug true "quadruples_res" (EScale (25000000000001 # 100000000000000) (EEins "mnef,efjk,abcdimnl->abcdijkl" [(ESlice (EVar "g_abab") [SV "o"; SV "o"; SV "v"; SV "v"]); (EVar "t2_abab"); (ESlice (EVar "t4_aabbaabb") [SAll; SAll; SAll; SAll; SAll; SAll; SAll; SAll])]));
   (*L2845*) SAug true "quadruples_res" (EScale (-25000000000001 # 100000000000000) (EEins "nmfe,fejk,abcdinlm->abcdijkl" [(ESlice (EVar "g_abab") [SV "o"; SV "o"; SV "v"; SV "v"]); (EVar "t2_abab"); (ESlice (EVar "t4_aabbaabb") [SAll; SAll; SAll; SAll; SAll; SAll; SAll; SAll])]));
   (*L2848*) SAug true "quadruples_res" (EScale (25000000000001 # 100000000000000) (EEins "mnfe,fejk,abcdimnl->abcdijkl" [(ESlice (EVar "g_abab") [SV "o"; SV "o"; SV "v"; SV "v"]); (EVar "t2_abab"); (ESlice (EVar "t4_aabbaabb") [SAll; SAll; SAll; SAll; SAll; SAll; SAll; SAll])]));
   (*L2851*) SAug true "quadruples_res" (EScale (-25000000000001 # 100000000000000) (EEins "nmef,efji,abcdnmkl->abcdijkl" [(ESlice (EVar "g_aaaa") [SV "o"; SV "o"; SV "v"; SV "v"]); (EVar "t2_aaaa"); (ESlice (EVar "t4_aabbaabb") [SAll; SAll; SAll; SAll; SAll; SAll; SAll; SAll])]));
   (*L2854*) SAssign "contracted_intermediate" (EScale (-9999999999999 # 20000000000000) (EEins "nmef,eanm,fbcdijkl->abcdijkl" [(ESlice (EVar "g_aaaa") [SV "o"; SV "o"; SV "v"; SV "v"]); (EVar "t2_aaaa"); (ESlice (EVar "t4_aabbaabb") [SAll; SAll; SAll; SAll; SAll; SAll; SAll; SAll])]));
   (*L2855*) SAug true "quadruples_res" (EAdd (EScale (1 # 1) (EVar "contracted_intermediate")) (EScale (-1 # 1) (EEins "abcdijkl->bacdijkl" [(EVar "contracted_intermediate")])));
   (*L2858*) SAssign "contracted_intermediate" (EScale (-9999999999999 # 20000000000000) (EEins "nmfe,aenm,fbcdijkl->abcdijkl" [(ESlice (EVar "g_abab") [SV "o"; SV "o"; SV "v"; SV "v"]); (EVar "t2_abab"); (ESlice (EVar "t4_aabbaabb") [SAll; SAll; SAll; SAll; SAll; SAll; SAll; SAll])]));
   (*L2859*) SAug true "quadruples_res" (EAdd (EScale (1 # 1) (EVar "contracted_intermediate")) (EScale (-1 # 1) (EEins "abcdijkl->bacdijkl" [(EVar "contracted_intermediate")])));
   (*L2862*) SAssign "contracted_intermediate" (EScale (-9999999999999 # 20000000000000) (EEins "mnfe,aemn,fbcdijkl->abcdijkl" [(ESlice (EVar "g_abab") [SV "o"; SV "o"; SV "v"; SV "v"]); (EVar "t2_abab"); (ESlice (EVar "t4_aabbaabb") [SAll; SAll; SAll; SAll; SAll; SAll; SAll; SAll])]));
   (*L2863*) SAug true "quadruples_res" (EAdd (EScale (1 # 1) (EVar "contracted_intermediate")) (EScale (-1 # 1) (EEins "abcdijkl->bacdijkl" [(EVar "contracted_intermediate")])));
   (*L2866*) SAssign "contracted_intermediate" (EScale (6249999999999 # 6250000000000) (EEins "mnfe,aeml,fbcdijkn->abcdijkl" [(ESlice (EVar "g_abab") [SV "o"; SV "o"; SV "v"; SV "v"]); (EVar "t2_abab"); (ESlice (EVar "t4_aabbaabb") [SAll; SAll; SAll; SAll; SAll; SAll; SAll; SAll])]));
   (*L2867*) SAug true "quadruples_res" (EAdd (EAdd (EAdd (EScale (1 # 1) (EVar "contracted_intermediate")) (EScale (-1 # 1) (EEins "abcdijkl->abcdijlk" [(EVar "contracted_intermediate")]))) (EScale (-1 # 1) (EEins "abcdijkl->bacdijkl" [(EVar "contracted_intermediate")]))) (EScale (1 # 1) (EEins "abcdijkl->bacdijlk" [(EVar "contracted_intermediate")])));
   (*L2870*) SAssign "contracted_intermediate" (EScale (-6249999999999 # 6250000000000) (EEins "nmef,eajm,fbcdinlk->abcdijkl" [(ESlice (EVar "g_aaaa") [SV "o"; SV "o"; SV "v"; SV "v"]); (EVar "t2_aaaa"); (ESlice (EVar "t4_aabbaabb") [SAll; SAll; SAll; SAll; SAll; SAll; SAll; SAll])]));
   (*L2871*) SAug true "quadruples_res" (EAdd (EAdd (EAdd (EScale (1 # 1) (EVar "contracted_intermediate")) (EScale (-1 # 1) (EEins "abcdijkl->abcdjikl" [(EVar "contracted_intermediate")]))) (EScale (-1 # 1) (EEins "abcdijkl->bacdijkl" [(EVar "contracted_intermediate")]))) (EScale (1 # 1) (EEins "abcdijkl->bacdjikl" [(EVar "contracted_intermediate")])));
   (*L2874*) SAssign "contracted_intermediate" (EScale (6249999999999 # 6250000000000) (EEins "mnef,eajm,bfcdikln->abcdijkl" [(ESlice (EVar "g_abab") [SV "o"; SV "o"; SV "v"; SV "v"]); (EVar "t2_aaaa"); (ESlice (EVar "t4_abbbabbb") [SAll; SAll; SAll; SAll; SAll; SAll; SAll; SAll])]));
   (*L2875*) SAug true "quadruples_res" (EAdd (EAdd (EAdd (EScale (1 # 1) (EVar "contracted_intermediate")) (EScale (-1 # 1) (EEins "abcdijkl->abcdjikl" [(EVar "contracted_intermediate")]))) (EScale (-1 # 1) (EEins "abcdijkl->bacdijkl" [(EVar "contracted_intermediate")]))) (EScale (1 # 1) (EEins "abcdijkl->bacdjikl" [(EVar "contracted_intermediate")])));
   (*L2878*) SAssign "contracted_intermediate" (EScale (-6249999999999 # 6250000000000) (EEins "nmfe,aejm,fbcdinlk->abcdijkl" [(ESlice (EVar "g_abab") [SV "o"; SV "o"; SV "v"; SV "v"]); (EVar "t2_abab"); (ESlice (EVar "t4_aabbaabb") [SAll; SAll; SAll; SAll; SAll; SAll; SAll; SAll])]));
   (*L2879*) SAug true "quadruples_res" (EAdd (EAdd (EAdd (EScale (1 # 1) (EVar "contracted_intermediate")) (EScale (-1 # 1) (EEins "abcdijkl->abcdjikl" [(EVar "contracted_intermediate")]))) (EScale (-1 # 1) (EEins "abcdijkl->bacdijkl" [(EVar "contracted_intermediate")]))) (EScale (1 # 1) (EEins "abcdijkl->bacdjikl" [(EVar "contracted_intermediate")])));
   (*L2882*) SAssign "contracted_intermediate" (EScale (6249999999999 # 6250000000000) (EEins "nmef,aejm,bfcdikln->abcdijkl" [(ESlice (EVar "g_bbbb") [SV "o"; SV "o"; SV "v"; SV "v"]); (EVar "t2_abab"); (ESlice (EVar "t4_abbbabbb") [SAll; SAll; SAll; SAll; SAll; SAll; SAll; SAll])]));
   (*L2883*) SAug true "quadruples_res" (EAdd (EAdd (EAdd (EScale (1 # 1) (EVar "contracted_intermediate")) (EScale (-1 # 1) (EEins "abcdijkl->abcdjikl" [(EVar "contracted_intermediate")]))) (EScale (-1 # 1) (EEins "abcdijkl->bacdijkl" [(EVar "contracted_intermediate")]))) (EScale (1 # 1) (EEins "abcdijkl->bacdjikl" [(EVar "contracted_intermediate")])));
   (*L2886*) SAssign "contracted_intermediate" (EScale (-9999999999999 # 20000000000000) (EEins "nmfe,aejl,fbcdinkm->abcdijkl" [(ESlice (EVar "g_abab") [SV "o"; SV "o"; SV "v"; SV "v"]); (EVar "t2_abab"); (ESlice (EVar "t4_aabbaabb") [SAll; SAll; SAll; SAll; SAll; SAll; SAll; SAll])]));
   (*L2887*) SAug true "quadruples_res" (EAdd (EScale (1 # 1) (EVar "contracted_intermediate")) (EScale (-1 # 1) (EEins "abcdijkl->bacdijkl" [(EVar "contracted_intermediate")])));
   (*L2890*) SAssign "contracted_intermediate" (EScale (9999999999999 # 20000000000000) (EEins "mnfe,aejl,fbcdimnk->abcdijkl" [(ESlice (EVar "g_abab") [SV "o"; SV "o"; SV "v"; SV "v"]); (EVar "t2_abab"); (ESlice (EVar "t4_aabbaabb") [SAll; SAll; SAll; SAll; SAll; SAll; SAll; SAll])]));
   (*L2891*) SAug true "quadruples_res" (EAdd (EScale (1 # 1) (EVar "contracted_intermediate")) (EScale (-1 # 1) (EEins "abcdijkl->bacdijkl" [(EVar "contracted_intermediate")])));
   (*L2894*) SAssign "contracted_intermediate" (EScale (9999999999999 # 20000000000000) (EEins "nmef,aejl,bfcdiknm->abcdijkl" [(ESlice (EVar "g_bbbb") [SV "o"; SV "o"; SV "v"; SV "v"]); (EVar "t2_abab"); (ESlice (EVar "t4_abbbabbb") [SAll; SAll; SAll; SAll; SAll; SAll; SAll; SAll])]));
   (*L2895*) SAug true "quadruples_res" (EAdd (EScale (1 # 1) (EVar "contracted_intermediate")) (EScale (-1 # 1) (EEins "abcdijkl->bacdijkl" [(EVar "contracted_intermediate")])));
   (*L2898*) SAssign "contracted_intermediate" (EScale (9999999999999 # 20000000000000) (EEins "nmfe,aeil,fbcdjnkm->abcdijkl" [(ESlice (EVar "g_abab") [SV "o"; SV "o"; SV "v"; SV "v"]); (EVar "t2_abab"); (ESlice (EVar "t4_aabbaabb") [SAll; SAll; SAll; SAll; SAll; SAll; SAll; SAll])]));
   (*L2899*) SAug true "quadruples_res" (EAdd (EAdd (EAdd (EScale (1 # 1) (EVar "contracted_intermediate")) (EScale (-1 # 1) (EEins "abcdijkl->abcdijlk" [(EVar "contracted_intermediate")]))) (EScale (-1 # 1) (EEins "abcdijkl->bacdijkl" [(EVar "contracted_intermediate")]))) (EScale (1 # 1) (EEins "abcdijkl->bacdijlk" [(EVar "contracted_intermediate")])));
   (*L2902*) SAssign "contracted_intermediate" (EScale (-9999999999999 # 20000000000000) (EEins "mnfe,aeil,fbcdjmnk->abcdijkl" [(ESlice (EVar "g_abab") [SV "o"; SV "o"; SV "v"; SV "v"]); (EVar "t2_abab"); (ESlice (EVar "t4_aabbaabb") [SAll; SAll; SAll; SAll; SAll; SAll; SAll; SAll])]));
   (*L2903*) SAug true "quadruples_res" (EAdd (EAdd (EAdd (EScale (1 # 1) (EVar "contracted_intermediate")) (EScale (-1 # 1) (EEins "abcdijkl->abcdijlk" [(EVar "contracted_intermediate")]))) (EScale (-1 # 1) (EEins "abcdijkl->bacdijkl" [(EVar "contracted_intermediate")]))) (EScale (1 # 1) (EEins "abcdijkl->bacdijlk" [(EVar "contracted_intermediate")])));
   (*L2906*) SAssign "contracted_intermediate" (EScale (-9999999999999 # 20000000000000) (EEins "nmef,aeil,bfcdjknm->abcdijkl" [(ESlice (EVar "g_bbbb") [SV "o"; SV "o"; SV "v"; SV "v"]); (EVar "t2_abab"); (ESlice (EVar "t4_abbbabbb") [SAll; SAll; SAll; SAll; SAll; SAll; SAll; SAll])]));
   (*L2907*) SAug true "quadruples_res" (EAdd (EAdd (EAdd (EScale (1 # 1) (EVar "contracted_intermediate")) (EScale (-1 # 1) (EEins "abcdijkl->abcdijlk" [(EVar "contracted_intermediate")]))) (EScale (-1 # 1) (EEins "abcdijkl->bacdijkl" [(EVar "contracted_intermediate")]))) (EScale (1 # 1) (EEins "abcdijkl->bacdijlk" [(EVar "contracted_intermediate")])));
   (*L2910*) SAssign "contracted_intermediate" (EScale (9999999999999 # 20000000000000) (EEins "nmfe,aejk,fbcdinlm->abcdijkl" [(ESlice (EVar "g_abab") [SV "o"; SV "o"; SV "v"; SV "v"]); (EVar "t2_abab"); (ESlice (EVar "t4_aabbaabb") [SAll; SAll; SAll; SAll; SAll; SAll; SAll; SAll])]));
   (*L2911*) SAug true "quadruples_res" (EAdd (EScale (1 # 1) (EVar "contracted_intermediate")) (EScale (-1 # 1) (EEins "abcdijkl->bacdijkl" [(EVar "contracted_intermediate")])));
   (*L2914*) SAssign "contracted_intermediate" (EScale (-9999999999999 # 20000000000000) (EEins "mnfe,aejk,fbcdimnl->abcdijkl" [(ESlice (EVar "g_abab") [SV "o"; SV "o"; SV "v"; SV "v"]); (EVar "t2_abab"); (ESlice (EVar "t4_aabbaabb") [SAll; SAll; SAll; SAll; SAll; SAll; SAll; SAll])]));
   (*L2915*) SAug true "quadruples_res" (EAdd (EScale (1 # 1) (EVar "contracted_intermediate")) (EScale (-1 # 1) (EEins "abcdijkl->bacdijkl" [(EVar "contracted_intermediate")])));
   (*L2918*) SAssign "contracted_intermediate" (EScale (-9999999999999 # 20000000000000) (EEins "nmef,aejk,bfcdilnm->abcdijkl" [(ESlice (EVar "g_bbbb") [SV "o"; SV "o"; SV "v"; SV "v"]); (EVar "t2_abab"); (ESlice (EVar "t4_abbbabbb") [SAll; SAll; SAll; SAll; SAll; SAll; SAll; SAll])]));
   (*L2919*) SAug true "quadruples_res" (EAdd (EScale (1 # 1) (EVar "contracted_intermediate")) (EScale (-1 # 1) (EEins "abcdijkl->bacdijkl" [(EVar "contracted_intermediate")])));
   (*L2922*) SAssign "contracted_intermediate" (EScale (9999999999999 # 20000000000000) (EEins "nmef,eaji,fbcdnmkl->abcdijkl" [(ESlice (EVar "g_aaaa") [SV "o"; SV "o"; SV "v"; SV "v"]); (EVar "t2_aaaa"); (ESlice (EVar "t4_aabbaabb") [SAll; SAll; SAll; SAll; SAll; SAll; SAll; SAll])]));
   (*L2923*) SAug true "quadruples_res" (EAdd (EScale (1 # 1) (EVar "contracted_intermediate")) (EScale (-1 # 1) (EEins "abcdijkl->bacdijkl" [(EVar "contracted_intermediate")])));
   (*L2926*) SAssign "contracted_intermediate" (EScale (9999999999999 # 20000000000000) (EEins "nmef,eaji,bfcdnlkm->abcdijkl" [(ESlice (EVar "g_abab") [SV "o"; SV "o"; SV "v"; SV "v"]); (EVar "t2_aaaa"); (ESlice (EVar "t4_abbbabbb") [SAll; SAll; SAll; SAll; SAll; SAll; SAll; SAll])]));
   (*L2927*) SAug true "quadruples_res" (EAdd (EScale (1 # 1) (EVar "contracted_intermediate")) (EScale (-1 # 1) (EEins "abcdijkl->bacdijkl" [(EVar "contracted_intermediate")])));
   (*L2930*) SAssign "contracted_intermediate" (EScale (-9999999999999 # 20000000000000) (EEins "mnef,eaji,bfcdmlnk->abcdijkl" [(ESlice (EVar "g_abab") [SV "o"; SV "o"; SV "v"; SV "v"]); (EVar "t2_aaaa"); (ESlice (EVar "t4_abbbabbb") [SAll; SAll; SAll; SAll; SAll; SAll; SAll; SAll])]));
   (*L2931*) SAug true "quadruples_res" (EAdd (EScale (1 # 1) (EVar "contracted_intermediate")) (EScale (-1 # 1) (EEins "abcdijkl->bacdijkl" [(EVar "contracted_intermediate")])));
   (*L2934*) SAssign "contracted_intermediate" (EScale (9999999999999 # 20000000000000) (EEins "nmef,ecnm,bafdijkl->abcdijkl" [(ESlice (EVar "g_abab") [SV "o"; SV "o"; SV "v"; SV "v"]); (EVar "t2_abab"); (ESlice (EVar "t4_aabbaabb") [SAll; SAll; SAll; SAll; SAll; SAll; SAll; SAll])]));
   (*L2935*) SAug true "quadruples_res" (EAdd (EScale (1 # 1) (EVar "contracted_intermediate")) (EScale (-1 # 1) (EEins "abcdijkl->abdcijkl" [(EVar "contracted_intermediate")])));
   (*L2938*) SAssign "contracted_intermediate" (EScale (9999999999999 # 20000000000000) (EEins "mnef,ecmn,bafdijkl->abcdijkl" [(ESlice (EVar "g_abab") [SV "o"; SV "o"; SV "v"; SV "v"]); (EVar "t2_abab"); (ESlice (EVar "t4_aabbaabb") [SAll; SAll; SAll; SAll; SAll; SAll; SAll; SAll])]));
   (*L2939*) SAug true "quadruples_res" (EAdd (EScale (1 # 1) (EVar "contracted_intermediate")) (EScale (-1 # 1) (EEins "abcdijkl->abdcijkl" [(EVar "contracted_intermediate")])));
   (*L2942*) SAssign "contracted_intermediate" (EScale (9999999999999 # 20000000000000) (EEins "nmef,ecnm,bafdijkl->abcdijkl" [(ESlice (EVar "g_bbbb") [SV "o"; SV "o"; SV "v"; SV "v"]); (EVar "t2_bbbb"); (ESlice (EVar "t4_aabbaabb") [SAll; SAll; SAll; SAll; SAll; SAll; SAll; SAll])]));
   (*L2943*) SAug true "quadruples_res" (EAdd (EScale (1 # 1) (EVar "contracted_intermediate")) (EScale (-1 # 1) (EEins "abcdijkl->abdcijkl" [(EVar "contracted_intermediate")])));
   (*L2946*) SAssign "contracted_intermediate" (EScale (6249999999999 # 6250000000000) (EEins "nmef,ecml,fabdijnk->abcdijkl" [(ESlice (EVar "g_aaaa") [SV "o"; SV "o"; SV "v"; SV "v"]); (EVar "t2_abab"); (ESlice (EVar "t4_aaabaaab") [SAll; SAll; SAll; SAll; SAll; SAll; SAll; SAll])]));
   (*L2947*) SAug true "quadruples_res" (EAdd (EAdd (EAdd (EScale (1 # 1) (EVar "contracted_intermediate")) (EScale (-1 # 1) (EEins "abcdijkl->abcdijlk" [(EVar "contracted_intermediate")]))) (EScale (-1 # 1) (EEins "abcdijkl->abdcijkl" [(EVar "contracted_intermediate")]))) (EScale (1 # 1) (EEins "abcdijkl->abdcijlk" [(EVar "contracted_intermediate")])));
   (*L2950*) SAssign "contracted_intermediate" (EScale (-6249999999999 # 6250000000000) (EEins "mnef,ecml,bafdijkn->abcdijkl" [(ESlice (EVar "g_abab") [SV "o"; SV "o"; SV "v"; SV "v"]); (EVar "t2_abab"); (ESlice (EVar "t4_aabbaabb") [SAll; SAll; SAll; SAll; SAll; SAll; SAll; SAll])]));
   (*L2951*) SAug true "quadruples_res" (EAdd (EAdd (EAdd (EScale (1 # 1) (EVar "contracted_intermediate")) (EScale (-1 # 1) (EEins "abcdijkl->abcdijlk" [(EVar "contracted_intermediate")]))) (EScale (-1 # 1) (EEins "abcdijkl->abdcijkl" [(EVar "contracted_intermediate")]))) (EScale (1 # 1) (EEins "abcdijkl->abdcijlk" [(EVar "contracted_intermediate")])));
   (*L2954*) SAssign "contracted_intermediate" (EScale (6249999999999 # 6250000000000) (EEins "nmfe,eclm,fabdijnk->abcdijkl" [(ESlice (EVar "g_abab") [SV "o"; SV "o"; SV "v"; SV "v"]); (EVar "t2_bbbb"); (ESlice (EVar "t4_aaabaaab") [SAll; SAll; SAll; SAll; SAll; SAll; SAll; SAll])]));
   (*L2955*) SAug true "quadruples_res" (EAdd (EAdd (EAdd (EScale (1 # 1) (EVar "contracted_intermediate")) (EScale (-1 # 1) (EEins "abcdijkl->abcdijlk" [(EVar "contracted_intermediate")]))) (EScale (-1 # 1) (EEins "abcdijkl->abdcijkl" [(EVar "contracted_intermediate")]))) (EScale (1 # 1) (EEins "abcdijkl->abdcijlk" [(EVar "contracted_intermediate")])));
   (*L2958*) SAssign "contracted_intermediate" (EScale (-6249999999999 # 6250000000000) (EEins "nmef,eclm,bafdijkn->abcdijkl" [(ESlice (EVar "g_bbbb") [SV "o"; SV "o"; SV "v"; SV "v"]); (EVar "t2_bbbb"); (ESlice (EVar "t4_aabbaabb") [SAll; SAll; SAll; SAll; SAll; SAll; SAll; SAll])]));
   (*L2959*) SAug true "quadruples_res" (EAdd (EAdd (EAdd (EScale (1 # 1) (EVar "contracted_intermediate")) (EScale (-1 # 1) (EEins "abcdijkl->abcdijlk" [(EVar "contracted_intermediate")]))) (EScale (-1 # 1) (EEins "abcdijkl->abdcijkl" [(EVar "contracted_intermediate")]))) (EScale (1 # 1) (EEins "abcdijkl->abdcijlk" [(EVar "contracted_intermediate")])));
   (*L2962*) SAssign "contracted_intermediate" (EScale (6249999999999 # 6250000000000) (EEins "nmef,ecjm,bafdinlk->abcdijkl" [(ESlice (EVar "g_abab") [SV "o"; SV "o"; SV "v"; SV "v"]); (EVar "t2_abab"); (ESlice (EVar "t4_aabbaabb") [SAll; SAll; SAll; SAll; SAll; SAll; SAll; SAll])]));
   (*L2963*) SAug true "quadruples_res" (EAdd (EAdd (EAdd (EScale (1 # 1) (EVar "contracted_intermediate")) (EScale (-1 # 1) (EEins "abcdijkl->abcdjikl" [(EVar "contracted_intermediate")]))) (EScale (-1 # 1) (EEins "abcdijkl->abdcijkl" [(EVar "contracted_intermediate")]))) (EScale (1 # 1) (EEins "abcdijkl->abdcjikl" [(EVar "contracted_intermediate")])));
   (*L2966*) SAssign "contracted_intermediate" (EScale (9999999999999 # 20000000000000) (EEins "nmfe,eckl,fabdijnm->abcdijkl" [(ESlice (EVar "g_abab") [SV "o"; SV "o"; SV "v"; SV "v"]); (EVar "t2_bbbb"); (ESlice (EVar "t4_aaabaaab") [SAll; SAll; SAll; SAll; SAll; SAll; SAll; SAll])]));
   (*L2967*) SAug true "quadruples_res" (EAdd (EScale (1 # 1) (EVar "contracted_intermediate")) (EScale (-1 # 1) (EEins "abcdijkl->abdcijkl" [(EVar "contracted_intermediate")])));
   (*L2970*) SAssign "contracted_intermediate" (EScale (9999999999999 # 20000000000000) (EEins "mnfe,eckl,fabdijmn->abcdijkl" [(ESlice (EVar "g_abab") [SV "o"; SV "o"; SV "v"; SV "v"]); (EVar "t2_bbbb"); (ESlice (EVar "t4_aaabaaab") [SAll; SAll; SAll; SAll; SAll; SAll; SAll; SAll])]));
   (*L2971*) SAug true "quadruples_res" (EAdd (EScale (1 # 1) (EVar "contracted_intermediate")) (EScale (-1 # 1) (EEins "abcdijkl->abdcijkl" [(EVar "contracted_intermediate")])));
   (*L2974*) SAssign "contracted_intermediate" (EScale (9999999999999 # 20000000000000) (EEins "nmef,eckl,bafdijnm->abcdijkl" [(ESlice (EVar "g_bbbb") [SV "o"; SV "o"; SV "v"; SV "v"]); (EVar "t2_bbbb"); (ESlice (EVar "t4_aabbaabb") [SAll; SAll; SAll; SAll; SAll; SAll; SAll; SAll])]));
   (*L2975*) SAug true "quadruples_res" (EAdd (EScale (1 # 1) (EVar "contracted_intermediate")) (EScale (-1 # 1) (EEins "abcdijkl->abdcijkl" [(EVar "contracted_intermediate")])));
   (*L2978*) SAssign "contracted_intermediate" (EScale (-9999999999999 # 20000000000000) (EEins "nmef,ecjl,fabdimnk->abcdijkl" [(ESlice (EVar "g_aaaa") [SV "o"; SV "o"; SV "v"; SV "v"]); (EVar "t2_abab"); (ESlice (EVar "t4_aaabaaab") [SAll; SAll; SAll; SAll; SAll; SAll; SAll; SAll])]));
   (*L2979*) SAug true "quadruples_res" (EAdd (EScale (1 # 1) (EVar "contracted_intermediate")) (EScale (-1 # 1) (EEins "abcdijkl->abdcijkl" [(EVar "contracted_intermediate")])));
   (*L2982*) SAssign "contracted_intermediate" (EScale (9999999999999 # 20000000000000) (EEins "nmef,ecjl,bafdinkm->abcdijkl" [(ESlice (EVar "g_abab") [SV "o"; SV "o"; SV "v"; SV "v"]); (EVar "t2_abab"); (ESlice (EVar "t4_aabbaabb") [SAll; SAll; SAll; SAll; SAll; SAll; SAll; SAll])]));
   (*L2983*) SAug true "quadruples_res" (EAdd (EScale (1 # 1) (EVar "contracted_intermediate")) (EScale (-1 # 1) (EEins "abcdijkl->abdcijkl" [(EVar "contracted_intermediate")])));
   (*L2986*) SAssign "contracted_intermediate" (EScale (-9999999999999 # 20000000000000) (EEins "mnef,ecjl,bafdimnk->abcdijkl" [(ESlice (EVar "g_abab") [SV "o"; SV "o"; SV "v"; SV "v"]); (EVar "t2_abab"); (ESlice (EVar "t4_aabbaabb") [SAll; SAll; SAll; SAll; SAll; SAll; SAll; SAll])]));
   (*L2987*) SAug true "quadruples_res" (EAdd (EScale (1 # 1) (EVar "contracted_intermediate")) (EScale (-1 # 1) (EEins "abcdijkl->abdcijkl" [(EVar "contracted_intermediate")])));
   (*L2990*) SAssign "contracted_intermediate" (EScale (9999999999999 # 20000000000000) (EEins "nmef,ecil,fabdjmnk->abcdijkl" [(ESlice (EVar "g_aaaa") [SV "o"; SV "o"; SV "v"; SV "v"]); (EVar "t2_abab"); (ESlice (EVar "t4_aaabaaab") [SAll; SAll; SAll; SAll; SAll; SAll; SAll; SAll])]));
   (*L2991*) SAug true "quadruples_res" (EAdd (EAdd (EAdd (EScale (1 # 1) (EVar "contracted_intermediate")) (EScale (-1 # 1) (EEins "abcdijkl->abcdijlk" [(EVar "contracted_intermediate")]))) (EScale (-1 # 1) (EEins "abcdijkl->abdcijkl" [(EVar "contracted_intermediate")]))) (EScale (1 # 1) (EEins "abcdijkl->abdcijlk" [(EVar "contracted_intermediate")])));
   (*L2994*) SAssign "contracted_intermediate" (EScale (-9999999999999 # 20000000000000) (EEins "nmef,ecil,bafdjnkm->abcdijkl" [(ESlice (EVar "g_abab") [SV "o"; SV "o"; SV "v"; SV "v"]); (EVar "t2_abab"); (ESlice (EVar "t4_aabbaabb") [SAll; SAll; SAll; SAll; SAll; SAll; SAll; SAll])]));
   (*L2995*) SAug true "quadruples_res" (EAdd (EAdd (EAdd (EScale (1 # 1) (EVar "contracted_intermediate")) (EScale (-1 # 1) (EEins "abcdijkl->abcdijlk" [(EVar "contracted_intermediate")]))) (EScale (-1 # 1) (EEins "abcdijkl->abdcijkl" [(EVar "contracted_intermediate")]))) (EScale (1 # 1) (EEins "abcdijkl->abdcijlk" [(EVar "contracted_intermediate")])));
   (*L2998*) SAssign "contracted_intermediate" (EScale (9999999999999 # 20000000000000) (EEins "mnef,ecil,bafdjmnk->abcdijkl" [(ESlice (EVar "g_abab") [SV "o"; SV "o"; SV "v"; SV "v"]); (EVar "t2_abab"); (ESlice (EVar "t4_aabbaabb") [SAll; SAll; SAll; SAll; SAll; SAll; SAll; SAll])]));
   (*L2999*) SAug true "quadruples_res" (EAdd (EAdd (EAdd (EScale (1 # 1) (EVar "contracted_intermediate")) (EScale (-1 # 1) (EEins "abcdijkl->abcdijlk" [(EVar "contracted_intermediate")]))) (EScale (-1 # 1) (EEins "abcdijkl->abdcijkl" [(EVar "contracted_intermediate")]))) (EScale (1 # 1) (EEins "abcdijkl->abdcijlk" [(EVar "contracted_intermediate")])));
   (*L3002*) SAssign "contracted_intermediate" (EScale (9999999999999 # 20000000000000) (EEins "nmef,ecjk,fabdimnl->abcdijkl" [(ESlice (EVar "g_aaaa") [SV "o"; SV "o"; SV "v"; SV "v"]); (EVar "t2_abab"); (ESlice (EVar "t4_aaabaaab") [SAll; SAll; SAll; SAll; SAll; SAll; SAll; SAll])]));
   (*L3003*) SAug true "quadruples_res" (EAdd (EScale (1 # 1) (EVar "contracted_intermediate")) (EScale (-1 # 1) (EEins "abcdijkl->abdcijkl" [(EVar "contracted_intermediate")])));
   (*L3006*) SAssign "contracted_intermediate" (EScale (-9999999999999 # 20000000000000) (EEins "nmef,ecjk,bafdinlm->abcdijkl" [(ESlice (EVar "g_abab") [SV "o"; SV "o"; SV "v"; SV "v"]); (EVar "t2_abab"); (ESlice (EVar "t4_aabbaabb") [SAll; SAll; SAll; SAll; SAll; SAll; SAll; SAll])]));
   (*L3007*) SAug true "quadruples_res" (EAdd (EScale (1 # 1) (EVar "contracted_intermediate")) (EScale (-1 # 1) (EEins "abcdijkl->abdcijkl" [(EVar "contracted_intermediate")])));
   (*L3010*) SAssign "contracted_intermediate" (EScale (9999999999999 # 20000000000000) (EEins "mnef,ecjk,bafdimnl->abcdijkl" [(ESlice (EVar "g_abab") [SV "o"; SV "o"; SV "v"; SV "v"]); (EVar "t2_abab"); (ESlice (EVar "t4_aabbaabb") [SAll; SAll; SAll; SAll; SAll; SAll; SAll; SAll])]));
   (*L3011*) SAug true "quadruples_res" (EAdd (EScale (1 # 1) (EVar "contracted_intermediate")) (EScale (-1 # 1) (EEins "abcdijkl->abdcijkl" [(EVar "contracted_intermediate")])));
   (*L3014*) SAug true "quadruples_res" (EScale (25000000000001 # 100000000000000) (EEins "nmef,abnm,efcdijkl->abcdijkl" [(ESlice (EVar "g_aaaa") [SV "o"; SV "o"; SV "v"; SV "v"]); (EVar "t2_aaaa"); (ESlice (EVar "t4_aabbaabb") [SAll; SAll; SAll; SAll; SAll; SAll; SAll; SAll])]));
   (*L3017*) SAug true "quadruples_res" (EScale (25000000000001 # 100000000000000) (EEins "nmef,acnm,ebfdijkl->abcdijkl" [(ESlice (EVar "g_abab") [SV "o"; SV "o"; SV "v"; SV "v"]); (EVar "t2_abab"); (ESlice (EVar "t4_aabbaabb") [SAll; SAll; SAll; SAll; SAll; SAll; SAll; SAll])]));
   (*L3020*) SAug true "quadruples_res" (EScale (-25000000000001 # 100000000000000) (EEins "nmfe,acnm,bfedijkl->abcdijkl" [(ESlice (EVar "g_abab") [SV "o"; SV "o"; SV "v"; SV "v"]); (EVar "t2_abab"); (ESlice (EVar "t4_aabbaabb") [SAll; SAll; SAll; SAll; SAll; SAll; SAll; SAll])]));
   (*L3023*) SAug true "quadruples_res" (EScale (25000000000001 # 100000000000000) (EEins "mnef,acmn,ebfdijkl->abcdijkl" [(ESlice (EVar "g_abab") [SV "o"; SV "o"; SV "v"; SV "v"]); (EVar "t2_abab"); (ESlice (EVar "t4_aabbaabb") [SAll; SAll; SAll; SAll; SAll; SAll; SAll; SAll])]));
   (*L3026*) SAug true "quadruples_res" (EScale (-25000000000001 # 100000000000000) (EEins "mnfe,acmn,bfedijkl->abcdijkl" [(ESlice (EVar "g_abab") [SV "o"; SV "o"; SV "v"; SV "v"]); (EVar "t2_abab"); (ESlice (EVar "t4_aabbaabb") [SAll; SAll; SAll; SAll; SAll; SAll; SAll; SAll])]));
   (*L3029*) SAssign "contracted_intermediate" (EScale (9999999999999 # 20000000000000) (EEins "nmef,acml,efbdijnk->abcdijkl" [(ESlice (EVar "g_aaaa") [SV "o"; SV "o"; SV "v"; SV "v"]); (EVar "t2_abab"); (ESlice (EVar "t4_aaabaaab") [SAll; SAll; SAll; SAll; SAll; SAll; SAll; SAll])]));
   (*L3030*) SAug true "quadruples_res" (EAdd (EScale (1 # 1) (EVar "contracted_intermediate")) (EScale (-1 # 1) (EEins "abcdijkl->abcdijlk" [(EVar "contracted_intermediate")])));
   (*L3033*) SAssign "contracted_intermediate" (EScale (-9999999999999 # 20000000000000) (EEins "mnef,acml,ebfdijkn->abcdijkl" [(ESlice (EVar "g_abab") [SV "o"; SV "o"; SV "v"; SV "v"]); (EVar "t2_abab"); (ESlice (EVar "t4_aabbaabb") [SAll; SAll; SAll; SAll; SAll; SAll; SAll; SAll])]));
   (*L3034*) SAug true "quadruples_res" (EAdd (EScale (1 # 1) (EVar "contracted_intermediate")) (EScale (-1 # 1) (EEins "abcdijkl->abcdijlk" [(EVar "contracted_intermediate")])));
   (*L3037*) SAssign "contracted_intermediate" (EScale (9999999999999 # 20000000000000) (EEins "mnfe,acml,bfedijkn->abcdijkl" [(ESlice (EVar "g_abab") [SV "o"; SV "o"; SV "v"; SV "v"]); (EVar "t2_abab"); (ESlice (EVar "t4_aabbaabb") [SAll; SAll; SAll; SAll; SAll; SAll; SAll; SAll])]));
   (*L3038*) SAug true "quadruples_res" (EAdd (EScale (1 # 1) (EVar "contracted_intermediate")) (EScale (-1 # 1) (EEins "abcdijkl->abcdijlk" [(EVar "contracted_intermediate")])));
   (*L3041*) SAssign "contracted_intermediate" (EScale (9999999999999 # 20000000000000) (EEins "nmef,abjm,efcdinlk->abcdijkl" [(ESlice (EVar "g_aaaa") [SV "o"; SV "o"; SV "v"; SV "v"]); (EVar "t2_aaaa"); (ESlice (EVar "t4_aabbaabb") [SAll; SAll; SAll; SAll; SAll; SAll; SAll; SAll])]));
   (*L3042*) SAug true "quadruples_res" (EAdd (EScale (1 # 1) (EVar "contracted_intermediate")) (EScale (-1 # 1) (EEins "abcdijkl->abcdjikl" [(EVar "contracted_intermediate")])));
   (*L3045*) SAssign "contracted_intermediate" (EScale (9999999999999 # 20000000000000) (EEins "mnef,abjm,efcdikln->abcdijkl" [(ESlice (EVar "g_abab") [SV "o"; SV "o"; SV "v"; SV "v"]); (EVar "t2_aaaa"); (ESlice (EVar "t4_abbbabbb") [SAll; SAll; SAll; SAll; SAll; SAll; SAll; SAll])]));
   (*L3046*) SAug true "quadruples_res" (EAdd (EScale (1 # 1) (EVar "contracted_intermediate")) (EScale (-1 # 1) (EEins "abcdijkl->abcdjikl" [(EVar "contracted_intermediate")])));
   (*L3049*) SAssign "contracted_intermediate" (EScale (9999999999999 # 20000000000000) (EEins "mnfe,abjm,fecdikln->abcdijkl" [(ESlice (EVar "g_abab") [SV "o"; SV "o"; SV "v"; SV "v"]); (EVar "t2_aaaa"); (ESlice (EVar "t4_abbbabbb") [SAll; SAll; SAll; SAll; SAll; SAll; SAll; SAll])]));
   (*L3050*) SAug true "quadruples_res" (EAdd (EScale (1 # 1) (EVar "contracted_intermediate")) (EScale (-1 # 1) (EEins "abcdijkl->abcdjikl" [(EVar "contracted_intermediate")])));
   (*L3053*) SAssign "contracted_intermediate" (EScale (9999999999999 # 20000000000000) (EEins "nmef,acjm,ebfdinlk->abcdijkl" [(ESlice (EVar "g_abab") [SV "o"; SV "o"; SV "v"; SV "v"]); (EVar "t2_abab"); (ESlice (EVar "t4_aabbaabb") [SAll; SAll; SAll; SAll; SAll; SAll; SAll; SAll])]));
   (*L3054*) SAug true "quadruples_res" (EAdd (EScale (1 # 1) (EVar "contracted_intermediate")) (EScale (-1 # 1) (EEins "abcdijkl->abcdjikl" [(EVar "contracted_intermediate")])));
   (*L3057*) SAssign "contracted_intermediate" (EScale (-9999999999999 # 20000000000000) (EEins "nmfe,acjm,bfedinlk->abcdijkl" [(ESlice (EVar "g_abab") [SV "o"; SV "o"; SV "v"; SV "v"]); (EVar "t2_abab"); (ESlice (EVar "t4_aabbaabb") [SAll; SAll; SAll; SAll; SAll; SAll; SAll; SAll])]));
   (*L3058*) SAug true "quadruples_res" (EAdd (EScale (1 # 1) (EVar "contracted_intermediate")) (EScale (-1 # 1) (EEins "abcdijkl->abcdjikl" [(EVar "contracted_intermediate")])));
   (*L3061*) SAssign "contracted_intermediate" (EScale (-9999999999999 # 20000000000000) (EEins "nmef,acjm,bfedikln->abcdijkl" [(ESlice (EVar "g_bbbb") [SV "o"; SV "o"; SV "v"; SV "v"]); (EVar "t2_abab"); (ESlice (EVar "t4_abbbabbb") [SAll; SAll; SAll; SAll; SAll; SAll; SAll; SAll])]));
   (*L3062*) SAug true "quadruples_res" (EAdd (EScale (1 # 1) (EVar "contracted_intermediate")) (EScale (-1 # 1) (EEins "abcdijkl->abcdjikl" [(EVar "contracted_intermediate")])));
   (*L3065*) SAssign "contracted_intermediate" (EScale (-25000000000001 # 100000000000000) (EEins "nmef,adnm,ebfcijkl->abcdijkl" [(ESlice (EVar "g_abab") [SV "o"; SV "o"; SV "v"; SV "v"]); (EVar "t2_abab"); (ESlice (EVar "t4_aabbaabb") [SAll; SAll; SAll; SAll; SAll; SAll; SAll; SAll])]));
   (*L3066*) SAug true "quadruples_res" (EAdd (EScale (1 # 1) (EVar "contracted_intermediate")) (EScale (-1 # 1) (EEins "abcdijkl->bacdijkl" [(EVar "contracted_intermediate")])));
   (*L3069*) SAssign "contracted_intermediate" (EScale (25000000000001 # 100000000000000) (EEins "nmfe,adnm,bfecijkl->abcdijkl" [(ESlice (EVar "g_abab") [SV "o"; SV "o"; SV "v"; SV "v"]); (EVar "t2_abab"); (ESlice (EVar "t4_aabbaabb") [SAll; SAll; SAll; SAll; SAll; SAll; SAll; SAll])]));
   (*L3070*) SAug true "quadruples_res" (EAdd (EScale (1 # 1) (EVar "contracted_intermediate")) (EScale (-1 # 1) (EEins "abcdijkl->bacdijkl" [(EVar "contracted_intermediate")])));
   (*L3073*) SAssign "contracted_intermediate" (EScale (-25000000000001 # 100000000000000) (EEins "mnef,admn,ebfcijkl->abcdijkl" [(ESlice (EVar "g_abab") [SV "o"; SV "o"; SV "v"; SV "v"]); (EVar "t2_abab"); (ESlice (EVar "t4_aabbaabb") [SAll; SAll; SAll; SAll; SAll; SAll; SAll; SAll])]));
   (*L3074*) SAug true "quadruples_res" (EAdd (EScale (1 # 1) (EVar "contracted_intermediate")) (EScale (-1 # 1) (EEins "abcdijkl->bacdijkl" [(EVar "contracted_intermediate")])));
   (*L3077*) SAssign "contracted_intermediate" (EScale (25000000000001 # 100000000000000) (EEins "mnfe,admn,bfecijkl->abcdijkl" [(ESlice (EVar "g_abab") [SV "o"; SV "o"; SV "v"; SV "v"]); (EVar "t2_abab"); (ESlice (EVar "t4_aabbaabb") [SAll; SAll; SAll; SAll; SAll; SAll; SAll; SAll])]));
   (*L3078*) SAug true "quadruples_res" (EAdd (EScale (1 # 1) (EVar "contracted_intermediate")) (EScale (-1 # 1) (EEins "abcdijkl->bacdijkl" [(EVar "contracted_intermediate")])));
   (*L3081*) SAssign "contracted_intermediate" (EScale (-9999999999999 # 20000000000000) (EEins "nmef,adml,efbcijnk->abcdijkl" [(ESlice (EVar "g_aaaa") [SV "o"; SV "o"; SV "v"; SV "v"]); (EVar "t2_abab"); (ESlice (EVar "t4_aaabaaab") [SAll; SAll; SAll; SAll; SAll; SAll; SAll; SAll])]));
   (*L3082*) SAug true "quadruples_res" (EAdd (EAdd (EAdd (EScale (1 # 1) (EVar "contracted_intermediate")) (EScale (-1 # 1) (EEins "abcdijkl->abcdijlk" [(EVar "contracted_intermediate")]))) (EScale (-1 # 1) (EEins "abcdijkl->bacdijkl" [(EVar "contracted_intermediate")]))) (EScale (1 # 1) (EEins "abcdijkl->bacdijlk" [(EVar "contracted_intermediate")])));
   (*L3085*) SAssign "contracted_intermediate" (EScale (9999999999999 # 20000000000000) (EEins "mnef,adml,ebfcijkn->abcdijkl" [(ESlice (EVar "g_abab") [SV "o"; SV "o"; SV "v"; SV "v"]); (EVar "t2_abab"); (ESlice (EVar "t4_aabbaabb") [SAll; SAll; SAll; SAll; SAll; SAll; SAll; SAll])]));
   (*L3086*) SAug true "quadruples_res" (EAdd (EAdd (EAdd (EScale (1 # 1) (EVar "contracted_intermediate")) (EScale (-1 # 1) (EEins "abcdijkl->abcdijlk" [(EVar "contracted_intermediate")]))) (EScale (-1 # 1) (EEins "abcdijkl->bacdijkl" [(EVar "contracted_intermediate")]))) (EScale (1 # 1) (EEins "abcdijkl->bacdijlk" [(EVar "contracted_intermediate")])));
   (*L3089*) SAssign "contracted_intermediate" (EScale (-9999999999999 # 20000000000000) (EEins "mnfe,adml,bfecijkn->abcdijkl" [(ESlice (EVar "g_abab") [SV "o"; SV "o"; SV "v"; SV "v"]); (EVar "t2_abab"); (ESlice (EVar "t4_aabbaabb") [SAll; SAll; SAll; SAll; SAll; SAll; SAll; SAll])]));
   (*L3090*) SAug true "quadruples_res" (EAdd (EAdd (EAdd (EScale (1 # 1) (EVar "contracted_intermediate")) (EScale (-1 # 1) (EEins "abcdijkl->abcdijlk" [(EVar "contracted_intermediate")]))) (EScale (-1 # 1) (EEins "abcdijkl->bacdijkl" [(EVar "contracted_intermediate")]))) (EScale (1 # 1) (EEins "abcdijkl->bacdijlk" [(EVar "contracted_intermediate")])));
   (*L3093*) SAssign "contracted_intermediate" (EScale (-9999999999999 # 20000000000000) (EEins "nmef,adjm,ebfcinlk->abcdijkl" [(ESlice (EVar "g_abab") [SV "o"; SV "o"; SV "v"; SV "v"]); (EVar "t2_abab"); (ESlice (EVar "t4_aabbaabb") [SAll; SAll; SAll; SAll; SAll; SAll; SAll; SAll])]));
   (*L3094*) SAug true "quadruples_res" (EAdd (EAdd (EAdd (EScale (1 # 1) (EVar "contracted_intermediate")) (EScale (-1 # 1) (EEins "abcdijkl->abcdjikl" [(EVar "contracted_intermediate")]))) (EScale (-1 # 1) (EEins "abcdijkl->bacdijkl" [(EVar "contracted_intermediate")]))) (EScale (1 # 1) (EEins "abcdijkl->bacdjikl" [(EVar "contracted_intermediate")])));
   (*L3097*) SAssign "contracted_intermediate" (EScale (9999999999999 # 20000000000000) (EEins "nmfe,adjm,bfecinlk->abcdijkl" [(ESlice (EVar "g_abab") [SV "o"; SV "o"; SV "v"; SV "v"]); (EVar "t2_abab"); (ESlice (EVar "t4_aabbaabb") [SAll; SAll; SAll; SAll; SAll; SAll; SAll; SAll])]));
   (*L3098*) SAug true "quadruples_res" (EAdd (EAdd (EAdd (EScale (1 # 1) (EVar "contracted_intermediate")) (EScale (-1 # 1) (EEins "abcdijkl->abcdjikl" [(EVar "contracted_intermediate")]))) (EScale (-1 # 1) (EEins "abcdijkl->bacdijkl" [(EVar "contracted_intermediate")]))) (EScale (1 # 1) (EEins "abcdijkl->bacdjikl" [(EVar "contracted_intermediate")])));
   (*L3101*) SAssign "contracted_intermediate" (EScale (9999999999999 # 20000000000000) (EEins "nmef,adjm,bfecikln->abcdijkl" [(ESlice (EVar "g_bbbb") [SV "o"; SV "o"; SV "v"; SV "v"]); (EVar "t2_abab"); (ESlice (EVar "t4_abbbabbb") [SAll; SAll; SAll; SAll; SAll; SAll; SAll; SAll])]));
   (*L3102*) SAug true "quadruples_res" (EAdd (EAdd (EAdd (EScale (1 # 1) (EVar "contracted_intermediate")) (EScale (-1 # 1) (EEins "abcdijkl->abcdjikl" [(EVar "contracted_intermediate")]))) (EScale (-1 # 1) (EEins "abcdijkl->bacdijkl" [(EVar "contracted_intermediate")]))) (EScale (1 # 1) (EEins "abcdijkl->bacdjikl" [(EVar "contracted_intermediate")])));
   (*L3105*) SAug true "quadruples_res" (EScale (-25000000000001 # 100000000000000) (EEins "nmef,bcnm,eafdijkl->abcdijkl" [(ESlice (EVar "g_abab") [SV "o"; SV "o"; SV "v"; SV "v"]); (EVar "t2_abab"); (ESlice (EVar "t4_aabbaabb") [SAll; SAll; SAll; SAll; SAll; SAll; SAll; SAll])]));
   (*L3108*) SAug true "quadruples_res" (EScale (25000000000001 # 100000000000000) (EEins "nmfe,bcnm,afedijkl->abcdijkl" [(ESlice (EVar "g_abab") [SV "o"; SV "o"; SV "v"; SV "v"]); (EVar "t2_abab"); (ESlice (EVar "t4_aabbaabb") [SAll; SAll; SAll; SAll; SAll; SAll; SAll; SAll])]));
   (*L3111*) SAug true "quadruples_res" (EScale (-25000000000001 # 100000000000000) (EEins "mnef,bcmn,eafdijkl->abcdijkl" [(ESlice (EVar "g_abab") [SV "o"; SV "o"; SV "v"; SV "v"]); (EVar "t2_abab"); (ESlice (EVar "t4_aabbaabb") [SAll; SAll; SAll; SAll; SAll; SAll; SAll; SAll])]));
   (*L3114*) SAug true "quadruples_res" (EScale (25000000000001 # 100000000000000) (EEins "mnfe,bcmn,afedijkl->abcdijkl" [(ESlice (EVar "g_abab") [SV "o"; SV "o"; SV "v"; SV "v"]); (EVar "t2_abab"); (ESlice (EVar "t4_aabbaabb") [SAll; SAll; SAll; SAll; SAll; SAll; SAll; SAll])]));
   (*L3117*) SAug true "quadruples_res" (EScale (-25000000000001 # 100000000000000) (EEins "nmef,dcnm,abefijkl->abcdijkl" [(ESlice (EVar "g_bbbb") [SV "o"; SV "o"; SV "v"; SV "v"]); (EVar "t2_bbbb"); (ESlice (EVar "t4_aabbaabb") [SAll; SAll; SAll; SAll; SAll; SAll; SAll; SAll])]));
   (*L3120*) SAssign "contracted_intermediate" (EScale (-9999999999999 # 20000000000000) (EEins "nmef,bcml,efadijnk->abcdijkl" [(ESlice (EVar "g_aaaa") [SV "o"; SV "o"; SV "v"; SV "v"]); (EVar "t2_abab"); (ESlice (EVar "t4_aaabaaab") [SAll; SAll; SAll; SAll; SAll; SAll; SAll; SAll])]));
   (*L3121*) SAug true "quadruples_res" (EAdd (EScale (1 # 1) (EVar "contracted_intermediate")) (EScale (-1 # 1) (EEins "abcdijkl->abcdijlk" [(EVar "contracted_intermediate")])));
   (*L3124*) SAssign "contracted_intermediate" (EScale (9999999999999 # 20000000000000) (EEins "mnef,bcml,eafdijkn->abcdijkl" [(ESlice (EVar "g_abab") [SV "o"; SV "o"; SV "v"; SV "v"]); (EVar "t2_abab"); (ESlice (EVar "t4_aabbaabb") [SAll; SAll; SAll; SAll; SAll; SAll; SAll; SAll])]));
   (*L3125*) SAug true "quadruples_res" (EAdd (EScale (1 # 1) (EVar "contracted_intermediate")) (EScale (-1 # 1) (EEins "abcdijkl->abcdijlk" [(EVar "contracted_intermediate")])));
   (*L3128*) SAssign "contracted_intermediate" (EScale (-9999999999999 # 20000000000000) (EEins "mnfe,bcml,afedijkn->abcdijkl" [(ESlice (EVar "g_abab") [SV "o"; SV "o"; SV "v"; SV "v"]); (EVar "t2_abab"); (ESlice (EVar "t4_aabbaabb") [SAll; SAll; SAll; SAll; SAll; SAll; SAll; SAll])]));
   (*L3129*) SAug true "quadruples_res" (EAdd (EScale (1 # 1) (EVar "contracted_intermediate")) (EScale (-1 # 1) (EEins "abcdijkl->abcdijlk" [(EVar "contracted_intermediate")])));
   (*L3132*) SAssign "contracted_intermediate" (EScale (9999999999999 # 20000000000000) (EEins "nmef,dclm,ebafijnk->abcdijkl" [(ESlice (EVar "g_abab") [SV "o"; SV "o"; SV "v"; SV "v"]); (EVar "t2_bbbb"); (ESlice (EVar "t4_aaabaaab") [SAll; SAll; SAll; SAll; SAll; SAll; SAll; SAll])]));
   (*L3133*) SAug true "quadruples_res" (EAdd (EScale (1 # 1) (EVar "contracted_intermediate")) (EScale (-1 # 1) (EEins "abcdijkl->abcdijlk" [(EVar "contracted_intermediate")])));
   (*L3136*) SAssign "contracted_intermediate" (EScale (-9999999999999 # 20000000000000) (EEins "nmfe,dclm,bfaeijnk->abcdijkl" [(ESlice (EVar "g_abab") [SV "o"; SV "o"; SV "v"; SV "v"]); (EVar "t2_bbbb"); (ESlice (EVar "t4_aaabaaab") [SAll; SAll; SAll; SAll; SAll; SAll; SAll; SAll])]));
   (*L3137*) SAug true "quadruples_res" (EAdd (EScale (1 # 1) (EVar "contracted_intermediate")) (EScale (-1 # 1) (EEins "abcdijkl->abcdijlk" [(EVar "contracted_intermediate")])));
   (*L3140*) SAssign "contracted_intermediate" (EScale (9999999999999 # 20000000000000) (EEins "nmef,dclm,abefijkn->abcdijkl" [(ESlice (EVar "g_bbbb") [SV "o"; SV "o"; SV "v"; SV "v"]); (EVar "t2_bbbb"); (ESlice (EVar "t4_aabbaabb") [SAll; SAll; SAll; SAll; SAll; SAll; SAll; SAll])]));
   (*L3141*) SAug true "quadruples_res" (EAdd (EScale (1 # 1) (EVar "contracted_intermediate")) (EScale (-1 # 1) (EEins "abcdijkl->abcdijlk" [(EVar "contracted_intermediate")])));
   (*L3144*) SAssign "contracted_intermediate" (EScale (-9999999999999 # 20000000000000) (EEins "nmef,bcjm,eafdinlk->abcdijkl" [(ESlice (EVar "g_abab") [SV "o"; SV "o"; SV "v"; SV "v"]); (EVar "t2_abab"); (ESlice (EVar "t4_aabbaabb") [SAll; SAll; SAll; SAll; SAll; SAll; SAll; SAll])]));
   (*L3145*) SAug true "quadruples_res" (EAdd (EScale (1 # 1) (EVar "contracted_intermediate")) (EScale (-1 # 1) (EEins "abcdijkl->abcdjikl" [(EVar "contracted_intermediate")])));
   (*L3148*) SAssign "contracted_intermediate" (EScale (9999999999999 # 20000000000000) (EEins "nmfe,bcjm,afedinlk->abcdijkl" [(ESlice (EVar "g_abab") [SV "o"; SV "o"; SV "v"; SV "v"]); (EVar "t2_abab"); (ESlice (EVar "t4_aabbaabb") [SAll; SAll; SAll; SAll; SAll; SAll; SAll; SAll])]));
   (*L3149*) SAug true "quadruples_res" (EAdd (EScale (1 # 1) (EVar "contracted_intermediate")) (EScale (-1 # 1) (EEins "abcdijkl->abcdjikl" [(EVar "contracted_intermediate")])));
   (*L3152*) SAssign "contracted_intermediate" (EScale (9999999999999 # 20000000000000) (EEins "nmef,bcjm,afedikln->abcdijkl" [(ESlice (EVar "g_bbbb") [SV "o"; SV "o"; SV "v"; SV "v"]); (EVar "t2_abab"); (ESlice (EVar "t4_abbbabbb") [SAll; SAll; SAll; SAll; SAll; SAll; SAll; SAll])]));
   (*L3153*) SAug true "quadruples_res" (EAdd (EScale (1 # 1) (EVar "contracted_intermediate")) (EScale (-1 # 1) (EEins "abcdijkl->abcdjikl" [(EVar "contracted_intermediate")])));
   (*L3156*) SAssign "contracted_intermediate" (EScale (1 # 1) (EEins "nmkl,acjm,bdin->abcdijkl" [(ESlice (EVar "g_bbbb") [SV "o"; SV "o"; SV "o"; SV "o"]); (EVar "t2_abab"); (EVar "t2_abab")]));
   (*L3157*) SAug true "quadruples_res" (EAdd (EScale (1 # 1) (EVar "contracted_intermediate")) (EScale (-1 # 1) (EEins "abcdijkl->abcdjikl" [(EVar "contracted_intermediate")])));
   (*L3160*) SAssign "contracted_intermediate" (EScale (-1 # 1) (EEins "nmkl,adjm,bcin->abcdijkl" [(ESlice (EVar "g_bbbb") [SV "o"; SV "o"; SV "o"; SV "o"]); (EVar "t2_abab"); (EVar "t2_abab")]));
   (*L3161*) SAug true "quadruples_res" (EAdd (EScale (1 # 1) (EVar "contracted_intermediate")) (EScale (-1 # 1) (EEins "abcdijkl->abcdjikl" [(EVar "contracted_intermediate")])));
   (*L3164*) SAug true "quadruples_res" (EScale (-1 # 1) (EEins "mnjl,acmk,bdin->abcdijkl" [(ESlice (EVar "g_abab") [SV "o"; SV "o"; SV "o"; SV "o"]); (EVar "t2_abab"); (EVar "t2_abab")]));
   (*L3167*) SAug true "quadruples_res" (EScale (1 # 1) (EEins "mnjl,abim,cdkn->abcdijkl" [(ESlice (EVar "g_abab") [SV "o"; SV "o"; SV "o"; SV "o"]); (EVar "t2_aaaa"); (EVar "t2_bbbb")]));
   (*L3170*) SAug true "quadruples_res" (EScale (-1 # 1) (EEins "nmjl,acim,bdnk->abcdijkl" [(ESlice (EVar "g_abab") [SV "o"; SV "o"; SV "o"; SV "o"]); (EVar "t2_abab"); (EVar "t2_abab")]));
   (*L3173*) SAug true "quadruples_res" (EScale (1 # 1) (EEins "mnjl,admk,bcin->abcdijkl" [(ESlice (EVar "g_abab") [SV "o"; SV "o"; SV "o"; SV "o"]); (EVar "t2_abab"); (EVar "t2_abab")]));
   (*L3176*) SAug true "quadruples_res" (EScale (1 # 1) (EEins "nmjl,adim,bcnk->abcdijkl" [(ESlice (EVar "g_abab") [SV "o"; SV "o"; SV "o"; SV "o"]); (EVar "t2_abab"); (EVar "t2_abab")]));
   (*L3179*) SAug true "quadruples_res" (EScale (1 # 1) (EEins "mnil,acmk,bdjn->abcdijkl" [(ESlice (EVar "g_abab") [SV "o"; SV "o"; SV "o"; SV "o"]); (EVar "t2_abab"); (EVar "t2_abab")]));
   (*L3182*) SAug true "quadruples_res" (EScale (-1 # 1) (EEins "mnil,abjm,cdkn->abcdijkl" [(ESlice (EVar "g_abab") [SV "o"; SV "o"; SV "o"; SV "o"]); (EVar "t2_aaaa"); (EVar "t2_bbbb")]));
   (*L3185*) SAug true "quadruples_res" (EScale (1 # 1) (EEins "nmil,acjm,bdnk->abcdijkl" [(ESlice (EVar "g_abab") [SV "o"; SV "o"; SV "o"; SV "o"]); (EVar "t2_abab"); (EVar "t2_abab")]));
   (*L3188*) SAug true "quadruples_res" (EScale (-1 # 1) (EEins "mnil,admk,bcjn->abcdijkl" [(ESlice (EVar "g_abab") [SV "o"; SV "o"; SV "o"; SV "o"]); (EVar "t2_abab"); (EVar "t2_abab")]));
   (*L3191*) SAug true "quadruples_res" (EScale (-1 # 1) (EEins "nmil,adjm,bcnk->abcdijkl" [(ESlice (EVar "g_abab") [SV "o"; SV "o"; SV "o"; SV "o"]); (EVar "t2_abab"); (EVar "t2_abab")]));
   (*L3194*) SAug true "quadruples_res" (EScale (1 # 1) (EEins "mnjk,acml,bdin->abcdijkl" [(ESlice (EVar "g_abab") [SV "o"; SV "o"; SV "o"; SV "o"]); (EVar "t2_abab"); (EVar "t2_abab")]));
   (*L3197*) SAug true "quadruples_res" (EScale (-1 # 1) (EEins "mnjk,abim,cdln->abcdijkl" [(ESlice (EVar "g_abab") [SV "o"; SV "o"; SV "o"; SV "o"]); (EVar "t2_aaaa"); (EVar "t2_bbbb")]));
   (*L3200*) SAug true "quadruples_res" (EScale (1 # 1) (EEins "nmjk,acim,bdnl->abcdijkl" [(ESlice (EVar "g_abab") [SV "o"; SV "o"; SV "o"; SV "o"]); (EVar "t2_abab"); (EVar "t2_abab")]));
   (*L3203*) SAug true "quadruples_res" (EScale (-1 # 1) (EEins "mnjk,adml,bcin->abcdijkl" [(ESlice (EVar "g_abab") [SV "o"; SV "o"; SV "o"; SV "o"]); (EVar "t2_abab"); (EVar "t2_abab")]));
   (*L3206*) SAug true "quadruples_res" (EScale (-1 # 1) (EEins "nmjk,adim,bcnl->abcdijkl" [(ESlice (EVar "g_abab") [SV "o"; SV "o"; SV "o"; SV "o"]); (EVar "t2_abab"); (EVar "t2_abab")]));
   (*L3209*) SAug true "quadruples_res" (EScale (-1 # 1) (EEins "mnik,acml,bdjn->abcdijkl" [(ESlice (EVar "g_abab") [SV "o"; SV "o"; SV "o"; SV "o"]); (EVar "t2_abab"); (EVar "t2_abab")]));
   (*L3212*) SAug true "quadruples_res" (EScale (1 # 1) (EEins "mnik,abjm,cdln->abcdijkl" [(ESlice (EVar "g_abab") [SV "o"; SV "o"; SV "o"; SV "o"]); (EVar "t2_aaaa"); (EVar "t2_bbbb")]));
   (*L3215*) SAug true "quadruples_res" (EScale (-1 # 1) (EEins "nmik,acjm,bdnl->abcdijkl" [(ESlice (EVar "g_abab") [SV "o"; SV "o"; SV "o"; SV "o"]); (EVar "t2_abab"); (EVar "t2_abab")]));
   (*L3218*) SAug true "quadruples_res" (EScale (1 # 1) (EEins "mnik,adml,bcjn->abcdijkl" [(ESlice (EVar "g_abab") [SV "o"; SV "o"; SV "o"; SV "o"]); (EVar "t2_abab"); (EVar "t2_abab")]));
   (*L3221*) SAug true "quadruples_res" (EScale (1 # 1) (EEins "nmik,adjm,bcnl->abcdijkl" [(ESlice (EVar "g_abab") [SV "o"; SV "o"; SV "o"; SV "o"]); (EVar "t2_abab"); (EVar "t2_abab")]));
   (*L3224*) SAssign "contracted_intermediate" (EScale (1 # 1) (EEins "nmij,acml,bdnk->abcdijkl" [(ESlice (EVar "g_aaaa") [SV "o"; SV "o"; SV "o"; SV "o"]); (EVar "t2_abab"); (EVar "t2_abab")]));
   (*L3225*) SAug true "quadruples_res" (EAdd (EScale (1 # 1) (EVar "contracted_intermediate")) (EScale (-1 # 1) (EEins "abcdijkl->abcdijlk" [(EVar "contracted_intermediate")])));
   (*L3228*) SAssign "contracted_intermediate" (EScale (-1 # 1) (EEins "nmij,adml,bcnk->abcdijkl" [(ESlice (EVar "g_aaaa") [SV "o"; SV "o"; SV "o"; SV "o"]); (EVar "t2_abab"); (EVar "t2_abab")]));
   (*L3229*) SAug true "quadruples_res" (EAdd (EScale (1 # 1) (EVar "contracted_intermediate")) (EScale (-1 # 1) (EEins "abcdijkl->abcdijlk" [(EVar "contracted_intermediate")])));
   (*L3232*) SAssign "contracted_intermediate" (EScale (1 # 1) (EEins "amel,ecjk,bdim->abcdijkl" [(ESlice (EVar "g_abab") [SV "v"; SV "o"; SV "v"; SV "o"]); (EVar "t2_abab"); (EVar "t2_abab")]));
   (*L3233*) SAug true "quadruples_res" (EAdd (EScale (1 # 1) (EVar "contracted_intermediate")) (EScale (-1 # 1) (EEins "abcdijkl->abcdjikl" [(EVar "contracted_intermediate")])));
   (*L3236*) SAssign "contracted_intermediate" (EScale (-1 # 1) (EEins "amel,ebij,cdkm->abcdijkl" [(ESlice (EVar "g_abab") [SV "v"; SV "o"; SV "v"; SV "o"]); (EVar "t2_aaaa"); (EVar "t2_bbbb")]));
   (*L3237*) SAug true "quadruples_res" (EAdd (EScale (1 # 1) (EVar "contracted_intermediate")) (EScale (-1 # 1) (EEins "abcdijkl->abcdijlk" [(EVar "contracted_intermediate")])));
   (*L3240*) SAssign "contracted_intermediate" (EScale (-1 # 1) (EEins "amel,edjk,bcim->abcdijkl" [(ESlice (EVar "g_abab") [SV "v"; SV "o"; SV "v"; SV "o"]); (EVar "t2_abab"); (EVar "t2_abab")]));
   (*L3241*) SAug true "quadruples_res" (EAdd (EAdd (EAdd (EScale (1 # 1) (EVar "contracted_intermediate")) (EScale (-1 # 1) (EEins "abcdijkl->abcdjikl" [(EVar "contracted_intermediate")]))) (EScale (-1 # 1) (EEins "abcdijkl->bacdijkl" [(EVar "contracted_intermediate")]))) (EScale (1 # 1) (EEins "abcdijkl->bacdjikl" [(EVar "contracted_intermediate")])));
   (*L3244*) SAssign "contracted_intermediate" (EScale (-1 # 1) (EEins "amek,ecjl,bdim->abcdijkl" [(ESlice (EVar "g_abab") [SV "v"; SV "o"; SV "v"; SV "o"]); (EVar "t2_abab"); (EVar "t2_abab")]));
   (*L3245*) SAug true "quadruples_res" (EAdd (EScale (1 # 1) (EVar "contracted_intermediate")) (EScale (-1 # 1) (EEins "abcdijkl->abcdjikl" [(EVar "contracted_intermediate")])));
   (*L3248*) SAssign "contracted_intermediate" (EScale (1 # 1) (EEins "amek,edjl,bcim->abcdijkl" [(ESlice (EVar "g_abab") [SV "v"; SV "o"; SV "v"; SV "o"]); (EVar "t2_abab"); (EVar "t2_abab")]));
   (*L3249*) SAug true "quadruples_res" (EAdd (EAdd (EAdd (EScale (1 # 1) (EVar "contracted_intermediate")) (EScale (-1 # 1) (EEins "abcdijkl->abcdjikl" [(EVar "contracted_intermediate")]))) (EScale (-1 # 1) (EEins "abcdijkl->bacdijkl" [(EVar "contracted_intermediate")]))) (EScale (1 # 1) (EEins "abcdijkl->bacdjikl" [(EVar "contracted_intermediate")])));
   (*L3252*) SAug true "quadruples_res" (EScale (-1 # 1) (EEins "amje,eckl,bdim->abcdijkl" [(ESlice (EVar "g_abab") [SV "v"; SV "o"; SV "o"; SV "v"]); (EVar "t2_bbbb"); (EVar "t2_abab")]));
   (*L3255*) SAug true "quadruples_res" (EScale (1 # 1) (EEins "amje,beil,cdkm->abcdijkl" [(ESlice (EVar "g_abab") [SV "v"; SV "o"; SV "o"; SV "v"]); (EVar "t2_abab"); (EVar "t2_bbbb")]));
   (*L3258*) SAug true "quadruples_res" (EScale (-1 # 1) (EEins "maej,ecil,bdmk->abcdijkl" [(ESlice (EVar "g_aaaa") [SV "o"; SV "v"; SV "v"; SV "o"]); (EVar "t2_abab"); (EVar "t2_abab")]));
   (*L3261*) SAssign "contracted_intermediate" (EScale (-1 # 1) (EEins "amje,beik,cdlm->abcdijkl" [(ESlice (EVar "g_abab") [SV "v"; SV "o"; SV "o"; SV "v"]); (EVar "t2_abab"); (EVar "t2_bbbb")]));
   (*L3262*) SAug true "quadruples_res" (EAdd (EScale (1 # 1) (EVar "contracted_intermediate")) (EScale (-1 # 1) (EEins "abcdijkl->abcdjikl" [(EVar "contracted_intermediate")])));
   (*L3265*) SAssign "contracted_intermediate" (EScale (1 # 1) (EEins "maej,ecik,bdml->abcdijkl" [(ESlice (EVar "g_aaaa") [SV "o"; SV "v"; SV "v"; SV "o"]); (EVar "t2_abab"); (EVar "t2_abab")]));
   (*L3266*) SAug true "quadruples_res" (EAdd (EScale (1 # 1) (EVar "contracted_intermediate")) (EScale (-1 # 1) (EEins "abcdijkl->abcdjikl" [(EVar "contracted_intermediate")])));
   (*L3269*) SAssign "contracted_intermediate" (EScale (1 # 1) (EEins "amje,edkl,bcim->abcdijkl" [(ESlice (EVar "g_abab") [SV "v"; SV "o"; SV "o"; SV "v"]); (EVar "t2_bbbb"); (EVar "t2_abab")]));
   (*L3270*) SAug true "quadruples_res" (EAdd (EScale (1 # 1) (EVar "contracted_intermediate")) (EScale (-1 # 1) (EEins "abcdijkl->bacdijkl" [(EVar "contracted_intermediate")])));
   (*L3273*) SAssign "contracted_intermediate" (EScale (1 # 1) (EEins "maej,edil,bcmk->abcdijkl" [(ESlice (EVar "g_aaaa") [SV "o"; SV "v"; SV "v"; SV "o"]); (EVar "t2_abab"); (EVar "t2_abab")]));
   (*L3274*) SAug true "quadruples_res" (EAdd (EScale (1 # 1) (EVar "contracted_intermediate")) (EScale (-1 # 1) (EEins "abcdijkl->bacdijkl" [(EVar "contracted_intermediate")])));
   (*L3277*) SAssign "contracted_intermediate" (EScale (-1 # 1) (EEins "maej,edik,bcml->abcdijkl" [(ESlice (EVar "g_aaaa") [SV "o"; SV "v"; SV "v"; SV "o"]); (EVar "t2_abab"); (EVar "t2_abab")]));
   (*L3278*) SAug true "quadruples_res" (EAdd (EAdd (EAdd (EScale (1 # 1) (EVar "contracted_intermediate")) (EScale (-1 # 1) (EEins "abcdijkl->abcdjikl" [(EVar "contracted_intermediate")]))) (EScale (-1 # 1) (EEins "abcdijkl->bacdijkl" [(EVar "contracted_intermediate")]))) (EScale (1 # 1) (EEins "abcdijkl->bacdjikl" [(EVar "contracted_intermediate")])));
   (*L3281*) SAug true "quadruples_res" (EScale (1 # 1) (EEins "amie,eckl,bdjm->abcdijkl" [(ESlice (EVar "g_abab") [SV "v"; SV "o"; SV "o"; SV "v"]); (EVar "t2_bbbb"); (EVar "t2_abab")]));
   (*L3284*) SAug true "quadruples_res" (EScale (-1 # 1) (EEins "amie,bejl,cdkm->abcdijkl" [(ESlice (EVar "g_abab") [SV "v"; SV "o"; SV "o"; SV "v"]); (EVar "t2_abab"); (EVar "t2_bbbb")]));
   (*L3287*) SAug true "quadruples_res" (EScale (1 # 1) (EEins "maei,ecjl,bdmk->abcdijkl" [(ESlice (EVar "g_aaaa") [SV "o"; SV "v"; SV "v"; SV "o"]); (EVar "t2_abab"); (EVar "t2_abab")]));
   (*L3290*) SAssign "contracted_intermediate" (EScale (-1 # 1) (EEins "amie,edkl,bcjm->abcdijkl" [(ESlice (EVar "g_abab") [SV "v"; SV "o"; SV "o"; SV "v"]); (EVar "t2_bbbb"); (EVar "t2_abab")]));
   (*L3291*) SAug true "quadruples_res" (EAdd (EScale (1 # 1) (EVar "contracted_intermediate")) (EScale (-1 # 1) (EEins "abcdijkl->bacdijkl" [(EVar "contracted_intermediate")])));
   (*L3294*) SAssign "contracted_intermediate" (EScale (-1 # 1) (EEins "maei,edjl,bcmk->abcdijkl" [(ESlice (EVar "g_aaaa") [SV "o"; SV "v"; SV "v"; SV "o"]); (EVar "t2_abab"); (EVar "t2_abab")]));
   (*L3295*) SAug true "quadruples_res" (EAdd (EScale (1 # 1) (EVar "contracted_intermediate")) (EScale (-1 # 1) (EEins "abcdijkl->bacdijkl" [(EVar "contracted_intermediate")])));
   (*L3298*) SAssign "contracted_intermediate" (EScale (-1 # 1) (EEins "bmel,ecjk,adim->abcdijkl" [(ESlice (EVar "g_abab") [SV "v"; SV "o"; SV "v"; SV "o"]); (EVar "t2_abab"); (EVar "t2_abab")]));
   (*L3299*) SAug true "quadruples_res" (EAdd (EScale (1 # 1) (EVar "contracted_intermediate")) (EScale (-1 # 1) (EEins "abcdijkl->abcdjikl" [(EVar "contracted_intermediate")])));
   (*L3302*) SAssign "contracted_intermediate" (EScale (1 # 1) (EEins "bmel,eaij,cdkm->abcdijkl" [(ESlice (EVar "g_abab") [SV "v"; SV "o"; SV "v"; SV "o"]); (EVar "t2_aaaa"); (EVar "t2_bbbb")]));
   (*L3303*) SAug true "quadruples_res" (EAdd (EScale (1 # 1) (EVar "contracted_intermediate")) (EScale (-1 # 1) (EEins "abcdijkl->abcdijlk" [(EVar "contracted_intermediate")])));
   (*L3306*) SAssign "contracted_intermediate" (EScale (1 # 1) (EEins "bmek,ecjl,adim->abcdijkl" [(ESlice (EVar "g_abab") [SV "v"; SV "o"; SV "v"; SV "o"]); (EVar "t2_abab"); (EVar "t2_abab")]));
   (*L3307*) SAug true "quadruples_res" (EAdd (EScale (1 # 1) (EVar "contracted_intermediate")) (EScale (-1 # 1) (EEins "abcdijkl->abcdjikl" [(EVar "contracted_intermediate")])));
   (*L3310*) SAug true "quadruples_res" (EScale (1 # 1) (EEins "bmje,eckl,adim->abcdijkl" [(ESlice (EVar "g_abab") [SV "v"; SV "o"; SV "o"; SV "v"]); (EVar "t2_bbbb"); (EVar "t2_abab")]));
   (*L3313*) SAug true "quadruples_res" (EScale (-1 # 1) (EEins "bmje,aeil,cdkm->abcdijkl" [(ESlice (EVar "g_abab") [SV "v"; SV "o"; SV "o"; SV "v"]); (EVar "t2_abab"); (EVar "t2_bbbb")]));
   (*L3316*) SAug true "quadruples_res" (EScale (1 # 1) (EEins "mbej,ecil,admk->abcdijkl" [(ESlice (EVar "g_aaaa") [SV "o"; SV "v"; SV "v"; SV "o"]); (EVar "t2_abab"); (EVar "t2_abab")]));
   (*L3319*) SAssign "contracted_intermediate" (EScale (1 # 1) (EEins "bmje,aeik,cdlm->abcdijkl" [(ESlice (EVar "g_abab") [SV "v"; SV "o"; SV "o"; SV "v"]); (EVar "t2_abab"); (EVar "t2_bbbb")]));
   (*L3320*) SAug true "quadruples_res" (EAdd (EScale (1 # 1) (EVar "contracted_intermediate")) (EScale (-1 # 1) (EEins "abcdijkl->abcdjikl" [(EVar "contracted_intermediate")])));
   (*L3323*) SAssign "contracted_intermediate" (EScale (-1 # 1) (EEins "mbej,ecik,adml->abcdijkl" [(ESlice (EVar "g_aaaa") [SV "o"; SV "v"; SV "v"; SV "o"]); (EVar "t2_abab"); (EVar "t2_abab")]));
   (*L3324*) SAug true "quadruples_res" (EAdd (EScale (1 # 1) (EVar "contracted_intermediate")) (EScale (-1 # 1) (EEins "abcdijkl->abcdjikl" [(EVar "contracted_intermediate")])));
   (*L3327*) SAug true "quadruples_res" (EScale (-1 # 1) (EEins "bmie,eckl,adjm->abcdijkl" [(ESlice (EVar "g_abab") [SV "v"; SV "o"; SV "o"; SV "v"]); (EVar "t2_bbbb"); (EVar "t2_abab")]));
   (*L3330*) SAug true "quadruples_res" (EScale (1 # 1) (EEins "bmie,aejl,cdkm->abcdijkl" [(ESlice (EVar "g_abab") [SV "v"; SV "o"; SV "o"; SV "v"]); (EVar "t2_abab"); (EVar "t2_bbbb")]));
   (*L3333*) SAug true "quadruples_res" (EScale (-1 # 1) (EEins "mbei,ecjl,admk->abcdijkl" [(ESlice (EVar "g_aaaa") [SV "o"; SV "v"; SV "v"; SV "o"]); (EVar "t2_abab"); (EVar "t2_abab")]));
   (*L3336*) SAssign "contracted_intermediate" (EScale (-1 # 1) (EEins "mcel,aejk,bdim->abcdijkl" [(ESlice (EVar "g_bbbb") [SV "o"; SV "v"; SV "v"; SV "o"]); (EVar "t2_abab"); (EVar "t2_abab")]));
   (*L3337*) SAug true "quadruples_res" (EAdd (EAdd (EAdd (EScale (1 # 1) (EVar "contracted_intermediate")) (EScale (-1 # 1) (EEins "abcdijkl->abcdjikl" [(EVar "contracted_intermediate")]))) (EScale (-1 # 1) (EEins "abcdijkl->bacdijkl" [(EVar "contracted_intermediate")]))) (EScale (1 # 1) (EEins "abcdijkl->bacdjikl" [(EVar "contracted_intermediate")])));
   (*L3340*) SAssign "contracted_intermediate" (EScale (-1 # 1) (EEins "mcel,eaij,bdmk->abcdijkl" [(ESlice (EVar "g_abab") [SV "o"; SV "v"; SV "v"; SV "o"]); (EVar "t2_aaaa"); (EVar "t2_abab")]));
   (*L3341*) SAug true "quadruples_res" (EAdd (EAdd (EAdd (EScale (1 # 1) (EVar "contracted_intermediate")) (EScale (-1 # 1) (EEins "abcdijkl->abcdijlk" [(EVar "contracted_intermediate")]))) (EScale (-1 # 1) (EEins "abcdijkl->bacdijkl" [(EVar "contracted_intermediate")]))) (EScale (1 # 1) (EEins "abcdijkl->bacdijlk" [(EVar "contracted_intermediate")])));
   (*L3344*) SAssign "contracted_intermediate" (EScale (1 # 1) (EEins "mcel,edjk,abim->abcdijkl" [(ESlice (EVar "g_abab") [SV "o"; SV "v"; SV "v"; SV "o"]); (EVar "t2_abab"); (EVar "t2_aaaa")]));
   (*L3345*) SAug true "quadruples_res" (EAdd (EAdd (EAdd (EScale (1 # 1) (EVar "contracted_intermediate")) (EScale (-1 # 1) (EEins "abcdijkl->abcdjikl" [(EVar "contracted_intermediate")]))) (EScale (-1 # 1) (EEins "abcdijkl->abdcijkl" [(EVar "contracted_intermediate")]))) (EScale (1 # 1) (EEins "abcdijkl->abdcjikl" [(EVar "contracted_intermediate")])));
   (*L3348*) SAssign "contracted_intermediate" (EScale (1 # 1) (EEins "mcek,aejl,bdim->abcdijkl" [(ESlice (EVar "g_bbbb") [SV "o"; SV "v"; SV "v"; SV "o"]); (EVar "t2_abab"); (EVar "t2_abab")]));
   (*L3349*) SAug true "quadruples_res" (EAdd (EAdd (EAdd (EScale (1 # 1) (EVar "contracted_intermediate")) (EScale (-1 # 1) (EEins "abcdijkl->abcdjikl" [(EVar "contracted_intermediate")]))) (EScale (-1 # 1) (EEins "abcdijkl->bacdijkl" [(EVar "contracted_intermediate")]))) (EScale (1 # 1) (EEins "abcdijkl->bacdjikl" [(EVar "contracted_intermediate")])));
   (*L3352*) SAssign "contracted_intermediate" (EScale (-1 # 1) (EEins "mcek,edjl,abim->abcdijkl" [(ESlice (EVar "g_abab") [SV "o"; SV "v"; SV "v"; SV "o"]); (EVar "t2_abab"); (EVar "t2_aaaa")]));
   (*L3353*) SAug true "quadruples_res" (EAdd (EAdd (EAdd (EScale (1 # 1) (EVar "contracted_intermediate")) (EScale (-1 # 1) (EEins "abcdijkl->abcdjikl" [(EVar "contracted_intermediate")]))) (EScale (-1 # 1) (EEins "abcdijkl->abdcijkl" [(EVar "contracted_intermediate")]))) (EScale (1 # 1) (EEins "abcdijkl->abdcjikl" [(EVar "contracted_intermediate")])));
   (*L3356*) SAssign "contracted_intermediate" (EScale (1 # 1) (EEins "mcje,aeil,bdmk->abcdijkl" [(ESlice (EVar "g_abab") [SV "o"; SV "v"; SV "o"; SV "v"]); (EVar "t2_abab"); (EVar "t2_abab")]));
   (*L3357*) SAug true "quadruples_res" (EAdd (EScale (1 # 1) (EVar "contracted_intermediate")) (EScale (-1 # 1) (EEins "abcdijkl->bacdijkl" [(EVar "contracted_intermediate")])));
   (*L3360*) SAssign "contracted_intermediate" (EScale (-1 # 1) (EEins "mcje,aeik,bdml->abcdijkl" [(ESlice (EVar "g_abab") [SV "o"; SV "v"; SV "o"; SV "v"]); (EVar "t2_abab"); (EVar "t2_abab")]));
   (*L3361*) SAug true "quadruples_res" (EAdd (EAdd (EAdd (EScale (1 # 1) (EVar "contracted_intermediate")) (EScale (-1 # 1) (EEins "abcdijkl->abcdjikl" [(EVar "contracted_intermediate")]))) (EScale (-1 # 1) (EEins "abcdijkl->bacdijkl" [(EVar "contracted_intermediate")]))) (EScale (1 # 1) (EEins "abcdijkl->bacdjikl" [(EVar "contracted_intermediate")])));
   (*L3364*) SAssign "contracted_intermediate" (EScale (-1 # 1) (EEins "mcje,edkl,abim->abcdijkl" [(ESlice (EVar "g_abab") [SV "o"; SV "v"; SV "o"; SV "v"]); (EVar "t2_bbbb"); (EVar "t2_aaaa")]));
   (*L3365*) SAug true "quadruples_res" (EAdd (EScale (1 # 1) (EVar "contracted_intermediate")) (EScale (-1 # 1) (EEins "abcdijkl->abdcijkl" [(EVar "contracted_intermediate")])));
   (*L3368*) SAssign "contracted_intermediate" (EScale (-1 # 1) (EEins "mcie,aejl,bdmk->abcdijkl" [(ESlice (EVar "g_abab") [SV "o"; SV "v"; SV "o"; SV "v"]); (EVar "t2_abab"); (EVar "t2_abab")]));
   (*L3369*) SAug true "quadruples_res" (EAdd (EScale (1 # 1) (EVar "contracted_intermediate")) (EScale (-1 # 1) (EEins "abcdijkl->bacdijkl" [(EVar "contracted_intermediate")])));
   (*L3372*) SAssign "contracted_intermediate" (EScale (1 # 1) (EEins "mcie,edkl,abjm->abcdijkl" [(ESlice (EVar "g_abab") [SV "o"; SV "v"; SV "o"; SV "v"]); (EVar "t2_bbbb"); (EVar "t2_aaaa")]));
   (*L3373*) SAug true "quadruples_res" (EAdd (EScale (1 # 1) (EVar "contracted_intermediate")) (EScale (-1 # 1) (EEins "abcdijkl->abdcijkl" [(EVar "contracted_intermediate")])));
   (*L3376*) SAssign "contracted_intermediate" (EScale (1 # 1) (EEins "mdel,aejk,bcim->abcdijkl" [(ESlice (EVar "g_bbbb") [SV "o"; SV "v"; SV "v"; SV "o"]); (EVar "t2_abab"); (EVar "t2_abab")]));
   (*L3377*) SAug true "quadruples_res" (EAdd (EAdd (EAdd (EScale (1 # 1) (EVar "contracted_intermediate")) (EScale (-1 # 1) (EEins "abcdijkl->abcdjikl" [(EVar "contracted_intermediate")]))) (EScale (-1 # 1) (EEins "abcdijkl->bacdijkl" [(EVar "contracted_intermediate")]))) (EScale (1 # 1) (EEins "abcdijkl->bacdjikl" [(EVar "contracted_intermediate")])));
   (*L3380*) SAssign "contracted_intermediate" (EScale (1 # 1) (EEins "mdel,eaij,bcmk->abcdijkl" [(ESlice (EVar "g_abab") [SV "o"; SV "v"; SV "v"; SV "o"]); (EVar "t2_aaaa"); (EVar "t2_abab")]));
   (*L3381*) SAug true "quadruples_res" (EAdd (EAdd (EAdd (EScale (1 # 1) (EVar "contracted_intermediate")) (EScale (-1 # 1) (EEins "abcdijkl->abcdijlk" [(EVar "contracted_intermediate")]))) (EScale (-1 # 1) (EEins "abcdijkl->bacdijkl" [(EVar "contracted_intermediate")]))) (EScale (1 # 1) (EEins "abcdijkl->bacdijlk" [(EVar "contracted_intermediate")])));
   (*L3384*) SAssign "contracted_intermediate" (EScale (-1 # 1) (EEins "mdek,aejl,bcim->abcdijkl" [(ESlice (EVar "g_bbbb") [SV "o"; SV "v"; SV "v"; SV "o"]); (EVar "t2_abab"); (EVar "t2_abab")]));
   (*L3385*) SAug true "quadruples_res" (EAdd (EAdd (EAdd (EScale (1 # 1) (EVar "contracted_intermediate")) (EScale (-1 # 1) (EEins "abcdijkl->abcdjikl" [(EVar "contracted_intermediate")]))) (EScale (-1 # 1) (EEins "abcdijkl->bacdijkl" [(EVar "contracted_intermediate")]))) (EScale (1 # 1) (EEins "abcdijkl->bacdjikl" [(EVar "contracted_intermediate")])));
   (*L3388*) SAssign "contracted_intermediate" (EScale (-1 # 1) (EEins "mdje,aeil,bcmk->abcdijkl" [(ESlice (EVar "g_abab") [SV "o"; SV "v"; SV "o"; SV "v"]); (EVar "t2_abab"); (EVar "t2_abab")]));
   (*L3389*) SAug true "quadruples_res" (EAdd (EScale (1 # 1) (EVar "contracted_intermediate")) (EScale (-1 # 1) (EEins "abcdijkl->bacdijkl" [(EVar "contracted_intermediate")])));
   (*L3392*) SAssign "contracted_intermediate" (EScale (1 # 1) (EEins "mdje,aeik,bcml->abcdijkl" [(ESlice (EVar "g_abab") [SV "o"; SV "v"; SV "o"; SV "v"]); (EVar "t2_abab"); (EVar "t2_abab")]));
   (*L3393*) SAug true "quadruples_res" (EAdd (EAdd (EAdd (EScale (1 # 1) (EVar "contracted_intermediate")) (EScale (-1 # 1) (EEins "abcdijkl->abcdjikl" [(EVar "contracted_intermediate")]))) (EScale (-1 # 1) (EEins "abcdijkl->bacdijkl" [(EVar "contracted_intermediate")]))) (EScale (1 # 1) (EEins "abcdijkl->bacdjikl" [(EVar "contracted_intermediate")])));
   (*L3396*) SAssign "contracted_intermediate" (EScale (1 # 1) (EEins "mdie,aejl,bcmk->abcdijkl" [(ESlice (EVar "g_abab") [SV "o"; SV "v"; SV "o"; SV "v"]); (EVar "t2_abab"); (EVar "t2_abab")]));
   (*L3397*) SAug true "quadruples_res" (EAdd (EScale (1 # 1) (EVar "contracted_intermediate")) (EScale (-1 # 1) (EEins "abcdijkl->bacdijkl" [(EVar "contracted_intermediate")])));
   (*L3400*) SAug true "quadruples_res" (EScale (1 # 1) (EEins "abef,ecjl,fdik->abcdijkl" [(ESlice (EVar "g_aaaa") [SV "v"; SV "v"; SV "v"; SV "v"]); (EVar "t2_abab"); (EVar "t2_abab")]));
   (*L3403*) SAug true "quadruples_res" (EScale (-1 # 1) (EEins "acfe,bejl,fdik->abcdijkl" [(ESlice (EVar "g_abab") [SV "v"; SV "v"; SV "v"; SV "v"]); (EVar "t2_abab"); (EVar "t2_abab")]));
   (*L3406*) SAssign "contracted_intermediate" (EScale (-1 # 1) (EEins "abef,ecil,fdjk->abcdijkl" [(ESlice (EVar "g_aaaa") [SV "v"; SV "v"; SV "v"; SV "v"]); (EVar "t2_abab"); (EVar "t2_abab")]));
   (*L3407*) SAug true "quadruples_res" (EAdd (EScale (1 # 1) (EVar "contracted_intermediate")) (EScale (-1 # 1) (EEins "abcdijkl->abcdijlk" [(EVar "contracted_intermediate")])));
   (*L3410*) SAssign "contracted_intermediate" (EScale (1 # 1) (EEins "acfe,beil,fdjk->abcdijkl" [(ESlice (EVar "g_abab") [SV "v"; SV "v"; SV "v"; SV "v"]); (EVar "t2_abab"); (EVar "t2_abab")]));
   (*L3411*) SAug true "quadruples_res" (EAdd (EScale (1 # 1) (EVar "contracted_intermediate")) (EScale (-1 # 1) (EEins "abcdijkl->abcdijlk" [(EVar "contracted_intermediate")])));
   (*L3414*) SAug true "quadruples_res" (EScale (-1 # 1) (EEins "abef,ecjk,fdil->abcdijkl" [(ESlice (EVar "g_aaaa") [SV "v"; SV "v"; SV "v"; SV "v"]); (EVar "t2_abab"); (EVar "t2_abab")]));
   (*L3417*) SAug true "quadruples_res" (EScale (1 # 1) (EEins "acfe,bejk,fdil->abcdijkl" [(ESlice (EVar "g_abab") [SV "v"; SV "v"; SV "v"; SV "v"]); (EVar "t2_abab"); (EVar "t2_abab")]));
   (*L3420*) SAug true "quadruples_res" (EScale (-1 # 1) (EEins "acef,ebji,fdkl->abcdijkl" [(ESlice (EVar "g_abab") [SV "v"; SV "v"; SV "v"; SV "v"]); (EVar "t2_aaaa"); (EVar "t2_bbbb")]));
   (*L3423*) SAssign "contracted_intermediate" (EScale (1 # 1) (EEins "adfe,bejl,fcik->abcdijkl" [(ESlice (EVar "g_abab") [SV "v"; SV "v"; SV "v"; SV "v"]); (EVar "t2_abab"); (EVar "t2_abab")]));
   (*L3424*) SAug true "quadruples_res" (EAdd (EScale (1 # 1) (EVar "contracted_intermediate")) (EScale (-1 # 1) (EEins "abcdijkl->bacdijkl" [(EVar "contracted_intermediate")])));
   (*L3427*) SAssign "contracted_intermediate" (EScale (-1 # 1) (EEins "adfe,beil,fcjk->abcdijkl" [(ESlice (EVar "g_abab") [SV "v"; SV "v"; SV "v"; SV "v"]); (EVar "t2_abab"); (EVar "t2_abab")]));
   (*L3428*) SAug true "quadruples_res" (EAdd (EAdd (EAdd (EScale (1 # 1) (EVar "contracted_intermediate")) (EScale (-1 # 1) (EEins "abcdijkl->abcdijlk" [(EVar "contracted_intermediate")]))) (EScale (-1 # 1) (EEins "abcdijkl->bacdijkl" [(EVar "contracted_intermediate")]))) (EScale (1 # 1) (EEins "abcdijkl->bacdijlk" [(EVar "contracted_intermediate")])));
   (*L3431*) SAssign "contracted_intermediate" (EScale (-1 # 1) (EEins "adfe,bejk,fcil->abcdijkl" [(ESlice (EVar "g_abab") [SV "v"; SV "v"; SV "v"; SV "v"]); (EVar "t2_abab"); (EVar "t2_abab")]));
   (*L3432*) SAug true "quadruples_res" (EAdd (EScale (1 # 1) (EVar "contracted_intermediate")) (EScale (-1 # 1) (EEins "abcdijkl->bacdijkl" [(EVar "contracted_intermediate")])));
   (*L3435*) SAssign "contracted_intermediate" (EScale (1 # 1) (EEins "adef,ebji,fckl->abcdijkl" [(ESlice (EVar "g_abab") [SV "v"; SV "v"; SV "v"; SV "v"]); (EVar "t2_aaaa"); (EVar "t2_bbbb")]));
   (*L3436*) SAug true "quadruples_res" (EAdd (EScale (1 # 1) (EVar "contracted_intermediate")) (EScale (-1 # 1) (EEins "abcdijkl->bacdijkl" [(EVar "contracted_intermediate")])));
   (*L3439*) SAug true "quadruples_res" (EScale (1 # 1) (EEins "bcfe,aejl,fdik->abcdijkl" [(ESlice (EVar "g_abab") [SV "v"; SV "v"; SV "v"; SV "v"]); (EVar "t2_abab"); (EVar "t2_abab")]));
   (*L3442*) SAug true "quadruples_res" (EScale (-1 # 1) (EEins "dcef,aejl,bfik->abcdijkl" [(ESlice (EVar "g_bbbb") [SV "v"; SV "v"; SV "v"; SV "v"]); (EVar "t2_abab"); (EVar "t2_abab")]));
   (*L3445*) SAssign "contracted_intermediate" (EScale (-1 # 1) (EEins "bcfe,aeil,fdjk->abcdijkl" [(ESlice (EVar "g_abab") [SV "v"; SV "v"; SV "v"; SV "v"]); (EVar "t2_abab"); (EVar "t2_abab")]));
   (*L3446*) SAug true "quadruples_res" (EAdd (EScale (1 # 1) (EVar "contracted_intermediate")) (EScale (-1 # 1) (EEins "abcdijkl->abcdijlk" [(EVar "contracted_intermediate")])));
   (*L3449*) SAssign "contracted_intermediate" (EScale (1 # 1) (EEins "dcef,aeil,bfjk->abcdijkl" [(ESlice (EVar "g_bbbb") [SV "v"; SV "v"; SV "v"; SV "v"]); (EVar "t2_abab"); (EVar "t2_abab")]));
   (*L3450*) SAug true "quadruples_res" (EAdd (EScale (1 # 1) (EVar "contracted_intermediate")) (EScale (-1 # 1) (EEins "abcdijkl->abcdijlk" [(EVar "contracted_intermediate")])));
   (*L3453*) SAug true "quadruples_res" (EScale (-1 # 1) (EEins "bcfe,aejk,fdil->abcdijkl" [(ESlice (EVar "g_abab") [SV "v"; SV "v"; SV "v"; SV "v"]); (EVar "t2_abab"); (EVar "t2_abab")]));
   (*L3456*) SAug true "quadruples_res" (EScale (1 # 1) (EEins "dcef,aejk,bfil->abcdijkl" [(ESlice (EVar "g_bbbb") [SV "v"; SV "v"; SV "v"; SV "v"]); (EVar "t2_abab"); (EVar "t2_abab")]));
   (*L3459*) SAug true "quadruples_res" (EScale (1 # 1) (EEins "bcef,eaji,fdkl->abcdijkl" [(ESlice (EVar "g_abab") [SV "v"; SV "v"; SV "v"; SV "v"]); (EVar "t2_aaaa"); (EVar "t2_bbbb")]));
   (*L3462*) SAssign "contracted_intermediate" (EScale (1 # 2) (EEins "nmef,efkl,acjm,bdin->abcdijkl" [(ESlice (EVar "g_bbbb") [SV "o"; SV "o"; SV "v"; SV "v"]); (EVar "t2_bbbb"); (EVar "t2_abab"); (EVar "t2_abab")]));
   (*L3463*) SAug true "quadruples_res" (EAdd (EScale (1 # 1) (EVar "contracted_intermediate")) (EScale (-1 # 1) (EEins "abcdijkl->abcdjikl" [(EVar "contracted_intermediate")])));
   (*L3466*) SAssign "contracted_intermediate" (EScale (-1 # 2) (EEins "nmef,efkl,adjm,bcin->abcdijkl" [(ESlice (EVar "g_bbbb") [SV "o"; SV "o"; SV "v"; SV "v"]); (EVar "t2_bbbb"); (EVar "t2_abab"); (EVar "t2_abab")]));
   (*L3467*) SAug true "quadruples_res" (EAdd (EScale (1 # 1) (EVar "contracted_intermediate")) (EScale (-1 # 1) (EEins "abcdijkl->abcdjikl" [(EVar "contracted_intermediate")])));
   (*L3470*) SAug true "quadruples_res" (EScale (-1 # 2) (EEins "mnef,efjl,acmk,bdin->abcdijkl" [(ESlice (EVar "g_abab") [SV "o"; SV "o"; SV "v"; SV "v"]); (EVar "t2_abab"); (EVar "t2_abab"); (EVar "t2_abab")]));
   (*L3473*) SAug true "quadruples_res" (EScale (-1 # 2) (EEins "mnfe,fejl,acmk,bdin->abcdijkl" [(ESlice (EVar "g_abab") [SV "o"; SV "o"; SV "v"; SV "v"]); (EVar "t2_abab"); (EVar "t2_abab"); (EVar "t2_abab")]));
   (*L3476*) SAug true "quadruples_res" (EScale (1 # 2) (EEins "mnef,efjl,abim,cdkn->abcdijkl" [(ESlice (EVar "g_abab") [SV "o"; SV "o"; SV "v"; SV "v"]); (EVar "t2_abab"); (EVar "t2_aaaa"); (EVar "t2_bbbb")]));
   (*L3479*) SAug true "quadruples_res" (EScale (1 # 2) (EEins "mnfe,fejl,abim,cdkn->abcdijkl" [(ESlice (EVar "g_abab") [SV "o"; SV "o"; SV "v"; SV "v"]); (EVar "t2_abab"); (EVar "t2_aaaa"); (EVar "t2_bbbb")]));
   (*L3482*) SAug true "quadruples_res" (EScale (-1 # 2) (EEins "nmef,efjl,acim,bdnk->abcdijkl" [(ESlice (EVar "g_abab") [SV "o"; SV "o"; SV "v"; SV "v"]); (EVar "t2_abab"); (EVar "t2_abab"); (EVar "t2_abab")]));
   (*L3485*) SAug true "quadruples_res" (EScale (-1 # 2) (EEins "nmfe,fejl,acim,bdnk->abcdijkl" [(ESlice (EVar "g_abab") [SV "o"; SV "o"; SV "v"; SV "v"]); (EVar "t2_abab"); (EVar "t2_abab"); (EVar "t2_abab")]));
   (*L3488*) SAug true "quadruples_res" (EScale (1 # 2) (EEins "mnef,efjl,admk,bcin->abcdijkl" [(ESlice (EVar "g_abab") [SV "o"; SV "o"; SV "v"; SV "v"]); (EVar "t2_abab"); (EVar "t2_abab"); (EVar "t2_abab")]));
   (*L3491*) SAug true "quadruples_res" (EScale (1 # 2) (EEins "mnfe,fejl,admk,bcin->abcdijkl" [(ESlice (EVar "g_abab") [SV "o"; SV "o"; SV "v"; SV "v"]); (EVar "t2_abab"); (EVar "t2_abab"); (EVar "t2_abab")]));
   (*L3494*) SAug true "quadruples_res" (EScale (1 # 2) (EEins "nmef,efjl,adim,bcnk->abcdijkl" [(ESlice (EVar "g_abab") [SV "o"; SV "o"; SV "v"; SV "v"]); (EVar "t2_abab"); (EVar "t2_abab"); (EVar "t2_abab")]));
   (*L3497*) SAug true "quadruples_res" (EScale (1 # 2) (EEins "nmfe,fejl,adim,bcnk->abcdijkl" [(ESlice (EVar "g_abab") [SV "o"; SV "o"; SV "v"; SV "v"]); (EVar "t2_abab"); (EVar "t2_abab"); (EVar "t2_abab")]));
   (*L3500*) SAug true "quadruples_res" (EScale (1 # 2) (EEins "mnef,efil,acmk,bdjn->abcdijkl" [(ESlice (EVar "g_abab") [SV "o"; SV "o"; SV "v"; SV "v"]); (EVar "t2_abab"); (EVar "t2_abab"); (EVar "t2_abab")]));
   (*L3503*) SAug true "quadruples_res" (EScale (1 # 2) (EEins "mnfe,feil,acmk,bdjn->abcdijkl" [(ESlice (EVar "g_abab") [SV "o"; SV "o"; SV "v"; SV "v"]); (EVar "t2_abab"); (EVar "t2_abab"); (EVar "t2_abab")]));
   (*L3506*) SAug true "quadruples_res" (EScale (-1 # 2) (EEins "mnef,efil,abjm,cdkn->abcdijkl" [(ESlice (EVar "g_abab") [SV "o"; SV "o"; SV "v"; SV "v"]); (EVar "t2_abab"); (EVar "t2_aaaa"); (EVar "t2_bbbb")]));
   (*L3509*) SAug true "quadruples_res" (EScale (-1 # 2) (EEins "mnfe,feil,abjm,cdkn->abcdijkl" [(ESlice (EVar "g_abab") [SV "o"; SV "o"; SV "v"; SV "v"]); (EVar "t2_abab"); (EVar "t2_aaaa"); (EVar "t2_bbbb")]));
   (*L3512*) SAug true "quadruples_res" (EScale (1 # 2) (EEins "nmef,efil,acjm,bdnk->abcdijkl" [(ESlice (EVar "g_abab") [SV "o"; SV "o"; SV "v"; SV "v"]); (EVar "t2_abab"); (EVar "t2_abab"); (EVar "t2_abab")]));
   (*L3515*) SAug true "quadruples_res" (EScale (1 # 2) (EEins "nmfe,feil,acjm,bdnk->abcdijkl" [(ESlice (EVar "g_abab") [SV "o"; SV "o"; SV "v"; SV "v"]); (EVar "t2_abab"); (EVar "t2_abab"); (EVar "t2_abab")]));
   (*L3518*) SAug true "quadruples_res" (EScale (-1 # 2) (EEins "mnef,efil,admk,bcjn->abcdijkl" [(ESlice (EVar "g_abab") [SV "o"; SV "o"; SV "v"; SV "v"]); (EVar "t2_abab"); (EVar "t2_abab"); (EVar "t2_abab")]));
   (*L3521*) SAug true "quadruples_res" (EScale (-1 # 2) (EEins "mnfe,feil,admk,bcjn->abcdijkl" [(ESlice (EVar "g_abab") [SV "o"; SV "o"; SV "v"; SV "v"]); (EVar "t2_abab"); (EVar "t2_abab"); (EVar "t2_abab")]));
   (*L3524*) SAug true "quadruples_res" (EScale (-1 # 2) (EEins "nmef,efil,adjm,bcnk->abcdijkl" [(ESlice (EVar "g_abab") [SV "o"; SV "o"; SV "v"; SV "v"]); (EVar "t2_abab"); (EVar "t2_abab"); (EVar "t2_abab")]));
   (*L3527*) SAug true "quadruples_res" (EScale (-1 # 2) (EEins "nmfe,feil,adjm,bcnk->abcdijkl" [(ESlice (EVar "g_abab") [SV "o"; SV "o"; SV "v"; SV "v"]); (EVar "t2_abab"); (EVar "t2_abab"); (EVar "t2_abab")]));
   (*L3530*) SAug true "quadruples_res" (EScale (1 # 2) (EEins "mnef,efjk,acml,bdin->abcdijkl" [(ESlice (EVar "g_abab") [SV "o"; SV "o"; SV "v"; SV "v"]); (EVar "t2_abab"); (EVar "t2_abab"); (EVar "t2_abab")]));
   (*L3533*) SAug true "quadruples_res" (EScale (1 # 2) (EEins "mnfe,fejk,acml,bdin->abcdijkl" [(ESlice (EVar "g_abab") [SV "o"; SV "o"; SV "v"; SV "v"]); (EVar "t2_abab"); (EVar "t2_abab"); (EVar "t2_abab")]));
   (*L3536*) SAug true "quadruples_res" (EScale (-1 # 2) (EEins "mnef,efjk,abim,cdln->abcdijkl" [(ESlice (EVar "g_abab") [SV "o"; SV "o"; SV "v"; SV "v"]); (EVar "t2_abab"); (EVar "t2_aaaa"); (EVar "t2_bbbb")]));
   (*L3539*) SAug true "quadruples_res" (EScale (-1 # 2) (EEins "mnfe,fejk,abim,cdln->abcdijkl" [(ESlice (EVar "g_abab") [SV "o"; SV "o"; SV "v"; SV "v"]); (EVar "t2_abab"); (EVar "t2_aaaa"); (EVar "t2_bbbb")]));
   (*L3542*) SAug true "quadruples_res" (EScale (1 # 2) (EEins "nmef,efjk,acim,bdnl->abcdijkl" [(ESlice (EVar "g_abab") [SV "o"; SV "o"; SV "v"; SV "v"]); (EVar "t2_abab"); (EVar "t2_abab"); (EVar "t2_abab")]));
   (*L3545*) SAug true "quadruples_res" (EScale (1 # 2) (EEins "nmfe,fejk,acim,bdnl->abcdijkl" [(ESlice (EVar "g_abab") [SV "o"; SV "o"; SV "v"; SV "v"]); (EVar "t2_abab"); (EVar "t2_abab"); (EVar "t2_abab")]));
   (*L3548*) SAug true "quadruples_res" (EScale (-1 # 2) (EEins "mnef,efjk,adml,bcin->abcdijkl" [(ESlice (EVar "g_abab") [SV "o"; SV "o"; SV "v"; SV "v"]); (EVar "t2_abab"); (EVar "t2_abab"); (EVar "t2_abab")]));
   (*L3551*) SAug true "quadruples_res" (EScale (-1 # 2) (EEins "mnfe,fejk,adml,bcin->abcdijkl" [(ESlice (EVar "g_abab") [SV "o"; SV "o"; SV "v"; SV "v"]); (EVar "t2_abab"); (EVar "t2_abab"); (EVar "t2_abab")]));
   (*L3554*) SAug true "quadruples_res" (EScale (-1 # 2) (EEins "nmef,efjk,adim,bcnl->abcdijkl" [(ESlice (EVar "g_abab") [SV "o"; SV "o"; SV "v"; SV "v"]); (EVar "t2_abab"); (EVar "t2_abab"); (EVar "t2_abab")]));
   (*L3557*) SAug true "quadruples_res" (EScale (-1 # 2) (EEins "nmfe,fejk,adim,bcnl->abcdijkl" [(ESlice (EVar "g_abab") [SV "o"; SV "o"; SV "v"; SV "v"]); (EVar "t2_abab"); (EVar "t2_abab"); (EVar "t2_abab")]));
   (*L3560*) SAug true "quadruples_res" (EScale (-1 # 2) (EEins "mnef,efik,acml,bdjn->abcdijkl" [(ESlice (EVar "g_abab") [SV "o"; SV "o"; SV "v"; SV "v"]); (EVar "t2_abab"); (EVar "t2_abab"); (EVar "t2_abab")]));
   (*L3563*) SAug true "quadruples_res" (EScale (-1 # 2) (EEins "mnfe,feik,acml,bdjn->abcdijkl" [(ESlice (EVar "g_abab") [SV "o"; SV "o"; SV "v"; SV "v"]); (EVar "t2_abab"); (EVar "t2_abab"); (EVar "t2_abab")]));
   (*L3566*) SAug true "quadruples_res" (EScale (1 # 2) (EEins "mnef,efik,abjm,cdln->abcdijkl" [(ESlice (EVar "g_abab") [SV "o"; SV "o"; SV "v"; SV "v"]); (EVar "t2_abab"); (EVar "t2_aaaa"); (EVar "t2_bbbb")]));
   (*L3569*) SAug true "quadruples_res" (EScale (1 # 2) (EEins "mnfe,feik,abjm,cdln->abcdijkl" [(ESlice (EVar "g_abab") [SV "o"; SV "o"; SV "v"; SV "v"]); (EVar "t2_abab"); (EVar "t2_aaaa"); (EVar "t2_bbbb")]));
   (*L3572*) SAug true "quadruples_res" (EScale (-1 # 2) (EEins "nmef,efik,acjm,bdnl->abcdijkl" [(ESlice (EVar "g_abab") [SV "o"; SV "o"; SV "v"; SV "v"]); (EVar "t2_abab"); (EVar "t2_abab"); (EVar "t2_abab")]));
   (*L3575*) SAug true "quadruples_res" (EScale (-1 # 2) (EEins "nmfe,feik,acjm,bdnl->abcdijkl" [(ESlice (EVar "g_abab") [SV "o"; SV "o"; SV "v"; SV "v"]); (EVar "t2_abab"); (EVar "t2_abab"); (EVar "t2_abab")]));
   (*L3578*) SAug true "quadruples_res" (EScale (1 # 2) (EEins "mnef,efik,adml,bcjn->abcdijkl" [(ESlice (EVar "g_abab") [SV "o"; SV "o"; SV "v"; SV "v"]); (EVar "t2_abab"); (EVar "t2_abab"); (EVar "t2_abab")]));
   (*L3581*) SAug true "quadruples_res" (EScale (1 # 2) (EEins "mnfe,feik,adml,bcjn->abcdijkl" [(ESlice (EVar "g_abab") [SV "o"; SV "o"; SV "v"; SV "v"]); (EVar "t2_abab"); (EVar "t2_abab"); (EVar "t2_abab")]));
   (*L3584*) SAug true "quadruples_res" (EScale (1 # 2) (EEins "nmef,efik,adjm,bcnl->abcdijkl" [(ESlice (EVar "g_abab") [SV "o"; SV "o"; SV "v"; SV "v"]); (EVar "t2_abab"); (EVar "t2_abab"); (EVar "t2_abab")]));
   (*L3587*) SAug true "quadruples_res" (EScale (1 # 2) (EEins "nmfe,feik,adjm,bcnl->abcdijkl" [(ESlice (EVar "g_abab") [SV "o"; SV "o"; SV "v"; SV "v"]); (EVar "t2_abab"); (EVar "t2_abab"); (EVar "t2_abab")]));
   (*L3590*) SAssign "contracted_intermediate" (EScale (1 # 2) (EEins "nmef,efij,acml,bdnk->abcdijkl" [(ESlice (EVar "g_aaaa") [SV "o"; SV "o"; SV "v"; SV "v"]); (EVar "t2_aaaa"); (EVar "t2_abab"); (EVar "t2_abab")]));
   (*L3591*) SAug true "quadruples_res" (EAdd (EScale (1 # 1) (EVar "contracted_intermediate")) (EScale (-1 # 1) (EEins "abcdijkl->abcdijlk" [(EVar "contracted_intermediate")])));
   (*L3594*) SAssign "contracted_intermediate" (EScale (-1 # 2) (EEins "nmef,efij,adml,bcnk->abcdijkl" [(ESlice (EVar "g_aaaa") [SV "o"; SV "o"; SV "v"; SV "v"]); (EVar "t2_aaaa"); (EVar "t2_abab"); (EVar "t2_abab")]));
   (*L3595*) SAug true "quadruples_res" (EAdd (EScale (1 # 1) (EVar "contracted_intermediate")) (EScale (-1 # 1) (EEins "abcdijkl->abcdijlk" [(EVar "contracted_intermediate")])));
   (*L3598*) SAssign "contracted_intermediate" (EScale (-1 # 1) (EEins "mnfe,aeml,fcjk,bdin->abcdijkl" [(ESlice (EVar "g_abab") [SV "o"; SV "o"; SV "v"; SV "v"]); (EVar "t2_abab"); (EVar "t2_abab"); (EVar "t2_abab")]));
   (*L3599*) SAug true "quadruples_res" (EAdd (EScale (1 # 1) (EVar "contracted_intermediate")) (EScale (-1 # 1) (EEins "abcdijkl->abcdjikl" [(EVar "contracted_intermediate")])));
   (*L3602*) SAssign "contracted_intermediate" (EScale (1 # 1) (EEins "mnfe,aeml,fbij,cdkn->abcdijkl" [(ESlice (EVar "g_abab") [SV "o"; SV "o"; SV "v"; SV "v"]); (EVar "t2_abab"); (EVar "t2_aaaa"); (EVar "t2_bbbb")]));
   (*L3603*) SAug true "quadruples_res" (EAdd (EScale (1 # 1) (EVar "contracted_intermediate")) (EScale (-1 # 1) (EEins "abcdijkl->abcdijlk" [(EVar "contracted_intermediate")])));
   (*L3606*) SAssign "contracted_intermediate" (EScale (1 # 1) (EEins "mnfe,aeml,fdjk,bcin->abcdijkl" [(ESlice (EVar "g_abab") [SV "o"; SV "o"; SV "v"; SV "v"]); (EVar "t2_abab"); (EVar "t2_abab"); (EVar "t2_abab")]));
   (*L3607*) SAug true "quadruples_res" (EAdd (EAdd (EAdd (EScale (1 # 1) (EVar "contracted_intermediate")) (EScale (-1 # 1) (EEins "abcdijkl->abcdjikl" [(EVar "contracted_intermediate")]))) (EScale (-1 # 1) (EEins "abcdijkl->bacdijkl" [(EVar "contracted_intermediate")]))) (EScale (1 # 1) (EEins "abcdijkl->bacdjikl" [(EVar "contracted_intermediate")])));
   (*L3610*) SAssign "contracted_intermediate" (EScale (1 # 1) (EEins "mnfe,aemk,fcjl,bdin->abcdijkl" [(ESlice (EVar "g_abab") [SV "o"; SV "o"; SV "v"; SV "v"]); (EVar "t2_abab"); (EVar "t2_abab"); (EVar "t2_abab")]));
   (*L3611*) SAug true "quadruples_res" (EAdd (EScale (1 # 1) (EVar "contracted_intermediate")) (EScale (-1 # 1) (EEins "abcdijkl->abcdjikl" [(EVar "contracted_intermediate")])));
   (*L3614*) SAssign "contracted_intermediate" (EScale (-1 # 1) (EEins "mnfe,aemk,fdjl,bcin->abcdijkl" [(ESlice (EVar "g_abab") [SV "o"; SV "o"; SV "v"; SV "v"]); (EVar "t2_abab"); (EVar "t2_abab"); (EVar "t2_abab")]));
   (*L3615*) SAug true "quadruples_res" (EAdd (EAdd (EAdd (EScale (1 # 1) (EVar "contracted_intermediate")) (EScale (-1 # 1) (EEins "abcdijkl->abcdjikl" [(EVar "contracted_intermediate")]))) (EScale (-1 # 1) (EEins "abcdijkl->bacdijkl" [(EVar "contracted_intermediate")]))) (EScale (1 # 1) (EEins "abcdijkl->bacdjikl" [(EVar "contracted_intermediate")])));
   (*L3618*) SAug true "quadruples_res" (EScale (1 # 1) (EEins "mnef,eajm,fckl,bdin->abcdijkl" [(ESlice (EVar "g_abab") [SV "o"; SV "o"; SV "v"; SV "v"]); (EVar "t2_aaaa"); (EVar "t2_bbbb"); (EVar "t2_abab")]));
   (*L3621*) SAug true "quadruples_res" (EScale (1 # 1) (EEins "nmef,aejm,fckl,bdin->abcdijkl" [(ESlice (EVar "g_bbbb") [SV "o"; SV "o"; SV "v"; SV "v"]); (EVar "t2_abab"); (EVar "t2_bbbb"); (EVar "t2_abab")]));
   (*L3624*) SAug true "quadruples_res" (EScale (-1 # 1) (EEins "mnef,eajm,bfil,cdkn->abcdijkl" [(ESlice (EVar "g_abab") [SV "o"; SV "o"; SV "v"; SV "v"]); (EVar "t2_aaaa"); (EVar "t2_abab"); (EVar "t2_bbbb")]));
   (*L3627*) SAug true "quadruples_res" (EScale (-1 # 1) (EEins "nmef,aejm,bfil,cdkn->abcdijkl" [(ESlice (EVar "g_bbbb") [SV "o"; SV "o"; SV "v"; SV "v"]); (EVar "t2_abab"); (EVar "t2_abab"); (EVar "t2_bbbb")]));
   (*L3630*) SAug true "quadruples_res" (EScale (-1 # 1) (EEins "nmef,eajm,fcil,bdnk->abcdijkl" [(ESlice (EVar "g_aaaa") [SV "o"; SV "o"; SV "v"; SV "v"]); (EVar "t2_aaaa"); (EVar "t2_abab"); (EVar "t2_abab")]));
   (*L3633*) SAug true "quadruples_res" (EScale (-1 # 1) (EEins "nmfe,aejm,fcil,bdnk->abcdijkl" [(ESlice (EVar "g_abab") [SV "o"; SV "o"; SV "v"; SV "v"]); (EVar "t2_abab"); (EVar "t2_abab"); (EVar "t2_abab")]));
   (*L3636*) SAssign "contracted_intermediate" (EScale (1 # 1) (EEins "mnef,eajm,bfik,cdln->abcdijkl" [(ESlice (EVar "g_abab") [SV "o"; SV "o"; SV "v"; SV "v"]); (EVar "t2_aaaa"); (EVar "t2_abab"); (EVar "t2_bbbb")]));
   (*L3637*) SAug true "quadruples_res" (EAdd (EScale (1 # 1) (EVar "contracted_intermediate")) (EScale (-1 # 1) (EEins "abcdijkl->abcdjikl" [(EVar "contracted_intermediate")])));
   (*L3640*) SAssign "contracted_intermediate" (EScale (1 # 1) (EEins "nmef,aejm,bfik,cdln->abcdijkl" [(ESlice (EVar "g_bbbb") [SV "o"; SV "o"; SV "v"; SV "v"]); (EVar "t2_abab"); (EVar "t2_abab"); (EVar "t2_bbbb")]));
   (*L3641*) SAug true "quadruples_res" (EAdd (EScale (1 # 1) (EVar "contracted_intermediate")) (EScale (-1 # 1) (EEins "abcdijkl->abcdjikl" [(EVar "contracted_intermediate")])));
   (*L3644*) SAssign "contracted_intermediate" (EScale (1 # 1) (EEins "nmef,eajm,fcik,bdnl->abcdijkl" [(ESlice (EVar "g_aaaa") [SV "o"; SV "o"; SV "v"; SV "v"]); (EVar "t2_aaaa"); (EVar "t2_abab"); (EVar "t2_abab")]));
   (*L3645*) SAug true "quadruples_res" (EAdd (EScale (1 # 1) (EVar "contracted_intermediate")) (EScale (-1 # 1) (EEins "abcdijkl->abcdjikl" [(EVar "contracted_intermediate")])));
   (*L3648*) SAssign "contracted_intermediate" (EScale (1 # 1) (EEins "nmfe,aejm,fcik,bdnl->abcdijkl" [(ESlice (EVar "g_abab") [SV "o"; SV "o"; SV "v"; SV "v"]); (EVar "t2_abab"); (EVar "t2_abab"); (EVar "t2_abab")]));
   (*L3649*) SAug true "quadruples_res" (EAdd (EScale (1 # 1) (EVar "contracted_intermediate")) (EScale (-1 # 1) (EEins "abcdijkl->abcdjikl" [(EVar "contracted_intermediate")])));
   (*L3652*) SAssign "contracted_intermediate" (EScale (-1 # 1) (EEins "mnef,eajm,fdkl,bcin->abcdijkl" [(ESlice (EVar "g_abab") [SV "o"; SV "o"; SV "v"; SV "v"]); (EVar "t2_aaaa"); (EVar "t2_bbbb"); (EVar "t2_abab")]));
   (*L3653*) SAug true "quadruples_res" (EAdd (EScale (1 # 1) (EVar "contracted_intermediate")) (EScale (-1 # 1) (EEins "abcdijkl->bacdijkl" [(EVar "contracted_intermediate")])));
   (*L3656*) SAssign "contracted_intermediate" (EScale (-1 # 1) (EEins "nmef,aejm,fdkl,bcin->abcdijkl" [(ESlice (EVar "g_bbbb") [SV "o"; SV "o"; SV "v"; SV "v"]); (EVar "t2_abab"); (EVar "t2_bbbb"); (EVar "t2_abab")]));
   (*L3657*) SAug true "quadruples_res" (EAdd (EScale (1 # 1) (EVar "contracted_intermediate")) (EScale (-1 # 1) (EEins "abcdijkl->bacdijkl" [(EVar "contracted_intermediate")])));
   (*L3660*) SAssign "contracted_intermediate" (EScale (1 # 1) (EEins "nmef,eajm,fdil,bcnk->abcdijkl" [(ESlice (EVar "g_aaaa") [SV "o"; SV "o"; SV "v"; SV "v"]); (EVar "t2_aaaa"); (EVar "t2_abab"); (EVar "t2_abab")]));
   (*L3661*) SAug true "quadruples_res" (EAdd (EScale (1 # 1) (EVar "contracted_intermediate")) (EScale (-1 # 1) (EEins "abcdijkl->bacdijkl" [(EVar "contracted_intermediate")])));
   (*L3664*) SAssign "contracted_intermediate" (EScale (1 # 1) (EEins "nmfe,aejm,fdil,bcnk->abcdijkl" [(ESlice (EVar "g_abab") [SV "o"; SV "o"; SV "v"; SV "v"]); (EVar "t2_abab"); (EVar "t2_abab"); (EVar "t2_abab")]));
   (*L3665*) SAug true "quadruples_res" (EAdd (EScale (1 # 1) (EVar "contracted_intermediate")) (EScale (-1 # 1) (EEins "abcdijkl->bacdijkl" [(EVar "contracted_intermediate")])));
   (*L3668*) SAssign "contracted_intermediate" (EScale (-1 # 1) (EEins "nmef,eajm,fdik,bcnl->abcdijkl" [(ESlice (EVar "g_aaaa") [SV "o"; SV "o"; SV "v"; SV "v"]); (EVar "t2_aaaa"); (EVar "t2_abab"); (EVar "t2_abab")]));
   (*L3669*) SAug true "quadruples_res" (EAdd (EAdd (EAdd (EScale (1 # 1) (EVar "contracted_intermediate")) (EScale (-1 # 1) (EEins "abcdijkl->abcdjikl" [(EVar "contracted_intermediate")]))) (EScale (-1 # 1) (EEins "abcdijkl->bacdijkl" [(EVar "contracted_intermediate")]))) (EScale (1 # 1) (EEins "abcdijkl->bacdjikl" [(EVar "contracted_intermediate")])));
   (*L3672*) SAssign "contracted_intermediate" (EScale (-1 # 1) (EEins "nmfe,aejm,fdik,bcnl->abcdijkl" [(ESlice (EVar "g_abab") [SV "o"; SV "o"; SV "v"; SV "v"]); (EVar "t2_abab"); (EVar "t2_abab"); (EVar "t2_abab")]));
   (*L3673*) SAug true "quadruples_res" (EAdd (EAdd (EAdd (EScale (1 # 1) (EVar "contracted_intermediate")) (EScale (-1 # 1) (EEins "abcdijkl->abcdjikl" [(EVar "contracted_intermediate")]))) (EScale (-1 # 1) (EEins "abcdijkl->bacdijkl" [(EVar "contracted_intermediate")]))) (EScale (1 # 1) (EEins "abcdijkl->bacdjikl" [(EVar "contracted_intermediate")])));
   (*L3676*) SAug true "quadruples_res" (EScale (-1 # 1) (EEins "mnef,eaim,fckl,bdjn->abcdijkl" [(ESlice (EVar "g_abab") [SV "o"; SV "o"; SV "v"; SV "v"]); (EVar "t2_aaaa"); (EVar "t2_bbbb"); (EVar "t2_abab")]));
   (*L3679*) SAug true "quadruples_res" (EScale (-1 # 1) (EEins "nmef,aeim,fckl,bdjn->abcdijkl" [(ESlice (EVar "g_bbbb") [SV "o"; SV "o"; SV "v"; SV "v"]); (EVar "t2_abab"); (EVar "t2_bbbb"); (EVar "t2_abab")]));
   (*L3682*) SAug true "quadruples_res" (EScale (1 # 1) (EEins "mnef,eaim,bfjl,cdkn->abcdijkl" [(ESlice (EVar "g_abab") [SV "o"; SV "o"; SV "v"; SV "v"]); (EVar "t2_aaaa"); (EVar "t2_abab"); (EVar "t2_bbbb")]));
   (*L3685*) SAug true "quadruples_res" (EScale (1 # 1) (EEins "nmef,aeim,bfjl,cdkn->abcdijkl" [(ESlice (EVar "g_bbbb") [SV "o"; SV "o"; SV "v"; SV "v"]); (EVar "t2_abab"); (EVar "t2_abab"); (EVar "t2_bbbb")]));
   (*L3688*) SAug true "quadruples_res" (EScale (1 # 1) (EEins "nmef,eaim,fcjl,bdnk->abcdijkl" [(ESlice (EVar "g_aaaa") [SV "o"; SV "o"; SV "v"; SV "v"]); (EVar "t2_aaaa"); (EVar "t2_abab"); (EVar "t2_abab")]));
   (*L3691*) SAug true "quadruples_res" (EScale (1 # 1) (EEins "nmfe,aeim,fcjl,bdnk->abcdijkl" [(ESlice (EVar "g_abab") [SV "o"; SV "o"; SV "v"; SV "v"]); (EVar "t2_abab"); (EVar "t2_abab"); (EVar "t2_abab")]));
   (*L3694*) SAssign "contracted_intermediate" (EScale (1 # 1) (EEins "mnef,eaim,fdkl,bcjn->abcdijkl" [(ESlice (EVar "g_abab") [SV "o"; SV "o"; SV "v"; SV "v"]); (EVar "t2_aaaa"); (EVar "t2_bbbb"); (EVar "t2_abab")]));
   (*L3695*) SAug true "quadruples_res" (EAdd (EScale (1 # 1) (EVar "contracted_intermediate")) (EScale (-1 # 1) (EEins "abcdijkl->bacdijkl" [(EVar "contracted_intermediate")])));
   (*L3698*) SAssign "contracted_intermediate" (EScale (1 # 1) (EEins "nmef,aeim,fdkl,bcjn->abcdijkl" [(ESlice (EVar "g_bbbb") [SV "o"; SV "o"; SV "v"; SV "v"]); (EVar "t2_abab"); (EVar "t2_bbbb"); (EVar "t2_abab")]));
   (*L3699*) SAug true "quadruples_res" (EAdd (EScale (1 # 1) (EVar "contracted_intermediate")) (EScale (-1 # 1) (EEins "abcdijkl->bacdijkl" [(EVar "contracted_intermediate")])));
   (*L3702*) SAssign "contracted_intermediate" (EScale (-1 # 1) (EEins "nmef,eaim,fdjl,bcnk->abcdijkl" [(ESlice (EVar "g_aaaa") [SV "o"; SV "o"; SV "v"; SV "v"]); (EVar "t2_aaaa"); (EVar "t2_abab"); (EVar "t2_abab")]));
   (*L3703*) SAug true "quadruples_res" (EAdd (EScale (1 # 1) (EVar "contracted_intermediate")) (EScale (-1 # 1) (EEins "abcdijkl->bacdijkl" [(EVar "contracted_intermediate")])));
   (*L3706*) SAssign "contracted_intermediate" (EScale (-1 # 1) (EEins "nmfe,aeim,fdjl,bcnk->abcdijkl" [(ESlice (EVar "g_abab") [SV "o"; SV "o"; SV "v"; SV "v"]); (EVar "t2_abab"); (EVar "t2_abab"); (EVar "t2_abab")]));
   (*L3707*) SAug true "quadruples_res" (EAdd (EScale (1 # 1) (EVar "contracted_intermediate")) (EScale (-1 # 1) (EEins "abcdijkl->bacdijkl" [(EVar "contracted_intermediate")])));
   (*L3710*) SAug true "quadruples_res" (EScale (1 # 2) (EEins "nmef,aejl,bfik,cdnm->abcdijkl" [(ESlice (EVar "g_bbbb") [SV "o"; SV "o"; SV "v"; SV "v"]); (EVar "t2_abab"); (EVar "t2_abab"); (EVar "t2_bbbb")]));
   (*L3713*) SAug true "quadruples_res" (EScale (-1 # 2) (EEins "nmfe,aejl,fcik,bdnm->abcdijkl" [(ESlice (EVar "g_abab") [SV "o"; SV "o"; SV "v"; SV "v"]); (EVar "t2_abab"); (EVar "t2_abab"); (EVar "t2_abab")]));
   (*L3716*) SAug true "quadruples_res" (EScale (-1 # 2) (EEins "mnfe,aejl,fcik,bdmn->abcdijkl" [(ESlice (EVar "g_abab") [SV "o"; SV "o"; SV "v"; SV "v"]); (EVar "t2_abab"); (EVar "t2_abab"); (EVar "t2_abab")]));
   (*L3719*) SAssign "contracted_intermediate" (EScale (1 # 2) (EEins "nmfe,aejl,fdik,bcnm->abcdijkl" [(ESlice (EVar "g_abab") [SV "o"; SV "o"; SV "v"; SV "v"]); (EVar "t2_abab"); (EVar "t2_abab"); (EVar "t2_abab")]));
   (*L3720*) SAug true "quadruples_res" (EAdd (EScale (1 # 1) (EVar "contracted_intermediate")) (EScale (-1 # 1) (EEins "abcdijkl->bacdijkl" [(EVar "contracted_intermediate")])));
   (*L3723*) SAssign "contracted_intermediate" (EScale (1 # 2) (EEins "mnfe,aejl,fdik,bcmn->abcdijkl" [(ESlice (EVar "g_abab") [SV "o"; SV "o"; SV "v"; SV "v"]); (EVar "t2_abab"); (EVar "t2_abab"); (EVar "t2_abab")]));
   (*L3724*) SAug true "quadruples_res" (EAdd (EScale (1 # 1) (EVar "contracted_intermediate")) (EScale (-1 # 1) (EEins "abcdijkl->bacdijkl" [(EVar "contracted_intermediate")])));
   (*L3727*) SAug true "quadruples_res" (EScale (1 # 1) (EEins "mnfe,aejl,fcmk,bdin->abcdijkl" [(ESlice (EVar "g_abab") [SV "o"; SV "o"; SV "v"; SV "v"]); (EVar "t2_abab"); (EVar "t2_abab"); (EVar "t2_abab")]));
   (*L3730*) SAug true "quadruples_res" (EScale (-1 # 1) (EEins "nmef,aejl,fckm,bdin->abcdijkl" [(ESlice (EVar "g_bbbb") [SV "o"; SV "o"; SV "v"; SV "v"]); (EVar "t2_abab"); (EVar "t2_bbbb"); (EVar "t2_abab")]));
   (*L3733*) SAug true "quadruples_res" (EScale (-1 # 1) (EEins "mnfe,aejl,fbim,cdkn->abcdijkl" [(ESlice (EVar "g_abab") [SV "o"; SV "o"; SV "v"; SV "v"]); (EVar "t2_abab"); (EVar "t2_aaaa"); (EVar "t2_bbbb")]));
   (*L3736*) SAug true "quadruples_res" (EScale (1 # 1) (EEins "nmef,aejl,bfim,cdkn->abcdijkl" [(ESlice (EVar "g_bbbb") [SV "o"; SV "o"; SV "v"; SV "v"]); (EVar "t2_abab"); (EVar "t2_abab"); (EVar "t2_bbbb")]));
   (*L3739*) SAug true "quadruples_res" (EScale (1 # 1) (EEins "nmfe,aejl,fcim,bdnk->abcdijkl" [(ESlice (EVar "g_abab") [SV "o"; SV "o"; SV "v"; SV "v"]); (EVar "t2_abab"); (EVar "t2_abab"); (EVar "t2_abab")]));
   (*L3742*) SAssign "contracted_intermediate" (EScale (-1 # 1) (EEins "mnfe,aejl,fdmk,bcin->abcdijkl" [(ESlice (EVar "g_abab") [SV "o"; SV "o"; SV "v"; SV "v"]); (EVar "t2_abab"); (EVar "t2_abab"); (EVar "t2_abab")]));
   (*L3743*) SAug true "quadruples_res" (EAdd (EScale (1 # 1) (EVar "contracted_intermediate")) (EScale (-1 # 1) (EEins "abcdijkl->bacdijkl" [(EVar "contracted_intermediate")])));
   (*L3746*) SAssign "contracted_intermediate" (EScale (1 # 1) (EEins "nmef,aejl,fdkm,bcin->abcdijkl" [(ESlice (EVar "g_bbbb") [SV "o"; SV "o"; SV "v"; SV "v"]); (EVar "t2_abab"); (EVar "t2_bbbb"); (EVar "t2_abab")]));
   (*L3747*) SAug true "quadruples_res" (EAdd (EScale (1 # 1) (EVar "contracted_intermediate")) (EScale (-1 # 1) (EEins "abcdijkl->bacdijkl" [(EVar "contracted_intermediate")])));
   (*L3750*) SAssign "contracted_intermediate" (EScale (-1 # 1) (EEins "nmfe,aejl,fdim,bcnk->abcdijkl" [(ESlice (EVar "g_abab") [SV "o"; SV "o"; SV "v"; SV "v"]); (EVar "t2_abab"); (EVar "t2_abab"); (EVar "t2_abab")]));
   (*L3751*) SAug true "quadruples_res" (EAdd (EScale (1 # 1) (EVar "contracted_intermediate")) (EScale (-1 # 1) (EEins "abcdijkl->bacdijkl" [(EVar "contracted_intermediate")])));
   (*L3754*) SAug true "quadruples_res" (EScale (-1 # 1) (EEins "mnfe,aeil,fcmk,bdjn->abcdijkl" [(ESlice (EVar "g_abab") [SV "o"; SV "o"; SV "v"; SV "v"]); (EVar "t2_abab"); (EVar "t2_abab"); (EVar "t2_abab")]));
   (*L3757*) SAug true "quadruples_res" (EScale (1 # 1) (EEins "nmef,aeil,fckm,bdjn->abcdijkl" [(ESlice (EVar "g_bbbb") [SV "o"; SV "o"; SV "v"; SV "v"]); (EVar "t2_abab"); (EVar "t2_bbbb"); (EVar "t2_abab")]));
   (*L3760*) SAug true "quadruples_res" (EScale (1 # 1) (EEins "mnfe,aeil,fbjm,cdkn->abcdijkl" [(ESlice (EVar "g_abab") [SV "o"; SV "o"; SV "v"; SV "v"]); (EVar "t2_abab"); (EVar "t2_aaaa"); (EVar "t2_bbbb")]));
   (*L3763*) SAug true "quadruples_res" (EScale (-1 # 1) (EEins "nmef,aeil,bfjm,cdkn->abcdijkl" [(ESlice (EVar "g_bbbb") [SV "o"; SV "o"; SV "v"; SV "v"]); (EVar "t2_abab"); (EVar "t2_abab"); (EVar "t2_bbbb")]));
   (*L3766*) SAug true "quadruples_res" (EScale (-1 # 1) (EEins "nmfe,aeil,fcjm,bdnk->abcdijkl" [(ESlice (EVar "g_abab") [SV "o"; SV "o"; SV "v"; SV "v"]); (EVar "t2_abab"); (EVar "t2_abab"); (EVar "t2_abab")]));
   (*L3769*) SAssign "contracted_intermediate" (EScale (-1 # 2) (EEins "nmef,aeil,bfjk,cdnm->abcdijkl" [(ESlice (EVar "g_bbbb") [SV "o"; SV "o"; SV "v"; SV "v"]); (EVar "t2_abab"); (EVar "t2_abab"); (EVar "t2_bbbb")]));
   (*L3770*) SAug true "quadruples_res" (EAdd (EScale (1 # 1) (EVar "contracted_intermediate")) (EScale (-1 # 1) (EEins "abcdijkl->abcdijlk" [(EVar "contracted_intermediate")])));
   (*L3773*) SAssign "contracted_intermediate" (EScale (1 # 2) (EEins "nmfe,aeil,fcjk,bdnm->abcdijkl" [(ESlice (EVar "g_abab") [SV "o"; SV "o"; SV "v"; SV "v"]); (EVar "t2_abab"); (EVar "t2_abab"); (EVar "t2_abab")]));
   (*L3774*) SAug true "quadruples_res" (EAdd (EScale (1 # 1) (EVar "contracted_intermediate")) (EScale (-1 # 1) (EEins "abcdijkl->abcdijlk" [(EVar "contracted_intermediate")])));
   (*L3777*) SAssign "contracted_intermediate" (EScale (1 # 2) (EEins "mnfe,aeil,fcjk,bdmn->abcdijkl" [(ESlice (EVar "g_abab") [SV "o"; SV "o"; SV "v"; SV "v"]); (EVar "t2_abab"); (EVar "t2_abab"); (EVar "t2_abab")]));
   (*L3778*) SAug true "quadruples_res" (EAdd (EScale (1 # 1) (EVar "contracted_intermediate")) (EScale (-1 # 1) (EEins "abcdijkl->abcdijlk" [(EVar "contracted_intermediate")])));
   (*L3781*) SAssign "contracted_intermediate" (EScale (1 # 1) (EEins "mnfe,aeil,fdmk,bcjn->abcdijkl" [(ESlice (EVar "g_abab") [SV "o"; SV "o"; SV "v"; SV "v"]); (EVar "t2_abab"); (EVar "t2_abab"); (EVar "t2_abab")]));
   (*L3782*) SAug true "quadruples_res" (EAdd (EScale (1 # 1) (EVar "contracted_intermediate")) (EScale (-1 # 1) (EEins "abcdijkl->bacdijkl" [(EVar "contracted_intermediate")])));
   (*L3785*) SAssign "contracted_intermediate" (EScale (-1 # 1) (EEins "nmef,aeil,fdkm,bcjn->abcdijkl" [(ESlice (EVar "g_bbbb") [SV "o"; SV "o"; SV "v"; SV "v"]); (EVar "t2_abab"); (EVar "t2_bbbb"); (EVar "t2_abab")]));
   (*L3786*) SAug true "quadruples_res" (EAdd (EScale (1 # 1) (EVar "contracted_intermediate")) (EScale (-1 # 1) (EEins "abcdijkl->bacdijkl" [(EVar "contracted_intermediate")])));
   (*L3789*) SAssign "contracted_intermediate" (EScale (1 # 1) (EEins "nmfe,aeil,fdjm,bcnk->abcdijkl" [(ESlice (EVar "g_abab") [SV "o"; SV "o"; SV "v"; SV "v"]); (EVar "t2_abab"); (EVar "t2_abab"); (EVar "t2_abab")]));
   (*L3790*) SAug true "quadruples_res" (EAdd (EScale (1 # 1) (EVar "contracted_intermediate")) (EScale (-1 # 1) (EEins "abcdijkl->bacdijkl" [(EVar "contracted_intermediate")])));
   (*L3793*) SAssign "contracted_intermediate" (EScale (-1 # 2) (EEins "nmfe,aeil,fdjk,bcnm->abcdijkl" [(ESlice (EVar "g_abab") [SV "o"; SV "o"; SV "v"; SV "v"]); (EVar "t2_abab"); (EVar "t2_abab"); (EVar "t2_abab")]));
   (*L3794*) SAug true "quadruples_res" (EAdd (EAdd (EAdd (EScale (1 # 1) (EVar "contracted_intermediate")) (EScale (-1 # 1) (EEins "abcdijkl->abcdijlk" [(EVar "contracted_intermediate")]))) (EScale (-1 # 1) (EEins "abcdijkl->bacdijkl" [(EVar "contracted_intermediate")]))) (EScale (1 # 1) (EEins "abcdijkl->bacdijlk" [(EVar "contracted_intermediate")])));
   (*L3797*) SAssign "contracted_intermediate" (EScale (-1 # 2) (EEins "mnfe,aeil,fdjk,bcmn->abcdijkl" [(ESlice (EVar "g_abab") [SV "o"; SV "o"; SV "v"; SV "v"]); (EVar "t2_abab"); (EVar "t2_abab"); (EVar "t2_abab")]));
   (*L3798*) SAug true "quadruples_res" (EAdd (EAdd (EAdd (EScale (1 # 1) (EVar "contracted_intermediate")) (EScale (-1 # 1) (EEins "abcdijkl->abcdijlk" [(EVar "contracted_intermediate")]))) (EScale (-1 # 1) (EEins "abcdijkl->bacdijkl" [(EVar "contracted_intermediate")]))) (EScale (1 # 1) (EEins "abcdijkl->bacdijlk" [(EVar "contracted_intermediate")])));
   (*L3801*) SAug true "quadruples_res" (EScale (-1 # 1) (EEins "mnfe,aejk,fcml,bdin->abcdijkl" [(ESlice (EVar "g_abab") [SV "o"; SV "o"; SV "v"; SV "v"]); (EVar "t2_abab"); (EVar "t2_abab"); (EVar "t2_abab")]));
   (*L3804*) SAug true "quadruples_res" (EScale (1 # 1) (EEins "nmef,aejk,fclm,bdin->abcdijkl" [(ESlice (EVar "g_bbbb") [SV "o"; SV "o"; SV "v"; SV "v"]); (EVar "t2_abab"); (EVar "t2_bbbb"); (EVar "t2_abab")]));
   (*L3807*) SAug true "quadruples_res" (EScale (1 # 1) (EEins "mnfe,aejk,fbim,cdln->abcdijkl" [(ESlice (EVar "g_abab") [SV "o"; SV "o"; SV "v"; SV "v"]); (EVar "t2_abab"); (EVar "t2_aaaa"); (EVar "t2_bbbb")]));
   (*L3810*) SAug true "quadruples_res" (EScale (-1 # 1) (EEins "nmef,aejk,bfim,cdln->abcdijkl" [(ESlice (EVar "g_bbbb") [SV "o"; SV "o"; SV "v"; SV "v"]); (EVar "t2_abab"); (EVar "t2_abab"); (EVar "t2_bbbb")]));
   (*L3813*) SAug true "quadruples_res" (EScale (-1 # 1) (EEins "nmfe,aejk,fcim,bdnl->abcdijkl" [(ESlice (EVar "g_abab") [SV "o"; SV "o"; SV "v"; SV "v"]); (EVar "t2_abab"); (EVar "t2_abab"); (EVar "t2_abab")]));
   (*L3816*) SAug true "quadruples_res" (EScale (-1 # 2) (EEins "nmef,aejk,bfil,cdnm->abcdijkl" [(ESlice (EVar "g_bbbb") [SV "o"; SV "o"; SV "v"; SV "v"]); (EVar "t2_abab"); (EVar "t2_abab"); (EVar "t2_bbbb")]));
   (*L3819*) SAug true "quadruples_res" (EScale (1 # 2) (EEins "nmfe,aejk,fcil,bdnm->abcdijkl" [(ESlice (EVar "g_abab") [SV "o"; SV "o"; SV "v"; SV "v"]); (EVar "t2_abab"); (EVar "t2_abab"); (EVar "t2_abab")]));
   (*L3822*) SAug true "quadruples_res" (EScale (1 # 2) (EEins "mnfe,aejk,fcil,bdmn->abcdijkl" [(ESlice (EVar "g_abab") [SV "o"; SV "o"; SV "v"; SV "v"]); (EVar "t2_abab"); (EVar "t2_abab"); (EVar "t2_abab")]));
   (*L3825*) SAug true "quadruples_res" (EScale (-1 # 2) (EEins "nmef,eaji,fckl,bdnm->abcdijkl" [(ESlice (EVar "g_abab") [SV "o"; SV "o"; SV "v"; SV "v"]); (EVar "t2_aaaa"); (EVar "t2_bbbb"); (EVar "t2_abab")]));
   (*L3828*) SAug true "quadruples_res" (EScale (-1 # 2) (EEins "mnef,eaji,fckl,bdmn->abcdijkl" [(ESlice (EVar "g_abab") [SV "o"; SV "o"; SV "v"; SV "v"]); (EVar "t2_aaaa"); (EVar "t2_bbbb"); (EVar "t2_abab")]));
   (*L3831*) SAssign "contracted_intermediate" (EScale (1 # 1) (EEins "mnfe,aejk,fdml,bcin->abcdijkl" [(ESlice (EVar "g_abab") [SV "o"; SV "o"; SV "v"; SV "v"]); (EVar "t2_abab"); (EVar "t2_abab"); (EVar "t2_abab")]));
   (*L3832*) SAug true "quadruples_res" (EAdd (EScale (1 # 1) (EVar "contracted_intermediate")) (EScale (-1 # 1) (EEins "abcdijkl->bacdijkl" [(EVar "contracted_intermediate")])));
   (*L3835*) SAssign "contracted_intermediate" (EScale (-1 # 1) (EEins "nmef,aejk,fdlm,bcin->abcdijkl" [(ESlice (EVar "g_bbbb") [SV "o"; SV "o"; SV "v"; SV "v"]); (EVar "t2_abab"); (EVar "t2_bbbb"); (EVar "t2_abab")]));
   (*L3836*) SAug true "quadruples_res" (EAdd (EScale (1 # 1) (EVar "contracted_intermediate")) (EScale (-1 # 1) (EEins "abcdijkl->bacdijkl" [(EVar "contracted_intermediate")])));
   (*L3839*) SAssign "contracted_intermediate" (EScale (1 # 1) (EEins "nmfe,aejk,fdim,bcnl->abcdijkl" [(ESlice (EVar "g_abab") [SV "o"; SV "o"; SV "v"; SV "v"]); (EVar "t2_abab"); (EVar "t2_abab"); (EVar "t2_abab")]));
   (*L3840*) SAug true "quadruples_res" (EAdd (EScale (1 # 1) (EVar "contracted_intermediate")) (EScale (-1 # 1) (EEins "abcdijkl->bacdijkl" [(EVar "contracted_intermediate")])));
   (*L3843*) SAssign "contracted_intermediate" (EScale (-1 # 2) (EEins "nmfe,aejk,fdil,bcnm->abcdijkl" [(ESlice (EVar "g_abab") [SV "o"; SV "o"; SV "v"; SV "v"]); (EVar "t2_abab"); (EVar "t2_abab"); (EVar "t2_abab")]));
   (*L3844*) SAug true "quadruples_res" (EAdd (EScale (1 # 1) (EVar "contracted_intermediate")) (EScale (-1 # 1) (EEins "abcdijkl->bacdijkl" [(EVar "contracted_intermediate")])));
   (*L3847*) SAssign "contracted_intermediate" (EScale (-1 # 2) (EEins "mnfe,aejk,fdil,bcmn->abcdijkl" [(ESlice (EVar "g_abab") [SV "o"; SV "o"; SV "v"; SV "v"]); (EVar "t2_abab"); (EVar "t2_abab"); (EVar "t2_abab")]));
   (*L3848*) SAug true "quadruples_res" (EAdd (EScale (1 # 1) (EVar "contracted_intermediate")) (EScale (-1 # 1) (EEins "abcdijkl->bacdijkl" [(EVar "contracted_intermediate")])));
   (*L3851*) SAssign "contracted_intermediate" (EScale (1 # 2) (EEins "nmef,eaji,fdkl,bcnm->abcdijkl" [(ESlice (EVar "g_abab") [SV "o"; SV "o"; SV "v"; SV "v"]); (EVar "t2_aaaa"); (EVar "t2_bbbb"); (EVar "t2_abab")]));
   (*L3852*) SAug true "quadruples_res" (EAdd (EScale (1 # 1) (EVar "contracted_intermediate")) (EScale (-1 # 1) (EEins "abcdijkl->bacdijkl" [(EVar "contracted_intermediate")])));
   (*L3855*) SAssign "contracted_intermediate" (EScale (1 # 2) (EEins "mnef,eaji,fdkl,bcmn->abcdijkl" [(ESlice (EVar "g_abab") [SV "o"; SV "o"; SV "v"; SV "v"]); (EVar "t2_aaaa"); (EVar "t2_bbbb"); (EVar "t2_abab")]));
   (*L3856*) SAug true "quadruples_res" (EAdd (EScale (1 # 1) (EVar "contracted_intermediate")) (EScale (-1 # 1) (EEins "abcdijkl->bacdijkl" [(EVar "contracted_intermediate")])));
   (*L3859*) SAug true "quadruples_res" (EScale (1 # 1) (EEins "mnfe,aeik,fcml,bdjn->abcdijkl" [(ESlice (EVar "g_abab") [SV "o"; SV "o"; SV "v"; SV "v"]); (EVar "t2_abab"); (EVar "t2_abab"); (EVar "t2_abab")]));
   (*L3862*) SAug true "quadruples_res" (EScale (-1 # 1) (EEins "nmef,aeik,fclm,bdjn->abcdijkl" [(ESlice (EVar "g_bbbb") [SV "o"; SV "o"; SV "v"; SV "v"]); (EVar "t2_abab"); (EVar "t2_bbbb"); (EVar "t2_abab")]));
   (*L3865*) SAug true "quadruples_res" (EScale (-1 # 1) (EEins "mnfe,aeik,fbjm,cdln->abcdijkl" [(ESlice (EVar "g_abab") [SV "o"; SV "o"; SV "v"; SV "v"]); (EVar "t2_abab"); (EVar "t2_aaaa"); (EVar "t2_bbbb")]));
   (*L3868*) SAug true "quadruples_res" (EScale (1 # 1) (EEins "nmef,aeik,bfjm,cdln->abcdijkl" [(ESlice (EVar "g_bbbb") [SV "o"; SV "o"; SV "v"; SV "v"]); (EVar "t2_abab"); (EVar "t2_abab"); (EVar "t2_bbbb")]));
   (*L3871*) SAug true "quadruples_res" (EScale (1 # 1) (EEins "nmfe,aeik,fcjm,bdnl->abcdijkl" [(ESlice (EVar "g_abab") [SV "o"; SV "o"; SV "v"; SV "v"]); (EVar "t2_abab"); (EVar "t2_abab"); (EVar "t2_abab")]));
   (*L3874*) SAssign "contracted_intermediate" (EScale (-1 # 1) (EEins "mnfe,aeik,fdml,bcjn->abcdijkl" [(ESlice (EVar "g_abab") [SV "o"; SV "o"; SV "v"; SV "v"]); (EVar "t2_abab"); (EVar "t2_abab"); (EVar "t2_abab")]));
   (*L3875*) SAug true "quadruples_res" (EAdd (EScale (1 # 1) (EVar "contracted_intermediate")) (EScale (-1 # 1) (EEins "abcdijkl->bacdijkl" [(EVar "contracted_intermediate")])));
   (*L3878*) SAssign "contracted_intermediate" (EScale (1 # 1) (EEins "nmef,aeik,fdlm,bcjn->abcdijkl" [(ESlice (EVar "g_bbbb") [SV "o"; SV "o"; SV "v"; SV "v"]); (EVar "t2_abab"); (EVar "t2_bbbb"); (EVar "t2_abab")]));
   (*L3879*) SAug true "quadruples_res" (EAdd (EScale (1 # 1) (EVar "contracted_intermediate")) (EScale (-1 # 1) (EEins "abcdijkl->bacdijkl" [(EVar "contracted_intermediate")])));
   (*L3882*) SAssign "contracted_intermediate" (EScale (-1 # 1) (EEins "nmfe,aeik,fdjm,bcnl->abcdijkl" [(ESlice (EVar "g_abab") [SV "o"; SV "o"; SV "v"; SV "v"]); (EVar "t2_abab"); (EVar "t2_abab"); (EVar "t2_abab")]));
   (*L3883*) SAug true "quadruples_res" (EAdd (EScale (1 # 1) (EVar "contracted_intermediate")) (EScale (-1 # 1) (EEins "abcdijkl->bacdijkl" [(EVar "contracted_intermediate")])));
   (*L3886*) SAssign "contracted_intermediate" (EScale (-1 # 1) (EEins "mnef,eaij,bfml,cdkn->abcdijkl" [(ESlice (EVar "g_abab") [SV "o"; SV "o"; SV "v"; SV "v"]); (EVar "t2_aaaa"); (EVar "t2_abab"); (EVar "t2_bbbb")]));
   (*L3887*) SAug true "quadruples_res" (EAdd (EScale (1 # 1) (EVar "contracted_intermediate")) (EScale (-1 # 1) (EEins "abcdijkl->abcdijlk" [(EVar "contracted_intermediate")])));
   (*L3890*) SAssign "contracted_intermediate" (EScale (-1 # 1) (EEins "nmef,eaij,fcml,bdnk->abcdijkl" [(ESlice (EVar "g_aaaa") [SV "o"; SV "o"; SV "v"; SV "v"]); (EVar "t2_aaaa"); (EVar "t2_abab"); (EVar "t2_abab")]));
   (*L3891*) SAug true "quadruples_res" (EAdd (EScale (1 # 1) (EVar "contracted_intermediate")) (EScale (-1 # 1) (EEins "abcdijkl->abcdijlk" [(EVar "contracted_intermediate")])));
   (*L3894*) SAssign "contracted_intermediate" (EScale (1 # 1) (EEins "nmef,eaij,fclm,bdnk->abcdijkl" [(ESlice (EVar "g_abab") [SV "o"; SV "o"; SV "v"; SV "v"]); (EVar "t2_aaaa"); (EVar "t2_bbbb"); (EVar "t2_abab")]));
   (*L3895*) SAug true "quadruples_res" (EAdd (EScale (1 # 1) (EVar "contracted_intermediate")) (EScale (-1 # 1) (EEins "abcdijkl->abcdijlk" [(EVar "contracted_intermediate")])));
   (*L3898*) SAssign "contracted_intermediate" (EScale (1 # 1) (EEins "nmef,eaij,fdml,bcnk->abcdijkl" [(ESlice (EVar "g_aaaa") [SV "o"; SV "o"; SV "v"; SV "v"]); (EVar "t2_aaaa"); (EVar "t2_abab"); (EVar "t2_abab")]));
   (*L3899*) SAug true "quadruples_res" (EAdd (EAdd (EAdd (EScale (1 # 1) (EVar "contracted_intermediate")) (EScale (-1 # 1) (EEins "abcdijkl->abcdijlk" [(EVar "contracted_intermediate")]))) (EScale (-1 # 1) (EEins "abcdijkl->bacdijkl" [(EVar "contracted_intermediate")]))) (EScale (1 # 1) (EEins "abcdijkl->bacdijlk" [(EVar "contracted_intermediate")])));
   (*L3902*) SAssign "contracted_intermediate" (EScale (-1 # 1) (EEins "nmef,eaij,fdlm,bcnk->abcdijkl" [(ESlice (EVar "g_abab") [SV "o"; SV "o"; SV "v"; SV "v"]); (EVar "t2_aaaa"); (EVar "t2_bbbb"); (EVar "t2_abab")]));
   (*L3903*) SAug true "quadruples_res" (EAdd (EAdd (EAdd (EScale (1 # 1) (EVar "contracted_intermediate")) (EScale (-1 # 1) (EEins "abcdijkl->abcdijlk" [(EVar "contracted_intermediate")]))) (EScale (-1 # 1) (EEins "abcdijkl->bacdijkl" [(EVar "contracted_intermediate")]))) (EScale (1 # 1) (EEins "abcdijkl->bacdijlk" [(EVar "contracted_intermediate")])));
   (*L3906*) SAssign "contracted_intermediate" (EScale (1 # 1) (EEins "mnfe,beml,fcjk,adin->abcdijkl" [(ESlice (EVar "g_abab") [SV "o"; SV "o"; SV "v"; SV "v"]); (EVar "t2_abab"); (EVar "t2_abab"); (EVar "t2_abab")]));
   (*L3907*) SAug true "quadruples_res" (EAdd (EScale (1 # 1) (EVar "contracted_intermediate")) (EScale (-1 # 1) (EEins "abcdijkl->abcdjikl" [(EVar "contracted_intermediate")])));
   (*L3910*) SAssign "contracted_intermediate" (EScale (-1 # 1) (EEins "mnfe,bemk,fcjl,adin->abcdijkl" [(ESlice (EVar "g_abab") [SV "o"; SV "o"; SV "v"; SV "v"]); (EVar "t2_abab"); (EVar "t2_abab"); (EVar "t2_abab")]));
   (*L3911*) SAug true "quadruples_res" (EAdd (EScale (1 # 1) (EVar "contracted_intermediate")) (EScale (-1 # 1) (EEins "abcdijkl->abcdjikl" [(EVar "contracted_intermediate")])));
   (*L3914*) SAug true "quadruples_res" (EScale (-1 # 1) (EEins "mnef,ebjm,fckl,adin->abcdijkl" [(ESlice (EVar "g_abab") [SV "o"; SV "o"; SV "v"; SV "v"]); (EVar "t2_aaaa"); (EVar "t2_bbbb"); (EVar "t2_abab")]));
   (*L3917*) SAug true "quadruples_res" (EScale (-1 # 1) (EEins "nmef,bejm,fckl,adin->abcdijkl" [(ESlice (EVar "g_bbbb") [SV "o"; SV "o"; SV "v"; SV "v"]); (EVar "t2_abab"); (EVar "t2_bbbb"); (EVar "t2_abab")]));
   (*L3920*) SAug true "quadruples_res" (EScale (1 # 1) (EEins "nmef,ebjm,fcil,adnk->abcdijkl" [(ESlice (EVar "g_aaaa") [SV "o"; SV "o"; SV "v"; SV "v"]); (EVar "t2_aaaa"); (EVar "t2_abab"); (EVar "t2_abab")]));
   (*L3923*) SAug true "quadruples_res" (EScale (1 # 1) (EEins "nmfe,bejm,fcil,adnk->abcdijkl" [(ESlice (EVar "g_abab") [SV "o"; SV "o"; SV "v"; SV "v"]); (EVar "t2_abab"); (EVar "t2_abab"); (EVar "t2_abab")]));
   (*L3926*) SAssign "contracted_intermediate" (EScale (-1 # 1) (EEins "nmef,ebjm,fcik,adnl->abcdijkl" [(ESlice (EVar "g_aaaa") [SV "o"; SV "o"; SV "v"; SV "v"]); (EVar "t2_aaaa"); (EVar "t2_abab"); (EVar "t2_abab")]));
   (*L3927*) SAug true "quadruples_res" (EAdd (EScale (1 # 1) (EVar "contracted_intermediate")) (EScale (-1 # 1) (EEins "abcdijkl->abcdjikl" [(EVar "contracted_intermediate")])));
   (*L3930*) SAssign "contracted_intermediate" (EScale (-1 # 1) (EEins "nmfe,bejm,fcik,adnl->abcdijkl" [(ESlice (EVar "g_abab") [SV "o"; SV "o"; SV "v"; SV "v"]); (EVar "t2_abab"); (EVar "t2_abab"); (EVar "t2_abab")]));
   (*L3931*) SAug true "quadruples_res" (EAdd (EScale (1 # 1) (EVar "contracted_intermediate")) (EScale (-1 # 1) (EEins "abcdijkl->abcdjikl" [(EVar "contracted_intermediate")])));
   (*L3934*) SAug true "quadruples_res" (EScale (1 # 1) (EEins "mnef,ebim,fckl,adjn->abcdijkl" [(ESlice (EVar "g_abab") [SV "o"; SV "o"; SV "v"; SV "v"]); (EVar "t2_aaaa"); (EVar "t2_bbbb"); (EVar "t2_abab")]));
   (*L3937*) SAug true "quadruples_res" (EScale (1 # 1) (EEins "nmef,beim,fckl,adjn->abcdijkl" [(ESlice (EVar "g_bbbb") [SV "o"; SV "o"; SV "v"; SV "v"]); (EVar "t2_abab"); (EVar "t2_bbbb"); (EVar "t2_abab")]));
   (*L3940*) SAug true "quadruples_res" (EScale (-1 # 1) (EEins "nmef,ebim,fcjl,adnk->abcdijkl" [(ESlice (EVar "g_aaaa") [SV "o"; SV "o"; SV "v"; SV "v"]); (EVar "t2_aaaa"); (EVar "t2_abab"); (EVar "t2_abab")]));
   (*L3943*) SAug true "quadruples_res" (EScale (-1 # 1) (EEins "nmfe,beim,fcjl,adnk->abcdijkl" [(ESlice (EVar "g_abab") [SV "o"; SV "o"; SV "v"; SV "v"]); (EVar "t2_abab"); (EVar "t2_abab"); (EVar "t2_abab")]));
   (*L3946*) SAug true "quadruples_res" (EScale (1 # 2) (EEins "nmfe,bejl,fcik,adnm->abcdijkl" [(ESlice (EVar "g_abab") [SV "o"; SV "o"; SV "v"; SV "v"]); (EVar "t2_abab"); (EVar "t2_abab"); (EVar "t2_abab")]));
   (*L3949*) SAug true "quadruples_res" (EScale (1 # 2) (EEins "mnfe,bejl,fcik,admn->abcdijkl" [(ESlice (EVar "g_abab") [SV "o"; SV "o"; SV "v"; SV "v"]); (EVar "t2_abab"); (EVar "t2_abab"); (EVar "t2_abab")]));
   (*L3952*) SAug true "quadruples_res" (EScale (-1 # 1) (EEins "mnfe,bejl,fcmk,adin->abcdijkl" [(ESlice (EVar "g_abab") [SV "o"; SV "o"; SV "v"; SV "v"]); (EVar "t2_abab"); (EVar "t2_abab"); (EVar "t2_abab")]));
   (*L3955*) SAug true "quadruples_res" (EScale (1 # 1) (EEins "nmef,bejl,fckm,adin->abcdijkl" [(ESlice (EVar "g_bbbb") [SV "o"; SV "o"; SV "v"; SV "v"]); (EVar "t2_abab"); (EVar "t2_bbbb"); (EVar "t2_abab")]));
   (*L3958*) SAug true "quadruples_res" (EScale (-1 # 1) (EEins "nmfe,bejl,fcim,adnk->abcdijkl" [(ESlice (EVar "g_abab") [SV "o"; SV "o"; SV "v"; SV "v"]); (EVar "t2_abab"); (EVar "t2_abab"); (EVar "t2_abab")]));
   (*L3961*) SAug true "quadruples_res" (EScale (1 # 1) (EEins "mnfe,beil,fcmk,adjn->abcdijkl" [(ESlice (EVar "g_abab") [SV "o"; SV "o"; SV "v"; SV "v"]); (EVar "t2_abab"); (EVar "t2_abab"); (EVar "t2_abab")]));
   (*L3964*) SAug true "quadruples_res" (EScale (-1 # 1) (EEins "nmef,beil,fckm,adjn->abcdijkl" [(ESlice (EVar "g_bbbb") [SV "o"; SV "o"; SV "v"; SV "v"]); (EVar "t2_abab"); (EVar "t2_bbbb"); (EVar "t2_abab")]));
   (*L3967*) SAug true "quadruples_res" (EScale (1 # 1) (EEins "nmfe,beil,fcjm,adnk->abcdijkl" [(ESlice (EVar "g_abab") [SV "o"; SV "o"; SV "v"; SV "v"]); (EVar "t2_abab"); (EVar "t2_abab"); (EVar "t2_abab")]));
   (*L3970*) SAssign "contracted_intermediate" (EScale (-1 # 2) (EEins "nmfe,beil,fcjk,adnm->abcdijkl" [(ESlice (EVar "g_abab") [SV "o"; SV "o"; SV "v"; SV "v"]); (EVar "t2_abab"); (EVar "t2_abab"); (EVar "t2_abab")]));
   (*L3971*) SAug true "quadruples_res" (EAdd (EScale (1 # 1) (EVar "contracted_intermediate")) (EScale (-1 # 1) (EEins "abcdijkl->abcdijlk" [(EVar "contracted_intermediate")])));
   (*L3974*) SAssign "contracted_intermediate" (EScale (-1 # 2) (EEins "mnfe,beil,fcjk,admn->abcdijkl" [(ESlice (EVar "g_abab") [SV "o"; SV "o"; SV "v"; SV "v"]); (EVar "t2_abab"); (EVar "t2_abab"); (EVar "t2_abab")]));
   (*L3975*) SAug true "quadruples_res" (EAdd (EScale (1 # 1) (EVar "contracted_intermediate")) (EScale (-1 # 1) (EEins "abcdijkl->abcdijlk" [(EVar "contracted_intermediate")])));
   (*L3978*) SAug true "quadruples_res" (EScale (1 # 1) (EEins "mnfe,bejk,fcml,adin->abcdijkl" [(ESlice (EVar "g_abab") [SV "o"; SV "o"; SV "v"; SV "v"]); (EVar "t2_abab"); (EVar "t2_abab"); (EVar "t2_abab")]));
   (*L3981*) SAug true "quadruples_res" (EScale (-1 # 1) (EEins "nmef,bejk,fclm,adin->abcdijkl" [(ESlice (EVar "g_bbbb") [SV "o"; SV "o"; SV "v"; SV "v"]); (EVar "t2_abab"); (EVar "t2_bbbb"); (EVar "t2_abab")]));
   (*L3984*) SAug true "quadruples_res" (EScale (1 # 1) (EEins "nmfe,bejk,fcim,adnl->abcdijkl" [(ESlice (EVar "g_abab") [SV "o"; SV "o"; SV "v"; SV "v"]); (EVar "t2_abab"); (EVar "t2_abab"); (EVar "t2_abab")]));
   (*L3987*) SAug true "quadruples_res" (EScale (-1 # 2) (EEins "nmfe,bejk,fcil,adnm->abcdijkl" [(ESlice (EVar "g_abab") [SV "o"; SV "o"; SV "v"; SV "v"]); (EVar "t2_abab"); (EVar "t2_abab"); (EVar "t2_abab")]));
   (*L3990*) SAug true "quadruples_res" (EScale (-1 # 2) (EEins "mnfe,bejk,fcil,admn->abcdijkl" [(ESlice (EVar "g_abab") [SV "o"; SV "o"; SV "v"; SV "v"]); (EVar "t2_abab"); (EVar "t2_abab"); (EVar "t2_abab")]));
   (*L3993*) SAug true "quadruples_res" (EScale (1 # 2) (EEins "nmef,ebji,fckl,adnm->abcdijkl" [(ESlice (EVar "g_abab") [SV "o"; SV "o"; SV "v"; SV "v"]); (EVar "t2_aaaa"); (EVar "t2_bbbb"); (EVar "t2_abab")]));
   (*L3996*) SAug true "quadruples_res" (EScale (1 # 2) (EEins "mnef,ebji,fckl,admn->abcdijkl" [(ESlice (EVar "g_abab") [SV "o"; SV "o"; SV "v"; SV "v"]); (EVar "t2_aaaa"); (EVar "t2_bbbb"); (EVar "t2_abab")]));
   (*L3999*) SAug true "quadruples_res" (EScale (-1 # 1) (EEins "mnfe,beik,fcml,adjn->abcdijkl" [(ESlice (EVar "g_abab") [SV "o"; SV "o"; SV "v"; SV "v"]); (EVar "t2_abab"); (EVar "t2_abab"); (EVar "t2_abab")]));
   (*L4002*) SAug true "quadruples_res" (EScale (1 # 1) (EEins "nmef,beik,fclm,adjn->abcdijkl" [(ESlice (EVar "g_bbbb") [SV "o"; SV "o"; SV "v"; SV "v"]); (EVar "t2_abab"); (EVar "t2_bbbb"); (EVar "t2_abab")]));
   (*L4005*) SAug true "quadruples_res" (EScale (-1 # 1) (EEins "nmfe,beik,fcjm,adnl->abcdijkl" [(ESlice (EVar "g_abab") [SV "o"; SV "o"; SV "v"; SV "v"]); (EVar "t2_abab"); (EVar "t2_abab"); (EVar "t2_abab")]));
   (*L4008*) SAssign "contracted_intermediate" (EScale (1 # 1) (EEins "nmef,ebij,fcml,adnk->abcdijkl" [(ESlice (EVar "g_aaaa") [SV "o"; SV "o"; SV "v"; SV "v"]); (EVar "t2_aaaa"); (EVar "t2_abab"); (EVar "t2_abab")]));
   (*L4009*) SAug true "quadruples_res" (EAdd (EScale (1 # 1) (EVar "contracted_intermediate")) (EScale (-1 # 1) (EEins "abcdijkl->abcdijlk" [(EVar "contracted_intermediate")])));
   (*L4012*) SAssign "contracted_intermediate" (EScale (-1 # 1) (EEins "nmef,ebij,fclm,adnk->abcdijkl" [(ESlice (EVar "g_abab") [SV "o"; SV "o"; SV "v"; SV "v"]); (EVar "t2_aaaa"); (EVar "t2_bbbb"); (EVar "t2_abab")]));
   (*L4013*) SAug true "quadruples_res" (EAdd (EScale (1 # 1) (EVar "contracted_intermediate")) (EScale (-1 # 1) (EEins "abcdijkl->abcdijlk" [(EVar "contracted_intermediate")])));
   (*L4016*) SAssign "contracted_intermediate" (EScale (-1 # 1) (EEins "nmef,ecml,fdjk,abin->abcdijkl" [(ESlice (EVar "g_aaaa") [SV "o"; SV "o"; SV "v"; SV "v"]); (EVar "t2_abab"); (EVar "t2_abab"); (EVar "t2_aaaa")]));
   (*L4017*) SAug true "quadruples_res" (EAdd (EScale (1 # 1) (EVar "contracted_intermediate")) (EScale (-1 # 1) (EEins "abcdijkl->abcdjikl" [(EVar "contracted_intermediate")])));
   (*L4020*) SAssign "contracted_intermediate" (EScale (-1 # 1) (EEins "nmfe,eclm,fdjk,abin->abcdijkl" [(ESlice (EVar "g_abab") [SV "o"; SV "o"; SV "v"; SV "v"]); (EVar "t2_bbbb"); (EVar "t2_abab"); (EVar "t2_aaaa")]));
   (*L4021*) SAug true "quadruples_res" (EAdd (EScale (1 # 1) (EVar "contracted_intermediate")) (EScale (-1 # 1) (EEins "abcdijkl->abcdjikl" [(EVar "contracted_intermediate")])));
   (*L4024*) SAssign "contracted_intermediate" (EScale (1 # 1) (EEins "nmef,ecmk,fdjl,abin->abcdijkl" [(ESlice (EVar "g_aaaa") [SV "o"; SV "o"; SV "v"; SV "v"]); (EVar "t2_abab"); (EVar "t2_abab"); (EVar "t2_aaaa")]));
   (*L4025*) SAug true "quadruples_res" (EAdd (EScale (1 # 1) (EVar "contracted_intermediate")) (EScale (-1 # 1) (EEins "abcdijkl->abcdjikl" [(EVar "contracted_intermediate")])));
   (*L4028*) SAssign "contracted_intermediate" (EScale (1 # 1) (EEins "nmfe,eckm,fdjl,abin->abcdijkl" [(ESlice (EVar "g_abab") [SV "o"; SV "o"; SV "v"; SV "v"]); (EVar "t2_bbbb"); (EVar "t2_abab"); (EVar "t2_aaaa")]));
   (*L4029*) SAug true "quadruples_res" (EAdd (EScale (1 # 1) (EVar "contracted_intermediate")) (EScale (-1 # 1) (EEins "abcdijkl->abcdjikl" [(EVar "contracted_intermediate")])));
   (*L4032*) SAug true "quadruples_res" (EScale (1 # 1) (EEins "nmef,ecjm,fdkl,abin->abcdijkl" [(ESlice (EVar "g_abab") [SV "o"; SV "o"; SV "v"; SV "v"]); (EVar "t2_abab"); (EVar "t2_bbbb"); (EVar "t2_aaaa")]));
   (*L4035*) SAug true "quadruples_res" (EScale (-1 # 1) (EEins "nmef,ecim,fdkl,abjn->abcdijkl" [(ESlice (EVar "g_abab") [SV "o"; SV "o"; SV "v"; SV "v"]); (EVar "t2_abab"); (EVar "t2_bbbb"); (EVar "t2_aaaa")]));
   (*L4038*) SAssign "contracted_intermediate" (EScale (-1 # 1) (EEins "nmfe,eckl,fdjm,abin->abcdijkl" [(ESlice (EVar "g_abab") [SV "o"; SV "o"; SV "v"; SV "v"]); (EVar "t2_bbbb"); (EVar "t2_abab"); (EVar "t2_aaaa")]));
   (*L4039*) SAug true "quadruples_res" (EAdd (EScale (1 # 1) (EVar "contracted_intermediate")) (EScale (-1 # 1) (EEins "abcdijkl->abcdjikl" [(EVar "contracted_intermediate")])));
   (*L4042*) SAug true "quadruples_res" (EScale (1 # 2) (EEins "nmef,ecjl,fdik,abnm->abcdijkl" [(ESlice (EVar "g_aaaa") [SV "o"; SV "o"; SV "v"; SV "v"]); (EVar "t2_abab"); (EVar "t2_abab"); (EVar "t2_aaaa")]));
   (*L4045*) SAug true "quadruples_res" (EScale (1 # 1) (EEins "nmef,ecjl,fdmk,abin->abcdijkl" [(ESlice (EVar "g_aaaa") [SV "o"; SV "o"; SV "v"; SV "v"]); (EVar "t2_abab"); (EVar "t2_abab"); (EVar "t2_aaaa")]));
   (*L4048*) SAug true "quadruples_res" (EScale (-1 # 1) (EEins "nmef,ecjl,fdkm,abin->abcdijkl" [(ESlice (EVar "g_abab") [SV "o"; SV "o"; SV "v"; SV "v"]); (EVar "t2_abab"); (EVar "t2_bbbb"); (EVar "t2_aaaa")]));
   (*L4051*) SAug true "quadruples_res" (EScale (-1 # 1) (EEins "nmef,ecil,fdmk,abjn->abcdijkl" [(ESlice (EVar "g_aaaa") [SV "o"; SV "o"; SV "v"; SV "v"]); (EVar "t2_abab"); (EVar "t2_abab"); (EVar "t2_aaaa")]));
   (*L4054*) SAug true "quadruples_res" (EScale (1 # 1) (EEins "nmef,ecil,fdkm,abjn->abcdijkl" [(ESlice (EVar "g_abab") [SV "o"; SV "o"; SV "v"; SV "v"]); (EVar "t2_abab"); (EVar "t2_bbbb"); (EVar "t2_aaaa")]));
   (*L4057*) SAssign "contracted_intermediate" (EScale (-1 # 2) (EEins "nmef,ecil,fdjk,abnm->abcdijkl" [(ESlice (EVar "g_aaaa") [SV "o"; SV "o"; SV "v"; SV "v"]); (EVar "t2_abab"); (EVar "t2_abab"); (EVar "t2_aaaa")]));
   (*L4058*) SAug true "quadruples_res" (EAdd (EScale (1 # 1) (EVar "contracted_intermediate")) (EScale (-1 # 1) (EEins "abcdijkl->abcdijlk" [(EVar "contracted_intermediate")])));
   (*L4061*) SAug true "quadruples_res" (EScale (-1 # 1) (EEins "nmef,ecjk,fdml,abin->abcdijkl" [(ESlice (EVar "g_aaaa") [SV "o"; SV "o"; SV "v"; SV "v"]); (EVar "t2_abab"); (EVar "t2_abab"); (EVar "t2_aaaa")]));
   (*L4064*) SAug true "quadruples_res" (EScale (1 # 1) (EEins "nmef,ecjk,fdlm,abin->abcdijkl" [(ESlice (EVar "g_abab") [SV "o"; SV "o"; SV "v"; SV "v"]); (EVar "t2_abab"); (EVar "t2_bbbb"); (EVar "t2_aaaa")]));
   (*L4067*) SAug true "quadruples_res" (EScale (-1 # 2) (EEins "nmef,ecjk,fdil,abnm->abcdijkl" [(ESlice (EVar "g_aaaa") [SV "o"; SV "o"; SV "v"; SV "v"]); (EVar "t2_abab"); (EVar "t2_abab"); (EVar "t2_aaaa")]));
   (*L4070*) SAug true "quadruples_res" (EScale (1 # 1) (EEins "nmef,ecik,fdml,abjn->abcdijkl" [(ESlice (EVar "g_aaaa") [SV "o"; SV "o"; SV "v"; SV "v"]); (EVar "t2_abab"); (EVar "t2_abab"); (EVar "t2_aaaa")]));
   (*L4073*) SAug true "quadruples_res" (EScale (-1 # 1) (EEins "nmef,ecik,fdlm,abjn->abcdijkl" [(ESlice (EVar "g_abab") [SV "o"; SV "o"; SV "v"; SV "v"]); (EVar "t2_abab"); (EVar "t2_bbbb"); (EVar "t2_aaaa")]))]
  (*L4075*) (EVar "quadruples_res").

(** /repo/UT2/ccdq_resids.py:4078-5600  def ccdq_t4_abbbabbb_residual *)
Definition ccdq_t4_abbbabbb_residual : fn := mkFn
  ["t2_aaaa"; "t2_bbbb"; "t2_abab"; "t4_aaaaaaaa"; "t4_aaabaaab"; "t4_aabbaabb"; "t4_abbbabbb"; "t4_bbbbbbbb"; "f_aa"; "f_bb"; "g_aaaa"; "g_bbbb"; "g_abab"; "oa"; "ob"; "va"; "vb"]
  [(*L4084*) SAssign "o" (EVar "oa");
   (*L4085*) SAssign "v" (EVar "va");
   (*L4088*) SAssign "contracted_intermediate" (EScale (-100000000000001 # 100000000000000) (EEins "ml,abcdijkm->abcdijkl" [(ESlice (EVar "f_bb") [SV "o"; SV "o"]); (ESlice (EVar "t4_abbbabbb") [SAll; SAll; SAll; SAll; SAll; SAll; SAll; SAll])]));
   (*L4089*) SAssign "quadruples_res" (EAdd (EScale (1 # 1) (EVar "contracted_intermediate")) (EScale (-1 # 1) (EEins "abcdijkl->abcdijlk" [(EVar "contracted_intermediate")])));
   (*L4092*) SAug true "quadruples_res" (EScale (-100000000000001 # 100000000000000) (EEins "mj,abcdiklm->abcdijkl" [(ESlice (EVar "f_bb") [SV "o"; SV "o"]); (ESlice (EVar "t4_abbbabbb") [SAll; SAll; SAll; SAll; SAll; SAll; SAll; SAll])]));
   (*L4095*) SAug true "quadruples_res" (EScale (-100000000000001 # 100000000000000) (EEins "mi,abcdmklj->abcdijkl" [(ESlice (EVar "f_aa") [SV "o"; SV "o"]); (ESlice (EVar "t4_abbbabbb") [SAll; SAll; SAll; SAll; SAll; SAll; SAll; SAll])]));
   (*L4098*) SAug true "quadruples_res" (EScale (100000000000001 # 100000000000000) (EEins "ae,ebcdijkl->abcdijkl" [(ESlice (EVar "f_aa") [SV "v"; SV "v"]); (ESlice (EVar "t4_abbbabbb") [SAll; SAll; SAll; SAll; SAll; SAll; SAll; SAll])]));
   (*L4101*) SAug true "quadruples_res" (EScale (100000000000001 # 100000000000000) (EEins "be,aecdijkl->abcdijkl" [(ESlice (EVar "f_bb") [SV "v"; SV "v"]); (ESlice (EVar "t4_abbbabbb") [SAll; SAll; SAll; SAll; SAll; SAll; SAll; SAll])]));
   (*L4104*) SAssign "contracted_intermediate" (EScale (-100000000000001 # 100000000000000) (EEins "ce,aebdijkl->abcdijkl" [(ESlice (EVar "f_bb") [SV "v"; SV "v"]); (ESlice (EVar "t4_abbbabbb") [SAll; SAll; SAll; SAll; SAll; SAll; SAll; SAll])]));
   (*L4105*) SAug true "quadruples_res" (EAdd (EScale (1 # 1) (EVar "contracted_intermediate")) (EScale (-1 # 1) (EEins "abcdijkl->abdcijkl" [(EVar "contracted_intermediate")])));
   (*L4108*) SAssign "contracted_intermediate" (EScale (50000000000001 # 100000000000000) (EEins "nmkl,abcdijnm->abcdijkl" [(ESlice (EVar "g_bbbb") [SV "o"; SV "o"; SV "o"; SV "o"]); (ESlice (EVar "t4_abbbabbb") [SAll; SAll; SAll; SAll; SAll; SAll; SAll; SAll])]));
   (*L4109*) SAug true "quadruples_res" (EAdd (EScale (1 # 1) (EVar "contracted_intermediate")) (EScale (-1 # 1) (EEins "abcdijkl->abcdikjl" [(EVar "contracted_intermediate")])));
   (*L4112*) SAssign "contracted_intermediate" (EScale (-50000000000001 # 100000000000000) (EEins "nmil,abcdnkjm->abcdijkl" [(ESlice (EVar "g_abab") [SV "o"; SV "o"; SV "o"; SV "o"]); (ESlice (EVar "t4_abbbabbb") [SAll; SAll; SAll; SAll; SAll; SAll; SAll; SAll])]));
   (*L4113*) SAug true "quadruples_res" (EAdd (EScale (1 # 1) (EVar "contracted_intermediate")) (EScale (-1 # 1) (EEins "abcdijkl->abcdijlk" [(EVar "contracted_intermediate")])));
   (*L4116*) SAssign "contracted_intermediate" (EScale (50000000000001 # 100000000000000) (EEins "mnil,abcdmknj->abcdijkl" [(ESlice (EVar "g_abab") [SV "o"; SV "o"; SV "o"; SV "o"]); (ESlice (EVar "t4_abbbabbb") [SAll; SAll; SAll; SAll; SAll; SAll; SAll; SAll])]));
   (*L4117*) SAug true "quadruples_res" (EAdd (EScale (1 # 1) (EVar "contracted_intermediate")) (EScale (-1 # 1) (EEins "abcdijkl->abcdijlk" [(EVar "contracted_intermediate")])));
   (*L4120*) SAug true "quadruples_res" (EScale (50000000000001 # 100000000000000) (EEins "nmjk,abcdilnm->abcdijkl" [(ESlice (EVar "g_bbbb") [SV "o"; SV "o"; SV "o"; SV "o"]); (ESlice (EVar "t4_abbbabbb") [SAll; SAll; SAll; SAll; SAll; SAll; SAll; SAll])]));
   (*L4123*) SAug true "quadruples_res" (EScale (-50000000000001 # 100000000000000) (EEins "nmij,abcdnlkm->abcdijkl" [(ESlice (EVar "g_abab") [SV "o"; SV "o"; SV "o"; SV "o"]); (ESlice (EVar "t4_abbbabbb") [SAll; SAll; SAll; SAll; SAll; SAll; SAll; SAll])]));
   (*L4126*) SAug true "quadruples_res" (EScale (50000000000001 # 100000000000000) (EEins "mnij,abcdmlnk->abcdijkl" [(ESlice (EVar "g_abab") [SV "o"; SV "o"; SV "o"; SV "o"]); (ESlice (EVar "t4_abbbabbb") [SAll; SAll; SAll; SAll; SAll; SAll; SAll; SAll])]));
   (*L4129*) SAssign "contracted_intermediate" (EScale (-50000000000001 # 50000000000000) (EEins "amel,ebcdijkm->abcdijkl" [(ESlice (EVar "g_abab") [SV "v"; SV "o"; SV "v"; SV "o"]); (ESlice (EVar "t4_abbbabbb") [SAll; SAll; SAll; SAll; SAll; SAll; SAll; SAll])]));
   (*L4130*) SAug true "quadruples_res" (EAdd (EScale (1 # 1) (EVar "contracted_intermediate")) (EScale (-1 # 1) (EEins "abcdijkl->abcdijlk" [(EVar "contracted_intermediate")])));
   (*L4133*) SAssign "contracted_intermediate" (EScale (50000000000001 # 50000000000000) (EEins "mbel,eacdimkj->abcdijkl" [(ESlice (EVar "g_abab") [SV "o"; SV "v"; SV "v"; SV "o"]); (ESlice (EVar "t4_aabbaabb") [SAll; SAll; SAll; SAll; SAll; SAll; SAll; SAll])]));
   (*L4134*) SAug true "quadruples_res" (EAdd (EScale (1 # 1) (EVar "contracted_intermediate")) (EScale (-1 # 1) (EEins "abcdijkl->abcdijlk" [(EVar "contracted_intermediate")])));
   (*L4137*) SAssign "contracted_intermediate" (EScale (50000000000001 # 50000000000000) (EEins "mbel,aecdijkm->abcdijkl" [(ESlice (EVar "g_bbbb") [SV "o"; SV "v"; SV "v"; SV "o"]); (ESlice (EVar "t4_abbbabbb") [SAll; SAll; SAll; SAll; SAll; SAll; SAll; SAll])]));
   (*L4138*) SAug true "quadruples_res" (EAdd (EScale (1 # 1) (EVar "contracted_intermediate")) (EScale (-1 # 1) (EEins "abcdijkl->abcdijlk" [(EVar "contracted_intermediate")])));
   (*L4141*) SAug true "quadruples_res" (EScale (-50000000000001 # 50000000000000) (EEins "amej,ebcdiklm->abcdijkl" [(ESlice (EVar "g_abab") [SV "v"; SV "o"; SV "v"; SV "o"]); (ESlice (EVar "t4_abbbabbb") [SAll; SAll; SAll; SAll; SAll; SAll; SAll; SAll])]));
   (*L4144*) SAug true "quadruples_res" (EScale (50000000000001 # 50000000000000) (EEins "mbej,eacdimlk->abcdijkl" [(ESlice (EVar "g_abab") [SV "o"; SV "v"; SV "v"; SV "o"]); (ESlice (EVar "t4_aabbaabb") [SAll; SAll; SAll; SAll; SAll; SAll; SAll; SAll])]));
   (*L4147*) SAug true "quadruples_res" (EScale (50000000000001 # 50000000000000) (EEins "mbej,aecdiklm->abcdijkl" [(ESlice (EVar "g_bbbb") [SV "o"; SV "v"; SV "v"; SV "o"]); (ESlice (EVar "t4_abbbabbb") [SAll; SAll; SAll; SAll; SAll; SAll; SAll; SAll])]));
   (*L4150*) SAug true "quadruples_res" (EScale (50000000000001 # 50000000000000) (EEins "maei,ebcdmklj->abcdijkl" [(ESlice (EVar "g_aaaa") [SV "o"; SV "v"; SV "v"; SV "o"]); (ESlice (EVar "t4_abbbabbb") [SAll; SAll; SAll; SAll; SAll; SAll; SAll; SAll])]));
   (*L4153*) SAug true "quadruples_res" (EScale (-50000000000001 # 50000000000000) (EEins "amie,ebcdjklm->abcdijkl" [(ESlice (EVar "g_abab") [SV "v"; SV "o"; SV "o"; SV "v"]); (ESlice (EVar "t4_bbbbbbbb") [SAll; SAll; SAll; SAll; SAll; SAll; SAll; SAll])]));
   (*L4156*) SAug true "quadruples_res" (EScale (-50000000000001 # 50000000000000) (EEins "mbie,aecdmklj->abcdijkl" [(ESlice (EVar "g_abab") [SV "o"; SV "v"; SV "o"; SV "v"]); (ESlice (EVar "t4_abbbabbb") [SAll; SAll; SAll; SAll; SAll; SAll; SAll; SAll])]));
   (*L4159*) SAssign "contracted_intermediate" (EScale (-50000000000001 # 50000000000000) (EEins "mcel,eabdimkj->abcdijkl" [(ESlice (EVar "g_abab") [SV "o"; SV "v"; SV "v"; SV "o"]); (ESlice (EVar "t4_aabbaabb") [SAll; SAll; SAll; SAll; SAll; SAll; SAll; SAll])]));
   (*L4160*) SAug true "quadruples_res" (EAdd (EAdd (EAdd (EScale (1 # 1) (EVar "contracted_intermediate")) (EScale (-1 # 1) (EEins "abcdijkl->abcdijlk" [(EVar "contracted_intermediate")]))) (EScale (-1 # 1) (EEins "abcdijkl->abdcijkl" [(EVar "contracted_intermediate")]))) (EScale (1 # 1) (EEins "abcdijkl->abdcijlk" [(EVar "contracted_intermediate")])));
   (*L4163*) SAssign "contracted_intermediate" (EScale (-50000000000001 # 50000000000000) (EEins "mcel,aebdijkm->abcdijkl" [(ESlice (EVar "g_bbbb") [SV "o"; SV "v"; SV "v"; SV "o"]); (ESlice (EVar "t4_abbbabbb") [SAll; SAll; SAll; SAll; SAll; SAll; SAll; SAll])]));
   (*L4164*) SAug true "quadruples_res" (EAdd (EAdd (EAdd (EScale (1 # 1) (EVar "contracted_intermediate")) (EScale (-1 # 1) (EEins "abcdijkl->abcdijlk" [(EVar "contracted_intermediate")]))) (EScale (-1 # 1) (EEins "abcdijkl->abdcijkl" [(EVar "contracted_intermediate")]))) (EScale (1 # 1) (EEins "abcdijkl->abdcijlk" [(EVar "contracted_intermediate")])));
   (*L4167*) SAssign "contracted_intermediate" (EScale (-50000000000001 # 50000000000000) (EEins "mcej,eabdimlk->abcdijkl" [(ESlice (EVar "g_abab") [SV "o"; SV "v"; SV "v"; SV "o"]); (ESlice (EVar "t4_aabbaabb") [SAll; SAll; SAll; SAll; SAll; SAll; SAll; SAll])]));
   (*L4168*) SAug true "quadruples_res" (EAdd (EScale (1 # 1) (EVar "contracted_intermediate")) (EScale (-1 # 1) (EEins "abcdijkl->abdcijkl" [(EVar "contracted_intermediate")])));
   (*L4171*) SAssign "contracted_intermediate" (EScale (-50000000000001 # 50000000000000) (EEins "mcej,aebdiklm->abcdijkl" [(ESlice (EVar "g_bbbb") [SV "o"; SV "v"; SV "v"; SV "o"]); (ESlice (EVar "t4_abbbabbb") [SAll; SAll; SAll; SAll; SAll; SAll; SAll; SAll])]));
   (*L4172*) SAug true "quadruples_res" (EAdd (EScale (1 # 1) (EVar "contracted_intermediate")) (EScale (-1 # 1) (EEins "abcdijkl->abdcijkl" [(EVar "contracted_intermediate")])));
   (*L4175*) SAssign "contracted_intermediate" (EScale (50000000000001 # 50000000000000) (EEins "mcie,aebdmklj->abcdijkl" [(ESlice (EVar "g_abab") [SV "o"; SV "v"; SV "o"; SV "v"]); (ESlice (EVar "t4_abbbabbb") [SAll; SAll; SAll; SAll; SAll; SAll; SAll; SAll])]));
   (*L4176*) SAug true "quadruples_res" (EAdd (EScale (1 # 1) (EVar "contracted_intermediate")) (EScale (-1 # 1) (EEins "abcdijkl->abdcijkl" [(EVar "contracted_intermediate")])));
   (*L4179*) SAssign "contracted_intermediate" (EScale (50000000000001 # 100000000000000) (EEins "abef,efcdijkl->abcdijkl" [(ESlice (EVar "g_abab") [SV "v"; SV "v"; SV "v"; SV "v"]); (ESlice (EVar "t4_abbbabbb") [SAll; SAll; SAll; SAll; SAll; SAll; SAll; SAll])]));
   (*L4180*) SAug true "quadruples_res" (EAdd (EScale (1 # 1) (EVar "contracted_intermediate")) (EScale (-1 # 1) (EEins "abcdijkl->acbdijkl" [(EVar "contracted_intermediate")])));
   (*L4183*) SAssign "contracted_intermediate" (EScale (50000000000001 # 100000000000000) (EEins "abfe,fecdijkl->abcdijkl" [(ESlice (EVar "g_abab") [SV "v"; SV "v"; SV "v"; SV "v"]); (ESlice (EVar "t4_abbbabbb") [SAll; SAll; SAll; SAll; SAll; SAll; SAll; SAll])]));
   (*L4184*) SAug true "quadruples_res" (EAdd (EScale (1 # 1) (EVar "contracted_intermediate")) (EScale (-1 # 1) (EEins "abcdijkl->acbdijkl" [(EVar "contracted_intermediate")])));
   (*L4187*) SAug true "quadruples_res" (EScale (50000000000001 # 100000000000000) (EEins "adef,efbcijkl->abcdijkl" [(ESlice (EVar "g_abab") [SV "v"; SV "v"; SV "v"; SV "v"]); (ESlice (EVar "t4_abbbabbb") [SAll; SAll; SAll; SAll; SAll; SAll; SAll; SAll])]));
   (*L4190*) SAug true "quadruples_res" (EScale (50000000000001 # 100000000000000) (EEins "adfe,febcijkl->abcdijkl" [(ESlice (EVar "g_abab") [SV "v"; SV "v"; SV "v"; SV "v"]); (ESlice (EVar "t4_abbbabbb") [SAll; SAll; SAll; SAll; SAll; SAll; SAll; SAll])]));
   (*L4193*) SAug true "quadruples_res" (EScale (50000000000001 # 100000000000000) (EEins "bdef,afecijkl->abcdijkl" [(ESlice (EVar "g_bbbb") [SV "v"; SV "v"; SV "v"; SV "v"]); (ESlice (EVar "t4_abbbabbb") [SAll; SAll; SAll; SAll; SAll; SAll; SAll; SAll])]));
   (*L4196*) SAssign "contracted_intermediate" (EScale (-50000000000001 # 100000000000000) (EEins "bcef,afedijkl->abcdijkl" [(ESlice (EVar "g_bbbb") [SV "v"; SV "v"; SV "v"; SV "v"]); (ESlice (EVar "t4_abbbabbb") [SAll; SAll; SAll; SAll; SAll; SAll; SAll; SAll])]));
   (*L4197*) SAug true "quadruples_res" (EAdd (EScale (1 # 1) (EVar "contracted_intermediate")) (EScale (-1 # 1) (EEins "abcdijkl->adcbijkl" [(EVar "contracted_intermediate")])));
   (*L4200*) SAssign "contracted_intermediate" (EScale (-9999999999999 # 20000000000000) (EEins "mnef,efml,abcdijkn->abcdijkl" [(ESlice (EVar "g_abab") [SV "o"; SV "o"; SV "v"; SV "v"]); (EVar "t2_abab"); (ESlice (EVar "t4_abbbabbb") [SAll; SAll; SAll; SAll; SAll; SAll; SAll; SAll])]));
   (*L4201*) SAug true "quadruples_res" (EAdd (EScale (1 # 1) (EVar "contracted_intermediate")) (EScale (-1 # 1) (EEins "abcdijkl->abcdijlk" [(EVar "contracted_intermediate")])));
   (*L4204*) SAssign "contracted_intermediate" (EScale (-9999999999999 # 20000000000000) (EEins "mnfe,feml,abcdijkn->abcdijkl" [(ESlice (EVar "g_abab") [SV "o"; SV "o"; SV "v"; SV "v"]); (EVar "t2_abab"); (ESlice (EVar "t4_abbbabbb") [SAll; SAll; SAll; SAll; SAll; SAll; SAll; SAll])]));
   (*L4205*) SAug true "quadruples_res" (EAdd (EScale (1 # 1) (EVar "contracted_intermediate")) (EScale (-1 # 1) (EEins "abcdijkl->abcdijlk" [(EVar "contracted_intermediate")])));
   (*L4208*) SAssign "contracted_intermediate" (EScale (-9999999999999 # 20000000000000) (EEins "nmef,eflm,abcdijkn->abcdijkl" [(ESlice (EVar "g_bbbb") [SV "o"; SV "o"; SV "v"; SV "v"]); (EVar "t2_bbbb"); (ESlice (EVar "t4_abbbabbb") [SAll; SAll; SAll; SAll; SAll; SAll; SAll; SAll])]));
   (*L4209*) SAug true "quadruples_res" (EAdd (EScale (1 # 1) (EVar "contracted_intermediate")) (EScale (-1 # 1) (EEins "abcdijkl->abcdijlk" [(EVar "contracted_intermediate")])));
   (*L4212*) SAug true "quadruples_res" (EScale (-9999999999999 # 20000000000000) (EEins "mnef,efmj,abcdikln->abcdijkl" [(ESlice (EVar "g_abab") [SV "o"; SV "o"; SV "v"; SV "v"]); (EVar "t2_abab"); (ESlice (EVar "t4_abbbabbb") [SAll; SAll; SAll; SAll; SAll; SAll; SAll; SAll])]));
   (*L4215*) SAug true "quadruples_res" (EScale (-9999999999999 # 20000000000000) (EEins "mnfe,femj,abcdikln->abcdijkl" [(ESlice (EVar "g_abab") [SV "o"; SV "o"; SV "v"; SV "v"]); (EVar "t2_abab"); (ESlice (EVar "t4_abbbabbb") [SAll; SAll; SAll; SAll; SAll; SAll; SAll; SAll])]));
   (*L4218*) SAug true "quadruples_res" (EScale (-9999999999999 # 20000000000000) (EEins "nmef,efjm,abcdikln->abcdijkl" [(ESlice (EVar "g_bbbb") [SV "o"; SV "o"; SV "v"; SV "v"]); (EVar "t2_bbbb"); (ESlice (EVar "t4_abbbabbb") [SAll; SAll; SAll; SAll; SAll; SAll; SAll; SAll])]));
   (*L4221*) SAug true "quadruples_res" (EScale (-9999999999999 # 20000000000000) (EEins "nmef,efim,abcdnklj->abcdijkl" [(ESlice (EVar "g_aaaa") [SV "o"; SV "o"; SV "v"; SV "v"]); (EVar "t2_aaaa"); (ESlice (EVar "t4_abbbabbb") [SAll; SAll; SAll; SAll; SAll; SAll; SAll; SAll])]));
   (*L4224*) SAug true "quadruples_res" (EScale (-9999999999999 # 20000000000000) (EEins "nmef,efim,abcdnklj->abcdijkl" [(ESlice (EVar "g_abab") [SV "o"; SV "o"; SV "v"; SV "v"]); (EVar "t2_abab"); (ESlice (EVar "t4_abbbabbb") [SAll; SAll; SAll; SAll; SAll; SAll; SAll; SAll])]));
   (*L4227*) SAug true "quadruples_res" (EScale (-9999999999999 # 20000000000000) (EEins "nmfe,feim,abcdnklj->abcdijkl" [(ESlice (EVar "g_abab") [SV "o"; SV "o"; SV "v"; SV "v"]); (EVar "t2_abab"); (ESlice (EVar "t4_abbbabbb") [SAll; SAll; SAll; SAll; SAll; SAll; SAll; SAll])]));
   (*L4230*) SAssign "contracted_intermediate" (EScale (25000000000001 # 100000000000000) (EEins "nmef,efkl,abcdijnm->abcdijkl" [(ESlice (EVar "g_bbbb") [SV "o"; SV "o"; SV "v"; SV "v"]); (EVar "t2_bbbb"); (ESlice (EVar "t4_abbbabbb") [SAll; SAll; SAll; SAll; SAll; SAll; SAll; SAll])]));
   (*L4231*) SAug true "quadruples_res" (EAdd (EScale (1 # 1) (EVar "contracted_intermediate")) (EScale (-1 # 1) (EEins "abcdijkl->abcdikjl" [(EVar "contracted_intermediate")])));
   (*L4234*) SAssign "contracted_intermediate" (EScale (-25000000000001 # 100000000000000) (EEins "nmef,efil,abcdnkjm->abcdijkl" [(ESlice (EVar "g_abab") [SV "o"; SV "o"; SV "v"; SV "v"]); (EVar "t2_abab"); (ESlice (EVar "t4_abbbabbb") [SAll; SAll; SAll; SAll; SAll; SAll; SAll; SAll])]));
   (*L4235*) SAug true "quadruples_res" (EAdd (EScale (1 # 1) (EVar "contracted_intermediate")) (EScale (-1 # 1) (EEins "abcdijkl->abcdijlk" [(EVar "contracted_intermediate")])));
   (*L4238*) SAssign "contracted_intermediate" (EScale (25000000000001 # 100000000000000) (EEins "mnef,efil,abcdmknj->abcdijkl" [(ESlice (EVar "g_abab") [SV "o"; SV "o"; SV "v"; SV "v"]); (EVar "t2_abab"); (ESlice (EVar "t4_abbbabbb") [SAll; SAll; SAll; SAll; SAll; SAll; SAll; SAll])]));
   (*L4239*) SAug true "quadruples_res" (EAdd (EScale (1 # 1) (EVar "contracted_intermediate")) (EScale (-1 # 1) (EEins "abcdijkl->abcdijlk" [(EVar "contracted_intermediate")])));
   (*L4242*) SAssign "contracted_intermediate" (EScale (-25000000000001 # 100000000000000) (EEins "nmfe,feil,abcdnkjm->abcdijkl" [(ESlice (EVar "g_abab") [SV "o"; SV "o"; SV "v"; SV "v"]); (EVar "t2_abab"); (ESlice (EVar "t4_abbbabbb") [SAll; SAll; SAll; SAll; SAll; SAll; SAll; SAll])]));
   (*L4243*) SAug true "quadruples_res" (EAdd (EScale (1 # 1) (EVar "contracted_intermediate")) (EScale (-1 # 1) (EEins "abcdijkl->abcdijlk" [(EVar "contracted_intermediate")])));
   (*L4246*) SAssign "contracted_intermediate" (EScale (25000000000001 # 100000000000000) (EEins "mnfe,feil,abcdmknj->abcdijkl" [(ESlice (EVar "g_abab") [SV "o"; SV "o"; SV "v"; SV "v"]); (EVar "t2_abab"); (ESlice (EVar "t4_abbbabbb") [SAll; SAll; SAll; SAll; SAll; SAll; SAll; SAll])]));
   (*L4247*) SAug true "quadruples_res" (EAdd (EScale (1 # 1) (EVar "contracted_intermediate")) (EScale (-1 # 1) (EEins "abcdijkl->abcdijlk" [(EVar "contracted_intermediate")])));
   (*L4250*) SAug true "quadruples_res" (EScale (25000000000001 # 100000000000000) (EEins "nmef,efjk,abcdilnm->abcdijkl" [(ESlice (EVar "g_bbbb") [SV "o"; SV "o"; SV "v"; SV "v"]); (EVar "t2_bbbb"); (ESlice (EVar "t4_abbbabbb") [SAll; SAll; SAll; SAll; SAll; SAll; SAll; SAll])]));
   (*L4253*) SAug true "quadruples_res" (EScale (-25000000000001 # 100000000000000) (EEins "nmef,efij,abcdnlkm->abcdijkl" [(ESlice (EVar "g_abab") [SV "o"; SV "o"; SV "v"; SV "v"]); (EVar "t2_abab"); (ESlice (EVar "t4_abbbabbb") [SAll; SAll; SAll; SAll; SAll; SAll; SAll; SAll])]));
   (*L4256*) SAug true "quadruples_res" (EScale (25000000000001 # 100000000000000) (EEins "mnef,efij,abcdmlnk->abcdijkl" [(ESlice (EVar "g_abab") [SV "o"; SV "o"; SV "v"; SV "v"]); (EVar "t2_abab"); (ESlice (EVar "t4_abbbabbb") [SAll; SAll; SAll; SAll; SAll; SAll; SAll; SAll])]));
   (*L4259*) SAug true "quadruples_res" (EScale (-25000000000001 # 100000000000000) (EEins "nmfe,feij,abcdnlkm->abcdijkl" [(ESlice (EVar "g_abab") [SV "o"; SV "o"; SV "v"; SV "v"]); (EVar "t2_abab"); (ESlice (EVar "t4_abbbabbb") [SAll; SAll; SAll; SAll; SAll; SAll; SAll; SAll])]));
   (*L4262*) SAug true "quadruples_res" (EScale (25000000000001 # 100000000000000) (EEins "mnfe,feij,abcdmlnk->abcdijkl" [(ESlice (EVar "g_abab") [SV "o"; SV "o"; SV "v"; SV "v"]); (EVar "t2_abab"); (ESlice (EVar "t4_abbbabbb") [SAll; SAll; SAll; SAll; SAll; SAll; SAll; SAll])]));
   (*L4265*) SAug true "quadruples_res" (EScale (-9999999999999 # 20000000000000) (EEins "nmef,eanm,fbcdijkl->abcdijkl" [(ESlice (EVar "g_aaaa") [SV "o"; SV "o"; SV "v"; SV "v"]); (EVar "t2_aaaa"); (ESlice (EVar "t4_abbbabbb") [SAll; SAll; SAll; SAll; SAll; SAll; SAll; SAll])]));
   (*L4268*) SAug true "quadruples_res" (EScale (-9999999999999 # 20000000000000) (EEins "nmfe,aenm,fbcdijkl->abcdijkl" [(ESlice (EVar "g_abab") [SV "o"; SV "o"; SV "v"; SV "v"]); (EVar "t2_abab"); (ESlice (EVar "t4_abbbabbb") [SAll; SAll; SAll; SAll; SAll; SAll; SAll; SAll])]));
   (*L4271*) SAug true "quadruples_res" (EScale (-9999999999999 # 20000000000000) (EEins "mnfe,aemn,fbcdijkl->abcdijkl" [(ESlice (EVar "g_abab") [SV "o"; SV "o"; SV "v"; SV "v"]); (EVar "t2_abab"); (ESlice (EVar "t4_abbbabbb") [SAll; SAll; SAll; SAll; SAll; SAll; SAll; SAll])]));
   (*L4274*) SAug true "quadruples_res" (EScale (-9999999999999 # 20000000000000) (EEins "nmef,ebnm,afcdijkl->abcdijkl" [(ESlice (EVar "g_abab") [SV "o"; SV "o"; SV "v"; SV "v"]); (EVar "t2_abab"); (ESlice (EVar "t4_abbbabbb") [SAll; SAll; SAll; SAll; SAll; SAll; SAll; SAll])]));
   (*L4277*) SAug true "quadruples_res" (EScale (-9999999999999 # 20000000000000) (EEins "mnef,ebmn,afcdijkl->abcdijkl" [(ESlice (EVar "g_abab") [SV "o"; SV "o"; SV "v"; SV "v"]); (EVar "t2_abab"); (ESlice (EVar "t4_abbbabbb") [SAll; SAll; SAll; SAll; SAll; SAll; SAll; SAll])]));
   (*L4280*) SAug true "quadruples_res" (EScale (-9999999999999 # 20000000000000) (EEins "nmef,ebnm,afcdijkl->abcdijkl" [(ESlice (EVar "g_bbbb") [SV "o"; SV "o"; SV "v"; SV "v"]); (EVar "t2_bbbb"); (ESlice (EVar "t4_abbbabbb") [SAll; SAll; SAll; SAll; SAll; SAll; SAll; SAll])]));
   (*L4283*) SAssign "contracted_intermediate" (EScale (6249999999999 # 6250000000000) (EEins "mnfe,aeml,fbcdijkn->abcdijkl" [(ESlice (EVar "g_abab") [SV "o"; SV "o"; SV "v"; SV "v"]); (EVar "t2_abab"); (ESlice (EVar "t4_abbbabbb") [SAll; SAll; SAll; SAll; SAll; SAll; SAll; SAll])]));
   (*L4284*) SAug true "quadruples_res" (EAdd (EScale (1 # 1) (EVar "contracted_intermediate")) (EScale (-1 # 1) (EEins "abcdijkl->abcdijlk" [(EVar "contracted_intermediate")])));
   (*L4287*) SAssign "contracted_intermediate" (EScale (-6249999999999 # 6250000000000) (EEins "nmef,ebml,facdinkj->abcdijkl" [(ESlice (EVar "g_aaaa") [SV "o"; SV "o"; SV "v"; SV "v"]); (EVar "t2_abab"); (ESlice (EVar "t4_aabbaabb") [SAll; SAll; SAll; SAll; SAll; SAll; SAll; SAll])]));
   (*L4288*) SAug true "quadruples_res" (EAdd (EScale (1 # 1) (EVar "contracted_intermediate")) (EScale (-1 # 1) (EEins "abcdijkl->abcdijlk" [(EVar "contracted_intermediate")])));
   (*L4291*) SAssign "contracted_intermediate" (EScale (6249999999999 # 6250000000000) (EEins "mnef,ebml,afcdijkn->abcdijkl" [(ESlice (EVar "g_abab") [SV "o"; SV "o"; SV "v"; SV "v"]); (EVar "t2_abab"); (ESlice (EVar "t4_abbbabbb") [SAll; SAll; SAll; SAll; SAll; SAll; SAll; SAll])]));
   (*L4292*) SAug true "quadruples_res" (EAdd (EScale (1 # 1) (EVar "contracted_intermediate")) (EScale (-1 # 1) (EEins "abcdijkl->abcdijlk" [(EVar "contracted_intermediate")])));
   (*L4295*) SAssign "contracted_intermediate" (EScale (-6249999999999 # 6250000000000) (EEins "nmfe,eblm,facdinkj->abcdijkl" [(ESlice (EVar "g_abab") [SV "o"; SV "o"; SV "v"; SV "v"]); (EVar "t2_bbbb"); (ESlice (EVar "t4_aabbaabb") [SAll; SAll; SAll; SAll; SAll; SAll; SAll; SAll])]));
   (*L4296*) SAug true "quadruples_res" (EAdd (EScale (1 # 1) (EVar "contracted_intermediate")) (EScale (-1 # 1) (EEins "abcdijkl->abcdijlk" [(EVar "contracted_intermediate")])));
   (*L4299*) SAssign "contracted_intermediate" (EScale (6249999999999 # 6250000000000) (EEins "nmef,eblm,afcdijkn->abcdijkl" [(ESlice (EVar "g_bbbb") [SV "o"; SV "o"; SV "v"; SV "v"]); (EVar "t2_bbbb"); (ESlice (EVar "t4_abbbabbb") [SAll; SAll; SAll; SAll; SAll; SAll; SAll; SAll])]));
   (*L4300*) SAug true "quadruples_res" (EAdd (EScale (1 # 1) (EVar "contracted_intermediate")) (EScale (-1 # 1) (EEins "abcdijkl->abcdijlk" [(EVar "contracted_intermediate")])));
   (*L4303*) SAug true "quadruples_res" (EScale (6249999999999 # 6250000000000) (EEins "mnfe,aemj,fbcdikln->abcdijkl" [(ESlice (EVar "g_abab") [SV "o"; SV "o"; SV "v"; SV "v"]); (EVar "t2_abab"); (ESlice (EVar "t4_abbbabbb") [SAll; SAll; SAll; SAll; SAll; SAll; SAll; SAll])]));
   (*L4306*) SAug true "quadruples_res" (EScale (-6249999999999 # 6250000000000) (EEins "nmef,ebmj,facdinlk->abcdijkl" [(ESlice (EVar "g_aaaa") [SV "o"; SV "o"; SV "v"; SV "v"]); (EVar "t2_abab"); (ESlice (EVar "t4_aabbaabb") [SAll; SAll; SAll; SAll; SAll; SAll; SAll; SAll])]));
   (*L4309*) SAug true "quadruples_res" (EScale (6249999999999 # 6250000000000) (EEins "mnef,ebmj,afcdikln->abcdijkl" [(ESlice (EVar "g_abab") [SV "o"; SV "o"; SV "v"; SV "v"]); (EVar "t2_abab"); (ESlice (EVar "t4_abbbabbb") [SAll; SAll; SAll; SAll; SAll; SAll; SAll; SAll])]));
   (*L4312*) SAug true "quadruples_res" (EScale (-6249999999999 # 6250000000000) (EEins "nmfe,ebjm,facdinlk->abcdijkl" [(ESlice (EVar "g_abab") [SV "o"; SV "o"; SV "v"; SV "v"]); (EVar "t2_bbbb"); (ESlice (EVar "t4_aabbaabb") [SAll; SAll; SAll; SAll; SAll; SAll; SAll; SAll])]));
   (*L4315*) SAug true "quadruples_res" (EScale (6249999999999 # 6250000000000) (EEins "nmef,ebjm,afcdikln->abcdijkl" [(ESlice (EVar "g_bbbb") [SV "o"; SV "o"; SV "v"; SV "v"]); (EVar "t2_bbbb"); (ESlice (EVar "t4_abbbabbb") [SAll; SAll; SAll; SAll; SAll; SAll; SAll; SAll])]));
   (*L4318*) SAug true "quadruples_res" (EScale (6249999999999 # 6250000000000) (EEins "nmef,eaim,fbcdnklj->abcdijkl" [(ESlice (EVar "g_aaaa") [SV "o"; SV "o"; SV "v"; SV "v"]); (EVar "t2_aaaa"); (ESlice (EVar "t4_abbbabbb") [SAll; SAll; SAll; SAll; SAll; SAll; SAll; SAll])]));
   (*L4321*) SAug true "quadruples_res" (EScale (6249999999999 # 6250000000000) (EEins "mnef,eaim,fbcdjkln->abcdijkl" [(ESlice (EVar "g_abab") [SV "o"; SV "o"; SV "v"; SV "v"]); (EVar "t2_aaaa"); (ESlice (EVar "t4_bbbbbbbb") [SAll; SAll; SAll; SAll; SAll; SAll; SAll; SAll])]));
   (*L4324*) SAug true "quadruples_res" (EScale (6249999999999 # 6250000000000) (EEins "nmfe,aeim,fbcdnklj->abcdijkl" [(ESlice (EVar "g_abab") [SV "o"; SV "o"; SV "v"; SV "v"]); (EVar "t2_abab"); (ESlice (EVar "t4_abbbabbb") [SAll; SAll; SAll; SAll; SAll; SAll; SAll; SAll])]));
   (*L4327*) SAug true "quadruples_res" (EScale (6249999999999 # 6250000000000) (EEins "nmef,aeim,fbcdjkln->abcdijkl" [(ESlice (EVar "g_bbbb") [SV "o"; SV "o"; SV "v"; SV "v"]); (EVar "t2_abab"); (ESlice (EVar "t4_bbbbbbbb") [SAll; SAll; SAll; SAll; SAll; SAll; SAll; SAll])]));
   (*L4330*) SAug true "quadruples_res" (EScale (6249999999999 # 6250000000000) (EEins "nmef,ebim,afcdnklj->abcdijkl" [(ESlice (EVar "g_abab") [SV "o"; SV "o"; SV "v"; SV "v"]); (EVar "t2_abab"); (ESlice (EVar "t4_abbbabbb") [SAll; SAll; SAll; SAll; SAll; SAll; SAll; SAll])]));
   (*L4333*) SAssign "contracted_intermediate" (EScale (9999999999999 # 20000000000000) (EEins "nmfe,ebkl,facdinjm->abcdijkl" [(ESlice (EVar "g_abab") [SV "o"; SV "o"; SV "v"; SV "v"]); (EVar "t2_bbbb"); (ESlice (EVar "t4_aabbaabb") [SAll; SAll; SAll; SAll; SAll; SAll; SAll; SAll])]));
   (*L4334*) SAug true "quadruples_res" (EAdd (EScale (1 # 1) (EVar "contracted_intermediate")) (EScale (-1 # 1) (EEins "abcdijkl->abcdikjl" [(EVar "contracted_intermediate")])));
   (*L4337*) SAssign "contracted_intermediate" (EScale (-9999999999999 # 20000000000000) (EEins "mnfe,ebkl,facdimnj->abcdijkl" [(ESlice (EVar "g_abab") [SV "o"; SV "o"; SV "v"; SV "v"]); (EVar "t2_bbbb"); (ESlice (EVar "t4_aabbaabb") [SAll; SAll; SAll; SAll; SAll; SAll; SAll; SAll])]));
   (*L4338*) SAug true "quadruples_res" (EAdd (EScale (1 # 1) (EVar "contracted_intermediate")) (EScale (-1 # 1) (EEins "abcdijkl->abcdikjl" [(EVar "contracted_intermediate")])));
   (*L4341*) SAssign "contracted_intermediate" (EScale (-9999999999999 # 20000000000000) (EEins "nmef,ebkl,afcdijnm->abcdijkl" [(ESlice (EVar "g_bbbb") [SV "o"; SV "o"; SV "v"; SV "v"]); (EVar "t2_bbbb"); (ESlice (EVar "t4_abbbabbb") [SAll; SAll; SAll; SAll; SAll; SAll; SAll; SAll])]));
   (*L4342*) SAug true "quadruples_res" (EAdd (EScale (1 # 1) (EVar "contracted_intermediate")) (EScale (-1 # 1) (EEins "abcdijkl->abcdikjl" [(EVar "contracted_intermediate")])));
   (*L4345*) SAssign "contracted_intermediate" (EScale (9999999999999 # 20000000000000) (EEins "nmfe,aeil,fbcdnkjm->abcdijkl" [(ESlice (EVar "g_abab") [SV "o"; SV "o"; SV "v"; SV "v"]); (EVar "t2_abab"); (ESlice (EVar "t4_abbbabbb") [SAll; SAll; SAll; SAll; SAll; SAll; SAll; SAll])]));
   (*L4346*) SAug true "quadruples_res" (EAdd (EScale (1 # 1) (EVar "contracted_intermediate")) (EScale (-1 # 1) (EEins "abcdijkl->abcdijlk" [(EVar "contracted_intermediate")])));
   (*L4349*) SAssign "contracted_intermediate" (EScale (-9999999999999 # 20000000000000) (EEins "mnfe,aeil,fbcdmknj->abcdijkl" [(ESlice (EVar "g_abab") [SV "o"; SV "o"; SV "v"; SV "v"]); (EVar "t2_abab"); (ESlice (EVar "t4_abbbabbb") [SAll; SAll; SAll; SAll; SAll; SAll; SAll; SAll])]));
   (*L4350*) SAug true "quadruples_res" (EAdd (EScale (1 # 1) (EVar "contracted_intermediate")) (EScale (-1 # 1) (EEins "abcdijkl->abcdijlk" [(EVar "contracted_intermediate")])));
   (*L4353*) SAssign "contracted_intermediate" (EScale (9999999999999 # 20000000000000) (EEins "nmef,aeil,fbcdjknm->abcdijkl" [(ESlice (EVar "g_bbbb") [SV "o"; SV "o"; SV "v"; SV "v"]); (EVar "t2_abab"); (ESlice (EVar "t4_bbbbbbbb") [SAll; SAll; SAll; SAll; SAll; SAll; SAll; SAll])]));
   (*L4354*) SAug true "quadruples_res" (EAdd (EScale (1 # 1) (EVar "contracted_intermediate")) (EScale (-1 # 1) (EEins "abcdijkl->abcdijlk" [(EVar "contracted_intermediate")])));
   (*L4357*) SAssign "contracted_intermediate" (EScale (9999999999999 # 20000000000000) (EEins "nmef,ebil,facdnmjk->abcdijkl" [(ESlice (EVar "g_aaaa") [SV "o"; SV "o"; SV "v"; SV "v"]); (EVar "t2_abab"); (ESlice (EVar "t4_aabbaabb") [SAll; SAll; SAll; SAll; SAll; SAll; SAll; SAll])]));
   (*L4358*) SAug true "quadruples_res" (EAdd (EScale (1 # 1) (EVar "contracted_intermediate")) (EScale (-1 # 1) (EEins "abcdijkl->abcdijlk" [(EVar "contracted_intermediate")])));
   (*L4361*) SAssign "contracted_intermediate" (EScale (9999999999999 # 20000000000000) (EEins "nmef,ebil,afcdnkjm->abcdijkl" [(ESlice (EVar "g_abab") [SV "o"; SV "o"; SV "v"; SV "v"]); (EVar "t2_abab"); (ESlice (EVar "t4_abbbabbb") [SAll; SAll; SAll; SAll; SAll; SAll; SAll; SAll])]));
   (*L4362*) SAug true "quadruples_res" (EAdd (EScale (1 # 1) (EVar "contracted_intermediate")) (EScale (-1 # 1) (EEins "abcdijkl->abcdijlk" [(EVar "contracted_intermediate")])));
   (*L4365*) SAssign "contracted_intermediate" (EScale (-9999999999999 # 20000000000000) (EEins "mnef,ebil,afcdmknj->abcdijkl" [(ESlice (EVar "g_abab") [SV "o"; SV "o"; SV "v"; SV "v"]); (EVar "t2_abab"); (ESlice (EVar "t4_abbbabbb") [SAll; SAll; SAll; SAll; SAll; SAll; SAll; SAll])]));
   (*L4366*) SAug true "quadruples_res" (EAdd (EScale (1 # 1) (EVar "contracted_intermediate")) (EScale (-1 # 1) (EEins "abcdijkl->abcdijlk" [(EVar "contracted_intermediate")])));
   (*L4369*) SAug true "quadruples_res" (EScale (9999999999999 # 20000000000000) (EEins "nmfe,ebjk,facdinlm->abcdijkl" [(ESlice (EVar "g_abab") [SV "o"; SV "o"; SV "v"; SV "v"]); (EVar "t2_bbbb"); (ESlice (EVar "t4_aabbaabb") [SAll; SAll; SAll; SAll; SAll; SAll; SAll; SAll])]));
   (*L4372*) SAug true "quadruples_res" (EScale (-9999999999999 # 20000000000000) (EEins "mnfe,ebjk,facdimnl->abcdijkl" [(ESlice (EVar "g_abab") [SV "o"; SV "o"; SV "v"; SV "v"]); (EVar "t2_bbbb"); (ESlice (EVar "t4_aabbaabb") [SAll; SAll; SAll; SAll; SAll; SAll; SAll; SAll])]));
   (*L4375*) SAug true "quadruples_res" (EScale (-9999999999999 # 20000000000000) (EEins "nmef,ebjk,afcdilnm->abcdijkl" [(ESlice (EVar "g_bbbb") [SV "o"; SV "o"; SV "v"; SV "v"]); (EVar "t2_bbbb"); (ESlice (EVar "t4_abbbabbb") [SAll; SAll; SAll; SAll; SAll; SAll; SAll; SAll])]));
   (*L4378*) SAug true "quadruples_res" (EScale (9999999999999 # 20000000000000) (EEins "nmfe,aeij,fbcdnlkm->abcdijkl" [(ESlice (EVar "g_abab") [SV "o"; SV "o"; SV "v"; SV "v"]); (EVar "t2_abab"); (ESlice (EVar "t4_abbbabbb") [SAll; SAll; SAll; SAll; SAll; SAll; SAll; SAll])]));
   (*L4381*) SAug true "quadruples_res" (EScale (-9999999999999 # 20000000000000) (EEins "mnfe,aeij,fbcdmlnk->abcdijkl" [(ESlice (EVar "g_abab") [SV "o"; SV "o"; SV "v"; SV "v"]); (EVar "t2_abab"); (ESlice (EVar "t4_abbbabbb") [SAll; SAll; SAll; SAll; SAll; SAll; SAll; SAll])]));
   (*L4384*) SAug true "quadruples_res" (EScale (9999999999999 # 20000000000000) (EEins "nmef,aeij,fbcdklnm->abcdijkl" [(ESlice (EVar "g_bbbb") [SV "o"; SV "o"; SV "v"; SV "v"]); (EVar "t2_abab"); (ESlice (EVar "t4_bbbbbbbb") [SAll; SAll; SAll; SAll; SAll; SAll; SAll; SAll])]));
   (*L4387*) SAug true "quadruples_res" (EScale (9999999999999 # 20000000000000) (EEins "nmef,ebij,facdnmkl->abcdijkl" [(ESlice (EVar "g_aaaa") [SV "o"; SV "o"; SV "v"; SV "v"]); (EVar "t2_abab"); (ESlice (EVar "t4_aabbaabb") [SAll; SAll; SAll; SAll; SAll; SAll; SAll; SAll])]));
   (*L4390*) SAug true "quadruples_res" (EScale (9999999999999 # 20000000000000) (EEins "nmef,ebij,afcdnlkm->abcdijkl" [(ESlice (EVar "g_abab") [SV "o"; SV "o"; SV "v"; SV "v"]); (EVar "t2_abab"); (ESlice (EVar "t4_abbbabbb") [SAll; SAll; SAll; SAll; SAll; SAll; SAll; SAll])]));
   (*L4393*) SAug true "quadruples_res" (EScale (-9999999999999 # 20000000000000) (EEins "mnef,ebij,afcdmlnk->abcdijkl" [(ESlice (EVar "g_abab") [SV "o"; SV "o"; SV "v"; SV "v"]); (EVar "t2_abab"); (ESlice (EVar "t4_abbbabbb") [SAll; SAll; SAll; SAll; SAll; SAll; SAll; SAll])]));
   (*L4396*) SAssign "contracted_intermediate" (EScale (9999999999999 # 20000000000000) (EEins "nmef,ecnm,afbdijkl->abcdijkl" [(ESlice (EVar "g_abab") [SV "o"; SV "o"; SV "v"; SV "v"]); (EVar "t2_abab"); (ESlice (EVar "t4_abbbabbb") [SAll; SAll; SAll; SAll; SAll; SAll; SAll; SAll])]));
   (*L4397*) SAug true "quadruples_res" (EAdd (EScale (1 # 1) (EVar "contracted_intermediate")) (EScale (-1 # 1) (EEins "abcdijkl->abdcijkl" [(EVar "contracted_intermediate")])));
   (*L4400*) SAssign "contracted_intermediate" (EScale (9999999999999 # 20000000000000) (EEins "mnef,ecmn,afbdijkl->abcdijkl" [(ESlice (EVar "g_abab") [SV "o"; SV "o"; SV "v"; SV "v"]); (EVar "t2_abab"); (ESlice (EVar "t4_abbbabbb") [SAll; SAll; SAll; SAll; SAll; SAll; SAll; SAll])]));
   (*L4401*) SAug true "quadruples_res" (EAdd (EScale (1 # 1) (EVar "contracted_intermediate")) (EScale (-1 # 1) (EEins "abcdijkl->abdcijkl" [(EVar "contracted_intermediate")])));
   (*L4404*) SAssign "contracted_intermediate" (EScale (9999999999999 # 20000000000000) (EEins "nmef,ecnm,afbdijkl->abcdijkl" [(ESlice (EVar "g_bbbb") [SV "o"; SV "o"; SV "v"; SV "v"]); (EVar "t2_bbbb"); (ESlice (EVar "t4_abbbabbb") [SAll; SAll; SAll; SAll; SAll; SAll; SAll; SAll])]));
   (*L4405*) SAug true "quadruples_res" (EAdd (EScale (1 # 1) (EVar "contracted_intermediate")) (EScale (-1 # 1) (EEins "abcdijkl->abdcijkl" [(EVar "contracted_intermediate")])));
   (*L4408*) SAssign "contracted_intermediate" (EScale (6249999999999 # 6250000000000) (EEins "nmef,ecml,fabdinkj->abcdijkl" [(ESlice (EVar "g_aaaa") [SV "o"; SV "o"; SV "v"; SV "v"]); (EVar "t2_abab"); (ESlice (EVar "t4_aabbaabb") [SAll; SAll; SAll; SAll; SAll; SAll; SAll; SAll])]));
   (*L4409*) SAug true "quadruples_res" (EAdd (EAdd (EAdd (EScale (1 # 1) (EVar "contracted_intermediate")) (EScale (-1 # 1) (EEins "abcdijkl->abcdijlk" [(EVar "contracted_intermediate")]))) (EScale (-1 # 1) (EEins "abcdijkl->abdcijkl" [(EVar "contracted_intermediate")]))) (EScale (1 # 1) (EEins "abcdijkl->abdcijlk" [(EVar "contracted_intermediate")])));
   (*L4412*) SAssign "contracted_intermediate" (EScale (-6249999999999 # 6250000000000) (EEins "mnef,ecml,afbdijkn->abcdijkl" [(ESlice (EVar "g_abab") [SV "o"; SV "o"; SV "v"; SV "v"]); (EVar "t2_abab"); (ESlice (EVar "t4_abbbabbb") [SAll; SAll; SAll; SAll; SAll; SAll; SAll; SAll])]));
   (*L4413*) SAug true "quadruples_res" (EAdd (EAdd (EAdd (EScale (1 # 1) (EVar "contracted_intermediate")) (EScale (-1 # 1) (EEins "abcdijkl->abcdijlk" [(EVar "contracted_intermediate")]))) (EScale (-1 # 1) (EEins "abcdijkl->abdcijkl" [(EVar "contracted_intermediate")]))) (EScale (1 # 1) (EEins "abcdijkl->abdcijlk" [(EVar "contracted_intermediate")])));
   (*L4416*) SAssign "contracted_intermediate" (EScale (6249999999999 # 6250000000000) (EEins "nmfe,eclm,fabdinkj->abcdijkl" [(ESlice (EVar "g_abab") [SV "o"; SV "o"; SV "v"; SV "v"]); (EVar "t2_bbbb"); (ESlice (EVar "t4_aabbaabb") [SAll; SAll; SAll; SAll; SAll; SAll; SAll; SAll])]));
   (*L4417*) SAug true "quadruples_res" (EAdd (EAdd (EAdd (EScale (1 # 1) (EVar "contracted_intermediate")) (EScale (-1 # 1) (EEins "abcdijkl->abcdijlk" [(EVar "contracted_intermediate")]))) (EScale (-1 # 1) (EEins "abcdijkl->abdcijkl" [(EVar "contracted_intermediate")]))) (EScale (1 # 1) (EEins "abcdijkl->abdcijlk" [(EVar "contracted_intermediate")])));
   (*L4420*) SAssign "contracted_intermediate" (EScale (-6249999999999 # 6250000000000) (EEins "nmef,eclm,afbdijkn->abcdijkl" [(ESlice (EVar "g_bbbb") [SV "o"; SV "o"; SV "v"; SV "v"]); (EVar "t2_bbbb"); (ESlice (EVar "t4_abbbabbb") [SAll; SAll; SAll; SAll; SAll; SAll; SAll; SAll])]));
   (*L4421*) SAug true "quadruples_res" (EAdd (EAdd (EAdd (EScale (1 # 1) (EVar "contracted_intermediate")) (EScale (-1 # 1) (EEins "abcdijkl->abcdijlk" [(EVar "contracted_intermediate")]))) (EScale (-1 # 1) (EEins "abcdijkl->abdcijkl" [(EVar "contracted_intermediate")]))) (EScale (1 # 1) (EEins "abcdijkl->abdcijlk" [(EVar "contracted_intermediate")])));
   (*L4424*) SAssign "contracted_intermediate" (EScale (6249999999999 # 6250000000000) (EEins "nmef,ecmj,fabdinlk->abcdijkl" [(ESlice (EVar "g_aaaa") [SV "o"; SV "o"; SV "v"; SV "v"]); (EVar "t2_abab"); (ESlice (EVar "t4_aabbaabb") [SAll; SAll; SAll; SAll; SAll; SAll; SAll; SAll])]));
   (*L4425*) SAug true "quadruples_res" (EAdd (EScale (1 # 1) (EVar "contracted_intermediate")) (EScale (-1 # 1) (EEins "abcdijkl->abdcijkl" [(EVar "contracted_intermediate")])));
   (*L4428*) SAssign "contracted_intermediate" (EScale (-6249999999999 # 6250000000000) (EEins "mnef,ecmj,afbdikln->abcdijkl" [(ESlice (EVar "g_abab") [SV "o"; SV "o"; SV "v"; SV "v"]); (EVar "t2_abab"); (ESlice (EVar "t4_abbbabbb") [SAll; SAll; SAll; SAll; SAll; SAll; SAll; SAll])]));
   (*L4429*) SAug true "quadruples_res" (EAdd (EScale (1 # 1) (EVar "contracted_intermediate")) (EScale (-1 # 1) (EEins "abcdijkl->abdcijkl" [(EVar "contracted_intermediate")])));
   (*L4432*) SAssign "contracted_intermediate" (EScale (6249999999999 # 6250000000000) (EEins "nmfe,ecjm,fabdinlk->abcdijkl" [(ESlice (EVar "g_abab") [SV "o"; SV "o"; SV "v"; SV "v"]); (EVar "t2_bbbb"); (ESlice (EVar "t4_aabbaabb") [SAll; SAll; SAll; SAll; SAll; SAll; SAll; SAll])]));
   (*L4433*) SAug true "quadruples_res" (EAdd (EScale (1 # 1) (EVar "contracted_intermediate")) (EScale (-1 # 1) (EEins "abcdijkl->abdcijkl" [(EVar "contracted_intermediate")])));
   (*L4436*) SAssign "contracted_intermediate" (EScale (-6249999999999 # 6250000000000) (EEins "nmef,ecjm,afbdikln->abcdijkl" [(ESlice (EVar "g_bbbb") [SV "o"; SV "o"; SV "v"; SV "v"]); (EVar "t2_bbbb"); (ESlice (EVar "t4_abbbabbb") [SAll; SAll; SAll; SAll; SAll; SAll; SAll; SAll])]));
   (*L4437*) SAug true "quadruples_res" (EAdd (EScale (1 # 1) (EVar "contracted_intermediate")) (EScale (-1 # 1) (EEins "abcdijkl->abdcijkl" [(EVar "contracted_intermediate")])));
   (*L4440*) SAssign "contracted_intermediate" (EScale (-6249999999999 # 6250000000000) (EEins "nmef,ecim,afbdnklj->abcdijkl" [(ESlice (EVar "g_abab") [SV "o"; SV "o"; SV "v"; SV "v"]); (EVar "t2_abab"); (ESlice (EVar "t4_abbbabbb") [SAll; SAll; SAll; SAll; SAll; SAll; SAll; SAll])]));
   (*L4441*) SAug true "quadruples_res" (EAdd (EScale (1 # 1) (EVar "contracted_intermediate")) (EScale (-1 # 1) (EEins "abcdijkl->abdcijkl" [(EVar "contracted_intermediate")])));
   (*L4444*) SAssign "contracted_intermediate" (EScale (-9999999999999 # 20000000000000) (EEins "nmfe,eckl,fabdinjm->abcdijkl" [(ESlice (EVar "g_abab") [SV "o"; SV "o"; SV "v"; SV "v"]); (EVar "t2_bbbb"); (ESlice (EVar "t4_aabbaabb") [SAll; SAll; SAll; SAll; SAll; SAll; SAll; SAll])]));
   (*L4445*) SAug true "quadruples_res" (EAdd (EAdd (EAdd (EScale (1 # 1) (EVar "contracted_intermediate")) (EScale (-1 # 1) (EEins "abcdijkl->abcdikjl" [(EVar "contracted_intermediate")]))) (EScale (-1 # 1) (EEins "abcdijkl->abdcijkl" [(EVar "contracted_intermediate")]))) (EScale (1 # 1) (EEins "abcdijkl->abdcikjl" [(EVar "contracted_intermediate")])));
   (*L4448*) SAssign "contracted_intermediate" (EScale (9999999999999 # 20000000000000) (EEins "mnfe,eckl,fabdimnj->abcdijkl" [(ESlice (EVar "g_abab") [SV "o"; SV "o"; SV "v"; SV "v"]); (EVar "t2_bbbb"); (ESlice (EVar "t4_aabbaabb") [SAll; SAll; SAll; SAll; SAll; SAll; SAll; SAll])]));
   (*L4449*) SAug true "quadruples_res" (EAdd (EAdd (EAdd (EScale (1 # 1) (EVar "contracted_intermediate")) (EScale (-1 # 1) (EEins "abcdijkl->abcdikjl" [(EVar "contracted_intermediate")]))) (EScale (-1 # 1) (EEins "abcdijkl->abdcijkl" [(EVar "contracted_intermediate")]))) (EScale (1 # 1) (EEins "abcdijkl->abdcikjl" [(EVar "contracted_intermediate")])));
   (*L4452*) SAssign "contracted_intermediate" (EScale (9999999999999 # 20000000000000) (EEins "nmef,eckl,afbdijnm->abcdijkl" [(ESlice (EVar "g_bbbb") [SV "o"; SV "o"; SV "v"; SV "v"]); (EVar "t2_bbbb"); (ESlice (EVar "t4_abbbabbb") [SAll; SAll; SAll; SAll; SAll; SAll; SAll; SAll])]));
   (*L4453*) SAug true "quadruples_res" (EAdd (EAdd (EAdd (EScale (1 # 1) (EVar "contracted_intermediate")) (EScale (-1 # 1) (EEins "abcdijkl->abcdikjl" [(EVar "contracted_intermediate")]))) (EScale (-1 # 1) (EEins "abcdijkl->abdcijkl" [(EVar "contracted_intermediate")]))) (EScale (1 # 1) (EEins "abcdijkl->abdcikjl" [(EVar "contracted_intermediate")])));
   (*L4456*) SAssign "contracted_intermediate" (EScale (-9999999999999 # 20000000000000) (EEins "nmef,ecil,fabdnmjk->abcdijkl" [(ESlice (EVar "g_aaaa") [SV "o"; SV "o"; SV "v"; SV "v"]); (EVar "t2_abab"); (ESlice (EVar "t4_aabbaabb") [SAll; SAll; SAll; SAll; SAll; SAll; SAll; SAll])]));
   (*L4457*) SAug true "quadruples_res" (EAdd (EAdd (EAdd (EScale (1 # 1) (EVar "contracted_intermediate")) (EScale (-1 # 1) (EEins "abcdijkl->abcdijlk" [(EVar "contracted_intermediate")]))) (EScale (-1 # 1) (EEins "abcdijkl->abdcijkl" [(EVar "contracted_intermediate")]))) (EScale (1 # 1) (EEins "abcdijkl->abdcijlk" [(EVar "contracted_intermediate")])));
   (*L4460*) SAssign "contracted_intermediate" (EScale (-9999999999999 # 20000000000000) (EEins "nmef,ecil,afbdnkjm->abcdijkl" [(ESlice (EVar "g_abab") [SV "o"; SV "o"; SV "v"; SV "v"]); (EVar "t2_abab"); (ESlice (EVar "t4_abbbabbb") [SAll; SAll; SAll; SAll; SAll; SAll; SAll; SAll])]));
   (*L4461*) SAug true "quadruples_res" (EAdd (EAdd (EAdd (EScale (1 # 1) (EVar "contracted_intermediate")) (EScale (-1 # 1) (EEins "abcdijkl->abcdijlk" [(EVar "contracted_intermediate")]))) (EScale (-1 # 1) (EEins "abcdijkl->abdcijkl" [(EVar "contracted_intermediate")]))) (EScale (1 # 1) (EEins "abcdijkl->abdcijlk" [(EVar "contracted_intermediate")])));
   (*L4464*) SAssign "contracted_intermediate" (EScale (9999999999999 # 20000000000000) (EEins "mnef,ecil,afbdmknj->abcdijkl" [(ESlice (EVar "g_abab") [SV "o"; SV "o"; SV "v"; SV "v"]); (EVar "t2_abab"); (ESlice (EVar "t4_abbbabbb") [SAll; SAll; SAll; SAll; SAll; SAll; SAll; SAll])]));
   (*L4465*) SAug true "quadruples_res" (EAdd (EAdd (EAdd (EScale (1 # 1) (EVar "contracted_intermediate")) (EScale (-1 # 1) (EEins "abcdijkl->abcdijlk" [(EVar "contracted_intermediate")]))) (EScale (-1 # 1) (EEins "abcdijkl->abdcijkl" [(EVar "contracted_intermediate")]))) (EScale (1 # 1) (EEins "abcdijkl->abdcijlk" [(EVar "contracted_intermediate")])));
   (*L4468*) SAssign "contracted_intermediate" (EScale (-9999999999999 # 20000000000000) (EEins "nmfe,ecjk,fabdinlm->abcdijkl" [(ESlice (EVar "g_abab") [SV "o"; SV "o"; SV "v"; SV "v"]); (EVar "t2_bbbb"); (ESlice (EVar "t4_aabbaabb") [SAll; SAll; SAll; SAll; SAll; SAll; SAll; SAll])]));
   (*L4469*) SAug true "quadruples_res" (EAdd (EScale (1 # 1) (EVar "contracted_intermediate")) (EScale (-1 # 1) (EEins "abcdijkl->abdcijkl" [(EVar "contracted_intermediate")])));
   (*L4472*) SAssign "contracted_intermediate" (EScale (9999999999999 # 20000000000000) (EEins "mnfe,ecjk,fabdimnl->abcdijkl" [(ESlice (EVar "g_abab") [SV "o"; SV "o"; SV "v"; SV "v"]); (EVar "t2_bbbb"); (ESlice (EVar "t4_aabbaabb") [SAll; SAll; SAll; SAll; SAll; SAll; SAll; SAll])]));
   (*L4473*) SAug true "quadruples_res" (EAdd (EScale (1 # 1) (EVar "contracted_intermediate")) (EScale (-1 # 1) (EEins "abcdijkl->abdcijkl" [(EVar "contracted_intermediate")])));
   (*L4476*) SAssign "contracted_intermediate" (EScale (9999999999999 # 20000000000000) (EEins "nmef,ecjk,afbdilnm->abcdijkl" [(ESlice (EVar "g_bbbb") [SV "o"; SV "o"; SV "v"; SV "v"]); (EVar "t2_bbbb"); (ESlice (EVar "t4_abbbabbb") [SAll; SAll; SAll; SAll; SAll; SAll; SAll; SAll])]));
   (*L4477*) SAug true "quadruples_res" (EAdd (EScale (1 # 1) (EVar "contracted_intermediate")) (EScale (-1 # 1) (EEins "abcdijkl->abdcijkl" [(EVar "contracted_intermediate")])));
   (*L4480*) SAssign "contracted_intermediate" (EScale (-9999999999999 # 20000000000000) (EEins "nmef,ecij,fabdnmkl->abcdijkl" [(ESlice (EVar "g_aaaa") [SV "o"; SV "o"; SV "v"; SV "v"]); (EVar "t2_abab"); (ESlice (EVar "t4_aabbaabb") [SAll; SAll; SAll; SAll; SAll; SAll; SAll; SAll])]));
   (*L4481*) SAug true "quadruples_res" (EAdd (EScale (1 # 1) (EVar "contracted_intermediate")) (EScale (-1 # 1) (EEins "abcdijkl->abdcijkl" [(EVar "contracted_intermediate")])));
   (*L4484*) SAssign "contracted_intermediate" (EScale (-9999999999999 # 20000000000000) (EEins "nmef,ecij,afbdnlkm->abcdijkl" [(ESlice (EVar "g_abab") [SV "o"; SV "o"; SV "v"; SV "v"]); (EVar "t2_abab"); (ESlice (EVar "t4_abbbabbb") [SAll; SAll; SAll; SAll; SAll; SAll; SAll; SAll])]));
   (*L4485*) SAug true "quadruples_res" (EAdd (EScale (1 # 1) (EVar "contracted_intermediate")) (EScale (-1 # 1) (EEins "abcdijkl->abdcijkl" [(EVar "contracted_intermediate")])));
   (*L4488*) SAssign "contracted_intermediate" (EScale (9999999999999 # 20000000000000) (EEins "mnef,ecij,afbdmlnk->abcdijkl" [(ESlice (EVar "g_abab") [SV "o"; SV "o"; SV "v"; SV "v"]); (EVar "t2_abab"); (ESlice (EVar "t4_abbbabbb") [SAll; SAll; SAll; SAll; SAll; SAll; SAll; SAll])]));
   (*L4489*) SAug true "quadruples_res" (EAdd (EScale (1 # 1) (EVar "contracted_intermediate")) (EScale (-1 # 1) (EEins "abcdijkl->abdcijkl" [(EVar "contracted_intermediate")])));
   (*L4492*) SAssign "contracted_intermediate" (EScale (25000000000001 # 100000000000000) (EEins "nmef,abnm,efcdijkl->abcdijkl" [(ESlice (EVar "g_abab") [SV "o"; SV "o"; SV "v"; SV "v"]); (EVar "t2_abab"); (ESlice (EVar "t4_abbbabbb") [SAll; SAll; SAll; SAll; SAll; SAll; SAll; SAll])]));
   (*L4493*) SAug true "quadruples_res" (EAdd (EScale (1 # 1) (EVar "contracted_intermediate")) (EScale (-1 # 1) (EEins "abcdijkl->acbdijkl" [(EVar "contracted_intermediate")])));
   (*L4496*) SAssign "contracted_intermediate" (EScale (25000000000001 # 100000000000000) (EEins "nmfe,abnm,fecdijkl->abcdijkl" [(ESlice (EVar "g_abab") [SV "o"; SV "o"; SV "v"; SV "v"]); (EVar "t2_abab"); (ESlice (EVar "t4_abbbabbb") [SAll; SAll; SAll; SAll; SAll; SAll; SAll; SAll])]));
   (*L4497*) SAug true "quadruples_res" (EAdd (EScale (1 # 1) (EVar "contracted_intermediate")) (EScale (-1 # 1) (EEins "abcdijkl->acbdijkl" [(EVar "contracted_intermediate")])));
   (*L4500*) SAssign "contracted_intermediate" (EScale (25000000000001 # 100000000000000) (EEins "mnef,abmn,efcdijkl->abcdijkl" [(ESlice (EVar "g_abab") [SV "o"; SV "o"; SV "v"; SV "v"]); (EVar "t2_abab"); (ESlice (EVar "t4_abbbabbb") [SAll; SAll; SAll; SAll; SAll; SAll; SAll; SAll])]));
   (*L4501*) SAug true "quadruples_res" (EAdd (EScale (1 # 1) (EVar "contracted_intermediate")) (EScale (-1 # 1) (EEins "abcdijkl->acbdijkl" [(EVar "contracted_intermediate")])));
   (*L4504*) SAssign "contracted_intermediate" (EScale (25000000000001 # 100000000000000) (EEins "mnfe,abmn,fecdijkl->abcdijkl" [(ESlice (EVar "g_abab") [SV "o"; SV "o"; SV "v"; SV "v"]); (EVar "t2_abab"); (ESlice (EVar "t4_abbbabbb") [SAll; SAll; SAll; SAll; SAll; SAll; SAll; SAll])]));
   (*L4505*) SAug true "quadruples_res" (EAdd (EScale (1 # 1) (EVar "contracted_intermediate")) (EScale (-1 # 1) (EEins "abcdijkl->acbdijkl" [(EVar "contracted_intermediate")])));
   (*L4508*) SAssign "contracted_intermediate" (EScale (-9999999999999 # 20000000000000) (EEins "nmef,abml,efcdinkj->abcdijkl" [(ESlice (EVar "g_aaaa") [SV "o"; SV "o"; SV "v"; SV "v"]); (EVar "t2_abab"); (ESlice (EVar "t4_aabbaabb") [SAll; SAll; SAll; SAll; SAll; SAll; SAll; SAll])]));
   (*L4509*) SAug true "quadruples_res" (EAdd (EAdd (EAdd (EScale (1 # 1) (EVar "contracted_intermediate")) (EScale (-1 # 1) (EEins "abcdijkl->abcdijlk" [(EVar "contracted_intermediate")]))) (EScale (-1 # 1) (EEins "abcdijkl->acbdijkl" [(EVar "contracted_intermediate")]))) (EScale (1 # 1) (EEins "abcdijkl->acbdijlk" [(EVar "contracted_intermediate")])));
   (*L4512*) SAssign "contracted_intermediate" (EScale (-9999999999999 # 20000000000000) (EEins "mnef,abml,efcdijkn->abcdijkl" [(ESlice (EVar "g_abab") [SV "o"; SV "o"; SV "v"; SV "v"]); (EVar "t2_abab"); (ESlice (EVar "t4_abbbabbb") [SAll; SAll; SAll; SAll; SAll; SAll; SAll; SAll])]));
   (*L4513*) SAug true "quadruples_res" (EAdd (EAdd (EAdd (EScale (1 # 1) (EVar "contracted_intermediate")) (EScale (-1 # 1) (EEins "abcdijkl->abcdijlk" [(EVar "contracted_intermediate")]))) (EScale (-1 # 1) (EEins "abcdijkl->acbdijkl" [(EVar "contracted_intermediate")]))) (EScale (1 # 1) (EEins "abcdijkl->acbdijlk" [(EVar "contracted_intermediate")])));
   (*L4516*) SAssign "contracted_intermediate" (EScale (-9999999999999 # 20000000000000) (EEins "mnfe,abml,fecdijkn->abcdijkl" [(ESlice (EVar "g_abab") [SV "o"; SV "o"; SV "v"; SV "v"]); (EVar "t2_abab"); (ESlice (EVar "t4_abbbabbb") [SAll; SAll; SAll; SAll; SAll; SAll; SAll; SAll])]));
   (*L4517*) SAug true "quadruples_res" (EAdd (EAdd (EAdd (EScale (1 # 1) (EVar "contracted_intermediate")) (EScale (-1 # 1) (EEins "abcdijkl->abcdijlk" [(EVar "contracted_intermediate")]))) (EScale (-1 # 1) (EEins "abcdijkl->acbdijkl" [(EVar "contracted_intermediate")]))) (EScale (1 # 1) (EEins "abcdijkl->acbdijlk" [(EVar "contracted_intermediate")])));
   (*L4520*) SAssign "contracted_intermediate" (EScale (-9999999999999 # 20000000000000) (EEins "nmef,abmj,efcdinlk->abcdijkl" [(ESlice (EVar "g_aaaa") [SV "o"; SV "o"; SV "v"; SV "v"]); (EVar "t2_abab"); (ESlice (EVar "t4_aabbaabb") [SAll; SAll; SAll; SAll; SAll; SAll; SAll; SAll])]));
   (*L4521*) SAug true "quadruples_res" (EAdd (EScale (1 # 1) (EVar "contracted_intermediate")) (EScale (-1 # 1) (EEins "abcdijkl->acbdijkl" [(EVar "contracted_intermediate")])));
   (*L4524*) SAssign "contracted_intermediate" (EScale (-9999999999999 # 20000000000000) (EEins "mnef,abmj,efcdikln->abcdijkl" [(ESlice (EVar "g_abab") [SV "o"; SV "o"; SV "v"; SV "v"]); (EVar "t2_abab"); (ESlice (EVar "t4_abbbabbb") [SAll; SAll; SAll; SAll; SAll; SAll; SAll; SAll])]));
   (*L4525*) SAug true "quadruples_res" (EAdd (EScale (1 # 1) (EVar "contracted_intermediate")) (EScale (-1 # 1) (EEins "abcdijkl->acbdijkl" [(EVar "contracted_intermediate")])));
   (*L4528*) SAssign "contracted_intermediate" (EScale (-9999999999999 # 20000000000000) (EEins "mnfe,abmj,fecdikln->abcdijkl" [(ESlice (EVar "g_abab") [SV "o"; SV "o"; SV "v"; SV "v"]); (EVar "t2_abab"); (ESlice (EVar "t4_abbbabbb") [SAll; SAll; SAll; SAll; SAll; SAll; SAll; SAll])]));
   (*L4529*) SAug true "quadruples_res" (EAdd (EScale (1 # 1) (EVar "contracted_intermediate")) (EScale (-1 # 1) (EEins "abcdijkl->acbdijkl" [(EVar "contracted_intermediate")])));
   (*L4532*) SAssign "contracted_intermediate" (EScale (-9999999999999 # 20000000000000) (EEins "nmef,abim,efcdnklj->abcdijkl" [(ESlice (EVar "g_abab") [SV "o"; SV "o"; SV "v"; SV "v"]); (EVar "t2_abab"); (ESlice (EVar "t4_abbbabbb") [SAll; SAll; SAll; SAll; SAll; SAll; SAll; SAll])]));
   (*L4533*) SAug true "quadruples_res" (EAdd (EScale (1 # 1) (EVar "contracted_intermediate")) (EScale (-1 # 1) (EEins "abcdijkl->acbdijkl" [(EVar "contracted_intermediate")])));
   (*L4536*) SAssign "contracted_intermediate" (EScale (-9999999999999 # 20000000000000) (EEins "nmfe,abim,fecdnklj->abcdijkl" [(ESlice (EVar "g_abab") [SV "o"; SV "o"; SV "v"; SV "v"]); (EVar "t2_abab"); (ESlice (EVar "t4_abbbabbb") [SAll; SAll; SAll; SAll; SAll; SAll; SAll; SAll])]));
   (*L4537*) SAug true "quadruples_res" (EAdd (EScale (1 # 1) (EVar "contracted_intermediate")) (EScale (-1 # 1) (EEins "abcdijkl->acbdijkl" [(EVar "contracted_intermediate")])));
   (*L4540*) SAssign "contracted_intermediate" (EScale (9999999999999 # 20000000000000) (EEins "nmef,abim,efcdjkln->abcdijkl" [(ESlice (EVar "g_bbbb") [SV "o"; SV "o"; SV "v"; SV "v"]); (EVar "t2_abab"); (ESlice (EVar "t4_bbbbbbbb") [SAll; SAll; SAll; SAll; SAll; SAll; SAll; SAll])]));
   (*L4541*) SAug true "quadruples_res" (EAdd (EScale (1 # 1) (EVar "contracted_intermediate")) (EScale (-1 # 1) (EEins "abcdijkl->acbdijkl" [(EVar "contracted_intermediate")])));
   (*L4544*) SAug true "quadruples_res" (EScale (25000000000001 # 100000000000000) (EEins "nmef,adnm,efbcijkl->abcdijkl" [(ESlice (EVar "g_abab") [SV "o"; SV "o"; SV "v"; SV "v"]); (EVar "t2_abab"); (ESlice (EVar "t4_abbbabbb") [SAll; SAll; SAll; SAll; SAll; SAll; SAll; SAll])]));
   (*L4547*) SAug true "quadruples_res" (EScale (25000000000001 # 100000000000000) (EEins "nmfe,adnm,febcijkl->abcdijkl" [(ESlice (EVar "g_abab") [SV "o"; SV "o"; SV "v"; SV "v"]); (EVar "t2_abab"); (ESlice (EVar "t4_abbbabbb") [SAll; SAll; SAll; SAll; SAll; SAll; SAll; SAll])]));
   (*L4550*) SAug true "quadruples_res" (EScale (25000000000001 # 100000000000000) (EEins "mnef,admn,efbcijkl->abcdijkl" [(ESlice (EVar "g_abab") [SV "o"; SV "o"; SV "v"; SV "v"]); (EVar "t2_abab"); (ESlice (EVar "t4_abbbabbb") [SAll; SAll; SAll; SAll; SAll; SAll; SAll; SAll])]));
   (*L4553*) SAug true "quadruples_res" (EScale (25000000000001 # 100000000000000) (EEins "mnfe,admn,febcijkl->abcdijkl" [(ESlice (EVar "g_abab") [SV "o"; SV "o"; SV "v"; SV "v"]); (EVar "t2_abab"); (ESlice (EVar "t4_abbbabbb") [SAll; SAll; SAll; SAll; SAll; SAll; SAll; SAll])]));
   (*L4556*) SAug true "quadruples_res" (EScale (25000000000001 # 100000000000000) (EEins "nmef,bdnm,afecijkl->abcdijkl" [(ESlice (EVar "g_bbbb") [SV "o"; SV "o"; SV "v"; SV "v"]); (EVar "t2_bbbb"); (ESlice (EVar "t4_abbbabbb") [SAll; SAll; SAll; SAll; SAll; SAll; SAll; SAll])]));
   (*L4559*) SAssign "contracted_intermediate" (EScale (-9999999999999 # 20000000000000) (EEins "nmef,adml,efbcinkj->abcdijkl" [(ESlice (EVar "g_aaaa") [SV "o"; SV "o"; SV "v"; SV "v"]); (EVar "t2_abab"); (ESlice (EVar "t4_aabbaabb") [SAll; SAll; SAll; SAll; SAll; SAll; SAll; SAll])]));
   (*L4560*) SAug true "quadruples_res" (EAdd (EScale (1 # 1) (EVar "contracted_intermediate")) (EScale (-1 # 1) (EEins "abcdijkl->abcdijlk" [(EVar "contracted_intermediate")])));
   (*L4563*) SAssign "contracted_intermediate" (EScale (-9999999999999 # 20000000000000) (EEins "mnef,adml,efbcijkn->abcdijkl" [(ESlice (EVar "g_abab") [SV "o"; SV "o"; SV "v"; SV "v"]); (EVar "t2_abab"); (ESlice (EVar "t4_abbbabbb") [SAll; SAll; SAll; SAll; SAll; SAll; SAll; SAll])]));
   (*L4564*) SAug true "quadruples_res" (EAdd (EScale (1 # 1) (EVar "contracted_intermediate")) (EScale (-1 # 1) (EEins "abcdijkl->abcdijlk" [(EVar "contracted_intermediate")])));
   (*L4567*) SAssign "contracted_intermediate" (EScale (-9999999999999 # 20000000000000) (EEins "mnfe,adml,febcijkn->abcdijkl" [(ESlice (EVar "g_abab") [SV "o"; SV "o"; SV "v"; SV "v"]); (EVar "t2_abab"); (ESlice (EVar "t4_abbbabbb") [SAll; SAll; SAll; SAll; SAll; SAll; SAll; SAll])]));
   (*L4568*) SAug true "quadruples_res" (EAdd (EScale (1 # 1) (EVar "contracted_intermediate")) (EScale (-1 # 1) (EEins "abcdijkl->abcdijlk" [(EVar "contracted_intermediate")])));
   (*L4571*) SAssign "contracted_intermediate" (EScale (9999999999999 # 20000000000000) (EEins "nmef,bdlm,eafcinkj->abcdijkl" [(ESlice (EVar "g_abab") [SV "o"; SV "o"; SV "v"; SV "v"]); (EVar "t2_bbbb"); (ESlice (EVar "t4_aabbaabb") [SAll; SAll; SAll; SAll; SAll; SAll; SAll; SAll])]));
   (*L4572*) SAug true "quadruples_res" (EAdd (EScale (1 # 1) (EVar "contracted_intermediate")) (EScale (-1 # 1) (EEins "abcdijkl->abcdijlk" [(EVar "contracted_intermediate")])));
   (*L4575*) SAssign "contracted_intermediate" (EScale (-9999999999999 # 20000000000000) (EEins "nmfe,bdlm,afecinkj->abcdijkl" [(ESlice (EVar "g_abab") [SV "o"; SV "o"; SV "v"; SV "v"]); (EVar "t2_bbbb"); (ESlice (EVar "t4_aabbaabb") [SAll; SAll; SAll; SAll; SAll; SAll; SAll; SAll])]));
   (*L4576*) SAug true "quadruples_res" (EAdd (EScale (1 # 1) (EVar "contracted_intermediate")) (EScale (-1 # 1) (EEins "abcdijkl->abcdijlk" [(EVar "contracted_intermediate")])));
   (*L4579*) SAssign "contracted_intermediate" (EScale (-9999999999999 # 20000000000000) (EEins "nmef,bdlm,afecijkn->abcdijkl" [(ESlice (EVar "g_bbbb") [SV "o"; SV "o"; SV "v"; SV "v"]); (EVar "t2_bbbb"); (ESlice (EVar "t4_abbbabbb") [SAll; SAll; SAll; SAll; SAll; SAll; SAll; SAll])]));
   (*L4580*) SAug true "quadruples_res" (EAdd (EScale (1 # 1) (EVar "contracted_intermediate")) (EScale (-1 # 1) (EEins "abcdijkl->abcdijlk" [(EVar "contracted_intermediate")])));
   (*L4583*) SAug true "quadruples_res" (EScale (-9999999999999 # 20000000000000) (EEins "nmef,admj,efbcinlk->abcdijkl" [(ESlice (EVar "g_aaaa") [SV "o"; SV "o"; SV "v"; SV "v"]); (EVar "t2_abab"); (ESlice (EVar "t4_aabbaabb") [SAll; SAll; SAll; SAll; SAll; SAll; SAll; SAll])]));
   (*L4586*) SAug true "quadruples_res" (EScale (-9999999999999 # 20000000000000) (EEins "mnef,admj,efbcikln->abcdijkl" [(ESlice (EVar "g_abab") [SV "o"; SV "o"; SV "v"; SV "v"]); (EVar "t2_abab"); (ESlice (EVar "t4_abbbabbb") [SAll; SAll; SAll; SAll; SAll; SAll; SAll; SAll])]));
   (*L4589*) SAug true "quadruples_res" (EScale (-9999999999999 # 20000000000000) (EEins "mnfe,admj,febcikln->abcdijkl" [(ESlice (EVar "g_abab") [SV "o"; SV "o"; SV "v"; SV "v"]); (EVar "t2_abab"); (ESlice (EVar "t4_abbbabbb") [SAll; SAll; SAll; SAll; SAll; SAll; SAll; SAll])]));
   (*L4592*) SAug true "quadruples_res" (EScale (9999999999999 # 20000000000000) (EEins "nmef,bdjm,eafcinlk->abcdijkl" [(ESlice (EVar "g_abab") [SV "o"; SV "o"; SV "v"; SV "v"]); (EVar "t2_bbbb"); (ESlice (EVar "t4_aabbaabb") [SAll; SAll; SAll; SAll; SAll; SAll; SAll; SAll])]));
   (*L4595*) SAug true "quadruples_res" (EScale (-9999999999999 # 20000000000000) (EEins "nmfe,bdjm,afecinlk->abcdijkl" [(ESlice (EVar "g_abab") [SV "o"; SV "o"; SV "v"; SV "v"]); (EVar "t2_bbbb"); (ESlice (EVar "t4_aabbaabb") [SAll; SAll; SAll; SAll; SAll; SAll; SAll; SAll])]));
   (*L4598*) SAug true "quadruples_res" (EScale (-9999999999999 # 20000000000000) (EEins "nmef,bdjm,afecikln->abcdijkl" [(ESlice (EVar "g_bbbb") [SV "o"; SV "o"; SV "v"; SV "v"]); (EVar "t2_bbbb"); (ESlice (EVar "t4_abbbabbb") [SAll; SAll; SAll; SAll; SAll; SAll; SAll; SAll])]));
   (*L4601*) SAug true "quadruples_res" (EScale (-9999999999999 # 20000000000000) (EEins "nmef,adim,efbcnklj->abcdijkl" [(ESlice (EVar "g_abab") [SV "o"; SV "o"; SV "v"; SV "v"]); (EVar "t2_abab"); (ESlice (EVar "t4_abbbabbb") [SAll; SAll; SAll; SAll; SAll; SAll; SAll; SAll])]));
   (*L4604*) SAug true "quadruples_res" (EScale (-9999999999999 # 20000000000000) (EEins "nmfe,adim,febcnklj->abcdijkl" [(ESlice (EVar "g_abab") [SV "o"; SV "o"; SV "v"; SV "v"]); (EVar "t2_abab"); (ESlice (EVar "t4_abbbabbb") [SAll; SAll; SAll; SAll; SAll; SAll; SAll; SAll])]));
   (*L4607*) SAug true "quadruples_res" (EScale (9999999999999 # 20000000000000) (EEins "nmef,adim,efbcjkln->abcdijkl" [(ESlice (EVar "g_bbbb") [SV "o"; SV "o"; SV "v"; SV "v"]); (EVar "t2_abab"); (ESlice (EVar "t4_bbbbbbbb") [SAll; SAll; SAll; SAll; SAll; SAll; SAll; SAll])]));
   (*L4610*) SAssign "contracted_intermediate" (EScale (-25000000000001 # 100000000000000) (EEins "nmef,bcnm,afedijkl->abcdijkl" [(ESlice (EVar "g_bbbb") [SV "o"; SV "o"; SV "v"; SV "v"]); (EVar "t2_bbbb"); (ESlice (EVar "t4_abbbabbb") [SAll; SAll; SAll; SAll; SAll; SAll; SAll; SAll])]));
   (*L4611*) SAug true "quadruples_res" (EAdd (EScale (1 # 1) (EVar "contracted_intermediate")) (EScale (-1 # 1) (EEins "abcdijkl->adcbijkl" [(EVar "contracted_intermediate")])));
   (*L4614*) SAssign "contracted_intermediate" (EScale (-9999999999999 # 20000000000000) (EEins "nmef,bclm,eafdinkj->abcdijkl" [(ESlice (EVar "g_abab") [SV "o"; SV "o"; SV "v"; SV "v"]); (EVar "t2_bbbb"); (ESlice (EVar "t4_aabbaabb") [SAll; SAll; SAll; SAll; SAll; SAll; SAll; SAll])]));
   (*L4615*) SAug true "quadruples_res" (EAdd (EAdd (EAdd (EScale (1 # 1) (EVar "contracted_intermediate")) (EScale (-1 # 1) (EEins "abcdijkl->abcdijlk" [(EVar "contracted_intermediate")]))) (EScale (-1 # 1) (EEins "abcdijkl->adcbijkl" [(EVar "contracted_intermediate")]))) (EScale (1 # 1) (EEins "abcdijkl->adcbijlk" [(EVar "contracted_intermediate")])));
   (*L4618*) SAssign "contracted_intermediate" (EScale (9999999999999 # 20000000000000) (EEins "nmfe,bclm,afedinkj->abcdijkl" [(ESlice (EVar "g_abab") [SV "o"; SV "o"; SV "v"; SV "v"]); (EVar "t2_bbbb"); (ESlice (EVar "t4_aabbaabb") [SAll; SAll; SAll; SAll; SAll; SAll; SAll; SAll])]));
   (*L4619*) SAug true "quadruples_res" (EAdd (EAdd (EAdd (EScale (1 # 1) (EVar "contracted_intermediate")) (EScale (-1 # 1) (EEins "abcdijkl->abcdijlk" [(EVar "contracted_intermediate")]))) (EScale (-1 # 1) (EEins "abcdijkl->adcbijkl" [(EVar "contracted_intermediate")]))) (EScale (1 # 1) (EEins "abcdijkl->adcbijlk" [(EVar "contracted_intermediate")])));
   (*L4622*) SAssign "contracted_intermediate" (EScale (9999999999999 # 20000000000000) (EEins "nmef,bclm,afedijkn->abcdijkl" [(ESlice (EVar "g_bbbb") [SV "o"; SV "o"; SV "v"; SV "v"]); (EVar "t2_bbbb"); (ESlice (EVar "t4_abbbabbb") [SAll; SAll; SAll; SAll; SAll; SAll; SAll; SAll])]));
   (*L4623*) SAug true "quadruples_res" (EAdd (EAdd (EAdd (EScale (1 # 1) (EVar "contracted_intermediate")) (EScale (-1 # 1) (EEins "abcdijkl->abcdijlk" [(EVar "contracted_intermediate")]))) (EScale (-1 # 1) (EEins "abcdijkl->adcbijkl" [(EVar "contracted_intermediate")]))) (EScale (1 # 1) (EEins "abcdijkl->adcbijlk" [(EVar "contracted_intermediate")])));
   (*L4626*) SAssign "contracted_intermediate" (EScale (-9999999999999 # 20000000000000) (EEins "nmef,bcjm,eafdinlk->abcdijkl" [(ESlice (EVar "g_abab") [SV "o"; SV "o"; SV "v"; SV "v"]); (EVar "t2_bbbb"); (ESlice (EVar "t4_aabbaabb") [SAll; SAll; SAll; SAll; SAll; SAll; SAll; SAll])]));
   (*L4627*) SAug true "quadruples_res" (EAdd (EScale (1 # 1) (EVar "contracted_intermediate")) (EScale (-1 # 1) (EEins "abcdijkl->adcbijkl" [(EVar "contracted_intermediate")])));
   (*L4630*) SAssign "contracted_intermediate" (EScale (9999999999999 # 20000000000000) (EEins "nmfe,bcjm,afedinlk->abcdijkl" [(ESlice (EVar "g_abab") [SV "o"; SV "o"; SV "v"; SV "v"]); (EVar "t2_bbbb"); (ESlice (EVar "t4_aabbaabb") [SAll; SAll; SAll; SAll; SAll; SAll; SAll; SAll])]));
   (*L4631*) SAug true "quadruples_res" (EAdd (EScale (1 # 1) (EVar "contracted_intermediate")) (EScale (-1 # 1) (EEins "abcdijkl->adcbijkl" [(EVar "contracted_intermediate")])));
   (*L4634*) SAssign "contracted_intermediate" (EScale (9999999999999 # 20000000000000) (EEins "nmef,bcjm,afedikln->abcdijkl" [(ESlice (EVar "g_bbbb") [SV "o"; SV "o"; SV "v"; SV "v"]); (EVar "t2_bbbb"); (ESlice (EVar "t4_abbbabbb") [SAll; SAll; SAll; SAll; SAll; SAll; SAll; SAll])]));
   (*L4635*) SAug true "quadruples_res" (EAdd (EScale (1 # 1) (EVar "contracted_intermediate")) (EScale (-1 # 1) (EEins "abcdijkl->adcbijkl" [(EVar "contracted_intermediate")])));
   (*L4638*) SAssign "contracted_intermediate" (EScale (1 # 1) (EEins "nmkl,abim,cdjn->abcdijkl" [(ESlice (EVar "g_bbbb") [SV "o"; SV "o"; SV "o"; SV "o"]); (EVar "t2_abab"); (EVar "t2_bbbb")]));
   (*L4639*) SAug true "quadruples_res" (EAdd (EScale (1 # 1) (EVar "contracted_intermediate")) (EScale (-1 # 1) (EEins "abcdijkl->acbdijkl" [(EVar "contracted_intermediate")])));
   (*L4642*) SAug true "quadruples_res" (EScale (1 # 1) (EEins "nmkl,adim,bcjn->abcdijkl" [(ESlice (EVar "g_bbbb") [SV "o"; SV "o"; SV "o"; SV "o"]); (EVar "t2_abab"); (EVar "t2_bbbb")]));
   (*L4645*) SAssign "contracted_intermediate" (EScale (-1 # 1) (EEins "nmjl,abim,cdkn->abcdijkl" [(ESlice (EVar "g_bbbb") [SV "o"; SV "o"; SV "o"; SV "o"]); (EVar "t2_abab"); (EVar "t2_bbbb")]));
   (*L4646*) SAug true "quadruples_res" (EAdd (EScale (1 # 1) (EVar "contracted_intermediate")) (EScale (-1 # 1) (EEins "abcdijkl->acbdijkl" [(EVar "contracted_intermediate")])));
   (*L4649*) SAug true "quadruples_res" (EScale (-1 # 1) (EEins "nmjl,adim,bckn->abcdijkl" [(ESlice (EVar "g_bbbb") [SV "o"; SV "o"; SV "o"; SV "o"]); (EVar "t2_abab"); (EVar "t2_bbbb")]));
   (*L4652*) SAssign "contracted_intermediate" (EScale (-1 # 1) (EEins "mnil,abmk,cdjn->abcdijkl" [(ESlice (EVar "g_abab") [SV "o"; SV "o"; SV "o"; SV "o"]); (EVar "t2_abab"); (EVar "t2_bbbb")]));
   (*L4653*) SAug true "quadruples_res" (EAdd (EAdd (EAdd (EScale (1 # 1) (EVar "contracted_intermediate")) (EScale (-1 # 1) (EEins "abcdijkl->abcdikjl" [(EVar "contracted_intermediate")]))) (EScale (-1 # 1) (EEins "abcdijkl->acbdijkl" [(EVar "contracted_intermediate")]))) (EScale (1 # 1) (EEins "abcdijkl->acbdikjl" [(EVar "contracted_intermediate")])));
   (*L4656*) SAssign "contracted_intermediate" (EScale (-1 # 1) (EEins "mnil,admk,bcjn->abcdijkl" [(ESlice (EVar "g_abab") [SV "o"; SV "o"; SV "o"; SV "o"]); (EVar "t2_abab"); (EVar "t2_bbbb")]));
   (*L4657*) SAug true "quadruples_res" (EAdd (EScale (1 # 1) (EVar "contracted_intermediate")) (EScale (-1 # 1) (EEins "abcdijkl->abcdikjl" [(EVar "contracted_intermediate")])));
   (*L4660*) SAssign "contracted_intermediate" (EScale (1 # 1) (EEins "nmjk,abim,cdln->abcdijkl" [(ESlice (EVar "g_bbbb") [SV "o"; SV "o"; SV "o"; SV "o"]); (EVar "t2_abab"); (EVar "t2_bbbb")]));
   (*L4661*) SAug true "quadruples_res" (EAdd (EScale (1 # 1) (EVar "contracted_intermediate")) (EScale (-1 # 1) (EEins "abcdijkl->acbdijkl" [(EVar "contracted_intermediate")])));
   (*L4664*) SAug true "quadruples_res" (EScale (1 # 1) (EEins "nmjk,adim,bcln->abcdijkl" [(ESlice (EVar "g_bbbb") [SV "o"; SV "o"; SV "o"; SV "o"]); (EVar "t2_abab"); (EVar "t2_bbbb")]));
   (*L4667*) SAssign "contracted_intermediate" (EScale (1 # 1) (EEins "mnik,abml,cdjn->abcdijkl" [(ESlice (EVar "g_abab") [SV "o"; SV "o"; SV "o"; SV "o"]); (EVar "t2_abab"); (EVar "t2_bbbb")]));
   (*L4668*) SAug true "quadruples_res" (EAdd (EAdd (EAdd (EScale (1 # 1) (EVar "contracted_intermediate")) (EScale (-1 # 1) (EEins "abcdijkl->abcdilkj" [(EVar "contracted_intermediate")]))) (EScale (-1 # 1) (EEins "abcdijkl->acbdijkl" [(EVar "contracted_intermediate")]))) (EScale (1 # 1) (EEins "abcdijkl->acbdilkj" [(EVar "contracted_intermediate")])));
   (*L4671*) SAssign "contracted_intermediate" (EScale (1 # 1) (EEins "mnik,adml,bcjn->abcdijkl" [(ESlice (EVar "g_abab") [SV "o"; SV "o"; SV "o"; SV "o"]); (EVar "t2_abab"); (EVar "t2_bbbb")]));
   (*L4672*) SAug true "quadruples_res" (EAdd (EScale (1 # 1) (EVar "contracted_intermediate")) (EScale (-1 # 1) (EEins "abcdijkl->abcdilkj" [(EVar "contracted_intermediate")])));
   (*L4675*) SAssign "contracted_intermediate" (EScale (-1 # 1) (EEins "mnij,abml,cdkn->abcdijkl" [(ESlice (EVar "g_abab") [SV "o"; SV "o"; SV "o"; SV "o"]); (EVar "t2_abab"); (EVar "t2_bbbb")]));
   (*L4676*) SAug true "quadruples_res" (EAdd (EAdd (EAdd (EScale (1 # 1) (EVar "contracted_intermediate")) (EScale (-1 # 1) (EEins "abcdijkl->abcdijlk" [(EVar "contracted_intermediate")]))) (EScale (-1 # 1) (EEins "abcdijkl->acbdijkl" [(EVar "contracted_intermediate")]))) (EScale (1 # 1) (EEins "abcdijkl->acbdijlk" [(EVar "contracted_intermediate")])));
   (*L4679*) SAssign "contracted_intermediate" (EScale (-1 # 1) (EEins "mnij,adml,bckn->abcdijkl" [(ESlice (EVar "g_abab") [SV "o"; SV "o"; SV "o"; SV "o"]); (EVar "t2_abab"); (EVar "t2_bbbb")]));
   (*L4680*) SAug true "quadruples_res" (EAdd (EScale (1 # 1) (EVar "contracted_intermediate")) (EScale (-1 # 1) (EEins "abcdijkl->abcdijlk" [(EVar "contracted_intermediate")])));
   (*L4683*) SAssign "contracted_intermediate" (EScale (1 # 1) (EEins "amel,ebik,cdjm->abcdijkl" [(ESlice (EVar "g_abab") [SV "v"; SV "o"; SV "v"; SV "o"]); (EVar "t2_abab"); (EVar "t2_bbbb")]));
   (*L4684*) SAug true "quadruples_res" (EAdd (EScale (1 # 1) (EVar "contracted_intermediate")) (EScale (-1 # 1) (EEins "abcdijkl->acbdijkl" [(EVar "contracted_intermediate")])));
   (*L4687*) SAssign "contracted_intermediate" (EScale (-1 # 1) (EEins "amel,ebij,cdkm->abcdijkl" [(ESlice (EVar "g_abab") [SV "v"; SV "o"; SV "v"; SV "o"]); (EVar "t2_abab"); (EVar "t2_bbbb")]));
   (*L4688*) SAug true "quadruples_res" (EAdd (EAdd (EAdd (EScale (1 # 1) (EVar "contracted_intermediate")) (EScale (-1 # 1) (EEins "abcdijkl->abcdijlk" [(EVar "contracted_intermediate")]))) (EScale (-1 # 1) (EEins "abcdijkl->acbdijkl" [(EVar "contracted_intermediate")]))) (EScale (1 # 1) (EEins "abcdijkl->acbdijlk" [(EVar "contracted_intermediate")])));
   (*L4691*) SAug true "quadruples_res" (EScale (-1 # 1) (EEins "mbel,edjk,acim->abcdijkl" [(ESlice (EVar "g_bbbb") [SV "o"; SV "v"; SV "v"; SV "o"]); (EVar "t2_bbbb"); (EVar "t2_abab")]));
   (*L4694*) SAug true "quadruples_res" (EScale (1 # 1) (EEins "amel,edik,bcjm->abcdijkl" [(ESlice (EVar "g_abab") [SV "v"; SV "o"; SV "v"; SV "o"]); (EVar "t2_abab"); (EVar "t2_bbbb")]));
   (*L4697*) SAug true "quadruples_res" (EScale (-1 # 1) (EEins "mbel,edik,acmj->abcdijkl" [(ESlice (EVar "g_abab") [SV "o"; SV "v"; SV "v"; SV "o"]); (EVar "t2_abab"); (EVar "t2_abab")]));
   (*L4700*) SAssign "contracted_intermediate" (EScale (-1 # 1) (EEins "amel,edij,bckm->abcdijkl" [(ESlice (EVar "g_abab") [SV "v"; SV "o"; SV "v"; SV "o"]); (EVar "t2_abab"); (EVar "t2_bbbb")]));
   (*L4701*) SAug true "quadruples_res" (EAdd (EScale (1 # 1) (EVar "contracted_intermediate")) (EScale (-1 # 1) (EEins "abcdijkl->abcdijlk" [(EVar "contracted_intermediate")])));
   (*L4704*) SAssign "contracted_intermediate" (EScale (1 # 1) (EEins "mbel,edij,acmk->abcdijkl" [(ESlice (EVar "g_abab") [SV "o"; SV "v"; SV "v"; SV "o"]); (EVar "t2_abab"); (EVar "t2_abab")]));
   (*L4705*) SAug true "quadruples_res" (EAdd (EScale (1 # 1) (EVar "contracted_intermediate")) (EScale (-1 # 1) (EEins "abcdijkl->abcdijlk" [(EVar "contracted_intermediate")])));
   (*L4708*) SAssign "contracted_intermediate" (EScale (-1 # 1) (EEins "amek,ebil,cdjm->abcdijkl" [(ESlice (EVar "g_abab") [SV "v"; SV "o"; SV "v"; SV "o"]); (EVar "t2_abab"); (EVar "t2_bbbb")]));
   (*L4709*) SAug true "quadruples_res" (EAdd (EScale (1 # 1) (EVar "contracted_intermediate")) (EScale (-1 # 1) (EEins "abcdijkl->acbdijkl" [(EVar "contracted_intermediate")])));
   (*L4712*) SAug true "quadruples_res" (EScale (1 # 1) (EEins "mbek,edjl,acim->abcdijkl" [(ESlice (EVar "g_bbbb") [SV "o"; SV "v"; SV "v"; SV "o"]); (EVar "t2_bbbb"); (EVar "t2_abab")]));
   (*L4715*) SAug true "quadruples_res" (EScale (-1 # 1) (EEins "amek,edil,bcjm->abcdijkl" [(ESlice (EVar "g_abab") [SV "v"; SV "o"; SV "v"; SV "o"]); (EVar "t2_abab"); (EVar "t2_bbbb")]));
   (*L4718*) SAug true "quadruples_res" (EScale (1 # 1) (EEins "mbek,edil,acmj->abcdijkl" [(ESlice (EVar "g_abab") [SV "o"; SV "v"; SV "v"; SV "o"]); (EVar "t2_abab"); (EVar "t2_abab")]));
   (*L4721*) SAssign "contracted_intermediate" (EScale (1 # 1) (EEins "amej,ebil,cdkm->abcdijkl" [(ESlice (EVar "g_abab") [SV "v"; SV "o"; SV "v"; SV "o"]); (EVar "t2_abab"); (EVar "t2_bbbb")]));
   (*L4722*) SAug true "quadruples_res" (EAdd (EScale (1 # 1) (EVar "contracted_intermediate")) (EScale (-1 # 1) (EEins "abcdijkl->acbdijkl" [(EVar "contracted_intermediate")])));
   (*L4725*) SAssign "contracted_intermediate" (EScale (-1 # 1) (EEins "amej,ebik,cdlm->abcdijkl" [(ESlice (EVar "g_abab") [SV "v"; SV "o"; SV "v"; SV "o"]); (EVar "t2_abab"); (EVar "t2_bbbb")]));
   (*L4726*) SAug true "quadruples_res" (EAdd (EScale (1 # 1) (EVar "contracted_intermediate")) (EScale (-1 # 1) (EEins "abcdijkl->acbdijkl" [(EVar "contracted_intermediate")])));
   (*L4729*) SAssign "contracted_intermediate" (EScale (-1 # 1) (EEins "amie,ebjk,cdlm->abcdijkl" [(ESlice (EVar "g_abab") [SV "v"; SV "o"; SV "o"; SV "v"]); (EVar "t2_bbbb"); (EVar "t2_bbbb")]));
   (*L4730*) SAug true "quadruples_res" (EAdd (EScale (1 # 1) (EVar "contracted_intermediate")) (EScale (-1 # 1) (EEins "abcdijkl->acbdijkl" [(EVar "contracted_intermediate")])));
   (*L4733*) SAug true "quadruples_res" (EScale (-1 # 1) (EEins "mbej,edkl,acim->abcdijkl" [(ESlice (EVar "g_bbbb") [SV "o"; SV "v"; SV "v"; SV "o"]); (EVar "t2_bbbb"); (EVar "t2_abab")]));
   (*L4736*) SAug true "quadruples_res" (EScale (1 # 1) (EEins "amej,edil,bckm->abcdijkl" [(ESlice (EVar "g_abab") [SV "v"; SV "o"; SV "v"; SV "o"]); (EVar "t2_abab"); (EVar "t2_bbbb")]));
   (*L4739*) SAug true "quadruples_res" (EScale (-1 # 1) (EEins "mbej,edil,acmk->abcdijkl" [(ESlice (EVar "g_abab") [SV "o"; SV "v"; SV "v"; SV "o"]); (EVar "t2_abab"); (EVar "t2_abab")]));
   (*L4742*) SAug true "quadruples_res" (EScale (-1 # 1) (EEins "amej,edik,bclm->abcdijkl" [(ESlice (EVar "g_abab") [SV "v"; SV "o"; SV "v"; SV "o"]); (EVar "t2_abab"); (EVar "t2_bbbb")]));
   (*L4745*) SAug true "quadruples_res" (EScale (1 # 1) (EEins "mbej,edik,acml->abcdijkl" [(ESlice (EVar "g_abab") [SV "o"; SV "v"; SV "v"; SV "o"]); (EVar "t2_abab"); (EVar "t2_abab")]));
   (*L4748*) SAug true "quadruples_res" (EScale (-1 # 1) (EEins "amie,edjk,bclm->abcdijkl" [(ESlice (EVar "g_abab") [SV "v"; SV "o"; SV "o"; SV "v"]); (EVar "t2_bbbb"); (EVar "t2_bbbb")]));
   (*L4751*) SAug true "quadruples_res" (EScale (1 # 1) (EEins "mbie,edjk,acml->abcdijkl" [(ESlice (EVar "g_abab") [SV "o"; SV "v"; SV "o"; SV "v"]); (EVar "t2_bbbb"); (EVar "t2_abab")]));
   (*L4754*) SAssign "contracted_intermediate" (EScale (-1 # 1) (EEins "amie,ebkl,cdjm->abcdijkl" [(ESlice (EVar "g_abab") [SV "v"; SV "o"; SV "o"; SV "v"]); (EVar "t2_bbbb"); (EVar "t2_bbbb")]));
   (*L4755*) SAug true "quadruples_res" (EAdd (EAdd (EAdd (EScale (1 # 1) (EVar "contracted_intermediate")) (EScale (-1 # 1) (EEins "abcdijkl->abcdikjl" [(EVar "contracted_intermediate")]))) (EScale (-1 # 1) (EEins "abcdijkl->acbdijkl" [(EVar "contracted_intermediate")]))) (EScale (1 # 1) (EEins "abcdijkl->acbdikjl" [(EVar "contracted_intermediate")])));
   (*L4758*) SAssign "contracted_intermediate" (EScale (-1 # 1) (EEins "amie,edkl,bcjm->abcdijkl" [(ESlice (EVar "g_abab") [SV "v"; SV "o"; SV "o"; SV "v"]); (EVar "t2_bbbb"); (EVar "t2_bbbb")]));
   (*L4759*) SAug true "quadruples_res" (EAdd (EScale (1 # 1) (EVar "contracted_intermediate")) (EScale (-1 # 1) (EEins "abcdijkl->abcdikjl" [(EVar "contracted_intermediate")])));
   (*L4762*) SAssign "contracted_intermediate" (EScale (1 # 1) (EEins "mbie,edkl,acmj->abcdijkl" [(ESlice (EVar "g_abab") [SV "o"; SV "v"; SV "o"; SV "v"]); (EVar "t2_bbbb"); (EVar "t2_abab")]));
   (*L4763*) SAug true "quadruples_res" (EAdd (EScale (1 # 1) (EVar "contracted_intermediate")) (EScale (-1 # 1) (EEins "abcdijkl->abcdikjl" [(EVar "contracted_intermediate")])));
   (*L4766*) SAug true "quadruples_res" (EScale (1 # 1) (EEins "mbel,ecjk,adim->abcdijkl" [(ESlice (EVar "g_bbbb") [SV "o"; SV "v"; SV "v"; SV "o"]); (EVar "t2_bbbb"); (EVar "t2_abab")]));
   (*L4769*) SAug true "quadruples_res" (EScale (-1 # 1) (EEins "mbel,aeik,cdjm->abcdijkl" [(ESlice (EVar "g_bbbb") [SV "o"; SV "v"; SV "v"; SV "o"]); (EVar "t2_abab"); (EVar "t2_bbbb")]));
   (*L4772*) SAug true "quadruples_res" (EScale (1 # 1) (EEins "mbel,ecik,admj->abcdijkl" [(ESlice (EVar "g_abab") [SV "o"; SV "v"; SV "v"; SV "o"]); (EVar "t2_abab"); (EVar "t2_abab")]));
   (*L4775*) SAssign "contracted_intermediate" (EScale (1 # 1) (EEins "mbel,aeij,cdkm->abcdijkl" [(ESlice (EVar "g_bbbb") [SV "o"; SV "v"; SV "v"; SV "o"]); (EVar "t2_abab"); (EVar "t2_bbbb")]));
   (*L4776*) SAug true "quadruples_res" (EAdd (EScale (1 # 1) (EVar "contracted_intermediate")) (EScale (-1 # 1) (EEins "abcdijkl->abcdijlk" [(EVar "contracted_intermediate")])));
   (*L4779*) SAssign "contracted_intermediate" (EScale (-1 # 1) (EEins "mbel,ecij,admk->abcdijkl" [(ESlice (EVar "g_abab") [SV "o"; SV "v"; SV "v"; SV "o"]); (EVar "t2_abab"); (EVar "t2_abab")]));
   (*L4780*) SAug true "quadruples_res" (EAdd (EScale (1 # 1) (EVar "contracted_intermediate")) (EScale (-1 # 1) (EEins "abcdijkl->abcdijlk" [(EVar "contracted_intermediate")])));
   (*L4783*) SAug true "quadruples_res" (EScale (-1 # 1) (EEins "mbek,ecjl,adim->abcdijkl" [(ESlice (EVar "g_bbbb") [SV "o"; SV "v"; SV "v"; SV "o"]); (EVar "t2_bbbb"); (EVar "t2_abab")]));
   (*L4786*) SAug true "quadruples_res" (EScale (1 # 1) (EEins "mbek,aeil,cdjm->abcdijkl" [(ESlice (EVar "g_bbbb") [SV "o"; SV "v"; SV "v"; SV "o"]); (EVar "t2_abab"); (EVar "t2_bbbb")]));
   (*L4789*) SAug true "quadruples_res" (EScale (-1 # 1) (EEins "mbek,ecil,admj->abcdijkl" [(ESlice (EVar "g_abab") [SV "o"; SV "v"; SV "v"; SV "o"]); (EVar "t2_abab"); (EVar "t2_abab")]));
   (*L4792*) SAug true "quadruples_res" (EScale (1 # 1) (EEins "mbej,eckl,adim->abcdijkl" [(ESlice (EVar "g_bbbb") [SV "o"; SV "v"; SV "v"; SV "o"]); (EVar "t2_bbbb"); (EVar "t2_abab")]));
   (*L4795*) SAug true "quadruples_res" (EScale (-1 # 1) (EEins "mbej,aeil,cdkm->abcdijkl" [(ESlice (EVar "g_bbbb") [SV "o"; SV "v"; SV "v"; SV "o"]); (EVar "t2_abab"); (EVar "t2_bbbb")]));
   (*L4798*) SAug true "quadruples_res" (EScale (1 # 1) (EEins "mbej,ecil,admk->abcdijkl" [(ESlice (EVar "g_abab") [SV "o"; SV "v"; SV "v"; SV "o"]); (EVar "t2_abab"); (EVar "t2_abab")]));
   (*L4801*) SAug true "quadruples_res" (EScale (1 # 1) (EEins "mbej,aeik,cdlm->abcdijkl" [(ESlice (EVar "g_bbbb") [SV "o"; SV "v"; SV "v"; SV "o"]); (EVar "t2_abab"); (EVar "t2_bbbb")]));
   (*L4804*) SAug true "quadruples_res" (EScale (-1 # 1) (EEins "mbej,ecik,adml->abcdijkl" [(ESlice (EVar "g_abab") [SV "o"; SV "v"; SV "v"; SV "o"]); (EVar "t2_abab"); (EVar "t2_abab")]));
   (*L4807*) SAug true "quadruples_res" (EScale (-1 # 1) (EEins "mbie,ecjk,adml->abcdijkl" [(ESlice (EVar "g_abab") [SV "o"; SV "v"; SV "o"; SV "v"]); (EVar "t2_bbbb"); (EVar "t2_abab")]));
   (*L4810*) SAssign "contracted_intermediate" (EScale (-1 # 1) (EEins "mbie,eckl,admj->abcdijkl" [(ESlice (EVar "g_abab") [SV "o"; SV "v"; SV "o"; SV "v"]); (EVar "t2_bbbb"); (EVar "t2_abab")]));
   (*L4811*) SAug true "quadruples_res" (EAdd (EScale (1 # 1) (EVar "contracted_intermediate")) (EScale (-1 # 1) (EEins "abcdijkl->abcdikjl" [(EVar "contracted_intermediate")])));
   (*L4814*) SAug true "quadruples_res" (EScale (-1 # 1) (EEins "mcel,ebjk,adim->abcdijkl" [(ESlice (EVar "g_bbbb") [SV "o"; SV "v"; SV "v"; SV "o"]); (EVar "t2_bbbb"); (EVar "t2_abab")]));
   (*L4817*) SAug true "quadruples_res" (EScale (1 # 1) (EEins "mcel,aeik,bdjm->abcdijkl" [(ESlice (EVar "g_bbbb") [SV "o"; SV "v"; SV "v"; SV "o"]); (EVar "t2_abab"); (EVar "t2_bbbb")]));
   (*L4820*) SAug true "quadruples_res" (EScale (-1 # 1) (EEins "mcel,ebik,admj->abcdijkl" [(ESlice (EVar "g_abab") [SV "o"; SV "v"; SV "v"; SV "o"]); (EVar "t2_abab"); (EVar "t2_abab")]));
   (*L4823*) SAssign "contracted_intermediate" (EScale (-1 # 1) (EEins "mcel,aeij,bdkm->abcdijkl" [(ESlice (EVar "g_bbbb") [SV "o"; SV "v"; SV "v"; SV "o"]); (EVar "t2_abab"); (EVar "t2_bbbb")]));
   (*L4824*) SAug true "quadruples_res" (EAdd (EScale (1 # 1) (EVar "contracted_intermediate")) (EScale (-1 # 1) (EEins "abcdijkl->abcdijlk" [(EVar "contracted_intermediate")])));
   (*L4827*) SAssign "contracted_intermediate" (EScale (1 # 1) (EEins "mcel,ebij,admk->abcdijkl" [(ESlice (EVar "g_abab") [SV "o"; SV "v"; SV "v"; SV "o"]); (EVar "t2_abab"); (EVar "t2_abab")]));
   (*L4828*) SAug true "quadruples_res" (EAdd (EScale (1 # 1) (EVar "contracted_intermediate")) (EScale (-1 # 1) (EEins "abcdijkl->abcdijlk" [(EVar "contracted_intermediate")])));
   (*L4831*) SAssign "contracted_intermediate" (EScale (1 # 1) (EEins "mcel,edjk,abim->abcdijkl" [(ESlice (EVar "g_bbbb") [SV "o"; SV "v"; SV "v"; SV "o"]); (EVar "t2_bbbb"); (EVar "t2_abab")]));
   (*L4832*) SAug true "quadruples_res" (EAdd (EScale (1 # 1) (EVar "contracted_intermediate")) (EScale (-1 # 1) (EEins "abcdijkl->abdcijkl" [(EVar "contracted_intermediate")])));
   (*L4835*) SAssign "contracted_intermediate" (EScale (1 # 1) (EEins "mcel,edik,abmj->abcdijkl" [(ESlice (EVar "g_abab") [SV "o"; SV "v"; SV "v"; SV "o"]); (EVar "t2_abab"); (EVar "t2_abab")]));
   (*L4836*) SAug true "quadruples_res" (EAdd (EScale (1 # 1) (EVar "contracted_intermediate")) (EScale (-1 # 1) (EEins "abcdijkl->abdcijkl" [(EVar "contracted_intermediate")])));
   (*L4839*) SAssign "contracted_intermediate" (EScale (-1 # 1) (EEins "mcel,edij,abmk->abcdijkl" [(ESlice (EVar "g_abab") [SV "o"; SV "v"; SV "v"; SV "o"]); (EVar "t2_abab"); (EVar "t2_abab")]));
   (*L4840*) SAug true "quadruples_res" (EAdd (EAdd (EAdd (EScale (1 # 1) (EVar "contracted_intermediate")) (EScale (-1 # 1) (EEins "abcdijkl->abcdijlk" [(EVar "contracted_intermediate")]))) (EScale (-1 # 1) (EEins "abcdijkl->abdcijkl" [(EVar "contracted_intermediate")]))) (EScale (1 # 1) (EEins "abcdijkl->abdcijlk" [(EVar "contracted_intermediate")])));
   (*L4843*) SAug true "quadruples_res" (EScale (1 # 1) (EEins "mcek,ebjl,adim->abcdijkl" [(ESlice (EVar "g_bbbb") [SV "o"; SV "v"; SV "v"; SV "o"]); (EVar "t2_bbbb"); (EVar "t2_abab")]));
   (*L4846*) SAug true "quadruples_res" (EScale (-1 # 1) (EEins "mcek,aeil,bdjm->abcdijkl" [(ESlice (EVar "g_bbbb") [SV "o"; SV "v"; SV "v"; SV "o"]); (EVar "t2_abab"); (EVar "t2_bbbb")]));
   (*L4849*) SAug true "quadruples_res" (EScale (1 # 1) (EEins "mcek,ebil,admj->abcdijkl" [(ESlice (EVar "g_abab") [SV "o"; SV "v"; SV "v"; SV "o"]); (EVar "t2_abab"); (EVar "t2_abab")]));
   (*L4852*) SAssign "contracted_intermediate" (EScale (-1 # 1) (EEins "mcek,edjl,abim->abcdijkl" [(ESlice (EVar "g_bbbb") [SV "o"; SV "v"; SV "v"; SV "o"]); (EVar "t2_bbbb"); (EVar "t2_abab")]));
   (*L4853*) SAug true "quadruples_res" (EAdd (EScale (1 # 1) (EVar "contracted_intermediate")) (EScale (-1 # 1) (EEins "abcdijkl->abdcijkl" [(EVar "contracted_intermediate")])));
   (*L4856*) SAssign "contracted_intermediate" (EScale (-1 # 1) (EEins "mcek,edil,abmj->abcdijkl" [(ESlice (EVar "g_abab") [SV "o"; SV "v"; SV "v"; SV "o"]); (EVar "t2_abab"); (EVar "t2_abab")]));
   (*L4857*) SAug true "quadruples_res" (EAdd (EScale (1 # 1) (EVar "contracted_intermediate")) (EScale (-1 # 1) (EEins "abcdijkl->abdcijkl" [(EVar "contracted_intermediate")])));
   (*L4860*) SAug true "quadruples_res" (EScale (-1 # 1) (EEins "mcej,ebkl,adim->abcdijkl" [(ESlice (EVar "g_bbbb") [SV "o"; SV "v"; SV "v"; SV "o"]); (EVar "t2_bbbb"); (EVar "t2_abab")]));
   (*L4863*) SAug true "quadruples_res" (EScale (1 # 1) (EEins "mcej,aeil,bdkm->abcdijkl" [(ESlice (EVar "g_bbbb") [SV "o"; SV "v"; SV "v"; SV "o"]); (EVar "t2_abab"); (EVar "t2_bbbb")]));
   (*L4866*) SAug true "quadruples_res" (EScale (-1 # 1) (EEins "mcej,ebil,admk->abcdijkl" [(ESlice (EVar "g_abab") [SV "o"; SV "v"; SV "v"; SV "o"]); (EVar "t2_abab"); (EVar "t2_abab")]));
   (*L4869*) SAug true "quadruples_res" (EScale (-1 # 1) (EEins "mcej,aeik,bdlm->abcdijkl" [(ESlice (EVar "g_bbbb") [SV "o"; SV "v"; SV "v"; SV "o"]); (EVar "t2_abab"); (EVar "t2_bbbb")]));
   (*L4872*) SAug true "quadruples_res" (EScale (1 # 1) (EEins "mcej,ebik,adml->abcdijkl" [(ESlice (EVar "g_abab") [SV "o"; SV "v"; SV "v"; SV "o"]); (EVar "t2_abab"); (EVar "t2_abab")]));
   (*L4875*) SAug true "quadruples_res" (EScale (1 # 1) (EEins "mcie,ebjk,adml->abcdijkl" [(ESlice (EVar "g_abab") [SV "o"; SV "v"; SV "o"; SV "v"]); (EVar "t2_bbbb"); (EVar "t2_abab")]));
   (*L4878*) SAssign "contracted_intermediate" (EScale (1 # 1) (EEins "mcej,edkl,abim->abcdijkl" [(ESlice (EVar "g_bbbb") [SV "o"; SV "v"; SV "v"; SV "o"]); (EVar "t2_bbbb"); (EVar "t2_abab")]));
   (*L4879*) SAug true "quadruples_res" (EAdd (EScale (1 # 1) (EVar "contracted_intermediate")) (EScale (-1 # 1) (EEins "abcdijkl->abdcijkl" [(EVar "contracted_intermediate")])));
   (*L4882*) SAssign "contracted_intermediate" (EScale (1 # 1) (EEins "mcej,edil,abmk->abcdijkl" [(ESlice (EVar "g_abab") [SV "o"; SV "v"; SV "v"; SV "o"]); (EVar "t2_abab"); (EVar "t2_abab")]));
   (*L4883*) SAug true "quadruples_res" (EAdd (EScale (1 # 1) (EVar "contracted_intermediate")) (EScale (-1 # 1) (EEins "abcdijkl->abdcijkl" [(EVar "contracted_intermediate")])));
   (*L4886*) SAssign "contracted_intermediate" (EScale (-1 # 1) (EEins "mcej,edik,abml->abcdijkl" [(ESlice (EVar "g_abab") [SV "o"; SV "v"; SV "v"; SV "o"]); (EVar "t2_abab"); (EVar "t2_abab")]));
   (*L4887*) SAug true "quadruples_res" (EAdd (EScale (1 # 1) (EVar "contracted_intermediate")) (EScale (-1 # 1) (EEins "abcdijkl->abdcijkl" [(EVar "contracted_intermediate")])));
   (*L4890*) SAssign "contracted_intermediate" (EScale (-1 # 1) (EEins "mcie,edjk,abml->abcdijkl" [(ESlice (EVar "g_abab") [SV "o"; SV "v"; SV "o"; SV "v"]); (EVar "t2_bbbb"); (EVar "t2_abab")]));
   (*L4891*) SAug true "quadruples_res" (EAdd (EScale (1 # 1) (EVar "contracted_intermediate")) (EScale (-1 # 1) (EEins "abcdijkl->abdcijkl" [(EVar "contracted_intermediate")])));
   (*L4894*) SAssign "contracted_intermediate" (EScale (1 # 1) (EEins "mcie,ebkl,admj->abcdijkl" [(ESlice (EVar "g_abab") [SV "o"; SV "v"; SV "o"; SV "v"]); (EVar "t2_bbbb"); (EVar "t2_abab")]));
   (*L4895*) SAug true "quadruples_res" (EAdd (EScale (1 # 1) (EVar "contracted_intermediate")) (EScale (-1 # 1) (EEins "abcdijkl->abcdikjl" [(EVar "contracted_intermediate")])));
   (*L4898*) SAssign "contracted_intermediate" (EScale (-1 # 1) (EEins "mcie,edkl,abmj->abcdijkl" [(ESlice (EVar "g_abab") [SV "o"; SV "v"; SV "o"; SV "v"]); (EVar "t2_bbbb"); (EVar "t2_abab")]));
   (*L4899*) SAug true "quadruples_res" (EAdd (EAdd (EAdd (EScale (1 # 1) (EVar "contracted_intermediate")) (EScale (-1 # 1) (EEins "abcdijkl->abcdikjl" [(EVar "contracted_intermediate")]))) (EScale (-1 # 1) (EEins "abcdijkl->abdcijkl" [(EVar "contracted_intermediate")]))) (EScale (1 # 1) (EEins "abcdijkl->abdcikjl" [(EVar "contracted_intermediate")])));
   (*L4902*) SAug true "quadruples_res" (EScale (1 # 1) (EEins "mdel,ebjk,acim->abcdijkl" [(ESlice (EVar "g_bbbb") [SV "o"; SV "v"; SV "v"; SV "o"]); (EVar "t2_bbbb"); (EVar "t2_abab")]));
   (*L4905*) SAug true "quadruples_res" (EScale (-1 # 1) (EEins "mdel,aeik,bcjm->abcdijkl" [(ESlice (EVar "g_bbbb") [SV "o"; SV "v"; SV "v"; SV "o"]); (EVar "t2_abab"); (EVar "t2_bbbb")]));
   (*L4908*) SAug true "quadruples_res" (EScale (1 # 1) (EEins "mdel,ebik,acmj->abcdijkl" [(ESlice (EVar "g_abab") [SV "o"; SV "v"; SV "v"; SV "o"]); (EVar "t2_abab"); (EVar "t2_abab")]));
   (*L4911*) SAssign "contracted_intermediate" (EScale (1 # 1) (EEins "mdel,aeij,bckm->abcdijkl" [(ESlice (EVar "g_bbbb") [SV "o"; SV "v"; SV "v"; SV "o"]); (EVar "t2_abab"); (EVar "t2_bbbb")]));
   (*L4912*) SAug true "quadruples_res" (EAdd (EScale (1 # 1) (EVar "contracted_intermediate")) (EScale (-1 # 1) (EEins "abcdijkl->abcdijlk" [(EVar "contracted_intermediate")])));
   (*L4915*) SAssign "contracted_intermediate" (EScale (-1 # 1) (EEins "mdel,ebij,acmk->abcdijkl" [(ESlice (EVar "g_abab") [SV "o"; SV "v"; SV "v"; SV "o"]); (EVar "t2_abab"); (EVar "t2_abab")]));
   (*L4916*) SAug true "quadruples_res" (EAdd (EScale (1 # 1) (EVar "contracted_intermediate")) (EScale (-1 # 1) (EEins "abcdijkl->abcdijlk" [(EVar "contracted_intermediate")])));
   (*L4919*) SAug true "quadruples_res" (EScale (-1 # 1) (EEins "mdek,ebjl,acim->abcdijkl" [(ESlice (EVar "g_bbbb") [SV "o"; SV "v"; SV "v"; SV "o"]); (EVar "t2_bbbb"); (EVar "t2_abab")]));
   (*L4922*) SAug true "quadruples_res" (EScale (1 # 1) (EEins "mdek,aeil,bcjm->abcdijkl" [(ESlice (EVar "g_bbbb") [SV "o"; SV "v"; SV "v"; SV "o"]); (EVar "t2_abab"); (EVar "t2_bbbb")]));
   (*L4925*) SAug true "quadruples_res" (EScale (-1 # 1) (EEins "mdek,ebil,acmj->abcdijkl" [(ESlice (EVar "g_abab") [SV "o"; SV "v"; SV "v"; SV "o"]); (EVar "t2_abab"); (EVar "t2_abab")]));
   (*L4928*) SAug true "quadruples_res" (EScale (1 # 1) (EEins "mdej,ebkl,acim->abcdijkl" [(ESlice (EVar "g_bbbb") [SV "o"; SV "v"; SV "v"; SV "o"]); (EVar "t2_bbbb"); (EVar "t2_abab")]));
   (*L4931*) SAug true "quadruples_res" (EScale (-1 # 1) (EEins "mdej,aeil,bckm->abcdijkl" [(ESlice (EVar "g_bbbb") [SV "o"; SV "v"; SV "v"; SV "o"]); (EVar "t2_abab"); (EVar "t2_bbbb")]));
   (*L4934*) SAug true "quadruples_res" (EScale (1 # 1) (EEins "mdej,ebil,acmk->abcdijkl" [(ESlice (EVar "g_abab") [SV "o"; SV "v"; SV "v"; SV "o"]); (EVar "t2_abab"); (EVar "t2_abab")]));
   (*L4937*) SAug true "quadruples_res" (EScale (1 # 1) (EEins "mdej,aeik,bclm->abcdijkl" [(ESlice (EVar "g_bbbb") [SV "o"; SV "v"; SV "v"; SV "o"]); (EVar "t2_abab"); (EVar "t2_bbbb")]));
   (*L4940*) SAug true "quadruples_res" (EScale (-1 # 1) (EEins "mdej,ebik,acml->abcdijkl" [(ESlice (EVar "g_abab") [SV "o"; SV "v"; SV "v"; SV "o"]); (EVar "t2_abab"); (EVar "t2_abab")]));
   (*L4943*) SAug true "quadruples_res" (EScale (-1 # 1) (EEins "mdie,ebjk,acml->abcdijkl" [(ESlice (EVar "g_abab") [SV "o"; SV "v"; SV "o"; SV "v"]); (EVar "t2_bbbb"); (EVar "t2_abab")]));
   (*L4946*) SAssign "contracted_intermediate" (EScale (-1 # 1) (EEins "mdie,ebkl,acmj->abcdijkl" [(ESlice (EVar "g_abab") [SV "o"; SV "v"; SV "o"; SV "v"]); (EVar "t2_bbbb"); (EVar "t2_abab")]));
   (*L4947*) SAug true "quadruples_res" (EAdd (EScale (1 # 1) (EVar "contracted_intermediate")) (EScale (-1 # 1) (EEins "abcdijkl->abcdikjl" [(EVar "contracted_intermediate")])));
   (*L4950*) SAssign "contracted_intermediate" (EScale (1 # 1) (EEins "abfe,eckl,fdij->abcdijkl" [(ESlice (EVar "g_abab") [SV "v"; SV "v"; SV "v"; SV "v"]); (EVar "t2_bbbb"); (EVar "t2_abab")]));
   (*L4951*) SAug true "quadruples_res" (EAdd (EAdd (EAdd (EScale (1 # 1) (EVar "contracted_intermediate")) (EScale (-1 # 1) (EEins "abcdijkl->abcdikjl" [(EVar "contracted_intermediate")]))) (EScale (-1 # 1) (EEins "abcdijkl->acbdijkl" [(EVar "contracted_intermediate")]))) (EScale (1 # 1) (EEins "abcdijkl->acbdikjl" [(EVar "contracted_intermediate")])));
   (*L4954*) SAssign "contracted_intermediate" (EScale (-1 # 1) (EEins "abef,ecil,fdjk->abcdijkl" [(ESlice (EVar "g_abab") [SV "v"; SV "v"; SV "v"; SV "v"]); (EVar "t2_abab"); (EVar "t2_bbbb")]));
   (*L4955*) SAug true "quadruples_res" (EAdd (EAdd (EAdd (EScale (1 # 1) (EVar "contracted_intermediate")) (EScale (-1 # 1) (EEins "abcdijkl->abcdijlk" [(EVar "contracted_intermediate")]))) (EScale (-1 # 1) (EEins "abcdijkl->acbdijkl" [(EVar "contracted_intermediate")]))) (EScale (1 # 1) (EEins "abcdijkl->acbdijlk" [(EVar "contracted_intermediate")])));
   (*L4958*) SAssign "contracted_intermediate" (EScale (1 # 1) (EEins "abfe,ecjk,fdil->abcdijkl" [(ESlice (EVar "g_abab") [SV "v"; SV "v"; SV "v"; SV "v"]); (EVar "t2_bbbb"); (EVar "t2_abab")]));
   (*L4959*) SAug true "quadruples_res" (EAdd (EScale (1 # 1) (EVar "contracted_intermediate")) (EScale (-1 # 1) (EEins "abcdijkl->acbdijkl" [(EVar "contracted_intermediate")])));
   (*L4962*) SAssign "contracted_intermediate" (EScale (-1 # 1) (EEins "abef,ecij,fdkl->abcdijkl" [(ESlice (EVar "g_abab") [SV "v"; SV "v"; SV "v"; SV "v"]); (EVar "t2_abab"); (EVar "t2_bbbb")]));
   (*L4963*) SAug true "quadruples_res" (EAdd (EScale (1 # 1) (EVar "contracted_intermediate")) (EScale (-1 # 1) (EEins "abcdijkl->acbdijkl" [(EVar "contracted_intermediate")])));
   (*L4966*) SAssign "contracted_intermediate" (EScale (1 # 1) (EEins "adfe,ebkl,fcij->abcdijkl" [(ESlice (EVar "g_abab") [SV "v"; SV "v"; SV "v"; SV "v"]); (EVar "t2_bbbb"); (EVar "t2_abab")]));
   (*L4967*) SAug true "quadruples_res" (EAdd (EScale (1 # 1) (EVar "contracted_intermediate")) (EScale (-1 # 1) (EEins "abcdijkl->abcdikjl" [(EVar "contracted_intermediate")])));
   (*L4970*) SAssign "contracted_intermediate" (EScale (-1 # 1) (EEins "adef,ebil,fcjk->abcdijkl" [(ESlice (EVar "g_abab") [SV "v"; SV "v"; SV "v"; SV "v"]); (EVar "t2_abab"); (EVar "t2_bbbb")]));
   (*L4971*) SAug true "quadruples_res" (EAdd (EScale (1 # 1) (EVar "contracted_intermediate")) (EScale (-1 # 1) (EEins "abcdijkl->abcdijlk" [(EVar "contracted_intermediate")])));
   (*L4974*) SAssign "contracted_intermediate" (EScale (-1 # 1) (EEins "bdef,aeil,fcjk->abcdijkl" [(ESlice (EVar "g_bbbb") [SV "v"; SV "v"; SV "v"; SV "v"]); (EVar "t2_abab"); (EVar "t2_bbbb")]));
   (*L4975*) SAug true "quadruples_res" (EAdd (EScale (1 # 1) (EVar "contracted_intermediate")) (EScale (-1 # 1) (EEins "abcdijkl->abcdijlk" [(EVar "contracted_intermediate")])));
   (*L4978*) SAug true "quadruples_res" (EScale (1 # 1) (EEins "adfe,ebjk,fcil->abcdijkl" [(ESlice (EVar "g_abab") [SV "v"; SV "v"; SV "v"; SV "v"]); (EVar "t2_bbbb"); (EVar "t2_abab")]));
   (*L4981*) SAug true "quadruples_res" (EScale (-1 # 1) (EEins "adef,ebij,fckl->abcdijkl" [(ESlice (EVar "g_abab") [SV "v"; SV "v"; SV "v"; SV "v"]); (EVar "t2_abab"); (EVar "t2_bbbb")]));
   (*L4984*) SAug true "quadruples_res" (EScale (-1 # 1) (EEins "bdef,aeij,fckl->abcdijkl" [(ESlice (EVar "g_bbbb") [SV "v"; SV "v"; SV "v"; SV "v"]); (EVar "t2_abab"); (EVar "t2_bbbb")]));
   (*L4987*) SAssign "contracted_intermediate" (EScale (1 # 1) (EEins "bcef,aeil,fdjk->abcdijkl" [(ESlice (EVar "g_bbbb") [SV "v"; SV "v"; SV "v"; SV "v"]); (EVar "t2_abab"); (EVar "t2_bbbb")]));
   (*L4988*) SAug true "quadruples_res" (EAdd (EAdd (EAdd (EScale (1 # 1) (EVar "contracted_intermediate")) (EScale (-1 # 1) (EEins "abcdijkl->abcdijlk" [(EVar "contracted_intermediate")]))) (EScale (-1 # 1) (EEins "abcdijkl->adcbijkl" [(EVar "contracted_intermediate")]))) (EScale (1 # 1) (EEins "abcdijkl->adcbijlk" [(EVar "contracted_intermediate")])));
   (*L4991*) SAssign "contracted_intermediate" (EScale (1 # 1) (EEins "bcef,aeij,fdkl->abcdijkl" [(ESlice (EVar "g_bbbb") [SV "v"; SV "v"; SV "v"; SV "v"]); (EVar "t2_abab"); (EVar "t2_bbbb")]));
   (*L4992*) SAug true "quadruples_res" (EAdd (EScale (1 # 1) (EVar "contracted_intermediate")) (EScale (-1 # 1) (EEins "abcdijkl->adcbijkl" [(EVar "contracted_intermediate")])));
   (*L4995*) SAssign "contracted_intermediate" (EScale (1 # 2) (EEins "nmef,efkl,abim,cdjn->abcdijkl" [(ESlice (EVar "g_bbbb") [SV "o"; SV "o"; SV "v"; SV "v"]); (EVar "t2_bbbb"); (EVar "t2_abab"); (EVar "t2_bbbb")]));
   (*L4996*) SAug true "quadruples_res" (EAdd (EScale (1 # 1) (EVar "contracted_intermediate")) (EScale (-1 # 1) (EEins "abcdijkl->acbdijkl" [(EVar "contracted_intermediate")])));
   (*L4999*) SAug true "quadruples_res" (EScale (1 # 2) (EEins "nmef,efkl,adim,bcjn->abcdijkl" [(ESlice (EVar "g_bbbb") [SV "o"; SV "o"; SV "v"; SV "v"]); (EVar "t2_bbbb"); (EVar "t2_abab"); (EVar "t2_bbbb")]));
   (*L5002*) SAssign "contracted_intermediate" (EScale (-1 # 2) (EEins "nmef,efjl,abim,cdkn->abcdijkl" [(ESlice (EVar "g_bbbb") [SV "o"; SV "o"; SV "v"; SV "v"]); (EVar "t2_bbbb"); (EVar "t2_abab"); (EVar "t2_bbbb")]));
   (*L5003*) SAug true "quadruples_res" (EAdd (EScale (1 # 1) (EVar "contracted_intermediate")) (EScale (-1 # 1) (EEins "abcdijkl->acbdijkl" [(EVar "contracted_intermediate")])));
   (*L5006*) SAug true "quadruples_res" (EScale (-1 # 2) (EEins "nmef,efjl,adim,bckn->abcdijkl" [(ESlice (EVar "g_bbbb") [SV "o"; SV "o"; SV "v"; SV "v"]); (EVar "t2_bbbb"); (EVar "t2_abab"); (EVar "t2_bbbb")]));
   (*L5009*) SAssign "contracted_intermediate" (EScale (-1 # 2) (EEins "mnef,efil,abmk,cdjn->abcdijkl" [(ESlice (EVar "g_abab") [SV "o"; SV "o"; SV "v"; SV "v"]); (EVar "t2_abab"); (EVar "t2_abab"); (EVar "t2_bbbb")]));
   (*L5010*) SAug true "quadruples_res" (EAdd (EAdd (EAdd (EScale (1 # 1) (EVar "contracted_intermediate")) (EScale (-1 # 1) (EEins "abcdijkl->abcdikjl" [(EVar "contracted_intermediate")]))) (EScale (-1 # 1) (EEins "abcdijkl->acbdijkl" [(EVar "contracted_intermediate")]))) (EScale (1 # 1) (EEins "abcdijkl->acbdikjl" [(EVar "contracted_intermediate")])));
   (*L5013*) SAssign "contracted_intermediate" (EScale (-1 # 2) (EEins "mnfe,feil,abmk,cdjn->abcdijkl" [(ESlice (EVar "g_abab") [SV "o"; SV "o"; SV "v"; SV "v"]); (EVar "t2_abab"); (EVar "t2_abab"); (EVar "t2_bbbb")]));
   (*L5014*) SAug true "quadruples_res" (EAdd (EAdd (EAdd (EScale (1 # 1) (EVar "contracted_intermediate")) (EScale (-1 # 1) (EEins "abcdijkl->abcdikjl" [(EVar "contracted_intermediate")]))) (EScale (-1 # 1) (EEins "abcdijkl->acbdijkl" [(EVar "contracted_intermediate")]))) (EScale (1 # 1) (EEins "abcdijkl->acbdikjl" [(EVar "contracted_intermediate")])));
   (*L5017*) SAssign "contracted_intermediate" (EScale (-1 # 2) (EEins "mnef,efil,admk,bcjn->abcdijkl" [(ESlice (EVar "g_abab") [SV "o"; SV "o"; SV "v"; SV "v"]); (EVar "t2_abab"); (EVar "t2_abab"); (EVar "t2_bbbb")]));
   (*L5018*) SAug true "quadruples_res" (EAdd (EScale (1 # 1) (EVar "contracted_intermediate")) (EScale (-1 # 1) (EEins "abcdijkl->abcdikjl" [(EVar "contracted_intermediate")])));
   (*L5021*) SAssign "contracted_intermediate" (EScale (-1 # 2) (EEins "mnfe,feil,admk,bcjn->abcdijkl" [(ESlice (EVar "g_abab") [SV "o"; SV "o"; SV "v"; SV "v"]); (EVar "t2_abab"); (EVar "t2_abab"); (EVar "t2_bbbb")]));
   (*L5022*) SAug true "quadruples_res" (EAdd (EScale (1 # 1) (EVar "contracted_intermediate")) (EScale (-1 # 1) (EEins "abcdijkl->abcdikjl" [(EVar "contracted_intermediate")])));
   (*L5025*) SAssign "contracted_intermediate" (EScale (1 # 2) (EEins "nmef,efjk,abim,cdln->abcdijkl" [(ESlice (EVar "g_bbbb") [SV "o"; SV "o"; SV "v"; SV "v"]); (EVar "t2_bbbb"); (EVar "t2_abab"); (EVar "t2_bbbb")]));
   (*L5026*) SAug true "quadruples_res" (EAdd (EScale (1 # 1) (EVar "contracted_intermediate")) (EScale (-1 # 1) (EEins "abcdijkl->acbdijkl" [(EVar "contracted_intermediate")])));
   (*L5029*) SAug true "quadruples_res" (EScale (1 # 2) (EEins "nmef,efjk,adim,bcln->abcdijkl" [(ESlice (EVar "g_bbbb") [SV "o"; SV "o"; SV "v"; SV "v"]); (EVar "t2_bbbb"); (EVar "t2_abab"); (EVar "t2_bbbb")]));
   (*L5032*) SAssign "contracted_intermediate" (EScale (1 # 2) (EEins "mnef,efik,abml,cdjn->abcdijkl" [(ESlice (EVar "g_abab") [SV "o"; SV "o"; SV "v"; SV "v"]); (EVar "t2_abab"); (EVar "t2_abab"); (EVar "t2_bbbb")]));
   (*L5033*) SAug true "quadruples_res" (EAdd (EAdd (EAdd (EScale (1 # 1) (EVar "contracted_intermediate")) (EScale (-1 # 1) (EEins "abcdijkl->abcdilkj" [(EVar "contracted_intermediate")]))) (EScale (-1 # 1) (EEins "abcdijkl->acbdijkl" [(EVar "contracted_intermediate")]))) (EScale (1 # 1) (EEins "abcdijkl->acbdilkj" [(EVar "contracted_intermediate")])));
   (*L5036*) SAssign "contracted_intermediate" (EScale (1 # 2) (EEins "mnfe,feik,abml,cdjn->abcdijkl" [(ESlice (EVar "g_abab") [SV "o"; SV "o"; SV "v"; SV "v"]); (EVar "t2_abab"); (EVar "t2_abab"); (EVar "t2_bbbb")]));
   (*L5037*) SAug true "quadruples_res" (EAdd (EAdd (EAdd (EScale (1 # 1) (EVar "contracted_intermediate")) (EScale (-1 # 1) (EEins "abcdijkl->abcdilkj" [(EVar "contracted_intermediate")]))) (EScale (-1 # 1) (EEins "abcdijkl->acbdijkl" [(EVar "contracted_intermediate")]))) (EScale (1 # 1) (EEins "abcdijkl->acbdilkj" [(EVar "contracted_intermediate")])));
   (*L5040*) SAssign "contracted_intermediate" (EScale (1 # 2) (EEins "mnef,efik,adml,bcjn->abcdijkl" [(ESlice (EVar "g_abab") [SV "o"; SV "o"; SV "v"; SV "v"]); (EVar "t2_abab"); (EVar "t2_abab"); (EVar "t2_bbbb")]));
   (*L5041*) SAug true "quadruples_res" (EAdd (EScale (1 # 1) (EVar "contracted_intermediate")) (EScale (-1 # 1) (EEins "abcdijkl->abcdilkj" [(EVar "contracted_intermediate")])));
   (*L5044*) SAssign "contracted_intermediate" (EScale (1 # 2) (EEins "mnfe,feik,adml,bcjn->abcdijkl" [(ESlice (EVar "g_abab") [SV "o"; SV "o"; SV "v"; SV "v"]); (EVar "t2_abab"); (EVar "t2_abab"); (EVar "t2_bbbb")]));
   (*L5045*) SAug true "quadruples_res" (EAdd (EScale (1 # 1) (EVar "contracted_intermediate")) (EScale (-1 # 1) (EEins "abcdijkl->abcdilkj" [(EVar "contracted_intermediate")])));
   (*L5048*) SAssign "contracted_intermediate" (EScale (-1 # 2) (EEins "mnef,efij,abml,cdkn->abcdijkl" [(ESlice (EVar "g_abab") [SV "o"; SV "o"; SV "v"; SV "v"]); (EVar "t2_abab"); (EVar "t2_abab"); (EVar "t2_bbbb")]));
   (*L5049*) SAug true "quadruples_res" (EAdd (EAdd (EAdd (EScale (1 # 1) (EVar "contracted_intermediate")) (EScale (-1 # 1) (EEins "abcdijkl->abcdijlk" [(EVar "contracted_intermediate")]))) (EScale (-1 # 1) (EEins "abcdijkl->acbdijkl" [(EVar "contracted_intermediate")]))) (EScale (1 # 1) (EEins "abcdijkl->acbdijlk" [(EVar "contracted_intermediate")])));
   (*L5052*) SAssign "contracted_intermediate" (EScale (-1 # 2) (EEins "mnfe,feij,abml,cdkn->abcdijkl" [(ESlice (EVar "g_abab") [SV "o"; SV "o"; SV "v"; SV "v"]); (EVar "t2_abab"); (EVar "t2_abab"); (EVar "t2_bbbb")]));
   (*L5053*) SAug true "quadruples_res" (EAdd (EAdd (EAdd (EScale (1 # 1) (EVar "contracted_intermediate")) (EScale (-1 # 1) (EEins "abcdijkl->abcdijlk" [(EVar "contracted_intermediate")]))) (EScale (-1 # 1) (EEins "abcdijkl->acbdijkl" [(EVar "contracted_intermediate")]))) (EScale (1 # 1) (EEins "abcdijkl->acbdijlk" [(EVar "contracted_intermediate")])));
   (*L5056*) SAssign "contracted_intermediate" (EScale (-1 # 2) (EEins "mnef,efij,adml,bckn->abcdijkl" [(ESlice (EVar "g_abab") [SV "o"; SV "o"; SV "v"; SV "v"]); (EVar "t2_abab"); (EVar "t2_abab"); (EVar "t2_bbbb")]));
   (*L5057*) SAug true "quadruples_res" (EAdd (EScale (1 # 1) (EVar "contracted_intermediate")) (EScale (-1 # 1) (EEins "abcdijkl->abcdijlk" [(EVar "contracted_intermediate")])));
   (*L5060*) SAssign "contracted_intermediate" (EScale (-1 # 2) (EEins "mnfe,feij,adml,bckn->abcdijkl" [(ESlice (EVar "g_abab") [SV "o"; SV "o"; SV "v"; SV "v"]); (EVar "t2_abab"); (EVar "t2_abab"); (EVar "t2_bbbb")]));
   (*L5061*) SAug true "quadruples_res" (EAdd (EScale (1 # 1) (EVar "contracted_intermediate")) (EScale (-1 # 1) (EEins "abcdijkl->abcdijlk" [(EVar "contracted_intermediate")])));
   (*L5064*) SAssign "contracted_intermediate" (EScale (-1 # 1) (EEins "mnfe,aeml,fbik,cdjn->abcdijkl" [(ESlice (EVar "g_abab") [SV "o"; SV "o"; SV "v"; SV "v"]); (EVar "t2_abab"); (EVar "t2_abab"); (EVar "t2_bbbb")]));
   (*L5065*) SAug true "quadruples_res" (EAdd (EScale (1 # 1) (EVar "contracted_intermediate")) (EScale (-1 # 1) (EEins "abcdijkl->acbdijkl" [(EVar "contracted_intermediate")])));
   (*L5068*) SAssign "contracted_intermediate" (EScale (1 # 1) (EEins "mnfe,aeml,fbij,cdkn->abcdijkl" [(ESlice (EVar "g_abab") [SV "o"; SV "o"; SV "v"; SV "v"]); (EVar "t2_abab"); (EVar "t2_abab"); (EVar "t2_bbbb")]));
   (*L5069*) SAug true "quadruples_res" (EAdd (EAdd (EAdd (EScale (1 # 1) (EVar "contracted_intermediate")) (EScale (-1 # 1) (EEins "abcdijkl->abcdijlk" [(EVar "contracted_intermediate")]))) (EScale (-1 # 1) (EEins "abcdijkl->acbdijkl" [(EVar "contracted_intermediate")]))) (EScale (1 # 1) (EEins "abcdijkl->acbdijlk" [(EVar "contracted_intermediate")])));
   (*L5072*) SAug true "quadruples_res" (EScale (-1 # 1) (EEins "mnef,ebml,fdjk,acin->abcdijkl" [(ESlice (EVar "g_abab") [SV "o"; SV "o"; SV "v"; SV "v"]); (EVar "t2_abab"); (EVar "t2_bbbb"); (EVar "t2_abab")]));
   (*L5075*) SAug true "quadruples_res" (EScale (-1 # 1) (EEins "nmef,eblm,fdjk,acin->abcdijkl" [(ESlice (EVar "g_bbbb") [SV "o"; SV "o"; SV "v"; SV "v"]); (EVar "t2_bbbb"); (EVar "t2_bbbb"); (EVar "t2_abab")]));
   (*L5078*) SAug true "quadruples_res" (EScale (-1 # 1) (EEins "mnfe,aeml,fdik,bcjn->abcdijkl" [(ESlice (EVar "g_abab") [SV "o"; SV "o"; SV "v"; SV "v"]); (EVar "t2_abab"); (EVar "t2_abab"); (EVar "t2_bbbb")]));
   (*L5081*) SAug true "quadruples_res" (EScale (1 # 1) (EEins "nmef,ebml,fdik,acnj->abcdijkl" [(ESlice (EVar "g_aaaa") [SV "o"; SV "o"; SV "v"; SV "v"]); (EVar "t2_abab"); (EVar "t2_abab"); (EVar "t2_abab")]));
   (*L5084*) SAug true "quadruples_res" (EScale (1 # 1) (EEins "nmfe,eblm,fdik,acnj->abcdijkl" [(ESlice (EVar "g_abab") [SV "o"; SV "o"; SV "v"; SV "v"]); (EVar "t2_bbbb"); (EVar "t2_abab"); (EVar "t2_abab")]));
   (*L5087*) SAssign "contracted_intermediate" (EScale (1 # 1) (EEins "mnfe,aeml,fdij,bckn->abcdijkl" [(ESlice (EVar "g_abab") [SV "o"; SV "o"; SV "v"; SV "v"]); (EVar "t2_abab"); (EVar "t2_abab"); (EVar "t2_bbbb")]));
   (*L5088*) SAug true "quadruples_res" (EAdd (EScale (1 # 1) (EVar "contracted_intermediate")) (EScale (-1 # 1) (EEins "abcdijkl->abcdijlk" [(EVar "contracted_intermediate")])));
   (*L5091*) SAssign "contracted_intermediate" (EScale (-1 # 1) (EEins "nmef,ebml,fdij,acnk->abcdijkl" [(ESlice (EVar "g_aaaa") [SV "o"; SV "o"; SV "v"; SV "v"]); (EVar "t2_abab"); (EVar "t2_abab"); (EVar "t2_abab")]));
   (*L5092*) SAug true "quadruples_res" (EAdd (EScale (1 # 1) (EVar "contracted_intermediate")) (EScale (-1 # 1) (EEins "abcdijkl->abcdijlk" [(EVar "contracted_intermediate")])));
   (*L5095*) SAssign "contracted_intermediate" (EScale (-1 # 1) (EEins "nmfe,eblm,fdij,acnk->abcdijkl" [(ESlice (EVar "g_abab") [SV "o"; SV "o"; SV "v"; SV "v"]); (EVar "t2_bbbb"); (EVar "t2_abab"); (EVar "t2_abab")]));
   (*L5096*) SAug true "quadruples_res" (EAdd (EScale (1 # 1) (EVar "contracted_intermediate")) (EScale (-1 # 1) (EEins "abcdijkl->abcdijlk" [(EVar "contracted_intermediate")])));
   (*L5099*) SAssign "contracted_intermediate" (EScale (1 # 1) (EEins "mnfe,aemk,fbil,cdjn->abcdijkl" [(ESlice (EVar "g_abab") [SV "o"; SV "o"; SV "v"; SV "v"]); (EVar "t2_abab"); (EVar "t2_abab"); (EVar "t2_bbbb")]));
   (*L5100*) SAug true "quadruples_res" (EAdd (EScale (1 # 1) (EVar "contracted_intermediate")) (EScale (-1 # 1) (EEins "abcdijkl->acbdijkl" [(EVar "contracted_intermediate")])));
   (*L5103*) SAug true "quadruples_res" (EScale (1 # 1) (EEins "mnef,ebmk,fdjl,acin->abcdijkl" [(ESlice (EVar "g_abab") [SV "o"; SV "o"; SV "v"; SV "v"]); (EVar "t2_abab"); (EVar "t2_bbbb"); (EVar "t2_abab")]));
   (*L5106*) SAug true "quadruples_res" (EScale (1 # 1) (EEins "nmef,ebkm,fdjl,acin->abcdijkl" [(ESlice (EVar "g_bbbb") [SV "o"; SV "o"; SV "v"; SV "v"]); (EVar "t2_bbbb"); (EVar "t2_bbbb"); (EVar "t2_abab")]));
   (*L5109*) SAug true "quadruples_res" (EScale (1 # 1) (EEins "mnfe,aemk,fdil,bcjn->abcdijkl" [(ESlice (EVar "g_abab") [SV "o"; SV "o"; SV "v"; SV "v"]); (EVar "t2_abab"); (EVar "t2_abab"); (EVar "t2_bbbb")]));
   (*L5112*) SAug true "quadruples_res" (EScale (-1 # 1) (EEins "nmef,ebmk,fdil,acnj->abcdijkl" [(ESlice (EVar "g_aaaa") [SV "o"; SV "o"; SV "v"; SV "v"]); (EVar "t2_abab"); (EVar "t2_abab"); (EVar "t2_abab")]));
   (*L5115*) SAug true "quadruples_res" (EScale (-1 # 1) (EEins "nmfe,ebkm,fdil,acnj->abcdijkl" [(ESlice (EVar "g_abab") [SV "o"; SV "o"; SV "v"; SV "v"]); (EVar "t2_bbbb"); (EVar "t2_abab"); (EVar "t2_abab")]));
   (*L5118*) SAssign "contracted_intermediate" (EScale (-1 # 1) (EEins "mnfe,aemj,fbil,cdkn->abcdijkl" [(ESlice (EVar "g_abab") [SV "o"; SV "o"; SV "v"; SV "v"]); (EVar "t2_abab"); (EVar "t2_abab"); (EVar "t2_bbbb")]));
   (*L5119*) SAug true "quadruples_res" (EAdd (EScale (1 # 1) (EVar "contracted_intermediate")) (EScale (-1 # 1) (EEins "abcdijkl->acbdijkl" [(EVar "contracted_intermediate")])));
   (*L5122*) SAssign "contracted_intermediate" (EScale (1 # 1) (EEins "mnfe,aemj,fbik,cdln->abcdijkl" [(ESlice (EVar "g_abab") [SV "o"; SV "o"; SV "v"; SV "v"]); (EVar "t2_abab"); (EVar "t2_abab"); (EVar "t2_bbbb")]));
   (*L5123*) SAug true "quadruples_res" (EAdd (EScale (1 # 1) (EVar "contracted_intermediate")) (EScale (-1 # 1) (EEins "abcdijkl->acbdijkl" [(EVar "contracted_intermediate")])));
   (*L5126*) SAssign "contracted_intermediate" (EScale (1 # 1) (EEins "mnef,eaim,fbjk,cdln->abcdijkl" [(ESlice (EVar "g_abab") [SV "o"; SV "o"; SV "v"; SV "v"]); (EVar "t2_aaaa"); (EVar "t2_bbbb"); (EVar "t2_bbbb")]));
   (*L5127*) SAug true "quadruples_res" (EAdd (EScale (1 # 1) (EVar "contracted_intermediate")) (EScale (-1 # 1) (EEins "abcdijkl->acbdijkl" [(EVar "contracted_intermediate")])));
   (*L5130*) SAssign "contracted_intermediate" (EScale (1 # 1) (EEins "nmef,aeim,fbjk,cdln->abcdijkl" [(ESlice (EVar "g_bbbb") [SV "o"; SV "o"; SV "v"; SV "v"]); (EVar "t2_abab"); (EVar "t2_bbbb"); (EVar "t2_bbbb")]));
   (*L5131*) SAug true "quadruples_res" (EAdd (EScale (1 # 1) (EVar "contracted_intermediate")) (EScale (-1 # 1) (EEins "abcdijkl->acbdijkl" [(EVar "contracted_intermediate")])));
   (*L5134*) SAug true "quadruples_res" (EScale (-1 # 1) (EEins "mnef,ebmj,fdkl,acin->abcdijkl" [(ESlice (EVar "g_abab") [SV "o"; SV "o"; SV "v"; SV "v"]); (EVar "t2_abab"); (EVar "t2_bbbb"); (EVar "t2_abab")]));
   (*L5137*) SAug true "quadruples_res" (EScale (-1 # 1) (EEins "nmef,ebjm,fdkl,acin->abcdijkl" [(ESlice (EVar "g_bbbb") [SV "o"; SV "o"; SV "v"; SV "v"]); (EVar "t2_bbbb"); (EVar "t2_bbbb"); (EVar "t2_abab")]));
   (*L5140*) SAug true "quadruples_res" (EScale (-1 # 1) (EEins "mnfe,aemj,fdil,bckn->abcdijkl" [(ESlice (EVar "g_abab") [SV "o"; SV "o"; SV "v"; SV "v"]); (EVar "t2_abab"); (EVar "t2_abab"); (EVar "t2_bbbb")]));
   (*L5143*) SAug true "quadruples_res" (EScale (1 # 1) (EEins "nmef,ebmj,fdil,acnk->abcdijkl" [(ESlice (EVar "g_aaaa") [SV "o"; SV "o"; SV "v"; SV "v"]); (EVar "t2_abab"); (EVar "t2_abab"); (EVar "t2_abab")]));
   (*L5146*) SAug true "quadruples_res" (EScale (1 # 1) (EEins "nmfe,ebjm,fdil,acnk->abcdijkl" [(ESlice (EVar "g_abab") [SV "o"; SV "o"; SV "v"; SV "v"]); (EVar "t2_bbbb"); (EVar "t2_abab"); (EVar "t2_abab")]));
   (*L5149*) SAug true "quadruples_res" (EScale (1 # 1) (EEins "mnfe,aemj,fdik,bcln->abcdijkl" [(ESlice (EVar "g_abab") [SV "o"; SV "o"; SV "v"; SV "v"]); (EVar "t2_abab"); (EVar "t2_abab"); (EVar "t2_bbbb")]));
   (*L5152*) SAug true "quadruples_res" (EScale (-1 # 1) (EEins "nmef,ebmj,fdik,acnl->abcdijkl" [(ESlice (EVar "g_aaaa") [SV "o"; SV "o"; SV "v"; SV "v"]); (EVar "t2_abab"); (EVar "t2_abab"); (EVar "t2_abab")]));
   (*L5155*) SAug true "quadruples_res" (EScale (-1 # 1) (EEins "nmfe,ebjm,fdik,acnl->abcdijkl" [(ESlice (EVar "g_abab") [SV "o"; SV "o"; SV "v"; SV "v"]); (EVar "t2_bbbb"); (EVar "t2_abab"); (EVar "t2_abab")]));
   (*L5158*) SAug true "quadruples_res" (EScale (1 # 1) (EEins "mnef,eaim,fdjk,bcln->abcdijkl" [(ESlice (EVar "g_abab") [SV "o"; SV "o"; SV "v"; SV "v"]); (EVar "t2_aaaa"); (EVar "t2_bbbb"); (EVar "t2_bbbb")]));
   (*L5161*) SAug true "quadruples_res" (EScale (1 # 1) (EEins "nmef,aeim,fdjk,bcln->abcdijkl" [(ESlice (EVar "g_bbbb") [SV "o"; SV "o"; SV "v"; SV "v"]); (EVar "t2_abab"); (EVar "t2_bbbb"); (EVar "t2_bbbb")]));
   (*L5164*) SAug true "quadruples_res" (EScale (-1 # 1) (EEins "nmef,ebim,fdjk,acnl->abcdijkl" [(ESlice (EVar "g_abab") [SV "o"; SV "o"; SV "v"; SV "v"]); (EVar "t2_abab"); (EVar "t2_bbbb"); (EVar "t2_abab")]));
   (*L5167*) SAssign "contracted_intermediate" (EScale (1 # 1) (EEins "mnef,eaim,fbkl,cdjn->abcdijkl" [(ESlice (EVar "g_abab") [SV "o"; SV "o"; SV "v"; SV "v"]); (EVar "t2_aaaa"); (EVar "t2_bbbb"); (EVar "t2_bbbb")]));
   (*L5168*) SAug true "quadruples_res" (EAdd (EAdd (EAdd (EScale (1 # 1) (EVar "contracted_intermediate")) (EScale (-1 # 1) (EEins "abcdijkl->abcdikjl" [(EVar "contracted_intermediate")]))) (EScale (-1 # 1) (EEins "abcdijkl->acbdijkl" [(EVar "contracted_intermediate")]))) (EScale (1 # 1) (EEins "abcdijkl->acbdikjl" [(EVar "contracted_intermediate")])));
   (*L5171*) SAssign "contracted_intermediate" (EScale (1 # 1) (EEins "nmef,aeim,fbkl,cdjn->abcdijkl" [(ESlice (EVar "g_bbbb") [SV "o"; SV "o"; SV "v"; SV "v"]); (EVar "t2_abab"); (EVar "t2_bbbb"); (EVar "t2_bbbb")]));
   (*L5172*) SAug true "quadruples_res" (EAdd (EAdd (EAdd (EScale (1 # 1) (EVar "contracted_intermediate")) (EScale (-1 # 1) (EEins "abcdijkl->abcdikjl" [(EVar "contracted_intermediate")]))) (EScale (-1 # 1) (EEins "abcdijkl->acbdijkl" [(EVar "contracted_intermediate")]))) (EScale (1 # 1) (EEins "abcdijkl->acbdikjl" [(EVar "contracted_intermediate")])));
   (*L5175*) SAssign "contracted_intermediate" (EScale (1 # 1) (EEins "mnef,eaim,fdkl,bcjn->abcdijkl" [(ESlice (EVar "g_abab") [SV "o"; SV "o"; SV "v"; SV "v"]); (EVar "t2_aaaa"); (EVar "t2_bbbb"); (EVar "t2_bbbb")]));
   (*L5176*) SAug true "quadruples_res" (EAdd (EScale (1 # 1) (EVar "contracted_intermediate")) (EScale (-1 # 1) (EEins "abcdijkl->abcdikjl" [(EVar "contracted_intermediate")])));
   (*L5179*) SAssign "contracted_intermediate" (EScale (1 # 1) (EEins "nmef,aeim,fdkl,bcjn->abcdijkl" [(ESlice (EVar "g_bbbb") [SV "o"; SV "o"; SV "v"; SV "v"]); (EVar "t2_abab"); (EVar "t2_bbbb"); (EVar "t2_bbbb")]));
   (*L5180*) SAug true "quadruples_res" (EAdd (EScale (1 # 1) (EVar "contracted_intermediate")) (EScale (-1 # 1) (EEins "abcdijkl->abcdikjl" [(EVar "contracted_intermediate")])));
   (*L5183*) SAssign "contracted_intermediate" (EScale (-1 # 1) (EEins "nmef,ebim,fdkl,acnj->abcdijkl" [(ESlice (EVar "g_abab") [SV "o"; SV "o"; SV "v"; SV "v"]); (EVar "t2_abab"); (EVar "t2_bbbb"); (EVar "t2_abab")]));
   (*L5184*) SAug true "quadruples_res" (EAdd (EScale (1 # 1) (EVar "contracted_intermediate")) (EScale (-1 # 1) (EEins "abcdijkl->abcdikjl" [(EVar "contracted_intermediate")])));
   (*L5187*) SAug true "quadruples_res" (EScale (1 # 1) (EEins "mnfe,ebkl,fdmj,acin->abcdijkl" [(ESlice (EVar "g_abab") [SV "o"; SV "o"; SV "v"; SV "v"]); (EVar "t2_bbbb"); (EVar "t2_abab"); (EVar "t2_abab")]));
   (*L5190*) SAug true "quadruples_res" (EScale (-1 # 1) (EEins "nmef,ebkl,fdjm,acin->abcdijkl" [(ESlice (EVar "g_bbbb") [SV "o"; SV "o"; SV "v"; SV "v"]); (EVar "t2_bbbb"); (EVar "t2_bbbb"); (EVar "t2_abab")]));
   (*L5193*) SAug true "quadruples_res" (EScale (1 # 1) (EEins "nmfe,ebkl,fdim,acnj->abcdijkl" [(ESlice (EVar "g_abab") [SV "o"; SV "o"; SV "v"; SV "v"]); (EVar "t2_bbbb"); (EVar "t2_abab"); (EVar "t2_abab")]));
   (*L5196*) SAssign "contracted_intermediate" (EScale (-1 # 2) (EEins "nmfe,ebkl,fdij,acnm->abcdijkl" [(ESlice (EVar "g_abab") [SV "o"; SV "o"; SV "v"; SV "v"]); (EVar "t2_bbbb"); (EVar "t2_abab"); (EVar "t2_abab")]));
   (*L5197*) SAug true "quadruples_res" (EAdd (EScale (1 # 1) (EVar "contracted_intermediate")) (EScale (-1 # 1) (EEins "abcdijkl->abcdikjl" [(EVar "contracted_intermediate")])));
   (*L5200*) SAssign "contracted_intermediate" (EScale (-1 # 2) (EEins "mnfe,ebkl,fdij,acmn->abcdijkl" [(ESlice (EVar "g_abab") [SV "o"; SV "o"; SV "v"; SV "v"]); (EVar "t2_bbbb"); (EVar "t2_abab"); (EVar "t2_abab")]));
   (*L5201*) SAug true "quadruples_res" (EAdd (EScale (1 # 1) (EVar "contracted_intermediate")) (EScale (-1 # 1) (EEins "abcdijkl->abcdikjl" [(EVar "contracted_intermediate")])));
   (*L5204*) SAug true "quadruples_res" (EScale (-1 # 1) (EEins "mnfe,ebjl,fdmk,acin->abcdijkl" [(ESlice (EVar "g_abab") [SV "o"; SV "o"; SV "v"; SV "v"]); (EVar "t2_bbbb"); (EVar "t2_abab"); (EVar "t2_abab")]));
   (*L5207*) SAug true "quadruples_res" (EScale (1 # 1) (EEins "nmef,ebjl,fdkm,acin->abcdijkl" [(ESlice (EVar "g_bbbb") [SV "o"; SV "o"; SV "v"; SV "v"]); (EVar "t2_bbbb"); (EVar "t2_bbbb"); (EVar "t2_abab")]));
   (*L5210*) SAug true "quadruples_res" (EScale (-1 # 1) (EEins "nmfe,ebjl,fdim,acnk->abcdijkl" [(ESlice (EVar "g_abab") [SV "o"; SV "o"; SV "v"; SV "v"]); (EVar "t2_bbbb"); (EVar "t2_abab"); (EVar "t2_abab")]));
   (*L5213*) SAssign "contracted_intermediate" (EScale (1 # 1) (EEins "mnfe,aeil,fbmk,cdjn->abcdijkl" [(ESlice (EVar "g_abab") [SV "o"; SV "o"; SV "v"; SV "v"]); (EVar "t2_abab"); (EVar "t2_abab"); (EVar "t2_bbbb")]));
   (*L5214*) SAug true "quadruples_res" (EAdd (EAdd (EAdd (EScale (1 # 1) (EVar "contracted_intermediate")) (EScale (-1 # 1) (EEins "abcdijkl->abcdikjl" [(EVar "contracted_intermediate")]))) (EScale (-1 # 1) (EEins "abcdijkl->acbdijkl" [(EVar "contracted_intermediate")]))) (EScale (1 # 1) (EEins "abcdijkl->acbdikjl" [(EVar "contracted_intermediate")])));
   (*L5217*) SAssign "contracted_intermediate" (EScale (-1 # 1) (EEins "nmef,aeil,fbkm,cdjn->abcdijkl" [(ESlice (EVar "g_bbbb") [SV "o"; SV "o"; SV "v"; SV "v"]); (EVar "t2_abab"); (EVar "t2_bbbb"); (EVar "t2_bbbb")]));
   (*L5218*) SAug true "quadruples_res" (EAdd (EAdd (EAdd (EScale (1 # 1) (EVar "contracted_intermediate")) (EScale (-1 # 1) (EEins "abcdijkl->abcdikjl" [(EVar "contracted_intermediate")]))) (EScale (-1 # 1) (EEins "abcdijkl->acbdijkl" [(EVar "contracted_intermediate")]))) (EScale (1 # 1) (EEins "abcdijkl->acbdikjl" [(EVar "contracted_intermediate")])));
   (*L5221*) SAssign "contracted_intermediate" (EScale (1 # 2) (EEins "nmef,aeil,fbjk,cdnm->abcdijkl" [(ESlice (EVar "g_bbbb") [SV "o"; SV "o"; SV "v"; SV "v"]); (EVar "t2_abab"); (EVar "t2_bbbb"); (EVar "t2_bbbb")]));
   (*L5222*) SAug true "quadruples_res" (EAdd (EAdd (EAdd (EScale (1 # 1) (EVar "contracted_intermediate")) (EScale (-1 # 1) (EEins "abcdijkl->abcdijlk" [(EVar "contracted_intermediate")]))) (EScale (-1 # 1) (EEins "abcdijkl->acbdijkl" [(EVar "contracted_intermediate")]))) (EScale (1 # 1) (EEins "abcdijkl->acbdijlk" [(EVar "contracted_intermediate")])));
   (*L5225*) SAssign "contracted_intermediate" (EScale (1 # 1) (EEins "mnfe,aeil,fdmk,bcjn->abcdijkl" [(ESlice (EVar "g_abab") [SV "o"; SV "o"; SV "v"; SV "v"]); (EVar "t2_abab"); (EVar "t2_abab"); (EVar "t2_bbbb")]));
   (*L5226*) SAug true "quadruples_res" (EAdd (EScale (1 # 1) (EVar "contracted_intermediate")) (EScale (-1 # 1) (EEins "abcdijkl->abcdikjl" [(EVar "contracted_intermediate")])));
   (*L5229*) SAssign "contracted_intermediate" (EScale (-1 # 1) (EEins "nmef,aeil,fdkm,bcjn->abcdijkl" [(ESlice (EVar "g_bbbb") [SV "o"; SV "o"; SV "v"; SV "v"]); (EVar "t2_abab"); (EVar "t2_bbbb"); (EVar "t2_bbbb")]));
   (*L5230*) SAug true "quadruples_res" (EAdd (EScale (1 # 1) (EVar "contracted_intermediate")) (EScale (-1 # 1) (EEins "abcdijkl->abcdikjl" [(EVar "contracted_intermediate")])));
   (*L5233*) SAssign "contracted_intermediate" (EScale (-1 # 1) (EEins "nmef,ebil,fdmk,acnj->abcdijkl" [(ESlice (EVar "g_aaaa") [SV "o"; SV "o"; SV "v"; SV "v"]); (EVar "t2_abab"); (EVar "t2_abab"); (EVar "t2_abab")]));
   (*L5234*) SAug true "quadruples_res" (EAdd (EScale (1 # 1) (EVar "contracted_intermediate")) (EScale (-1 # 1) (EEins "abcdijkl->abcdikjl" [(EVar "contracted_intermediate")])));
   (*L5237*) SAssign "contracted_intermediate" (EScale (1 # 1) (EEins "nmef,ebil,fdkm,acnj->abcdijkl" [(ESlice (EVar "g_abab") [SV "o"; SV "o"; SV "v"; SV "v"]); (EVar "t2_abab"); (EVar "t2_bbbb"); (EVar "t2_abab")]));
   (*L5238*) SAug true "quadruples_res" (EAdd (EScale (1 # 1) (EVar "contracted_intermediate")) (EScale (-1 # 1) (EEins "abcdijkl->abcdikjl" [(EVar "contracted_intermediate")])));
   (*L5241*) SAssign "contracted_intermediate" (EScale (1 # 2) (EEins "nmef,aeil,fdjk,bcnm->abcdijkl" [(ESlice (EVar "g_bbbb") [SV "o"; SV "o"; SV "v"; SV "v"]); (EVar "t2_abab"); (EVar "t2_bbbb"); (EVar "t2_bbbb")]));
   (*L5242*) SAug true "quadruples_res" (EAdd (EScale (1 # 1) (EVar "contracted_intermediate")) (EScale (-1 # 1) (EEins "abcdijkl->abcdijlk" [(EVar "contracted_intermediate")])));
   (*L5245*) SAssign "contracted_intermediate" (EScale (1 # 2) (EEins "nmef,ebil,fdjk,acnm->abcdijkl" [(ESlice (EVar "g_abab") [SV "o"; SV "o"; SV "v"; SV "v"]); (EVar "t2_abab"); (EVar "t2_bbbb"); (EVar "t2_abab")]));
   (*L5246*) SAug true "quadruples_res" (EAdd (EScale (1 # 1) (EVar "contracted_intermediate")) (EScale (-1 # 1) (EEins "abcdijkl->abcdijlk" [(EVar "contracted_intermediate")])));
   (*L5249*) SAssign "contracted_intermediate" (EScale (1 # 2) (EEins "mnef,ebil,fdjk,acmn->abcdijkl" [(ESlice (EVar "g_abab") [SV "o"; SV "o"; SV "v"; SV "v"]); (EVar "t2_abab"); (EVar "t2_bbbb"); (EVar "t2_abab")]));
   (*L5250*) SAug true "quadruples_res" (EAdd (EScale (1 # 1) (EVar "contracted_intermediate")) (EScale (-1 # 1) (EEins "abcdijkl->abcdijlk" [(EVar "contracted_intermediate")])));
   (*L5253*) SAssign "contracted_intermediate" (EScale (1 # 2) (EEins "nmef,aeij,fbkl,cdnm->abcdijkl" [(ESlice (EVar "g_bbbb") [SV "o"; SV "o"; SV "v"; SV "v"]); (EVar "t2_abab"); (EVar "t2_bbbb"); (EVar "t2_bbbb")]));
   (*L5254*) SAug true "quadruples_res" (EAdd (EScale (1 # 1) (EVar "contracted_intermediate")) (EScale (-1 # 1) (EEins "abcdijkl->acbdijkl" [(EVar "contracted_intermediate")])));
   (*L5257*) SAug true "quadruples_res" (EScale (1 # 1) (EEins "mnfe,ebjk,fdml,acin->abcdijkl" [(ESlice (EVar "g_abab") [SV "o"; SV "o"; SV "v"; SV "v"]); (EVar "t2_bbbb"); (EVar "t2_abab"); (EVar "t2_abab")]));
   (*L5260*) SAug true "quadruples_res" (EScale (-1 # 1) (EEins "nmef,ebjk,fdlm,acin->abcdijkl" [(ESlice (EVar "g_bbbb") [SV "o"; SV "o"; SV "v"; SV "v"]); (EVar "t2_bbbb"); (EVar "t2_bbbb"); (EVar "t2_abab")]));
   (*L5263*) SAug true "quadruples_res" (EScale (1 # 1) (EEins "nmfe,ebjk,fdim,acnl->abcdijkl" [(ESlice (EVar "g_abab") [SV "o"; SV "o"; SV "v"; SV "v"]); (EVar "t2_bbbb"); (EVar "t2_abab"); (EVar "t2_abab")]));
   (*L5266*) SAug true "quadruples_res" (EScale (-1 # 2) (EEins "nmfe,ebjk,fdil,acnm->abcdijkl" [(ESlice (EVar "g_abab") [SV "o"; SV "o"; SV "v"; SV "v"]); (EVar "t2_bbbb"); (EVar "t2_abab"); (EVar "t2_abab")]));
   (*L5269*) SAug true "quadruples_res" (EScale (-1 # 2) (EEins "mnfe,ebjk,fdil,acmn->abcdijkl" [(ESlice (EVar "g_abab") [SV "o"; SV "o"; SV "v"; SV "v"]); (EVar "t2_bbbb"); (EVar "t2_abab"); (EVar "t2_abab")]));
   (*L5272*) SAug true "quadruples_res" (EScale (1 # 2) (EEins "nmef,aeij,fdkl,bcnm->abcdijkl" [(ESlice (EVar "g_bbbb") [SV "o"; SV "o"; SV "v"; SV "v"]); (EVar "t2_abab"); (EVar "t2_bbbb"); (EVar "t2_bbbb")]));
   (*L5275*) SAug true "quadruples_res" (EScale (1 # 2) (EEins "nmef,ebij,fdkl,acnm->abcdijkl" [(ESlice (EVar "g_abab") [SV "o"; SV "o"; SV "v"; SV "v"]); (EVar "t2_abab"); (EVar "t2_bbbb"); (EVar "t2_abab")]));
   (*L5278*) SAug true "quadruples_res" (EScale (1 # 2) (EEins "mnef,ebij,fdkl,acmn->abcdijkl" [(ESlice (EVar "g_abab") [SV "o"; SV "o"; SV "v"; SV "v"]); (EVar "t2_abab"); (EVar "t2_bbbb"); (EVar "t2_abab")]));
   (*L5281*) SAssign "contracted_intermediate" (EScale (-1 # 1) (EEins "mnfe,aeik,fbml,cdjn->abcdijkl" [(ESlice (EVar "g_abab") [SV "o"; SV "o"; SV "v"; SV "v"]); (EVar "t2_abab"); (EVar "t2_abab"); (EVar "t2_bbbb")]));
   (*L5282*) SAug true "quadruples_res" (EAdd (EAdd (EAdd (EScale (1 # 1) (EVar "contracted_intermediate")) (EScale (-1 # 1) (EEins "abcdijkl->abcdilkj" [(EVar "contracted_intermediate")]))) (EScale (-1 # 1) (EEins "abcdijkl->acbdijkl" [(EVar "contracted_intermediate")]))) (EScale (1 # 1) (EEins "abcdijkl->acbdilkj" [(EVar "contracted_intermediate")])));
   (*L5285*) SAssign "contracted_intermediate" (EScale (1 # 1) (EEins "nmef,aeik,fblm,cdjn->abcdijkl" [(ESlice (EVar "g_bbbb") [SV "o"; SV "o"; SV "v"; SV "v"]); (EVar "t2_abab"); (EVar "t2_bbbb"); (EVar "t2_bbbb")]));
   (*L5286*) SAug true "quadruples_res" (EAdd (EAdd (EAdd (EScale (1 # 1) (EVar "contracted_intermediate")) (EScale (-1 # 1) (EEins "abcdijkl->abcdilkj" [(EVar "contracted_intermediate")]))) (EScale (-1 # 1) (EEins "abcdijkl->acbdijkl" [(EVar "contracted_intermediate")]))) (EScale (1 # 1) (EEins "abcdijkl->acbdilkj" [(EVar "contracted_intermediate")])));
   (*L5289*) SAssign "contracted_intermediate" (EScale (-1 # 1) (EEins "mnfe,aeik,fdml,bcjn->abcdijkl" [(ESlice (EVar "g_abab") [SV "o"; SV "o"; SV "v"; SV "v"]); (EVar "t2_abab"); (EVar "t2_abab"); (EVar "t2_bbbb")]));
   (*L5290*) SAug true "quadruples_res" (EAdd (EScale (1 # 1) (EVar "contracted_intermediate")) (EScale (-1 # 1) (EEins "abcdijkl->abcdilkj" [(EVar "contracted_intermediate")])));
   (*L5293*) SAssign "contracted_intermediate" (EScale (1 # 1) (EEins "nmef,aeik,fdlm,bcjn->abcdijkl" [(ESlice (EVar "g_bbbb") [SV "o"; SV "o"; SV "v"; SV "v"]); (EVar "t2_abab"); (EVar "t2_bbbb"); (EVar "t2_bbbb")]));
   (*L5294*) SAug true "quadruples_res" (EAdd (EScale (1 # 1) (EVar "contracted_intermediate")) (EScale (-1 # 1) (EEins "abcdijkl->abcdilkj" [(EVar "contracted_intermediate")])));
   (*L5297*) SAssign "contracted_intermediate" (EScale (1 # 1) (EEins "nmef,ebik,fdml,acnj->abcdijkl" [(ESlice (EVar "g_aaaa") [SV "o"; SV "o"; SV "v"; SV "v"]); (EVar "t2_abab"); (EVar "t2_abab"); (EVar "t2_abab")]));
   (*L5298*) SAug true "quadruples_res" (EAdd (EScale (1 # 1) (EVar "contracted_intermediate")) (EScale (-1 # 1) (EEins "abcdijkl->abcdilkj" [(EVar "contracted_intermediate")])));
   (*L5301*) SAssign "contracted_intermediate" (EScale (-1 # 1) (EEins "nmef,ebik,fdlm,acnj->abcdijkl" [(ESlice (EVar "g_abab") [SV "o"; SV "o"; SV "v"; SV "v"]); (EVar "t2_abab"); (EVar "t2_bbbb"); (EVar "t2_abab")]));
   (*L5302*) SAug true "quadruples_res" (EAdd (EScale (1 # 1) (EVar "contracted_intermediate")) (EScale (-1 # 1) (EEins "abcdijkl->abcdilkj" [(EVar "contracted_intermediate")])));
   (*L5305*) SAssign "contracted_intermediate" (EScale (1 # 1) (EEins "mnfe,aeij,fbml,cdkn->abcdijkl" [(ESlice (EVar "g_abab") [SV "o"; SV "o"; SV "v"; SV "v"]); (EVar "t2_abab"); (EVar "t2_abab"); (EVar "t2_bbbb")]));
   (*L5306*) SAug true "quadruples_res" (EAdd (EAdd (EAdd (EScale (1 # 1) (EVar "contracted_intermediate")) (EScale (-1 # 1) (EEins "abcdijkl->abcdijlk" [(EVar "contracted_intermediate")]))) (EScale (-1 # 1) (EEins "abcdijkl->acbdijkl" [(EVar "contracted_intermediate")]))) (EScale (1 # 1) (EEins "abcdijkl->acbdijlk" [(EVar "contracted_intermediate")])));
   (*L5309*) SAssign "contracted_intermediate" (EScale (-1 # 1) (EEins "nmef,aeij,fblm,cdkn->abcdijkl" [(ESlice (EVar "g_bbbb") [SV "o"; SV "o"; SV "v"; SV "v"]); (EVar "t2_abab"); (EVar "t2_bbbb"); (EVar "t2_bbbb")]));
   (*L5310*) SAug true "quadruples_res" (EAdd (EAdd (EAdd (EScale (1 # 1) (EVar "contracted_intermediate")) (EScale (-1 # 1) (EEins "abcdijkl->abcdijlk" [(EVar "contracted_intermediate")]))) (EScale (-1 # 1) (EEins "abcdijkl->acbdijkl" [(EVar "contracted_intermediate")]))) (EScale (1 # 1) (EEins "abcdijkl->acbdijlk" [(EVar "contracted_intermediate")])));
   (*L5313*) SAssign "contracted_intermediate" (EScale (1 # 1) (EEins "mnfe,aeij,fdml,bckn->abcdijkl" [(ESlice (EVar "g_abab") [SV "o"; SV "o"; SV "v"; SV "v"]); (EVar "t2_abab"); (EVar "t2_abab"); (EVar "t2_bbbb")]));
   (*L5314*) SAug true "quadruples_res" (EAdd (EScale (1 # 1) (EVar "contracted_intermediate")) (EScale (-1 # 1) (EEins "abcdijkl->abcdijlk" [(EVar "contracted_intermediate")])));
   (*L5317*) SAssign "contracted_intermediate" (EScale (-1 # 1) (EEins "nmef,aeij,fdlm,bckn->abcdijkl" [(ESlice (EVar "g_bbbb") [SV "o"; SV "o"; SV "v"; SV "v"]); (EVar "t2_abab"); (EVar "t2_bbbb"); (EVar "t2_bbbb")]));
   (*L5318*) SAug true "quadruples_res" (EAdd (EScale (1 # 1) (EVar "contracted_intermediate")) (EScale (-1 # 1) (EEins "abcdijkl->abcdijlk" [(EVar "contracted_intermediate")])));
   (*L5321*) SAssign "contracted_intermediate" (EScale (-1 # 1) (EEins "nmef,ebij,fdml,acnk->abcdijkl" [(ESlice (EVar "g_aaaa") [SV "o"; SV "o"; SV "v"; SV "v"]); (EVar "t2_abab"); (EVar "t2_abab"); (EVar "t2_abab")]));
   (*L5322*) SAug true "quadruples_res" (EAdd (EScale (1 # 1) (EVar "contracted_intermediate")) (EScale (-1 # 1) (EEins "abcdijkl->abcdijlk" [(EVar "contracted_intermediate")])));
   (*L5325*) SAssign "contracted_intermediate" (EScale (1 # 1) (EEins "nmef,ebij,fdlm,acnk->abcdijkl" [(ESlice (EVar "g_abab") [SV "o"; SV "o"; SV "v"; SV "v"]); (EVar "t2_abab"); (EVar "t2_bbbb"); (EVar "t2_abab")]));
   (*L5326*) SAug true "quadruples_res" (EAdd (EScale (1 # 1) (EVar "contracted_intermediate")) (EScale (-1 # 1) (EEins "abcdijkl->abcdijlk" [(EVar "contracted_intermediate")])));
   (*L5329*) SAug true "quadruples_res" (EScale (1 # 1) (EEins "mnef,ebml,fcjk,adin->abcdijkl" [(ESlice (EVar "g_abab") [SV "o"; SV "o"; SV "v"; SV "v"]); (EVar "t2_abab"); (EVar "t2_bbbb"); (EVar "t2_abab")]));
   (*L5332*) SAug true "quadruples_res" (EScale (1 # 1) (EEins "nmef,eblm,fcjk,adin->abcdijkl" [(ESlice (EVar "g_bbbb") [SV "o"; SV "o"; SV "v"; SV "v"]); (EVar "t2_bbbb"); (EVar "t2_bbbb"); (EVar "t2_abab")]));
   (*L5335*) SAug true "quadruples_res" (EScale (-1 # 1) (EEins "nmef,ebml,fcik,adnj->abcdijkl" [(ESlice (EVar "g_aaaa") [SV "o"; SV "o"; SV "v"; SV "v"]); (EVar "t2_abab"); (EVar "t2_abab"); (EVar "t2_abab")]));
   (*L5338*) SAug true "quadruples_res" (EScale (-1 # 1) (EEins "nmfe,eblm,fcik,adnj->abcdijkl" [(ESlice (EVar "g_abab") [SV "o"; SV "o"; SV "v"; SV "v"]); (EVar "t2_bbbb"); (EVar "t2_abab"); (EVar "t2_abab")]));
   (*L5341*) SAssign "contracted_intermediate" (EScale (1 # 1) (EEins "nmef,ebml,fcij,adnk->abcdijkl" [(ESlice (EVar "g_aaaa") [SV "o"; SV "o"; SV "v"; SV "v"]); (EVar "t2_abab"); (EVar "t2_abab"); (EVar "t2_abab")]));
   (*L5342*) SAug true "quadruples_res" (EAdd (EScale (1 # 1) (EVar "contracted_intermediate")) (EScale (-1 # 1) (EEins "abcdijkl->abcdijlk" [(EVar "contracted_intermediate")])));
   (*L5345*) SAssign "contracted_intermediate" (EScale (1 # 1) (EEins "nmfe,eblm,fcij,adnk->abcdijkl" [(ESlice (EVar "g_abab") [SV "o"; SV "o"; SV "v"; SV "v"]); (EVar "t2_bbbb"); (EVar "t2_abab"); (EVar "t2_abab")]));
   (*L5346*) SAug true "quadruples_res" (EAdd (EScale (1 # 1) (EVar "contracted_intermediate")) (EScale (-1 # 1) (EEins "abcdijkl->abcdijlk" [(EVar "contracted_intermediate")])));
   (*L5349*) SAug true "quadruples_res" (EScale (-1 # 1) (EEins "mnef,ebmk,fcjl,adin->abcdijkl" [(ESlice (EVar "g_abab") [SV "o"; SV "o"; SV "v"; SV "v"]); (EVar "t2_abab"); (EVar "t2_bbbb"); (EVar "t2_abab")]));
   (*L5352*) SAug true "quadruples_res" (EScale (-1 # 1) (EEins "nmef,ebkm,fcjl,adin->abcdijkl" [(ESlice (EVar "g_bbbb") [SV "o"; SV "o"; SV "v"; SV "v"]); (EVar "t2_bbbb"); (EVar "t2_bbbb"); (EVar "t2_abab")]));
   (*L5355*) SAug true "quadruples_res" (EScale (1 # 1) (EEins "nmef,ebmk,fcil,adnj->abcdijkl" [(ESlice (EVar "g_aaaa") [SV "o"; SV "o"; SV "v"; SV "v"]); (EVar "t2_abab"); (EVar "t2_abab"); (EVar "t2_abab")]));
   (*L5358*) SAug true "quadruples_res" (EScale (1 # 1) (EEins "nmfe,ebkm,fcil,adnj->abcdijkl" [(ESlice (EVar "g_abab") [SV "o"; SV "o"; SV "v"; SV "v"]); (EVar "t2_bbbb"); (EVar "t2_abab"); (EVar "t2_abab")]));
   (*L5361*) SAug true "quadruples_res" (EScale (1 # 1) (EEins "mnef,ebmj,fckl,adin->abcdijkl" [(ESlice (EVar "g_abab") [SV "o"; SV "o"; SV "v"; SV "v"]); (EVar "t2_abab"); (EVar "t2_bbbb"); (EVar "t2_abab")]));
   (*L5364*) SAug true "quadruples_res" (EScale (1 # 1) (EEins "nmef,ebjm,fckl,adin->abcdijkl" [(ESlice (EVar "g_bbbb") [SV "o"; SV "o"; SV "v"; SV "v"]); (EVar "t2_bbbb"); (EVar "t2_bbbb"); (EVar "t2_abab")]));
   (*L5367*) SAug true "quadruples_res" (EScale (-1 # 1) (EEins "nmef,ebmj,fcil,adnk->abcdijkl" [(ESlice (EVar "g_aaaa") [SV "o"; SV "o"; SV "v"; SV "v"]); (EVar "t2_abab"); (EVar "t2_abab"); (EVar "t2_abab")]));
   (*L5370*) SAug true "quadruples_res" (EScale (-1 # 1) (EEins "nmfe,ebjm,fcil,adnk->abcdijkl" [(ESlice (EVar "g_abab") [SV "o"; SV "o"; SV "v"; SV "v"]); (EVar "t2_bbbb"); (EVar "t2_abab"); (EVar "t2_abab")]));
   (*L5373*) SAug true "quadruples_res" (EScale (1 # 1) (EEins "nmef,ebmj,fcik,adnl->abcdijkl" [(ESlice (EVar "g_aaaa") [SV "o"; SV "o"; SV "v"; SV "v"]); (EVar "t2_abab"); (EVar "t2_abab"); (EVar "t2_abab")]));
   (*L5376*) SAug true "quadruples_res" (EScale (1 # 1) (EEins "nmfe,ebjm,fcik,adnl->abcdijkl" [(ESlice (EVar "g_abab") [SV "o"; SV "o"; SV "v"; SV "v"]); (EVar "t2_bbbb"); (EVar "t2_abab"); (EVar "t2_abab")]));
   (*L5379*) SAug true "quadruples_res" (EScale (1 # 1) (EEins "nmef,ebim,fcjk,adnl->abcdijkl" [(ESlice (EVar "g_abab") [SV "o"; SV "o"; SV "v"; SV "v"]); (EVar "t2_abab"); (EVar "t2_bbbb"); (EVar "t2_abab")]));
   (*L5382*) SAssign "contracted_intermediate" (EScale (1 # 1) (EEins "nmef,ebim,fckl,adnj->abcdijkl" [(ESlice (EVar "g_abab") [SV "o"; SV "o"; SV "v"; SV "v"]); (EVar "t2_abab"); (EVar "t2_bbbb"); (EVar "t2_abab")]));
   (*L5383*) SAug true "quadruples_res" (EAdd (EScale (1 # 1) (EVar "contracted_intermediate")) (EScale (-1 # 1) (EEins "abcdijkl->abcdikjl" [(EVar "contracted_intermediate")])));
   (*L5386*) SAug true "quadruples_res" (EScale (-1 # 1) (EEins "mnfe,ebkl,fcmj,adin->abcdijkl" [(ESlice (EVar "g_abab") [SV "o"; SV "o"; SV "v"; SV "v"]); (EVar "t2_bbbb"); (EVar "t2_abab"); (EVar "t2_abab")]));
   (*L5389*) SAug true "quadruples_res" (EScale (1 # 1) (EEins "nmef,ebkl,fcjm,adin->abcdijkl" [(ESlice (EVar "g_bbbb") [SV "o"; SV "o"; SV "v"; SV "v"]); (EVar "t2_bbbb"); (EVar "t2_bbbb"); (EVar "t2_abab")]));
   (*L5392*) SAug true "quadruples_res" (EScale (-1 # 1) (EEins "nmfe,ebkl,fcim,adnj->abcdijkl" [(ESlice (EVar "g_abab") [SV "o"; SV "o"; SV "v"; SV "v"]); (EVar "t2_bbbb"); (EVar "t2_abab"); (EVar "t2_abab")]));
   (*L5395*) SAssign "contracted_intermediate" (EScale (1 # 2) (EEins "nmfe,ebkl,fcij,adnm->abcdijkl" [(ESlice (EVar "g_abab") [SV "o"; SV "o"; SV "v"; SV "v"]); (EVar "t2_bbbb"); (EVar "t2_abab"); (EVar "t2_abab")]));
   (*L5396*) SAug true "quadruples_res" (EAdd (EScale (1 # 1) (EVar "contracted_intermediate")) (EScale (-1 # 1) (EEins "abcdijkl->abcdikjl" [(EVar "contracted_intermediate")])));
   (*L5399*) SAssign "contracted_intermediate" (EScale (1 # 2) (EEins "mnfe,ebkl,fcij,admn->abcdijkl" [(ESlice (EVar "g_abab") [SV "o"; SV "o"; SV "v"; SV "v"]); (EVar "t2_bbbb"); (EVar "t2_abab"); (EVar "t2_abab")]));
   (*L5400*) SAug true "quadruples_res" (EAdd (EScale (1 # 1) (EVar "contracted_intermediate")) (EScale (-1 # 1) (EEins "abcdijkl->abcdikjl" [(EVar "contracted_intermediate")])));
   (*L5403*) SAug true "quadruples_res" (EScale (1 # 1) (EEins "mnfe,ebjl,fcmk,adin->abcdijkl" [(ESlice (EVar "g_abab") [SV "o"; SV "o"; SV "v"; SV "v"]); (EVar "t2_bbbb"); (EVar "t2_abab"); (EVar "t2_abab")]));
   (*L5406*) SAug true "quadruples_res" (EScale (-1 # 1) (EEins "nmef,ebjl,fckm,adin->abcdijkl" [(ESlice (EVar "g_bbbb") [SV "o"; SV "o"; SV "v"; SV "v"]); (EVar "t2_bbbb"); (EVar "t2_bbbb"); (EVar "t2_abab")]));
   (*L5409*) SAug true "quadruples_res" (EScale (1 # 1) (EEins "nmfe,ebjl,fcim,adnk->abcdijkl" [(ESlice (EVar "g_abab") [SV "o"; SV "o"; SV "v"; SV "v"]); (EVar "t2_bbbb"); (EVar "t2_abab"); (EVar "t2_abab")]));
   (*L5412*) SAssign "contracted_intermediate" (EScale (1 # 1) (EEins "nmef,ebil,fcmk,adnj->abcdijkl" [(ESlice (EVar "g_aaaa") [SV "o"; SV "o"; SV "v"; SV "v"]); (EVar "t2_abab"); (EVar "t2_abab"); (EVar "t2_abab")]));
   (*L5413*) SAug true "quadruples_res" (EAdd (EScale (1 # 1) (EVar "contracted_intermediate")) (EScale (-1 # 1) (EEins "abcdijkl->abcdikjl" [(EVar "contracted_intermediate")])));
   (*L5416*) SAssign "contracted_intermediate" (EScale (-1 # 1) (EEins "nmef,ebil,fckm,adnj->abcdijkl" [(ESlice (EVar "g_abab") [SV "o"; SV "o"; SV "v"; SV "v"]); (EVar "t2_abab"); (EVar "t2_bbbb"); (EVar "t2_abab")]));
   (*L5417*) SAug true "quadruples_res" (EAdd (EScale (1 # 1) (EVar "contracted_intermediate")) (EScale (-1 # 1) (EEins "abcdijkl->abcdikjl" [(EVar "contracted_intermediate")])));
   (*L5420*) SAssign "contracted_intermediate" (EScale (-1 # 2) (EEins "nmef,ebil,fcjk,adnm->abcdijkl" [(ESlice (EVar "g_abab") [SV "o"; SV "o"; SV "v"; SV "v"]); (EVar "t2_abab"); (EVar "t2_bbbb"); (EVar "t2_abab")]));
   (*L5421*) SAug true "quadruples_res" (EAdd (EScale (1 # 1) (EVar "contracted_intermediate")) (EScale (-1 # 1) (EEins "abcdijkl->abcdijlk" [(EVar "contracted_intermediate")])));
   (*L5424*) SAssign "contracted_intermediate" (EScale (-1 # 2) (EEins "mnef,ebil,fcjk,admn->abcdijkl" [(ESlice (EVar "g_abab") [SV "o"; SV "o"; SV "v"; SV "v"]); (EVar "t2_abab"); (EVar "t2_bbbb"); (EVar "t2_abab")]));
   (*L5425*) SAug true "quadruples_res" (EAdd (EScale (1 # 1) (EVar "contracted_intermediate")) (EScale (-1 # 1) (EEins "abcdijkl->abcdijlk" [(EVar "contracted_intermediate")])));
   (*L5428*) SAug true "quadruples_res" (EScale (-1 # 1) (EEins "mnfe,ebjk,fcml,adin->abcdijkl" [(ESlice (EVar "g_abab") [SV "o"; SV "o"; SV "v"; SV "v"]); (EVar "t2_bbbb"); (EVar "t2_abab"); (EVar "t2_abab")]));
   (*L5431*) SAug true "quadruples_res" (EScale (1 # 1) (EEins "nmef,ebjk,fclm,adin->abcdijkl" [(ESlice (EVar "g_bbbb") [SV "o"; SV "o"; SV "v"; SV "v"]); (EVar "t2_bbbb"); (EVar "t2_bbbb"); (EVar "t2_abab")]));
   (*L5434*) SAug true "quadruples_res" (EScale (-1 # 1) (EEins "nmfe,ebjk,fcim,adnl->abcdijkl" [(ESlice (EVar "g_abab") [SV "o"; SV "o"; SV "v"; SV "v"]); (EVar "t2_bbbb"); (EVar "t2_abab"); (EVar "t2_abab")]));
   (*L5437*) SAug true "quadruples_res" (EScale (1 # 2) (EEins "nmfe,ebjk,fcil,adnm->abcdijkl" [(ESlice (EVar "g_abab") [SV "o"; SV "o"; SV "v"; SV "v"]); (EVar "t2_bbbb"); (EVar "t2_abab"); (EVar "t2_abab")]));
   (*L5440*) SAug true "quadruples_res" (EScale (1 # 2) (EEins "mnfe,ebjk,fcil,admn->abcdijkl" [(ESlice (EVar "g_abab") [SV "o"; SV "o"; SV "v"; SV "v"]); (EVar "t2_bbbb"); (EVar "t2_abab"); (EVar "t2_abab")]));
   (*L5443*) SAug true "quadruples_res" (EScale (-1 # 2) (EEins "nmef,ebij,fckl,adnm->abcdijkl" [(ESlice (EVar "g_abab") [SV "o"; SV "o"; SV "v"; SV "v"]); (EVar "t2_abab"); (EVar "t2_bbbb"); (EVar "t2_abab")]));
   (*L5446*) SAug true "quadruples_res" (EScale (-1 # 2) (EEins "mnef,ebij,fckl,admn->abcdijkl" [(ESlice (EVar "g_abab") [SV "o"; SV "o"; SV "v"; SV "v"]); (EVar "t2_abab"); (EVar "t2_bbbb"); (EVar "t2_abab")]));
   (*L5449*) SAssign "contracted_intermediate" (EScale (-1 # 1) (EEins "nmef,ebik,fcml,adnj->abcdijkl" [(ESlice (EVar "g_aaaa") [SV "o"; SV "o"; SV "v"; SV "v"]); (EVar "t2_abab"); (EVar "t2_abab"); (EVar "t2_abab")]));
   (*L5450*) SAug true "quadruples_res" (EAdd (EScale (1 # 1) (EVar "contracted_intermediate")) (EScale (-1 # 1) (EEins "abcdijkl->abcdilkj" [(EVar "contracted_intermediate")])));
   (*L5453*) SAssign "contracted_intermediate" (EScale (1 # 1) (EEins "nmef,ebik,fclm,adnj->abcdijkl" [(ESlice (EVar "g_abab") [SV "o"; SV "o"; SV "v"; SV "v"]); (EVar "t2_abab"); (EVar "t2_bbbb"); (EVar "t2_abab")]));
   (*L5454*) SAug true "quadruples_res" (EAdd (EScale (1 # 1) (EVar "contracted_intermediate")) (EScale (-1 # 1) (EEins "abcdijkl->abcdilkj" [(EVar "contracted_intermediate")])));
   (*L5457*) SAssign "contracted_intermediate" (EScale (1 # 1) (EEins "nmef,ebij,fcml,adnk->abcdijkl" [(ESlice (EVar "g_aaaa") [SV "o"; SV "o"; SV "v"; SV "v"]); (EVar "t2_abab"); (EVar "t2_abab"); (EVar "t2_abab")]));
   (*L5458*) SAug true "quadruples_res" (EAdd (EScale (1 # 1) (EVar "contracted_intermediate")) (EScale (-1 # 1) (EEins "abcdijkl->abcdijlk" [(EVar "contracted_intermediate")])));
   (*L5461*) SAssign "contracted_intermediate" (EScale (-1 # 1) (EEins "nmef,ebij,fclm,adnk->abcdijkl" [(ESlice (EVar "g_abab") [SV "o"; SV "o"; SV "v"; SV "v"]); (EVar "t2_abab"); (EVar "t2_bbbb"); (EVar "t2_abab")]));
   (*L5462*) SAug true "quadruples_res" (EAdd (EScale (1 # 1) (EVar "contracted_intermediate")) (EScale (-1 # 1) (EEins "abcdijkl->abcdijlk" [(EVar "contracted_intermediate")])));
   (*L5465*) SAug true "quadruples_res" (EScale (1 # 1) (EEins "mnef,ecml,fdjk,abin->abcdijkl" [(ESlice (EVar "g_abab") [SV "o"; SV "o"; SV "v"; SV "v"]); (EVar "t2_abab"); (EVar "t2_bbbb"); (EVar "t2_abab")]));
   (*L5468*) SAug true "quadruples_res" (EScale (1 # 1) (EEins "nmef,eclm,fdjk,abin->abcdijkl" [(ESlice (EVar "g_bbbb") [SV "o"; SV "o"; SV "v"; SV "v"]); (EVar "t2_bbbb"); (EVar "t2_bbbb"); (EVar "t2_abab")]));
   (*L5471*) SAug true "quadruples_res" (EScale (-1 # 1) (EEins "nmef,ecml,fdik,abnj->abcdijkl" [(ESlice (EVar "g_aaaa") [SV "o"; SV "o"; SV "v"; SV "v"]); (EVar "t2_abab"); (EVar "t2_abab"); (EVar "t2_abab")]));
   (*L5474*) SAug true "quadruples_res" (EScale (-1 # 1) (EEins "nmfe,eclm,fdik,abnj->abcdijkl" [(ESlice (EVar "g_abab") [SV "o"; SV "o"; SV "v"; SV "v"]); (EVar "t2_bbbb"); (EVar "t2_abab"); (EVar "t2_abab")]));
   (*L5477*) SAssign "contracted_intermediate" (EScale (1 # 1) (EEins "nmef,ecml,fdij,abnk->abcdijkl" [(ESlice (EVar "g_aaaa") [SV "o"; SV "o"; SV "v"; SV "v"]); (EVar "t2_abab"); (EVar "t2_abab"); (EVar "t2_abab")]));
   (*L5478*) SAug true "quadruples_res" (EAdd (EScale (1 # 1) (EVar "contracted_intermediate")) (EScale (-1 # 1) (EEins "abcdijkl->abcdijlk" [(EVar "contracted_intermediate")])));
   (*L5481*) SAssign "contracted_intermediate" (EScale (1 # 1) (EEins "nmfe,eclm,fdij,abnk->abcdijkl" [(ESlice (EVar "g_abab") [SV "o"; SV "o"; SV "v"; SV "v"]); (EVar "t2_bbbb"); (EVar "t2_abab"); (EVar "t2_abab")]));
   (*L5482*) SAug true "quadruples_res" (EAdd (EScale (1 # 1) (EVar "contracted_intermediate")) (EScale (-1 # 1) (EEins "abcdijkl->abcdijlk" [(EVar "contracted_intermediate")])));
   (*L5485*) SAug true "quadruples_res" (EScale (-1 # 1) (EEins "mnef,ecmk,fdjl,abin->abcdijkl" [(ESlice (EVar "g_abab") [SV "o"; SV "o"; SV "v"; SV "v"]); (EVar "t2_abab"); (EVar "t2_bbbb"); (EVar "t2_abab")]));
   (*L5488*) SAug true "quadruples_res" (EScale (-1 # 1) (EEins "nmef,eckm,fdjl,abin->abcdijkl" [(ESlice (EVar "g_bbbb") [SV "o"; SV "o"; SV "v"; SV "v"]); (EVar "t2_bbbb"); (EVar "t2_bbbb"); (EVar "t2_abab")]));
   (*L5491*) SAug true "quadruples_res" (EScale (1 # 1) (EEins "nmef,ecmk,fdil,abnj->abcdijkl" [(ESlice (EVar "g_aaaa") [SV "o"; SV "o"; SV "v"; SV "v"]); (EVar "t2_abab"); (EVar "t2_abab"); (EVar "t2_abab")]));
   (*L5494*) SAug true "quadruples_res" (EScale (1 # 1) (EEins "nmfe,eckm,fdil,abnj->abcdijkl" [(ESlice (EVar "g_abab") [SV "o"; SV "o"; SV "v"; SV "v"]); (EVar "t2_bbbb"); (EVar "t2_abab"); (EVar "t2_abab")]));
   (*L5497*) SAug true "quadruples_res" (EScale (1 # 1) (EEins "mnef,ecmj,fdkl,abin->abcdijkl" [(ESlice (EVar "g_abab") [SV "o"; SV "o"; SV "v"; SV "v"]); (EVar "t2_abab"); (EVar "t2_bbbb"); (EVar "t2_abab")]));
   (*L5500*) SAug true "quadruples_res" (EScale (1 # 1) (EEins "nmef,ecjm,fdkl,abin->abcdijkl" [(ESlice (EVar "g_bbbb") [SV "o"; SV "o"; SV "v"; SV "v"]); (EVar "t2_bbbb"); (EVar "t2_bbbb"); (EVar "t2_abab")]));
   (*L5503*) SAug true "quadruples_res" (EScale (-1 # 1) (EEins "nmef,ecmj,fdil,abnk->abcdijkl" [(ESlice (EVar "g_aaaa") [SV "o"; SV "o"; SV "v"; SV "v"]); (EVar "t2_abab"); (EVar "t2_abab"); (EVar "t2_abab")]));
   (*L5506*) SAug true "quadruples_res" (EScale (-1 # 1) (EEins "nmfe,ecjm,fdil,abnk->abcdijkl" [(ESlice (EVar "g_abab") [SV "o"; SV "o"; SV "v"; SV "v"]); (EVar "t2_bbbb"); (EVar "t2_abab"); (EVar "t2_abab")]));
   (*L5509*) SAug true "quadruples_res" (EScale (1 # 1) (EEins "nmef,ecmj,fdik,abnl->abcdijkl" [(ESlice (EVar "g_aaaa") [SV "o"; SV "o"; SV "v"; SV "v"]); (EVar "t2_abab"); (EVar "t2_abab"); (EVar "t2_abab")]));
   (*L5512*) SAug true "quadruples_res" (EScale (1 # 1) (EEins "nmfe,ecjm,fdik,abnl->abcdijkl" [(ESlice (EVar "g_abab") [SV "o"; SV "o"; SV "v"; SV "v"]); (EVar "t2_bbbb"); (EVar "t2_abab"); (EVar "t2_abab")]));
   (*L5515*) SAug true "quadruples_res" (EScale (1 # 1) (EEins "nmef,ecim,fdjk,abnl->abcdijkl" [(ESlice (EVar "g_abab") [SV "o"; SV "o"; SV "v"; SV "v"]); (EVar "t2_abab"); (EVar "t2_bbbb"); (EVar "t2_abab")]));
   (*L5518*) SAssign "contracted_intermediate" (EScale (1 # 1) (EEins "nmef,ecim,fdkl,abnj->abcdijkl" [(ESlice (EVar "g_abab") [SV "o"; SV "o"; SV "v"; SV "v"]); (EVar "t2_abab"); (EVar "t2_bbbb"); (EVar "t2_abab")]));
   (*L5519*) SAug true "quadruples_res" (EAdd (EScale (1 # 1) (EVar "contracted_intermediate")) (EScale (-1 # 1) (EEins "abcdijkl->abcdikjl" [(EVar "contracted_intermediate")])));
   (*L5522*) SAug true "quadruples_res" (EScale (-1 # 1) (EEins "mnfe,eckl,fdmj,abin->abcdijkl" [(ESlice (EVar "g_abab") [SV "o"; SV "o"; SV "v"; SV "v"]); (EVar "t2_bbbb"); (EVar "t2_abab"); (EVar "t2_abab")]));
   (*L5525*) SAug true "quadruples_res" (EScale (1 # 1) (EEins "nmef,eckl,fdjm,abin->abcdijkl" [(ESlice (EVar "g_bbbb") [SV "o"; SV "o"; SV "v"; SV "v"]); (EVar "t2_bbbb"); (EVar "t2_bbbb"); (EVar "t2_abab")]));
   (*L5528*) SAug true "quadruples_res" (EScale (-1 # 1) (EEins "nmfe,eckl,fdim,abnj->abcdijkl" [(ESlice (EVar "g_abab") [SV "o"; SV "o"; SV "v"; SV "v"]); (EVar "t2_bbbb"); (EVar "t2_abab"); (EVar "t2_abab")]));
   (*L5531*) SAssign "contracted_intermediate" (EScale (1 # 2) (EEins "nmfe,eckl,fdij,abnm->abcdijkl" [(ESlice (EVar "g_abab") [SV "o"; SV "o"; SV "v"; SV "v"]); (EVar "t2_bbbb"); (EVar "t2_abab"); (EVar "t2_abab")]));
   (*L5532*) SAug true "quadruples_res" (EAdd (EScale (1 # 1) (EVar "contracted_intermediate")) (EScale (-1 # 1) (EEins "abcdijkl->abcdikjl" [(EVar "contracted_intermediate")])));
   (*L5535*) SAssign "contracted_intermediate" (EScale (1 # 2) (EEins "mnfe,eckl,fdij,abmn->abcdijkl" [(ESlice (EVar "g_abab") [SV "o"; SV "o"; SV "v"; SV "v"]); (EVar "t2_bbbb"); (EVar "t2_abab"); (EVar "t2_abab")]));
   (*L5536*) SAug true "quadruples_res" (EAdd (EScale (1 # 1) (EVar "contracted_intermediate")) (EScale (-1 # 1) (EEins "abcdijkl->abcdikjl" [(EVar "contracted_intermediate")])));
   (*L5539*) SAug true "quadruples_res" (EScale (1 # 1) (EEins "mnfe,ecjl,fdmk,abin->abcdijkl" [(ESlice (EVar "g_abab") [SV "o"; SV "o"; SV "v"; SV "v"]); (EVar "t2_bbbb"); (EVar "t2_abab"); (EVar "t2_abab")]));
   (*L5542*) SAug true "quadruples_res" (EScale (-1 # 1) (EEins "nmef,ecjl,fdkm,abin->abcdijkl" [(ESlice (EVar "g_bbbb") [SV "o"; SV "o"; SV "v"; SV "v"]); (EVar "t2_bbbb"); (EVar "t2_bbbb"); (EVar "t2_abab")]));
   (*L5545*) SAug true "quadruples_res" (EScale (1 # 1) (EEins "nmfe,ecjl,fdim,abnk->abcdijkl" [(ESlice (EVar "g_abab") [SV "o"; SV "o"; SV "v"; SV "v"]); (EVar "t2_bbbb"); (EVar "t2_abab"); (EVar "t2_abab")]));
   (*L5548*) SAssign "contracted_intermediate" (EScale (1 # 1) (EEins "nmef,ecil,fdmk,abnj->abcdijkl" [(ESlice (EVar "g_aaaa") [SV "o"; SV "o"; SV "v"; SV "v"]); (EVar "t2_abab"); (EVar "t2_abab"); (EVar "t2_abab")]));
   (*L5549*) SAug true "quadruples_res" (EAdd (EScale (1 # 1) (EVar "contracted_intermediate")) (EScale (-1 # 1) (EEins "abcdijkl->abcdikjl" [(EVar "contracted_intermediate")])));
   (*L5552*) SAssign "contracted_intermediate" (EScale (-1 # 1) (EEins "nmef,ecil,fdkm,abnj->abcdijkl" [(ESlice (EVar "g_abab") [SV "o"; SV "o"; SV "v"; SV "v"]); (EVar "t2_abab"); (EVar "t2_bbbb"); (EVar "t2_abab")]));
   (*L5553*) SAug true "quadruples_res" (EAdd (EScale (1 # 1) (EVar "contracted_intermediate")) (EScale (-1 # 1) (EEins "abcdijkl->abcdikjl" [(EVar "contracted_intermediate")])));
   (*L5556*) SAssign "contracted_intermediate" (EScale (-1 # 2) (EEins "nmef,ecil,fdjk,abnm->abcdijkl" [(ESlice (EVar "g_abab") [SV "o"; SV "o"; SV "v"; SV "v"]); (EVar "t2_abab"); (EVar "t2_bbbb"); (EVar "t2_abab")]));
   (*L5557*) SAug true "quadruples_res" (EAdd (EScale (1 # 1) (EVar "contracted_intermediate")) (EScale (-1 # 1) (EEins "abcdijkl->abcdijlk" [(EVar "contracted_intermediate")])));
   (*L5560*) SAssign "contracted_intermediate" (EScale (-1 # 2) (EEins "mnef,ecil,fdjk,abmn->abcdijkl" [(ESlice (EVar "g_abab") [SV "o"; SV "o"; SV "v"; SV "v"]); (EVar "t2_abab"); (EVar "t2_bbbb"); (EVar "t2_abab")]));
   (*L5561*) SAug true "quadruples_res" (EAdd (EScale (1 # 1) (EVar "contracted_intermediate")) (EScale (-1 # 1) (EEins "abcdijkl->abcdijlk" [(EVar "contracted_intermediate")])));
   (*L5564*) SAug true "quadruples_res" (EScale (-1 # 1) (EEins "mnfe,ecjk,fdml,abin->abcdijkl" [(ESlice (EVar "g_abab") [SV "o"; SV "o"; SV "v"; SV "v"]); (EVar "t2_bbbb"); (EVar "t2_abab"); (EVar "t2_abab")]));
   (*L5567*) SAug true "quadruples_res" (EScale (1 # 1) (EEins "nmef,ecjk,fdlm,abin->abcdijkl" [(ESlice (EVar "g_bbbb") [SV "o"; SV "o"; SV "v"; SV "v"]); (EVar "t2_bbbb"); (EVar "t2_bbbb"); (EVar "t2_abab")]));
   (*L5570*) SAug true "quadruples_res" (EScale (-1 # 1) (EEins "nmfe,ecjk,fdim,abnl->abcdijkl" [(ESlice (EVar "g_abab") [SV "o"; SV "o"; SV "v"; SV "v"]); (EVar "t2_bbbb"); (EVar "t2_abab"); (EVar "t2_abab")]));
   (*L5573*) SAug true "quadruples_res" (EScale (1 # 2) (EEins "nmfe,ecjk,fdil,abnm->abcdijkl" [(ESlice (EVar "g_abab") [SV "o"; SV "o"; SV "v"; SV "v"]); (EVar "t2_bbbb"); (EVar "t2_abab"); (EVar "t2_abab")]));
   (*L5576*) SAug true "quadruples_res" (EScale (1 # 2) (EEins "mnfe,ecjk,fdil,abmn->abcdijkl" [(ESlice (EVar "g_abab") [SV "o"; SV "o"; SV "v"; SV "v"]); (EVar "t2_bbbb"); (EVar "t2_abab"); (EVar "t2_abab")]));
   (*L5579*) SAug true "quadruples_res" (EScale (-1 # 2) (EEins "nmef,ecij,fdkl,abnm->abcdijkl" [(ESlice (EVar "g_abab") [SV "o"; SV "o"; SV "v"; SV "v"]); (EVar "t2_abab"); (EVar "t2_bbbb"); (EVar "t2_abab")]));
   (*L5582*) SAug true "quadruples_res" (EScale (-1 # 2) (EEins "mnef,ecij,fdkl,abmn->abcdijkl" [(ESlice (EVar "g_abab") [SV "o"; SV "o"; SV "v"; SV "v"]); (EVar "t2_abab"); (EVar "t2_bbbb"); (EVar "t2_abab")]));
   (*L5585*) SAssign "contracted_intermediate" (EScale (-1 # 1) (EEins "nmef,ecik,fdml,abnj->abcdijkl" [(ESlice (EVar "g_aaaa") [SV "o"; SV "o"; SV "v"; SV "v"]); (EVar "t2_abab"); (EVar "t2_abab"); (EVar "t2_abab")]));
   (*L5586*) SAug true "quadruples_res" (EAdd (EScale (1 # 1) (EVar "contracted_intermediate")) (EScale (-1 # 1) (EEins "abcdijkl->abcdilkj" [(EVar "contracted_intermediate")])));
   (*L5589*) SAssign "contracted_intermediate" (EScale (1 # 1) (EEins "nmef,ecik,fdlm,abnj->abcdijkl" [(ESlice (EVar "g_abab") [SV "o"; SV "o"; SV "v"; SV "v"]); (EVar "t2_abab"); (EVar "t2_bbbb"); (EVar "t2_abab")]));
   (*L5590*) SAug true "quadruples_res" (EAdd (EScale (1 # 1) (EVar "contracted_intermediate")) (EScale (-1 # 1) (EEins "abcdijkl->abcdilkj" [(EVar "contracted_intermediate")])));
   (*L5593*) SAssign "contracted_intermediate" (EScale (1 # 1) (EEins "nmef,ecij,fdml,abnk->abcdijkl" [(ESlice (EVar "g_aaaa") [SV "o"; SV "o"; SV "v"; SV "v"]); (EVar "t2_abab"); (EVar "t2_abab"); (EVar "t2_abab")]));
   (*L5594*) SAug true "quadruples_res" (EAdd (EScale (1 # 1) (EVar "contracted_intermediate")) (EScale (-1 # 1) (EEins "abcdijkl->abcdijlk" [(EVar "contracted_intermediate")])));
   (*L5597*) SAssign "contracted_intermediate" (EScale (-1 # 1) (EEins "nmef,ecij,fdlm,abnk->abcdijkl" [(ESlice (EVar "g_abab") [SV "o"; SV "o"; SV "v"; SV "v"]); (EVar "t2_abab"); (EVar "t2_bbbb"); (EVar "t2_abab")]));
   (*L5598*) SAug true "quadruples_res" (EAdd (EScale (1 # 1) (EVar "contracted_intermediate")) (EScale (-1 # 1) (EEins "abcdijkl->abcdijlk" [(EVar "contracted_intermediate")])))]
  (*L5600*) (EVar "quadruples_res").

(** /repo/UT2/ccdq_resids.py:5603-6672  def ccdq_t4_bbbbbbbb_residual *)
Definition ccdq_t4_bbbbbbbb_residual : fn := mkFn
  ["t2_aaaa"; "t2_bbbb"; "t2_abab"; "t4_aaaaaaaa"; "t4_aaabaaab"; "t4_aabbaabb"; "t4_abbbabbb"; "t4_bbbbbbbb"; "f_aa"; "f_bb"; "g_aaaa"; "g_bbbb"; "g_abab"; "oa"; "ob"; "va"; "vb"]
  [(*L5609*) SAssign "o" (EVar "oa");
   (*L5610*) SAssign "v" (EVar "va");
   (*L5613*) SAssign "contracted_intermediate" (EScale (-100000000000001 # 100000000000000) (EEins "ml,abcdijkm->abcdijkl" [(ESlice (EVar "f_bb") [SV "o"; SV "o"]); (ESlice (EVar "t4_bbbbbbbb") [SAll; SAll; SAll; SAll; SAll; SAll; SAll; SAll])]));
   (*L5614*) SAssign "quadruples_res" (EAdd (EScale (1 # 1) (EVar "contracted_intermediate")) (EScale (-1 # 1) (EEins "abcdijkl->abcdijlk" [(EVar "contracted_intermediate")])));
   (*L5617*) SAssign "contracted_intermediate" (EScale (-100000000000001 # 100000000000000) (EEins "mj,abcdiklm->abcdijkl" [(ESlice (EVar "f_bb") [SV "o"; SV "o"]); (ESlice (EVar "t4_bbbbbbbb") [SAll; SAll; SAll; SAll; SAll; SAll; SAll; SAll])]));
   (*L5618*) SAug true "quadruples_res" (EAdd (EScale (1 # 1) (EVar "contracted_intermediate")) (EScale (-1 # 1) (EEins "abcdijkl->abcdjikl" [(EVar "contracted_intermediate")])));
   (*L5621*) SAssign "contracted_intermediate" (EScale (100000000000001 # 100000000000000) (EEins "ae,ebcdijkl->abcdijkl" [(ESlice (EVar "f_bb") [SV "v"; SV "v"]); (ESlice (EVar "t4_bbbbbbbb") [SAll; SAll; SAll; SAll; SAll; SAll; SAll; SAll])]));
   (*L5622*) SAug true "quadruples_res" (EAdd (EScale (1 # 1) (EVar "contracted_intermediate")) (EScale (-1 # 1) (EEins "abcdijkl->bacdijkl" [(EVar "contracted_intermediate")])));
   (*L5625*) SAssign "contracted_intermediate" (EScale (100000000000001 # 100000000000000) (EEins "ce,eabdijkl->abcdijkl" [(ESlice (EVar "f_bb") [SV "v"; SV "v"]); (ESlice (EVar "t4_bbbbbbbb") [SAll; SAll; SAll; SAll; SAll; SAll; SAll; SAll])]));
   (*L5626*) SAug true "quadruples_res" (EAdd (EScale (1 # 1) (EVar "contracted_intermediate")) (EScale (-1 # 1) (EEins "abcdijkl->abdcijkl" [(EVar "contracted_intermediate")])));
   (*L5629*) SAssign "contracted_intermediate" (EScale (50000000000001 # 100000000000000) (EEins "nmkl,abcdijnm->abcdijkl" [(ESlice (EVar "g_bbbb") [SV "o"; SV "o"; SV "o"; SV "o"]); (ESlice (EVar "t4_bbbbbbbb") [SAll; SAll; SAll; SAll; SAll; SAll; SAll; SAll])]));
   (*L5630*) SAug true "quadruples_res" (EAdd (EScale (1 # 1) (EVar "contracted_intermediate")) (EScale (-1 # 1) (EEins "abcdijkl->abcdikjl" [(EVar "contracted_intermediate")])));
   (*L5633*) SAssign "contracted_intermediate" (EScale (50000000000001 # 100000000000000) (EEins "nmil,abcdjknm->abcdijkl" [(ESlice (EVar "g_bbbb") [SV "o"; SV "o"; SV "o"; SV "o"]); (ESlice (EVar "t4_bbbbbbbb") [SAll; SAll; SAll; SAll; SAll; SAll; SAll; SAll])]));
   (*L5634*) SAug true "quadruples_res" (EAdd (EScale (1 # 1) (EVar "contracted_intermediate")) (EScale (-1 # 1) (EEins "abcdijkl->abcdijlk" [(EVar "contracted_intermediate")])));
   (*L5637*) SAssign "contracted_intermediate" (EScale (50000000000001 # 100000000000000) (EEins "nmjk,abcdilnm->abcdijkl" [(ESlice (EVar "g_bbbb") [SV "o"; SV "o"; SV "o"; SV "o"]); (ESlice (EVar "t4_bbbbbbbb") [SAll; SAll; SAll; SAll; SAll; SAll; SAll; SAll])]));
   (*L5638*) SAug true "quadruples_res" (EAdd (EScale (1 # 1) (EVar "contracted_intermediate")) (EScale (-1 # 1) (EEins "abcdijkl->abcdkjil" [(EVar "contracted_intermediate")])));
   (*L5641*) SAssign "contracted_intermediate" (EScale (-50000000000001 # 50000000000000) (EEins "mael,ebcdmjki->abcdijkl" [(ESlice (EVar "g_abab") [SV "o"; SV "v"; SV "v"; SV "o"]); (ESlice (EVar "t4_abbbabbb") [SAll; SAll; SAll; SAll; SAll; SAll; SAll; SAll])]));
   (*L5642*) SAug true "quadruples_res" (EAdd (EAdd (EAdd (EScale (1 # 1) (EVar "contracted_intermediate")) (EScale (-1 # 1) (EEins "abcdijkl->abcdijlk" [(EVar "contracted_intermediate")]))) (EScale (-1 # 1) (EEins "abcdijkl->bacdijkl" [(EVar "contracted_intermediate")]))) (EScale (1 # 1) (EEins "abcdijkl->bacdijlk" [(EVar "contracted_intermediate")])));
   (*L5645*) SAssign "contracted_intermediate" (EScale (50000000000001 # 50000000000000) (EEins "mael,ebcdijkm->abcdijkl" [(ESlice (EVar "g_bbbb") [SV "o"; SV "v"; SV "v"; SV "o"]); (ESlice (EVar "t4_bbbbbbbb") [SAll; SAll; SAll; SAll; SAll; SAll; SAll; SAll])]));
   (*L5646*) SAug true "quadruples_res" (EAdd (EAdd (EAdd (EScale (1 # 1) (EVar "contracted_intermediate")) (EScale (-1 # 1) (EEins "abcdijkl->abcdijlk" [(EVar "contracted_intermediate")]))) (EScale (-1 # 1) (EEins "abcdijkl->bacdijkl" [(EVar "contracted_intermediate")]))) (EScale (1 # 1) (EEins "abcdijkl->bacdijlk" [(EVar "contracted_intermediate")])));
   (*L5649*) SAssign "contracted_intermediate" (EScale (-50000000000001 # 50000000000000) (EEins "maej,ebcdmkli->abcdijkl" [(ESlice (EVar "g_abab") [SV "o"; SV "v"; SV "v"; SV "o"]); (ESlice (EVar "t4_abbbabbb") [SAll; SAll; SAll; SAll; SAll; SAll; SAll; SAll])]));
   (*L5650*) SAug true "quadruples_res" (EAdd (EAdd (EAdd (EScale (1 # 1) (EVar "contracted_intermediate")) (EScale (-1 # 1) (EEins "abcdijkl->abcdjikl" [(EVar "contracted_intermediate")]))) (EScale (-1 # 1) (EEins "abcdijkl->bacdijkl" [(EVar "contracted_intermediate")]))) (EScale (1 # 1) (EEins "abcdijkl->bacdjikl" [(EVar "contracted_intermediate")])));
   (*L5653*) SAssign "contracted_intermediate" (EScale (50000000000001 # 50000000000000) (EEins "maej,ebcdiklm->abcdijkl" [(ESlice (EVar "g_bbbb") [SV "o"; SV "v"; SV "v"; SV "o"]); (ESlice (EVar "t4_bbbbbbbb") [SAll; SAll; SAll; SAll; SAll; SAll; SAll; SAll])]));
   (*L5654*) SAug true "quadruples_res" (EAdd (EAdd (EAdd (EScale (1 # 1) (EVar "contracted_intermediate")) (EScale (-1 # 1) (EEins "abcdijkl->abcdjikl" [(EVar "contracted_intermediate")]))) (EScale (-1 # 1) (EEins "abcdijkl->bacdijkl" [(EVar "contracted_intermediate")]))) (EScale (1 # 1) (EEins "abcdijkl->bacdjikl" [(EVar "contracted_intermediate")])));
   (*L5657*) SAssign "contracted_intermediate" (EScale (-50000000000001 # 50000000000000) (EEins "mcel,eabdmjki->abcdijkl" [(ESlice (EVar "g_abab") [SV "o"; SV "v"; SV "v"; SV "o"]); (ESlice (EVar "t4_abbbabbb") [SAll; SAll; SAll; SAll; SAll; SAll; SAll; SAll])]));
   (*L5658*) SAug true "quadruples_res" (EAdd (EAdd (EAdd (EScale (1 # 1) (EVar "contracted_intermediate")) (EScale (-1 # 1) (EEins "abcdijkl->abcdijlk" [(EVar "contracted_intermediate")]))) (EScale (-1 # 1) (EEins "abcdijkl->abdcijkl" [(EVar "contracted_intermediate")]))) (EScale (1 # 1) (EEins "abcdijkl->abdcijlk" [(EVar "contracted_intermediate")])));
   (*L5661*) SAssign "contracted_intermediate" (EScale (50000000000001 # 50000000000000) (EEins "mcel,eabdijkm->abcdijkl" [(ESlice (EVar "g_bbbb") [SV "o"; SV "v"; SV "v"; SV "o"]); (ESlice (EVar "t4_bbbbbbbb") [SAll; SAll; SAll; SAll; SAll; SAll; SAll; SAll])]));
   (*L5662*) SAug true "quadruples_res" (EAdd (EAdd (EAdd (EScale (1 # 1) (EVar "contracted_intermediate")) (EScale (-1 # 1) (EEins "abcdijkl->abcdijlk" [(EVar "contracted_intermediate")]))) (EScale (-1 # 1) (EEins "abcdijkl->abdcijkl" [(EVar "contracted_intermediate")]))) (EScale (1 # 1) (EEins "abcdijkl->abdcijlk" [(EVar "contracted_intermediate")])));
   (*L5665*) SAssign "contracted_intermediate" (EScale (-50000000000001 # 50000000000000) (EEins "mcej,eabdmkli->abcdijkl" [(ESlice (EVar "g_abab") [SV "o"; SV "v"; SV "v"; SV "o"]); (ESlice (EVar "t4_abbbabbb") [SAll; SAll; SAll; SAll; SAll; SAll; SAll; SAll])]));
   (*L5666*) SAug true "quadruples_res" (EAdd (EAdd (EAdd (EScale (1 # 1) (EVar "contracted_intermediate")) (EScale (-1 # 1) (EEins "abcdijkl->abcdjikl" [(EVar "contracted_intermediate")]))) (EScale (-1 # 1) (EEins "abcdijkl->abdcijkl" [(EVar "contracted_intermediate")]))) (EScale (1 # 1) (EEins "abcdijkl->abdcjikl" [(EVar "contracted_intermediate")])));
   (*L5669*) SAssign "contracted_intermediate" (EScale (50000000000001 # 50000000000000) (EEins "mcej,eabdiklm->abcdijkl" [(ESlice (EVar "g_bbbb") [SV "o"; SV "v"; SV "v"; SV "o"]); (ESlice (EVar "t4_bbbbbbbb") [SAll; SAll; SAll; SAll; SAll; SAll; SAll; SAll])]));
   (*L5670*) SAug true "quadruples_res" (EAdd (EAdd (EAdd (EScale (1 # 1) (EVar "contracted_intermediate")) (EScale (-1 # 1) (EEins "abcdijkl->abcdjikl" [(EVar "contracted_intermediate")]))) (EScale (-1 # 1) (EEins "abcdijkl->abdcijkl" [(EVar "contracted_intermediate")]))) (EScale (1 # 1) (EEins "abcdijkl->abdcjikl" [(EVar "contracted_intermediate")])));
   (*L5673*) SAssign "contracted_intermediate" (EScale (50000000000001 # 100000000000000) (EEins "abef,efcdijkl->abcdijkl" [(ESlice (EVar "g_bbbb") [SV "v"; SV "v"; SV "v"; SV "v"]); (ESlice (EVar "t4_bbbbbbbb") [SAll; SAll; SAll; SAll; SAll; SAll; SAll; SAll])]));
   (*L5674*) SAug true "quadruples_res" (EAdd (EScale (1 # 1) (EVar "contracted_intermediate")) (EScale (-1 # 1) (EEins "abcdijkl->acbdijkl" [(EVar "contracted_intermediate")])));
   (*L5677*) SAssign "contracted_intermediate" (EScale (50000000000001 # 100000000000000) (EEins "adef,efbcijkl->abcdijkl" [(ESlice (EVar "g_bbbb") [SV "v"; SV "v"; SV "v"; SV "v"]); (ESlice (EVar "t4_bbbbbbbb") [SAll; SAll; SAll; SAll; SAll; SAll; SAll; SAll])]));
   (*L5678*) SAug true "quadruples_res" (EAdd (EScale (1 # 1) (EVar "contracted_intermediate")) (EScale (-1 # 1) (EEins "abcdijkl->bacdijkl" [(EVar "contracted_intermediate")])));
   (*L5681*) SAssign "contracted_intermediate" (EScale (50000000000001 # 100000000000000) (EEins "bcef,efadijkl->abcdijkl" [(ESlice (EVar "g_bbbb") [SV "v"; SV "v"; SV "v"; SV "v"]); (ESlice (EVar "t4_bbbbbbbb") [SAll; SAll; SAll; SAll; SAll; SAll; SAll; SAll])]));
   (*L5682*) SAug true "quadruples_res" (EAdd (EScale (1 # 1) (EVar "contracted_intermediate")) (EScale (-1 # 1) (EEins "abcdijkl->adcbijkl" [(EVar "contracted_intermediate")])));
   (*L5685*) SAssign "contracted_intermediate" (EScale (-9999999999999 # 20000000000000) (EEins "mnef,efml,abcdijkn->abcdijkl" [(ESlice (EVar "g_abab") [SV "o"; SV "o"; SV "v"; SV "v"]); (EVar "t2_abab"); (ESlice (EVar "t4_bbbbbbbb") [SAll; SAll; SAll; SAll; SAll; SAll; SAll; SAll])]));
   (*L5686*) SAug true "quadruples_res" (EAdd (EScale (1 # 1) (EVar "contracted_intermediate")) (EScale (-1 # 1) (EEins "abcdijkl->abcdijlk" [(EVar "contracted_intermediate")])));
   (*L5689*) SAssign "contracted_intermediate" (EScale (-9999999999999 # 20000000000000) (EEins "mnfe,feml,abcdijkn->abcdijkl" [(ESlice (EVar "g_abab") [SV "o"; SV "o"; SV "v"; SV "v"]); (EVar "t2_abab"); (ESlice (EVar "t4_bbbbbbbb") [SAll; SAll; SAll; SAll; SAll; SAll; SAll; SAll])]));
   (*L5690*) SAug true "quadruples_res" (EAdd (EScale (1 # 1) (EVar "contracted_intermediate")) (EScale (-1 # 1) (EEins "abcdijkl->abcdijlk" [(EVar "contracted_intermediate")])));
   (*L5693*) SAssign "contracted_intermediate" (EScale (-9999999999999 # 20000000000000) (EEins "nmef,eflm,abcdijkn->abcdijkl" [(ESlice (EVar "g_bbbb") [SV "o"; SV "o"; SV "v"; SV "v"]); (EVar "t2_bbbb"); (ESlice (EVar "t4_bbbbbbbb") [SAll; SAll; SAll; SAll; SAll; SAll; SAll; SAll])]));
   (*L5694*) SAug true "quadruples_res" (EAdd (EScale (1 # 1) (EVar "contracted_intermediate")) (EScale (-1 # 1) (EEins "abcdijkl->abcdijlk" [(EVar "contracted_intermediate")])));
   (*L5697*) SAssign "contracted_intermediate" (EScale (-9999999999999 # 20000000000000) (EEins "mnef,efmj,abcdikln->abcdijkl" [(ESlice (EVar "g_abab") [SV "o"; SV "o"; SV "v"; SV "v"]); (EVar "t2_abab"); (ESlice (EVar "t4_bbbbbbbb") [SAll; SAll; SAll; SAll; SAll; SAll; SAll; SAll])]));
   (*L5698*) SAug true "quadruples_res" (EAdd (EScale (1 # 1) (EVar "contracted_intermediate")) (EScale (-1 # 1) (EEins "abcdijkl->abcdjikl" [(EVar "contracted_intermediate")])));
   (*L5701*) SAssign "contracted_intermediate" (EScale (-9999999999999 # 20000000000000) (EEins "mnfe,femj,abcdikln->abcdijkl" [(ESlice (EVar "g_abab") [SV "o"; SV "o"; SV "v"; SV "v"]); (EVar "t2_abab"); (ESlice (EVar "t4_bbbbbbbb") [SAll; SAll; SAll; SAll; SAll; SAll; SAll; SAll])]));
   (*L5702*) SAug true "quadruples_res" (EAdd (EScale (1 # 1) (EVar "contracted_intermediate")) (EScale (-1 # 1) (EEins "abcdijkl->abcdjikl" [(EVar "contracted_intermediate")])));
   (*L5705*) SAssign "contracted_intermediate" (EScale (-9999999999999 # 20000000000000) (EEins "nmef,efjm,abcdikln->abcdijkl" [(ESlice (EVar "g_bbbb") [SV "o"; SV "o"; SV "v"; SV "v"]); (EVar "t2_bbbb"); (ESlice (EVar "t4_bbbbbbbb") [SAll; SAll; SAll; SAll; SAll; SAll; SAll; SAll])]));
   (*L5706*) SAug true "quadruples_res" (EAdd (EScale (1 # 1) (EVar "contracted_intermediate")) (EScale (-1 # 1) (EEins "abcdijkl->abcdjikl" [(EVar "contracted_intermediate")])));
   (*L5709*) SAssign "contracted_intermediate" (EScale (25000000000001 # 100000000000000) (EEins "nmef,efkl,abcdijnm->abcdijkl" [(ESlice (EVar "g_bbbb") [SV "o"; SV "o"; SV "v"; SV "v"]); (EVar "t2_bbbb"); (ESlice (EVar "t4_bbbbbbbb") [SAll; SAll; SAll; SAll; SAll; SAll; SAll; SAll])]));
   (*L5710*) SAug true "quadruples_res" (EAdd (EScale (1 # 1) (EVar "contracted_intermediate")) (EScale (-1 # 1) (EEins "abcdijkl->abcdikjl" [(EVar "contracted_intermediate")])));
   (*L5713*) SAssign "contracted_intermediate" (EScale (25000000000001 # 100000000000000) (EEins "nmef,efil,abcdjknm->abcdijkl" [(ESlice (EVar "g_bbbb") [SV "o"; SV "o"; SV "v"; SV "v"]); (EVar "t2_bbbb"); (ESlice (EVar "t4_bbbbbbbb") [SAll; SAll; SAll; SAll; SAll; SAll; SAll; SAll])]));
   (*L5714*) SAug true "quadruples_res" (EAdd (EScale (1 # 1) (EVar "contracted_intermediate")) (EScale (-1 # 1) (EEins "abcdijkl->abcdijlk" [(EVar "contracted_intermediate")])));
   (*L5717*) SAssign "contracted_intermediate" (EScale (25000000000001 # 100000000000000) (EEins "nmef,efjk,abcdilnm->abcdijkl" [(ESlice (EVar "g_bbbb") [SV "o"; SV "o"; SV "v"; SV "v"]); (EVar "t2_bbbb"); (ESlice (EVar "t4_bbbbbbbb") [SAll; SAll; SAll; SAll; SAll; SAll; SAll; SAll])]));
   (*L5718*) SAug true "quadruples_res" (EAdd (EScale (1 # 1) (EVar "contracted_intermediate")) (EScale (-1 # 1) (EEins "abcdijkl->abcdkjil" [(EVar "contracted_intermediate")])));
   (*L5721*) SAssign "contracted_intermediate" (EScale (-9999999999999 # 20000000000000) (EEins "nmef,eanm,fbcdijkl->abcdijkl" [(ESlice (EVar "g_abab") [SV "o"; SV "o"; SV "v"; SV "v"]); (EVar "t2_abab"); (ESlice (EVar "t4_bbbbbbbb") [SAll; SAll; SAll; SAll; SAll; SAll; SAll; SAll])]));
   (*L5722*) SAug true "quadruples_res" (EAdd (EScale (1 # 1) (EVar "contracted_intermediate")) (EScale (-1 # 1) (EEins "abcdijkl->bacdijkl" [(EVar "contracted_intermediate")])));
   (*L5725*) SAssign "contracted_intermediate" (EScale (-9999999999999 # 20000000000000) (EEins "mnef,eamn,fbcdijkl->abcdijkl" [(ESlice (EVar "g_abab") [SV "o"; SV "o"; SV "v"; SV "v"]); (EVar "t2_abab"); (ESlice (EVar "t4_bbbbbbbb") [SAll; SAll; SAll; SAll; SAll; SAll; SAll; SAll])]));
   (*L5726*) SAug true "quadruples_res" (EAdd (EScale (1 # 1) (EVar "contracted_intermediate")) (EScale (-1 # 1) (EEins "abcdijkl->bacdijkl" [(EVar "contracted_intermediate")])));
   (*L5729*) SAssign "contracted_intermediate" (EScale (-9999999999999 # 20000000000000) (EEins "nmef,eanm,fbcdijkl->abcdijkl" [(ESlice (EVar "g_bbbb") [SV "o"; SV "o"; SV "v"; SV "v"]); (EVar "t2_bbbb"); (ESlice (EVar "t4_bbbbbbbb") [SAll; SAll; SAll; SAll; SAll; SAll; SAll; SAll])]));
   (*L5730*) SAug true "quadruples_res" (EAdd (EScale (1 # 1) (EVar "contracted_intermediate")) (EScale (-1 # 1) (EEins "abcdijkl->bacdijkl" [(EVar "contracted_intermediate")])));
   (*L5733*) SAssign "contracted_intermediate" (EScale (6249999999999 # 6250000000000) (EEins "nmef,eaml,fbcdnjki->abcdijkl" [(ESlice (EVar "g_aaaa") [SV "o"; SV "o"; SV "v"; SV "v"]); (EVar "t2_abab"); (ESlice (EVar "t4_abbbabbb") [SAll; SAll; SAll; SAll; SAll; SAll; SAll; SAll])]));
   (*L5734*) SAug true "quadruples_res" (EAdd (EAdd (EAdd (EScale (1 # 1) (EVar "contracted_intermediate")) (EScale (-1 # 1) (EEins "abcdijkl->abcdijlk" [(EVar "contracted_intermediate")]))) (EScale (-1 # 1) (EEins "abcdijkl->bacdijkl" [(EVar "contracted_intermediate")]))) (EScale (1 # 1) (EEins "abcdijkl->bacdijlk" [(EVar "contracted_intermediate")])));
   (*L5737*) SAssign "contracted_intermediate" (EScale (6249999999999 # 6250000000000) (EEins "mnef,eaml,fbcdijkn->abcdijkl" [(ESlice (EVar "g_abab") [SV "o"; SV "o"; SV "v"; SV "v"]); (EVar "t2_abab"); (ESlice (EVar "t4_bbbbbbbb") [SAll; SAll; SAll; SAll; SAll; SAll; SAll; SAll])]));
   (*L5738*) SAug true "quadruples_res" (EAdd (EAdd (EAdd (EScale (1 # 1) (EVar "contracted_intermediate")) (EScale (-1 # 1) (EEins "abcdijkl->abcdijlk" [(EVar "contracted_intermediate")]))) (EScale (-1 # 1) (EEins "abcdijkl->bacdijkl" [(EVar "contracted_intermediate")]))) (EScale (1 # 1) (EEins "abcdijkl->bacdijlk" [(EVar "contracted_intermediate")])));
   (*L5741*) SAssign "contracted_intermediate" (EScale (6249999999999 # 6250000000000) (EEins "nmfe,ealm,fbcdnjki->abcdijkl" [(ESlice (EVar "g_abab") [SV "o"; SV "o"; SV "v"; SV "v"]); (EVar "t2_bbbb"); (ESlice (EVar "t4_abbbabbb") [SAll; SAll; SAll; SAll; SAll; SAll; SAll; SAll])]));
   (*L5742*) SAug true "quadruples_res" (EAdd (EAdd (EAdd (EScale (1 # 1) (EVar "contracted_intermediate")) (EScale (-1 # 1) (EEins "abcdijkl->abcdijlk" [(EVar "contracted_intermediate")]))) (EScale (-1 # 1) (EEins "abcdijkl->bacdijkl" [(EVar "contracted_intermediate")]))) (EScale (1 # 1) (EEins "abcdijkl->bacdijlk" [(EVar "contracted_intermediate")])));
   (*L5745*) SAssign "contracted_intermediate" (EScale (6249999999999 # 6250000000000) (EEins "nmef,ealm,fbcdijkn->abcdijkl" [(ESlice (EVar "g_bbbb") [SV "o"; SV "o"; SV "v"; SV "v"]); (EVar "t2_bbbb"); (ESlice (EVar "t4_bbbbbbbb") [SAll; SAll; SAll; SAll; SAll; SAll; SAll; SAll])]));
   (*L5746*) SAug true "quadruples_res" (EAdd (EAdd (EAdd (EScale (1 # 1) (EVar "contracted_intermediate")) (EScale (-1 # 1) (EEins "abcdijkl->abcdijlk" [(EVar "contracted_intermediate")]))) (EScale (-1 # 1) (EEins "abcdijkl->bacdijkl" [(EVar "contracted_intermediate")]))) (EScale (1 # 1) (EEins "abcdijkl->bacdijlk" [(EVar "contracted_intermediate")])));
   (*L5749*) SAssign "contracted_intermediate" (EScale (6249999999999 # 6250000000000) (EEins "nmef,eamj,fbcdnkli->abcdijkl" [(ESlice (EVar "g_aaaa") [SV "o"; SV "o"; SV "v"; SV "v"]); (EVar "t2_abab"); (ESlice (EVar "t4_abbbabbb") [SAll; SAll; SAll; SAll; SAll; SAll; SAll; SAll])]));
   (*L5750*) SAug true "quadruples_res" (EAdd (EAdd (EAdd (EScale (1 # 1) (EVar "contracted_intermediate")) (EScale (-1 # 1) (EEins "abcdijkl->abcdjikl" [(EVar "contracted_intermediate")]))) (EScale (-1 # 1) (EEins "abcdijkl->bacdijkl" [(EVar "contracted_intermediate")]))) (EScale (1 # 1) (EEins "abcdijkl->bacdjikl" [(EVar "contracted_intermediate")])));
   (*L5753*) SAssign "contracted_intermediate" (EScale (6249999999999 # 6250000000000) (EEins "mnef,eamj,fbcdikln->abcdijkl" [(ESlice (EVar "g_abab") [SV "o"; SV "o"; SV "v"; SV "v"]); (EVar "t2_abab"); (ESlice (EVar "t4_bbbbbbbb") [SAll; SAll; SAll; SAll; SAll; SAll; SAll; SAll])]));
   (*L5754*) SAug true "quadruples_res" (EAdd (EAdd (EAdd (EScale (1 # 1) (EVar "contracted_intermediate")) (EScale (-1 # 1) (EEins "abcdijkl->abcdjikl" [(EVar "contracted_intermediate")]))) (EScale (-1 # 1) (EEins "abcdijkl->bacdijkl" [(EVar "contracted_intermediate")]))) (EScale (1 # 1) (EEins "abcdijkl->bacdjikl" [(EVar "contracted_intermediate")])));
   (*L5757*) SAssign "contracted_intermediate" (EScale (6249999999999 # 6250000000000) (EEins "nmfe,eajm,fbcdnkli->abcdijkl" [(ESlice (EVar "g_abab") [SV "o"; SV "o"; SV "v"; SV "v"]); (EVar "t2_bbbb"); (ESlice (EVar "t4_abbbabbb") [SAll; SAll; SAll; SAll; SAll; SAll; SAll; SAll])]));
   (*L5758*) SAug true "quadruples_res" (EAdd (EAdd (EAdd (EScale (1 # 1) (EVar "contracted_intermediate")) (EScale (-1 # 1) (EEins "abcdijkl->abcdjikl" [(EVar "contracted_intermediate")]))) (EScale (-1 # 1) (EEins "abcdijkl->bacdijkl" [(EVar "contracted_intermediate")]))) (EScale (1 # 1) (EEins "abcdijkl->bacdjikl" [(EVar "contracted_intermediate")])));
   (*L5761*) SAssign "contracted_intermediate" (EScale (6249999999999 # 6250000000000) (EEins "nmef,eajm,fbcdikln->abcdijkl" [(ESlice (EVar "g_bbbb") [SV "o"; SV "o"; SV "v"; SV "v"]); (EVar "t2_bbbb"); (ESlice (EVar "t4_bbbbbbbb") [SAll; SAll; SAll; SAll; SAll; SAll; SAll; SAll])]));
   (*L5762*) SAug true "quadruples_res" (EAdd (EAdd (EAdd (EScale (1 # 1) (EVar "contracted_intermediate")) (EScale (-1 # 1) (EEins "abcdijkl->abcdjikl" [(EVar "contracted_intermediate")]))) (EScale (-1 # 1) (EEins "abcdijkl->bacdijkl" [(EVar "contracted_intermediate")]))) (EScale (1 # 1) (EEins "abcdijkl->bacdjikl" [(EVar "contracted_intermediate")])));
   (*L5765*) SAssign "contracted_intermediate" (EScale (-9999999999999 # 20000000000000) (EEins "nmfe,eakl,fbcdnjim->abcdijkl" [(ESlice (EVar "g_abab") [SV "o"; SV "o"; SV "v"; SV "v"]); (EVar "t2_bbbb"); (ESlice (EVar "t4_abbbabbb") [SAll; SAll; SAll; SAll; SAll; SAll; SAll; SAll])]));
   (*L5766*) SAug true "quadruples_res" (EAdd (EAdd (EAdd (EScale (1 # 1) (EVar "contracted_intermediate")) (EScale (-1 # 1) (EEins "abcdijkl->abcdikjl" [(EVar "contracted_intermediate")]))) (EScale (-1 # 1) (EEins "abcdijkl->bacdijkl" [(EVar "contracted_intermediate")]))) (EScale (1 # 1) (EEins "abcdijkl->bacdikjl" [(EVar "contracted_intermediate")])));
   (*L5769*) SAssign "contracted_intermediate" (EScale (9999999999999 # 20000000000000) (EEins "mnfe,eakl,fbcdmjni->abcdijkl" [(ESlice (EVar "g_abab") [SV "o"; SV "o"; SV "v"; SV "v"]); (EVar "t2_bbbb"); (ESlice (EVar "t4_abbbabbb") [SAll; SAll; SAll; SAll; SAll; SAll; SAll; SAll])]));
   (*L5770*) SAug true "quadruples_res" (EAdd (EAdd (EAdd (EScale (1 # 1) (EVar "contracted_intermediate")) (EScale (-1 # 1) (EEins "abcdijkl->abcdikjl" [(EVar "contracted_intermediate")]))) (EScale (-1 # 1) (EEins "abcdijkl->bacdijkl" [(EVar "contracted_intermediate")]))) (EScale (1 # 1) (EEins "abcdijkl->bacdikjl" [(EVar "contracted_intermediate")])));
   (*L5773*) SAssign "contracted_intermediate" (EScale (-9999999999999 # 20000000000000) (EEins "nmef,eakl,fbcdijnm->abcdijkl" [(ESlice (EVar "g_bbbb") [SV "o"; SV "o"; SV "v"; SV "v"]); (EVar "t2_bbbb"); (ESlice (EVar "t4_bbbbbbbb") [SAll; SAll; SAll; SAll; SAll; SAll; SAll; SAll])]));
   (*L5774*) SAug true "quadruples_res" (EAdd (EAdd (EAdd (EScale (1 # 1) (EVar "contracted_intermediate")) (EScale (-1 # 1) (EEins "abcdijkl->abcdikjl" [(EVar "contracted_intermediate")]))) (EScale (-1 # 1) (EEins "abcdijkl->bacdijkl" [(EVar "contracted_intermediate")]))) (EScale (1 # 1) (EEins "abcdijkl->bacdikjl" [(EVar "contracted_intermediate")])));
   (*L5777*) SAssign "contracted_intermediate" (EScale (-9999999999999 # 20000000000000) (EEins "nmfe,eail,fbcdnkjm->abcdijkl" [(ESlice (EVar "g_abab") [SV "o"; SV "o"; SV "v"; SV "v"]); (EVar "t2_bbbb"); (ESlice (EVar "t4_abbbabbb") [SAll; SAll; SAll; SAll; SAll; SAll; SAll; SAll])]));
   (*L5778*) SAug true "quadruples_res" (EAdd (EAdd (EAdd (EScale (1 # 1) (EVar "contracted_intermediate")) (EScale (-1 # 1) (EEins "abcdijkl->abcdijlk" [(EVar "contracted_intermediate")]))) (EScale (-1 # 1) (EEins "abcdijkl->bacdijkl" [(EVar "contracted_intermediate")]))) (EScale (1 # 1) (EEins "abcdijkl->bacdijlk" [(EVar "contracted_intermediate")])));
   (*L5781*) SAssign "contracted_intermediate" (EScale (9999999999999 # 20000000000000) (EEins "mnfe,eail,fbcdmknj->abcdijkl" [(ESlice (EVar "g_abab") [SV "o"; SV "o"; SV "v"; SV "v"]); (EVar "t2_bbbb"); (ESlice (EVar "t4_abbbabbb") [SAll; SAll; SAll; SAll; SAll; SAll; SAll; SAll])]));
   (*L5782*) SAug true "quadruples_res" (EAdd (EAdd (EAdd (EScale (1 # 1) (EVar "contracted_intermediate")) (EScale (-1 # 1) (EEins "abcdijkl->abcdijlk" [(EVar "contracted_intermediate")]))) (EScale (-1 # 1) (EEins "abcdijkl->bacdijkl" [(EVar "contracted_intermediate")]))) (EScale (1 # 1) (EEins "abcdijkl->bacdijlk" [(EVar "contracted_intermediate")])));
   (*L5785*) SAssign "contracted_intermediate" (EScale (-9999999999999 # 20000000000000) (EEins "nmef,eail,fbcdjknm->abcdijkl" [(ESlice (EVar "g_bbbb") [SV "o"; SV "o"; SV "v"; SV "v"]); (EVar "t2_bbbb"); (ESlice (EVar "t4_bbbbbbbb") [SAll; SAll; SAll; SAll; SAll; SAll; SAll; SAll])]));
   (*L5786*) SAug true "quadruples_res" (EAdd (EAdd (EAdd (EScale (1 # 1) (EVar "contracted_intermediate")) (EScale (-1 # 1) (EEins "abcdijkl->abcdijlk" [(EVar "contracted_intermediate")]))) (EScale (-1 # 1) (EEins "abcdijkl->bacdijkl" [(EVar "contracted_intermediate")]))) (EScale (1 # 1) (EEins "abcdijkl->bacdijlk" [(EVar "contracted_intermediate")])));
   (*L5789*) SAssign "contracted_intermediate" (EScale (-9999999999999 # 20000000000000) (EEins "nmfe,eajk,fbcdnlim->abcdijkl" [(ESlice (EVar "g_abab") [SV "o"; SV "o"; SV "v"; SV "v"]); (EVar "t2_bbbb"); (ESlice (EVar "t4_abbbabbb") [SAll; SAll; SAll; SAll; SAll; SAll; SAll; SAll])]));
   (*L5790*) SAug true "quadruples_res" (EAdd (EAdd (EAdd (EScale (1 # 1) (EVar "contracted_intermediate")) (EScale (-1 # 1) (EEins "abcdijkl->abcdkjil" [(EVar "contracted_intermediate")]))) (EScale (-1 # 1) (EEins "abcdijkl->bacdijkl" [(EVar "contracted_intermediate")]))) (EScale (1 # 1) (EEins "abcdijkl->bacdkjil" [(EVar "contracted_intermediate")])));
   (*L5793*) SAssign "contracted_intermediate" (EScale (9999999999999 # 20000000000000) (EEins "mnfe,eajk,fbcdmlni->abcdijkl" [(ESlice (EVar "g_abab") [SV "o"; SV "o"; SV "v"; SV "v"]); (EVar "t2_bbbb"); (ESlice (EVar "t4_abbbabbb") [SAll; SAll; SAll; SAll; SAll; SAll; SAll; SAll])]));
   (*L5794*) SAug true "quadruples_res" (EAdd (EAdd (EAdd (EScale (1 # 1) (EVar "contracted_intermediate")) (EScale (-1 # 1) (EEins "abcdijkl->abcdkjil" [(EVar "contracted_intermediate")]))) (EScale (-1 # 1) (EEins "abcdijkl->bacdijkl" [(EVar "contracted_intermediate")]))) (EScale (1 # 1) (EEins "abcdijkl->bacdkjil" [(EVar "contracted_intermediate")])));
   (*L5797*) SAssign "contracted_intermediate" (EScale (-9999999999999 # 20000000000000) (EEins "nmef,eajk,fbcdilnm->abcdijkl" [(ESlice (EVar "g_bbbb") [SV "o"; SV "o"; SV "v"; SV "v"]); (EVar "t2_bbbb"); (ESlice (EVar "t4_bbbbbbbb") [SAll; SAll; SAll; SAll; SAll; SAll; SAll; SAll])]));
   (*L5798*) SAug true "quadruples_res" (EAdd (EAdd (EAdd (EScale (1 # 1) (EVar "contracted_intermediate")) (EScale (-1 # 1) (EEins "abcdijkl->abcdkjil" [(EVar "contracted_intermediate")]))) (EScale (-1 # 1) (EEins "abcdijkl->bacdijkl" [(EVar "contracted_intermediate")]))) (EScale (1 # 1) (EEins "abcdijkl->bacdkjil" [(EVar "contracted_intermediate")])));
   (*L5801*) SAssign "contracted_intermediate" (EScale (-9999999999999 # 20000000000000) (EEins "nmef,ecnm,fabdijkl->abcdijkl" [(ESlice (EVar "g_abab") [SV "o"; SV "o"; SV "v"; SV "v"]); (EVar "t2_abab"); (ESlice (EVar "t4_bbbbbbbb") [SAll; SAll; SAll; SAll; SAll; SAll; SAll; SAll])]));
   (*L5802*) SAug true "quadruples_res" (EAdd (EScale (1 # 1) (EVar "contracted_intermediate")) (EScale (-1 # 1) (EEins "abcdijkl->abdcijkl" [(EVar "contracted_intermediate")])));
   (*L5805*) SAssign "contracted_intermediate" (EScale (-9999999999999 # 20000000000000) (EEins "mnef,ecmn,fabdijkl->abcdijkl" [(ESlice (EVar "g_abab") [SV "o"; SV "o"; SV "v"; SV "v"]); (EVar "t2_abab"); (ESlice (EVar "t4_bbbbbbbb") [SAll; SAll; SAll; SAll; SAll; SAll; SAll; SAll])]));
   (*L5806*) SAug true "quadruples_res" (EAdd (EScale (1 # 1) (EVar "contracted_intermediate")) (EScale (-1 # 1) (EEins "abcdijkl->abdcijkl" [(EVar "contracted_intermediate")])));
   (*L5809*) SAssign "contracted_intermediate" (EScale (-9999999999999 # 20000000000000) (EEins "nmef,ecnm,fabdijkl->abcdijkl" [(ESlice (EVar "g_bbbb") [SV "o"; SV "o"; SV "v"; SV "v"]); (EVar "t2_bbbb"); (ESlice (EVar "t4_bbbbbbbb") [SAll; SAll; SAll; SAll; SAll; SAll; SAll; SAll])]));
   (*L5810*) SAug true "quadruples_res" (EAdd (EScale (1 # 1) (EVar "contracted_intermediate")) (EScale (-1 # 1) (EEins "abcdijkl->abdcijkl" [(EVar "contracted_intermediate")])));
   (*L5813*) SAssign "contracted_intermediate" (EScale (6249999999999 # 6250000000000) (EEins "nmef,ecml,fabdnjki->abcdijkl" [(ESlice (EVar "g_aaaa") [SV "o"; SV "o"; SV "v"; SV "v"]); (EVar "t2_abab"); (ESlice (EVar "t4_abbbabbb") [SAll; SAll; SAll; SAll; SAll; SAll; SAll; SAll])]));
   (*L5814*) SAug true "quadruples_res" (EAdd (EAdd (EAdd (EScale (1 # 1) (EVar "contracted_intermediate")) (EScale (-1 # 1) (EEins "abcdijkl->abcdijlk" [(EVar "contracted_intermediate")]))) (EScale (-1 # 1) (EEins "abcdijkl->abdcijkl" [(EVar "contracted_intermediate")]))) (EScale (1 # 1) (EEins "abcdijkl->abdcijlk" [(EVar "contracted_intermediate")])));
   (*L5817*) SAssign "contracted_intermediate" (EScale (6249999999999 # 6250000000000) (EEins "mnef,ecml,fabdijkn->abcdijkl" [(ESlice (EVar "g_abab") [SV "o"; SV "o"; SV "v"; SV "v"]); (EVar "t2_abab"); (ESlice (EVar "t4_bbbbbbbb") [SAll; SAll; SAll; SAll; SAll; SAll; SAll; SAll])]));
   (*L5818*) SAug true "quadruples_res" (EAdd (EAdd (EAdd (EScale (1 # 1) (EVar "contracted_intermediate")) (EScale (-1 # 1) (EEins "abcdijkl->abcdijlk" [(EVar "contracted_intermediate")]))) (EScale (-1 # 1) (EEins "abcdijkl->abdcijkl" [(EVar "contracted_intermediate")]))) (EScale (1 # 1) (EEins "abcdijkl->abdcijlk" [(EVar "contracted_intermediate")])));
   (*L5821*) SAssign "contracted_intermediate" (EScale (6249999999999 # 6250000000000) (EEins "nmfe,eclm,fabdnjki->abcdijkl" [(ESlice (EVar "g_abab") [SV "o"; SV "o"; SV "v"; SV "v"]); (EVar "t2_bbbb"); (ESlice (EVar "t4_abbbabbb") [SAll; SAll; SAll; SAll; SAll; SAll; SAll; SAll])]));
   (*L5822*) SAug true "quadruples_res" (EAdd (EAdd (EAdd (EScale (1 # 1) (EVar "contracted_intermediate")) (EScale (-1 # 1) (EEins "abcdijkl->abcdijlk" [(EVar "contracted_intermediate")]))) (EScale (-1 # 1) (EEins "abcdijkl->abdcijkl" [(EVar "contracted_intermediate")]))) (EScale (1 # 1) (EEins "abcdijkl->abdcijlk" [(EVar "contracted_intermediate")])));
   (*L5825*) SAssign "contracted_intermediate" (EScale (6249999999999 # 6250000000000) (EEins "nmef,eclm,fabdijkn->abcdijkl" [(ESlice (EVar "g_bbbb") [SV "o"; SV "o"; SV "v"; SV "v"]); (EVar "t2_bbbb"); (ESlice (EVar "t4_bbbbbbbb") [SAll; SAll; SAll; SAll; SAll; SAll; SAll; SAll])]));
   (*L5826*) SAug true "quadruples_res" (EAdd (EAdd (EAdd (EScale (1 # 1) (EVar "contracted_intermediate")) (EScale (-1 # 1) (EEins "abcdijkl->abcdijlk" [(EVar "contracted_intermediate")]))) (EScale (-1 # 1) (EEins "abcdijkl->abdcijkl" [(EVar "contracted_intermediate")]))) (EScale (1 # 1) (EEins "abcdijkl->abdcijlk" [(EVar "contracted_intermediate")])));
   (*L5829*) SAssign "contracted_intermediate" (EScale (6249999999999 # 6250000000000) (EEins "nmef,ecmj,fabdnkli->abcdijkl" [(ESlice (EVar "g_aaaa") [SV "o"; SV "o"; SV "v"; SV "v"]); (EVar "t2_abab"); (ESlice (EVar "t4_abbbabbb") [SAll; SAll; SAll; SAll; SAll; SAll; SAll; SAll])]));
   (*L5830*) SAug true "quadruples_res" (EAdd (EAdd (EAdd (EScale (1 # 1) (EVar "contracted_intermediate")) (EScale (-1 # 1) (EEins "abcdijkl->abcdjikl" [(EVar "contracted_intermediate")]))) (EScale (-1 # 1) (EEins "abcdijkl->abdcijkl" [(EVar "contracted_intermediate")]))) (EScale (1 # 1) (EEins "abcdijkl->abdcjikl" [(EVar "contracted_intermediate")])));
   (*L5833*) SAssign "contracted_intermediate" (EScale (6249999999999 # 6250000000000) (EEins "mnef,ecmj,fabdikln->abcdijkl" [(ESlice (EVar "g_abab") [SV "o"; SV "o"; SV "v"; SV "v"]); (EVar "t2_abab"); (ESlice (EVar "t4_bbbbbbbb") [SAll; SAll; SAll; SAll; SAll; SAll; SAll; SAll])]));
   (*L5834*) SAug true "quadruples_res" (EAdd (EAdd (EAdd (EScale (1 # 1) (EVar "contracted_intermediate")) (EScale (-1 # 1) (EEins "abcdijkl->abcdjikl" [(EVar "contracted_intermediate")]))) (EScale (-1 # 1) (EEins "abcdijkl->abdcijkl" [(EVar "contracted_intermediate")]))) (EScale (1 # 1) (EEins "abcdijkl->abdcjikl" [(EVar "contracted_intermediate")])));
   (*L5837*) SAssign "contracted_intermediate" (EScale (6249999999999 # 6250000000000) (EEins "nmfe,ecjm,fabdnkli->abcdijkl" [(ESlice (EVar "g_abab") [SV "o"; SV "o"; SV "v"; SV "v"]); (EVar "t2_bbbb"); (ESlice (EVar "t4_abbbabbb") [SAll; SAll; SAll; SAll; SAll; SAll; SAll; SAll])]));
   (*L5838*) SAug true "quadruples_res" (EAdd (EAdd (EAdd (EScale (1 # 1) (EVar "contracted_intermediate")) (EScale (-1 # 1) (EEins "abcdijkl->abcdjikl" [(EVar "contracted_intermediate")]))) (EScale (-1 # 1) (EEins "abcdijkl->abdcijkl" [(EVar "contracted_intermediate")]))) (EScale (1 # 1) (EEins "abcdijkl->abdcjikl" [(EVar "contracted_intermediate")])));
   (*L5841*) SAssign "contracted_intermediate" (EScale (6249999999999 # 6250000000000) (EEins "nmef,ecjm,fabdikln->abcdijkl" [(ESlice (EVar "g_bbbb") [SV "o"; SV "o"; SV "v"; SV "v"]); (EVar "t2_bbbb"); (ESlice (EVar "t4_bbbbbbbb") [SAll; SAll; SAll; SAll; SAll; SAll; SAll; SAll])]));
   (*L5842*) SAug true "quadruples_res" (EAdd (EAdd (EAdd (EScale (1 # 1) (EVar "contracted_intermediate")) (EScale (-1 # 1) (EEins "abcdijkl->abcdjikl" [(EVar "contracted_intermediate")]))) (EScale (-1 # 1) (EEins "abcdijkl->abdcijkl" [(EVar "contracted_intermediate")]))) (EScale (1 # 1) (EEins "abcdijkl->abdcjikl" [(EVar "contracted_intermediate")])));
   (*L5845*) SAssign "contracted_intermediate" (EScale (-9999999999999 # 20000000000000) (EEins "nmfe,eckl,fabdnjim->abcdijkl" [(ESlice (EVar "g_abab") [SV "o"; SV "o"; SV "v"; SV "v"]); (EVar "t2_bbbb"); (ESlice (EVar "t4_abbbabbb") [SAll; SAll; SAll; SAll; SAll; SAll; SAll; SAll])]));
   (*L5846*) SAug true "quadruples_res" (EAdd (EAdd (EAdd (EScale (1 # 1) (EVar "contracted_intermediate")) (EScale (-1 # 1) (EEins "abcdijkl->abcdikjl" [(EVar "contracted_intermediate")]))) (EScale (-1 # 1) (EEins "abcdijkl->abdcijkl" [(EVar "contracted_intermediate")]))) (EScale (1 # 1) (EEins "abcdijkl->abdcikjl" [(EVar "contracted_intermediate")])));
   (*L5849*) SAssign "contracted_intermediate" (EScale (9999999999999 # 20000000000000) (EEins "mnfe,eckl,fabdmjni->abcdijkl" [(ESlice (EVar "g_abab") [SV "o"; SV "o"; SV "v"; SV "v"]); (EVar "t2_bbbb"); (ESlice (EVar "t4_abbbabbb") [SAll; SAll; SAll; SAll; SAll; SAll; SAll; SAll])]));
   (*L5850*) SAug true "quadruples_res" (EAdd (EAdd (EAdd (EScale (1 # 1) (EVar "contracted_intermediate")) (EScale (-1 # 1) (EEins "abcdijkl->abcdikjl" [(EVar "contracted_intermediate")]))) (EScale (-1 # 1) (EEins "abcdijkl->abdcijkl" [(EVar "contracted_intermediate")]))) (EScale (1 # 1) (EEins "abcdijkl->abdcikjl" [(EVar "contracted_intermediate")])));
   (*L5853*) SAssign "contracted_intermediate" (EScale (-9999999999999 # 20000000000000) (EEins "nmef,eckl,fabdijnm->abcdijkl" [(ESlice (EVar "g_bbbb") [SV "o"; SV "o"; SV "v"; SV "v"]); (EVar "t2_bbbb"); (ESlice (EVar "t4_bbbbbbbb") [SAll; SAll; SAll; SAll; SAll; SAll; SAll; SAll])]));
   (*L5854*) SAug true "quadruples_res" (EAdd (EAdd (EAdd (EScale (1 # 1) (EVar "contracted_intermediate")) (EScale (-1 # 1) (EEins "abcdijkl->abcdikjl" [(EVar "contracted_intermediate")]))) (EScale (-1 # 1) (EEins "abcdijkl->abdcijkl" [(EVar "contracted_intermediate")]))) (EScale (1 # 1) (EEins "abcdijkl->abdcikjl" [(EVar "contracted_intermediate")])));
   (*L5857*) SAssign "contracted_intermediate" (EScale (-9999999999999 # 20000000000000) (EEins "nmfe,ecil,fabdnkjm->abcdijkl" [(ESlice (EVar "g_abab") [SV "o"; SV "o"; SV "v"; SV "v"]); (EVar "t2_bbbb"); (ESlice (EVar "t4_abbbabbb") [SAll; SAll; SAll; SAll; SAll; SAll; SAll; SAll])]));
   (*L5858*) SAug true "quadruples_res" (EAdd (EAdd (EAdd (EScale (1 # 1) (EVar "contracted_intermediate")) (EScale (-1 # 1) (EEins "abcdijkl->abcdijlk" [(EVar "contracted_intermediate")]))) (EScale (-1 # 1) (EEins "abcdijkl->abdcijkl" [(EVar "contracted_intermediate")]))) (EScale (1 # 1) (EEins "abcdijkl->abdcijlk" [(EVar "contracted_intermediate")])));
   (*L5861*) SAssign "contracted_intermediate" (EScale (9999999999999 # 20000000000000) (EEins "mnfe,ecil,fabdmknj->abcdijkl" [(ESlice (EVar "g_abab") [SV "o"; SV "o"; SV "v"; SV "v"]); (EVar "t2_bbbb"); (ESlice (EVar "t4_abbbabbb") [SAll; SAll; SAll; SAll; SAll; SAll; SAll; SAll])]));
   (*L5862*) SAug true "quadruples_res" (EAdd (EAdd (EAdd (EScale (1 # 1) (EVar "contracted_intermediate")) (EScale (-1 # 1) (EEins "abcdijkl->abcdijlk" [(EVar "contracted_intermediate")]))) (EScale (-1 # 1) (EEins "abcdijkl->abdcijkl" [(EVar "contracted_intermediate")]))) (EScale (1 # 1) (EEins "abcdijkl->abdcijlk" [(EVar "contracted_intermediate")])));
   (*L5865*) SAssign "contracted_intermediate" (EScale (-9999999999999 # 20000000000000) (EEins "nmef,ecil,fabdjknm->abcdijkl" [(ESlice (EVar "g_bbbb") [SV "o"; SV "o"; SV "v"; SV "v"]); (EVar "t2_bbbb"); (ESlice (EVar "t4_bbbbbbbb") [SAll; SAll; SAll; SAll; SAll; SAll; SAll; SAll])]));
   (*L5866*) SAug true "quadruples_res" (EAdd (EAdd (EAdd (EScale (1 # 1) (EVar "contracted_intermediate")) (EScale (-1 # 1) (EEins "abcdijkl->abcdijlk" [(EVar "contracted_intermediate")]))) (EScale (-1 # 1) (EEins "abcdijkl->abdcijkl" [(EVar "contracted_intermediate")]))) (EScale (1 # 1) (EEins "abcdijkl->abdcijlk" [(EVar "contracted_intermediate")])));
   (*L5869*) SAssign "contracted_intermediate" (EScale (-9999999999999 # 20000000000000) (EEins "nmfe,ecjk,fabdnlim->abcdijkl" [(ESlice (EVar "g_abab") [SV "o"; SV "o"; SV "v"; SV "v"]); (EVar "t2_bbbb"); (ESlice (EVar "t4_abbbabbb") [SAll; SAll; SAll; SAll; SAll; SAll; SAll; SAll])]));
   (*L5870*) SAug true "quadruples_res" (EAdd (EAdd (EAdd (EScale (1 # 1) (EVar "contracted_intermediate")) (EScale (-1 # 1) (EEins "abcdijkl->abcdkjil" [(EVar "contracted_intermediate")]))) (EScale (-1 # 1) (EEins "abcdijkl->abdcijkl" [(EVar "contracted_intermediate")]))) (EScale (1 # 1) (EEins "abcdijkl->abdckjil" [(EVar "contracted_intermediate")])));
   (*L5873*) SAssign "contracted_intermediate" (EScale (9999999999999 # 20000000000000) (EEins "mnfe,ecjk,fabdmlni->abcdijkl" [(ESlice (EVar "g_abab") [SV "o"; SV "o"; SV "v"; SV "v"]); (EVar "t2_bbbb"); (ESlice (EVar "t4_abbbabbb") [SAll; SAll; SAll; SAll; SAll; SAll; SAll; SAll])]));
   (*L5874*) SAug true "quadruples_res" (EAdd (EAdd (EAdd (EScale (1 # 1) (EVar "contracted_intermediate")) (EScale (-1 # 1) (EEins "abcdijkl->abcdkjil" [(EVar "contracted_intermediate")]))) (EScale (-1 # 1) (EEins "abcdijkl->abdcijkl" [(EVar "contracted_intermediate")]))) (EScale (1 # 1) (EEins "abcdijkl->abdckjil" [(EVar "contracted_intermediate")])));
   (*L5877*) SAssign "contracted_intermediate" (EScale (-9999999999999 # 20000000000000) (EEins "nmef,ecjk,fabdilnm->abcdijkl" [(ESlice (EVar "g_bbbb") [SV "o"; SV "o"; SV "v"; SV "v"]); (EVar "t2_bbbb"); (ESlice (EVar "t4_bbbbbbbb") [SAll; SAll; SAll; SAll; SAll; SAll; SAll; SAll])]));
   (*L5878*) SAug true "quadruples_res" (EAdd (EAdd (EAdd (EScale (1 # 1) (EVar "contracted_intermediate")) (EScale (-1 # 1) (EEins "abcdijkl->abcdkjil" [(EVar "contracted_intermediate")]))) (EScale (-1 # 1) (EEins "abcdijkl->abdcijkl" [(EVar "contracted_intermediate")]))) (EScale (1 # 1) (EEins "abcdijkl->abdckjil" [(EVar "contracted_intermediate")])));
   (*L5881*) SAssign "contracted_intermediate" (EScale (25000000000001 # 100000000000000) (EEins "nmef,abnm,efcdijkl->abcdijkl" [(ESlice (EVar "g_bbbb") [SV "o"; SV "o"; SV "v"; SV "v"]); (EVar "t2_bbbb"); (ESlice (EVar "t4_bbbbbbbb") [SAll; SAll; SAll; SAll; SAll; SAll; SAll; SAll])]));
   (*L5882*) SAug true "quadruples_res" (EAdd (EScale (1 # 1) (EVar "contracted_intermediate")) (EScale (-1 # 1) (EEins "abcdijkl->acbdijkl" [(EVar "contracted_intermediate")])));
   (*L5885*) SAssign "contracted_intermediate" (EScale (9999999999999 # 20000000000000) (EEins "nmef,ablm,efcdnjki->abcdijkl" [(ESlice (EVar "g_abab") [SV "o"; SV "o"; SV "v"; SV "v"]); (EVar "t2_bbbb"); (ESlice (EVar "t4_abbbabbb") [SAll; SAll; SAll; SAll; SAll; SAll; SAll; SAll])]));
   (*L5886*) SAug true "quadruples_res" (EAdd (EAdd (EAdd (EScale (1 # 1) (EVar "contracted_intermediate")) (EScale (-1 # 1) (EEins "abcdijkl->abcdijlk" [(EVar "contracted_intermediate")]))) (EScale (-1 # 1) (EEins "abcdijkl->acbdijkl" [(EVar "contracted_intermediate")]))) (EScale (1 # 1) (EEins "abcdijkl->acbdijlk" [(EVar "contracted_intermediate")])));
   (*L5889*) SAssign "contracted_intermediate" (EScale (9999999999999 # 20000000000000) (EEins "nmfe,ablm,fecdnjki->abcdijkl" [(ESlice (EVar "g_abab") [SV "o"; SV "o"; SV "v"; SV "v"]); (EVar "t2_bbbb"); (ESlice (EVar "t4_abbbabbb") [SAll; SAll; SAll; SAll; SAll; SAll; SAll; SAll])]));
   (*L5890*) SAug true "quadruples_res" (EAdd (EAdd (EAdd (EScale (1 # 1) (EVar "contracted_intermediate")) (EScale (-1 # 1) (EEins "abcdijkl->abcdijlk" [(EVar "contracted_intermediate")]))) (EScale (-1 # 1) (EEins "abcdijkl->acbdijkl" [(EVar "contracted_intermediate")]))) (EScale (1 # 1) (EEins "abcdijkl->acbdijlk" [(EVar "contracted_intermediate")])));
   (*L5893*) SAssign "contracted_intermediate" (EScale (-9999999999999 # 20000000000000) (EEins "nmef,ablm,efcdijkn->abcdijkl" [(ESlice (EVar "g_bbbb") [SV "o"; SV "o"; SV "v"; SV "v"]); (EVar "t2_bbbb"); (ESlice (EVar "t4_bbbbbbbb") [SAll; SAll; SAll; SAll; SAll; SAll; SAll; SAll])]));
   (*L5894*) SAug true "quadruples_res" (EAdd (EAdd (EAdd (EScale (1 # 1) (EVar "contracted_intermediate")) (EScale (-1 # 1) (EEins "abcdijkl->abcdijlk" [(EVar "contracted_intermediate")]))) (EScale (-1 # 1) (EEins "abcdijkl->acbdijkl" [(EVar "contracted_intermediate")]))) (EScale (1 # 1) (EEins "abcdijkl->acbdijlk" [(EVar "contracted_intermediate")])));
   (*L5897*) SAssign "contracted_intermediate" (EScale (9999999999999 # 20000000000000) (EEins "nmef,abjm,efcdnkli->abcdijkl" [(ESlice (EVar "g_abab") [SV "o"; SV "o"; SV "v"; SV "v"]); (EVar "t2_bbbb"); (ESlice (EVar "t4_abbbabbb") [SAll; SAll; SAll; SAll; SAll; SAll; SAll; SAll])]));
   (*L5898*) SAug true "quadruples_res" (EAdd (EAdd (EAdd (EScale (1 # 1) (EVar "contracted_intermediate")) (EScale (-1 # 1) (EEins "abcdijkl->abcdjikl" [(EVar "contracted_intermediate")]))) (EScale (-1 # 1) (EEins "abcdijkl->acbdijkl" [(EVar "contracted_intermediate")]))) (EScale (1 # 1) (EEins "abcdijkl->acbdjikl" [(EVar "contracted_intermediate")])));
   (*L5901*) SAssign "contracted_intermediate" (EScale (9999999999999 # 20000000000000) (EEins "nmfe,abjm,fecdnkli->abcdijkl" [(ESlice (EVar "g_abab") [SV "o"; SV "o"; SV "v"; SV "v"]); (EVar "t2_bbbb"); (ESlice (EVar "t4_abbbabbb") [SAll; SAll; SAll; SAll; SAll; SAll; SAll; SAll])]));
   (*L5902*) SAug true "quadruples_res" (EAdd (EAdd (EAdd (EScale (1 # 1) (EVar "contracted_intermediate")) (EScale (-1 # 1) (EEins "abcdijkl->abcdjikl" [(EVar "contracted_intermediate")]))) (EScale (-1 # 1) (EEins "abcdijkl->acbdijkl" [(EVar "contracted_intermediate")]))) (EScale (1 # 1) (EEins "abcdijkl->acbdjikl" [(EVar "contracted_intermediate")])));
   (*L5905*) SAssign "contracted_intermediate" (EScale (-9999999999999 # 20000000000000) (EEins "nmef,abjm,efcdikln->abcdijkl" [(ESlice (EVar "g_bbbb") [SV "o"; SV "o"; SV "v"; SV "v"]); (EVar "t2_bbbb"); (ESlice (EVar "t4_bbbbbbbb") [SAll; SAll; SAll; SAll; SAll; SAll; SAll; SAll])]));
   (*L5906*) SAug true "quadruples_res" (EAdd (EAdd (EAdd (EScale (1 # 1) (EVar "contracted_intermediate")) (EScale (-1 # 1) (EEins "abcdijkl->abcdjikl" [(EVar "contracted_intermediate")]))) (EScale (-1 # 1) (EEins "abcdijkl->acbdijkl" [(EVar "contracted_intermediate")]))) (EScale (1 # 1) (EEins "abcdijkl->acbdjikl" [(EVar "contracted_intermediate")])));
   (*L5909*) SAssign "contracted_intermediate" (EScale (25000000000001 # 100000000000000) (EEins "nmef,adnm,efbcijkl->abcdijkl" [(ESlice (EVar "g_bbbb") [SV "o"; SV "o"; SV "v"; SV "v"]); (EVar "t2_bbbb"); (ESlice (EVar "t4_bbbbbbbb") [SAll; SAll; SAll; SAll; SAll; SAll; SAll; SAll])]));
   (*L5910*) SAug true "quadruples_res" (EAdd (EScale (1 # 1) (EVar "contracted_intermediate")) (EScale (-1 # 1) (EEins "abcdijkl->bacdijkl" [(EVar "contracted_intermediate")])));
   (*L5913*) SAssign "contracted_intermediate" (EScale (9999999999999 # 20000000000000) (EEins "nmef,adlm,efbcnjki->abcdijkl" [(ESlice (EVar "g_abab") [SV "o"; SV "o"; SV "v"; SV "v"]); (EVar "t2_bbbb"); (ESlice (EVar "t4_abbbabbb") [SAll; SAll; SAll; SAll; SAll; SAll; SAll; SAll])]));
   (*L5914*) SAug true "quadruples_res" (EAdd (EAdd (EAdd (EScale (1 # 1) (EVar "contracted_intermediate")) (EScale (-1 # 1) (EEins "abcdijkl->abcdijlk" [(EVar "contracted_intermediate")]))) (EScale (-1 # 1) (EEins "abcdijkl->bacdijkl" [(EVar "contracted_intermediate")]))) (EScale (1 # 1) (EEins "abcdijkl->bacdijlk" [(EVar "contracted_intermediate")])));
   (*L5917*) SAssign "contracted_intermediate" (EScale (9999999999999 # 20000000000000) (EEins "nmfe,adlm,febcnjki->abcdijkl" [(ESlice (EVar "g_abab") [SV "o"; SV "o"; SV "v"; SV "v"]); (EVar "t2_bbbb"); (ESlice (EVar "t4_abbbabbb") [SAll; SAll; SAll; SAll; SAll; SAll; SAll; SAll])]));
   (*L5918*) SAug true "quadruples_res" (EAdd (EAdd (EAdd (EScale (1 # 1) (EVar "contracted_intermediate")) (EScale (-1 # 1) (EEins "abcdijkl->abcdijlk" [(EVar "contracted_intermediate")]))) (EScale (-1 # 1) (EEins "abcdijkl->bacdijkl" [(EVar "contracted_intermediate")]))) (EScale (1 # 1) (EEins "abcdijkl->bacdijlk" [(EVar "contracted_intermediate")])));
   (*L5921*) SAssign "contracted_intermediate" (EScale (-9999999999999 # 20000000000000) (EEins "nmef,adlm,efbcijkn->abcdijkl" [(ESlice (EVar "g_bbbb") [SV "o"; SV "o"; SV "v"; SV "v"]); (EVar "t2_bbbb"); (ESlice (EVar "t4_bbbbbbbb") [SAll; SAll; SAll; SAll; SAll; SAll; SAll; SAll])]));
   (*L5922*) SAug true "quadruples_res" (EAdd (EAdd (EAdd (EScale (1 # 1) (EVar "contracted_intermediate")) (EScale (-1 # 1) (EEins "abcdijkl->abcdijlk" [(EVar "contracted_intermediate")]))) (EScale (-1 # 1) (EEins "abcdijkl->bacdijkl" [(EVar "contracted_intermediate")]))) (EScale (1 # 1) (EEins "abcdijkl->bacdijlk" [(EVar "contracted_intermediate")])));
   (*L5925*) SAssign "contracted_intermediate" (EScale (9999999999999 # 20000000000000) (EEins "nmef,adjm,efbcnkli->abcdijkl" [(ESlice (EVar "g_abab") [SV "o"; SV "o"; SV "v"; SV "v"]); (EVar "t2_bbbb"); (ESlice (EVar "t4_abbbabbb") [SAll; SAll; SAll; SAll; SAll; SAll; SAll; SAll])]));
   (*L5926*) SAug true "quadruples_res" (EAdd (EAdd (EAdd (EScale (1 # 1) (EVar "contracted_intermediate")) (EScale (-1 # 1) (EEins "abcdijkl->abcdjikl" [(EVar "contracted_intermediate")]))) (EScale (-1 # 1) (EEins "abcdijkl->bacdijkl" [(EVar "contracted_intermediate")]))) (EScale (1 # 1) (EEins "abcdijkl->bacdjikl" [(EVar "contracted_intermediate")])));
   (*L5929*) SAssign "contracted_intermediate" (EScale (9999999999999 # 20000000000000) (EEins "nmfe,adjm,febcnkli->abcdijkl" [(ESlice (EVar "g_abab") [SV "o"; SV "o"; SV "v"; SV "v"]); (EVar "t2_bbbb"); (ESlice (EVar "t4_abbbabbb") [SAll; SAll; SAll; SAll; SAll; SAll; SAll; SAll])]));
   (*L5930*) SAug true "quadruples_res" (EAdd (EAdd (EAdd (EScale (1 # 1) (EVar "contracted_intermediate")) (EScale (-1 # 1) (EEins "abcdijkl->abcdjikl" [(EVar "contracted_intermediate")]))) (EScale (-1 # 1) (EEins "abcdijkl->bacdijkl" [(EVar "contracted_intermediate")]))) (EScale (1 # 1) (EEins "abcdijkl->bacdjikl" [(EVar "contracted_intermediate")])));
   (*L5933*) SAssign "contracted_intermediate" (EScale (-9999999999999 # 20000000000000) (EEins "nmef,adjm,efbcikln->abcdijkl" [(ESlice (EVar "g_bbbb") [SV "o"; SV "o"; SV "v"; SV "v"]); (EVar "t2_bbbb"); (ESlice (EVar "t4_bbbbbbbb") [SAll; SAll; SAll; SAll; SAll; SAll; SAll; SAll])]));
   (*L5934*) SAug true "quadruples_res" (EAdd (EAdd (EAdd (EScale (1 # 1) (EVar "contracted_intermediate")) (EScale (-1 # 1) (EEins "abcdijkl->abcdjikl" [(EVar "contracted_intermediate")]))) (EScale (-1 # 1) (EEins "abcdijkl->bacdijkl" [(EVar "contracted_intermediate")]))) (EScale (1 # 1) (EEins "abcdijkl->bacdjikl" [(EVar "contracted_intermediate")])));
   (*L5937*) SAssign "contracted_intermediate" (EScale (25000000000001 # 100000000000000) (EEins "nmef,bcnm,efadijkl->abcdijkl" [(ESlice (EVar "g_bbbb") [SV "o"; SV "o"; SV "v"; SV "v"]); (EVar "t2_bbbb"); (ESlice (EVar "t4_bbbbbbbb") [SAll; SAll; SAll; SAll; SAll; SAll; SAll; SAll])]));
   (*L5938*) SAug true "quadruples_res" (EAdd (EScale (1 # 1) (EVar "contracted_intermediate")) (EScale (-1 # 1) (EEins "abcdijkl->adcbijkl" [(EVar "contracted_intermediate")])));
   (*L5941*) SAssign "contracted_intermediate" (EScale (9999999999999 # 20000000000000) (EEins "nmef,bclm,efadnjki->abcdijkl" [(ESlice (EVar "g_abab") [SV "o"; SV "o"; SV "v"; SV "v"]); (EVar "t2_bbbb"); (ESlice (EVar "t4_abbbabbb") [SAll; SAll; SAll; SAll; SAll; SAll; SAll; SAll])]));
   (*L5942*) SAug true "quadruples_res" (EAdd (EAdd (EAdd (EScale (1 # 1) (EVar "contracted_intermediate")) (EScale (-1 # 1) (EEins "abcdijkl->abcdijlk" [(EVar "contracted_intermediate")]))) (EScale (-1 # 1) (EEins "abcdijkl->adcbijkl" [(EVar "contracted_intermediate")]))) (EScale (1 # 1) (EEins "abcdijkl->adcbijlk" [(EVar "contracted_intermediate")])));
   (*L5945*) SAssign "contracted_intermediate" (EScale (9999999999999 # 20000000000000) (EEins "nmfe,bclm,feadnjki->abcdijkl" [(ESlice (EVar "g_abab") [SV "o"; SV "o"; SV "v"; SV "v"]); (EVar "t2_bbbb"); (ESlice (EVar "t4_abbbabbb") [SAll; SAll; SAll; SAll; SAll; SAll; SAll; SAll])]));
   (*L5946*) SAug true "quadruples_res" (EAdd (EAdd (EAdd (EScale (1 # 1) (EVar "contracted_intermediate")) (EScale (-1 # 1) (EEins "abcdijkl->abcdijlk" [(EVar "contracted_intermediate")]))) (EScale (-1 # 1) (EEins "abcdijkl->adcbijkl" [(EVar "contracted_intermediate")]))) (EScale (1 # 1) (EEins "abcdijkl->adcbijlk" [(EVar "contracted_intermediate")])));
   (*L5949*) SAssign "contracted_intermediate" (EScale (-9999999999999 # 20000000000000) (EEins "nmef,bclm,efadijkn->abcdijkl" [(ESlice (EVar "g_bbbb") [SV "o"; SV "o"; SV "v"; SV "v"]); (EVar "t2_bbbb"); (ESlice (EVar "t4_bbbbbbbb") [SAll; SAll; SAll; SAll; SAll; SAll; SAll; SAll])]));
   (*L5950*) SAug true "quadruples_res" (EAdd (EAdd (EAdd (EScale (1 # 1) (EVar "contracted_intermediate")) (EScale (-1 # 1) (EEins "abcdijkl->abcdijlk" [(EVar "contracted_intermediate")]))) (EScale (-1 # 1) (EEins "abcdijkl->adcbijkl" [(EVar "contracted_intermediate")]))) (EScale (1 # 1) (EEins "abcdijkl->adcbijlk" [(EVar "contracted_intermediate")])));
   (*L5953*) SAssign "contracted_intermediate" (EScale (9999999999999 # 20000000000000) (EEins "nmef,bcjm,efadnkli->abcdijkl" [(ESlice (EVar "g_abab") [SV "o"; SV "o"; SV "v"; SV "v"]); (EVar "t2_bbbb"); (ESlice (EVar "t4_abbbabbb") [SAll; SAll; SAll; SAll; SAll; SAll; SAll; SAll])]));
   (*L5954*) SAug true "quadruples_res" (EAdd (EAdd (EAdd (EScale (1 # 1) (EVar "contracted_intermediate")) (EScale (-1 # 1) (EEins "abcdijkl->abcdjikl" [(EVar "contracted_intermediate")]))) (EScale (-1 # 1) (EEins "abcdijkl->adcbijkl" [(EVar "contracted_intermediate")]))) (EScale (1 # 1) (EEins "abcdijkl->adcbjikl" [(EVar "contracted_intermediate")])));
   (*L5957*) SAssign "contracted_intermediate" (EScale (9999999999999 # 20000000000000) (EEins "nmfe,bcjm,feadnkli->abcdijkl" [(ESlice (EVar "g_abab") [SV "o"; SV "o"; SV "v"; SV "v"]); (EVar "t2_bbbb"); (ESlice (EVar "t4_abbbabbb") [SAll; SAll; SAll; SAll; SAll; SAll; SAll; SAll])]));
   (*L5958*) SAug true "quadruples_res" (EAdd (EAdd (EAdd (EScale (1 # 1) (EVar "contracted_intermediate")) (EScale (-1 # 1) (EEins "abcdijkl->abcdjikl" [(EVar "contracted_intermediate")]))) (EScale (-1 # 1) (EEins "abcdijkl->adcbijkl" [(EVar "contracted_intermediate")]))) (EScale (1 # 1) (EEins "abcdijkl->adcbjikl" [(EVar "contracted_intermediate")])));
   (*L5961*) SAssign "contracted_intermediate" (EScale (-9999999999999 # 20000000000000) (EEins "nmef,bcjm,efadikln->abcdijkl" [(ESlice (EVar "g_bbbb") [SV "o"; SV "o"; SV "v"; SV "v"]); (EVar "t2_bbbb"); (ESlice (EVar "t4_bbbbbbbb") [SAll; SAll; SAll; SAll; SAll; SAll; SAll; SAll])]));
   (*L5962*) SAug true "quadruples_res" (EAdd (EAdd (EAdd (EScale (1 # 1) (EVar "contracted_intermediate")) (EScale (-1 # 1) (EEins "abcdijkl->abcdjikl" [(EVar "contracted_intermediate")]))) (EScale (-1 # 1) (EEins "abcdijkl->adcbijkl" [(EVar "contracted_intermediate")]))) (EScale (1 # 1) (EEins "abcdijkl->adcbjikl" [(EVar "contracted_intermediate")])));
   (*L5965*) SAssign "contracted_intermediate" (EScale (-1 # 1) (EEins "nmkl,abjm,cdin->abcdijkl" [(ESlice (EVar "g_bbbb") [SV "o"; SV "o"; SV "o"; SV "o"]); (EVar "t2_bbbb"); (EVar "t2_bbbb")]));
   (*L5966*) SAug true "quadruples_res" (EAdd (EAdd (EAdd (EScale (1 # 1) (EVar "contracted_intermediate")) (EScale (-1 # 1) (EEins "abcdijkl->abcdjikl" [(EVar "contracted_intermediate")]))) (EScale (-1 # 1) (EEins "abcdijkl->acbdijkl" [(EVar "contracted_intermediate")]))) (EScale (1 # 1) (EEins "abcdijkl->acbdjikl" [(EVar "contracted_intermediate")])));
   (*L5969*) SAssign "contracted_intermediate" (EScale (-1 # 1) (EEins "nmkl,adjm,bcin->abcdijkl" [(ESlice (EVar "g_bbbb") [SV "o"; SV "o"; SV "o"; SV "o"]); (EVar "t2_bbbb"); (EVar "t2_bbbb")]));
   (*L5970*) SAug true "quadruples_res" (EAdd (EScale (1 # 1) (EVar "contracted_intermediate")) (EScale (-1 # 1) (EEins "abcdijkl->abcdjikl" [(EVar "contracted_intermediate")])));
   (*L5973*) SAssign "contracted_intermediate" (EScale (1 # 1) (EEins "nmjl,abkm,cdin->abcdijkl" [(ESlice (EVar "g_bbbb") [SV "o"; SV "o"; SV "o"; SV "o"]); (EVar "t2_bbbb"); (EVar "t2_bbbb")]));
   (*L5974*) SAug true "quadruples_res" (EAdd (EAdd (EAdd (EScale (1 # 1) (EVar "contracted_intermediate")) (EScale (-1 # 1) (EEins "abcdijkl->abcdkjil" [(EVar "contracted_intermediate")]))) (EScale (-1 # 1) (EEins "abcdijkl->acbdijkl" [(EVar "contracted_intermediate")]))) (EScale (1 # 1) (EEins "abcdijkl->acbdkjil" [(EVar "contracted_intermediate")])));
   (*L5977*) SAssign "contracted_intermediate" (EScale (1 # 1) (EEins "nmjl,adkm,bcin->abcdijkl" [(ESlice (EVar "g_bbbb") [SV "o"; SV "o"; SV "o"; SV "o"]); (EVar "t2_bbbb"); (EVar "t2_bbbb")]));
   (*L5978*) SAug true "quadruples_res" (EAdd (EScale (1 # 1) (EVar "contracted_intermediate")) (EScale (-1 # 1) (EEins "abcdijkl->abcdkjil" [(EVar "contracted_intermediate")])));
   (*L5981*) SAssign "contracted_intermediate" (EScale (-1 # 1) (EEins "nmil,abkm,cdjn->abcdijkl" [(ESlice (EVar "g_bbbb") [SV "o"; SV "o"; SV "o"; SV "o"]); (EVar "t2_bbbb"); (EVar "t2_bbbb")]));
   (*L5982*) SAug true "quadruples_res" (EAdd (EAdd (EAdd (EScale (1 # 1) (EVar "contracted_intermediate")) (EScale (-1 # 1) (EEins "abcdijkl->abcdikjl" [(EVar "contracted_intermediate")]))) (EScale (-1 # 1) (EEins "abcdijkl->acbdijkl" [(EVar "contracted_intermediate")]))) (EScale (1 # 1) (EEins "abcdijkl->acbdikjl" [(EVar "contracted_intermediate")])));
   (*L5985*) SAssign "contracted_intermediate" (EScale (-1 # 1) (EEins "nmil,adkm,bcjn->abcdijkl" [(ESlice (EVar "g_bbbb") [SV "o"; SV "o"; SV "o"; SV "o"]); (EVar "t2_bbbb"); (EVar "t2_bbbb")]));
   (*L5986*) SAug true "quadruples_res" (EAdd (EScale (1 # 1) (EVar "contracted_intermediate")) (EScale (-1 # 1) (EEins "abcdijkl->abcdikjl" [(EVar "contracted_intermediate")])));
   (*L5989*) SAssign "contracted_intermediate" (EScale (-1 # 1) (EEins "nmjk,ablm,cdin->abcdijkl" [(ESlice (EVar "g_bbbb") [SV "o"; SV "o"; SV "o"; SV "o"]); (EVar "t2_bbbb"); (EVar "t2_bbbb")]));
   (*L5990*) SAug true "quadruples_res" (EAdd (EAdd (EAdd (EScale (1 # 1) (EVar "contracted_intermediate")) (EScale (-1 # 1) (EEins "abcdijkl->abcdljki" [(EVar "contracted_intermediate")]))) (EScale (-1 # 1) (EEins "abcdijkl->acbdijkl" [(EVar "contracted_intermediate")]))) (EScale (1 # 1) (EEins "abcdijkl->acbdljki" [(EVar "contracted_intermediate")])));
   (*L5993*) SAssign "contracted_intermediate" (EScale (-1 # 1) (EEins "nmjk,adlm,bcin->abcdijkl" [(ESlice (EVar "g_bbbb") [SV "o"; SV "o"; SV "o"; SV "o"]); (EVar "t2_bbbb"); (EVar "t2_bbbb")]));
   (*L5994*) SAug true "quadruples_res" (EAdd (EScale (1 # 1) (EVar "contracted_intermediate")) (EScale (-1 # 1) (EEins "abcdijkl->abcdljki" [(EVar "contracted_intermediate")])));
   (*L5997*) SAssign "contracted_intermediate" (EScale (1 # 1) (EEins "nmik,ablm,cdjn->abcdijkl" [(ESlice (EVar "g_bbbb") [SV "o"; SV "o"; SV "o"; SV "o"]); (EVar "t2_bbbb"); (EVar "t2_bbbb")]));
   (*L5998*) SAug true "quadruples_res" (EAdd (EAdd (EAdd (EScale (1 # 1) (EVar "contracted_intermediate")) (EScale (-1 # 1) (EEins "abcdijkl->abcdilkj" [(EVar "contracted_intermediate")]))) (EScale (-1 # 1) (EEins "abcdijkl->acbdijkl" [(EVar "contracted_intermediate")]))) (EScale (1 # 1) (EEins "abcdijkl->acbdilkj" [(EVar "contracted_intermediate")])));
   (*L6001*) SAssign "contracted_intermediate" (EScale (1 # 1) (EEins "nmik,adlm,bcjn->abcdijkl" [(ESlice (EVar "g_bbbb") [SV "o"; SV "o"; SV "o"; SV "o"]); (EVar "t2_bbbb"); (EVar "t2_bbbb")]));
   (*L6002*) SAug true "quadruples_res" (EAdd (EScale (1 # 1) (EVar "contracted_intermediate")) (EScale (-1 # 1) (EEins "abcdijkl->abcdilkj" [(EVar "contracted_intermediate")])));
   (*L6005*) SAssign "contracted_intermediate" (EScale (-1 # 1) (EEins "nmij,ablm,cdkn->abcdijkl" [(ESlice (EVar "g_bbbb") [SV "o"; SV "o"; SV "o"; SV "o"]); (EVar "t2_bbbb"); (EVar "t2_bbbb")]));
   (*L6006*) SAug true "quadruples_res" (EAdd (EAdd (EAdd (EScale (1 # 1) (EVar "contracted_intermediate")) (EScale (-1 # 1) (EEins "abcdijkl->abcdijlk" [(EVar "contracted_intermediate")]))) (EScale (-1 # 1) (EEins "abcdijkl->acbdijkl" [(EVar "contracted_intermediate")]))) (EScale (1 # 1) (EEins "abcdijkl->acbdijlk" [(EVar "contracted_intermediate")])));
   (*L6009*) SAssign "contracted_intermediate" (EScale (-1 # 1) (EEins "nmij,adlm,bckn->abcdijkl" [(ESlice (EVar "g_bbbb") [SV "o"; SV "o"; SV "o"; SV "o"]); (EVar "t2_bbbb"); (EVar "t2_bbbb")]));
   (*L6010*) SAug true "quadruples_res" (EAdd (EScale (1 # 1) (EVar "contracted_intermediate")) (EScale (-1 # 1) (EEins "abcdijkl->abcdijlk" [(EVar "contracted_intermediate")])));
   (*L6013*) SAssign "contracted_intermediate" (EScale (1 # 1) (EEins "mael,ebjk,cdim->abcdijkl" [(ESlice (EVar "g_bbbb") [SV "o"; SV "v"; SV "v"; SV "o"]); (EVar "t2_bbbb"); (EVar "t2_bbbb")]));
   (*L6014*) SAug true "quadruples_res" (EAdd (EAdd (EAdd (EScale (1 # 1) (EVar "contracted_intermediate")) (EScale (-1 # 1) (EEins "abcdijkl->abcdjikl" [(EVar "contracted_intermediate")]))) (EScale (-1 # 1) (EEins "abcdijkl->acbdijkl" [(EVar "contracted_intermediate")]))) (EScale (1 # 1) (EEins "abcdijkl->acbdjikl" [(EVar "contracted_intermediate")])));
   (*L6017*) SAssign "contracted_intermediate" (EScale (1 # 1) (EEins "mael,ebij,cdkm->abcdijkl" [(ESlice (EVar "g_bbbb") [SV "o"; SV "v"; SV "v"; SV "o"]); (EVar "t2_bbbb"); (EVar "t2_bbbb")]));
   (*L6018*) SAug true "quadruples_res" (EAdd (EAdd (EAdd (EScale (1 # 1) (EVar "contracted_intermediate")) (EScale (-1 # 1) (EEins "abcdijkl->abcdijlk" [(EVar "contracted_intermediate")]))) (EScale (-1 # 1) (EEins "abcdijkl->acbdijkl" [(EVar "contracted_intermediate")]))) (EScale (1 # 1) (EEins "abcdijkl->acbdijlk" [(EVar "contracted_intermediate")])));
   (*L6021*) SAssign "contracted_intermediate" (EScale (1 # 1) (EEins "mael,edjk,bcim->abcdijkl" [(ESlice (EVar "g_bbbb") [SV "o"; SV "v"; SV "v"; SV "o"]); (EVar "t2_bbbb"); (EVar "t2_bbbb")]));
   (*L6022*) SAug true "quadruples_res" (EAdd (EAdd (EAdd (EScale (1 # 1) (EVar "contracted_intermediate")) (EScale (-1 # 1) (EEins "abcdijkl->abcdjikl" [(EVar "contracted_intermediate")]))) (EScale (-1 # 1) (EEins "abcdijkl->bacdijkl" [(EVar "contracted_intermediate")]))) (EScale (1 # 1) (EEins "abcdijkl->bacdjikl" [(EVar "contracted_intermediate")])));
   (*L6025*) SAssign "contracted_intermediate" (EScale (1 # 1) (EEins "mael,edij,bckm->abcdijkl" [(ESlice (EVar "g_bbbb") [SV "o"; SV "v"; SV "v"; SV "o"]); (EVar "t2_bbbb"); (EVar "t2_bbbb")]));
   (*L6026*) SAug true "quadruples_res" (EAdd (EAdd (EAdd (EScale (1 # 1) (EVar "contracted_intermediate")) (EScale (-1 # 1) (EEins "abcdijkl->abcdijlk" [(EVar "contracted_intermediate")]))) (EScale (-1 # 1) (EEins "abcdijkl->bacdijkl" [(EVar "contracted_intermediate")]))) (EScale (1 # 1) (EEins "abcdijkl->bacdijlk" [(EVar "contracted_intermediate")])));
   (*L6029*) SAssign "contracted_intermediate" (EScale (-1 # 1) (EEins "maek,ebjl,cdim->abcdijkl" [(ESlice (EVar "g_bbbb") [SV "o"; SV "v"; SV "v"; SV "o"]); (EVar "t2_bbbb"); (EVar "t2_bbbb")]));
   (*L6030*) SAug true "quadruples_res" (EAdd (EAdd (EAdd (EScale (1 # 1) (EVar "contracted_intermediate")) (EScale (-1 # 1) (EEins "abcdijkl->abcdjikl" [(EVar "contracted_intermediate")]))) (EScale (-1 # 1) (EEins "abcdijkl->acbdijkl" [(EVar "contracted_intermediate")]))) (EScale (1 # 1) (EEins "abcdijkl->acbdjikl" [(EVar "contracted_intermediate")])));
   (*L6033*) SAssign "contracted_intermediate" (EScale (-1 # 1) (EEins "maek,edjl,bcim->abcdijkl" [(ESlice (EVar "g_bbbb") [SV "o"; SV "v"; SV "v"; SV "o"]); (EVar "t2_bbbb"); (EVar "t2_bbbb")]));
   (*L6034*) SAug true "quadruples_res" (EAdd (EAdd (EAdd (EScale (1 # 1) (EVar "contracted_intermediate")) (EScale (-1 # 1) (EEins "abcdijkl->abcdjikl" [(EVar "contracted_intermediate")]))) (EScale (-1 # 1) (EEins "abcdijkl->bacdijkl" [(EVar "contracted_intermediate")]))) (EScale (1 # 1) (EEins "abcdijkl->bacdjikl" [(EVar "contracted_intermediate")])));
   (*L6037*) SAssign "contracted_intermediate" (EScale (1 # 1) (EEins "maej,ebkl,cdim->abcdijkl" [(ESlice (EVar "g_bbbb") [SV "o"; SV "v"; SV "v"; SV "o"]); (EVar "t2_bbbb"); (EVar "t2_bbbb")]));
   (*L6038*) SAug true "quadruples_res" (EAdd (EAdd (EAdd (EScale (1 # 1) (EVar "contracted_intermediate")) (EScale (-1 # 1) (EEins "abcdijkl->abcdkjil" [(EVar "contracted_intermediate")]))) (EScale (-1 # 1) (EEins "abcdijkl->acbdijkl" [(EVar "contracted_intermediate")]))) (EScale (1 # 1) (EEins "abcdijkl->acbdkjil" [(EVar "contracted_intermediate")])));
   (*L6041*) SAssign "contracted_intermediate" (EScale (1 # 1) (EEins "maej,ebik,cdlm->abcdijkl" [(ESlice (EVar "g_bbbb") [SV "o"; SV "v"; SV "v"; SV "o"]); (EVar "t2_bbbb"); (EVar "t2_bbbb")]));
   (*L6042*) SAug true "quadruples_res" (EAdd (EAdd (EAdd (EScale (1 # 1) (EVar "contracted_intermediate")) (EScale (-1 # 1) (EEins "abcdijkl->abcdjikl" [(EVar "contracted_intermediate")]))) (EScale (-1 # 1) (EEins "abcdijkl->acbdijkl" [(EVar "contracted_intermediate")]))) (EScale (1 # 1) (EEins "abcdijkl->acbdjikl" [(EVar "contracted_intermediate")])));
   (*L6045*) SAssign "contracted_intermediate" (EScale (1 # 1) (EEins "maej,edkl,bcim->abcdijkl" [(ESlice (EVar "g_bbbb") [SV "o"; SV "v"; SV "v"; SV "o"]); (EVar "t2_bbbb"); (EVar "t2_bbbb")]));
   (*L6046*) SAug true "quadruples_res" (EAdd (EAdd (EAdd (EScale (1 # 1) (EVar "contracted_intermediate")) (EScale (-1 # 1) (EEins "abcdijkl->abcdkjil" [(EVar "contracted_intermediate")]))) (EScale (-1 # 1) (EEins "abcdijkl->bacdijkl" [(EVar "contracted_intermediate")]))) (EScale (1 # 1) (EEins "abcdijkl->bacdkjil" [(EVar "contracted_intermediate")])));
   (*L6049*) SAssign "contracted_intermediate" (EScale (1 # 1) (EEins "maej,edik,bclm->abcdijkl" [(ESlice (EVar "g_bbbb") [SV "o"; SV "v"; SV "v"; SV "o"]); (EVar "t2_bbbb"); (EVar "t2_bbbb")]));
   (*L6050*) SAug true "quadruples_res" (EAdd (EAdd (EAdd (EScale (1 # 1) (EVar "contracted_intermediate")) (EScale (-1 # 1) (EEins "abcdijkl->abcdjikl" [(EVar "contracted_intermediate")]))) (EScale (-1 # 1) (EEins "abcdijkl->bacdijkl" [(EVar "contracted_intermediate")]))) (EScale (1 # 1) (EEins "abcdijkl->bacdjikl" [(EVar "contracted_intermediate")])));
   (*L6053*) SAssign "contracted_intermediate" (EScale (-1 # 1) (EEins "maei,ebkl,cdjm->abcdijkl" [(ESlice (EVar "g_bbbb") [SV "o"; SV "v"; SV "v"; SV "o"]); (EVar "t2_bbbb"); (EVar "t2_bbbb")]));
   (*L6054*) SAug true "quadruples_res" (EAdd (EAdd (EAdd (EScale (1 # 1) (EVar "contracted_intermediate")) (EScale (-1 # 1) (EEins "abcdijkl->abcdikjl" [(EVar "contracted_intermediate")]))) (EScale (-1 # 1) (EEins "abcdijkl->acbdijkl" [(EVar "contracted_intermediate")]))) (EScale (1 # 1) (EEins "abcdijkl->acbdikjl" [(EVar "contracted_intermediate")])));
   (*L6057*) SAssign "contracted_intermediate" (EScale (-1 # 1) (EEins "maei,edkl,bcjm->abcdijkl" [(ESlice (EVar "g_bbbb") [SV "o"; SV "v"; SV "v"; SV "o"]); (EVar "t2_bbbb"); (EVar "t2_bbbb")]));
   (*L6058*) SAug true "quadruples_res" (EAdd (EAdd (EAdd (EScale (1 # 1) (EVar "contracted_intermediate")) (EScale (-1 # 1) (EEins "abcdijkl->abcdikjl" [(EVar "contracted_intermediate")]))) (EScale (-1 # 1) (EEins "abcdijkl->bacdijkl" [(EVar "contracted_intermediate")]))) (EScale (1 # 1) (EEins "abcdijkl->bacdikjl" [(EVar "contracted_intermediate")])));
   (*L6061*) SAssign "contracted_intermediate" (EScale (-1 # 1) (EEins "mbel,eajk,cdim->abcdijkl" [(ESlice (EVar "g_bbbb") [SV "o"; SV "v"; SV "v"; SV "o"]); (EVar "t2_bbbb"); (EVar "t2_bbbb")]));
   (*L6062*) SAug true "quadruples_res" (EAdd (EAdd (EAdd (EScale (1 # 1) (EVar "contracted_intermediate")) (EScale (-1 # 1) (EEins "abcdijkl->abcdjikl" [(EVar "contracted_intermediate")]))) (EScale (-1 # 1) (EEins "abcdijkl->cbadijkl" [(EVar "contracted_intermediate")]))) (EScale (1 # 1) (EEins "abcdijkl->cbadjikl" [(EVar "contracted_intermediate")])));
   (*L6065*) SAssign "contracted_intermediate" (EScale (-1 # 1) (EEins "mbel,eaij,cdkm->abcdijkl" [(ESlice (EVar "g_bbbb") [SV "o"; SV "v"; SV "v"; SV "o"]); (EVar "t2_bbbb"); (EVar "t2_bbbb")]));
   (*L6066*) SAug true "quadruples_res" (EAdd (EAdd (EAdd (EScale (1 # 1) (EVar "contracted_intermediate")) (EScale (-1 # 1) (EEins "abcdijkl->abcdijlk" [(EVar "contracted_intermediate")]))) (EScale (-1 # 1) (EEins "abcdijkl->cbadijkl" [(EVar "contracted_intermediate")]))) (EScale (1 # 1) (EEins "abcdijkl->cbadijlk" [(EVar "contracted_intermediate")])));
   (*L6069*) SAssign "contracted_intermediate" (EScale (1 # 1) (EEins "mbek,eajl,cdim->abcdijkl" [(ESlice (EVar "g_bbbb") [SV "o"; SV "v"; SV "v"; SV "o"]); (EVar "t2_bbbb"); (EVar "t2_bbbb")]));
   (*L6070*) SAug true "quadruples_res" (EAdd (EAdd (EAdd (EScale (1 # 1) (EVar "contracted_intermediate")) (EScale (-1 # 1) (EEins "abcdijkl->abcdjikl" [(EVar "contracted_intermediate")]))) (EScale (-1 # 1) (EEins "abcdijkl->cbadijkl" [(EVar "contracted_intermediate")]))) (EScale (1 # 1) (EEins "abcdijkl->cbadjikl" [(EVar "contracted_intermediate")])));
   (*L6073*) SAssign "contracted_intermediate" (EScale (-1 # 1) (EEins "mbej,eakl,cdim->abcdijkl" [(ESlice (EVar "g_bbbb") [SV "o"; SV "v"; SV "v"; SV "o"]); (EVar "t2_bbbb"); (EVar "t2_bbbb")]));
   (*L6074*) SAug true "quadruples_res" (EAdd (EAdd (EAdd (EScale (1 # 1) (EVar "contracted_intermediate")) (EScale (-1 # 1) (EEins "abcdijkl->abcdkjil" [(EVar "contracted_intermediate")]))) (EScale (-1 # 1) (EEins "abcdijkl->cbadijkl" [(EVar "contracted_intermediate")]))) (EScale (1 # 1) (EEins "abcdijkl->cbadkjil" [(EVar "contracted_intermediate")])));
   (*L6077*) SAssign "contracted_intermediate" (EScale (-1 # 1) (EEins "mbej,eaik,cdlm->abcdijkl" [(ESlice (EVar "g_bbbb") [SV "o"; SV "v"; SV "v"; SV "o"]); (EVar "t2_bbbb"); (EVar "t2_bbbb")]));
   (*L6078*) SAug true "quadruples_res" (EAdd (EAdd (EAdd (EScale (1 # 1) (EVar "contracted_intermediate")) (EScale (-1 # 1) (EEins "abcdijkl->abcdjikl" [(EVar "contracted_intermediate")]))) (EScale (-1 # 1) (EEins "abcdijkl->cbadijkl" [(EVar "contracted_intermediate")]))) (EScale (1 # 1) (EEins "abcdijkl->cbadjikl" [(EVar "contracted_intermediate")])));
   (*L6081*) SAssign "contracted_intermediate" (EScale (1 # 1) (EEins "mbei,eakl,cdjm->abcdijkl" [(ESlice (EVar "g_bbbb") [SV "o"; SV "v"; SV "v"; SV "o"]); (EVar "t2_bbbb"); (EVar "t2_bbbb")]));
   (*L6082*) SAug true "quadruples_res" (EAdd (EAdd (EAdd (EScale (1 # 1) (EVar "contracted_intermediate")) (EScale (-1 # 1) (EEins "abcdijkl->abcdikjl" [(EVar "contracted_intermediate")]))) (EScale (-1 # 1) (EEins "abcdijkl->cbadijkl" [(EVar "contracted_intermediate")]))) (EScale (1 # 1) (EEins "abcdijkl->cbadikjl" [(EVar "contracted_intermediate")])));
   (*L6085*) SAssign "contracted_intermediate" (EScale (1 # 1) (EEins "mcel,eajk,bdim->abcdijkl" [(ESlice (EVar "g_bbbb") [SV "o"; SV "v"; SV "v"; SV "o"]); (EVar "t2_bbbb"); (EVar "t2_bbbb")]));
   (*L6086*) SAug true "quadruples_res" (EAdd (EAdd (EAdd (EScale (1 # 1) (EVar "contracted_intermediate")) (EScale (-1 # 1) (EEins "abcdijkl->abcdjikl" [(EVar "contracted_intermediate")]))) (EScale (-1 # 1) (EEins "abcdijkl->bacdijkl" [(EVar "contracted_intermediate")]))) (EScale (1 # 1) (EEins "abcdijkl->bacdjikl" [(EVar "contracted_intermediate")])));
   (*L6089*) SAssign "contracted_intermediate" (EScale (1 # 1) (EEins "mcel,eaij,bdkm->abcdijkl" [(ESlice (EVar "g_bbbb") [SV "o"; SV "v"; SV "v"; SV "o"]); (EVar "t2_bbbb"); (EVar "t2_bbbb")]));
   (*L6090*) SAug true "quadruples_res" (EAdd (EAdd (EAdd (EScale (1 # 1) (EVar "contracted_intermediate")) (EScale (-1 # 1) (EEins "abcdijkl->abcdijlk" [(EVar "contracted_intermediate")]))) (EScale (-1 # 1) (EEins "abcdijkl->bacdijkl" [(EVar "contracted_intermediate")]))) (EScale (1 # 1) (EEins "abcdijkl->bacdijlk" [(EVar "contracted_intermediate")])));
   (*L6093*) SAssign "contracted_intermediate" (EScale (1 # 1) (EEins "mcel,edjk,abim->abcdijkl" [(ESlice (EVar "g_bbbb") [SV "o"; SV "v"; SV "v"; SV "o"]); (EVar "t2_bbbb"); (EVar "t2_bbbb")]));
   (*L6094*) SAug true "quadruples_res" (EAdd (EAdd (EAdd (EScale (1 # 1) (EVar "contracted_intermediate")) (EScale (-1 # 1) (EEins "abcdijkl->abcdjikl" [(EVar "contracted_intermediate")]))) (EScale (-1 # 1) (EEins "abcdijkl->abdcijkl" [(EVar "contracted_intermediate")]))) (EScale (1 # 1) (EEins "abcdijkl->abdcjikl" [(EVar "contracted_intermediate")])));
   (*L6097*) SAssign "contracted_intermediate" (EScale (1 # 1) (EEins "mcel,edij,abkm->abcdijkl" [(ESlice (EVar "g_bbbb") [SV "o"; SV "v"; SV "v"; SV "o"]); (EVar "t2_bbbb"); (EVar "t2_bbbb")]));
   (*L6098*) SAug true "quadruples_res" (EAdd (EAdd (EAdd (EScale (1 # 1) (EVar "contracted_intermediate")) (EScale (-1 # 1) (EEins "abcdijkl->abcdijlk" [(EVar "contracted_intermediate")]))) (EScale (-1 # 1) (EEins "abcdijkl->abdcijkl" [(EVar "contracted_intermediate")]))) (EScale (1 # 1) (EEins "abcdijkl->abdcijlk" [(EVar "contracted_intermediate")])));
   (*L6101*) SAssign "contracted_intermediate" (EScale (-1 # 1) (EEins "mcek,eajl,bdim->abcdijkl" [(ESlice (EVar "g_bbbb") [SV "o"; SV "v"; SV "v"; SV "o"]); (EVar "t2_bbbb"); (EVar "t2_bbbb")]));
   (*L6102*) SAug true "quadruples_res" (EAdd (EAdd (EAdd (EScale (1 # 1) (EVar "contracted_intermediate")) (EScale (-1 # 1) (EEins "abcdijkl->abcdjikl" [(EVar "contracted_intermediate")]))) (EScale (-1 # 1) (EEins "abcdijkl->bacdijkl" [(EVar "contracted_intermediate")]))) (EScale (1 # 1) (EEins "abcdijkl->bacdjikl" [(EVar "contracted_intermediate")])));
   (*L6105*) SAssign "contracted_intermediate" (EScale (-1 # 1) (EEins "mcek,edjl,abim->abcdijkl" [(ESlice (EVar "g_bbbb") [SV "o"; SV "v"; SV "v"; SV "o"]); (EVar "t2_bbbb"); (EVar "t2_bbbb")]));
   (*L6106*) SAug true "quadruples_res" (EAdd (EAdd (EAdd (EScale (1 # 1) (EVar "contracted_intermediate")) (EScale (-1 # 1) (EEins "abcdijkl->abcdjikl" [(EVar "contracted_intermediate")]))) (EScale (-1 # 1) (EEins "abcdijkl->abdcijkl" [(EVar "contracted_intermediate")]))) (EScale (1 # 1) (EEins "abcdijkl->abdcjikl" [(EVar "contracted_intermediate")])));
   (*L6109*) SAssign "contracted_intermediate" (EScale (1 # 1) (EEins "mcej,eakl,bdim->abcdijkl" [(ESlice (EVar "g_bbbb") [SV "o"; SV "v"; SV "v"; SV "o"]); (EVar "t2_bbbb"); (EVar "t2_bbbb")]));
   (*L6110*) SAug true "quadruples_res" (EAdd (EAdd (EAdd (EScale (1 # 1) (EVar "contracted_intermediate")) (EScale (-1 # 1) (EEins "abcdijkl->abcdkjil" [(EVar "contracted_intermediate")]))) (EScale (-1 # 1) (EEins "abcdijkl->bacdijkl" [(EVar "contracted_intermediate")]))) (EScale (1 # 1) (EEins "abcdijkl->bacdkjil" [(EVar "contracted_intermediate")])));
   (*L6113*) SAssign "contracted_intermediate" (EScale (1 # 1) (EEins "mcej,eaik,bdlm->abcdijkl" [(ESlice (EVar "g_bbbb") [SV "o"; SV "v"; SV "v"; SV "o"]); (EVar "t2_bbbb"); (EVar "t2_bbbb")]));
   (*L6114*) SAug true "quadruples_res" (EAdd (EAdd (EAdd (EScale (1 # 1) (EVar "contracted_intermediate")) (EScale (-1 # 1) (EEins "abcdijkl->abcdjikl" [(EVar "contracted_intermediate")]))) (EScale (-1 # 1) (EEins "abcdijkl->bacdijkl" [(EVar "contracted_intermediate")]))) (EScale (1 # 1) (EEins "abcdijkl->bacdjikl" [(EVar "contracted_intermediate")])));
   (*L6117*) SAssign "contracted_intermediate" (EScale (1 # 1) (EEins "mcej,edkl,abim->abcdijkl" [(ESlice (EVar "g_bbbb") [SV "o"; SV "v"; SV "v"; SV "o"]); (EVar "t2_bbbb"); (EVar "t2_bbbb")]));
   (*L6118*) SAug true "quadruples_res" (EAdd (EAdd (EAdd (EScale (1 # 1) (EVar "contracted_intermediate")) (EScale (-1 # 1) (EEins "abcdijkl->abcdkjil" [(EVar "contracted_intermediate")]))) (EScale (-1 # 1) (EEins "abcdijkl->abdcijkl" [(EVar "contracted_intermediate")]))) (EScale (1 # 1) (EEins "abcdijkl->abdckjil" [(EVar "contracted_intermediate")])));
   (*L6121*) SAssign "contracted_intermediate" (EScale (1 # 1) (EEins "mcej,edik,ablm->abcdijkl" [(ESlice (EVar "g_bbbb") [SV "o"; SV "v"; SV "v"; SV "o"]); (EVar "t2_bbbb"); (EVar "t2_bbbb")]));
   (*L6122*) SAug true "quadruples_res" (EAdd (EAdd (EAdd (EScale (1 # 1) (EVar "contracted_intermediate")) (EScale (-1 # 1) (EEins "abcdijkl->abcdjikl" [(EVar "contracted_intermediate")]))) (EScale (-1 # 1) (EEins "abcdijkl->abdcijkl" [(EVar "contracted_intermediate")]))) (EScale (1 # 1) (EEins "abcdijkl->abdcjikl" [(EVar "contracted_intermediate")])));
   (*L6125*) SAssign "contracted_intermediate" (EScale (-1 # 1) (EEins "mcei,eakl,bdjm->abcdijkl" [(ESlice (EVar "g_bbbb") [SV "o"; SV "v"; SV "v"; SV "o"]); (EVar "t2_bbbb"); (EVar "t2_bbbb")]));
   (*L6126*) SAug true "quadruples_res" (EAdd (EAdd (EAdd (EScale (1 # 1) (EVar "contracted_intermediate")) (EScale (-1 # 1) (EEins "abcdijkl->abcdikjl" [(EVar "contracted_intermediate")]))) (EScale (-1 # 1) (EEins "abcdijkl->bacdijkl" [(EVar "contracted_intermediate")]))) (EScale (1 # 1) (EEins "abcdijkl->bacdikjl" [(EVar "contracted_intermediate")])));
   (*L6129*) SAssign "contracted_intermediate" (EScale (-1 # 1) (EEins "mcei,edkl,abjm->abcdijkl" [(ESlice (EVar "g_bbbb") [SV "o"; SV "v"; SV "v"; SV "o"]); (EVar "t2_bbbb"); (EVar "t2_bbbb")]));
   (*L6130*) SAug true "quadruples_res" (EAdd (EAdd (EAdd (EScale (1 # 1) (EVar "contracted_intermediate")) (EScale (-1 # 1) (EEins "abcdijkl->abcdikjl" [(EVar "contracted_intermediate")]))) (EScale (-1 # 1) (EEins "abcdijkl->abdcijkl" [(EVar "contracted_intermediate")]))) (EScale (1 # 1) (EEins "abcdijkl->abdcikjl" [(EVar "contracted_intermediate")])));
   (*L6133*) SAssign "contracted_intermediate" (EScale (-1 # 1) (EEins "mdel,eajk,bcim->abcdijkl" [(ESlice (EVar "g_bbbb") [SV "o"; SV "v"; SV "v"; SV "o"]); (EVar "t2_bbbb"); (EVar "t2_bbbb")]));
   (*L6134*) SAug true "quadruples_res" (EAdd (EAdd (EAdd (EScale (1 # 1) (EVar "contracted_intermediate")) (EScale (-1 # 1) (EEins "abcdijkl->abcdjikl" [(EVar "contracted_intermediate")]))) (EScale (-1 # 1) (EEins "abcdijkl->bacdijkl" [(EVar "contracted_intermediate")]))) (EScale (1 # 1) (EEins "abcdijkl->bacdjikl" [(EVar "contracted_intermediate")])));
   (*L6137*) SAssign "contracted_intermediate" (EScale (-1 # 1) (EEins "mdel,eaij,bckm->abcdijkl" [(ESlice (EVar "g_bbbb") [SV "o"; SV "v"; SV "v"; SV "o"]); (EVar "t2_bbbb"); (EVar "t2_bbbb")]));
   (*L6138*) SAug true "quadruples_res" (EAdd (EAdd (EAdd (EScale (1 # 1) (EVar "contracted_intermediate")) (EScale (-1 # 1) (EEins "abcdijkl->abcdijlk" [(EVar "contracted_intermediate")]))) (EScale (-1 # 1) (EEins "abcdijkl->bacdijkl" [(EVar "contracted_intermediate")]))) (EScale (1 # 1) (EEins "abcdijkl->bacdijlk" [(EVar "contracted_intermediate")])));
   (*L6141*) SAssign "contracted_intermediate" (EScale (1 # 1) (EEins "mdek,eajl,bcim->abcdijkl" [(ESlice (EVar "g_bbbb") [SV "o"; SV "v"; SV "v"; SV "o"]); (EVar "t2_bbbb"); (EVar "t2_bbbb")]));
   (*L6142*) SAug true "quadruples_res" (EAdd (EAdd (EAdd (EScale (1 # 1) (EVar "contracted_intermediate")) (EScale (-1 # 1) (EEins "abcdijkl->abcdjikl" [(EVar "contracted_intermediate")]))) (EScale (-1 # 1) (EEins "abcdijkl->bacdijkl" [(EVar "contracted_intermediate")]))) (EScale (1 # 1) (EEins "abcdijkl->bacdjikl" [(EVar "contracted_intermediate")])));
   (*L6145*) SAssign "contracted_intermediate" (EScale (-1 # 1) (EEins "mdej,eakl,bcim->abcdijkl" [(ESlice (EVar "g_bbbb") [SV "o"; SV "v"; SV "v"; SV "o"]); (EVar "t2_bbbb"); (EVar "t2_bbbb")]));
   (*L6146*) SAug true "quadruples_res" (EAdd (EAdd (EAdd (EScale (1 # 1) (EVar "contracted_intermediate")) (EScale (-1 # 1) (EEins "abcdijkl->abcdkjil" [(EVar "contracted_intermediate")]))) (EScale (-1 # 1) (EEins "abcdijkl->bacdijkl" [(EVar "contracted_intermediate")]))) (EScale (1 # 1) (EEins "abcdijkl->bacdkjil" [(EVar "contracted_intermediate")])));
   (*L6149*) SAssign "contracted_intermediate" (EScale (-1 # 1) (EEins "mdej,eaik,bclm->abcdijkl" [(ESlice (EVar "g_bbbb") [SV "o"; SV "v"; SV "v"; SV "o"]); (EVar "t2_bbbb"); (EVar "t2_bbbb")]));
   (*L6150*) SAug true "quadruples_res" (EAdd (EAdd (EAdd (EScale (1 # 1) (EVar "contracted_intermediate")) (EScale (-1 # 1) (EEins "abcdijkl->abcdjikl" [(EVar "contracted_intermediate")]))) (EScale (-1 # 1) (EEins "abcdijkl->bacdijkl" [(EVar "contracted_intermediate")]))) (EScale (1 # 1) (EEins "abcdijkl->bacdjikl" [(EVar "contracted_intermediate")])));
   (*L6153*) SAssign "contracted_intermediate" (EScale (1 # 1) (EEins "mdei,eakl,bcjm->abcdijkl" [(ESlice (EVar "g_bbbb") [SV "o"; SV "v"; SV "v"; SV "o"]); (EVar "t2_bbbb"); (EVar "t2_bbbb")]));
   (*L6154*) SAug true "quadruples_res" (EAdd (EAdd (EAdd (EScale (1 # 1) (EVar "contracted_intermediate")) (EScale (-1 # 1) (EEins "abcdijkl->abcdikjl" [(EVar "contracted_intermediate")]))) (EScale (-1 # 1) (EEins "abcdijkl->bacdijkl" [(EVar "contracted_intermediate")]))) (EScale (1 # 1) (EEins "abcdijkl->bacdikjl" [(EVar "contracted_intermediate")])));
   (*L6157*) SAssign "contracted_intermediate" (EScale (-1 # 1) (EEins "abef,eckl,fdij->abcdijkl" [(ESlice (EVar "g_bbbb") [SV "v"; SV "v"; SV "v"; SV "v"]); (EVar "t2_bbbb"); (EVar "t2_bbbb")]));
   (*L6158*) SAug true "quadruples_res" (EAdd (EAdd (EAdd (EScale (1 # 1) (EVar "contracted_intermediate")) (EScale (-1 # 1) (EEins "abcdijkl->abcdikjl" [(EVar "contracted_intermediate")]))) (EScale (-1 # 1) (EEins "abcdijkl->acbdijkl" [(EVar "contracted_intermediate")]))) (EScale (1 # 1) (EEins "abcdijkl->acbdikjl" [(EVar "contracted_intermediate")])));
   (*L6161*) SAssign "contracted_intermediate" (EScale (-1 # 1) (EEins "abef,ecil,fdjk->abcdijkl" [(ESlice (EVar "g_bbbb") [SV "v"; SV "v"; SV "v"; SV "v"]); (EVar "t2_bbbb"); (EVar "t2_bbbb")]));
   (*L6162*) SAug true "quadruples_res" (EAdd (EAdd (EAdd (EScale (1 # 1) (EVar "contracted_intermediate")) (EScale (-1 # 1) (EEins "abcdijkl->abcdijlk" [(EVar "contracted_intermediate")]))) (EScale (-1 # 1) (EEins "abcdijkl->acbdijkl" [(EVar "contracted_intermediate")]))) (EScale (1 # 1) (EEins "abcdijkl->acbdijlk" [(EVar "contracted_intermediate")])));
   (*L6165*) SAssign "contracted_intermediate" (EScale (-1 # 1) (EEins "abef,ecjk,fdil->abcdijkl" [(ESlice (EVar "g_bbbb") [SV "v"; SV "v"; SV "v"; SV "v"]); (EVar "t2_bbbb"); (EVar "t2_bbbb")]));
   (*L6166*) SAug true "quadruples_res" (EAdd (EAdd (EAdd (EScale (1 # 1) (EVar "contracted_intermediate")) (EScale (-1 # 1) (EEins "abcdijkl->abcdkjil" [(EVar "contracted_intermediate")]))) (EScale (-1 # 1) (EEins "abcdijkl->acbdijkl" [(EVar "contracted_intermediate")]))) (EScale (1 # 1) (EEins "abcdijkl->acbdkjil" [(EVar "contracted_intermediate")])));
   (*L6169*) SAssign "contracted_intermediate" (EScale (-1 # 1) (EEins "adef,ebkl,fcij->abcdijkl" [(ESlice (EVar "g_bbbb") [SV "v"; SV "v"; SV "v"; SV "v"]); (EVar "t2_bbbb"); (EVar "t2_bbbb")]));
   (*L6170*) SAug true "quadruples_res" (EAdd (EAdd (EAdd (EScale (1 # 1) (EVar "contracted_intermediate")) (EScale (-1 # 1) (EEins "abcdijkl->abcdikjl" [(EVar "contracted_intermediate")]))) (EScale (-1 # 1) (EEins "abcdijkl->bacdijkl" [(EVar "contracted_intermediate")]))) (EScale (1 # 1) (EEins "abcdijkl->bacdikjl" [(EVar "contracted_intermediate")])));
   (*L6173*) SAssign "contracted_intermediate" (EScale (-1 # 1) (EEins "adef,ebil,fcjk->abcdijkl" [(ESlice (EVar "g_bbbb") [SV "v"; SV "v"; SV "v"; SV "v"]); (EVar "t2_bbbb"); (EVar "t2_bbbb")]));
   (*L6174*) SAug true "quadruples_res" (EAdd (EAdd (EAdd (EScale (1 # 1) (EVar "contracted_intermediate")) (EScale (-1 # 1) (EEins "abcdijkl->abcdijlk" [(EVar "contracted_intermediate")]))) (EScale (-1 # 1) (EEins "abcdijkl->bacdijkl" [(EVar "contracted_intermediate")]))) (EScale (1 # 1) (EEins "abcdijkl->bacdijlk" [(EVar "contracted_intermediate")])));
   (*L6177*) SAssign "contracted_intermediate" (EScale (-1 # 1) (EEins "adef,ebjk,fcil->abcdijkl" [(ESlice (EVar "g_bbbb") [SV "v"; SV "v"; SV "v"; SV "v"]); (EVar "t2_bbbb"); (EVar "t2_bbbb")]));
   (*L6178*) SAug true "quadruples_res" (EAdd (EAdd (EAdd (EScale (1 # 1) (EVar "contracted_intermediate")) (EScale (-1 # 1) (EEins "abcdijkl->abcdkjil" [(EVar "contracted_intermediate")]))) (EScale (-1 # 1) (EEins "abcdijkl->bacdijkl" [(EVar "contracted_intermediate")]))) (EScale (1 # 1) (EEins "abcdijkl->bacdkjil" [(EVar "contracted_intermediate")])));
   (*L6181*) SAssign "contracted_intermediate" (EScale (-1 # 1) (EEins "bcef,eakl,fdij->abcdijkl" [(ESlice (EVar "g_bbbb") [SV "v"; SV "v"; SV "v"; SV "v"]); (EVar "t2_bbbb"); (EVar "t2_bbbb")]));
   (*L6182*) SAug true "quadruples_res" (EAdd (EAdd (EAdd (EScale (1 # 1) (EVar "contracted_intermediate")) (EScale (-1 # 1) (EEins "abcdijkl->abcdikjl" [(EVar "contracted_intermediate")]))) (EScale (-1 # 1) (EEins "abcdijkl->adcbijkl" [(EVar "contracted_intermediate")]))) (EScale (1 # 1) (EEins "abcdijkl->adcbikjl" [(EVar "contracted_intermediate")])));
   (*L6185*) SAssign "contracted_intermediate" (EScale (-1 # 1) (EEins "bcef,eail,fdjk->abcdijkl" [(ESlice (EVar "g_bbbb") [SV "v"; SV "v"; SV "v"; SV "v"]); (EVar "t2_bbbb"); (EVar "t2_bbbb")]));
   (*L6186*) SAug true "quadruples_res" (EAdd (EAdd (EAdd (EScale (1 # 1) (EVar "contracted_intermediate")) (EScale (-1 # 1) (EEins "abcdijkl->abcdijlk" [(EVar "contracted_intermediate")]))) (EScale (-1 # 1) (EEins "abcdijkl->adcbijkl" [(EVar "contracted_intermediate")]))) (EScale (1 # 1) (EEins "abcdijkl->adcbijlk" [(EVar "contracted_intermediate")])));
   (*L6189*) SAssign "contracted_intermediate" (EScale (-1 # 1) (EEins "bcef,eajk,fdil->abcdijkl" [(ESlice (EVar "g_bbbb") [SV "v"; SV "v"; SV "v"; SV "v"]); (EVar "t2_bbbb"); (EVar "t2_bbbb")]));
   (*L6190*) SAug true "quadruples_res" (EAdd (EAdd (EAdd (EScale (1 # 1) (EVar "contracted_intermediate")) (EScale (-1 # 1) (EEins "abcdijkl->abcdkjil" [(EVar "contracted_intermediate")]))) (EScale (-1 # 1) (EEins "abcdijkl->adcbijkl" [(EVar "contracted_intermediate")]))) (EScale (1 # 1) (EEins "abcdijkl->adcbkjil" [(EVar "contracted_intermediate")])));
   (*L6193*) SAssign "contracted_intermediate" (EScale (-1 # 2) (EEins "nmef,efkl,abjm,cdin->abcdijkl" [(ESlice (EVar "g_bbbb") [SV "o"; SV "o"; SV "v"; SV "v"]); (EVar "t2_bbbb"); (EVar "t2_bbbb"); (EVar "t2_bbbb")]));
   (*L6194*) SAug true "quadruples_res" (EAdd (EAdd (EAdd (EScale (1 # 1) (EVar "contracted_intermediate")) (EScale (-1 # 1) (EEins "abcdijkl->abcdjikl" [(EVar "contracted_intermediate")]))) (EScale (-1 # 1) (EEins "abcdijkl->acbdijkl" [(EVar "contracted_intermediate")]))) (EScale (1 # 1) (EEins "abcdijkl->acbdjikl" [(EVar "contracted_intermediate")])));
   (*L6197*) SAssign "contracted_intermediate" (EScale (-1 # 2) (EEins "nmef,efkl,adjm,bcin->abcdijkl" [(ESlice (EVar "g_bbbb") [SV "o"; SV "o"; SV "v"; SV "v"]); (EVar "t2_bbbb"); (EVar "t2_bbbb"); (EVar "t2_bbbb")]));
   (*L6198*) SAug true "quadruples_res" (EAdd (EScale (1 # 1) (EVar "contracted_intermediate")) (EScale (-1 # 1) (EEins "abcdijkl->abcdjikl" [(EVar "contracted_intermediate")])));
   (*L6201*) SAssign "contracted_intermediate" (EScale (1 # 2) (EEins "nmef,efjl,abkm,cdin->abcdijkl" [(ESlice (EVar "g_bbbb") [SV "o"; SV "o"; SV "v"; SV "v"]); (EVar "t2_bbbb"); (EVar "t2_bbbb"); (EVar "t2_bbbb")]));
   (*L6202*) SAug true "quadruples_res" (EAdd (EAdd (EAdd (EScale (1 # 1) (EVar "contracted_intermediate")) (EScale (-1 # 1) (EEins "abcdijkl->abcdkjil" [(EVar "contracted_intermediate")]))) (EScale (-1 # 1) (EEins "abcdijkl->acbdijkl" [(EVar "contracted_intermediate")]))) (EScale (1 # 1) (EEins "abcdijkl->acbdkjil" [(EVar "contracted_intermediate")])));
   (*L6205*) SAssign "contracted_intermediate" (EScale (1 # 2) (EEins "nmef,efjl,adkm,bcin->abcdijkl" [(ESlice (EVar "g_bbbb") [SV "o"; SV "o"; SV "v"; SV "v"]); (EVar "t2_bbbb"); (EVar "t2_bbbb"); (EVar "t2_bbbb")]));
   (*L6206*) SAug true "quadruples_res" (EAdd (EScale (1 # 1) (EVar "contracted_intermediate")) (EScale (-1 # 1) (EEins "abcdijkl->abcdkjil" [(EVar "contracted_intermediate")])));
   (*L6209*) SAssign "contracted_intermediate" (EScale (-1 # 2) (EEins "nmef,efil,abkm,cdjn->abcdijkl" [(ESlice (EVar "g_bbbb") [SV "o"; SV "o"; SV "v"; SV "v"]); (EVar "t2_bbbb"); (EVar "t2_bbbb"); (EVar "t2_bbbb")]));
   (*L6210*) SAug true "quadruples_res" (EAdd (EAdd (EAdd (EScale (1 # 1) (EVar "contracted_intermediate")) (EScale (-1 # 1) (EEins "abcdijkl->abcdikjl" [(EVar "contracted_intermediate")]))) (EScale (-1 # 1) (EEins "abcdijkl->acbdijkl" [(EVar "contracted_intermediate")]))) (EScale (1 # 1) (EEins "abcdijkl->acbdikjl" [(EVar "contracted_intermediate")])));
   (*L6213*) SAssign "contracted_intermediate" (EScale (-1 # 2) (EEins "nmef,efil,adkm,bcjn->abcdijkl" [(ESlice (EVar "g_bbbb") [SV "o"; SV "o"; SV "v"; SV "v"]); (EVar "t2_bbbb"); (EVar "t2_bbbb"); (EVar "t2_bbbb")]));
   (*L6214*) SAug true "quadruples_res" (EAdd (EScale (1 # 1) (EVar "contracted_intermediate")) (EScale (-1 # 1) (EEins "abcdijkl->abcdikjl" [(EVar "contracted_intermediate")])));
   (*L6217*) SAssign "contracted_intermediate" (EScale (-1 # 2) (EEins "nmef,efjk,ablm,cdin->abcdijkl" [(ESlice (EVar "g_bbbb") [SV "o"; SV "o"; SV "v"; SV "v"]); (EVar "t2_bbbb"); (EVar "t2_bbbb"); (EVar "t2_bbbb")]));
   (*L6218*) SAug true "quadruples_res" (EAdd (EAdd (EAdd (EScale (1 # 1) (EVar "contracted_intermediate")) (EScale (-1 # 1) (EEins "abcdijkl->abcdljki" [(EVar "contracted_intermediate")]))) (EScale (-1 # 1) (EEins "abcdijkl->acbdijkl" [(EVar "contracted_intermediate")]))) (EScale (1 # 1) (EEins "abcdijkl->acbdljki" [(EVar "contracted_intermediate")])));
   (*L6221*) SAssign "contracted_intermediate" (EScale (-1 # 2) (EEins "nmef,efjk,adlm,bcin->abcdijkl" [(ESlice (EVar "g_bbbb") [SV "o"; SV "o"; SV "v"; SV "v"]); (EVar "t2_bbbb"); (EVar "t2_bbbb"); (EVar "t2_bbbb")]));
   (*L6222*) SAug true "quadruples_res" (EAdd (EScale (1 # 1) (EVar "contracted_intermediate")) (EScale (-1 # 1) (EEins "abcdijkl->abcdljki" [(EVar "contracted_intermediate")])));
   (*L6225*) SAssign "contracted_intermediate" (EScale (1 # 2) (EEins "nmef,efik,ablm,cdjn->abcdijkl" [(ESlice (EVar "g_bbbb") [SV "o"; SV "o"; SV "v"; SV "v"]); (EVar "t2_bbbb"); (EVar "t2_bbbb"); (EVar "t2_bbbb")]));
   (*L6226*) SAug true "quadruples_res" (EAdd (EAdd (EAdd (EScale (1 # 1) (EVar "contracted_intermediate")) (EScale (-1 # 1) (EEins "abcdijkl->abcdilkj" [(EVar "contracted_intermediate")]))) (EScale (-1 # 1) (EEins "abcdijkl->acbdijkl" [(EVar "contracted_intermediate")]))) (EScale (1 # 1) (EEins "abcdijkl->acbdilkj" [(EVar "contracted_intermediate")])));
   (*L6229*) SAssign "contracted_intermediate" (EScale (1 # 2) (EEins "nmef,efik,adlm,bcjn->abcdijkl" [(ESlice (EVar "g_bbbb") [SV "o"; SV "o"; SV "v"; SV "v"]); (EVar "t2_bbbb"); (EVar "t2_bbbb"); (EVar "t2_bbbb")]));
   (*L6230*) SAug true "quadruples_res" (EAdd (EScale (1 # 1) (EVar "contracted_intermediate")) (EScale (-1 # 1) (EEins "abcdijkl->abcdilkj" [(EVar "contracted_intermediate")])));
   (*L6233*) SAssign "contracted_intermediate" (EScale (-1 # 2) (EEins "nmef,efij,ablm,cdkn->abcdijkl" [(ESlice (EVar "g_bbbb") [SV "o"; SV "o"; SV "v"; SV "v"]); (EVar "t2_bbbb"); (EVar "t2_bbbb"); (EVar "t2_bbbb")]));
   (*L6234*) SAug true "quadruples_res" (EAdd (EAdd (EAdd (EScale (1 # 1) (EVar "contracted_intermediate")) (EScale (-1 # 1) (EEins "abcdijkl->abcdijlk" [(EVar "contracted_intermediate")]))) (EScale (-1 # 1) (EEins "abcdijkl->acbdijkl" [(EVar "contracted_intermediate")]))) (EScale (1 # 1) (EEins "abcdijkl->acbdijlk" [(EVar "contracted_intermediate")])));
   (*L6237*) SAssign "contracted_intermediate" (EScale (-1 # 2) (EEins "nmef,efij,adlm,bckn->abcdijkl" [(ESlice (EVar "g_bbbb") [SV "o"; SV "o"; SV "v"; SV "v"]); (EVar "t2_bbbb"); (EVar "t2_bbbb"); (EVar "t2_bbbb")]));
   (*L6238*) SAug true "quadruples_res" (EAdd (EScale (1 # 1) (EVar "contracted_intermediate")) (EScale (-1 # 1) (EEins "abcdijkl->abcdijlk" [(EVar "contracted_intermediate")])));
   (*L6241*) SAssign "contracted_intermediate" (EScale (1 # 1) (EEins "mnef,eaml,fbjk,cdin->abcdijkl" [(ESlice (EVar "g_abab") [SV "o"; SV "o"; SV "v"; SV "v"]); (EVar "t2_abab"); (EVar "t2_bbbb"); (EVar "t2_bbbb")]));
   (*L6242*) SAug true "quadruples_res" (EAdd (EAdd (EAdd (EScale (1 # 1) (EVar "contracted_intermediate")) (EScale (-1 # 1) (EEins "abcdijkl->abcdjikl" [(EVar "contracted_intermediate")]))) (EScale (-1 # 1) (EEins "abcdijkl->acbdijkl" [(EVar "contracted_intermediate")]))) (EScale (1 # 1) (EEins "abcdijkl->acbdjikl" [(EVar "contracted_intermediate")])));
   (*L6245*) SAssign "contracted_intermediate" (EScale (1 # 1) (EEins "nmef,ealm,fbjk,cdin->abcdijkl" [(ESlice (EVar "g_bbbb") [SV "o"; SV "o"; SV "v"; SV "v"]); (EVar "t2_bbbb"); (EVar "t2_bbbb"); (EVar "t2_bbbb")]));
   (*L6246*) SAug true "quadruples_res" (EAdd (EAdd (EAdd (EScale (1 # 1) (EVar "contracted_intermediate")) (EScale (-1 # 1) (EEins "abcdijkl->abcdjikl" [(EVar "contracted_intermediate")]))) (EScale (-1 # 1) (EEins "abcdijkl->acbdijkl" [(EVar "contracted_intermediate")]))) (EScale (1 # 1) (EEins "abcdijkl->acbdjikl" [(EVar "contracted_intermediate")])));
   (*L6249*) SAssign "contracted_intermediate" (EScale (1 # 1) (EEins "mnef,eaml,fbij,cdkn->abcdijkl" [(ESlice (EVar "g_abab") [SV "o"; SV "o"; SV "v"; SV "v"]); (EVar "t2_abab"); (EVar "t2_bbbb"); (EVar "t2_bbbb")]));
   (*L6250*) SAug true "quadruples_res" (EAdd (EAdd (EAdd (EScale (1 # 1) (EVar "contracted_intermediate")) (EScale (-1 # 1) (EEins "abcdijkl->abcdijlk" [(EVar "contracted_intermediate")]))) (EScale (-1 # 1) (EEins "abcdijkl->acbdijkl" [(EVar "contracted_intermediate")]))) (EScale (1 # 1) (EEins "abcdijkl->acbdijlk" [(EVar "contracted_intermediate")])));
   (*L6253*) SAssign "contracted_intermediate" (EScale (1 # 1) (EEins "nmef,ealm,fbij,cdkn->abcdijkl" [(ESlice (EVar "g_bbbb") [SV "o"; SV "o"; SV "v"; SV "v"]); (EVar "t2_bbbb"); (EVar "t2_bbbb"); (EVar "t2_bbbb")]));
   (*L6254*) SAug true "quadruples_res" (EAdd (EAdd (EAdd (EScale (1 # 1) (EVar "contracted_intermediate")) (EScale (-1 # 1) (EEins "abcdijkl->abcdijlk" [(EVar "contracted_intermediate")]))) (EScale (-1 # 1) (EEins "abcdijkl->acbdijkl" [(EVar "contracted_intermediate")]))) (EScale (1 # 1) (EEins "abcdijkl->acbdijlk" [(EVar "contracted_intermediate")])));
   (*L6257*) SAssign "contracted_intermediate" (EScale (1 # 1) (EEins "mnef,eaml,fdjk,bcin->abcdijkl" [(ESlice (EVar "g_abab") [SV "o"; SV "o"; SV "v"; SV "v"]); (EVar "t2_abab"); (EVar "t2_bbbb"); (EVar "t2_bbbb")]));
   (*L6258*) SAug true "quadruples_res" (EAdd (EAdd (EAdd (EScale (1 # 1) (EVar "contracted_intermediate")) (EScale (-1 # 1) (EEins "abcdijkl->abcdjikl" [(EVar "contracted_intermediate")]))) (EScale (-1 # 1) (EEins "abcdijkl->bacdijkl" [(EVar "contracted_intermediate")]))) (EScale (1 # 1) (EEins "abcdijkl->bacdjikl" [(EVar "contracted_intermediate")])));
   (*L6261*) SAssign "contracted_intermediate" (EScale (1 # 1) (EEins "nmef,ealm,fdjk,bcin->abcdijkl" [(ESlice (EVar "g_bbbb") [SV "o"; SV "o"; SV "v"; SV "v"]); (EVar "t2_bbbb"); (EVar "t2_bbbb"); (EVar "t2_bbbb")]));
   (*L6262*) SAug true "quadruples_res" (EAdd (EAdd (EAdd (EScale (1 # 1) (EVar "contracted_intermediate")) (EScale (-1 # 1) (EEins "abcdijkl->abcdjikl" [(EVar "contracted_intermediate")]))) (EScale (-1 # 1) (EEins "abcdijkl->bacdijkl" [(EVar "contracted_intermediate")]))) (EScale (1 # 1) (EEins "abcdijkl->bacdjikl" [(EVar "contracted_intermediate")])));
   (*L6265*) SAssign "contracted_intermediate" (EScale (1 # 1) (EEins "mnef,eaml,fdij,bckn->abcdijkl" [(ESlice (EVar "g_abab") [SV "o"; SV "o"; SV "v"; SV "v"]); (EVar "t2_abab"); (EVar "t2_bbbb"); (EVar "t2_bbbb")]));
   (*L6266*) SAug true "quadruples_res" (EAdd (EAdd (EAdd (EScale (1 # 1) (EVar "contracted_intermediate")) (EScale (-1 # 1) (EEins "abcdijkl->abcdijlk" [(EVar "contracted_intermediate")]))) (EScale (-1 # 1) (EEins "abcdijkl->bacdijkl" [(EVar "contracted_intermediate")]))) (EScale (1 # 1) (EEins "abcdijkl->bacdijlk" [(EVar "contracted_intermediate")])));
   (*L6269*) SAssign "contracted_intermediate" (EScale (1 # 1) (EEins "nmef,ealm,fdij,bckn->abcdijkl" [(ESlice (EVar "g_bbbb") [SV "o"; SV "o"; SV "v"; SV "v"]); (EVar "t2_bbbb"); (EVar "t2_bbbb"); (EVar "t2_bbbb")]));
   (*L6270*) SAug true "quadruples_res" (EAdd (EAdd (EAdd (EScale (1 # 1) (EVar "contracted_intermediate")) (EScale (-1 # 1) (EEins "abcdijkl->abcdijlk" [(EVar "contracted_intermediate")]))) (EScale (-1 # 1) (EEins "abcdijkl->bacdijkl" [(EVar "contracted_intermediate")]))) (EScale (1 # 1) (EEins "abcdijkl->bacdijlk" [(EVar "contracted_intermediate")])));
   (*L6273*) SAssign "contracted_intermediate" (EScale (-1 # 1) (EEins "mnef,eamk,fbjl,cdin->abcdijkl" [(ESlice (EVar "g_abab") [SV "o"; SV "o"; SV "v"; SV "v"]); (EVar "t2_abab"); (EVar "t2_bbbb"); (EVar "t2_bbbb")]));
   (*L6274*) SAug true "quadruples_res" (EAdd (EAdd (EAdd (EScale (1 # 1) (EVar "contracted_intermediate")) (EScale (-1 # 1) (EEins "abcdijkl->abcdjikl" [(EVar "contracted_intermediate")]))) (EScale (-1 # 1) (EEins "abcdijkl->acbdijkl" [(EVar "contracted_intermediate")]))) (EScale (1 # 1) (EEins "abcdijkl->acbdjikl" [(EVar "contracted_intermediate")])));
   (*L6277*) SAssign "contracted_intermediate" (EScale (-1 # 1) (EEins "nmef,eakm,fbjl,cdin->abcdijkl" [(ESlice (EVar "g_bbbb") [SV "o"; SV "o"; SV "v"; SV "v"]); (EVar "t2_bbbb"); (EVar "t2_bbbb"); (EVar "t2_bbbb")]));
   (*L6278*) SAug true "quadruples_res" (EAdd (EAdd (EAdd (EScale (1 # 1) (EVar "contracted_intermediate")) (EScale (-1 # 1) (EEins "abcdijkl->abcdjikl" [(EVar "contracted_intermediate")]))) (EScale (-1 # 1) (EEins "abcdijkl->acbdijkl" [(EVar "contracted_intermediate")]))) (EScale (1 # 1) (EEins "abcdijkl->acbdjikl" [(EVar "contracted_intermediate")])));
   (*L6281*) SAssign "contracted_intermediate" (EScale (-1 # 1) (EEins "mnef,eamk,fdjl,bcin->abcdijkl" [(ESlice (EVar "g_abab") [SV "o"; SV "o"; SV "v"; SV "v"]); (EVar "t2_abab"); (EVar "t2_bbbb"); (EVar "t2_bbbb")]));
   (*L6282*) SAug true "quadruples_res" (EAdd (EAdd (EAdd (EScale (1 # 1) (EVar "contracted_intermediate")) (EScale (-1 # 1) (EEins "abcdijkl->abcdjikl" [(EVar "contracted_intermediate")]))) (EScale (-1 # 1) (EEins "abcdijkl->bacdijkl" [(EVar "contracted_intermediate")]))) (EScale (1 # 1) (EEins "abcdijkl->bacdjikl" [(EVar "contracted_intermediate")])));
   (*L6285*) SAssign "contracted_intermediate" (EScale (-1 # 1) (EEins "nmef,eakm,fdjl,bcin->abcdijkl" [(ESlice (EVar "g_bbbb") [SV "o"; SV "o"; SV "v"; SV "v"]); (EVar "t2_bbbb"); (EVar "t2_bbbb"); (EVar "t2_bbbb")]));
   (*L6286*) SAug true "quadruples_res" (EAdd (EAdd (EAdd (EScale (1 # 1) (EVar "contracted_intermediate")) (EScale (-1 # 1) (EEins "abcdijkl->abcdjikl" [(EVar "contracted_intermediate")]))) (EScale (-1 # 1) (EEins "abcdijkl->bacdijkl" [(EVar "contracted_intermediate")]))) (EScale (1 # 1) (EEins "abcdijkl->bacdjikl" [(EVar "contracted_intermediate")])));
   (*L6289*) SAssign "contracted_intermediate" (EScale (1 # 1) (EEins "mnef,eamj,fbkl,cdin->abcdijkl" [(ESlice (EVar "g_abab") [SV "o"; SV "o"; SV "v"; SV "v"]); (EVar "t2_abab"); (EVar "t2_bbbb"); (EVar "t2_bbbb")]));
   (*L6290*) SAug true "quadruples_res" (EAdd (EAdd (EAdd (EScale (1 # 1) (EVar "contracted_intermediate")) (EScale (-1 # 1) (EEins "abcdijkl->abcdkjil" [(EVar "contracted_intermediate")]))) (EScale (-1 # 1) (EEins "abcdijkl->acbdijkl" [(EVar "contracted_intermediate")]))) (EScale (1 # 1) (EEins "abcdijkl->acbdkjil" [(EVar "contracted_intermediate")])));
   (*L6293*) SAssign "contracted_intermediate" (EScale (1 # 1) (EEins "nmef,eajm,fbkl,cdin->abcdijkl" [(ESlice (EVar "g_bbbb") [SV "o"; SV "o"; SV "v"; SV "v"]); (EVar "t2_bbbb"); (EVar "t2_bbbb"); (EVar "t2_bbbb")]));
   (*L6294*) SAug true "quadruples_res" (EAdd (EAdd (EAdd (EScale (1 # 1) (EVar "contracted_intermediate")) (EScale (-1 # 1) (EEins "abcdijkl->abcdkjil" [(EVar "contracted_intermediate")]))) (EScale (-1 # 1) (EEins "abcdijkl->acbdijkl" [(EVar "contracted_intermediate")]))) (EScale (1 # 1) (EEins "abcdijkl->acbdkjil" [(EVar "contracted_intermediate")])));
   (*L6297*) SAssign "contracted_intermediate" (EScale (1 # 1) (EEins "mnef,eamj,fbik,cdln->abcdijkl" [(ESlice (EVar "g_abab") [SV "o"; SV "o"; SV "v"; SV "v"]); (EVar "t2_abab"); (EVar "t2_bbbb"); (EVar "t2_bbbb")]));
   (*L6298*) SAug true "quadruples_res" (EAdd (EAdd (EAdd (EScale (1 # 1) (EVar "contracted_intermediate")) (EScale (-1 # 1) (EEins "abcdijkl->abcdjikl" [(EVar "contracted_intermediate")]))) (EScale (-1 # 1) (EEins "abcdijkl->acbdijkl" [(EVar "contracted_intermediate")]))) (EScale (1 # 1) (EEins "abcdijkl->acbdjikl" [(EVar "contracted_intermediate")])));
   (*L6301*) SAssign "contracted_intermediate" (EScale (1 # 1) (EEins "nmef,eajm,fbik,cdln->abcdijkl" [(ESlice (EVar "g_bbbb") [SV "o"; SV "o"; SV "v"; SV "v"]); (EVar "t2_bbbb"); (EVar "t2_bbbb"); (EVar "t2_bbbb")]));
   (*L6302*) SAug true "quadruples_res" (EAdd (EAdd (EAdd (EScale (1 # 1) (EVar "contracted_intermediate")) (EScale (-1 # 1) (EEins "abcdijkl->abcdjikl" [(EVar "contracted_intermediate")]))) (EScale (-1 # 1) (EEins "abcdijkl->acbdijkl" [(EVar "contracted_intermediate")]))) (EScale (1 # 1) (EEins "abcdijkl->acbdjikl" [(EVar "contracted_intermediate")])));
   (*L6305*) SAssign "contracted_intermediate" (EScale (1 # 1) (EEins "mnef,eamj,fdkl,bcin->abcdijkl" [(ESlice (EVar "g_abab") [SV "o"; SV "o"; SV "v"; SV "v"]); (EVar "t2_abab"); (EVar "t2_bbbb"); (EVar "t2_bbbb")]));
   (*L6306*) SAug true "quadruples_res" (EAdd (EAdd (EAdd (EScale (1 # 1) (EVar "contracted_intermediate")) (EScale (-1 # 1) (EEins "abcdijkl->abcdkjil" [(EVar "contracted_intermediate")]))) (EScale (-1 # 1) (EEins "abcdijkl->bacdijkl" [(EVar "contracted_intermediate")]))) (EScale (1 # 1) (EEins "abcdijkl->bacdkjil" [(EVar "contracted_intermediate")])));
   (*L6309*) SAssign "contracted_intermediate" (EScale (1 # 1) (EEins "nmef,eajm,fdkl,bcin->abcdijkl" [(ESlice (EVar "g_bbbb") [SV "o"; SV "o"; SV "v"; SV "v"]); (EVar "t2_bbbb"); (EVar "t2_bbbb"); (EVar "t2_bbbb")]));
   (*L6310*) SAug true "quadruples_res" (EAdd (EAdd (EAdd (EScale (1 # 1) (EVar "contracted_intermediate")) (EScale (-1 # 1) (EEins "abcdijkl->abcdkjil" [(EVar "contracted_intermediate")]))) (EScale (-1 # 1) (EEins "abcdijkl->bacdijkl" [(EVar "contracted_intermediate")]))) (EScale (1 # 1) (EEins "abcdijkl->bacdkjil" [(EVar "contracted_intermediate")])));
   (*L6313*) SAssign "contracted_intermediate" (EScale (1 # 1) (EEins "mnef,eamj,fdik,bcln->abcdijkl" [(ESlice (EVar "g_abab") [SV "o"; SV "o"; SV "v"; SV "v"]); (EVar "t2_abab"); (EVar "t2_bbbb"); (EVar "t2_bbbb")]));
   (*L6314*) SAug true "quadruples_res" (EAdd (EAdd (EAdd (EScale (1 # 1) (EVar "contracted_intermediate")) (EScale (-1 # 1) (EEins "abcdijkl->abcdjikl" [(EVar "contracted_intermediate")]))) (EScale (-1 # 1) (EEins "abcdijkl->bacdijkl" [(EVar "contracted_intermediate")]))) (EScale (1 # 1) (EEins "abcdijkl->bacdjikl" [(EVar "contracted_intermediate")])));
   (*L6317*) SAssign "contracted_intermediate" (EScale (1 # 1) (EEins "nmef,eajm,fdik,bcln->abcdijkl" [(ESlice (EVar "g_bbbb") [SV "o"; SV "o"; SV "v"; SV "v"]); (EVar "t2_bbbb"); (EVar "t2_bbbb"); (EVar "t2_bbbb")]));
   (*L6318*) SAug true "quadruples_res" (EAdd (EAdd (EAdd (EScale (1 # 1) (EVar "contracted_intermediate")) (EScale (-1 # 1) (EEins "abcdijkl->abcdjikl" [(EVar "contracted_intermediate")]))) (EScale (-1 # 1) (EEins "abcdijkl->bacdijkl" [(EVar "contracted_intermediate")]))) (EScale (1 # 1) (EEins "abcdijkl->bacdjikl" [(EVar "contracted_intermediate")])));
   (*L6321*) SAssign "contracted_intermediate" (EScale (-1 # 1) (EEins "mnef,eami,fbkl,cdjn->abcdijkl" [(ESlice (EVar "g_abab") [SV "o"; SV "o"; SV "v"; SV "v"]); (EVar "t2_abab"); (EVar "t2_bbbb"); (EVar "t2_bbbb")]));
   (*L6322*) SAug true "quadruples_res" (EAdd (EAdd (EAdd (EScale (1 # 1) (EVar "contracted_intermediate")) (EScale (-1 # 1) (EEins "abcdijkl->abcdikjl" [(EVar "contracted_intermediate")]))) (EScale (-1 # 1) (EEins "abcdijkl->acbdijkl" [(EVar "contracted_intermediate")]))) (EScale (1 # 1) (EEins "abcdijkl->acbdikjl" [(EVar "contracted_intermediate")])));
   (*L6325*) SAssign "contracted_intermediate" (EScale (-1 # 1) (EEins "nmef,eaim,fbkl,cdjn->abcdijkl" [(ESlice (EVar "g_bbbb") [SV "o"; SV "o"; SV "v"; SV "v"]); (EVar "t2_bbbb"); (EVar "t2_bbbb"); (EVar "t2_bbbb")]));
   (*L6326*) SAug true "quadruples_res" (EAdd (EAdd (EAdd (EScale (1 # 1) (EVar "contracted_intermediate")) (EScale (-1 # 1) (EEins "abcdijkl->abcdikjl" [(EVar "contracted_intermediate")]))) (EScale (-1 # 1) (EEins "abcdijkl->acbdijkl" [(EVar "contracted_intermediate")]))) (EScale (1 # 1) (EEins "abcdijkl->acbdikjl" [(EVar "contracted_intermediate")])));
   (*L6329*) SAssign "contracted_intermediate" (EScale (-1 # 1) (EEins "mnef,eami,fdkl,bcjn->abcdijkl" [(ESlice (EVar "g_abab") [SV "o"; SV "o"; SV "v"; SV "v"]); (EVar "t2_abab"); (EVar "t2_bbbb"); (EVar "t2_bbbb")]));
   (*L6330*) SAug true "quadruples_res" (EAdd (EAdd (EAdd (EScale (1 # 1) (EVar "contracted_intermediate")) (EScale (-1 # 1) (EEins "abcdijkl->abcdikjl" [(EVar "contracted_intermediate")]))) (EScale (-1 # 1) (EEins "abcdijkl->bacdijkl" [(EVar "contracted_intermediate")]))) (EScale (1 # 1) (EEins "abcdijkl->bacdikjl" [(EVar "contracted_intermediate")])));
   (*L6333*) SAssign "contracted_intermediate" (EScale (-1 # 1) (EEins "nmef,eaim,fdkl,bcjn->abcdijkl" [(ESlice (EVar "g_bbbb") [SV "o"; SV "o"; SV "v"; SV "v"]); (EVar "t2_bbbb"); (EVar "t2_bbbb"); (EVar "t2_bbbb")]));
   (*L6334*) SAug true "quadruples_res" (EAdd (EAdd (EAdd (EScale (1 # 1) (EVar "contracted_intermediate")) (EScale (-1 # 1) (EEins "abcdijkl->abcdikjl" [(EVar "contracted_intermediate")]))) (EScale (-1 # 1) (EEins "abcdijkl->bacdijkl" [(EVar "contracted_intermediate")]))) (EScale (1 # 1) (EEins "abcdijkl->bacdikjl" [(EVar "contracted_intermediate")])));
   (*L6337*) SAssign "contracted_intermediate" (EScale (-1 # 1) (EEins "mnfe,eakl,fbmj,cdin->abcdijkl" [(ESlice (EVar "g_abab") [SV "o"; SV "o"; SV "v"; SV "v"]); (EVar "t2_bbbb"); (EVar "t2_abab"); (EVar "t2_bbbb")]));
   (*L6338*) SAug true "quadruples_res" (EAdd (EAdd (EAdd (EScale (1 # 1) (EVar "contracted_intermediate")) (EScale (-1 # 1) (EEins "abcdijkl->abcdjikl" [(EVar "contracted_intermediate")]))) (EScale (-1 # 1) (EEins "abcdijkl->acbdijkl" [(EVar "contracted_intermediate")]))) (EScale (1 # 1) (EEins "abcdijkl->acbdjikl" [(EVar "contracted_intermediate")])));
   (*L6341*) SAssign "contracted_intermediate" (EScale (1 # 1) (EEins "nmef,eakl,fbjm,cdin->abcdijkl" [(ESlice (EVar "g_bbbb") [SV "o"; SV "o"; SV "v"; SV "v"]); (EVar "t2_bbbb"); (EVar "t2_bbbb"); (EVar "t2_bbbb")]));
   (*L6342*) SAug true "quadruples_res" (EAdd (EAdd (EAdd (EScale (1 # 1) (EVar "contracted_intermediate")) (EScale (-1 # 1) (EEins "abcdijkl->abcdjikl" [(EVar "contracted_intermediate")]))) (EScale (-1 # 1) (EEins "abcdijkl->acbdijkl" [(EVar "contracted_intermediate")]))) (EScale (1 # 1) (EEins "abcdijkl->acbdjikl" [(EVar "contracted_intermediate")])));
   (*L6345*) SAssign "contracted_intermediate" (EScale (-1 # 2) (EEins "nmef,eakl,fbij,cdnm->abcdijkl" [(ESlice (EVar "g_bbbb") [SV "o"; SV "o"; SV "v"; SV "v"]); (EVar "t2_bbbb"); (EVar "t2_bbbb"); (EVar "t2_bbbb")]));
   (*L6346*) SAug true "quadruples_res" (EAdd (EAdd (EAdd (EScale (1 # 1) (EVar "contracted_intermediate")) (EScale (-1 # 1) (EEins "abcdijkl->abcdikjl" [(EVar "contracted_intermediate")]))) (EScale (-1 # 1) (EEins "abcdijkl->acbdijkl" [(EVar "contracted_intermediate")]))) (EScale (1 # 1) (EEins "abcdijkl->acbdikjl" [(EVar "contracted_intermediate")])));
   (*L6349*) SAssign "contracted_intermediate" (EScale (-1 # 1) (EEins "mnfe,eakl,fdmj,bcin->abcdijkl" [(ESlice (EVar "g_abab") [SV "o"; SV "o"; SV "v"; SV "v"]); (EVar "t2_bbbb"); (EVar "t2_abab"); (EVar "t2_bbbb")]));
   (*L6350*) SAug true "quadruples_res" (EAdd (EAdd (EAdd (EScale (1 # 1) (EVar "contracted_intermediate")) (EScale (-1 # 1) (EEins "abcdijkl->abcdjikl" [(EVar "contracted_intermediate")]))) (EScale (-1 # 1) (EEins "abcdijkl->bacdijkl" [(EVar "contracted_intermediate")]))) (EScale (1 # 1) (EEins "abcdijkl->bacdjikl" [(EVar "contracted_intermediate")])));
   (*L6353*) SAssign "contracted_intermediate" (EScale (1 # 1) (EEins "nmef,eakl,fdjm,bcin->abcdijkl" [(ESlice (EVar "g_bbbb") [SV "o"; SV "o"; SV "v"; SV "v"]); (EVar "t2_bbbb"); (EVar "t2_bbbb"); (EVar "t2_bbbb")]));
   (*L6354*) SAug true "quadruples_res" (EAdd (EAdd (EAdd (EScale (1 # 1) (EVar "contracted_intermediate")) (EScale (-1 # 1) (EEins "abcdijkl->abcdjikl" [(EVar "contracted_intermediate")]))) (EScale (-1 # 1) (EEins "abcdijkl->bacdijkl" [(EVar "contracted_intermediate")]))) (EScale (1 # 1) (EEins "abcdijkl->bacdjikl" [(EVar "contracted_intermediate")])));
   (*L6357*) SAssign "contracted_intermediate" (EScale (-1 # 2) (EEins "nmef,eakl,fdij,bcnm->abcdijkl" [(ESlice (EVar "g_bbbb") [SV "o"; SV "o"; SV "v"; SV "v"]); (EVar "t2_bbbb"); (EVar "t2_bbbb"); (EVar "t2_bbbb")]));
   (*L6358*) SAug true "quadruples_res" (EAdd (EAdd (EAdd (EScale (1 # 1) (EVar "contracted_intermediate")) (EScale (-1 # 1) (EEins "abcdijkl->abcdikjl" [(EVar "contracted_intermediate")]))) (EScale (-1 # 1) (EEins "abcdijkl->bacdijkl" [(EVar "contracted_intermediate")]))) (EScale (1 # 1) (EEins "abcdijkl->bacdikjl" [(EVar "contracted_intermediate")])));
   (*L6361*) SAssign "contracted_intermediate" (EScale (1 # 1) (EEins "mnfe,eajl,fbmk,cdin->abcdijkl" [(ESlice (EVar "g_abab") [SV "o"; SV "o"; SV "v"; SV "v"]); (EVar "t2_bbbb"); (EVar "t2_abab"); (EVar "t2_bbbb")]));
   (*L6362*) SAug true "quadruples_res" (EAdd (EAdd (EAdd (EScale (1 # 1) (EVar "contracted_intermediate")) (EScale (-1 # 1) (EEins "abcdijkl->abcdkjil" [(EVar "contracted_intermediate")]))) (EScale (-1 # 1) (EEins "abcdijkl->acbdijkl" [(EVar "contracted_intermediate")]))) (EScale (1 # 1) (EEins "abcdijkl->acbdkjil" [(EVar "contracted_intermediate")])));
   (*L6365*) SAssign "contracted_intermediate" (EScale (-1 # 1) (EEins "nmef,eajl,fbkm,cdin->abcdijkl" [(ESlice (EVar "g_bbbb") [SV "o"; SV "o"; SV "v"; SV "v"]); (EVar "t2_bbbb"); (EVar "t2_bbbb"); (EVar "t2_bbbb")]));
   (*L6366*) SAug true "quadruples_res" (EAdd (EAdd (EAdd (EScale (1 # 1) (EVar "contracted_intermediate")) (EScale (-1 # 1) (EEins "abcdijkl->abcdkjil" [(EVar "contracted_intermediate")]))) (EScale (-1 # 1) (EEins "abcdijkl->acbdijkl" [(EVar "contracted_intermediate")]))) (EScale (1 # 1) (EEins "abcdijkl->acbdkjil" [(EVar "contracted_intermediate")])));
   (*L6369*) SAssign "contracted_intermediate" (EScale (1 # 1) (EEins "mnfe,eajl,fdmk,bcin->abcdijkl" [(ESlice (EVar "g_abab") [SV "o"; SV "o"; SV "v"; SV "v"]); (EVar "t2_bbbb"); (EVar "t2_abab"); (EVar "t2_bbbb")]));
   (*L6370*) SAug true "quadruples_res" (EAdd (EAdd (EAdd (EScale (1 # 1) (EVar "contracted_intermediate")) (EScale (-1 # 1) (EEins "abcdijkl->abcdkjil" [(EVar "contracted_intermediate")]))) (EScale (-1 # 1) (EEins "abcdijkl->bacdijkl" [(EVar "contracted_intermediate")]))) (EScale (1 # 1) (EEins "abcdijkl->bacdkjil" [(EVar "contracted_intermediate")])));
   (*L6373*) SAssign "contracted_intermediate" (EScale (-1 # 1) (EEins "nmef,eajl,fdkm,bcin->abcdijkl" [(ESlice (EVar "g_bbbb") [SV "o"; SV "o"; SV "v"; SV "v"]); (EVar "t2_bbbb"); (EVar "t2_bbbb"); (EVar "t2_bbbb")]));
   (*L6374*) SAug true "quadruples_res" (EAdd (EAdd (EAdd (EScale (1 # 1) (EVar "contracted_intermediate")) (EScale (-1 # 1) (EEins "abcdijkl->abcdkjil" [(EVar "contracted_intermediate")]))) (EScale (-1 # 1) (EEins "abcdijkl->bacdijkl" [(EVar "contracted_intermediate")]))) (EScale (1 # 1) (EEins "abcdijkl->bacdkjil" [(EVar "contracted_intermediate")])));
   (*L6377*) SAssign "contracted_intermediate" (EScale (-1 # 1) (EEins "mnfe,eail,fbmk,cdjn->abcdijkl" [(ESlice (EVar "g_abab") [SV "o"; SV "o"; SV "v"; SV "v"]); (EVar "t2_bbbb"); (EVar "t2_abab"); (EVar "t2_bbbb")]));
   (*L6378*) SAug true "quadruples_res" (EAdd (EAdd (EAdd (EScale (1 # 1) (EVar "contracted_intermediate")) (EScale (-1 # 1) (EEins "abcdijkl->abcdikjl" [(EVar "contracted_intermediate")]))) (EScale (-1 # 1) (EEins "abcdijkl->acbdijkl" [(EVar "contracted_intermediate")]))) (EScale (1 # 1) (EEins "abcdijkl->acbdikjl" [(EVar "contracted_intermediate")])));
   (*L6381*) SAssign "contracted_intermediate" (EScale (1 # 1) (EEins "nmef,eail,fbkm,cdjn->abcdijkl" [(ESlice (EVar "g_bbbb") [SV "o"; SV "o"; SV "v"; SV "v"]); (EVar "t2_bbbb"); (EVar "t2_bbbb"); (EVar "t2_bbbb")]));
   (*L6382*) SAug true "quadruples_res" (EAdd (EAdd (EAdd (EScale (1 # 1) (EVar "contracted_intermediate")) (EScale (-1 # 1) (EEins "abcdijkl->abcdikjl" [(EVar "contracted_intermediate")]))) (EScale (-1 # 1) (EEins "abcdijkl->acbdijkl" [(EVar "contracted_intermediate")]))) (EScale (1 # 1) (EEins "abcdijkl->acbdikjl" [(EVar "contracted_intermediate")])));
   (*L6385*) SAssign "contracted_intermediate" (EScale (-1 # 2) (EEins "nmef,eail,fbjk,cdnm->abcdijkl" [(ESlice (EVar "g_bbbb") [SV "o"; SV "o"; SV "v"; SV "v"]); (EVar "t2_bbbb"); (EVar "t2_bbbb"); (EVar "t2_bbbb")]));
   (*L6386*) SAug true "quadruples_res" (EAdd (EAdd (EAdd (EScale (1 # 1) (EVar "contracted_intermediate")) (EScale (-1 # 1) (EEins "abcdijkl->abcdijlk" [(EVar "contracted_intermediate")]))) (EScale (-1 # 1) (EEins "abcdijkl->acbdijkl" [(EVar "contracted_intermediate")]))) (EScale (1 # 1) (EEins "abcdijkl->acbdijlk" [(EVar "contracted_intermediate")])));
   (*L6389*) SAssign "contracted_intermediate" (EScale (-1 # 1) (EEins "mnfe,eail,fdmk,bcjn->abcdijkl" [(ESlice (EVar "g_abab") [SV "o"; SV "o"; SV "v"; SV "v"]); (EVar "t2_bbbb"); (EVar "t2_abab"); (EVar "t2_bbbb")]));
   (*L6390*) SAug true "quadruples_res" (EAdd (EAdd (EAdd (EScale (1 # 1) (EVar "contracted_intermediate")) (EScale (-1 # 1) (EEins "abcdijkl->abcdikjl" [(EVar "contracted_intermediate")]))) (EScale (-1 # 1) (EEins "abcdijkl->bacdijkl" [(EVar "contracted_intermediate")]))) (EScale (1 # 1) (EEins "abcdijkl->bacdikjl" [(EVar "contracted_intermediate")])));
   (*L6393*) SAssign "contracted_intermediate" (EScale (1 # 1) (EEins "nmef,eail,fdkm,bcjn->abcdijkl" [(ESlice (EVar "g_bbbb") [SV "o"; SV "o"; SV "v"; SV "v"]); (EVar "t2_bbbb"); (EVar "t2_bbbb"); (EVar "t2_bbbb")]));
   (*L6394*) SAug true "quadruples_res" (EAdd (EAdd (EAdd (EScale (1 # 1) (EVar "contracted_intermediate")) (EScale (-1 # 1) (EEins "abcdijkl->abcdikjl" [(EVar "contracted_intermediate")]))) (EScale (-1 # 1) (EEins "abcdijkl->bacdijkl" [(EVar "contracted_intermediate")]))) (EScale (1 # 1) (EEins "abcdijkl->bacdikjl" [(EVar "contracted_intermediate")])));
   (*L6397*) SAssign "contracted_intermediate" (EScale (-1 # 2) (EEins "nmef,eail,fdjk,bcnm->abcdijkl" [(ESlice (EVar "g_bbbb") [SV "o"; SV "o"; SV "v"; SV "v"]); (EVar "t2_bbbb"); (EVar "t2_bbbb"); (EVar "t2_bbbb")]));
   (*L6398*) SAug true "quadruples_res" (EAdd (EAdd (EAdd (EScale (1 # 1) (EVar "contracted_intermediate")) (EScale (-1 # 1) (EEins "abcdijkl->abcdijlk" [(EVar "contracted_intermediate")]))) (EScale (-1 # 1) (EEins "abcdijkl->bacdijkl" [(EVar "contracted_intermediate")]))) (EScale (1 # 1) (EEins "abcdijkl->bacdijlk" [(EVar "contracted_intermediate")])));
   (*L6401*) SAssign "contracted_intermediate" (EScale (-1 # 1) (EEins "mnfe,eajk,fbml,cdin->abcdijkl" [(ESlice (EVar "g_abab") [SV "o"; SV "o"; SV "v"; SV "v"]); (EVar "t2_bbbb"); (EVar "t2_abab"); (EVar "t2_bbbb")]));
   (*L6402*) SAug true "quadruples_res" (EAdd (EAdd (EAdd (EScale (1 # 1) (EVar "contracted_intermediate")) (EScale (-1 # 1) (EEins "abcdijkl->abcdljki" [(EVar "contracted_intermediate")]))) (EScale (-1 # 1) (EEins "abcdijkl->acbdijkl" [(EVar "contracted_intermediate")]))) (EScale (1 # 1) (EEins "abcdijkl->acbdljki" [(EVar "contracted_intermediate")])));
   (*L6405*) SAssign "contracted_intermediate" (EScale (1 # 1) (EEins "nmef,eajk,fblm,cdin->abcdijkl" [(ESlice (EVar "g_bbbb") [SV "o"; SV "o"; SV "v"; SV "v"]); (EVar "t2_bbbb"); (EVar "t2_bbbb"); (EVar "t2_bbbb")]));
   (*L6406*) SAug true "quadruples_res" (EAdd (EAdd (EAdd (EScale (1 # 1) (EVar "contracted_intermediate")) (EScale (-1 # 1) (EEins "abcdijkl->abcdljki" [(EVar "contracted_intermediate")]))) (EScale (-1 # 1) (EEins "abcdijkl->acbdijkl" [(EVar "contracted_intermediate")]))) (EScale (1 # 1) (EEins "abcdijkl->acbdljki" [(EVar "contracted_intermediate")])));
   (*L6409*) SAssign "contracted_intermediate" (EScale (-1 # 2) (EEins "nmef,eajk,fbil,cdnm->abcdijkl" [(ESlice (EVar "g_bbbb") [SV "o"; SV "o"; SV "v"; SV "v"]); (EVar "t2_bbbb"); (EVar "t2_bbbb"); (EVar "t2_bbbb")]));
   (*L6410*) SAug true "quadruples_res" (EAdd (EAdd (EAdd (EScale (1 # 1) (EVar "contracted_intermediate")) (EScale (-1 # 1) (EEins "abcdijkl->abcdkjil" [(EVar "contracted_intermediate")]))) (EScale (-1 # 1) (EEins "abcdijkl->acbdijkl" [(EVar "contracted_intermediate")]))) (EScale (1 # 1) (EEins "abcdijkl->acbdkjil" [(EVar "contracted_intermediate")])));
   (*L6413*) SAssign "contracted_intermediate" (EScale (-1 # 1) (EEins "mnfe,eajk,fdml,bcin->abcdijkl" [(ESlice (EVar "g_abab") [SV "o"; SV "o"; SV "v"; SV "v"]); (EVar "t2_bbbb"); (EVar "t2_abab"); (EVar "t2_bbbb")]));
   (*L6414*) SAug true "quadruples_res" (EAdd (EAdd (EAdd (EScale (1 # 1) (EVar "contracted_intermediate")) (EScale (-1 # 1) (EEins "abcdijkl->abcdljki" [(EVar "contracted_intermediate")]))) (EScale (-1 # 1) (EEins "abcdijkl->bacdijkl" [(EVar "contracted_intermediate")]))) (EScale (1 # 1) (EEins "abcdijkl->bacdljki" [(EVar "contracted_intermediate")])));
   (*L6417*) SAssign "contracted_intermediate" (EScale (1 # 1) (EEins "nmef,eajk,fdlm,bcin->abcdijkl" [(ESlice (EVar "g_bbbb") [SV "o"; SV "o"; SV "v"; SV "v"]); (EVar "t2_bbbb"); (EVar "t2_bbbb"); (EVar "t2_bbbb")]));
   (*L6418*) SAug true "quadruples_res" (EAdd (EAdd (EAdd (EScale (1 # 1) (EVar "contracted_intermediate")) (EScale (-1 # 1) (EEins "abcdijkl->abcdljki" [(EVar "contracted_intermediate")]))) (EScale (-1 # 1) (EEins "abcdijkl->bacdijkl" [(EVar "contracted_intermediate")]))) (EScale (1 # 1) (EEins "abcdijkl->bacdljki" [(EVar "contracted_intermediate")])));
   (*L6421*) SAssign "contracted_intermediate" (EScale (-1 # 2) (EEins "nmef,eajk,fdil,bcnm->abcdijkl" [(ESlice (EVar "g_bbbb") [SV "o"; SV "o"; SV "v"; SV "v"]); (EVar "t2_bbbb"); (EVar "t2_bbbb"); (EVar "t2_bbbb")]));
   (*L6422*) SAug true "quadruples_res" (EAdd (EAdd (EAdd (EScale (1 # 1) (EVar "contracted_intermediate")) (EScale (-1 # 1) (EEins "abcdijkl->abcdkjil" [(EVar "contracted_intermediate")]))) (EScale (-1 # 1) (EEins "abcdijkl->bacdijkl" [(EVar "contracted_intermediate")]))) (EScale (1 # 1) (EEins "abcdijkl->bacdkjil" [(EVar "contracted_intermediate")])));
   (*L6425*) SAssign "contracted_intermediate" (EScale (1 # 1) (EEins "mnfe,eaik,fbml,cdjn->abcdijkl" [(ESlice (EVar "g_abab") [SV "o"; SV "o"; SV "v"; SV "v"]); (EVar "t2_bbbb"); (EVar "t2_abab"); (EVar "t2_bbbb")]));
   (*L6426*) SAug true "quadruples_res" (EAdd (EAdd (EAdd (EScale (1 # 1) (EVar "contracted_intermediate")) (EScale (-1 # 1) (EEins "abcdijkl->abcdilkj" [(EVar "contracted_intermediate")]))) (EScale (-1 # 1) (EEins "abcdijkl->acbdijkl" [(EVar "contracted_intermediate")]))) (EScale (1 # 1) (EEins "abcdijkl->acbdilkj" [(EVar "contracted_intermediate")])));
   (*L6429*) SAssign "contracted_intermediate" (EScale (-1 # 1) (EEins "nmef,eaik,fblm,cdjn->abcdijkl" [(ESlice (EVar "g_bbbb") [SV "o"; SV "o"; SV "v"; SV "v"]); (EVar "t2_bbbb"); (EVar "t2_bbbb"); (EVar "t2_bbbb")]));
   (*L6430*) SAug true "quadruples_res" (EAdd (EAdd (EAdd (EScale (1 # 1) (EVar "contracted_intermediate")) (EScale (-1 # 1) (EEins "abcdijkl->abcdilkj" [(EVar "contracted_intermediate")]))) (EScale (-1 # 1) (EEins "abcdijkl->acbdijkl" [(EVar "contracted_intermediate")]))) (EScale (1 # 1) (EEins "abcdijkl->acbdilkj" [(EVar "contracted_intermediate")])));
   (*L6433*) SAssign "contracted_intermediate" (EScale (1 # 1) (EEins "mnfe,eaik,fdml,bcjn->abcdijkl" [(ESlice (EVar "g_abab") [SV "o"; SV "o"; SV "v"; SV "v"]); (EVar "t2_bbbb"); (EVar "t2_abab"); (EVar "t2_bbbb")]));
   (*L6434*) SAug true "quadruples_res" (EAdd (EAdd (EAdd (EScale (1 # 1) (EVar "contracted_intermediate")) (EScale (-1 # 1) (EEins "abcdijkl->abcdilkj" [(EVar "contracted_intermediate")]))) (EScale (-1 # 1) (EEins "abcdijkl->bacdijkl" [(EVar "contracted_intermediate")]))) (EScale (1 # 1) (EEins "abcdijkl->bacdilkj" [(EVar "contracted_intermediate")])));
   (*L6437*) SAssign "contracted_intermediate" (EScale (-1 # 1) (EEins "nmef,eaik,fdlm,bcjn->abcdijkl" [(ESlice (EVar "g_bbbb") [SV "o"; SV "o"; SV "v"; SV "v"]); (EVar "t2_bbbb"); (EVar "t2_bbbb"); (EVar "t2_bbbb")]));
   (*L6438*) SAug true "quadruples_res" (EAdd (EAdd (EAdd (EScale (1 # 1) (EVar "contracted_intermediate")) (EScale (-1 # 1) (EEins "abcdijkl->abcdilkj" [(EVar "contracted_intermediate")]))) (EScale (-1 # 1) (EEins "abcdijkl->bacdijkl" [(EVar "contracted_intermediate")]))) (EScale (1 # 1) (EEins "abcdijkl->bacdilkj" [(EVar "contracted_intermediate")])));
   (*L6441*) SAssign "contracted_intermediate" (EScale (-1 # 1) (EEins "mnfe,eaij,fbml,cdkn->abcdijkl" [(ESlice (EVar "g_abab") [SV "o"; SV "o"; SV "v"; SV "v"]); (EVar "t2_bbbb"); (EVar "t2_abab"); (EVar "t2_bbbb")]));
   (*L6442*) SAug true "quadruples_res" (EAdd (EAdd (EAdd (EScale (1 # 1) (EVar "contracted_intermediate")) (EScale (-1 # 1) (EEins "abcdijkl->abcdijlk" [(EVar "contracted_intermediate")]))) (EScale (-1 # 1) (EEins "abcdijkl->acbdijkl" [(EVar "contracted_intermediate")]))) (EScale (1 # 1) (EEins "abcdijkl->acbdijlk" [(EVar "contracted_intermediate")])));
   (*L6445*) SAssign "contracted_intermediate" (EScale (1 # 1) (EEins "nmef,eaij,fblm,cdkn->abcdijkl" [(ESlice (EVar "g_bbbb") [SV "o"; SV "o"; SV "v"; SV "v"]); (EVar "t2_bbbb"); (EVar "t2_bbbb"); (EVar "t2_bbbb")]));
   (*L6446*) SAug true "quadruples_res" (EAdd (EAdd (EAdd (EScale (1 # 1) (EVar "contracted_intermediate")) (EScale (-1 # 1) (EEins "abcdijkl->abcdijlk" [(EVar "contracted_intermediate")]))) (EScale (-1 # 1) (EEins "abcdijkl->acbdijkl" [(EVar "contracted_intermediate")]))) (EScale (1 # 1) (EEins "abcdijkl->acbdijlk" [(EVar "contracted_intermediate")])));
   (*L6449*) SAssign "contracted_intermediate" (EScale (-1 # 1) (EEins "mnfe,eaij,fdml,bckn->abcdijkl" [(ESlice (EVar "g_abab") [SV "o"; SV "o"; SV "v"; SV "v"]); (EVar "t2_bbbb"); (EVar "t2_abab"); (EVar "t2_bbbb")]));
   (*L6450*) SAug true "quadruples_res" (EAdd (EAdd (EAdd (EScale (1 # 1) (EVar "contracted_intermediate")) (EScale (-1 # 1) (EEins "abcdijkl->abcdijlk" [(EVar "contracted_intermediate")]))) (EScale (-1 # 1) (EEins "abcdijkl->bacdijkl" [(EVar "contracted_intermediate")]))) (EScale (1 # 1) (EEins "abcdijkl->bacdijlk" [(EVar "contracted_intermediate")])));
   (*L6453*) SAssign "contracted_intermediate" (EScale (1 # 1) (EEins "nmef,eaij,fdlm,bckn->abcdijkl" [(ESlice (EVar "g_bbbb") [SV "o"; SV "o"; SV "v"; SV "v"]); (EVar "t2_bbbb"); (EVar "t2_bbbb"); (EVar "t2_bbbb")]));
   (*L6454*) SAug true "quadruples_res" (EAdd (EAdd (EAdd (EScale (1 # 1) (EVar "contracted_intermediate")) (EScale (-1 # 1) (EEins "abcdijkl->abcdijlk" [(EVar "contracted_intermediate")]))) (EScale (-1 # 1) (EEins "abcdijkl->bacdijkl" [(EVar "contracted_intermediate")]))) (EScale (1 # 1) (EEins "abcdijkl->bacdijlk" [(EVar "contracted_intermediate")])));
   (*L6457*) SAssign "contracted_intermediate" (EScale (1 # 1) (EEins "mnef,ebml,fcjk,adin->abcdijkl" [(ESlice (EVar "g_abab") [SV "o"; SV "o"; SV "v"; SV "v"]); (EVar "t2_abab"); (EVar "t2_bbbb"); (EVar "t2_bbbb")]));
   (*L6458*) SAug true "quadruples_res" (EAdd (EScale (1 # 1) (EVar "contracted_intermediate")) (EScale (-1 # 1) (EEins "abcdijkl->abcdjikl" [(EVar "contracted_intermediate")])));
   (*L6461*) SAssign "contracted_intermediate" (EScale (1 # 1) (EEins "nmef,eblm,fcjk,adin->abcdijkl" [(ESlice (EVar "g_bbbb") [SV "o"; SV "o"; SV "v"; SV "v"]); (EVar "t2_bbbb"); (EVar "t2_bbbb"); (EVar "t2_bbbb")]));
   (*L6462*) SAug true "quadruples_res" (EAdd (EScale (1 # 1) (EVar "contracted_intermediate")) (EScale (-1 # 1) (EEins "abcdijkl->abcdjikl" [(EVar "contracted_intermediate")])));
   (*L6465*) SAssign "contracted_intermediate" (EScale (1 # 1) (EEins "mnef,ebml,fcij,adkn->abcdijkl" [(ESlice (EVar "g_abab") [SV "o"; SV "o"; SV "v"; SV "v"]); (EVar "t2_abab"); (EVar "t2_bbbb"); (EVar "t2_bbbb")]));
   (*L6466*) SAug true "quadruples_res" (EAdd (EScale (1 # 1) (EVar "contracted_intermediate")) (EScale (-1 # 1) (EEins "abcdijkl->abcdijlk" [(EVar "contracted_intermediate")])));
   (*L6469*) SAssign "contracted_intermediate" (EScale (1 # 1) (EEins "nmef,eblm,fcij,adkn->abcdijkl" [(ESlice (EVar "g_bbbb") [SV "o"; SV "o"; SV "v"; SV "v"]); (EVar "t2_bbbb"); (EVar "t2_bbbb"); (EVar "t2_bbbb")]));
   (*L6470*) SAug true "quadruples_res" (EAdd (EScale (1 # 1) (EVar "contracted_intermediate")) (EScale (-1 # 1) (EEins "abcdijkl->abcdijlk" [(EVar "contracted_intermediate")])));
   (*L6473*) SAssign "contracted_intermediate" (EScale (-1 # 1) (EEins "mnef,ebmk,fcjl,adin->abcdijkl" [(ESlice (EVar "g_abab") [SV "o"; SV "o"; SV "v"; SV "v"]); (EVar "t2_abab"); (EVar "t2_bbbb"); (EVar "t2_bbbb")]));
   (*L6474*) SAug true "quadruples_res" (EAdd (EScale (1 # 1) (EVar "contracted_intermediate")) (EScale (-1 # 1) (EEins "abcdijkl->abcdjikl" [(EVar "contracted_intermediate")])));
   (*L6477*) SAssign "contracted_intermediate" (EScale (-1 # 1) (EEins "nmef,ebkm,fcjl,adin->abcdijkl" [(ESlice (EVar "g_bbbb") [SV "o"; SV "o"; SV "v"; SV "v"]); (EVar "t2_bbbb"); (EVar "t2_bbbb"); (EVar "t2_bbbb")]));
   (*L6478*) SAug true "quadruples_res" (EAdd (EScale (1 # 1) (EVar "contracted_intermediate")) (EScale (-1 # 1) (EEins "abcdijkl->abcdjikl" [(EVar "contracted_intermediate")])));
   (*L6481*) SAssign "contracted_intermediate" (EScale (1 # 1) (EEins "mnef,ebmj,fckl,adin->abcdijkl" [(ESlice (EVar "g_abab") [SV "o"; SV "o"; SV "v"; SV "v"]); (EVar "t2_abab"); (EVar "t2_bbbb"); (EVar "t2_bbbb")]));
   (*L6482*) SAug true "quadruples_res" (EAdd (EScale (1 # 1) (EVar "contracted_intermediate")) (EScale (-1 # 1) (EEins "abcdijkl->abcdkjil" [(EVar "contracted_intermediate")])));
   (*L6485*) SAssign "contracted_intermediate" (EScale (1 # 1) (EEins "nmef,ebjm,fckl,adin->abcdijkl" [(ESlice (EVar "g_bbbb") [SV "o"; SV "o"; SV "v"; SV "v"]); (EVar "t2_bbbb"); (EVar "t2_bbbb"); (EVar "t2_bbbb")]));
   (*L6486*) SAug true "quadruples_res" (EAdd (EScale (1 # 1) (EVar "contracted_intermediate")) (EScale (-1 # 1) (EEins "abcdijkl->abcdkjil" [(EVar "contracted_intermediate")])));
   (*L6489*) SAssign "contracted_intermediate" (EScale (1 # 1) (EEins "mnef,ebmj,fcik,adln->abcdijkl" [(ESlice (EVar "g_abab") [SV "o"; SV "o"; SV "v"; SV "v"]); (EVar "t2_abab"); (EVar "t2_bbbb"); (EVar "t2_bbbb")]));
   (*L6490*) SAug true "quadruples_res" (EAdd (EScale (1 # 1) (EVar "contracted_intermediate")) (EScale (-1 # 1) (EEins "abcdijkl->abcdjikl" [(EVar "contracted_intermediate")])));
   (*L6493*) SAssign "contracted_intermediate" (EScale (1 # 1) (EEins "nmef,ebjm,fcik,adln->abcdijkl" [(ESlice (EVar "g_bbbb") [SV "o"; SV "o"; SV "v"; SV "v"]); (EVar "t2_bbbb"); (EVar "t2_bbbb"); (EVar "t2_bbbb")]));
   (*L6494*) SAug true "quadruples_res" (EAdd (EScale (1 # 1) (EVar "contracted_intermediate")) (EScale (-1 # 1) (EEins "abcdijkl->abcdjikl" [(EVar "contracted_intermediate")])));
   (*L6497*) SAssign "contracted_intermediate" (EScale (-1 # 1) (EEins "mnef,ebmi,fckl,adjn->abcdijkl" [(ESlice (EVar "g_abab") [SV "o"; SV "o"; SV "v"; SV "v"]); (EVar "t2_abab"); (EVar "t2_bbbb"); (EVar "t2_bbbb")]));
   (*L6498*) SAug true "quadruples_res" (EAdd (EScale (1 # 1) (EVar "contracted_intermediate")) (EScale (-1 # 1) (EEins "abcdijkl->abcdikjl" [(EVar "contracted_intermediate")])));
   (*L6501*) SAssign "contracted_intermediate" (EScale (-1 # 1) (EEins "nmef,ebim,fckl,adjn->abcdijkl" [(ESlice (EVar "g_bbbb") [SV "o"; SV "o"; SV "v"; SV "v"]); (EVar "t2_bbbb"); (EVar "t2_bbbb"); (EVar "t2_bbbb")]));
   (*L6502*) SAug true "quadruples_res" (EAdd (EScale (1 # 1) (EVar "contracted_intermediate")) (EScale (-1 # 1) (EEins "abcdijkl->abcdikjl" [(EVar "contracted_intermediate")])));
   (*L6505*) SAssign "contracted_intermediate" (EScale (-1 # 1) (EEins "mnfe,ebkl,fcmj,adin->abcdijkl" [(ESlice (EVar "g_abab") [SV "o"; SV "o"; SV "v"; SV "v"]); (EVar "t2_bbbb"); (EVar "t2_abab"); (EVar "t2_bbbb")]));
   (*L6506*) SAug true "quadruples_res" (EAdd (EScale (1 # 1) (EVar "contracted_intermediate")) (EScale (-1 # 1) (EEins "abcdijkl->abcdjikl" [(EVar "contracted_intermediate")])));
   (*L6509*) SAssign "contracted_intermediate" (EScale (1 # 1) (EEins "nmef,ebkl,fcjm,adin->abcdijkl" [(ESlice (EVar "g_bbbb") [SV "o"; SV "o"; SV "v"; SV "v"]); (EVar "t2_bbbb"); (EVar "t2_bbbb"); (EVar "t2_bbbb")]));
   (*L6510*) SAug true "quadruples_res" (EAdd (EScale (1 # 1) (EVar "contracted_intermediate")) (EScale (-1 # 1) (EEins "abcdijkl->abcdjikl" [(EVar "contracted_intermediate")])));
   (*L6513*) SAssign "contracted_intermediate" (EScale (-1 # 2) (EEins "nmef,ebkl,fcij,adnm->abcdijkl" [(ESlice (EVar "g_bbbb") [SV "o"; SV "o"; SV "v"; SV "v"]); (EVar "t2_bbbb"); (EVar "t2_bbbb"); (EVar "t2_bbbb")]));
   (*L6514*) SAug true "quadruples_res" (EAdd (EScale (1 # 1) (EVar "contracted_intermediate")) (EScale (-1 # 1) (EEins "abcdijkl->abcdikjl" [(EVar "contracted_intermediate")])));
   (*L6517*) SAssign "contracted_intermediate" (EScale (1 # 1) (EEins "mnfe,ebjl,fcmk,adin->abcdijkl" [(ESlice (EVar "g_abab") [SV "o"; SV "o"; SV "v"; SV "v"]); (EVar "t2_bbbb"); (EVar "t2_abab"); (EVar "t2_bbbb")]));
   (*L6518*) SAug true "quadruples_res" (EAdd (EScale (1 # 1) (EVar "contracted_intermediate")) (EScale (-1 # 1) (EEins "abcdijkl->abcdkjil" [(EVar "contracted_intermediate")])));
   (*L6521*) SAssign "contracted_intermediate" (EScale (-1 # 1) (EEins "nmef,ebjl,fckm,adin->abcdijkl" [(ESlice (EVar "g_bbbb") [SV "o"; SV "o"; SV "v"; SV "v"]); (EVar "t2_bbbb"); (EVar "t2_bbbb"); (EVar "t2_bbbb")]));
   (*L6522*) SAug true "quadruples_res" (EAdd (EScale (1 # 1) (EVar "contracted_intermediate")) (EScale (-1 # 1) (EEins "abcdijkl->abcdkjil" [(EVar "contracted_intermediate")])));
   (*L6525*) SAssign "contracted_intermediate" (EScale (-1 # 1) (EEins "mnfe,ebil,fcmk,adjn->abcdijkl" [(ESlice (EVar "g_abab") [SV "o"; SV "o"; SV "v"; SV "v"]); (EVar "t2_bbbb"); (EVar "t2_abab"); (EVar "t2_bbbb")]));
   (*L6526*) SAug true "quadruples_res" (EAdd (EScale (1 # 1) (EVar "contracted_intermediate")) (EScale (-1 # 1) (EEins "abcdijkl->abcdikjl" [(EVar "contracted_intermediate")])));
   (*L6529*) SAssign "contracted_intermediate" (EScale (1 # 1) (EEins "nmef,ebil,fckm,adjn->abcdijkl" [(ESlice (EVar "g_bbbb") [SV "o"; SV "o"; SV "v"; SV "v"]); (EVar "t2_bbbb"); (EVar "t2_bbbb"); (EVar "t2_bbbb")]));
   (*L6530*) SAug true "quadruples_res" (EAdd (EScale (1 # 1) (EVar "contracted_intermediate")) (EScale (-1 # 1) (EEins "abcdijkl->abcdikjl" [(EVar "contracted_intermediate")])));
   (*L6533*) SAssign "contracted_intermediate" (EScale (-1 # 2) (EEins "nmef,ebil,fcjk,adnm->abcdijkl" [(ESlice (EVar "g_bbbb") [SV "o"; SV "o"; SV "v"; SV "v"]); (EVar "t2_bbbb"); (EVar "t2_bbbb"); (EVar "t2_bbbb")]));
   (*L6534*) SAug true "quadruples_res" (EAdd (EScale (1 # 1) (EVar "contracted_intermediate")) (EScale (-1 # 1) (EEins "abcdijkl->abcdijlk" [(EVar "contracted_intermediate")])));
   (*L6537*) SAssign "contracted_intermediate" (EScale (-1 # 1) (EEins "mnfe,ebjk,fcml,adin->abcdijkl" [(ESlice (EVar "g_abab") [SV "o"; SV "o"; SV "v"; SV "v"]); (EVar "t2_bbbb"); (EVar "t2_abab"); (EVar "t2_bbbb")]));
   (*L6538*) SAug true "quadruples_res" (EAdd (EScale (1 # 1) (EVar "contracted_intermediate")) (EScale (-1 # 1) (EEins "abcdijkl->abcdljki" [(EVar "contracted_intermediate")])));
   (*L6541*) SAssign "contracted_intermediate" (EScale (1 # 1) (EEins "nmef,ebjk,fclm,adin->abcdijkl" [(ESlice (EVar "g_bbbb") [SV "o"; SV "o"; SV "v"; SV "v"]); (EVar "t2_bbbb"); (EVar "t2_bbbb"); (EVar "t2_bbbb")]));
   (*L6542*) SAug true "quadruples_res" (EAdd (EScale (1 # 1) (EVar "contracted_intermediate")) (EScale (-1 # 1) (EEins "abcdijkl->abcdljki" [(EVar "contracted_intermediate")])));
   (*L6545*) SAssign "contracted_intermediate" (EScale (-1 # 2) (EEins "nmef,ebjk,fcil,adnm->abcdijkl" [(ESlice (EVar "g_bbbb") [SV "o"; SV "o"; SV "v"; SV "v"]); (EVar "t2_bbbb"); (EVar "t2_bbbb"); (EVar "t2_bbbb")]));
   (*L6546*) SAug true "quadruples_res" (EAdd (EScale (1 # 1) (EVar "contracted_intermediate")) (EScale (-1 # 1) (EEins "abcdijkl->abcdkjil" [(EVar "contracted_intermediate")])));
   (*L6549*) SAssign "contracted_intermediate" (EScale (1 # 1) (EEins "mnfe,ebik,fcml,adjn->abcdijkl" [(ESlice (EVar "g_abab") [SV "o"; SV "o"; SV "v"; SV "v"]); (EVar "t2_bbbb"); (EVar "t2_abab"); (EVar "t2_bbbb")]));
   (*L6550*) SAug true "quadruples_res" (EAdd (EScale (1 # 1) (EVar "contracted_intermediate")) (EScale (-1 # 1) (EEins "abcdijkl->abcdilkj" [(EVar "contracted_intermediate")])));
   (*L6553*) SAssign "contracted_intermediate" (EScale (-1 # 1) (EEins "nmef,ebik,fclm,adjn->abcdijkl" [(ESlice (EVar "g_bbbb") [SV "o"; SV "o"; SV "v"; SV "v"]); (EVar "t2_bbbb"); (EVar "t2_bbbb"); (EVar "t2_bbbb")]));
   (*L6554*) SAug true "quadruples_res" (EAdd (EScale (1 # 1) (EVar "contracted_intermediate")) (EScale (-1 # 1) (EEins "abcdijkl->abcdilkj" [(EVar "contracted_intermediate")])));
   (*L6557*) SAssign "contracted_intermediate" (EScale (-1 # 1) (EEins "mnfe,ebij,fcml,adkn->abcdijkl" [(ESlice (EVar "g_abab") [SV "o"; SV "o"; SV "v"; SV "v"]); (EVar "t2_bbbb"); (EVar "t2_abab"); (EVar "t2_bbbb")]));
   (*L6558*) SAug true "quadruples_res" (EAdd (EScale (1 # 1) (EVar "contracted_intermediate")) (EScale (-1 # 1) (EEins "abcdijkl->abcdijlk" [(EVar "contracted_intermediate")])));
   (*L6561*) SAssign "contracted_intermediate" (EScale (1 # 1) (EEins "nmef,ebij,fclm,adkn->abcdijkl" [(ESlice (EVar "g_bbbb") [SV "o"; SV "o"; SV "v"; SV "v"]); (EVar "t2_bbbb"); (EVar "t2_bbbb"); (EVar "t2_bbbb")]));
   (*L6562*) SAug true "quadruples_res" (EAdd (EScale (1 # 1) (EVar "contracted_intermediate")) (EScale (-1 # 1) (EEins "abcdijkl->abcdijlk" [(EVar "contracted_intermediate")])));
   (*L6565*) SAssign "contracted_intermediate" (EScale (1 # 1) (EEins "mnef,ecml,fdjk,abin->abcdijkl" [(ESlice (EVar "g_abab") [SV "o"; SV "o"; SV "v"; SV "v"]); (EVar "t2_abab"); (EVar "t2_bbbb"); (EVar "t2_bbbb")]));
   (*L6566*) SAug true "quadruples_res" (EAdd (EScale (1 # 1) (EVar "contracted_intermediate")) (EScale (-1 # 1) (EEins "abcdijkl->abcdjikl" [(EVar "contracted_intermediate")])));
   (*L6569*) SAssign "contracted_intermediate" (EScale (1 # 1) (EEins "nmef,eclm,fdjk,abin->abcdijkl" [(ESlice (EVar "g_bbbb") [SV "o"; SV "o"; SV "v"; SV "v"]); (EVar "t2_bbbb"); (EVar "t2_bbbb"); (EVar "t2_bbbb")]));
   (*L6570*) SAug true "quadruples_res" (EAdd (EScale (1 # 1) (EVar "contracted_intermediate")) (EScale (-1 # 1) (EEins "abcdijkl->abcdjikl" [(EVar "contracted_intermediate")])));
   (*L6573*) SAssign "contracted_intermediate" (EScale (1 # 1) (EEins "mnef,ecml,fdij,abkn->abcdijkl" [(ESlice (EVar "g_abab") [SV "o"; SV "o"; SV "v"; SV "v"]); (EVar "t2_abab"); (EVar "t2_bbbb"); (EVar "t2_bbbb")]));
   (*L6574*) SAug true "quadruples_res" (EAdd (EScale (1 # 1) (EVar "contracted_intermediate")) (EScale (-1 # 1) (EEins "abcdijkl->abcdijlk" [(EVar "contracted_intermediate")])));
   (*L6577*) SAssign "contracted_intermediate" (EScale (1 # 1) (EEins "nmef,eclm,fdij,abkn->abcdijkl" [(ESlice (EVar "g_bbbb") [SV "o"; SV "o"; SV "v"; SV "v"]); (EVar "t2_bbbb"); (EVar "t2_bbbb"); (EVar "t2_bbbb")]));
   (*L6578*) SAug true "quadruples_res" (EAdd (EScale (1 # 1) (EVar "contracted_intermediate")) (EScale (-1 # 1) (EEins "abcdijkl->abcdijlk" [(EVar "contracted_intermediate")])));
   (*L6581*) SAssign "contracted_intermediate" (EScale (-1 # 1) (EEins "mnef,ecmk,fdjl,abin->abcdijkl" [(ESlice (EVar "g_abab") [SV "o"; SV "o"; SV "v"; SV "v"]); (EVar "t2_abab"); (EVar "t2_bbbb"); (EVar "t2_bbbb")]));
   (*L6582*) SAug true "quadruples_res" (EAdd (EScale (1 # 1) (EVar "contracted_intermediate")) (EScale (-1 # 1) (EEins "abcdijkl->abcdjikl" [(EVar "contracted_intermediate")])));
   (*L6585*) SAssign "contracted_intermediate" (EScale (-1 # 1) (EEins "nmef,eckm,fdjl,abin->abcdijkl" [(ESlice (EVar "g_bbbb") [SV "o"; SV "o"; SV "v"; SV "v"]); (EVar "t2_bbbb"); (EVar "t2_bbbb"); (EVar "t2_bbbb")]));
   (*L6586*) SAug true "quadruples_res" (EAdd (EScale (1 # 1) (EVar "contracted_intermediate")) (EScale (-1 # 1) (EEins "abcdijkl->abcdjikl" [(EVar "contracted_intermediate")])));
   (*L6589*) SAssign "contracted_intermediate" (EScale (1 # 1) (EEins "mnef,ecmj,fdkl,abin->abcdijkl" [(ESlice (EVar "g_abab") [SV "o"; SV "o"; SV "v"; SV "v"]); (EVar "t2_abab"); (EVar "t2_bbbb"); (EVar "t2_bbbb")]));
   (*L6590*) SAug true "quadruples_res" (EAdd (EScale (1 # 1) (EVar "contracted_intermediate")) (EScale (-1 # 1) (EEins "abcdijkl->abcdkjil" [(EVar "contracted_intermediate")])));
   (*L6593*) SAssign "contracted_intermediate" (EScale (1 # 1) (EEins "nmef,ecjm,fdkl,abin->abcdijkl" [(ESlice (EVar "g_bbbb") [SV "o"; SV "o"; SV "v"; SV "v"]); (EVar "t2_bbbb"); (EVar "t2_bbbb"); (EVar "t2_bbbb")]));
   (*L6594*) SAug true "quadruples_res" (EAdd (EScale (1 # 1) (EVar "contracted_intermediate")) (EScale (-1 # 1) (EEins "abcdijkl->abcdkjil" [(EVar "contracted_intermediate")])));
   (*L6597*) SAssign "contracted_intermediate" (EScale (1 # 1) (EEins "mnef,ecmj,fdik,abln->abcdijkl" [(ESlice (EVar "g_abab") [SV "o"; SV "o"; SV "v"; SV "v"]); (EVar "t2_abab"); (EVar "t2_bbbb"); (EVar "t2_bbbb")]));
   (*L6598*) SAug true "quadruples_res" (EAdd (EScale (1 # 1) (EVar "contracted_intermediate")) (EScale (-1 # 1) (EEins "abcdijkl->abcdjikl" [(EVar "contracted_intermediate")])));
   (*L6601*) SAssign "contracted_intermediate" (EScale (1 # 1) (EEins "nmef,ecjm,fdik,abln->abcdijkl" [(ESlice (EVar "g_bbbb") [SV "o"; SV "o"; SV "v"; SV "v"]); (EVar "t2_bbbb"); (EVar "t2_bbbb"); (EVar "t2_bbbb")]));
   (*L6602*) SAug true "quadruples_res" (EAdd (EScale (1 # 1) (EVar "contracted_intermediate")) (EScale (-1 # 1) (EEins "abcdijkl->abcdjikl" [(EVar "contracted_intermediate")])));
   (*L6605*) SAssign "contracted_intermediate" (EScale (-1 # 1) (EEins "mnef,ecmi,fdkl,abjn->abcdijkl" [(ESlice (EVar "g_abab") [SV "o"; SV "o"; SV "v"; SV "v"]); (EVar "t2_abab"); (EVar "t2_bbbb"); (EVar "t2_bbbb")]));
   (*L6606*) SAug true "quadruples_res" (EAdd (EScale (1 # 1) (EVar "contracted_intermediate")) (EScale (-1 # 1) (EEins "abcdijkl->abcdikjl" [(EVar "contracted_intermediate")])));
   (*L6609*) SAssign "contracted_intermediate" (EScale (-1 # 1) (EEins "nmef,ecim,fdkl,abjn->abcdijkl" [(ESlice (EVar "g_bbbb") [SV "o"; SV "o"; SV "v"; SV "v"]); (EVar "t2_bbbb"); (EVar "t2_bbbb"); (EVar "t2_bbbb")]));
   (*L6610*) SAug true "quadruples_res" (EAdd (EScale (1 # 1) (EVar "contracted_intermediate")) (EScale (-1 # 1) (EEins "abcdijkl->abcdikjl" [(EVar "contracted_intermediate")])));
   (*L6613*) SAssign "contracted_intermediate" (EScale (-1 # 1) (EEins "mnfe,eckl,fdmj,abin->abcdijkl" [(ESlice (EVar "g_abab") [SV "o"; SV "o"; SV "v"; SV "v"]); (EVar "t2_bbbb"); (EVar "t2_abab"); (EVar "t2_bbbb")]));
   (*L6614*) SAug true "quadruples_res" (EAdd (EScale (1 # 1) (EVar "contracted_intermediate")) (EScale (-1 # 1) (EEins "abcdijkl->abcdjikl" [(EVar "contracted_intermediate")])));
   (*L6617*) SAssign "contracted_intermediate" (EScale (1 # 1) (EEins "nmef,eckl,fdjm,abin->abcdijkl" [(ESlice (EVar "g_bbbb") [SV "o"; SV "o"; SV "v"; SV "v"]); (EVar "t2_bbbb"); (EVar "t2_bbbb"); (EVar "t2_bbbb")]));
   (*L6618*) SAug true "quadruples_res" (EAdd (EScale (1 # 1) (EVar "contracted_intermediate")) (EScale (-1 # 1) (EEins "abcdijkl->abcdjikl" [(EVar "contracted_intermediate")])));
   (*L6621*) SAssign "contracted_intermediate" (EScale (-1 # 2) (EEins "nmef,eckl,fdij,abnm->abcdijkl" [(ESlice (EVar "g_bbbb") [SV "o"; SV "o"; SV "v"; SV "v"]); (EVar "t2_bbbb"); (EVar "t2_bbbb"); (EVar "t2_bbbb")]));
   (*L6622*) SAug true "quadruples_res" (EAdd (EScale (1 # 1) (EVar "contracted_intermediate")) (EScale (-1 # 1) (EEins "abcdijkl->abcdikjl" [(EVar "contracted_intermediate")])));
   (*L6625*) SAssign "contracted_intermediate" (EScale (1 # 1) (EEins "mnfe,ecjl,fdmk,abin->abcdijkl" [(ESlice (EVar "g_abab") [SV "o"; SV "o"; SV "v"; SV "v"]); (EVar "t2_bbbb"); (EVar "t2_abab"); (EVar "t2_bbbb")]));
   (*L6626*) SAug true "quadruples_res" (EAdd (EScale (1 # 1) (EVar "contracted_intermediate")) (EScale (-1 # 1) (EEins "abcdijkl->abcdkjil" [(EVar "contracted_intermediate")])));
   (*L6629*) SAssign "contracted_intermediate" (EScale (-1 # 1) (EEins "nmef,ecjl,fdkm,abin->abcdijkl" [(ESlice (EVar "g_bbbb") [SV "o"; SV "o"; SV "v"; SV "v"]); (EVar "t2_bbbb"); (EVar "t2_bbbb"); (EVar "t2_bbbb")]));
   (*L6630*) SAug true "quadruples_res" (EAdd (EScale (1 # 1) (EVar "contracted_intermediate")) (EScale (-1 # 1) (EEins "abcdijkl->abcdkjil" [(EVar "contracted_intermediate")])));
   (*L6633*) SAssign "contracted_intermediate" (EScale (-1 # 1) (EEins "mnfe,ecil,fdmk,abjn->abcdijkl" [(ESlice (EVar "g_abab") [SV "o"; SV "o"; SV "v"; SV "v"]); (EVar "t2_bbbb"); (EVar "t2_abab"); (EVar "t2_bbbb")]));
   (*L6634*) SAug true "quadruples_res" (EAdd (EScale (1 # 1) (EVar "contracted_intermediate")) (EScale (-1 # 1) (EEins "abcdijkl->abcdikjl" [(EVar "contracted_intermediate")])));
   (*L6637*) SAssign "contracted_intermediate" (EScale (1 # 1) (EEins "nmef,ecil,fdkm,abjn->abcdijkl" [(ESlice (EVar "g_bbbb") [SV "o"; SV "o"; SV "v"; SV "v"]); (EVar "t2_bbbb"); (EVar "t2_bbbb"); (EVar "t2_bbbb")]));
   (*L6638*) SAug true "quadruples_res" (EAdd (EScale (1 # 1) (EVar "contracted_intermediate")) (EScale (-1 # 1) (EEins "abcdijkl->abcdikjl" [(EVar "contracted_intermediate")])));
   (*L6641*) SAssign "contracted_intermediate" (EScale (-1 # 2) (EEins "nmef,ecil,fdjk,abnm->abcdijkl" [(ESlice (EVar "g_bbbb") [SV "o"; SV "o"; SV "v"; SV "v"]); (EVar "t2_bbbb"); (EVar "t2_bbbb"); (EVar "t2_bbbb")]));
   (*L6642*) SAug true "quadruples_res" (EAdd (EScale (1 # 1) (EVar "contracted_intermediate")) (EScale (-1 # 1) (EEins "abcdijkl->abcdijlk" [(EVar "contracted_intermediate")])));
   (*L6645*) SAssign "contracted_intermediate" (EScale (-1 # 1) (EEins "mnfe,ecjk,fdml,abin->abcdijkl" [(ESlice (EVar "g_abab") [SV "o"; SV "o"; SV "v"; SV "v"]); (EVar "t2_bbbb"); (EVar "t2_abab"); (EVar "t2_bbbb")]));
   (*L6646*) SAug true "quadruples_res" (EAdd (EScale (1 # 1) (EVar "contracted_intermediate")) (EScale (-1 # 1) (EEins "abcdijkl->abcdljki" [(EVar "contracted_intermediate")])));
   (*L6649*) SAssign "contracted_intermediate" (EScale (1 # 1) (EEins "nmef,ecjk,fdlm,abin->abcdijkl" [(ESlice (EVar "g_bbbb") [SV "o"; SV "o"; SV "v"; SV "v"]); (EVar "t2_bbbb"); (EVar "t2_bbbb"); (EVar "t2_bbbb")]));
   (*L6650*) SAug true "quadruples_res" (EAdd (EScale (1 # 1) (EVar "contracted_intermediate")) (EScale (-1 # 1) (EEins "abcdijkl->abcdljki" [(EVar "contracted_intermediate")])));
   (*L6653*) SAssign "contracted_intermediate" (EScale (-1 # 2) (EEins "nmef,ecjk,fdil,abnm->abcdijkl" [(ESlice (EVar "g_bbbb") [SV "o"; SV "o"; SV "v"; SV "v"]); (EVar "t2_bbbb"); (EVar "t2_bbbb"); (EVar "t2_bbbb")]));
   (*L6654*) SAug true "quadruples_res" (EAdd (EScale (1 # 1) (EVar "contracted_intermediate")) (EScale (-1 # 1) (EEins "abcdijkl->abcdkjil" [(EVar "contracted_intermediate")])));
   (*L6657*) SAssign "contracted_intermediate" (EScale (1 # 1) (EEins "mnfe,ecik,fdml,abjn->abcdijkl" [(ESlice (EVar "g_abab") [SV "o"; SV "o"; SV "v"; SV "v"]); (EVar "t2_bbbb"); (EVar "t2_abab"); (EVar "t2_bbbb")]));
   (*L6658*) SAug true "quadruples_res" (EAdd (EScale (1 # 1) (EVar "contracted_intermediate")) (EScale (-1 # 1) (EEins "abcdijkl->abcdilkj" [(EVar "contracted_intermediate")])));
   (*L6661*) SAssign "contracted_intermediate" (EScale (-1 # 1) (EEins "nmef,ecik,fdlm,abjn->abcdijkl" [(ESlice (EVar "g_bbbb") [SV "o"; SV "o"; SV "v"; SV "v"]); (EVar "t2_bbbb"); (EVar "t2_bbbb"); (EVar "t2_bbbb")]));
   (*L6662*) SAug true "quadruples_res" (EAdd (EScale (1 # 1) (EVar "contracted_intermediate")) (EScale (-1 # 1) (EEins "abcdijkl->abcdilkj" [(EVar "contracted_intermediate")])));
   (*L6665*) SAssign "contracted_intermediate" (EScale (-1 # 1) (EEins "mnfe,ecij,fdml,abkn->abcdijkl" [(ESlice (EVar "g_abab") [SV "o"; SV "o"; SV "v"; SV "v"]); (EVar "t2_bbbb"); (EVar "t2_abab"); (EVar "t2_bbbb")]));
   (*L6666*) SAug true "quadruples_res" (EAdd (EScale (1 # 1) (EVar "contracted_intermediate")) (EScale (-1 # 1) (EEins "abcdijkl->abcdijlk" [(EVar "contracted_intermediate")])));
   (*L6669*) SAssign "contracted_intermediate" (EScale (1 # 1) (EEins "nmef,ecij,fdlm,abkn->abcdijkl" [(ESlice (EVar "g_bbbb") [SV "o"; SV "o"; SV "v"; SV "v"]); (EVar "t2_bbbb"); (EVar "t2_bbbb"); (EVar "t2_bbbb")]));
   (*L6670*) SAug true "quadruples_res" (EAdd (EScale (1 # 1) (EVar "contracted_intermediate")) (EScale (-1 # 1) (EEins "abcdijkl->abcdijlk" [(EVar "contracted_intermediate")])))]
  (*L6672*) (EVar "quadruples_res").
