(** Generated by tools/transcribe.py from /repo/UT2/fullCCresidEqns.py; do not edit. *)
From Coq Require Import String List QArith.
From Verif Require Import Interp.
Import ListNotations.
Open Scope string_scope.

(** /repo/UT2/fullCCresidEqns.py:184-299  def ccsdt_t1_aa_residual *)
Definition ccsdt_t1_aa_residual : fn := mkFn
  ["t1_aa"; "t1_bb"; "t2_aaaa"; "t2_bbbb"; "t2_abab"; "t3_aaaaaa"; "t3_aabaab"; "t3_abbabb"; "t3_bbbbbb"; "f_aa"; "f_bb"; "g_aaaa"; "g_bbbb"; "g_abab"; "oa"; "ob"; "va"; "vb"]
  [(*L188*) SAssign "o" (EVar "oa");
   (*L189*) SAssign "v" (EVar "va");
   (*L192*) SAssign "singles_res" (EScale (1 # 1) (EEins "ai->ai" [(ESlice (EVar "f_aa") [SV "v"; SV "o"])]));
   (*L195*) SAug true "singles_res" (EScale (-1 # 1) (EEins "ji,aj->ai" [(ESlice (EVar "f_aa") [SV "o"; SV "o"]); (EVar "t1_aa")]));
   (*L198*) SAug true "singles_res" (EScale (1 # 1) (EEins "ab,bi->ai" [(ESlice (EVar "f_aa") [SV "v"; SV "v"]); (EVar "t1_aa")]));
   (*L201*) SAug true "singles_res" (EScale (-1 # 1) (EEins "jb,baij->ai" [(ESlice (EVar "f_aa") [SV "o"; SV "v"]); (EVar "t2_aaaa")]));
   (*L204*) SAug true "singles_res" (EScale (1 # 1) (EEins "jb,abij->ai" [(ESlice (EVar "f_bb") [SV "o"; SV "v"]); (EVar "t2_abab")]));
   (*L207*) SAug true "singles_res" (EScale (-1 # 1) (EEins "jb,bi,aj->ai" [(ESlice (EVar "f_aa") [SV "o"; SV "v"]); (EVar "t1_aa"); (EVar "t1_aa")]));
   (*L210*) SAug true "singles_res" (EScale (1 # 1) (EEins "jabi,bj->ai" [(ESlice (EVar "g_aaaa") [SV "o"; SV "v"; SV "v"; SV "o"]); (EVar "t1_aa")]));
   (*L213*) SAug true "singles_res" (EScale (1 # 1) (EEins "ajib,bj->ai" [(ESlice (EVar "g_abab") [SV "v"; SV "o"; SV "o"; SV "v"]); (EVar "t1_bb")]));
   (*L216*) SAug true "singles_res" (EScale (-1 # 2) (EEins "kjbi,bakj->ai" [(ESlice (EVar "g_aaaa") [SV "o"; SV "o"; SV "v"; SV "o"]); (EVar "t2_aaaa")]));
   (*L219*) SAug true "singles_res" (EScale (-1 # 2) (EEins "kjib,abkj->ai" [(ESlice (EVar "g_abab") [SV "o"; SV "o"; SV "o"; SV "v"]); (EVar "t2_abab")]));
   (*L222*) SAug true "singles_res" (EScale (-1 # 2) (EEins "jkib,abjk->ai" [(ESlice (EVar "g_abab") [SV "o"; SV "o"; SV "o"; SV "v"]); (EVar "t2_abab")]));
   (*L225*) SAug true "singles_res" (EScale (-1 # 2) (EEins "jabc,bcij->ai" [(ESlice (EVar "g_aaaa") [SV "o"; SV "v"; SV "v"; SV "v"]); (EVar "t2_aaaa")]));
   (*L228*) SAug true "singles_res" (EScale (1 # 2) (EEins "ajbc,bcij->ai" [(ESlice (EVar "g_abab") [SV "v"; SV "o"; SV "v"; SV "v"]); (EVar "t2_abab")]));
   (*L231*) SAug true "singles_res" (EScale (1 # 2) (EEins "ajcb,cbij->ai" [(ESlice (EVar "g_abab") [SV "v"; SV "o"; SV "v"; SV "v"]); (EVar "t2_abab")]));
   (*L234*) SAug true "singles_res" (EScale (1 # 4) (EEins "kjbc,bcaikj->ai" [(ESlice (EVar "g_aaaa") [SV "o"; SV "o"; SV "v"; SV "v"]); (EVar "t3_aaaaaa")]));
   (*L237*) SAug true "singles_res" (EScale (-1 # 4) (EEins "kjbc,bacikj->ai" [(ESlice (EVar "g_abab") [SV "o"; SV "o"; SV "v"; SV "v"]); (EVar "t3_aabaab")]));
   (*L240*) SAug true "singles_res" (EScale (-1 # 4) (EEins "jkbc,bacijk->ai" [(ESlice (EVar "g_abab") [SV "o"; SV "o"; SV "v"; SV "v"]); (EVar "t3_aabaab")]));
   (*L243*) SAug true "singles_res" (EScale (1 # 4) (EEins "kjcb,acbikj->ai" [(ESlice (EVar "g_abab") [SV "o"; SV "o"; SV "v"; SV "v"]); (EVar "t3_aabaab")]));
   (*L246*) SAug true "singles_res" (EScale (1 # 4) (EEins "jkcb,acbijk->ai" [(ESlice (EVar "g_abab") [SV "o"; SV "o"; SV "v"; SV "v"]); (EVar "t3_aabaab")]));
   (*L249*) SAug true "singles_res" (EScale (-1 # 4) (EEins "kjbc,acbikj->ai" [(ESlice (EVar "g_bbbb") [SV "o"; SV "o"; SV "v"; SV "v"]); (EVar "t3_abbabb")]));
   (*L252*) SAug true "singles_res" (EScale (1 # 1) (EEins "kjbc,bj,caik->ai" [(ESlice (EVar "g_aaaa") [SV "o"; SV "o"; SV "v"; SV "v"]); (EVar "t1_aa"); (EVar "t2_aaaa")]));
   (*L255*) SAug true "singles_res" (EScale (1 # 1) (EEins "jkbc,bj,acik->ai" [(ESlice (EVar "g_abab") [SV "o"; SV "o"; SV "v"; SV "v"]); (EVar "t1_aa"); (EVar "t2_abab")]));
   (*L258*) SAug true "singles_res" (EScale (-1 # 1) (EEins "kjcb,bj,caik->ai" [(ESlice (EVar "g_abab") [SV "o"; SV "o"; SV "v"; SV "v"]); (EVar "t1_bb"); (EVar "t2_aaaa")]));
   (*L261*) SAug true "singles_res" (EScale (-1 # 1) (EEins "kjbc,bj,acik->ai" [(ESlice (EVar "g_bbbb") [SV "o"; SV "o"; SV "v"; SV "v"]); (EVar "t1_bb"); (EVar "t2_abab")]));
   (*L264*) SAug true "singles_res" (EScale (1 # 2) (EEins "kjbc,bi,cakj->ai" [(ESlice (EVar "g_aaaa") [SV "o"; SV "o"; SV "v"; SV "v"]); (EVar "t1_aa"); (EVar "t2_aaaa")]));
   (*L267*) SAug true "singles_res" (EScale (-1 # 2) (EEins "kjbc,bi,ackj->ai" [(ESlice (EVar "g_abab") [SV "o"; SV "o"; SV "v"; SV "v"]); (EVar "t1_aa"); (EVar "t2_abab")]));
   (*L270*) SAug true "singles_res" (EScale (-1 # 2) (EEins "jkbc,bi,acjk->ai" [(ESlice (EVar "g_abab") [SV "o"; SV "o"; SV "v"; SV "v"]); (EVar "t1_aa"); (EVar "t2_abab")]));
   (*L273*) SAug true "singles_res" (EScale (1 # 2) (EEins "kjbc,aj,bcik->ai" [(ESlice (EVar "g_aaaa") [SV "o"; SV "o"; SV "v"; SV "v"]); (EVar "t1_aa"); (EVar "t2_aaaa")]));
   (*L276*) SAug true "singles_res" (EScale (-1 # 2) (EEins "jkbc,aj,bcik->ai" [(ESlice (EVar "g_abab") [SV "o"; SV "o"; SV "v"; SV "v"]); (EVar "t1_aa"); (EVar "t2_abab")]));
   (*L279*) SAug true "singles_res" (EScale (-1 # 2) (EEins "jkcb,aj,cbik->ai" [(ESlice (EVar "g_abab") [SV "o"; SV "o"; SV "v"; SV "v"]); (EVar "t1_aa"); (EVar "t2_abab")]));
   (*L282*) SAug true "singles_res" (EScale (1 # 1) (EEins "kjbi,bj,ak->ai" [(ESlice (EVar "g_aaaa") [SV "o"; SV "o"; SV "v"; SV "o"]); (EVar "t1_aa"); (EVar "t1_aa")]));
   (*L285*) SAug true "singles_res" (EScale (-1 # 1) (EEins "kjib,bj,ak->ai" [(ESlice (EVar "g_abab") [SV "o"; SV "o"; SV "o"; SV "v"]); (EVar "t1_bb"); (EVar "t1_aa")]));
   (*L288*) SAug true "singles_res" (EScale (1 # 1) (EEins "jabc,bj,ci->ai" [(ESlice (EVar "g_aaaa") [SV "o"; SV "v"; SV "v"; SV "v"]); (EVar "t1_aa"); (EVar "t1_aa")]));
   (*L291*) SAug true "singles_res" (EScale (1 # 1) (EEins "ajcb,bj,ci->ai" [(ESlice (EVar "g_abab") [SV "v"; SV "o"; SV "v"; SV "v"]); (EVar "t1_bb"); (EVar "t1_aa")]));
   (*L294*) SAug true "singles_res" (EScale (1 # 1) (EEins "kjbc,bj,ci,ak->ai" [(ESlice (EVar "g_aaaa") [SV "o"; SV "o"; SV "v"; SV "v"]); (EVar "t1_aa"); (EVar "t1_aa"); (EVar "t1_aa")]));
   (*L297*) SAug true "singles_res" (EScale (-1 # 1) (EEins "kjcb,bj,ci,ak->ai" [(ESlice (EVar "g_abab") [SV "o"; SV "o"; SV "v"; SV "v"]); (EVar "t1_bb"); (EVar "t1_aa"); (EVar "t1_aa")]))]
  (*L299*) (EVar "singles_res").

(** /repo/UT2/fullCCresidEqns.py:302-417  def ccsdt_t1_bb_residual *)
Definition ccsdt_t1_bb_residual : fn := mkFn
  ["t1_aa"; "t1_bb"; "t2_aaaa"; "t2_bbbb"; "t2_abab"; "t3_aaaaaa"; "t3_aabaab"; "t3_abbabb"; "t3_bbbbbb"; "f_aa"; "f_bb"; "g_aaaa"; "g_bbbb"; "g_abab"; "oa"; "ob"; "va"; "vb"]
  [(*L306*) SAssign "o" (EVar "oa");
   (*L307*) SAssign "v" (EVar "va");
   (*L310*) SAssign "singles_res" (EScale (1 # 1) (EEins "ai->ai" [(ESlice (EVar "f_bb") [SV "v"; SV "o"])]));
   (*L313*) SAug true "singles_res" (EScale (-1 # 1) (EEins "ji,aj->ai" [(ESlice (EVar "f_bb") [SV "o"; SV "o"]); (EVar "t1_bb")]));
   (*L316*) SAug true "singles_res" (EScale (1 # 1) (EEins "ab,bi->ai" [(ESlice (EVar "f_bb") [SV "v"; SV "v"]); (EVar "t1_bb")]));
   (*L319*) SAug true "singles_res" (EScale (1 # 1) (EEins "jb,baji->ai" [(ESlice (EVar "f_aa") [SV "o"; SV "v"]); (EVar "t2_abab")]));
   (*L322*) SAug true "singles_res" (EScale (-1 # 1) (EEins "jb,baij->ai" [(ESlice (EVar "f_bb") [SV "o"; SV "v"]); (EVar "t2_bbbb")]));
   (*L325*) SAug true "singles_res" (EScale (-1 # 1) (EEins "jb,bi,aj->ai" [(ESlice (EVar "f_bb") [SV "o"; SV "v"]); (EVar "t1_bb"); (EVar "t1_bb")]));
   (*L328*) SAug true "singles_res" (EScale (1 # 1) (EEins "jabi,bj->ai" [(ESlice (EVar "g_abab") [SV "o"; SV "v"; SV "v"; SV "o"]); (EVar "t1_aa")]));
   (*L331*) SAug true "singles_res" (EScale (1 # 1) (EEins "jabi,bj->ai" [(ESlice (EVar "g_bbbb") [SV "o"; SV "v"; SV "v"; SV "o"]); (EVar "t1_bb")]));
   (*L334*) SAug true "singles_res" (EScale (-1 # 2) (EEins "kjbi,bakj->ai" [(ESlice (EVar "g_abab") [SV "o"; SV "o"; SV "v"; SV "o"]); (EVar "t2_abab")]));
   (*L337*) SAug true "singles_res" (EScale (-1 # 2) (EEins "jkbi,bajk->ai" [(ESlice (EVar "g_abab") [SV "o"; SV "o"; SV "v"; SV "o"]); (EVar "t2_abab")]));
   (*L340*) SAug true "singles_res" (EScale (-1 # 2) (EEins "kjbi,bakj->ai" [(ESlice (EVar "g_bbbb") [SV "o"; SV "o"; SV "v"; SV "o"]); (EVar "t2_bbbb")]));
   (*L343*) SAug true "singles_res" (EScale (1 # 2) (EEins "jabc,bcji->ai" [(ESlice (EVar "g_abab") [SV "o"; SV "v"; SV "v"; SV "v"]); (EVar "t2_abab")]));
   (*L346*) SAug true "singles_res" (EScale (1 # 2) (EEins "jacb,cbji->ai" [(ESlice (EVar "g_abab") [SV "o"; SV "v"; SV "v"; SV "v"]); (EVar "t2_abab")]));
   (*L349*) SAug true "singles_res" (EScale (-1 # 2) (EEins "jabc,bcij->ai" [(ESlice (EVar "g_bbbb") [SV "o"; SV "v"; SV "v"; SV "v"]); (EVar "t2_bbbb")]));
   (*L352*) SAug true "singles_res" (EScale (-1 # 4) (EEins "kjbc,bcajki->ai" [(ESlice (EVar "g_aaaa") [SV "o"; SV "o"; SV "v"; SV "v"]); (EVar "t3_aabaab")]));
   (*L355*) SAug true "singles_res" (EScale (-1 # 4) (EEins "kjbc,bcakij->ai" [(ESlice (EVar "g_abab") [SV "o"; SV "o"; SV "v"; SV "v"]); (EVar "t3_abbabb")]));
   (*L358*) SAug true "singles_res" (EScale (1 # 4) (EEins "jkbc,bcajki->ai" [(ESlice (EVar "g_abab") [SV "o"; SV "o"; SV "v"; SV "v"]); (EVar "t3_abbabb")]));
   (*L361*) SAug true "singles_res" (EScale (-1 # 4) (EEins "kjcb,cbakij->ai" [(ESlice (EVar "g_abab") [SV "o"; SV "o"; SV "v"; SV "v"]); (EVar "t3_abbabb")]));
   (*L364*) SAug true "singles_res" (EScale (1 # 4) (EEins "jkcb,cbajki->ai" [(ESlice (EVar "g_abab") [SV "o"; SV "o"; SV "v"; SV "v"]); (EVar "t3_abbabb")]));
   (*L367*) SAug true "singles_res" (EScale (1 # 4) (EEins "kjbc,bcaikj->ai" [(ESlice (EVar "g_bbbb") [SV "o"; SV "o"; SV "v"; SV "v"]); (EVar "t3_bbbbbb")]));
   (*L370*) SAug true "singles_res" (EScale (-1 # 1) (EEins "kjbc,bj,caki->ai" [(ESlice (EVar "g_aaaa") [SV "o"; SV "o"; SV "v"; SV "v"]); (EVar "t1_aa"); (EVar "t2_abab")]));
   (*L373*) SAug true "singles_res" (EScale (-1 # 1) (EEins "jkbc,bj,caik->ai" [(ESlice (EVar "g_abab") [SV "o"; SV "o"; SV "v"; SV "v"]); (EVar "t1_aa"); (EVar "t2_bbbb")]));
   (*L376*) SAug true "singles_res" (EScale (1 # 1) (EEins "kjcb,bj,caki->ai" [(ESlice (EVar "g_abab") [SV "o"; SV "o"; SV "v"; SV "v"]); (EVar "t1_bb"); (EVar "t2_abab")]));
   (*L379*) SAug true "singles_res" (EScale (1 # 1) (EEins "kjbc,bj,caik->ai" [(ESlice (EVar "g_bbbb") [SV "o"; SV "o"; SV "v"; SV "v"]); (EVar "t1_bb"); (EVar "t2_bbbb")]));
   (*L382*) SAug true "singles_res" (EScale (-1 # 2) (EEins "kjcb,bi,cakj->ai" [(ESlice (EVar "g_abab") [SV "o"; SV "o"; SV "v"; SV "v"]); (EVar "t1_bb"); (EVar "t2_abab")]));
   (*L385*) SAug true "singles_res" (EScale (-1 # 2) (EEins "jkcb,bi,cajk->ai" [(ESlice (EVar "g_abab") [SV "o"; SV "o"; SV "v"; SV "v"]); (EVar "t1_bb"); (EVar "t2_abab")]));
   (*L388*) SAug true "singles_res" (EScale (1 # 2) (EEins "kjbc,bi,cakj->ai" [(ESlice (EVar "g_bbbb") [SV "o"; SV "o"; SV "v"; SV "v"]); (EVar "t1_bb"); (EVar "t2_bbbb")]));
   (*L391*) SAug true "singles_res" (EScale (-1 # 2) (EEins "kjbc,aj,bcki->ai" [(ESlice (EVar "g_abab") [SV "o"; SV "o"; SV "v"; SV "v"]); (EVar "t1_bb"); (EVar "t2_abab")]));
   (*L394*) SAug true "singles_res" (EScale (-1 # 2) (EEins "kjcb,aj,cbki->ai" [(ESlice (EVar "g_abab") [SV "o"; SV "o"; SV "v"; SV "v"]); (EVar "t1_bb"); (EVar "t2_abab")]));
   (*L397*) SAug true "singles_res" (EScale (1 # 2) (EEins "kjbc,aj,bcik->ai" [(ESlice (EVar "g_bbbb") [SV "o"; SV "o"; SV "v"; SV "v"]); (EVar "t1_bb"); (EVar "t2_bbbb")]));
   (*L400*) SAug true "singles_res" (EScale (-1 # 1) (EEins "jkbi,bj,ak->ai" [(ESlice (EVar "g_abab") [SV "o"; SV "o"; SV "v"; SV "o"]); (EVar "t1_aa"); (EVar "t1_bb")]));
   (*L403*) SAug true "singles_res" (EScale (1 # 1) (EEins "kjbi,bj,ak->ai" [(ESlice (EVar "g_bbbb") [SV "o"; SV "o"; SV "v"; SV "o"]); (EVar "t1_bb"); (EVar "t1_bb")]));
   (*L406*) SAug true "singles_res" (EScale (1 # 1) (EEins "jabc,bj,ci->ai" [(ESlice (EVar "g_abab") [SV "o"; SV "v"; SV "v"; SV "v"]); (EVar "t1_aa"); (EVar "t1_bb")]));
   (*L409*) SAug true "singles_res" (EScale (1 # 1) (EEins "jabc,bj,ci->ai" [(ESlice (EVar "g_bbbb") [SV "o"; SV "v"; SV "v"; SV "v"]); (EVar "t1_bb"); (EVar "t1_bb")]));
   (*L412*) SAug true "singles_res" (EScale (-1 # 1) (EEins "jkbc,bj,ci,ak->ai" [(ESlice (EVar "g_abab") [SV "o"; SV "o"; SV "v"; SV "v"]); (EVar "t1_aa"); (EVar "t1_bb"); (EVar "t1_bb")]));
   (*L415*) SAug true "singles_res" (EScale (1 # 1) (EEins "kjbc,bj,ci,ak->ai" [(ESlice (EVar "g_bbbb") [SV "o"; SV "o"; SV "v"; SV "v"]); (EVar "t1_bb"); (EVar "t1_bb"); (EVar "t1_bb")]))]
  (*L417*) (EVar "singles_res").

(** /repo/UT2/fullCCresidEqns.py:420-674  def ccsdt_t2_aaaa_residual *)
Definition ccsdt_t2_aaaa_residual : fn := mkFn
  ["t1_aa"; "t1_bb"; "t2_aaaa"; "t2_bbbb"; "t2_abab"; "t3_aaaaaa"; "t3_aabaab"; "t3_abbabb"; "t3_bbbbbb"; "f_aa"; "f_bb"; "g_aaaa"; "g_bbbb"; "g_abab"; "oa"; "ob"; "va"; "vb"]
  [(*L424*) SAssign "o" (EVar "oa");
   (*L425*) SAssign "v" (EVar "va");
   (*L428*) SAssign "contracted_intermediate" (EScale (-1 # 1) (EEins "kj,abik->abij" [(ESlice (EVar "f_aa") [SV "o"; SV "o"]); (EVar "t2_aaaa")]));
   (*L429*) SAssign "doubles_res" (EAdd (EScale (1 # 1) (EVar "contracted_intermediate")) (EScale (-1 # 1) (EEins "abij->abji" [(EVar "contracted_intermediate")])));
   (*L432*) SAssign "contracted_intermediate" (EScale (1 # 1) (EEins "ac,cbij->abij" [(ESlice (EVar "f_aa") [SV "v"; SV "v"]); (EVar "t2_aaaa")]));
   (*L433*) SAug true "doubles_res" (EAdd (EScale (1 # 1) (EVar "contracted_intermediate")) (EScale (-1 # 1) (EEins "abij->baij" [(EVar "contracted_intermediate")])));
   (*L436*) SAug true "doubles_res" (EScale (1 # 1) (EEins "kc,cabijk->abij" [(ESlice (EVar "f_aa") [SV "o"; SV "v"]); (EVar "t3_aaaaaa")]));
   (*L439*) SAug true "doubles_res" (EScale (-1 # 1) (EEins "kc,bacijk->abij" [(ESlice (EVar "f_bb") [SV "o"; SV "v"]); (EVar "t3_aabaab")]));
   (*L442*) SAssign "contracted_intermediate" (EScale (-1 # 1) (EEins "kc,cj,abik->abij" [(ESlice (EVar "f_aa") [SV "o"; SV "v"]); (EVar "t1_aa"); (EVar "t2_aaaa")]));
   (*L443*) SAug true "doubles_res" (EAdd (EScale (1 # 1) (EVar "contracted_intermediate")) (EScale (-1 # 1) (EEins "abij->abji" [(EVar "contracted_intermediate")])));
   (*L446*) SAssign "contracted_intermediate" (EScale (-1 # 1) (EEins "kc,ak,cbij->abij" [(ESlice (EVar "f_aa") [SV "o"; SV "v"]); (EVar "t1_aa"); (EVar "t2_aaaa")]));
   (*L447*) SAug true "doubles_res" (EAdd (EScale (1 # 1) (EVar "contracted_intermediate")) (EScale (-1 # 1) (EEins "abij->baij" [(EVar "contracted_intermediate")])));
   (*L450*) SAug true "doubles_res" (EScale (1 # 1) (EEins "abij->abij" [(ESlice (EVar "g_aaaa") [SV "v"; SV "v"; SV "o"; SV "o"])]));
   (*L453*) SAssign "contracted_intermediate" (EScale (1 # 1) (EEins "kaij,bk->abij" [(ESlice (EVar "g_aaaa") [SV "o"; SV "v"; SV "o"; SV "o"]); (EVar "t1_aa")]));
   (*L454*) SAug true "doubles_res" (EAdd (EScale (1 # 1) (EVar "contracted_intermediate")) (EScale (-1 # 1) (EEins "abij->baij" [(EVar "contracted_intermediate")])));
   (*L457*) SAssign "contracted_intermediate" (EScale (1 # 1) (EEins "abcj,ci->abij" [(ESlice (EVar "g_aaaa") [SV "v"; SV "v"; SV "v"; SV "o"]); (EVar "t1_aa")]));
   (*L458*) SAug true "doubles_res" (EAdd (EScale (1 # 1) (EVar "contracted_intermediate")) (EScale (-1 # 1) (EEins "abij->abji" [(EVar "contracted_intermediate")])));
   (*L461*) SAug true "doubles_res" (EScale (1 # 2) (EEins "lkij,ablk->abij" [(ESlice (EVar "g_aaaa") [SV "o"; SV "o"; SV "o"; SV "o"]); (EVar "t2_aaaa")]));
   (*L464*) SAssign "contracted_intermediate" (EScale (1 # 1) (EEins "kacj,cbik->abij" [(ESlice (EVar "g_aaaa") [SV "o"; SV "v"; SV "v"; SV "o"]); (EVar "t2_aaaa")]));
   (*L465*) SAug true "doubles_res" (EAdd (EAdd (EAdd (EScale (1 # 1) (EVar "contracted_intermediate")) (EScale (-1 # 1) (EEins "abij->abji" [(EVar "contracted_intermediate")]))) (EScale (-1 # 1) (EEins "abij->baij" [(EVar "contracted_intermediate")]))) (EScale (1 # 1) (EEins "abij->baji" [(EVar "contracted_intermediate")])));
   (*L468*) SAssign "contracted_intermediate" (EScale (-1 # 1) (EEins "akjc,bcik->abij" [(ESlice (EVar "g_abab") [SV "v"; SV "o"; SV "o"; SV "v"]); (EVar "t2_abab")]));
   (*L469*) SAug true "doubles_res" (EAdd (EAdd (EAdd (EScale (1 # 1) (EVar "contracted_intermediate")) (EScale (-1 # 1) (EEins "abij->abji" [(EVar "contracted_intermediate")]))) (EScale (-1 # 1) (EEins "abij->baij" [(EVar "contracted_intermediate")]))) (EScale (1 # 1) (EEins "abij->baji" [(EVar "contracted_intermediate")])));
   (*L472*) SAug true "doubles_res" (EScale (1 # 2) (EEins "abcd,cdij->abij" [(ESlice (EVar "g_aaaa") [SV "v"; SV "v"; SV "v"; SV "v"]); (EVar "t2_aaaa")]));
   (*L475*) SAssign "contracted_intermediate" (EScale (1 # 2) (EEins "lkcj,cabilk->abij" [(ESlice (EVar "g_aaaa") [SV "o"; SV "o"; SV "v"; SV "o"]); (EVar "t3_aaaaaa")]));
   (*L476*) SAug true "doubles_res" (EAdd (EScale (1 # 1) (EVar "contracted_intermediate")) (EScale (-1 # 1) (EEins "abij->abji" [(EVar "contracted_intermediate")])));
   (*L479*) SAssign "contracted_intermediate" (EScale (1 # 2) (EEins "lkjc,bacilk->abij" [(ESlice (EVar "g_abab") [SV "o"; SV "o"; SV "o"; SV "v"]); (EVar "t3_aabaab")]));
   (*L480*) SAug true "doubles_res" (EAdd (EScale (1 # 1) (EVar "contracted_intermediate")) (EScale (-1 # 1) (EEins "abij->abji" [(EVar "contracted_intermediate")])));
   (*L483*) SAssign "contracted_intermediate" (EScale (1 # 2) (EEins "kljc,bacikl->abij" [(ESlice (EVar "g_abab") [SV "o"; SV "o"; SV "o"; SV "v"]); (EVar "t3_aabaab")]));
   (*L484*) SAug true "doubles_res" (EAdd (EScale (1 # 1) (EVar "contracted_intermediate")) (EScale (-1 # 1) (EEins "abij->abji" [(EVar "contracted_intermediate")])));
   (*L487*) SAssign "contracted_intermediate" (EScale (1 # 2) (EEins "kacd,cdbijk->abij" [(ESlice (EVar "g_aaaa") [SV "o"; SV "v"; SV "v"; SV "v"]); (EVar "t3_aaaaaa")]));
   (*L488*) SAug true "doubles_res" (EAdd (EScale (1 # 1) (EVar "contracted_intermediate")) (EScale (-1 # 1) (EEins "abij->baij" [(EVar "contracted_intermediate")])));
   (*L491*) SAssign "contracted_intermediate" (EScale (1 # 2) (EEins "akcd,cbdijk->abij" [(ESlice (EVar "g_abab") [SV "v"; SV "o"; SV "v"; SV "v"]); (EVar "t3_aabaab")]));
   (*L492*) SAug true "doubles_res" (EAdd (EScale (1 # 1) (EVar "contracted_intermediate")) (EScale (-1 # 1) (EEins "abij->baij" [(EVar "contracted_intermediate")])));
   (*L495*) SAssign "contracted_intermediate" (EScale (-1 # 2) (EEins "akdc,bdcijk->abij" [(ESlice (EVar "g_abab") [SV "v"; SV "o"; SV "v"; SV "v"]); (EVar "t3_aabaab")]));
   (*L496*) SAug true "doubles_res" (EAdd (EScale (1 # 1) (EVar "contracted_intermediate")) (EScale (-1 # 1) (EEins "abij->baij" [(EVar "contracted_intermediate")])));
   (*L499*) SAssign "contracted_intermediate" (EScale (1 # 1) (EEins "lkcj,ck,abil->abij" [(ESlice (EVar "g_aaaa") [SV "o"; SV "o"; SV "v"; SV "o"]); (EVar "t1_aa"); (EVar "t2_aaaa")]));
   (*L500*) SAug true "doubles_res" (EAdd (EScale (1 # 1) (EVar "contracted_intermediate")) (EScale (-1 # 1) (EEins "abij->abji" [(EVar "contracted_intermediate")])));
   (*L503*) SAssign "contracted_intermediate" (EScale (-1 # 1) (EEins "lkjc,ck,abil->abij" [(ESlice (EVar "g_abab") [SV "o"; SV "o"; SV "o"; SV "v"]); (EVar "t1_bb"); (EVar "t2_aaaa")]));
   (*L504*) SAug true "doubles_res" (EAdd (EScale (1 # 1) (EVar "contracted_intermediate")) (EScale (-1 # 1) (EEins "abij->abji" [(EVar "contracted_intermediate")])));
   (*L507*) SAssign "contracted_intermediate" (EScale (1 # 2) (EEins "lkcj,ci,ablk->abij" [(ESlice (EVar "g_aaaa") [SV "o"; SV "o"; SV "v"; SV "o"]); (EVar "t1_aa"); (EVar "t2_aaaa")]));
   (*L508*) SAug true "doubles_res" (EAdd (EScale (1 # 1) (EVar "contracted_intermediate")) (EScale (-1 # 1) (EEins "abij->abji" [(EVar "contracted_intermediate")])));
   (*L511*) SAssign "contracted_intermediate" (EScale (-1 # 1) (EEins "lkcj,ak,cbil->abij" [(ESlice (EVar "g_aaaa") [SV "o"; SV "o"; SV "v"; SV "o"]); (EVar "t1_aa"); (EVar "t2_aaaa")]));
   (*L512*) SAug true "doubles_res" (EAdd (EAdd (EAdd (EScale (1 # 1) (EVar "contracted_intermediate")) (EScale (-1 # 1) (EEins "abij->abji" [(EVar "contracted_intermediate")]))) (EScale (-1 # 1) (EEins "abij->baij" [(EVar "contracted_intermediate")]))) (EScale (1 # 1) (EEins "abij->baji" [(EVar "contracted_intermediate")])));
   (*L515*) SAssign "contracted_intermediate" (EScale (1 # 1) (EEins "kljc,ak,bcil->abij" [(ESlice (EVar "g_abab") [SV "o"; SV "o"; SV "o"; SV "v"]); (EVar "t1_aa"); (EVar "t2_abab")]));
   (*L516*) SAug true "doubles_res" (EAdd (EAdd (EAdd (EScale (1 # 1) (EVar "contracted_intermediate")) (EScale (-1 # 1) (EEins "abij->abji" [(EVar "contracted_intermediate")]))) (EScale (-1 # 1) (EEins "abij->baij" [(EVar "contracted_intermediate")]))) (EScale (1 # 1) (EEins "abij->baji" [(EVar "contracted_intermediate")])));
   (*L519*) SAssign "contracted_intermediate" (EScale (1 # 1) (EEins "kacd,ck,dbij->abij" [(ESlice (EVar "g_aaaa") [SV "o"; SV "v"; SV "v"; SV "v"]); (EVar "t1_aa"); (EVar "t2_aaaa")]));
   (*L520*) SAug true "doubles_res" (EAdd (EScale (1 # 1) (EVar "contracted_intermediate")) (EScale (-1 # 1) (EEins "abij->baij" [(EVar "contracted_intermediate")])));
   (*L523*) SAssign "contracted_intermediate" (EScale (1 # 1) (EEins "akdc,ck,dbij->abij" [(ESlice (EVar "g_abab") [SV "v"; SV "o"; SV "v"; SV "v"]); (EVar "t1_bb"); (EVar "t2_aaaa")]));
   (*L524*) SAug true "doubles_res" (EAdd (EScale (1 # 1) (EVar "contracted_intermediate")) (EScale (-1 # 1) (EEins "abij->baij" [(EVar "contracted_intermediate")])));
   (*L527*) SAssign "contracted_intermediate" (EScale (-1 # 1) (EEins "kacd,cj,dbik->abij" [(ESlice (EVar "g_aaaa") [SV "o"; SV "v"; SV "v"; SV "v"]); (EVar "t1_aa"); (EVar "t2_aaaa")]));
   (*L528*) SAug true "doubles_res" (EAdd (EAdd (EAdd (EScale (1 # 1) (EVar "contracted_intermediate")) (EScale (-1 # 1) (EEins "abij->abji" [(EVar "contracted_intermediate")]))) (EScale (-1 # 1) (EEins "abij->baij" [(EVar "contracted_intermediate")]))) (EScale (1 # 1) (EEins "abij->baji" [(EVar "contracted_intermediate")])));
   (*L531*) SAssign "contracted_intermediate" (EScale (-1 # 1) (EEins "akcd,cj,bdik->abij" [(ESlice (EVar "g_abab") [SV "v"; SV "o"; SV "v"; SV "v"]); (EVar "t1_aa"); (EVar "t2_abab")]));
   (*L532*) SAug true "doubles_res" (EAdd (EAdd (EAdd (EScale (1 # 1) (EVar "contracted_intermediate")) (EScale (-1 # 1) (EEins "abij->abji" [(EVar "contracted_intermediate")]))) (EScale (-1 # 1) (EEins "abij->baij" [(EVar "contracted_intermediate")]))) (EScale (1 # 1) (EEins "abij->baji" [(EVar "contracted_intermediate")])));
   (*L535*) SAssign "contracted_intermediate" (EScale (1 # 2) (EEins "kacd,bk,cdij->abij" [(ESlice (EVar "g_aaaa") [SV "o"; SV "v"; SV "v"; SV "v"]); (EVar "t1_aa"); (EVar "t2_aaaa")]));
   (*L536*) SAug true "doubles_res" (EAdd (EScale (1 # 1) (EVar "contracted_intermediate")) (EScale (-1 # 1) (EEins "abij->baij" [(EVar "contracted_intermediate")])));
   (*L539*) SAug true "doubles_res" (EScale (-1 # 1) (EEins "lkcd,ck,dabijl->abij" [(ESlice (EVar "g_aaaa") [SV "o"; SV "o"; SV "v"; SV "v"]); (EVar "t1_aa"); (EVar "t3_aaaaaa")]));
   (*L542*) SAug true "doubles_res" (EScale (-1 # 1) (EEins "klcd,ck,badijl->abij" [(ESlice (EVar "g_abab") [SV "o"; SV "o"; SV "v"; SV "v"]); (EVar "t1_aa"); (EVar "t3_aabaab")]));
   (*L545*) SAug true "doubles_res" (EScale (1 # 1) (EEins "lkdc,ck,dabijl->abij" [(ESlice (EVar "g_abab") [SV "o"; SV "o"; SV "v"; SV "v"]); (EVar "t1_bb"); (EVar "t3_aaaaaa")]));
   (*L548*) SAug true "doubles_res" (EScale (1 # 1) (EEins "lkcd,ck,badijl->abij" [(ESlice (EVar "g_bbbb") [SV "o"; SV "o"; SV "v"; SV "v"]); (EVar "t1_bb"); (EVar "t3_aabaab")]));
   (*L551*) SAssign "contracted_intermediate" (EScale (-1 # 2) (EEins "lkcd,cj,dabilk->abij" [(ESlice (EVar "g_aaaa") [SV "o"; SV "o"; SV "v"; SV "v"]); (EVar "t1_aa"); (EVar "t3_aaaaaa")]));
   (*L552*) SAug true "doubles_res" (EAdd (EScale (1 # 1) (EVar "contracted_intermediate")) (EScale (-1 # 1) (EEins "abij->abji" [(EVar "contracted_intermediate")])));
   (*L555*) SAssign "contracted_intermediate" (EScale (1 # 2) (EEins "lkcd,cj,badilk->abij" [(ESlice (EVar "g_abab") [SV "o"; SV "o"; SV "v"; SV "v"]); (EVar "t1_aa"); (EVar "t3_aabaab")]));
   (*L556*) SAug true "doubles_res" (EAdd (EScale (1 # 1) (EVar "contracted_intermediate")) (EScale (-1 # 1) (EEins "abij->abji" [(EVar "contracted_intermediate")])));
   (*L559*) SAssign "contracted_intermediate" (EScale (1 # 2) (EEins "klcd,cj,badikl->abij" [(ESlice (EVar "g_abab") [SV "o"; SV "o"; SV "v"; SV "v"]); (EVar "t1_aa"); (EVar "t3_aabaab")]));
   (*L560*) SAug true "doubles_res" (EAdd (EScale (1 # 1) (EVar "contracted_intermediate")) (EScale (-1 # 1) (EEins "abij->abji" [(EVar "contracted_intermediate")])));
   (*L563*) SAssign "contracted_intermediate" (EScale (-1 # 2) (EEins "lkcd,ak,cdbijl->abij" [(ESlice (EVar "g_aaaa") [SV "o"; SV "o"; SV "v"; SV "v"]); (EVar "t1_aa"); (EVar "t3_aaaaaa")]));
   (*L564*) SAug true "doubles_res" (EAdd (EScale (1 # 1) (EVar "contracted_intermediate")) (EScale (-1 # 1) (EEins "abij->baij" [(EVar "contracted_intermediate")])));
   (*L567*) SAssign "contracted_intermediate" (EScale (-1 # 2) (EEins "klcd,ak,cbdijl->abij" [(ESlice (EVar "g_abab") [SV "o"; SV "o"; SV "v"; SV "v"]); (EVar "t1_aa"); (EVar "t3_aabaab")]));
   (*L568*) SAug true "doubles_res" (EAdd (EScale (1 # 1) (EVar "contracted_intermediate")) (EScale (-1 # 1) (EEins "abij->baij" [(EVar "contracted_intermediate")])));
   (*L571*) SAssign "contracted_intermediate" (EScale (1 # 2) (EEins "kldc,ak,bdcijl->abij" [(ESlice (EVar "g_abab") [SV "o"; SV "o"; SV "v"; SV "v"]); (EVar "t1_aa"); (EVar "t3_aabaab")]));
   (*L572*) SAug true "doubles_res" (EAdd (EScale (1 # 1) (EVar "contracted_intermediate")) (EScale (-1 # 1) (EEins "abij->baij" [(EVar "contracted_intermediate")])));
   (*L575*) SAug true "doubles_res" (EScale (-1 # 1) (EEins "lkij,ak,bl->abij" [(ESlice (EVar "g_aaaa") [SV "o"; SV "o"; SV "o"; SV "o"]); (EVar "t1_aa"); (EVar "t1_aa")]));
   (*L578*) SAssign "contracted_intermediate" (EScale (1 # 1) (EEins "kacj,ci,bk->abij" [(ESlice (EVar "g_aaaa") [SV "o"; SV "v"; SV "v"; SV "o"]); (EVar "t1_aa"); (EVar "t1_aa")]));
   (*L579*) SAug true "doubles_res" (EAdd (EAdd (EAdd (EScale (1 # 1) (EVar "contracted_intermediate")) (EScale (-1 # 1) (EEins "abij->abji" [(EVar "contracted_intermediate")]))) (EScale (-1 # 1) (EEins "abij->baij" [(EVar "contracted_intermediate")]))) (EScale (1 # 1) (EEins "abij->baji" [(EVar "contracted_intermediate")])));
   (*L582*) SAug true "doubles_res" (EScale (-1 # 1) (EEins "abcd,cj,di->abij" [(ESlice (EVar "g_aaaa") [SV "v"; SV "v"; SV "v"; SV "v"]); (EVar "t1_aa"); (EVar "t1_aa")]));
   (*L585*) SAssign "contracted_intermediate" (EScale (-1 # 2) (EEins "lkcd,cdjk,abil->abij" [(ESlice (EVar "g_aaaa") [SV "o"; SV "o"; SV "v"; SV "v"]); (EVar "t2_aaaa"); (EVar "t2_aaaa")]));
   (*L586*) SAug true "doubles_res" (EAdd (EScale (1 # 1) (EVar "contracted_intermediate")) (EScale (-1 # 1) (EEins "abij->abji" [(EVar "contracted_intermediate")])));
   (*L589*) SAssign "contracted_intermediate" (EScale (-1 # 2) (EEins "lkcd,cdjk,abil->abij" [(ESlice (EVar "g_abab") [SV "o"; SV "o"; SV "v"; SV "v"]); (EVar "t2_abab"); (EVar "t2_aaaa")]));
   (*L590*) SAug true "doubles_res" (EAdd (EScale (1 # 1) (EVar "contracted_intermediate")) (EScale (-1 # 1) (EEins "abij->abji" [(EVar "contracted_intermediate")])));
   (*L593*) SAssign "contracted_intermediate" (EScale (-1 # 2) (EEins "lkdc,dcjk,abil->abij" [(ESlice (EVar "g_abab") [SV "o"; SV "o"; SV "v"; SV "v"]); (EVar "t2_abab"); (EVar "t2_aaaa")]));
   (*L594*) SAug true "doubles_res" (EAdd (EScale (1 # 1) (EVar "contracted_intermediate")) (EScale (-1 # 1) (EEins "abij->abji" [(EVar "contracted_intermediate")])));
   (*L597*) SAug true "doubles_res" (EScale (1 # 4) (EEins "lkcd,cdij,ablk->abij" [(ESlice (EVar "g_aaaa") [SV "o"; SV "o"; SV "v"; SV "v"]); (EVar "t2_aaaa"); (EVar "t2_aaaa")]));
   (*L600*) SAug true "doubles_res" (EScale (-1 # 2) (EEins "lkcd,calk,dbij->abij" [(ESlice (EVar "g_aaaa") [SV "o"; SV "o"; SV "v"; SV "v"]); (EVar "t2_aaaa"); (EVar "t2_aaaa")]));
   (*L603*) SAug true "doubles_res" (EScale (-1 # 2) (EEins "lkdc,aclk,dbij->abij" [(ESlice (EVar "g_abab") [SV "o"; SV "o"; SV "v"; SV "v"]); (EVar "t2_abab"); (EVar "t2_aaaa")]));
   (*L606*) SAug true "doubles_res" (EScale (-1 # 2) (EEins "kldc,ackl,dbij->abij" [(ESlice (EVar "g_abab") [SV "o"; SV "o"; SV "v"; SV "v"]); (EVar "t2_abab"); (EVar "t2_aaaa")]));
   (*L609*) SAssign "contracted_intermediate" (EScale (1 # 1) (EEins "lkcd,cajk,dbil->abij" [(ESlice (EVar "g_aaaa") [SV "o"; SV "o"; SV "v"; SV "v"]); (EVar "t2_aaaa"); (EVar "t2_aaaa")]));
   (*L610*) SAug true "doubles_res" (EAdd (EScale (1 # 1) (EVar "contracted_intermediate")) (EScale (-1 # 1) (EEins "abij->abji" [(EVar "contracted_intermediate")])));
   (*L613*) SAssign "contracted_intermediate" (EScale (1 # 1) (EEins "klcd,cajk,bdil->abij" [(ESlice (EVar "g_abab") [SV "o"; SV "o"; SV "v"; SV "v"]); (EVar "t2_aaaa"); (EVar "t2_abab")]));
   (*L614*) SAug true "doubles_res" (EAdd (EScale (1 # 1) (EVar "contracted_intermediate")) (EScale (-1 # 1) (EEins "abij->abji" [(EVar "contracted_intermediate")])));
   (*L617*) SAssign "contracted_intermediate" (EScale (1 # 1) (EEins "lkdc,acjk,dbil->abij" [(ESlice (EVar "g_abab") [SV "o"; SV "o"; SV "v"; SV "v"]); (EVar "t2_abab"); (EVar "t2_aaaa")]));
   (*L618*) SAug true "doubles_res" (EAdd (EScale (1 # 1) (EVar "contracted_intermediate")) (EScale (-1 # 1) (EEins "abij->abji" [(EVar "contracted_intermediate")])));
   (*L621*) SAssign "contracted_intermediate" (EScale (1 # 1) (EEins "lkcd,acjk,bdil->abij" [(ESlice (EVar "g_bbbb") [SV "o"; SV "o"; SV "v"; SV "v"]); (EVar "t2_abab"); (EVar "t2_abab")]));
   (*L622*) SAug true "doubles_res" (EAdd (EScale (1 # 1) (EVar "contracted_intermediate")) (EScale (-1 # 1) (EEins "abij->abji" [(EVar "contracted_intermediate")])));
   (*L625*) SAug true "doubles_res" (EScale (-1 # 2) (EEins "lkcd,caij,dblk->abij" [(ESlice (EVar "g_aaaa") [SV "o"; SV "o"; SV "v"; SV "v"]); (EVar "t2_aaaa"); (EVar "t2_aaaa")]));
   (*L628*) SAug true "doubles_res" (EScale (1 # 2) (EEins "lkcd,caij,bdlk->abij" [(ESlice (EVar "g_abab") [SV "o"; SV "o"; SV "v"; SV "v"]); (EVar "t2_aaaa"); (EVar "t2_abab")]));
   (*L631*) SAug true "doubles_res" (EScale (1 # 2) (EEins "klcd,caij,bdkl->abij" [(ESlice (EVar "g_abab") [SV "o"; SV "o"; SV "v"; SV "v"]); (EVar "t2_aaaa"); (EVar "t2_abab")]));
   (*L634*) SAssign "contracted_intermediate" (EScale (1 # 1) (EEins "lkcd,ck,dj,abil->abij" [(ESlice (EVar "g_aaaa") [SV "o"; SV "o"; SV "v"; SV "v"]); (EVar "t1_aa"); (EVar "t1_aa"); (EVar "t2_aaaa")]));
   (*L635*) SAug true "doubles_res" (EAdd (EScale (1 # 1) (EVar "contracted_intermediate")) (EScale (-1 # 1) (EEins "abij->abji" [(EVar "contracted_intermediate")])));
   (*L638*) SAssign "contracted_intermediate" (EScale (-1 # 1) (EEins "lkdc,ck,dj,abil->abij" [(ESlice (EVar "g_abab") [SV "o"; SV "o"; SV "v"; SV "v"]); (EVar "t1_bb"); (EVar "t1_aa"); (EVar "t2_aaaa")]));
   (*L639*) SAug true "doubles_res" (EAdd (EScale (1 # 1) (EVar "contracted_intermediate")) (EScale (-1 # 1) (EEins "abij->abji" [(EVar "contracted_intermediate")])));
   (*L642*) SAssign "contracted_intermediate" (EScale (1 # 1) (EEins "lkcd,ck,al,dbij->abij" [(ESlice (EVar "g_aaaa") [SV "o"; SV "o"; SV "v"; SV "v"]); (EVar "t1_aa"); (EVar "t1_aa"); (EVar "t2_aaaa")]));
   (*L643*) SAug true "doubles_res" (EAdd (EScale (1 # 1) (EVar "contracted_intermediate")) (EScale (-1 # 1) (EEins "abij->baij" [(EVar "contracted_intermediate")])));
   (*L646*) SAssign "contracted_intermediate" (EScale (-1 # 1) (EEins "lkdc,ck,al,dbij->abij" [(ESlice (EVar "g_abab") [SV "o"; SV "o"; SV "v"; SV "v"]); (EVar "t1_bb"); (EVar "t1_aa"); (EVar "t2_aaaa")]));
   (*L647*) SAug true "doubles_res" (EAdd (EScale (1 # 1) (EVar "contracted_intermediate")) (EScale (-1 # 1) (EEins "abij->baij" [(EVar "contracted_intermediate")])));
   (*L650*) SAug true "doubles_res" (EScale (-1 # 2) (EEins "lkcd,cj,di,ablk->abij" [(ESlice (EVar "g_aaaa") [SV "o"; SV "o"; SV "v"; SV "v"]); (EVar "t1_aa"); (EVar "t1_aa"); (EVar "t2_aaaa")]));
   (*L653*) SAssign "contracted_intermediate" (EScale (1 # 1) (EEins "lkcd,cj,ak,dbil->abij" [(ESlice (EVar "g_aaaa") [SV "o"; SV "o"; SV "v"; SV "v"]); (EVar "t1_aa"); (EVar "t1_aa"); (EVar "t2_aaaa")]));
   (*L654*) SAug true "doubles_res" (EAdd (EAdd (EAdd (EScale (1 # 1) (EVar "contracted_intermediate")) (EScale (-1 # 1) (EEins "abij->abji" [(EVar "contracted_intermediate")]))) (EScale (-1 # 1) (EEins "abij->baij" [(EVar "contracted_intermediate")]))) (EScale (1 # 1) (EEins "abij->baji" [(EVar "contracted_intermediate")])));
   (*L657*) SAssign "contracted_intermediate" (EScale (1 # 1) (EEins "klcd,cj,ak,bdil->abij" [(ESlice (EVar "g_abab") [SV "o"; SV "o"; SV "v"; SV "v"]); (EVar "t1_aa"); (EVar "t1_aa"); (EVar "t2_abab")]));
   (*L658*) SAug true "doubles_res" (EAdd (EAdd (EAdd (EScale (1 # 1) (EVar "contracted_intermediate")) (EScale (-1 # 1) (EEins "abij->abji" [(EVar "contracted_intermediate")]))) (EScale (-1 # 1) (EEins "abij->baij" [(EVar "contracted_intermediate")]))) (EScale (1 # 1) (EEins "abij->baji" [(EVar "contracted_intermediate")])));
   (*L661*) SAug true "doubles_res" (EScale (-1 # 2) (EEins "lkcd,ak,bl,cdij->abij" [(ESlice (EVar "g_aaaa") [SV "o"; SV "o"; SV "v"; SV "v"]); (EVar "t1_aa"); (EVar "t1_aa"); (EVar "t2_aaaa")]));
   (*L664*) SAssign "contracted_intermediate" (EScale (-1 # 1) (EEins "lkcj,ci,ak,bl->abij" [(ESlice (EVar "g_aaaa") [SV "o"; SV "o"; SV "v"; SV "o"]); (EVar "t1_aa"); (EVar "t1_aa"); (EVar "t1_aa")]));
   (*L665*) SAug true "doubles_res" (EAdd (EScale (1 # 1) (EVar "contracted_intermediate")) (EScale (-1 # 1) (EEins "abij->abji" [(EVar "contracted_intermediate")])));
   (*L668*) SAssign "contracted_intermediate" (EScale (-1 # 1) (EEins "kacd,cj,di,bk->abij" [(ESlice (EVar "g_aaaa") [SV "o"; SV "v"; SV "v"; SV "v"]); (EVar "t1_aa"); (EVar "t1_aa"); (EVar "t1_aa")]));
   (*L669*) SAug true "doubles_res" (EAdd (EScale (1 # 1) (EVar "contracted_intermediate")) (EScale (-1 # 1) (EEins "abij->baij" [(EVar "contracted_intermediate")])));
   (*L672*) SAug true "doubles_res" (EScale (1 # 1) (EEins "lkcd,cj,di,ak,bl->abij" [(ESlice (EVar "g_aaaa") [SV "o"; SV "o"; SV "v"; SV "v"]); (EVar "t1_aa"); (EVar "t1_aa"); (EVar "t1_aa"); (EVar "t1_aa")]))]
  (*L674*) (EVar "doubles_res").

(** /repo/UT2/fullCCresidEqns.py:677-931  def ccsdt_t2_bbbb_residual *)
Definition ccsdt_t2_bbbb_residual : fn := mkFn
  ["t1_aa"; "t1_bb"; "t2_aaaa"; "t2_bbbb"; "t2_abab"; "t3_aaaaaa"; "t3_aabaab"; "t3_abbabb"; "t3_bbbbbb"; "f_aa"; "f_bb"; "g_aaaa"; "g_bbbb"; "g_abab"; "oa"; "ob"; "va"; "vb"]
  [(*L681*) SAssign "o" (EVar "oa");
   (*L682*) SAssign "v" (EVar "va");
   (*L685*) SAssign "contracted_intermediate" (EScale (-1 # 1) (EEins "kj,abik->abij" [(ESlice (EVar "f_bb") [SV "o"; SV "o"]); (EVar "t2_bbbb")]));
   (*L686*) SAssign "doubles_res" (EAdd (EScale (1 # 1) (EVar "contracted_intermediate")) (EScale (-1 # 1) (EEins "abij->abji" [(EVar "contracted_intermediate")])));
   (*L689*) SAssign "contracted_intermediate" (EScale (1 # 1) (EEins "ac,cbij->abij" [(ESlice (EVar "f_bb") [SV "v"; SV "v"]); (EVar "t2_bbbb")]));
   (*L690*) SAug true "doubles_res" (EAdd (EScale (1 # 1) (EVar "contracted_intermediate")) (EScale (-1 # 1) (EEins "abij->baij" [(EVar "contracted_intermediate")])));
   (*L693*) SAug true "doubles_res" (EScale (-1 # 1) (EEins "kc,cabkji->abij" [(ESlice (EVar "f_aa") [SV "o"; SV "v"]); (EVar "t3_abbabb")]));
   (*L696*) SAug true "doubles_res" (EScale (1 # 1) (EEins "kc,cabijk->abij" [(ESlice (EVar "f_bb") [SV "o"; SV "v"]); (EVar "t3_bbbbbb")]));
   (*L699*) SAssign "contracted_intermediate" (EScale (-1 # 1) (EEins "kc,cj,abik->abij" [(ESlice (EVar "f_bb") [SV "o"; SV "v"]); (EVar "t1_bb"); (EVar "t2_bbbb")]));
   (*L700*) SAug true "doubles_res" (EAdd (EScale (1 # 1) (EVar "contracted_intermediate")) (EScale (-1 # 1) (EEins "abij->abji" [(EVar "contracted_intermediate")])));
   (*L703*) SAssign "contracted_intermediate" (EScale (-1 # 1) (EEins "kc,ak,cbij->abij" [(ESlice (EVar "f_bb") [SV "o"; SV "v"]); (EVar "t1_bb"); (EVar "t2_bbbb")]));
   (*L704*) SAug true "doubles_res" (EAdd (EScale (1 # 1) (EVar "contracted_intermediate")) (EScale (-1 # 1) (EEins "abij->baij" [(EVar "contracted_intermediate")])));
   (*L707*) SAug true "doubles_res" (EScale (1 # 1) (EEins "abij->abij" [(ESlice (EVar "g_bbbb") [SV "v"; SV "v"; SV "o"; SV "o"])]));
   (*L710*) SAssign "contracted_intermediate" (EScale (1 # 1) (EEins "kaij,bk->abij" [(ESlice (EVar "g_bbbb") [SV "o"; SV "v"; SV "o"; SV "o"]); (EVar "t1_bb")]));
   (*L711*) SAug true "doubles_res" (EAdd (EScale (1 # 1) (EVar "contracted_intermediate")) (EScale (-1 # 1) (EEins "abij->baij" [(EVar "contracted_intermediate")])));
   (*L714*) SAssign "contracted_intermediate" (EScale (1 # 1) (EEins "abcj,ci->abij" [(ESlice (EVar "g_bbbb") [SV "v"; SV "v"; SV "v"; SV "o"]); (EVar "t1_bb")]));
   (*L715*) SAug true "doubles_res" (EAdd (EScale (1 # 1) (EVar "contracted_intermediate")) (EScale (-1 # 1) (EEins "abij->abji" [(EVar "contracted_intermediate")])));
   (*L718*) SAug true "doubles_res" (EScale (1 # 2) (EEins "lkij,ablk->abij" [(ESlice (EVar "g_bbbb") [SV "o"; SV "o"; SV "o"; SV "o"]); (EVar "t2_bbbb")]));
   (*L721*) SAssign "contracted_intermediate" (EScale (-1 # 1) (EEins "kacj,cbki->abij" [(ESlice (EVar "g_abab") [SV "o"; SV "v"; SV "v"; SV "o"]); (EVar "t2_abab")]));
   (*L722*) SAug true "doubles_res" (EAdd (EAdd (EAdd (EScale (1 # 1) (EVar "contracted_intermediate")) (EScale (-1 # 1) (EEins "abij->abji" [(EVar "contracted_intermediate")]))) (EScale (-1 # 1) (EEins "abij->baij" [(EVar "contracted_intermediate")]))) (EScale (1 # 1) (EEins "abij->baji" [(EVar "contracted_intermediate")])));
   (*L725*) SAssign "contracted_intermediate" (EScale (1 # 1) (EEins "kacj,cbik->abij" [(ESlice (EVar "g_bbbb") [SV "o"; SV "v"; SV "v"; SV "o"]); (EVar "t2_bbbb")]));
   (*L726*) SAug true "doubles_res" (EAdd (EAdd (EAdd (EScale (1 # 1) (EVar "contracted_intermediate")) (EScale (-1 # 1) (EEins "abij->abji" [(EVar "contracted_intermediate")]))) (EScale (-1 # 1) (EEins "abij->baij" [(EVar "contracted_intermediate")]))) (EScale (1 # 1) (EEins "abij->baji" [(EVar "contracted_intermediate")])));
   (*L729*) SAug true "doubles_res" (EScale (1 # 2) (EEins "abcd,cdij->abij" [(ESlice (EVar "g_bbbb") [SV "v"; SV "v"; SV "v"; SV "v"]); (EVar "t2_bbbb")]));
   (*L732*) SAssign "contracted_intermediate" (EScale (-1 # 2) (EEins "lkcj,cablik->abij" [(ESlice (EVar "g_abab") [SV "o"; SV "o"; SV "v"; SV "o"]); (EVar "t3_abbabb")]));
   (*L733*) SAug true "doubles_res" (EAdd (EScale (1 # 1) (EVar "contracted_intermediate")) (EScale (-1 # 1) (EEins "abij->abji" [(EVar "contracted_intermediate")])));
   (*L736*) SAssign "contracted_intermediate" (EScale (1 # 2) (EEins "klcj,cabkli->abij" [(ESlice (EVar "g_abab") [SV "o"; SV "o"; SV "v"; SV "o"]); (EVar "t3_abbabb")]));
   (*L737*) SAug true "doubles_res" (EAdd (EScale (1 # 1) (EVar "contracted_intermediate")) (EScale (-1 # 1) (EEins "abij->abji" [(EVar "contracted_intermediate")])));
   (*L740*) SAssign "contracted_intermediate" (EScale (1 # 2) (EEins "lkcj,cabilk->abij" [(ESlice (EVar "g_bbbb") [SV "o"; SV "o"; SV "v"; SV "o"]); (EVar "t3_bbbbbb")]));
   (*L741*) SAug true "doubles_res" (EAdd (EScale (1 # 1) (EVar "contracted_intermediate")) (EScale (-1 # 1) (EEins "abij->abji" [(EVar "contracted_intermediate")])));
   (*L744*) SAssign "contracted_intermediate" (EScale (-1 # 2) (EEins "kacd,cdbkji->abij" [(ESlice (EVar "g_abab") [SV "o"; SV "v"; SV "v"; SV "v"]); (EVar "t3_abbabb")]));
   (*L745*) SAug true "doubles_res" (EAdd (EScale (1 # 1) (EVar "contracted_intermediate")) (EScale (-1 # 1) (EEins "abij->baij" [(EVar "contracted_intermediate")])));
   (*L748*) SAssign "contracted_intermediate" (EScale (-1 # 2) (EEins "kadc,dcbkji->abij" [(ESlice (EVar "g_abab") [SV "o"; SV "v"; SV "v"; SV "v"]); (EVar "t3_abbabb")]));
   (*L749*) SAug true "doubles_res" (EAdd (EScale (1 # 1) (EVar "contracted_intermediate")) (EScale (-1 # 1) (EEins "abij->baij" [(EVar "contracted_intermediate")])));
   (*L752*) SAssign "contracted_intermediate" (EScale (1 # 2) (EEins "kacd,cdbijk->abij" [(ESlice (EVar "g_bbbb") [SV "o"; SV "v"; SV "v"; SV "v"]); (EVar "t3_bbbbbb")]));
   (*L753*) SAug true "doubles_res" (EAdd (EScale (1 # 1) (EVar "contracted_intermediate")) (EScale (-1 # 1) (EEins "abij->baij" [(EVar "contracted_intermediate")])));
   (*L756*) SAssign "contracted_intermediate" (EScale (-1 # 1) (EEins "klcj,ck,abil->abij" [(ESlice (EVar "g_abab") [SV "o"; SV "o"; SV "v"; SV "o"]); (EVar "t1_aa"); (EVar "t2_bbbb")]));
   (*L757*) SAug true "doubles_res" (EAdd (EScale (1 # 1) (EVar "contracted_intermediate")) (EScale (-1 # 1) (EEins "abij->abji" [(EVar "contracted_intermediate")])));
   (*L760*) SAssign "contracted_intermediate" (EScale (1 # 1) (EEins "lkcj,ck,abil->abij" [(ESlice (EVar "g_bbbb") [SV "o"; SV "o"; SV "v"; SV "o"]); (EVar "t1_bb"); (EVar "t2_bbbb")]));
   (*L761*) SAug true "doubles_res" (EAdd (EScale (1 # 1) (EVar "contracted_intermediate")) (EScale (-1 # 1) (EEins "abij->abji" [(EVar "contracted_intermediate")])));
   (*L764*) SAssign "contracted_intermediate" (EScale (1 # 2) (EEins "lkcj,ci,ablk->abij" [(ESlice (EVar "g_bbbb") [SV "o"; SV "o"; SV "v"; SV "o"]); (EVar "t1_bb"); (EVar "t2_bbbb")]));
   (*L765*) SAug true "doubles_res" (EAdd (EScale (1 # 1) (EVar "contracted_intermediate")) (EScale (-1 # 1) (EEins "abij->abji" [(EVar "contracted_intermediate")])));
   (*L768*) SAssign "contracted_intermediate" (EScale (1 # 1) (EEins "lkcj,ak,cbli->abij" [(ESlice (EVar "g_abab") [SV "o"; SV "o"; SV "v"; SV "o"]); (EVar "t1_bb"); (EVar "t2_abab")]));
   (*L769*) SAug true "doubles_res" (EAdd (EAdd (EAdd (EScale (1 # 1) (EVar "contracted_intermediate")) (EScale (-1 # 1) (EEins "abij->abji" [(EVar "contracted_intermediate")]))) (EScale (-1 # 1) (EEins "abij->baij" [(EVar "contracted_intermediate")]))) (EScale (1 # 1) (EEins "abij->baji" [(EVar "contracted_intermediate")])));
   (*L772*) SAssign "contracted_intermediate" (EScale (-1 # 1) (EEins "lkcj,ak,cbil->abij" [(ESlice (EVar "g_bbbb") [SV "o"; SV "o"; SV "v"; SV "o"]); (EVar "t1_bb"); (EVar "t2_bbbb")]));
   (*L773*) SAug true "doubles_res" (EAdd (EAdd (EAdd (EScale (1 # 1) (EVar "contracted_intermediate")) (EScale (-1 # 1) (EEins "abij->abji" [(EVar "contracted_intermediate")]))) (EScale (-1 # 1) (EEins "abij->baij" [(EVar "contracted_intermediate")]))) (EScale (1 # 1) (EEins "abij->baji" [(EVar "contracted_intermediate")])));
   (*L776*) SAssign "contracted_intermediate" (EScale (1 # 1) (EEins "kacd,ck,dbij->abij" [(ESlice (EVar "g_abab") [SV "o"; SV "v"; SV "v"; SV "v"]); (EVar "t1_aa"); (EVar "t2_bbbb")]));
   (*L777*) SAug true "doubles_res" (EAdd (EScale (1 # 1) (EVar "contracted_intermediate")) (EScale (-1 # 1) (EEins "abij->baij" [(EVar "contracted_intermediate")])));
   (*L780*) SAssign "contracted_intermediate" (EScale (1 # 1) (EEins "kacd,ck,dbij->abij" [(ESlice (EVar "g_bbbb") [SV "o"; SV "v"; SV "v"; SV "v"]); (EVar "t1_bb"); (EVar "t2_bbbb")]));
   (*L781*) SAug true "doubles_res" (EAdd (EScale (1 # 1) (EVar "contracted_intermediate")) (EScale (-1 # 1) (EEins "abij->baij" [(EVar "contracted_intermediate")])));
   (*L784*) SAssign "contracted_intermediate" (EScale (-1 # 1) (EEins "kadc,cj,dbki->abij" [(ESlice (EVar "g_abab") [SV "o"; SV "v"; SV "v"; SV "v"]); (EVar "t1_bb"); (EVar "t2_abab")]));
   (*L785*) SAug true "doubles_res" (EAdd (EAdd (EAdd (EScale (1 # 1) (EVar "contracted_intermediate")) (EScale (-1 # 1) (EEins "abij->abji" [(EVar "contracted_intermediate")]))) (EScale (-1 # 1) (EEins "abij->baij" [(EVar "contracted_intermediate")]))) (EScale (1 # 1) (EEins "abij->baji" [(EVar "contracted_intermediate")])));
   (*L788*) SAssign "contracted_intermediate" (EScale (-1 # 1) (EEins "kacd,cj,dbik->abij" [(ESlice (EVar "g_bbbb") [SV "o"; SV "v"; SV "v"; SV "v"]); (EVar "t1_bb"); (EVar "t2_bbbb")]));
   (*L789*) SAug true "doubles_res" (EAdd (EAdd (EAdd (EScale (1 # 1) (EVar "contracted_intermediate")) (EScale (-1 # 1) (EEins "abij->abji" [(EVar "contracted_intermediate")]))) (EScale (-1 # 1) (EEins "abij->baij" [(EVar "contracted_intermediate")]))) (EScale (1 # 1) (EEins "abij->baji" [(EVar "contracted_intermediate")])));
   (*L792*) SAssign "contracted_intermediate" (EScale (1 # 2) (EEins "kacd,bk,cdij->abij" [(ESlice (EVar "g_bbbb") [SV "o"; SV "v"; SV "v"; SV "v"]); (EVar "t1_bb"); (EVar "t2_bbbb")]));
   (*L793*) SAug true "doubles_res" (EAdd (EScale (1 # 1) (EVar "contracted_intermediate")) (EScale (-1 # 1) (EEins "abij->baij" [(EVar "contracted_intermediate")])));
   (*L796*) SAug true "doubles_res" (EScale (1 # 1) (EEins "lkcd,ck,dablji->abij" [(ESlice (EVar "g_aaaa") [SV "o"; SV "o"; SV "v"; SV "v"]); (EVar "t1_aa"); (EVar "t3_abbabb")]));
   (*L799*) SAug true "doubles_res" (EScale (1 # 1) (EEins "klcd,ck,dabijl->abij" [(ESlice (EVar "g_abab") [SV "o"; SV "o"; SV "v"; SV "v"]); (EVar "t1_aa"); (EVar "t3_bbbbbb")]));
   (*L802*) SAug true "doubles_res" (EScale (-1 # 1) (EEins "lkdc,ck,dablji->abij" [(ESlice (EVar "g_abab") [SV "o"; SV "o"; SV "v"; SV "v"]); (EVar "t1_bb"); (EVar "t3_abbabb")]));
   (*L805*) SAug true "doubles_res" (EScale (-1 # 1) (EEins "lkcd,ck,dabijl->abij" [(ESlice (EVar "g_bbbb") [SV "o"; SV "o"; SV "v"; SV "v"]); (EVar "t1_bb"); (EVar "t3_bbbbbb")]));
   (*L808*) SAssign "contracted_intermediate" (EScale (-1 # 2) (EEins "lkdc,cj,dablik->abij" [(ESlice (EVar "g_abab") [SV "o"; SV "o"; SV "v"; SV "v"]); (EVar "t1_bb"); (EVar "t3_abbabb")]));
   (*L809*) SAug true "doubles_res" (EAdd (EScale (1 # 1) (EVar "contracted_intermediate")) (EScale (-1 # 1) (EEins "abij->abji" [(EVar "contracted_intermediate")])));
   (*L812*) SAssign "contracted_intermediate" (EScale (1 # 2) (EEins "kldc,cj,dabkli->abij" [(ESlice (EVar "g_abab") [SV "o"; SV "o"; SV "v"; SV "v"]); (EVar "t1_bb"); (EVar "t3_abbabb")]));
   (*L813*) SAug true "doubles_res" (EAdd (EScale (1 # 1) (EVar "contracted_intermediate")) (EScale (-1 # 1) (EEins "abij->abji" [(EVar "contracted_intermediate")])));
   (*L816*) SAssign "contracted_intermediate" (EScale (-1 # 2) (EEins "lkcd,cj,dabilk->abij" [(ESlice (EVar "g_bbbb") [SV "o"; SV "o"; SV "v"; SV "v"]); (EVar "t1_bb"); (EVar "t3_bbbbbb")]));
   (*L817*) SAug true "doubles_res" (EAdd (EScale (1 # 1) (EVar "contracted_intermediate")) (EScale (-1 # 1) (EEins "abij->abji" [(EVar "contracted_intermediate")])));
   (*L820*) SAssign "contracted_intermediate" (EScale (1 # 2) (EEins "lkcd,ak,cdblji->abij" [(ESlice (EVar "g_abab") [SV "o"; SV "o"; SV "v"; SV "v"]); (EVar "t1_bb"); (EVar "t3_abbabb")]));
   (*L821*) SAug true "doubles_res" (EAdd (EScale (1 # 1) (EVar "contracted_intermediate")) (EScale (-1 # 1) (EEins "abij->baij" [(EVar "contracted_intermediate")])));
   (*L824*) SAssign "contracted_intermediate" (EScale (1 # 2) (EEins "lkdc,ak,dcblji->abij" [(ESlice (EVar "g_abab") [SV "o"; SV "o"; SV "v"; SV "v"]); (EVar "t1_bb"); (EVar "t3_abbabb")]));
   (*L825*) SAug true "doubles_res" (EAdd (EScale (1 # 1) (EVar "contracted_intermediate")) (EScale (-1 # 1) (EEins "abij->baij" [(EVar "contracted_intermediate")])));
   (*L828*) SAssign "contracted_intermediate" (EScale (-1 # 2) (EEins "lkcd,ak,cdbijl->abij" [(ESlice (EVar "g_bbbb") [SV "o"; SV "o"; SV "v"; SV "v"]); (EVar "t1_bb"); (EVar "t3_bbbbbb")]));
   (*L829*) SAug true "doubles_res" (EAdd (EScale (1 # 1) (EVar "contracted_intermediate")) (EScale (-1 # 1) (EEins "abij->baij" [(EVar "contracted_intermediate")])));
   (*L832*) SAug true "doubles_res" (EScale (-1 # 1) (EEins "lkij,ak,bl->abij" [(ESlice (EVar "g_bbbb") [SV "o"; SV "o"; SV "o"; SV "o"]); (EVar "t1_bb"); (EVar "t1_bb")]));
   (*L835*) SAssign "contracted_intermediate" (EScale (1 # 1) (EEins "kacj,ci,bk->abij" [(ESlice (EVar "g_bbbb") [SV "o"; SV "v"; SV "v"; SV "o"]); (EVar "t1_bb"); (EVar "t1_bb")]));
   (*L836*) SAug true "doubles_res" (EAdd (EAdd (EAdd (EScale (1 # 1) (EVar "contracted_intermediate")) (EScale (-1 # 1) (EEins "abij->abji" [(EVar "contracted_intermediate")]))) (EScale (-1 # 1) (EEins "abij->baij" [(EVar "contracted_intermediate")]))) (EScale (1 # 1) (EEins "abij->baji" [(EVar "contracted_intermediate")])));
   (*L839*) SAug true "doubles_res" (EScale (-1 # 1) (EEins "abcd,cj,di->abij" [(ESlice (EVar "g_bbbb") [SV "v"; SV "v"; SV "v"; SV "v"]); (EVar "t1_bb"); (EVar "t1_bb")]));
   (*L842*) SAssign "contracted_intermediate" (EScale (-1 # 2) (EEins "klcd,cdkj,abil->abij" [(ESlice (EVar "g_abab") [SV "o"; SV "o"; SV "v"; SV "v"]); (EVar "t2_abab"); (EVar "t2_bbbb")]));
   (*L843*) SAug true "doubles_res" (EAdd (EScale (1 # 1) (EVar "contracted_intermediate")) (EScale (-1 # 1) (EEins "abij->abji" [(EVar "contracted_intermediate")])));
   (*L846*) SAssign "contracted_intermediate" (EScale (-1 # 2) (EEins "kldc,dckj,abil->abij" [(ESlice (EVar "g_abab") [SV "o"; SV "o"; SV "v"; SV "v"]); (EVar "t2_abab"); (EVar "t2_bbbb")]));
   (*L847*) SAug true "doubles_res" (EAdd (EScale (1 # 1) (EVar "contracted_intermediate")) (EScale (-1 # 1) (EEins "abij->abji" [(EVar "contracted_intermediate")])));
   (*L850*) SAssign "contracted_intermediate" (EScale (-1 # 2) (EEins "lkcd,cdjk,abil->abij" [(ESlice (EVar "g_bbbb") [SV "o"; SV "o"; SV "v"; SV "v"]); (EVar "t2_bbbb"); (EVar "t2_bbbb")]));
   (*L851*) SAug true "doubles_res" (EAdd (EScale (1 # 1) (EVar "contracted_intermediate")) (EScale (-1 # 1) (EEins "abij->abji" [(EVar "contracted_intermediate")])));
   (*L854*) SAug true "doubles_res" (EScale (1 # 4) (EEins "lkcd,cdij,ablk->abij" [(ESlice (EVar "g_bbbb") [SV "o"; SV "o"; SV "v"; SV "v"]); (EVar "t2_bbbb"); (EVar "t2_bbbb")]));
   (*L857*) SAug true "doubles_res" (EScale (-1 # 2) (EEins "lkcd,calk,dbij->abij" [(ESlice (EVar "g_abab") [SV "o"; SV "o"; SV "v"; SV "v"]); (EVar "t2_abab"); (EVar "t2_bbbb")]));
   (*L860*) SAug true "doubles_res" (EScale (-1 # 2) (EEins "klcd,cakl,dbij->abij" [(ESlice (EVar "g_abab") [SV "o"; SV "o"; SV "v"; SV "v"]); (EVar "t2_abab"); (EVar "t2_bbbb")]));
   (*L863*) SAug true "doubles_res" (EScale (-1 # 2) (EEins "lkcd,calk,dbij->abij" [(ESlice (EVar "g_bbbb") [SV "o"; SV "o"; SV "v"; SV "v"]); (EVar "t2_bbbb"); (EVar "t2_bbbb")]));
   (*L866*) SAssign "contracted_intermediate" (EScale (1 # 1) (EEins "lkcd,cakj,dbli->abij" [(ESlice (EVar "g_aaaa") [SV "o"; SV "o"; SV "v"; SV "v"]); (EVar "t2_abab"); (EVar "t2_abab")]));
   (*L867*) SAug true "doubles_res" (EAdd (EScale (1 # 1) (EVar "contracted_intermediate")) (EScale (-1 # 1) (EEins "abij->abji" [(EVar "contracted_intermediate")])));
   (*L870*) SAssign "contracted_intermediate" (EScale (1 # 1) (EEins "klcd,cakj,dbil->abij" [(ESlice (EVar "g_abab") [SV "o"; SV "o"; SV "v"; SV "v"]); (EVar "t2_abab"); (EVar "t2_bbbb")]));
   (*L871*) SAug true "doubles_res" (EAdd (EScale (1 # 1) (EVar "contracted_intermediate")) (EScale (-1 # 1) (EEins "abij->abji" [(EVar "contracted_intermediate")])));
   (*L874*) SAssign "contracted_intermediate" (EScale (1 # 1) (EEins "lkdc,cajk,dbli->abij" [(ESlice (EVar "g_abab") [SV "o"; SV "o"; SV "v"; SV "v"]); (EVar "t2_bbbb"); (EVar "t2_abab")]));
   (*L875*) SAug true "doubles_res" (EAdd (EScale (1 # 1) (EVar "contracted_intermediate")) (EScale (-1 # 1) (EEins "abij->abji" [(EVar "contracted_intermediate")])));
   (*L878*) SAssign "contracted_intermediate" (EScale (1 # 1) (EEins "lkcd,cajk,dbil->abij" [(ESlice (EVar "g_bbbb") [SV "o"; SV "o"; SV "v"; SV "v"]); (EVar "t2_bbbb"); (EVar "t2_bbbb")]));
   (*L879*) SAug true "doubles_res" (EAdd (EScale (1 # 1) (EVar "contracted_intermediate")) (EScale (-1 # 1) (EEins "abij->abji" [(EVar "contracted_intermediate")])));
   (*L882*) SAug true "doubles_res" (EScale (1 # 2) (EEins "lkdc,caij,dblk->abij" [(ESlice (EVar "g_abab") [SV "o"; SV "o"; SV "v"; SV "v"]); (EVar "t2_bbbb"); (EVar "t2_abab")]));
   (*L885*) SAug true "doubles_res" (EScale (1 # 2) (EEins "kldc,caij,dbkl->abij" [(ESlice (EVar "g_abab") [SV "o"; SV "o"; SV "v"; SV "v"]); (EVar "t2_bbbb"); (EVar "t2_abab")]));
   (*L888*) SAug true "doubles_res" (EScale (-1 # 2) (EEins "lkcd,caij,dblk->abij" [(ESlice (EVar "g_bbbb") [SV "o"; SV "o"; SV "v"; SV "v"]); (EVar "t2_bbbb"); (EVar "t2_bbbb")]));
   (*L891*) SAssign "contracted_intermediate" (EScale (-1 # 1) (EEins "klcd,ck,dj,abil->abij" [(ESlice (EVar "g_abab") [SV "o"; SV "o"; SV "v"; SV "v"]); (EVar "t1_aa"); (EVar "t1_bb"); (EVar "t2_bbbb")]));
   (*L892*) SAug true "doubles_res" (EAdd (EScale (1 # 1) (EVar "contracted_intermediate")) (EScale (-1 # 1) (EEins "abij->abji" [(EVar "contracted_intermediate")])));
   (*L895*) SAssign "contracted_intermediate" (EScale (1 # 1) (EEins "lkcd,ck,dj,abil->abij" [(ESlice (EVar "g_bbbb") [SV "o"; SV "o"; SV "v"; SV "v"]); (EVar "t1_bb"); (EVar "t1_bb"); (EVar "t2_bbbb")]));
   (*L896*) SAug true "doubles_res" (EAdd (EScale (1 # 1) (EVar "contracted_intermediate")) (EScale (-1 # 1) (EEins "abij->abji" [(EVar "contracted_intermediate")])));
   (*L899*) SAssign "contracted_intermediate" (EScale (-1 # 1) (EEins "klcd,ck,al,dbij->abij" [(ESlice (EVar "g_abab") [SV "o"; SV "o"; SV "v"; SV "v"]); (EVar "t1_aa"); (EVar "t1_bb"); (EVar "t2_bbbb")]));
   (*L900*) SAug true "doubles_res" (EAdd (EScale (1 # 1) (EVar "contracted_intermediate")) (EScale (-1 # 1) (EEins "abij->baij" [(EVar "contracted_intermediate")])));
   (*L903*) SAssign "contracted_intermediate" (EScale (1 # 1) (EEins "lkcd,ck,al,dbij->abij" [(ESlice (EVar "g_bbbb") [SV "o"; SV "o"; SV "v"; SV "v"]); (EVar "t1_bb"); (EVar "t1_bb"); (EVar "t2_bbbb")]));
   (*L904*) SAug true "doubles_res" (EAdd (EScale (1 # 1) (EVar "contracted_intermediate")) (EScale (-1 # 1) (EEins "abij->baij" [(EVar "contracted_intermediate")])));
   (*L907*) SAug true "doubles_res" (EScale (-1 # 2) (EEins "lkcd,cj,di,ablk->abij" [(ESlice (EVar "g_bbbb") [SV "o"; SV "o"; SV "v"; SV "v"]); (EVar "t1_bb"); (EVar "t1_bb"); (EVar "t2_bbbb")]));
   (*L910*) SAssign "contracted_intermediate" (EScale (1 # 1) (EEins "lkdc,cj,ak,dbli->abij" [(ESlice (EVar "g_abab") [SV "o"; SV "o"; SV "v"; SV "v"]); (EVar "t1_bb"); (EVar "t1_bb"); (EVar "t2_abab")]));
   (*L911*) SAug true "doubles_res" (EAdd (EAdd (EAdd (EScale (1 # 1) (EVar "contracted_intermediate")) (EScale (-1 # 1) (EEins "abij->abji" [(EVar "contracted_intermediate")]))) (EScale (-1 # 1) (EEins "abij->baij" [(EVar "contracted_intermediate")]))) (EScale (1 # 1) (EEins "abij->baji" [(EVar "contracted_intermediate")])));
   (*L914*) SAssign "contracted_intermediate" (EScale (1 # 1) (EEins "lkcd,cj,ak,dbil->abij" [(ESlice (EVar "g_bbbb") [SV "o"; SV "o"; SV "v"; SV "v"]); (EVar "t1_bb"); (EVar "t1_bb"); (EVar "t2_bbbb")]));
   (*L915*) SAug true "doubles_res" (EAdd (EAdd (EAdd (EScale (1 # 1) (EVar "contracted_intermediate")) (EScale (-1 # 1) (EEins "abij->abji" [(EVar "contracted_intermediate")]))) (EScale (-1 # 1) (EEins "abij->baij" [(EVar "contracted_intermediate")]))) (EScale (1 # 1) (EEins "abij->baji" [(EVar "contracted_intermediate")])));
   (*L918*) SAug true "doubles_res" (EScale (-1 # 2) (EEins "lkcd,ak,bl,cdij->abij" [(ESlice (EVar "g_bbbb") [SV "o"; SV "o"; SV "v"; SV "v"]); (EVar "t1_bb"); (EVar "t1_bb"); (EVar "t2_bbbb")]));
   (*L921*) SAssign "contracted_intermediate" (EScale (-1 # 1) (EEins "lkcj,ci,ak,bl->abij" [(ESlice (EVar "g_bbbb") [SV "o"; SV "o"; SV "v"; SV "o"]); (EVar "t1_bb"); (EVar "t1_bb"); (EVar "t1_bb")]));
   (*L922*) SAug true "doubles_res" (EAdd (EScale (1 # 1) (EVar "contracted_intermediate")) (EScale (-1 # 1) (EEins "abij->abji" [(EVar "contracted_intermediate")])));
   (*L925*) SAssign "contracted_intermediate" (EScale (-1 # 1) (EEins "kacd,cj,di,bk->abij" [(ESlice (EVar "g_bbbb") [SV "o"; SV "v"; SV "v"; SV "v"]); (EVar "t1_bb"); (EVar "t1_bb"); (EVar "t1_bb")]));
   (*L926*) SAug true "doubles_res" (EAdd (EScale (1 # 1) (EVar "contracted_intermediate")) (EScale (-1 # 1) (EEins "abij->baij" [(EVar "contracted_intermediate")])));
   (*L929*) SAug true "doubles_res" (EScale (1 # 1) (EEins "lkcd,cj,di,ak,bl->abij" [(ESlice (EVar "g_bbbb") [SV "o"; SV "o"; SV "v"; SV "v"]); (EVar "t1_bb"); (EVar "t1_bb"); (EVar "t1_bb"); (EVar "t1_bb")]))]
  (*L931*) (EVar "doubles_res").

(** /repo/UT2/fullCCresidEqns.py:934-1334  def ccsdt_t2_abab_residual *)
Definition ccsdt_t2_abab_residual : fn := mkFn
  ["t1_aa"; "t1_bb"; "t2_aaaa"; "t2_bbbb"; "t2_abab"; "t3_aaaaaa"; "t3_aabaab"; "t3_abbabb"; "t3_bbbbbb"; "f_aa"; "f_bb"; "g_aaaa"; "g_bbbb"; "g_abab"; "oa"; "ob"; "va"; "vb"]
  [(*L938*) SAssign "o" (EVar "oa");
   (*L939*) SAssign "v" (EVar "va");
   (*L942*) SAssign "doubles_res" (EScale (-1 # 1) (EEins "kj,abik->abij" [(ESlice (EVar "f_bb") [SV "o"; SV "o"]); (EVar "t2_abab")]));
   (*L945*) SAug true "doubles_res" (EScale (-1 # 1) (EEins "ki,abkj->abij" [(ESlice (EVar "f_aa") [SV "o"; SV "o"]); (EVar "t2_abab")]));
   (*L948*) SAug true "doubles_res" (EScale (1 # 1) (EEins "ac,cbij->abij" [(ESlice (EVar "f_aa") [SV "v"; SV "v"]); (EVar "t2_abab")]));
   (*L951*) SAug true "doubles_res" (EScale (1 # 1) (EEins "bc,acij->abij" [(ESlice (EVar "f_bb") [SV "v"; SV "v"]); (EVar "t2_abab")]));
   (*L954*) SAug true "doubles_res" (EScale (-1 # 1) (EEins "kc,cabikj->abij" [(ESlice (EVar "f_aa") [SV "o"; SV "v"]); (EVar "t3_aabaab")]));
   (*L957*) SAug true "doubles_res" (EScale (-1 # 1) (EEins "kc,acbijk->abij" [(ESlice (EVar "f_bb") [SV "o"; SV "v"]); (EVar "t3_abbabb")]));
   (*L960*) SAug true "doubles_res" (EScale (-1 # 1) (EEins "kc,cj,abik->abij" [(ESlice (EVar "f_bb") [SV "o"; SV "v"]); (EVar "t1_bb"); (EVar "t2_abab")]));
   (*L963*) SAug true "doubles_res" (EScale (-1 # 1) (EEins "kc,ci,abkj->abij" [(ESlice (EVar "f_aa") [SV "o"; SV "v"]); (EVar "t1_aa"); (EVar "t2_abab")]));
   (*L966*) SAug true "doubles_res" (EScale (-1 # 1) (EEins "kc,ak,cbij->abij" [(ESlice (EVar "f_aa") [SV "o"; SV "v"]); (EVar "t1_aa"); (EVar "t2_abab")]));
   (*L969*) SAug true "doubles_res" (EScale (-1 # 1) (EEins "kc,bk,acij->abij" [(ESlice (EVar "f_bb") [SV "o"; SV "v"]); (EVar "t1_bb"); (EVar "t2_abab")]));
   (*L972*) SAug true "doubles_res" (EScale (1 # 1) (EEins "abij->abij" [(ESlice (EVar "g_abab") [SV "v"; SV "v"; SV "o"; SV "o"])]));
   (*L975*) SAug true "doubles_res" (EScale (-1 # 1) (EEins "akij,bk->abij" [(ESlice (EVar "g_abab") [SV "v"; SV "o"; SV "o"; SV "o"]); (EVar "t1_bb")]));
   (*L978*) SAug true "doubles_res" (EScale (-1 # 1) (EEins "kbij,ak->abij" [(ESlice (EVar "g_abab") [SV "o"; SV "v"; SV "o"; SV "o"]); (EVar "t1_aa")]));
   (*L981*) SAug true "doubles_res" (EScale (1 # 1) (EEins "abcj,ci->abij" [(ESlice (EVar "g_abab") [SV "v"; SV "v"; SV "v"; SV "o"]); (EVar "t1_aa")]));
   (*L984*) SAug true "doubles_res" (EScale (1 # 1) (EEins "abic,cj->abij" [(ESlice (EVar "g_abab") [SV "v"; SV "v"; SV "o"; SV "v"]); (EVar "t1_bb")]));
   (*L987*) SAug true "doubles_res" (EScale (1 # 2) (EEins "lkij,ablk->abij" [(ESlice (EVar "g_abab") [SV "o"; SV "o"; SV "o"; SV "o"]); (EVar "t2_abab")]));
   (*L990*) SAug true "doubles_res" (EScale (1 # 2) (EEins "klij,abkl->abij" [(ESlice (EVar "g_abab") [SV "o"; SV "o"; SV "o"; SV "o"]); (EVar "t2_abab")]));
   (*L993*) SAug true "doubles_res" (EScale (-1 # 1) (EEins "akcj,cbik->abij" [(ESlice (EVar "g_abab") [SV "v"; SV "o"; SV "v"; SV "o"]); (EVar "t2_abab")]));
   (*L996*) SAug true "doubles_res" (EScale (-1 # 1) (EEins "kbcj,caik->abij" [(ESlice (EVar "g_abab") [SV "o"; SV "v"; SV "v"; SV "o"]); (EVar "t2_aaaa")]));
   (*L999*) SAug true "doubles_res" (EScale (1 # 1) (EEins "kbcj,acik->abij" [(ESlice (EVar "g_bbbb") [SV "o"; SV "v"; SV "v"; SV "o"]); (EVar "t2_abab")]));
   (*L1002*) SAug true "doubles_res" (EScale (1 # 1) (EEins "kaci,cbkj->abij" [(ESlice (EVar "g_aaaa") [SV "o"; SV "v"; SV "v"; SV "o"]); (EVar "t2_abab")]));
   (*L1005*) SAug true "doubles_res" (EScale (-1 # 1) (EEins "akic,cbjk->abij" [(ESlice (EVar "g_abab") [SV "v"; SV "o"; SV "o"; SV "v"]); (EVar "t2_bbbb")]));
   (*L1008*) SAug true "doubles_res" (EScale (-1 # 1) (EEins "kbic,ackj->abij" [(ESlice (EVar "g_abab") [SV "o"; SV "v"; SV "o"; SV "v"]); (EVar "t2_abab")]));
   (*L1011*) SAug true "doubles_res" (EScale (1 # 2) (EEins "abcd,cdij->abij" [(ESlice (EVar "g_abab") [SV "v"; SV "v"; SV "v"; SV "v"]); (EVar "t2_abab")]));
   (*L1014*) SAug true "doubles_res" (EScale (1 # 2) (EEins "abdc,dcij->abij" [(ESlice (EVar "g_abab") [SV "v"; SV "v"; SV "v"; SV "v"]); (EVar "t2_abab")]));
   (*L1017*) SAug true "doubles_res" (EScale (1 # 2) (EEins "lkcj,cabilk->abij" [(ESlice (EVar "g_abab") [SV "o"; SV "o"; SV "v"; SV "o"]); (EVar "t3_aabaab")]));
   (*L1020*) SAug true "doubles_res" (EScale (1 # 2) (EEins "klcj,cabikl->abij" [(ESlice (EVar "g_abab") [SV "o"; SV "o"; SV "v"; SV "o"]); (EVar "t3_aabaab")]));
   (*L1023*) SAug true "doubles_res" (EScale (-1 # 2) (EEins "lkcj,acbilk->abij" [(ESlice (EVar "g_bbbb") [SV "o"; SV "o"; SV "v"; SV "o"]); (EVar "t3_abbabb")]));
   (*L1026*) SAug true "doubles_res" (EScale (1 # 2) (EEins "lkci,cabklj->abij" [(ESlice (EVar "g_aaaa") [SV "o"; SV "o"; SV "v"; SV "o"]); (EVar "t3_aabaab")]));
   (*L1029*) SAug true "doubles_res" (EScale (1 # 2) (EEins "lkic,acbljk->abij" [(ESlice (EVar "g_abab") [SV "o"; SV "o"; SV "o"; SV "v"]); (EVar "t3_abbabb")]));
   (*L1032*) SAug true "doubles_res" (EScale (-1 # 2) (EEins "klic,acbklj->abij" [(ESlice (EVar "g_abab") [SV "o"; SV "o"; SV "o"; SV "v"]); (EVar "t3_abbabb")]));
   (*L1035*) SAug true "doubles_res" (EScale (-1 # 2) (EEins "kacd,cdbikj->abij" [(ESlice (EVar "g_aaaa") [SV "o"; SV "v"; SV "v"; SV "v"]); (EVar "t3_aabaab")]));
   (*L1038*) SAug true "doubles_res" (EScale (-1 # 2) (EEins "akcd,cdbijk->abij" [(ESlice (EVar "g_abab") [SV "v"; SV "o"; SV "v"; SV "v"]); (EVar "t3_abbabb")]));
   (*L1041*) SAug true "doubles_res" (EScale (-1 # 2) (EEins "akdc,dcbijk->abij" [(ESlice (EVar "g_abab") [SV "v"; SV "o"; SV "v"; SV "v"]); (EVar "t3_abbabb")]));
   (*L1044*) SAug true "doubles_res" (EScale (-1 # 2) (EEins "kbcd,cadikj->abij" [(ESlice (EVar "g_abab") [SV "o"; SV "v"; SV "v"; SV "v"]); (EVar "t3_aabaab")]));
   (*L1047*) SAug true "doubles_res" (EScale (1 # 2) (EEins "kbdc,adcikj->abij" [(ESlice (EVar "g_abab") [SV "o"; SV "v"; SV "v"; SV "v"]); (EVar "t3_aabaab")]));
   (*L1050*) SAug true "doubles_res" (EScale (1 # 2) (EEins "kbcd,adcijk->abij" [(ESlice (EVar "g_bbbb") [SV "o"; SV "v"; SV "v"; SV "v"]); (EVar "t3_abbabb")]));
   (*L1053*) SAug true "doubles_res" (EScale (-1 # 1) (EEins "klcj,ck,abil->abij" [(ESlice (EVar "g_abab") [SV "o"; SV "o"; SV "v"; SV "o"]); (EVar "t1_aa"); (EVar "t2_abab")]));
   (*L1056*) SAug true "doubles_res" (EScale (1 # 1) (EEins "lkcj,ck,abil->abij" [(ESlice (EVar "g_bbbb") [SV "o"; SV "o"; SV "v"; SV "o"]); (EVar "t1_bb"); (EVar "t2_abab")]));
   (*L1059*) SAug true "doubles_res" (EScale (1 # 1) (EEins "lkci,ck,ablj->abij" [(ESlice (EVar "g_aaaa") [SV "o"; SV "o"; SV "v"; SV "o"]); (EVar "t1_aa"); (EVar "t2_abab")]));
   (*L1062*) SAug true "doubles_res" (EScale (-1 # 1) (EEins "lkic,ck,ablj->abij" [(ESlice (EVar "g_abab") [SV "o"; SV "o"; SV "o"; SV "v"]); (EVar "t1_bb"); (EVar "t2_abab")]));
   (*L1065*) SAug true "doubles_res" (EScale (1 # 2) (EEins "lkcj,ci,ablk->abij" [(ESlice (EVar "g_abab") [SV "o"; SV "o"; SV "v"; SV "o"]); (EVar "t1_aa"); (EVar "t2_abab")]));
   (*L1068*) SAug true "doubles_res" (EScale (1 # 2) (EEins "klcj,ci,abkl->abij" [(ESlice (EVar "g_abab") [SV "o"; SV "o"; SV "v"; SV "o"]); (EVar "t1_aa"); (EVar "t2_abab")]));
   (*L1071*) SAug true "doubles_res" (EScale (1 # 2) (EEins "lkic,cj,ablk->abij" [(ESlice (EVar "g_abab") [SV "o"; SV "o"; SV "o"; SV "v"]); (EVar "t1_bb"); (EVar "t2_abab")]));
   (*L1074*) SAug true "doubles_res" (EScale (1 # 2) (EEins "klic,cj,abkl->abij" [(ESlice (EVar "g_abab") [SV "o"; SV "o"; SV "o"; SV "v"]); (EVar "t1_bb"); (EVar "t2_abab")]));
   (*L1077*) SAug true "doubles_res" (EScale (1 # 1) (EEins "klcj,ak,cbil->abij" [(ESlice (EVar "g_abab") [SV "o"; SV "o"; SV "v"; SV "o"]); (EVar "t1_aa"); (EVar "t2_abab")]));
   (*L1080*) SAug true "doubles_res" (EScale (1 # 1) (EEins "lkcj,bk,cail->abij" [(ESlice (EVar "g_abab") [SV "o"; SV "o"; SV "v"; SV "o"]); (EVar "t1_bb"); (EVar "t2_aaaa")]));
   (*L1083*) SAug true "doubles_res" (EScale (-1 # 1) (EEins "lkcj,bk,acil->abij" [(ESlice (EVar "g_bbbb") [SV "o"; SV "o"; SV "v"; SV "o"]); (EVar "t1_bb"); (EVar "t2_abab")]));
   (*L1086*) SAug true "doubles_res" (EScale (-1 # 1) (EEins "lkci,ak,cblj->abij" [(ESlice (EVar "g_aaaa") [SV "o"; SV "o"; SV "v"; SV "o"]); (EVar "t1_aa"); (EVar "t2_abab")]));
   (*L1089*) SAug true "doubles_res" (EScale (1 # 1) (EEins "klic,ak,cbjl->abij" [(ESlice (EVar "g_abab") [SV "o"; SV "o"; SV "o"; SV "v"]); (EVar "t1_aa"); (EVar "t2_bbbb")]));
   (*L1092*) SAug true "doubles_res" (EScale (1 # 1) (EEins "lkic,bk,aclj->abij" [(ESlice (EVar "g_abab") [SV "o"; SV "o"; SV "o"; SV "v"]); (EVar "t1_bb"); (EVar "t2_abab")]));
   (*L1095*) SAug true "doubles_res" (EScale (1 # 1) (EEins "kacd,ck,dbij->abij" [(ESlice (EVar "g_aaaa") [SV "o"; SV "v"; SV "v"; SV "v"]); (EVar "t1_aa"); (EVar "t2_abab")]));
   (*L1098*) SAug true "doubles_res" (EScale (1 # 1) (EEins "akdc,ck,dbij->abij" [(ESlice (EVar "g_abab") [SV "v"; SV "o"; SV "v"; SV "v"]); (EVar "t1_bb"); (EVar "t2_abab")]));
   (*L1101*) SAug true "doubles_res" (EScale (1 # 1) (EEins "kbcd,ck,adij->abij" [(ESlice (EVar "g_abab") [SV "o"; SV "v"; SV "v"; SV "v"]); (EVar "t1_aa"); (EVar "t2_abab")]));
   (*L1104*) SAug true "doubles_res" (EScale (1 # 1) (EEins "kbcd,ck,adij->abij" [(ESlice (EVar "g_bbbb") [SV "o"; SV "v"; SV "v"; SV "v"]); (EVar "t1_bb"); (EVar "t2_abab")]));
   (*L1107*) SAug true "doubles_res" (EScale (-1 # 1) (EEins "akdc,cj,dbik->abij" [(ESlice (EVar "g_abab") [SV "v"; SV "o"; SV "v"; SV "v"]); (EVar "t1_bb"); (EVar "t2_abab")]));
   (*L1110*) SAug true "doubles_res" (EScale (-1 # 1) (EEins "kbdc,cj,daik->abij" [(ESlice (EVar "g_abab") [SV "o"; SV "v"; SV "v"; SV "v"]); (EVar "t1_bb"); (EVar "t2_aaaa")]));
   (*L1113*) SAug true "doubles_res" (EScale (-1 # 1) (EEins "kbcd,cj,adik->abij" [(ESlice (EVar "g_bbbb") [SV "o"; SV "v"; SV "v"; SV "v"]); (EVar "t1_bb"); (EVar "t2_abab")]));
   (*L1116*) SAug true "doubles_res" (EScale (-1 # 1) (EEins "kacd,ci,dbkj->abij" [(ESlice (EVar "g_aaaa") [SV "o"; SV "v"; SV "v"; SV "v"]); (EVar "t1_aa"); (EVar "t2_abab")]));
   (*L1119*) SAug true "doubles_res" (EScale (-1 # 1) (EEins "akcd,ci,dbjk->abij" [(ESlice (EVar "g_abab") [SV "v"; SV "o"; SV "v"; SV "v"]); (EVar "t1_aa"); (EVar "t2_bbbb")]));
   (*L1122*) SAug true "doubles_res" (EScale (-1 # 1) (EEins "kbcd,ci,adkj->abij" [(ESlice (EVar "g_abab") [SV "o"; SV "v"; SV "v"; SV "v"]); (EVar "t1_aa"); (EVar "t2_abab")]));
   (*L1125*) SAug true "doubles_res" (EScale (-1 # 2) (EEins "akcd,bk,cdij->abij" [(ESlice (EVar "g_abab") [SV "v"; SV "o"; SV "v"; SV "v"]); (EVar "t1_bb"); (EVar "t2_abab")]));
   (*L1128*) SAug true "doubles_res" (EScale (-1 # 2) (EEins "akdc,bk,dcij->abij" [(ESlice (EVar "g_abab") [SV "v"; SV "o"; SV "v"; SV "v"]); (EVar "t1_bb"); (EVar "t2_abab")]));
   (*L1131*) SAug true "doubles_res" (EScale (-1 # 2) (EEins "kbcd,ak,cdij->abij" [(ESlice (EVar "g_abab") [SV "o"; SV "v"; SV "v"; SV "v"]); (EVar "t1_aa"); (EVar "t2_abab")]));
   (*L1134*) SAug true "doubles_res" (EScale (-1 # 2) (EEins "kbdc,ak,dcij->abij" [(ESlice (EVar "g_abab") [SV "o"; SV "v"; SV "v"; SV "v"]); (EVar "t1_aa"); (EVar "t2_abab")]));
   (*L1137*) SAug true "doubles_res" (EScale (1 # 1) (EEins "lkcd,ck,dabilj->abij" [(ESlice (EVar "g_aaaa") [SV "o"; SV "o"; SV "v"; SV "v"]); (EVar "t1_aa"); (EVar "t3_aabaab")]));
   (*L1140*) SAug true "doubles_res" (EScale (-1 # 1) (EEins "klcd,ck,adbijl->abij" [(ESlice (EVar "g_abab") [SV "o"; SV "o"; SV "v"; SV "v"]); (EVar "t1_aa"); (EVar "t3_abbabb")]));
   (*L1143*) SAug true "doubles_res" (EScale (-1 # 1) (EEins "lkdc,ck,dabilj->abij" [(ESlice (EVar "g_abab") [SV "o"; SV "o"; SV "v"; SV "v"]); (EVar "t1_bb"); (EVar "t3_aabaab")]));
   (*L1146*) SAug true "doubles_res" (EScale (1 # 1) (EEins "lkcd,ck,adbijl->abij" [(ESlice (EVar "g_bbbb") [SV "o"; SV "o"; SV "v"; SV "v"]); (EVar "t1_bb"); (EVar "t3_abbabb")]));
   (*L1149*) SAug true "doubles_res" (EScale (1 # 2) (EEins "lkdc,cj,dabilk->abij" [(ESlice (EVar "g_abab") [SV "o"; SV "o"; SV "v"; SV "v"]); (EVar "t1_bb"); (EVar "t3_aabaab")]));
   (*L1152*) SAug true "doubles_res" (EScale (1 # 2) (EEins "kldc,cj,dabikl->abij" [(ESlice (EVar "g_abab") [SV "o"; SV "o"; SV "v"; SV "v"]); (EVar "t1_bb"); (EVar "t3_aabaab")]));
   (*L1155*) SAug true "doubles_res" (EScale (1 # 2) (EEins "lkcd,cj,adbilk->abij" [(ESlice (EVar "g_bbbb") [SV "o"; SV "o"; SV "v"; SV "v"]); (EVar "t1_bb"); (EVar "t3_abbabb")]));
   (*L1158*) SAug true "doubles_res" (EScale (-1 # 2) (EEins "lkcd,ci,dabklj->abij" [(ESlice (EVar "g_aaaa") [SV "o"; SV "o"; SV "v"; SV "v"]); (EVar "t1_aa"); (EVar "t3_aabaab")]));
   (*L1161*) SAug true "doubles_res" (EScale (1 # 2) (EEins "lkcd,ci,adbljk->abij" [(ESlice (EVar "g_abab") [SV "o"; SV "o"; SV "v"; SV "v"]); (EVar "t1_aa"); (EVar "t3_abbabb")]));
   (*L1164*) SAug true "doubles_res" (EScale (-1 # 2) (EEins "klcd,ci,adbklj->abij" [(ESlice (EVar "g_abab") [SV "o"; SV "o"; SV "v"; SV "v"]); (EVar "t1_aa"); (EVar "t3_abbabb")]));
   (*L1167*) SAug true "doubles_res" (EScale (1 # 2) (EEins "lkcd,ak,cdbilj->abij" [(ESlice (EVar "g_aaaa") [SV "o"; SV "o"; SV "v"; SV "v"]); (EVar "t1_aa"); (EVar "t3_aabaab")]));
   (*L1170*) SAug true "doubles_res" (EScale (1 # 2) (EEins "klcd,ak,cdbijl->abij" [(ESlice (EVar "g_abab") [SV "o"; SV "o"; SV "v"; SV "v"]); (EVar "t1_aa"); (EVar "t3_abbabb")]));
   (*L1173*) SAug true "doubles_res" (EScale (1 # 2) (EEins "kldc,ak,dcbijl->abij" [(ESlice (EVar "g_abab") [SV "o"; SV "o"; SV "v"; SV "v"]); (EVar "t1_aa"); (EVar "t3_abbabb")]));
   (*L1176*) SAug true "doubles_res" (EScale (1 # 2) (EEins "lkcd,bk,cadilj->abij" [(ESlice (EVar "g_abab") [SV "o"; SV "o"; SV "v"; SV "v"]); (EVar "t1_bb"); (EVar "t3_aabaab")]));
   (*L1179*) SAug true "doubles_res" (EScale (-1 # 2) (EEins "lkdc,bk,adcilj->abij" [(ESlice (EVar "g_abab") [SV "o"; SV "o"; SV "v"; SV "v"]); (EVar "t1_bb"); (EVar "t3_aabaab")]));
   (*L1182*) SAug true "doubles_res" (EScale (-1 # 2) (EEins "lkcd,bk,adcijl->abij" [(ESlice (EVar "g_bbbb") [SV "o"; SV "o"; SV "v"; SV "v"]); (EVar "t1_bb"); (EVar "t3_abbabb")]));
   (*L1185*) SAug true "doubles_res" (EScale (1 # 1) (EEins "klij,ak,bl->abij" [(ESlice (EVar "g_abab") [SV "o"; SV "o"; SV "o"; SV "o"]); (EVar "t1_aa"); (EVar "t1_bb")]));
   (*L1188*) SAug true "doubles_res" (EScale (-1 # 1) (EEins "akcj,ci,bk->abij" [(ESlice (EVar "g_abab") [SV "v"; SV "o"; SV "v"; SV "o"]); (EVar "t1_aa"); (EVar "t1_bb")]));
   (*L1191*) SAug true "doubles_res" (EScale (-1 # 1) (EEins "kbcj,ci,ak->abij" [(ESlice (EVar "g_abab") [SV "o"; SV "v"; SV "v"; SV "o"]); (EVar "t1_aa"); (EVar "t1_aa")]));
   (*L1194*) SAug true "doubles_res" (EScale (-1 # 1) (EEins "akic,cj,bk->abij" [(ESlice (EVar "g_abab") [SV "v"; SV "o"; SV "o"; SV "v"]); (EVar "t1_bb"); (EVar "t1_bb")]));
   (*L1197*) SAug true "doubles_res" (EScale (-1 # 1) (EEins "kbic,cj,ak->abij" [(ESlice (EVar "g_abab") [SV "o"; SV "v"; SV "o"; SV "v"]); (EVar "t1_bb"); (EVar "t1_aa")]));
   (*L1200*) SAug true "doubles_res" (EScale (1 # 1) (EEins "abdc,cj,di->abij" [(ESlice (EVar "g_abab") [SV "v"; SV "v"; SV "v"; SV "v"]); (EVar "t1_bb"); (EVar "t1_aa")]));
   (*L1203*) SAug true "doubles_res" (EScale (-1 # 2) (EEins "klcd,cdkj,abil->abij" [(ESlice (EVar "g_abab") [SV "o"; SV "o"; SV "v"; SV "v"]); (EVar "t2_abab"); (EVar "t2_abab")]));
   (*L1206*) SAug true "doubles_res" (EScale (-1 # 2) (EEins "kldc,dckj,abil->abij" [(ESlice (EVar "g_abab") [SV "o"; SV "o"; SV "v"; SV "v"]); (EVar "t2_abab"); (EVar "t2_abab")]));
   (*L1209*) SAug true "doubles_res" (EScale (-1 # 2) (EEins "lkcd,cdjk,abil->abij" [(ESlice (EVar "g_bbbb") [SV "o"; SV "o"; SV "v"; SV "v"]); (EVar "t2_bbbb"); (EVar "t2_abab")]));
   (*L1212*) SAug true "doubles_res" (EScale (-1 # 2) (EEins "lkcd,cdik,ablj->abij" [(ESlice (EVar "g_aaaa") [SV "o"; SV "o"; SV "v"; SV "v"]); (EVar "t2_aaaa"); (EVar "t2_abab")]));
   (*L1215*) SAug true "doubles_res" (EScale (-1 # 2) (EEins "lkcd,cdik,ablj->abij" [(ESlice (EVar "g_abab") [SV "o"; SV "o"; SV "v"; SV "v"]); (EVar "t2_abab"); (EVar "t2_abab")]));
   (*L1218*) SAug true "doubles_res" (EScale (-1 # 2) (EEins "lkdc,dcik,ablj->abij" [(ESlice (EVar "g_abab") [SV "o"; SV "o"; SV "v"; SV "v"]); (EVar "t2_abab"); (EVar "t2_abab")]));
   (*L1221*) SAug true "doubles_res" (EScale (1 # 4) (EEins "lkcd,cdij,ablk->abij" [(ESlice (EVar "g_abab") [SV "o"; SV "o"; SV "v"; SV "v"]); (EVar "t2_abab"); (EVar "t2_abab")]));
   (*L1224*) SAug true "doubles_res" (EScale (1 # 4) (EEins "klcd,cdij,abkl->abij" [(ESlice (EVar "g_abab") [SV "o"; SV "o"; SV "v"; SV "v"]); (EVar "t2_abab"); (EVar "t2_abab")]));
   (*L1227*) SAug true "doubles_res" (EScale (1 # 4) (EEins "lkdc,dcij,ablk->abij" [(ESlice (EVar "g_abab") [SV "o"; SV "o"; SV "v"; SV "v"]); (EVar "t2_abab"); (EVar "t2_abab")]));
   (*L1230*) SAug true "doubles_res" (EScale (1 # 4) (EEins "kldc,dcij,abkl->abij" [(ESlice (EVar "g_abab") [SV "o"; SV "o"; SV "v"; SV "v"]); (EVar "t2_abab"); (EVar "t2_abab")]));
   (*L1233*) SAug true "doubles_res" (EScale (-1 # 2) (EEins "lkcd,calk,dbij->abij" [(ESlice (EVar "g_aaaa") [SV "o"; SV "o"; SV "v"; SV "v"]); (EVar "t2_aaaa"); (EVar "t2_abab")]));
   (*L1236*) SAug true "doubles_res" (EScale (-1 # 2) (EEins "lkdc,aclk,dbij->abij" [(ESlice (EVar "g_abab") [SV "o"; SV "o"; SV "v"; SV "v"]); (EVar "t2_abab"); (EVar "t2_abab")]));
   (*L1239*) SAug true "doubles_res" (EScale (-1 # 2) (EEins "kldc,ackl,dbij->abij" [(ESlice (EVar "g_abab") [SV "o"; SV "o"; SV "v"; SV "v"]); (EVar "t2_abab"); (EVar "t2_abab")]));
   (*L1242*) SAug true "doubles_res" (EScale (1 # 1) (EEins "kldc,ackj,dbil->abij" [(ESlice (EVar "g_abab") [SV "o"; SV "o"; SV "v"; SV "v"]); (EVar "t2_abab"); (EVar "t2_abab")]));
   (*L1245*) SAug true "doubles_res" (EScale (1 # 1) (EEins "lkcd,caik,dblj->abij" [(ESlice (EVar "g_aaaa") [SV "o"; SV "o"; SV "v"; SV "v"]); (EVar "t2_aaaa"); (EVar "t2_abab")]));
   (*L1248*) SAug true "doubles_res" (EScale (1 # 1) (EEins "klcd,caik,dbjl->abij" [(ESlice (EVar "g_abab") [SV "o"; SV "o"; SV "v"; SV "v"]); (EVar "t2_aaaa"); (EVar "t2_bbbb")]));
   (*L1251*) SAug true "doubles_res" (EScale (1 # 1) (EEins "lkdc,acik,dblj->abij" [(ESlice (EVar "g_abab") [SV "o"; SV "o"; SV "v"; SV "v"]); (EVar "t2_abab"); (EVar "t2_abab")]));
   (*L1254*) SAug true "doubles_res" (EScale (1 # 1) (EEins "lkcd,acik,dbjl->abij" [(ESlice (EVar "g_bbbb") [SV "o"; SV "o"; SV "v"; SV "v"]); (EVar "t2_abab"); (EVar "t2_bbbb")]));
   (*L1257*) SAug true "doubles_res" (EScale (-1 # 2) (EEins "lkdc,acij,dblk->abij" [(ESlice (EVar "g_abab") [SV "o"; SV "o"; SV "v"; SV "v"]); (EVar "t2_abab"); (EVar "t2_abab")]));
   (*L1260*) SAug true "doubles_res" (EScale (-1 # 2) (EEins "kldc,acij,dbkl->abij" [(ESlice (EVar "g_abab") [SV "o"; SV "o"; SV "v"; SV "v"]); (EVar "t2_abab"); (EVar "t2_abab")]));
   (*L1263*) SAug true "doubles_res" (EScale (1 # 2) (EEins "lkcd,acij,dblk->abij" [(ESlice (EVar "g_bbbb") [SV "o"; SV "o"; SV "v"; SV "v"]); (EVar "t2_abab"); (EVar "t2_bbbb")]));
   (*L1266*) SAug true "doubles_res" (EScale (-1 # 1) (EEins "klcd,ck,dj,abil->abij" [(ESlice (EVar "g_abab") [SV "o"; SV "o"; SV "v"; SV "v"]); (EVar "t1_aa"); (EVar "t1_bb"); (EVar "t2_abab")]));
   (*L1269*) SAug true "doubles_res" (EScale (1 # 1) (EEins "lkcd,ck,dj,abil->abij" [(ESlice (EVar "g_bbbb") [SV "o"; SV "o"; SV "v"; SV "v"]); (EVar "t1_bb"); (EVar "t1_bb"); (EVar "t2_abab")]));
   (*L1272*) SAug true "doubles_res" (EScale (1 # 1) (EEins "lkcd,ck,di,ablj->abij" [(ESlice (EVar "g_aaaa") [SV "o"; SV "o"; SV "v"; SV "v"]); (EVar "t1_aa"); (EVar "t1_aa"); (EVar "t2_abab")]));
   (*L1275*) SAug true "doubles_res" (EScale (-1 # 1) (EEins "lkdc,ck,di,ablj->abij" [(ESlice (EVar "g_abab") [SV "o"; SV "o"; SV "v"; SV "v"]); (EVar "t1_bb"); (EVar "t1_aa"); (EVar "t2_abab")]));
   (*L1278*) SAug true "doubles_res" (EScale (1 # 1) (EEins "lkcd,ck,al,dbij->abij" [(ESlice (EVar "g_aaaa") [SV "o"; SV "o"; SV "v"; SV "v"]); (EVar "t1_aa"); (EVar "t1_aa"); (EVar "t2_abab")]));
   (*L1281*) SAug true "doubles_res" (EScale (-1 # 1) (EEins "lkdc,ck,al,dbij->abij" [(ESlice (EVar "g_abab") [SV "o"; SV "o"; SV "v"; SV "v"]); (EVar "t1_bb"); (EVar "t1_aa"); (EVar "t2_abab")]));
   (*L1284*) SAug true "doubles_res" (EScale (-1 # 1) (EEins "klcd,ck,bl,adij->abij" [(ESlice (EVar "g_abab") [SV "o"; SV "o"; SV "v"; SV "v"]); (EVar "t1_aa"); (EVar "t1_bb"); (EVar "t2_abab")]));
   (*L1287*) SAug true "doubles_res" (EScale (1 # 1) (EEins "lkcd,ck,bl,adij->abij" [(ESlice (EVar "g_bbbb") [SV "o"; SV "o"; SV "v"; SV "v"]); (EVar "t1_bb"); (EVar "t1_bb"); (EVar "t2_abab")]));
   (*L1290*) SAug true "doubles_res" (EScale (1 # 2) (EEins "lkdc,cj,di,ablk->abij" [(ESlice (EVar "g_abab") [SV "o"; SV "o"; SV "v"; SV "v"]); (EVar "t1_bb"); (EVar "t1_aa"); (EVar "t2_abab")]));
   (*L1293*) SAug true "doubles_res" (EScale (1 # 2) (EEins "kldc,cj,di,abkl->abij" [(ESlice (EVar "g_abab") [SV "o"; SV "o"; SV "v"; SV "v"]); (EVar "t1_bb"); (EVar "t1_aa"); (EVar "t2_abab")]));
   (*L1296*) SAug true "doubles_res" (EScale (1 # 1) (EEins "kldc,cj,ak,dbil->abij" [(ESlice (EVar "g_abab") [SV "o"; SV "o"; SV "v"; SV "v"]); (EVar "t1_bb"); (EVar "t1_aa"); (EVar "t2_abab")]));
   (*L1299*) SAug true "doubles_res" (EScale (1 # 1) (EEins "lkdc,cj,bk,dail->abij" [(ESlice (EVar "g_abab") [SV "o"; SV "o"; SV "v"; SV "v"]); (EVar "t1_bb"); (EVar "t1_bb"); (EVar "t2_aaaa")]));
   (*L1302*) SAug true "doubles_res" (EScale (1 # 1) (EEins "lkcd,cj,bk,adil->abij" [(ESlice (EVar "g_bbbb") [SV "o"; SV "o"; SV "v"; SV "v"]); (EVar "t1_bb"); (EVar "t1_bb"); (EVar "t2_abab")]));
   (*L1305*) SAug true "doubles_res" (EScale (1 # 1) (EEins "lkcd,ci,ak,dblj->abij" [(ESlice (EVar "g_aaaa") [SV "o"; SV "o"; SV "v"; SV "v"]); (EVar "t1_aa"); (EVar "t1_aa"); (EVar "t2_abab")]));
   (*L1308*) SAug true "doubles_res" (EScale (1 # 1) (EEins "klcd,ci,ak,dbjl->abij" [(ESlice (EVar "g_abab") [SV "o"; SV "o"; SV "v"; SV "v"]); (EVar "t1_aa"); (EVar "t1_aa"); (EVar "t2_bbbb")]));
   (*L1311*) SAug true "doubles_res" (EScale (1 # 1) (EEins "lkcd,ci,bk,adlj->abij" [(ESlice (EVar "g_abab") [SV "o"; SV "o"; SV "v"; SV "v"]); (EVar "t1_aa"); (EVar "t1_bb"); (EVar "t2_abab")]));
   (*L1314*) SAug true "doubles_res" (EScale (1 # 2) (EEins "klcd,ak,bl,cdij->abij" [(ESlice (EVar "g_abab") [SV "o"; SV "o"; SV "v"; SV "v"]); (EVar "t1_aa"); (EVar "t1_bb"); (EVar "t2_abab")]));
   (*L1317*) SAug true "doubles_res" (EScale (1 # 2) (EEins "kldc,ak,bl,dcij->abij" [(ESlice (EVar "g_abab") [SV "o"; SV "o"; SV "v"; SV "v"]); (EVar "t1_aa"); (EVar "t1_bb"); (EVar "t2_abab")]));
   (*L1320*) SAug true "doubles_res" (EScale (1 # 1) (EEins "klcj,ci,ak,bl->abij" [(ESlice (EVar "g_abab") [SV "o"; SV "o"; SV "v"; SV "o"]); (EVar "t1_aa"); (EVar "t1_aa"); (EVar "t1_bb")]));
   (*L1323*) SAug true "doubles_res" (EScale (1 # 1) (EEins "klic,cj,ak,bl->abij" [(ESlice (EVar "g_abab") [SV "o"; SV "o"; SV "o"; SV "v"]); (EVar "t1_bb"); (EVar "t1_aa"); (EVar "t1_bb")]));
   (*L1326*) SAug true "doubles_res" (EScale (-1 # 1) (EEins "akdc,cj,di,bk->abij" [(ESlice (EVar "g_abab") [SV "v"; SV "o"; SV "v"; SV "v"]); (EVar "t1_bb"); (EVar "t1_aa"); (EVar "t1_bb")]));
   (*L1329*) SAug true "doubles_res" (EScale (-1 # 1) (EEins "kbdc,cj,di,ak->abij" [(ESlice (EVar "g_abab") [SV "o"; SV "v"; SV "v"; SV "v"]); (EVar "t1_bb"); (EVar "t1_aa"); (EVar "t1_aa")]));
   (*L1332*) SAug true "doubles_res" (EScale (1 # 1) (EEins "kldc,cj,di,ak,bl->abij" [(ESlice (EVar "g_abab") [SV "o"; SV "o"; SV "v"; SV "v"]); (EVar "t1_bb"); (EVar "t1_aa"); (EVar "t1_aa"); (EVar "t1_bb")]))]
  (*L1334*) (EVar "doubles_res").

(** /repo/UT2/fullCCresidEqns.py:1340-2346  def ccsdt_t3_aaaaaa_residual *)
Definition ccsdt_t3_aaaaaa_residual : fn := mkFn
  ["t1_aa"; "t1_bb"; "t2_aaaa"; "t2_bbbb"; "t2_abab"; "t3_aaaaaa"; "t3_aabaab"; "t3_abbabb"; "t3_bbbbbb"; "f_aa"; "f_bb"; "g_aaaa"; "g_bbbb"; "g_abab"; "oa"; "ob"; "va"; "vb"]
  [(*L1344*) SAssign "o" (EVar "oa");
   (*L1345*) SAssign "v" (EVar "va");
   (*L1348*) SAssign "contracted_intermediate" (EScale (-1 # 1) (EEins "lk,abcijl->abcijk" [(ESlice (EVar "f_aa") [SV "o"; SV "o"]); (EVar "t3_aaaaaa")]));
   (*L1349*) SAssign "triples_res" (EAdd (EScale (1 # 1) (EVar "contracted_intermediate")) (EScale (-1 # 1) (EEins "abcijk->abcikj" [(EVar "contracted_intermediate")])));
   (*L1352*) SAug true "triples_res" (EScale (-1 # 1) (EEins "li,abcjkl->abcijk" [(ESlice (EVar "f_aa") [SV "o"; SV "o"]); (EVar "t3_aaaaaa")]));
   (*L1355*) SAssign "contracted_intermediate" (EScale (1 # 1) (EEins "ad,dbcijk->abcijk" [(ESlice (EVar "f_aa") [SV "v"; SV "v"]); (EVar "t3_aaaaaa")]));
   (*L1356*) SAug true "triples_res" (EAdd (EScale (1 # 1) (EVar "contracted_intermediate")) (EScale (-1 # 1) (EEins "abcijk->bacijk" [(EVar "contracted_intermediate")])));
   (*L1359*) SAug true "triples_res" (EScale (1 # 1) (EEins "cd,dabijk->abcijk" [(ESlice (EVar "f_aa") [SV "v"; SV "v"]); (EVar "t3_aaaaaa")]));
   (*L1362*) SAssign "contracted_intermediate" (EScale (-1 # 1) (EEins "ld,dk,abcijl->abcijk" [(ESlice (EVar "f_aa") [SV "o"; SV "v"]); (EVar "t1_aa"); (EVar "t3_aaaaaa")]));
   (*L1363*) SAug true "triples_res" (EAdd (EScale (1 # 1) (EVar "contracted_intermediate")) (EScale (-1 # 1) (EEins "abcijk->abcikj" [(EVar "contracted_intermediate")])));
   (*L1366*) SAug true "triples_res" (EScale (-1 # 1) (EEins "ld,di,abcjkl->abcijk" [(ESlice (EVar "f_aa") [SV "o"; SV "v"]); (EVar "t1_aa"); (EVar "t3_aaaaaa")]));
   (*L1369*) SAssign "contracted_intermediate" (EScale (-1 # 1) (EEins "ld,al,dbcijk->abcijk" [(ESlice (EVar "f_aa") [SV "o"; SV "v"]); (EVar "t1_aa"); (EVar "t3_aaaaaa")]));
   (*L1370*) SAug true "triples_res" (EAdd (EScale (1 # 1) (EVar "contracted_intermediate")) (EScale (-1 # 1) (EEins "abcijk->bacijk" [(EVar "contracted_intermediate")])));
   (*L1373*) SAug true "triples_res" (EScale (-1 # 1) (EEins "ld,cl,dabijk->abcijk" [(ESlice (EVar "f_aa") [SV "o"; SV "v"]); (EVar "t1_aa"); (EVar "t3_aaaaaa")]));
   (*L1376*) SAssign "contracted_intermediate" (EScale (-1 # 1) (EEins "ld,dajk,bcil->abcijk" [(ESlice (EVar "f_aa") [SV "o"; SV "v"]); (EVar "t2_aaaa"); (EVar "t2_aaaa")]));
   (*L1377*) SAug true "triples_res" (EAdd (EAdd (EAdd (EScale (1 # 1) (EVar "contracted_intermediate")) (EScale (-1 # 1) (EEins "abcijk->abcjik" [(EVar "contracted_intermediate")]))) (EScale (-1 # 1) (EEins "abcijk->bacijk" [(EVar "contracted_intermediate")]))) (EScale (1 # 1) (EEins "abcijk->bacjik" [(EVar "contracted_intermediate")])));
   (*L1380*) SAssign "contracted_intermediate" (EScale (-1 # 1) (EEins "ld,daij,bckl->abcijk" [(ESlice (EVar "f_aa") [SV "o"; SV "v"]); (EVar "t2_aaaa"); (EVar "t2_aaaa")]));
   (*L1381*) SAug true "triples_res" (EAdd (EScale (1 # 1) (EVar "contracted_intermediate")) (EScale (-1 # 1) (EEins "abcijk->bacijk" [(EVar "contracted_intermediate")])));
   (*L1384*) SAssign "contracted_intermediate" (EScale (-1 # 1) (EEins "ld,dcjk,abil->abcijk" [(ESlice (EVar "f_aa") [SV "o"; SV "v"]); (EVar "t2_aaaa"); (EVar "t2_aaaa")]));
   (*L1385*) SAug true "triples_res" (EAdd (EScale (1 # 1) (EVar "contracted_intermediate")) (EScale (-1 # 1) (EEins "abcijk->abcjik" [(EVar "contracted_intermediate")])));
   (*L1388*) SAug true "triples_res" (EScale (-1 # 1) (EEins "ld,dcij,abkl->abcijk" [(ESlice (EVar "f_aa") [SV "o"; SV "v"]); (EVar "t2_aaaa"); (EVar "t2_aaaa")]));
   (*L1391*) SAssign "contracted_intermediate" (EScale (-1 # 1) (EEins "lajk,bcil->abcijk" [(ESlice (EVar "g_aaaa") [SV "o"; SV "v"; SV "o"; SV "o"]); (EVar "t2_aaaa")]));
   (*L1392*) SAug true "triples_res" (EAdd (EAdd (EAdd (EScale (1 # 1) (EVar "contracted_intermediate")) (EScale (-1 # 1) (EEins "abcijk->abcjik" [(EVar "contracted_intermediate")]))) (EScale (-1 # 1) (EEins "abcijk->bacijk" [(EVar "contracted_intermediate")]))) (EScale (1 # 1) (EEins "abcijk->bacjik" [(EVar "contracted_intermediate")])));
   (*L1395*) SAssign "contracted_intermediate" (EScale (-1 # 1) (EEins "laij,bckl->abcijk" [(ESlice (EVar "g_aaaa") [SV "o"; SV "v"; SV "o"; SV "o"]); (EVar "t2_aaaa")]));
   (*L1396*) SAug true "triples_res" (EAdd (EScale (1 # 1) (EVar "contracted_intermediate")) (EScale (-1 # 1) (EEins "abcijk->bacijk" [(EVar "contracted_intermediate")])));
   (*L1399*) SAssign "contracted_intermediate" (EScale (-1 # 1) (EEins "lcjk,abil->abcijk" [(ESlice (EVar "g_aaaa") [SV "o"; SV "v"; SV "o"; SV "o"]); (EVar "t2_aaaa")]));
   (*L1400*) SAug true "triples_res" (EAdd (EScale (1 # 1) (EVar "contracted_intermediate")) (EScale (-1 # 1) (EEins "abcijk->abcjik" [(EVar "contracted_intermediate")])));
   (*L1403*) SAug true "triples_res" (EScale (-1 # 1) (EEins "lcij,abkl->abcijk" [(ESlice (EVar "g_aaaa") [SV "o"; SV "v"; SV "o"; SV "o"]); (EVar "t2_aaaa")]));
   (*L1406*) SAssign "contracted_intermediate" (EScale (-1 # 1) (EEins "abdk,dcij->abcijk" [(ESlice (EVar "g_aaaa") [SV "v"; SV "v"; SV "v"; SV "o"]); (EVar "t2_aaaa")]));
   (*L1407*) SAug true "triples_res" (EAdd (EAdd (EAdd (EScale (1 # 1) (EVar "contracted_intermediate")) (EScale (-1 # 1) (EEins "abcijk->abcikj" [(EVar "contracted_intermediate")]))) (EScale (-1 # 1) (EEins "abcijk->acbijk" [(EVar "contracted_intermediate")]))) (EScale (1 # 1) (EEins "abcijk->acbikj" [(EVar "contracted_intermediate")])));
   (*L1410*) SAssign "contracted_intermediate" (EScale (-1 # 1) (EEins "abdi,dcjk->abcijk" [(ESlice (EVar "g_aaaa") [SV "v"; SV "v"; SV "v"; SV "o"]); (EVar "t2_aaaa")]));
   (*L1411*) SAug true "triples_res" (EAdd (EScale (1 # 1) (EVar "contracted_intermediate")) (EScale (-1 # 1) (EEins "abcijk->acbijk" [(EVar "contracted_intermediate")])));
   (*L1414*) SAssign "contracted_intermediate" (EScale (-1 # 1) (EEins "bcdk,daij->abcijk" [(ESlice (EVar "g_aaaa") [SV "v"; SV "v"; SV "v"; SV "o"]); (EVar "t2_aaaa")]));
   (*L1415*) SAug true "triples_res" (EAdd (EScale (1 # 1) (EVar "contracted_intermediate")) (EScale (-1 # 1) (EEins "abcijk->abcikj" [(EVar "contracted_intermediate")])));
   (*L1418*) SAug true "triples_res" (EScale (-1 # 1) (EEins "bcdi,dajk->abcijk" [(ESlice (EVar "g_aaaa") [SV "v"; SV "v"; SV "v"; SV "o"]); (EVar "t2_aaaa")]));
   (*L1421*) SAssign "contracted_intermediate" (EScale (1 # 2) (EEins "mljk,abciml->abcijk" [(ESlice (EVar "g_aaaa") [SV "o"; SV "o"; SV "o"; SV "o"]); (EVar "t3_aaaaaa")]));
   (*L1422*) SAug true "triples_res" (EAdd (EScale (1 # 1) (EVar "contracted_intermediate")) (EScale (-1 # 1) (EEins "abcijk->abcjik" [(EVar "contracted_intermediate")])));
   (*L1425*) SAug true "triples_res" (EScale (1 # 2) (EEins "mlij,abckml->abcijk" [(ESlice (EVar "g_aaaa") [SV "o"; SV "o"; SV "o"; SV "o"]); (EVar "t3_aaaaaa")]));
   (*L1428*) SAssign "contracted_intermediate" (EScale (1 # 1) (EEins "ladk,dbcijl->abcijk" [(ESlice (EVar "g_aaaa") [SV "o"; SV "v"; SV "v"; SV "o"]); (EVar "t3_aaaaaa")]));
   (*L1429*) SAug true "triples_res" (EAdd (EAdd (EAdd (EScale (1 # 1) (EVar "contracted_intermediate")) (EScale (-1 # 1) (EEins "abcijk->abcikj" [(EVar "contracted_intermediate")]))) (EScale (-1 # 1) (EEins "abcijk->bacijk" [(EVar "contracted_intermediate")]))) (EScale (1 # 1) (EEins "abcijk->bacikj" [(EVar "contracted_intermediate")])));
   (*L1432*) SAssign "contracted_intermediate" (EScale (-1 # 1) (EEins "alkd,cbdijl->abcijk" [(ESlice (EVar "g_abab") [SV "v"; SV "o"; SV "o"; SV "v"]); (EVar "t3_aabaab")]));
   (*L1433*) SAug true "triples_res" (EAdd (EAdd (EAdd (EScale (1 # 1) (EVar "contracted_intermediate")) (EScale (-1 # 1) (EEins "abcijk->abcikj" [(EVar "contracted_intermediate")]))) (EScale (-1 # 1) (EEins "abcijk->bacijk" [(EVar "contracted_intermediate")]))) (EScale (1 # 1) (EEins "abcijk->bacikj" [(EVar "contracted_intermediate")])));
   (*L1436*) SAssign "contracted_intermediate" (EScale (1 # 1) (EEins "ladi,dbcjkl->abcijk" [(ESlice (EVar "g_aaaa") [SV "o"; SV "v"; SV "v"; SV "o"]); (EVar "t3_aaaaaa")]));
   (*L1437*) SAug true "triples_res" (EAdd (EScale (1 # 1) (EVar "contracted_intermediate")) (EScale (-1 # 1) (EEins "abcijk->bacijk" [(EVar "contracted_intermediate")])));
   (*L1440*) SAssign "contracted_intermediate" (EScale (-1 # 1) (EEins "alid,cbdjkl->abcijk" [(ESlice (EVar "g_abab") [SV "v"; SV "o"; SV "o"; SV "v"]); (EVar "t3_aabaab")]));
   (*L1441*) SAug true "triples_res" (EAdd (EScale (1 # 1) (EVar "contracted_intermediate")) (EScale (-1 # 1) (EEins "abcijk->bacijk" [(EVar "contracted_intermediate")])));
   (*L1444*) SAssign "contracted_intermediate" (EScale (1 # 1) (EEins "lcdk,dabijl->abcijk" [(ESlice (EVar "g_aaaa") [SV "o"; SV "v"; SV "v"; SV "o"]); (EVar "t3_aaaaaa")]));
   (*L1445*) SAug true "triples_res" (EAdd (EScale (1 # 1) (EVar "contracted_intermediate")) (EScale (-1 # 1) (EEins "abcijk->abcikj" [(EVar "contracted_intermediate")])));
   (*L1448*) SAssign "contracted_intermediate" (EScale (-1 # 1) (EEins "clkd,badijl->abcijk" [(ESlice (EVar "g_abab") [SV "v"; SV "o"; SV "o"; SV "v"]); (EVar "t3_aabaab")]));
   (*L1449*) SAug true "triples_res" (EAdd (EScale (1 # 1) (EVar "contracted_intermediate")) (EScale (-1 # 1) (EEins "abcijk->abcikj" [(EVar "contracted_intermediate")])));
   (*L1452*) SAug true "triples_res" (EScale (1 # 1) (EEins "lcdi,dabjkl->abcijk" [(ESlice (EVar "g_aaaa") [SV "o"; SV "v"; SV "v"; SV "o"]); (EVar "t3_aaaaaa")]));
   (*L1455*) SAug true "triples_res" (EScale (-1 # 1) (EEins "clid,badjkl->abcijk" [(ESlice (EVar "g_abab") [SV "v"; SV "o"; SV "o"; SV "v"]); (EVar "t3_aabaab")]));
   (*L1458*) SAssign "contracted_intermediate" (EScale (1 # 2) (EEins "abde,decijk->abcijk" [(ESlice (EVar "g_aaaa") [SV "v"; SV "v"; SV "v"; SV "v"]); (EVar "t3_aaaaaa")]));
   (*L1459*) SAug true "triples_res" (EAdd (EScale (1 # 1) (EVar "contracted_intermediate")) (EScale (-1 # 1) (EEins "abcijk->acbijk" [(EVar "contracted_intermediate")])));
   (*L1462*) SAug true "triples_res" (EScale (1 # 2) (EEins "bcde,deaijk->abcijk" [(ESlice (EVar "g_aaaa") [SV "v"; SV "v"; SV "v"; SV "v"]); (EVar "t3_aaaaaa")]));
   (*L1465*) SAssign "contracted_intermediate" (EScale (1 # 1) (EEins "mljk,al,bcim->abcijk" [(ESlice (EVar "g_aaaa") [SV "o"; SV "o"; SV "o"; SV "o"]); (EVar "t1_aa"); (EVar "t2_aaaa")]));
   (*L1466*) SAug true "triples_res" (EAdd (EAdd (EAdd (EScale (1 # 1) (EVar "contracted_intermediate")) (EScale (-1 # 1) (EEins "abcijk->abcjik" [(EVar "contracted_intermediate")]))) (EScale (-1 # 1) (EEins "abcijk->bacijk" [(EVar "contracted_intermediate")]))) (EScale (1 # 1) (EEins "abcijk->bacjik" [(EVar "contracted_intermediate")])));
   (*L1469*) SAssign "contracted_intermediate" (EScale (1 # 1) (EEins "mljk,cl,abim->abcijk" [(ESlice (EVar "g_aaaa") [SV "o"; SV "o"; SV "o"; SV "o"]); (EVar "t1_aa"); (EVar "t2_aaaa")]));
   (*L1470*) SAug true "triples_res" (EAdd (EScale (1 # 1) (EVar "contracted_intermediate")) (EScale (-1 # 1) (EEins "abcijk->abcjik" [(EVar "contracted_intermediate")])));
   (*L1473*) SAssign "contracted_intermediate" (EScale (1 # 1) (EEins "mlij,al,bckm->abcijk" [(ESlice (EVar "g_aaaa") [SV "o"; SV "o"; SV "o"; SV "o"]); (EVar "t1_aa"); (EVar "t2_aaaa")]));
   (*L1474*) SAug true "triples_res" (EAdd (EScale (1 # 1) (EVar "contracted_intermediate")) (EScale (-1 # 1) (EEins "abcijk->bacijk" [(EVar "contracted_intermediate")])));
   (*L1477*) SAug true "triples_res" (EScale (1 # 1) (EEins "mlij,cl,abkm->abcijk" [(ESlice (EVar "g_aaaa") [SV "o"; SV "o"; SV "o"; SV "o"]); (EVar "t1_aa"); (EVar "t2_aaaa")]));
   (*L1480*) SAssign "contracted_intermediate" (EScale (-1 # 1) (EEins "ladk,dj,bcil->abcijk" [(ESlice (EVar "g_aaaa") [SV "o"; SV "v"; SV "v"; SV "o"]); (EVar "t1_aa"); (EVar "t2_aaaa")]));
   (*L1481*) SAug true "triples_res" (EAdd (EAdd (EAdd (EScale (1 # 1) (EVar "contracted_intermediate")) (EScale (-1 # 1) (EEins "abcijk->abcjik" [(EVar "contracted_intermediate")]))) (EScale (-1 # 1) (EEins "abcijk->bacijk" [(EVar "contracted_intermediate")]))) (EScale (1 # 1) (EEins "abcijk->bacjik" [(EVar "contracted_intermediate")])));
   (*L1484*) SAssign "contracted_intermediate" (EScale (-1 # 1) (EEins "ladk,bl,dcij->abcijk" [(ESlice (EVar "g_aaaa") [SV "o"; SV "v"; SV "v"; SV "o"]); (EVar "t1_aa"); (EVar "t2_aaaa")]));
   (*L1485*) SAug true "triples_res" (EAdd (EAdd (EAdd (EScale (1 # 1) (EVar "contracted_intermediate")) (EScale (-1 # 1) (EEins "abcijk->abcikj" [(EVar "contracted_intermediate")]))) (EScale (-1 # 1) (EEins "abcijk->acbijk" [(EVar "contracted_intermediate")]))) (EScale (1 # 1) (EEins "abcijk->acbikj" [(EVar "contracted_intermediate")])));
   (*L1488*) SAssign "contracted_intermediate" (EScale (1 # 1) (EEins "ladj,dk,bcil->abcijk" [(ESlice (EVar "g_aaaa") [SV "o"; SV "v"; SV "v"; SV "o"]); (EVar "t1_aa"); (EVar "t2_aaaa")]));
   (*L1489*) SAug true "triples_res" (EAdd (EAdd (EAdd (EScale (1 # 1) (EVar "contracted_intermediate")) (EScale (-1 # 1) (EEins "abcijk->abckji" [(EVar "contracted_intermediate")]))) (EScale (-1 # 1) (EEins "abcijk->bacijk" [(EVar "contracted_intermediate")]))) (EScale (1 # 1) (EEins "abcijk->backji" [(EVar "contracted_intermediate")])));
   (*L1492*) SAssign "contracted_intermediate" (EScale (-1 # 1) (EEins "ladi,dk,bcjl->abcijk" [(ESlice (EVar "g_aaaa") [SV "o"; SV "v"; SV "v"; SV "o"]); (EVar "t1_aa"); (EVar "t2_aaaa")]));
   (*L1493*) SAug true "triples_res" (EAdd (EAdd (EAdd (EScale (1 # 1) (EVar "contracted_intermediate")) (EScale (-1 # 1) (EEins "abcijk->abcikj" [(EVar "contracted_intermediate")]))) (EScale (-1 # 1) (EEins "abcijk->bacijk" [(EVar "contracted_intermediate")]))) (EScale (1 # 1) (EEins "abcijk->bacikj" [(EVar "contracted_intermediate")])));
   (*L1496*) SAssign "contracted_intermediate" (EScale (-1 # 1) (EEins "ladi,bl,dcjk->abcijk" [(ESlice (EVar "g_aaaa") [SV "o"; SV "v"; SV "v"; SV "o"]); (EVar "t1_aa"); (EVar "t2_aaaa")]));
   (*L1497*) SAug true "triples_res" (EAdd (EScale (1 # 1) (EVar "contracted_intermediate")) (EScale (-1 # 1) (EEins "abcijk->acbijk" [(EVar "contracted_intermediate")])));
   (*L1500*) SAssign "contracted_intermediate" (EScale (1 # 1) (EEins "lbdk,al,dcij->abcijk" [(ESlice (EVar "g_aaaa") [SV "o"; SV "v"; SV "v"; SV "o"]); (EVar "t1_aa"); (EVar "t2_aaaa")]));
   (*L1501*) SAug true "triples_res" (EAdd (EAdd (EAdd (EScale (1 # 1) (EVar "contracted_intermediate")) (EScale (-1 # 1) (EEins "abcijk->abcikj" [(EVar "contracted_intermediate")]))) (EScale (-1 # 1) (EEins "abcijk->cbaijk" [(EVar "contracted_intermediate")]))) (EScale (1 # 1) (EEins "abcijk->cbaikj" [(EVar "contracted_intermediate")])));
   (*L1504*) SAssign "contracted_intermediate" (EScale (1 # 1) (EEins "lbdi,al,dcjk->abcijk" [(ESlice (EVar "g_aaaa") [SV "o"; SV "v"; SV "v"; SV "o"]); (EVar "t1_aa"); (EVar "t2_aaaa")]));
   (*L1505*) SAug true "triples_res" (EAdd (EScale (1 # 1) (EVar "contracted_intermediate")) (EScale (-1 # 1) (EEins "abcijk->cbaijk" [(EVar "contracted_intermediate")])));
   (*L1508*) SAssign "contracted_intermediate" (EScale (-1 # 1) (EEins "lcdk,dj,abil->abcijk" [(ESlice (EVar "g_aaaa") [SV "o"; SV "v"; SV "v"; SV "o"]); (EVar "t1_aa"); (EVar "t2_aaaa")]));
   (*L1509*) SAug true "triples_res" (EAdd (EScale (1 # 1) (EVar "contracted_intermediate")) (EScale (-1 # 1) (EEins "abcijk->abcjik" [(EVar "contracted_intermediate")])));
   (*L1512*) SAssign "contracted_intermediate" (EScale (-1 # 1) (EEins "lcdk,al,dbij->abcijk" [(ESlice (EVar "g_aaaa") [SV "o"; SV "v"; SV "v"; SV "o"]); (EVar "t1_aa"); (EVar "t2_aaaa")]));
   (*L1513*) SAug true "triples_res" (EAdd (EAdd (EAdd (EScale (1 # 1) (EVar "contracted_intermediate")) (EScale (-1 # 1) (EEins "abcijk->abcikj" [(EVar "contracted_intermediate")]))) (EScale (-1 # 1) (EEins "abcijk->bacijk" [(EVar "contracted_intermediate")]))) (EScale (1 # 1) (EEins "abcijk->bacikj" [(EVar "contracted_intermediate")])));
   (*L1516*) SAssign "contracted_intermediate" (EScale (1 # 1) (EEins "lcdj,dk,abil->abcijk" [(ESlice (EVar "g_aaaa") [SV "o"; SV "v"; SV "v"; SV "o"]); (EVar "t1_aa"); (EVar "t2_aaaa")]));
   (*L1517*) SAug true "triples_res" (EAdd (EScale (1 # 1) (EVar "contracted_intermediate")) (EScale (-1 # 1) (EEins "abcijk->abckji" [(EVar "contracted_intermediate")])));
   (*L1520*) SAssign "contracted_intermediate" (EScale (-1 # 1) (EEins "lcdi,dk,abjl->abcijk" [(ESlice (EVar "g_aaaa") [SV "o"; SV "v"; SV "v"; SV "o"]); (EVar "t1_aa"); (EVar "t2_aaaa")]));
   (*L1521*) SAug true "triples_res" (EAdd (EScale (1 # 1) (EVar "contracted_intermediate")) (EScale (-1 # 1) (EEins "abcijk->abcikj" [(EVar "contracted_intermediate")])));
   (*L1524*) SAssign "contracted_intermediate" (EScale (-1 # 1) (EEins "lcdi,al,dbjk->abcijk" [(ESlice (EVar "g_aaaa") [SV "o"; SV "v"; SV "v"; SV "o"]); (EVar "t1_aa"); (EVar "t2_aaaa")]));
   (*L1525*) SAug true "triples_res" (EAdd (EScale (1 # 1) (EVar "contracted_intermediate")) (EScale (-1 # 1) (EEins "abcijk->bacijk" [(EVar "contracted_intermediate")])));
   (*L1528*) SAssign "contracted_intermediate" (EScale (1 # 1) (EEins "abde,dk,ecij->abcijk" [(ESlice (EVar "g_aaaa") [SV "v"; SV "v"; SV "v"; SV "v"]); (EVar "t1_aa"); (EVar "t2_aaaa")]));
   (*L1529*) SAug true "triples_res" (EAdd (EAdd (EAdd (EScale (1 # 1) (EVar "contracted_intermediate")) (EScale (-1 # 1) (EEins "abcijk->abcikj" [(EVar "contracted_intermediate")]))) (EScale (-1 # 1) (EEins "abcijk->acbijk" [(EVar "contracted_intermediate")]))) (EScale (1 # 1) (EEins "abcijk->acbikj" [(EVar "contracted_intermediate")])));
   (*L1532*) SAssign "contracted_intermediate" (EScale (1 # 1) (EEins "abde,di,ecjk->abcijk" [(ESlice (EVar "g_aaaa") [SV "v"; SV "v"; SV "v"; SV "v"]); (EVar "t1_aa"); (EVar "t2_aaaa")]));
   (*L1533*) SAug true "triples_res" (EAdd (EScale (1 # 1) (EVar "contracted_intermediate")) (EScale (-1 # 1) (EEins "abcijk->acbijk" [(EVar "contracted_intermediate")])));
   (*L1536*) SAssign "contracted_intermediate" (EScale (1 # 1) (EEins "bcde,dk,eaij->abcijk" [(ESlice (EVar "g_aaaa") [SV "v"; SV "v"; SV "v"; SV "v"]); (EVar "t1_aa"); (EVar "t2_aaaa")]));
   (*L1537*) SAug true "triples_res" (EAdd (EScale (1 # 1) (EVar "contracted_intermediate")) (EScale (-1 # 1) (EEins "abcijk->abcikj" [(EVar "contracted_intermediate")])));
   (*L1540*) SAug true "triples_res" (EScale (1 # 1) (EEins "bcde,di,eajk->abcijk" [(ESlice (EVar "g_aaaa") [SV "v"; SV "v"; SV "v"; SV "v"]); (EVar "t1_aa"); (EVar "t2_aaaa")]));
   (*L1543*) SAssign "contracted_intermediate" (EScale (1 # 1) (EEins "mldk,dl,abcijm->abcijk" [(ESlice (EVar "g_aaaa") [SV "o"; SV "o"; SV "v"; SV "o"]); (EVar "t1_aa"); (EVar "t3_aaaaaa")]));
   (*L1544*) SAug true "triples_res" (EAdd (EScale (1 # 1) (EVar "contracted_intermediate")) (EScale (-1 # 1) (EEins "abcijk->abcikj" [(EVar "contracted_intermediate")])));
   (*L1547*) SAssign "contracted_intermediate" (EScale (-1 # 1) (EEins "mlkd,dl,abcijm->abcijk" [(ESlice (EVar "g_abab") [SV "o"; SV "o"; SV "o"; SV "v"]); (EVar "t1_bb"); (EVar "t3_aaaaaa")]));
   (*L1548*) SAug true "triples_res" (EAdd (EScale (1 # 1) (EVar "contracted_intermediate")) (EScale (-1 # 1) (EEins "abcijk->abcikj" [(EVar "contracted_intermediate")])));
   (*L1551*) SAssign "contracted_intermediate" (EScale (1 # 2) (EEins "mldk,dj,abciml->abcijk" [(ESlice (EVar "g_aaaa") [SV "o"; SV "o"; SV "v"; SV "o"]); (EVar "t1_aa"); (EVar "t3_aaaaaa")]));
   (*L1552*) SAug true "triples_res" (EAdd (EScale (1 # 1) (EVar "contracted_intermediate")) (EScale (-1 # 1) (EEins "abcijk->abcjik" [(EVar "contracted_intermediate")])));
   (*L1555*) SAssign "contracted_intermediate" (EScale (-1 # 1) (EEins "mldk,al,dbcijm->abcijk" [(ESlice (EVar "g_aaaa") [SV "o"; SV "o"; SV "v"; SV "o"]); (EVar "t1_aa"); (EVar "t3_aaaaaa")]));
   (*L1556*) SAug true "triples_res" (EAdd (EAdd (EAdd (EScale (1 # 1) (EVar "contracted_intermediate")) (EScale (-1 # 1) (EEins "abcijk->abcikj" [(EVar "contracted_intermediate")]))) (EScale (-1 # 1) (EEins "abcijk->bacijk" [(EVar "contracted_intermediate")]))) (EScale (1 # 1) (EEins "abcijk->bacikj" [(EVar "contracted_intermediate")])));
   (*L1559*) SAssign "contracted_intermediate" (EScale (1 # 1) (EEins "lmkd,al,cbdijm->abcijk" [(ESlice (EVar "g_abab") [SV "o"; SV "o"; SV "o"; SV "v"]); (EVar "t1_aa"); (EVar "t3_aabaab")]));
   (*L1560*) SAug true "triples_res" (EAdd (EAdd (EAdd (EScale (1 # 1) (EVar "contracted_intermediate")) (EScale (-1 # 1) (EEins "abcijk->abcikj" [(EVar "contracted_intermediate")]))) (EScale (-1 # 1) (EEins "abcijk->bacijk" [(EVar "contracted_intermediate")]))) (EScale (1 # 1) (EEins "abcijk->bacikj" [(EVar "contracted_intermediate")])));
   (*L1563*) SAssign "contracted_intermediate" (EScale (-1 # 1) (EEins "mldk,cl,dabijm->abcijk" [(ESlice (EVar "g_aaaa") [SV "o"; SV "o"; SV "v"; SV "o"]); (EVar "t1_aa"); (EVar "t3_aaaaaa")]));
   (*L1564*) SAug true "triples_res" (EAdd (EScale (1 # 1) (EVar "contracted_intermediate")) (EScale (-1 # 1) (EEins "abcijk->abcikj" [(EVar "contracted_intermediate")])));
   (*L1567*) SAssign "contracted_intermediate" (EScale (1 # 1) (EEins "lmkd,cl,badijm->abcijk" [(ESlice (EVar "g_abab") [SV "o"; SV "o"; SV "o"; SV "v"]); (EVar "t1_aa"); (EVar "t3_aabaab")]));
   (*L1568*) SAug true "triples_res" (EAdd (EScale (1 # 1) (EVar "contracted_intermediate")) (EScale (-1 # 1) (EEins "abcijk->abcikj" [(EVar "contracted_intermediate")])));
   (*L1571*) SAssign "contracted_intermediate" (EScale (-1 # 2) (EEins "mldj,dk,abciml->abcijk" [(ESlice (EVar "g_aaaa") [SV "o"; SV "o"; SV "v"; SV "o"]); (EVar "t1_aa"); (EVar "t3_aaaaaa")]));
   (*L1572*) SAug true "triples_res" (EAdd (EScale (1 # 1) (EVar "contracted_intermediate")) (EScale (-1 # 1) (EEins "abcijk->abckji" [(EVar "contracted_intermediate")])));
   (*L1575*) SAug true "triples_res" (EScale (1 # 1) (EEins "mldi,dl,abcjkm->abcijk" [(ESlice (EVar "g_aaaa") [SV "o"; SV "o"; SV "v"; SV "o"]); (EVar "t1_aa"); (EVar "t3_aaaaaa")]));
   (*L1578*) SAug true "triples_res" (EScale (-1 # 1) (EEins "mlid,dl,abcjkm->abcijk" [(ESlice (EVar "g_abab") [SV "o"; SV "o"; SV "o"; SV "v"]); (EVar "t1_bb"); (EVar "t3_aaaaaa")]));
   (*L1581*) SAssign "contracted_intermediate" (EScale (1 # 2) (EEins "mldi,dk,abcjml->abcijk" [(ESlice (EVar "g_aaaa") [SV "o"; SV "o"; SV "v"; SV "o"]); (EVar "t1_aa"); (EVar "t3_aaaaaa")]));
   (*L1582*) SAug true "triples_res" (EAdd (EScale (1 # 1) (EVar "contracted_intermediate")) (EScale (-1 # 1) (EEins "abcijk->abcikj" [(EVar "contracted_intermediate")])));
   (*L1585*) SAssign "contracted_intermediate" (EScale (-1 # 1) (EEins "mldi,al,dbcjkm->abcijk" [(ESlice (EVar "g_aaaa") [SV "o"; SV "o"; SV "v"; SV "o"]); (EVar "t1_aa"); (EVar "t3_aaaaaa")]));
   (*L1586*) SAug true "triples_res" (EAdd (EScale (1 # 1) (EVar "contracted_intermediate")) (EScale (-1 # 1) (EEins "abcijk->bacijk" [(EVar "contracted_intermediate")])));
   (*L1589*) SAssign "contracted_intermediate" (EScale (1 # 1) (EEins "lmid,al,cbdjkm->abcijk" [(ESlice (EVar "g_abab") [SV "o"; SV "o"; SV "o"; SV "v"]); (EVar "t1_aa"); (EVar "t3_aabaab")]));
   (*L1590*) SAug true "triples_res" (EAdd (EScale (1 # 1) (EVar "contracted_intermediate")) (EScale (-1 # 1) (EEins "abcijk->bacijk" [(EVar "contracted_intermediate")])));
   (*L1593*) SAug true "triples_res" (EScale (-1 # 1) (EEins "mldi,cl,dabjkm->abcijk" [(ESlice (EVar "g_aaaa") [SV "o"; SV "o"; SV "v"; SV "o"]); (EVar "t1_aa"); (EVar "t3_aaaaaa")]));
   (*L1596*) SAug true "triples_res" (EScale (1 # 1) (EEins "lmid,cl,badjkm->abcijk" [(ESlice (EVar "g_abab") [SV "o"; SV "o"; SV "o"; SV "v"]); (EVar "t1_aa"); (EVar "t3_aabaab")]));
   (*L1599*) SAssign "contracted_intermediate" (EScale (1 # 1) (EEins "lade,dl,ebcijk->abcijk" [(ESlice (EVar "g_aaaa") [SV "o"; SV "v"; SV "v"; SV "v"]); (EVar "t1_aa"); (EVar "t3_aaaaaa")]));
   (*L1600*) SAug true "triples_res" (EAdd (EScale (1 # 1) (EVar "contracted_intermediate")) (EScale (-1 # 1) (EEins "abcijk->bacijk" [(EVar "contracted_intermediate")])));
   (*L1603*) SAssign "contracted_intermediate" (EScale (1 # 1) (EEins "aled,dl,ebcijk->abcijk" [(ESlice (EVar "g_abab") [SV "v"; SV "o"; SV "v"; SV "v"]); (EVar "t1_bb"); (EVar "t3_aaaaaa")]));
   (*L1604*) SAug true "triples_res" (EAdd (EScale (1 # 1) (EVar "contracted_intermediate")) (EScale (-1 # 1) (EEins "abcijk->bacijk" [(EVar "contracted_intermediate")])));
   (*L1607*) SAssign "contracted_intermediate" (EScale (-1 # 1) (EEins "lade,dk,ebcijl->abcijk" [(ESlice (EVar "g_aaaa") [SV "o"; SV "v"; SV "v"; SV "v"]); (EVar "t1_aa"); (EVar "t3_aaaaaa")]));
   (*L1608*) SAug true "triples_res" (EAdd (EAdd (EAdd (EScale (1 # 1) (EVar "contracted_intermediate")) (EScale (-1 # 1) (EEins "abcijk->abcikj" [(EVar "contracted_intermediate")]))) (EScale (-1 # 1) (EEins "abcijk->bacijk" [(EVar "contracted_intermediate")]))) (EScale (1 # 1) (EEins "abcijk->bacikj" [(EVar "contracted_intermediate")])));
   (*L1611*) SAssign "contracted_intermediate" (EScale (-1 # 1) (EEins "alde,dk,cbeijl->abcijk" [(ESlice (EVar "g_abab") [SV "v"; SV "o"; SV "v"; SV "v"]); (EVar "t1_aa"); (EVar "t3_aabaab")]));
   (*L1612*) SAug true "triples_res" (EAdd (EAdd (EAdd (EScale (1 # 1) (EVar "contracted_intermediate")) (EScale (-1 # 1) (EEins "abcijk->abcikj" [(EVar "contracted_intermediate")]))) (EScale (-1 # 1) (EEins "abcijk->bacijk" [(EVar "contracted_intermediate")]))) (EScale (1 # 1) (EEins "abcijk->bacikj" [(EVar "contracted_intermediate")])));
   (*L1615*) SAssign "contracted_intermediate" (EScale (-1 # 1) (EEins "lade,di,ebcjkl->abcijk" [(ESlice (EVar "g_aaaa") [SV "o"; SV "v"; SV "v"; SV "v"]); (EVar "t1_aa"); (EVar "t3_aaaaaa")]));
   (*L1616*) SAug true "triples_res" (EAdd (EScale (1 # 1) (EVar "contracted_intermediate")) (EScale (-1 # 1) (EEins "abcijk->bacijk" [(EVar "contracted_intermediate")])));
   (*L1619*) SAssign "contracted_intermediate" (EScale (-1 # 1) (EEins "alde,di,cbejkl->abcijk" [(ESlice (EVar "g_abab") [SV "v"; SV "o"; SV "v"; SV "v"]); (EVar "t1_aa"); (EVar "t3_aabaab")]));
   (*L1620*) SAug true "triples_res" (EAdd (EScale (1 # 1) (EVar "contracted_intermediate")) (EScale (-1 # 1) (EEins "abcijk->bacijk" [(EVar "contracted_intermediate")])));
   (*L1623*) SAssign "contracted_intermediate" (EScale (1 # 2) (EEins "lade,bl,decijk->abcijk" [(ESlice (EVar "g_aaaa") [SV "o"; SV "v"; SV "v"; SV "v"]); (EVar "t1_aa"); (EVar "t3_aaaaaa")]));
   (*L1624*) SAug true "triples_res" (EAdd (EScale (1 # 1) (EVar "contracted_intermediate")) (EScale (-1 # 1) (EEins "abcijk->acbijk" [(EVar "contracted_intermediate")])));
   (*L1627*) SAssign "contracted_intermediate" (EScale (-1 # 2) (EEins "lbde,al,decijk->abcijk" [(ESlice (EVar "g_aaaa") [SV "o"; SV "v"; SV "v"; SV "v"]); (EVar "t1_aa"); (EVar "t3_aaaaaa")]));
   (*L1628*) SAug true "triples_res" (EAdd (EScale (1 # 1) (EVar "contracted_intermediate")) (EScale (-1 # 1) (EEins "abcijk->cbaijk" [(EVar "contracted_intermediate")])));
   (*L1631*) SAug true "triples_res" (EScale (1 # 1) (EEins "lcde,dl,eabijk->abcijk" [(ESlice (EVar "g_aaaa") [SV "o"; SV "v"; SV "v"; SV "v"]); (EVar "t1_aa"); (EVar "t3_aaaaaa")]));
   (*L1634*) SAug true "triples_res" (EScale (1 # 1) (EEins "cled,dl,eabijk->abcijk" [(ESlice (EVar "g_abab") [SV "v"; SV "o"; SV "v"; SV "v"]); (EVar "t1_bb"); (EVar "t3_aaaaaa")]));
   (*L1637*) SAssign "contracted_intermediate" (EScale (-1 # 1) (EEins "lcde,dk,eabijl->abcijk" [(ESlice (EVar "g_aaaa") [SV "o"; SV "v"; SV "v"; SV "v"]); (EVar "t1_aa"); (EVar "t3_aaaaaa")]));
   (*L1638*) SAug true "triples_res" (EAdd (EScale (1 # 1) (EVar "contracted_intermediate")) (EScale (-1 # 1) (EEins "abcijk->abcikj" [(EVar "contracted_intermediate")])));
   (*L1641*) SAssign "contracted_intermediate" (EScale (-1 # 1) (EEins "clde,dk,baeijl->abcijk" [(ESlice (EVar "g_abab") [SV "v"; SV "o"; SV "v"; SV "v"]); (EVar "t1_aa"); (EVar "t3_aabaab")]));
   (*L1642*) SAug true "triples_res" (EAdd (EScale (1 # 1) (EVar "contracted_intermediate")) (EScale (-1 # 1) (EEins "abcijk->abcikj" [(EVar "contracted_intermediate")])));
   (*L1645*) SAug true "triples_res" (EScale (-1 # 1) (EEins "lcde,di,eabjkl->abcijk" [(ESlice (EVar "g_aaaa") [SV "o"; SV "v"; SV "v"; SV "v"]); (EVar "t1_aa"); (EVar "t3_aaaaaa")]));
   (*L1648*) SAug true "triples_res" (EScale (-1 # 1) (EEins "clde,di,baejkl->abcijk" [(ESlice (EVar "g_abab") [SV "v"; SV "o"; SV "v"; SV "v"]); (EVar "t1_aa"); (EVar "t3_aabaab")]));
   (*L1651*) SAssign "contracted_intermediate" (EScale (1 # 2) (EEins "lcde,al,debijk->abcijk" [(ESlice (EVar "g_aaaa") [SV "o"; SV "v"; SV "v"; SV "v"]); (EVar "t1_aa"); (EVar "t3_aaaaaa")]));
   (*L1652*) SAug true "triples_res" (EAdd (EScale (1 # 1) (EVar "contracted_intermediate")) (EScale (-1 # 1) (EEins "abcijk->bacijk" [(EVar "contracted_intermediate")])));
   (*L1655*) SAssign "contracted_intermediate" (EScale (-1 # 2) (EEins "mlde,dekl,abcijm->abcijk" [(ESlice (EVar "g_aaaa") [SV "o"; SV "o"; SV "v"; SV "v"]); (EVar "t2_aaaa"); (EVar "t3_aaaaaa")]));
   (*L1656*) SAug true "triples_res" (EAdd (EScale (1 # 1) (EVar "contracted_intermediate")) (EScale (-1 # 1) (EEins "abcijk->abcikj" [(EVar "contracted_intermediate")])));
   (*L1659*) SAssign "contracted_intermediate" (EScale (-1 # 2) (EEins "mlde,dekl,abcijm->abcijk" [(ESlice (EVar "g_abab") [SV "o"; SV "o"; SV "v"; SV "v"]); (EVar "t2_abab"); (EVar "t3_aaaaaa")]));
   (*L1660*) SAug true "triples_res" (EAdd (EScale (1 # 1) (EVar "contracted_intermediate")) (EScale (-1 # 1) (EEins "abcijk->abcikj" [(EVar "contracted_intermediate")])));
   (*L1663*) SAssign "contracted_intermediate" (EScale (-1 # 2) (EEins "mled,edkl,abcijm->abcijk" [(ESlice (EVar "g_abab") [SV "o"; SV "o"; SV "v"; SV "v"]); (EVar "t2_abab"); (EVar "t3_aaaaaa")]));
   (*L1664*) SAug true "triples_res" (EAdd (EScale (1 # 1) (EVar "contracted_intermediate")) (EScale (-1 # 1) (EEins "abcijk->abcikj" [(EVar "contracted_intermediate")])));
   (*L1667*) SAug true "triples_res" (EScale (-1 # 2) (EEins "mlde,deil,abcjkm->abcijk" [(ESlice (EVar "g_aaaa") [SV "o"; SV "o"; SV "v"; SV "v"]); (EVar "t2_aaaa"); (EVar "t3_aaaaaa")]));
   (*L1670*) SAug true "triples_res" (EScale (-1 # 2) (EEins "mlde,deil,abcjkm->abcijk" [(ESlice (EVar "g_abab") [SV "o"; SV "o"; SV "v"; SV "v"]); (EVar "t2_abab"); (EVar "t3_aaaaaa")]));
   (*L1673*) SAug true "triples_res" (EScale (-1 # 2) (EEins "mled,edil,abcjkm->abcijk" [(ESlice (EVar "g_abab") [SV "o"; SV "o"; SV "v"; SV "v"]); (EVar "t2_abab"); (EVar "t3_aaaaaa")]));
   (*L1676*) SAssign "contracted_intermediate" (EScale (1 # 4) (EEins "mlde,dejk,abciml->abcijk" [(ESlice (EVar "g_aaaa") [SV "o"; SV "o"; SV "v"; SV "v"]); (EVar "t2_aaaa"); (EVar "t3_aaaaaa")]));
   (*L1677*) SAug true "triples_res" (EAdd (EScale (1 # 1) (EVar "contracted_intermediate")) (EScale (-1 # 1) (EEins "abcijk->abcjik" [(EVar "contracted_intermediate")])));
   (*L1680*) SAug true "triples_res" (EScale (1 # 4) (EEins "mlde,deij,abckml->abcijk" [(ESlice (EVar "g_aaaa") [SV "o"; SV "o"; SV "v"; SV "v"]); (EVar "t2_aaaa"); (EVar "t3_aaaaaa")]));
   (*L1683*) SAssign "contracted_intermediate" (EScale (-1 # 2) (EEins "mlde,daml,ebcijk->abcijk" [(ESlice (EVar "g_aaaa") [SV "o"; SV "o"; SV "v"; SV "v"]); (EVar "t2_aaaa"); (EVar "t3_aaaaaa")]));
   (*L1684*) SAug true "triples_res" (EAdd (EScale (1 # 1) (EVar "contracted_intermediate")) (EScale (-1 # 1) (EEins "abcijk->bacijk" [(EVar "contracted_intermediate")])));
   (*L1687*) SAssign "contracted_intermediate" (EScale (-1 # 2) (EEins "mled,adml,ebcijk->abcijk" [(ESlice (EVar "g_abab") [SV "o"; SV "o"; SV "v"; SV "v"]); (EVar "t2_abab"); (EVar "t3_aaaaaa")]));
   (*L1688*) SAug true "triples_res" (EAdd (EScale (1 # 1) (EVar "contracted_intermediate")) (EScale (-1 # 1) (EEins "abcijk->bacijk" [(EVar "contracted_intermediate")])));
   (*L1691*) SAssign "contracted_intermediate" (EScale (-1 # 2) (EEins "lmed,adlm,ebcijk->abcijk" [(ESlice (EVar "g_abab") [SV "o"; SV "o"; SV "v"; SV "v"]); (EVar "t2_abab"); (EVar "t3_aaaaaa")]));
   (*L1692*) SAug true "triples_res" (EAdd (EScale (1 # 1) (EVar "contracted_intermediate")) (EScale (-1 # 1) (EEins "abcijk->bacijk" [(EVar "contracted_intermediate")])));
   (*L1695*) SAssign "contracted_intermediate" (EScale (100000000000001 # 100000000000000) (EEins "mlde,dakl,ebcijm->abcijk" [(ESlice (EVar "g_aaaa") [SV "o"; SV "o"; SV "v"; SV "v"]); (EVar "t2_aaaa"); (EVar "t3_aaaaaa")]));
   (*L1696*) SAug true "triples_res" (EAdd (EAdd (EAdd (EScale (1 # 1) (EVar "contracted_intermediate")) (EScale (-1 # 1) (EEins "abcijk->abcikj" [(EVar "contracted_intermediate")]))) (EScale (-1 # 1) (EEins "abcijk->bacijk" [(EVar "contracted_intermediate")]))) (EScale (1 # 1) (EEins "abcijk->bacikj" [(EVar "contracted_intermediate")])));
   (*L1699*) SAssign "contracted_intermediate" (EScale (100000000000001 # 100000000000000) (EEins "lmde,dakl,cbeijm->abcijk" [(ESlice (EVar "g_abab") [SV "o"; SV "o"; SV "v"; SV "v"]); (EVar "t2_aaaa"); (EVar "t3_aabaab")]));
   (*L1700*) SAug true "triples_res" (EAdd (EAdd (EAdd (EScale (1 # 1) (EVar "contracted_intermediate")) (EScale (-1 # 1) (EEins "abcijk->abcikj" [(EVar "contracted_intermediate")]))) (EScale (-1 # 1) (EEins "abcijk->bacijk" [(EVar "contracted_intermediate")]))) (EScale (1 # 1) (EEins "abcijk->bacikj" [(EVar "contracted_intermediate")])));
   (*L1703*) SAssign "contracted_intermediate" (EScale (100000000000001 # 100000000000000) (EEins "mled,adkl,ebcijm->abcijk" [(ESlice (EVar "g_abab") [SV "o"; SV "o"; SV "v"; SV "v"]); (EVar "t2_abab"); (EVar "t3_aaaaaa")]));
   (*L1704*) SAug true "triples_res" (EAdd (EAdd (EAdd (EScale (1 # 1) (EVar "contracted_intermediate")) (EScale (-1 # 1) (EEins "abcijk->abcikj" [(EVar "contracted_intermediate")]))) (EScale (-1 # 1) (EEins "abcijk->bacijk" [(EVar "contracted_intermediate")]))) (EScale (1 # 1) (EEins "abcijk->bacikj" [(EVar "contracted_intermediate")])));
   (*L1707*) SAssign "contracted_intermediate" (EScale (100000000000001 # 100000000000000) (EEins "mlde,adkl,cbeijm->abcijk" [(ESlice (EVar "g_bbbb") [SV "o"; SV "o"; SV "v"; SV "v"]); (EVar "t2_abab"); (EVar "t3_aabaab")]));
   (*L1708*) SAug true "triples_res" (EAdd (EAdd (EAdd (EScale (1 # 1) (EVar "contracted_intermediate")) (EScale (-1 # 1) (EEins "abcijk->abcikj" [(EVar "contracted_intermediate")]))) (EScale (-1 # 1) (EEins "abcijk->bacijk" [(EVar "contracted_intermediate")]))) (EScale (1 # 1) (EEins "abcijk->bacikj" [(EVar "contracted_intermediate")])));
   (*L1711*) SAssign "contracted_intermediate" (EScale (100000000000001 # 100000000000000) (EEins "mlde,dail,ebcjkm->abcijk" [(ESlice (EVar "g_aaaa") [SV "o"; SV "o"; SV "v"; SV "v"]); (EVar "t2_aaaa"); (EVar "t3_aaaaaa")]));
   (*L1712*) SAug true "triples_res" (EAdd (EScale (1 # 1) (EVar "contracted_intermediate")) (EScale (-1 # 1) (EEins "abcijk->bacijk" [(EVar "contracted_intermediate")])));
   (*L1715*) SAssign "contracted_intermediate" (EScale (100000000000001 # 100000000000000) (EEins "lmde,dail,cbejkm->abcijk" [(ESlice (EVar "g_abab") [SV "o"; SV "o"; SV "v"; SV "v"]); (EVar "t2_aaaa"); (EVar "t3_aabaab")]));
   (*L1716*) SAug true "triples_res" (EAdd (EScale (1 # 1) (EVar "contracted_intermediate")) (EScale (-1 # 1) (EEins "abcijk->bacijk" [(EVar "contracted_intermediate")])));
   (*L1719*) SAssign "contracted_intermediate" (EScale (100000000000001 # 100000000000000) (EEins "mled,adil,ebcjkm->abcijk" [(ESlice (EVar "g_abab") [SV "o"; SV "o"; SV "v"; SV "v"]); (EVar "t2_abab"); (EVar "t3_aaaaaa")]));
   (*L1720*) SAug true "triples_res" (EAdd (EScale (1 # 1) (EVar "contracted_intermediate")) (EScale (-1 # 1) (EEins "abcijk->bacijk" [(EVar "contracted_intermediate")])));
   (*L1723*) SAssign "contracted_intermediate" (EScale (100000000000001 # 100000000000000) (EEins "mlde,adil,cbejkm->abcijk" [(ESlice (EVar "g_bbbb") [SV "o"; SV "o"; SV "v"; SV "v"]); (EVar "t2_abab"); (EVar "t3_aabaab")]));
   (*L1724*) SAug true "triples_res" (EAdd (EScale (1 # 1) (EVar "contracted_intermediate")) (EScale (-1 # 1) (EEins "abcijk->bacijk" [(EVar "contracted_intermediate")])));
   (*L1727*) SAssign "contracted_intermediate" (EScale (-1 # 2) (EEins "mlde,dajk,ebciml->abcijk" [(ESlice (EVar "g_aaaa") [SV "o"; SV "o"; SV "v"; SV "v"]); (EVar "t2_aaaa"); (EVar "t3_aaaaaa")]));
   (*L1728*) SAug true "triples_res" (EAdd (EAdd (EAdd (EScale (1 # 1) (EVar "contracted_intermediate")) (EScale (-1 # 1) (EEins "abcijk->abcjik" [(EVar "contracted_intermediate")]))) (EScale (-1 # 1) (EEins "abcijk->bacijk" [(EVar "contracted_intermediate")]))) (EScale (1 # 1) (EEins "abcijk->bacjik" [(EVar "contracted_intermediate")])));
   (*L1731*) SAssign "contracted_intermediate" (EScale (1 # 2) (EEins "mlde,dajk,cbeiml->abcijk" [(ESlice (EVar "g_abab") [SV "o"; SV "o"; SV "v"; SV "v"]); (EVar "t2_aaaa"); (EVar "t3_aabaab")]));
   (*L1732*) SAug true "triples_res" (EAdd (EAdd (EAdd (EScale (1 # 1) (EVar "contracted_intermediate")) (EScale (-1 # 1) (EEins "abcijk->abcjik" [(EVar "contracted_intermediate")]))) (EScale (-1 # 1) (EEins "abcijk->bacijk" [(EVar "contracted_intermediate")]))) (EScale (1 # 1) (EEins "abcijk->bacjik" [(EVar "contracted_intermediate")])));
   (*L1735*) SAssign "contracted_intermediate" (EScale (1 # 2) (EEins "lmde,dajk,cbeilm->abcijk" [(ESlice (EVar "g_abab") [SV "o"; SV "o"; SV "v"; SV "v"]); (EVar "t2_aaaa"); (EVar "t3_aabaab")]));
   (*L1736*) SAug true "triples_res" (EAdd (EAdd (EAdd (EScale (1 # 1) (EVar "contracted_intermediate")) (EScale (-1 # 1) (EEins "abcijk->abcjik" [(EVar "contracted_intermediate")]))) (EScale (-1 # 1) (EEins "abcijk->bacijk" [(EVar "contracted_intermediate")]))) (EScale (1 # 1) (EEins "abcijk->bacjik" [(EVar "contracted_intermediate")])));
   (*L1739*) SAssign "contracted_intermediate" (EScale (-1 # 2) (EEins "mlde,daij,ebckml->abcijk" [(ESlice (EVar "g_aaaa") [SV "o"; SV "o"; SV "v"; SV "v"]); (EVar "t2_aaaa"); (EVar "t3_aaaaaa")]));
   (*L1740*) SAug true "triples_res" (EAdd (EScale (1 # 1) (EVar "contracted_intermediate")) (EScale (-1 # 1) (EEins "abcijk->bacijk" [(EVar "contracted_intermediate")])));
   (*L1743*) SAssign "contracted_intermediate" (EScale (1 # 2) (EEins "mlde,daij,cbekml->abcijk" [(ESlice (EVar "g_abab") [SV "o"; SV "o"; SV "v"; SV "v"]); (EVar "t2_aaaa"); (EVar "t3_aabaab")]));
   (*L1744*) SAug true "triples_res" (EAdd (EScale (1 # 1) (EVar "contracted_intermediate")) (EScale (-1 # 1) (EEins "abcijk->bacijk" [(EVar "contracted_intermediate")])));
   (*L1747*) SAssign "contracted_intermediate" (EScale (1 # 2) (EEins "lmde,daij,cbeklm->abcijk" [(ESlice (EVar "g_abab") [SV "o"; SV "o"; SV "v"; SV "v"]); (EVar "t2_aaaa"); (EVar "t3_aabaab")]));
   (*L1748*) SAug true "triples_res" (EAdd (EScale (1 # 1) (EVar "contracted_intermediate")) (EScale (-1 # 1) (EEins "abcijk->bacijk" [(EVar "contracted_intermediate")])));
   (*L1751*) SAug true "triples_res" (EScale (-1 # 2) (EEins "mlde,dcml,eabijk->abcijk" [(ESlice (EVar "g_aaaa") [SV "o"; SV "o"; SV "v"; SV "v"]); (EVar "t2_aaaa"); (EVar "t3_aaaaaa")]));
   (*L1754*) SAug true "triples_res" (EScale (-1 # 2) (EEins "mled,cdml,eabijk->abcijk" [(ESlice (EVar "g_abab") [SV "o"; SV "o"; SV "v"; SV "v"]); (EVar "t2_abab"); (EVar "t3_aaaaaa")]));
   (*L1757*) SAug true "triples_res" (EScale (-1 # 2) (EEins "lmed,cdlm,eabijk->abcijk" [(ESlice (EVar "g_abab") [SV "o"; SV "o"; SV "v"; SV "v"]); (EVar "t2_abab"); (EVar "t3_aaaaaa")]));
   (*L1760*) SAssign "contracted_intermediate" (EScale (100000000000001 # 100000000000000) (EEins "mlde,dckl,eabijm->abcijk" [(ESlice (EVar "g_aaaa") [SV "o"; SV "o"; SV "v"; SV "v"]); (EVar "t2_aaaa"); (EVar "t3_aaaaaa")]));
   (*L1761*) SAug true "triples_res" (EAdd (EScale (1 # 1) (EVar "contracted_intermediate")) (EScale (-1 # 1) (EEins "abcijk->abcikj" [(EVar "contracted_intermediate")])));
   (*L1764*) SAssign "contracted_intermediate" (EScale (100000000000001 # 100000000000000) (EEins "lmde,dckl,baeijm->abcijk" [(ESlice (EVar "g_abab") [SV "o"; SV "o"; SV "v"; SV "v"]); (EVar "t2_aaaa"); (EVar "t3_aabaab")]));
   (*L1765*) SAug true "triples_res" (EAdd (EScale (1 # 1) (EVar "contracted_intermediate")) (EScale (-1 # 1) (EEins "abcijk->abcikj" [(EVar "contracted_intermediate")])));
   (*L1768*) SAssign "contracted_intermediate" (EScale (100000000000001 # 100000000000000) (EEins "mled,cdkl,eabijm->abcijk" [(ESlice (EVar "g_abab") [SV "o"; SV "o"; SV "v"; SV "v"]); (EVar "t2_abab"); (EVar "t3_aaaaaa")]));
   (*L1769*) SAug true "triples_res" (EAdd (EScale (1 # 1) (EVar "contracted_intermediate")) (EScale (-1 # 1) (EEins "abcijk->abcikj" [(EVar "contracted_intermediate")])));
   (*L1772*) SAssign "contracted_intermediate" (EScale (100000000000001 # 100000000000000) (EEins "mlde,cdkl,baeijm->abcijk" [(ESlice (EVar "g_bbbb") [SV "o"; SV "o"; SV "v"; SV "v"]); (EVar "t2_abab"); (EVar "t3_aabaab")]));
   (*L1773*) SAug true "triples_res" (EAdd (EScale (1 # 1) (EVar "contracted_intermediate")) (EScale (-1 # 1) (EEins "abcijk->abcikj" [(EVar "contracted_intermediate")])));
   (*L1776*) SAug true "triples_res" (EScale (100000000000001 # 100000000000000) (EEins "mlde,dcil,eabjkm->abcijk" [(ESlice (EVar "g_aaaa") [SV "o"; SV "o"; SV "v"; SV "v"]); (EVar "t2_aaaa"); (EVar "t3_aaaaaa")]));
   (*L1779*) SAug true "triples_res" (EScale (100000000000001 # 100000000000000) (EEins "lmde,dcil,baejkm->abcijk" [(ESlice (EVar "g_abab") [SV "o"; SV "o"; SV "v"; SV "v"]); (EVar "t2_aaaa"); (EVar "t3_aabaab")]));
   (*L1782*) SAug true "triples_res" (EScale (100000000000001 # 100000000000000) (EEins "mled,cdil,eabjkm->abcijk" [(ESlice (EVar "g_abab") [SV "o"; SV "o"; SV "v"; SV "v"]); (EVar "t2_abab"); (EVar "t3_aaaaaa")]));
   (*L1785*) SAug true "triples_res" (EScale (100000000000001 # 100000000000000) (EEins "mlde,cdil,baejkm->abcijk" [(ESlice (EVar "g_bbbb") [SV "o"; SV "o"; SV "v"; SV "v"]); (EVar "t2_abab"); (EVar "t3_aabaab")]));
   (*L1788*) SAssign "contracted_intermediate" (EScale (-1 # 2) (EEins "mlde,dcjk,eabiml->abcijk" [(ESlice (EVar "g_aaaa") [SV "o"; SV "o"; SV "v"; SV "v"]); (EVar "t2_aaaa"); (EVar "t3_aaaaaa")]));
   (*L1789*) SAug true "triples_res" (EAdd (EScale (1 # 1) (EVar "contracted_intermediate")) (EScale (-1 # 1) (EEins "abcijk->abcjik" [(EVar "contracted_intermediate")])));
   (*L1792*) SAssign "contracted_intermediate" (EScale (1 # 2) (EEins "mlde,dcjk,baeiml->abcijk" [(ESlice (EVar "g_abab") [SV "o"; SV "o"; SV "v"; SV "v"]); (EVar "t2_aaaa"); (EVar "t3_aabaab")]));
   (*L1793*) SAug true "triples_res" (EAdd (EScale (1 # 1) (EVar "contracted_intermediate")) (EScale (-1 # 1) (EEins "abcijk->abcjik" [(EVar "contracted_intermediate")])));
   (*L1796*) SAssign "contracted_intermediate" (EScale (1 # 2) (EEins "lmde,dcjk,baeilm->abcijk" [(ESlice (EVar "g_abab") [SV "o"; SV "o"; SV "v"; SV "v"]); (EVar "t2_aaaa"); (EVar "t3_aabaab")]));
   (*L1797*) SAug true "triples_res" (EAdd (EScale (1 # 1) (EVar "contracted_intermediate")) (EScale (-1 # 1) (EEins "abcijk->abcjik" [(EVar "contracted_intermediate")])));
   (*L1800*) SAug true "triples_res" (EScale (-1 # 2) (EEins "mlde,dcij,eabkml->abcijk" [(ESlice (EVar "g_aaaa") [SV "o"; SV "o"; SV "v"; SV "v"]); (EVar "t2_aaaa"); (EVar "t3_aaaaaa")]));
   (*L1803*) SAug true "triples_res" (EScale (1 # 2) (EEins "mlde,dcij,baekml->abcijk" [(ESlice (EVar "g_abab") [SV "o"; SV "o"; SV "v"; SV "v"]); (EVar "t2_aaaa"); (EVar "t3_aabaab")]));
   (*L1806*) SAug true "triples_res" (EScale (1 # 2) (EEins "lmde,dcij,baeklm->abcijk" [(ESlice (EVar "g_abab") [SV "o"; SV "o"; SV "v"; SV "v"]); (EVar "t2_aaaa"); (EVar "t3_aabaab")]));
   (*L1809*) SAssign "contracted_intermediate" (EScale (1 # 4) (EEins "mlde,abml,decijk->abcijk" [(ESlice (EVar "g_aaaa") [SV "o"; SV "o"; SV "v"; SV "v"]); (EVar "t2_aaaa"); (EVar "t3_aaaaaa")]));
   (*L1810*) SAug true "triples_res" (EAdd (EScale (1 # 1) (EVar "contracted_intermediate")) (EScale (-1 # 1) (EEins "abcijk->acbijk" [(EVar "contracted_intermediate")])));
   (*L1813*) SAssign "contracted_intermediate" (EScale (-1 # 2) (EEins "mlde,abkl,decijm->abcijk" [(ESlice (EVar "g_aaaa") [SV "o"; SV "o"; SV "v"; SV "v"]); (EVar "t2_aaaa"); (EVar "t3_aaaaaa")]));
   (*L1814*) SAug true "triples_res" (EAdd (EAdd (EAdd (EScale (1 # 1) (EVar "contracted_intermediate")) (EScale (-1 # 1) (EEins "abcijk->abcikj" [(EVar "contracted_intermediate")]))) (EScale (-1 # 1) (EEins "abcijk->acbijk" [(EVar "contracted_intermediate")]))) (EScale (1 # 1) (EEins "abcijk->acbikj" [(EVar "contracted_intermediate")])));
   (*L1817*) SAssign "contracted_intermediate" (EScale (-1 # 2) (EEins "lmde,abkl,dceijm->abcijk" [(ESlice (EVar "g_abab") [SV "o"; SV "o"; SV "v"; SV "v"]); (EVar "t2_aaaa"); (EVar "t3_aabaab")]));
   (*L1818*) SAug true "triples_res" (EAdd (EAdd (EAdd (EScale (1 # 1) (EVar "contracted_intermediate")) (EScale (-1 # 1) (EEins "abcijk->abcikj" [(EVar "contracted_intermediate")]))) (EScale (-1 # 1) (EEins "abcijk->acbijk" [(EVar "contracted_intermediate")]))) (EScale (1 # 1) (EEins "abcijk->acbikj" [(EVar "contracted_intermediate")])));
   (*L1821*) SAssign "contracted_intermediate" (EScale (1 # 2) (EEins "lmed,abkl,cedijm->abcijk" [(ESlice (EVar "g_abab") [SV "o"; SV "o"; SV "v"; SV "v"]); (EVar "t2_aaaa"); (EVar "t3_aabaab")]));
   (*L1822*) SAug true "triples_res" (EAdd (EAdd (EAdd (EScale (1 # 1) (EVar "contracted_intermediate")) (EScale (-1 # 1) (EEins "abcijk->abcikj" [(EVar "contracted_intermediate")]))) (EScale (-1 # 1) (EEins "abcijk->acbijk" [(EVar "contracted_intermediate")]))) (EScale (1 # 1) (EEins "abcijk->acbikj" [(EVar "contracted_intermediate")])));
   (*L1825*) SAssign "contracted_intermediate" (EScale (-1 # 2) (EEins "mlde,abil,decjkm->abcijk" [(ESlice (EVar "g_aaaa") [SV "o"; SV "o"; SV "v"; SV "v"]); (EVar "t2_aaaa"); (EVar "t3_aaaaaa")]));
   (*L1826*) SAug true "triples_res" (EAdd (EScale (1 # 1) (EVar "contracted_intermediate")) (EScale (-1 # 1) (EEins "abcijk->acbijk" [(EVar "contracted_intermediate")])));
   (*L1829*) SAssign "contracted_intermediate" (EScale (-1 # 2) (EEins "lmde,abil,dcejkm->abcijk" [(ESlice (EVar "g_abab") [SV "o"; SV "o"; SV "v"; SV "v"]); (EVar "t2_aaaa"); (EVar "t3_aabaab")]));
   (*L1830*) SAug true "triples_res" (EAdd (EScale (1 # 1) (EVar "contracted_intermediate")) (EScale (-1 # 1) (EEins "abcijk->acbijk" [(EVar "contracted_intermediate")])));
   (*L1833*) SAssign "contracted_intermediate" (EScale (1 # 2) (EEins "lmed,abil,cedjkm->abcijk" [(ESlice (EVar "g_abab") [SV "o"; SV "o"; SV "v"; SV "v"]); (EVar "t2_aaaa"); (EVar "t3_aabaab")]));
   (*L1834*) SAug true "triples_res" (EAdd (EScale (1 # 1) (EVar "contracted_intermediate")) (EScale (-1 # 1) (EEins "abcijk->acbijk" [(EVar "contracted_intermediate")])));
   (*L1837*) SAug true "triples_res" (EScale (1 # 4) (EEins "mlde,bcml,deaijk->abcijk" [(ESlice (EVar "g_aaaa") [SV "o"; SV "o"; SV "v"; SV "v"]); (EVar "t2_aaaa"); (EVar "t3_aaaaaa")]));
   (*L1840*) SAssign "contracted_intermediate" (EScale (-1 # 2) (EEins "mlde,bckl,deaijm->abcijk" [(ESlice (EVar "g_aaaa") [SV "o"; SV "o"; SV "v"; SV "v"]); (EVar "t2_aaaa"); (EVar "t3_aaaaaa")]));
   (*L1841*) SAug true "triples_res" (EAdd (EScale (1 # 1) (EVar "contracted_intermediate")) (EScale (-1 # 1) (EEins "abcijk->abcikj" [(EVar "contracted_intermediate")])));
   (*L1844*) SAssign "contracted_intermediate" (EScale (-1 # 2) (EEins "lmde,bckl,daeijm->abcijk" [(ESlice (EVar "g_abab") [SV "o"; SV "o"; SV "v"; SV "v"]); (EVar "t2_aaaa"); (EVar "t3_aabaab")]));
   (*L1845*) SAug true "triples_res" (EAdd (EScale (1 # 1) (EVar "contracted_intermediate")) (EScale (-1 # 1) (EEins "abcijk->abcikj" [(EVar "contracted_intermediate")])));
   (*L1848*) SAssign "contracted_intermediate" (EScale (1 # 2) (EEins "lmed,bckl,aedijm->abcijk" [(ESlice (EVar "g_abab") [SV "o"; SV "o"; SV "v"; SV "v"]); (EVar "t2_aaaa"); (EVar "t3_aabaab")]));
   (*L1849*) SAug true "triples_res" (EAdd (EScale (1 # 1) (EVar "contracted_intermediate")) (EScale (-1 # 1) (EEins "abcijk->abcikj" [(EVar "contracted_intermediate")])));
   (*L1852*) SAug true "triples_res" (EScale (-1 # 2) (EEins "mlde,bcil,deajkm->abcijk" [(ESlice (EVar "g_aaaa") [SV "o"; SV "o"; SV "v"; SV "v"]); (EVar "t2_aaaa"); (EVar "t3_aaaaaa")]));
   (*L1855*) SAug true "triples_res" (EScale (-1 # 2) (EEins "lmde,bcil,daejkm->abcijk" [(ESlice (EVar "g_abab") [SV "o"; SV "o"; SV "v"; SV "v"]); (EVar "t2_aaaa"); (EVar "t3_aabaab")]));
   (*L1858*) SAug true "triples_res" (EScale (1 # 2) (EEins "lmed,bcil,aedjkm->abcijk" [(ESlice (EVar "g_abab") [SV "o"; SV "o"; SV "v"; SV "v"]); (EVar "t2_aaaa"); (EVar "t3_aabaab")]));
   (*L1861*) SAssign "contracted_intermediate" (EScale (1 # 1) (EEins "mldk,dajl,bcim->abcijk" [(ESlice (EVar "g_aaaa") [SV "o"; SV "o"; SV "v"; SV "o"]); (EVar "t2_aaaa"); (EVar "t2_aaaa")]));
   (*L1862*) SAug true "triples_res" (EAdd (EAdd (EAdd (EScale (1 # 1) (EVar "contracted_intermediate")) (EScale (-1 # 1) (EEins "abcijk->abcjik" [(EVar "contracted_intermediate")]))) (EScale (-1 # 1) (EEins "abcijk->bacijk" [(EVar "contracted_intermediate")]))) (EScale (1 # 1) (EEins "abcijk->bacjik" [(EVar "contracted_intermediate")])));
   (*L1865*) SAssign "contracted_intermediate" (EScale (1 # 1) (EEins "mlkd,adjl,bcim->abcijk" [(ESlice (EVar "g_abab") [SV "o"; SV "o"; SV "o"; SV "v"]); (EVar "t2_abab"); (EVar "t2_aaaa")]));
   (*L1866*) SAug true "triples_res" (EAdd (EAdd (EAdd (EScale (1 # 1) (EVar "contracted_intermediate")) (EScale (-1 # 1) (EEins "abcijk->abcjik" [(EVar "contracted_intermediate")]))) (EScale (-1 # 1) (EEins "abcijk->bacijk" [(EVar "contracted_intermediate")]))) (EScale (1 # 1) (EEins "abcijk->bacjik" [(EVar "contracted_intermediate")])));
   (*L1869*) SAssign "contracted_intermediate" (EScale (-1 # 2) (EEins "mldk,daij,bcml->abcijk" [(ESlice (EVar "g_aaaa") [SV "o"; SV "o"; SV "v"; SV "o"]); (EVar "t2_aaaa"); (EVar "t2_aaaa")]));
   (*L1870*) SAug true "triples_res" (EAdd (EAdd (EAdd (EScale (1 # 1) (EVar "contracted_intermediate")) (EScale (-1 # 1) (EEins "abcijk->abcikj" [(EVar "contracted_intermediate")]))) (EScale (-1 # 1) (EEins "abcijk->bacijk" [(EVar "contracted_intermediate")]))) (EScale (1 # 1) (EEins "abcijk->bacikj" [(EVar "contracted_intermediate")])));
   (*L1873*) SAssign "contracted_intermediate" (EScale (1 # 1) (EEins "mldk,dcjl,abim->abcijk" [(ESlice (EVar "g_aaaa") [SV "o"; SV "o"; SV "v"; SV "o"]); (EVar "t2_aaaa"); (EVar "t2_aaaa")]));
   (*L1874*) SAug true "triples_res" (EAdd (EScale (1 # 1) (EVar "contracted_intermediate")) (EScale (-1 # 1) (EEins "abcijk->abcjik" [(EVar "contracted_intermediate")])));
   (*L1877*) SAssign "contracted_intermediate" (EScale (1 # 1) (EEins "mlkd,cdjl,abim->abcijk" [(ESlice (EVar "g_abab") [SV "o"; SV "o"; SV "o"; SV "v"]); (EVar "t2_abab"); (EVar "t2_aaaa")]));
   (*L1878*) SAug true "triples_res" (EAdd (EScale (1 # 1) (EVar "contracted_intermediate")) (EScale (-1 # 1) (EEins "abcijk->abcjik" [(EVar "contracted_intermediate")])));
   (*L1881*) SAssign "contracted_intermediate" (EScale (-1 # 2) (EEins "mldk,dcij,abml->abcijk" [(ESlice (EVar "g_aaaa") [SV "o"; SV "o"; SV "v"; SV "o"]); (EVar "t2_aaaa"); (EVar "t2_aaaa")]));
   (*L1882*) SAug true "triples_res" (EAdd (EScale (1 # 1) (EVar "contracted_intermediate")) (EScale (-1 # 1) (EEins "abcijk->abcikj" [(EVar "contracted_intermediate")])));
   (*L1885*) SAssign "contracted_intermediate" (EScale (-1 # 1) (EEins "mldj,dakl,bcim->abcijk" [(ESlice (EVar "g_aaaa") [SV "o"; SV "o"; SV "v"; SV "o"]); (EVar "t2_aaaa"); (EVar "t2_aaaa")]));
   (*L1886*) SAug true "triples_res" (EAdd (EAdd (EAdd (EScale (1 # 1) (EVar "contracted_intermediate")) (EScale (-1 # 1) (EEins "abcijk->abckji" [(EVar "contracted_intermediate")]))) (EScale (-1 # 1) (EEins "abcijk->bacijk" [(EVar "contracted_intermediate")]))) (EScale (1 # 1) (EEins "abcijk->backji" [(EVar "contracted_intermediate")])));
   (*L1889*) SAssign "contracted_intermediate" (EScale (-1 # 1) (EEins "mljd,adkl,bcim->abcijk" [(ESlice (EVar "g_abab") [SV "o"; SV "o"; SV "o"; SV "v"]); (EVar "t2_abab"); (EVar "t2_aaaa")]));
   (*L1890*) SAug true "triples_res" (EAdd (EAdd (EAdd (EScale (1 # 1) (EVar "contracted_intermediate")) (EScale (-1 # 1) (EEins "abcijk->abckji" [(EVar "contracted_intermediate")]))) (EScale (-1 # 1) (EEins "abcijk->bacijk" [(EVar "contracted_intermediate")]))) (EScale (1 # 1) (EEins "abcijk->backji" [(EVar "contracted_intermediate")])));
   (*L1893*) SAssign "contracted_intermediate" (EScale (-1 # 1) (EEins "mldj,dckl,abim->abcijk" [(ESlice (EVar "g_aaaa") [SV "o"; SV "o"; SV "v"; SV "o"]); (EVar "t2_aaaa"); (EVar "t2_aaaa")]));
   (*L1894*) SAug true "triples_res" (EAdd (EScale (1 # 1) (EVar "contracted_intermediate")) (EScale (-1 # 1) (EEins "abcijk->abckji" [(EVar "contracted_intermediate")])));
   (*L1897*) SAssign "contracted_intermediate" (EScale (-1 # 1) (EEins "mljd,cdkl,abim->abcijk" [(ESlice (EVar "g_abab") [SV "o"; SV "o"; SV "o"; SV "v"]); (EVar "t2_abab"); (EVar "t2_aaaa")]));
   (*L1898*) SAug true "triples_res" (EAdd (EScale (1 # 1) (EVar "contracted_intermediate")) (EScale (-1 # 1) (EEins "abcijk->abckji" [(EVar "contracted_intermediate")])));
   (*L1901*) SAssign "contracted_intermediate" (EScale (1 # 1) (EEins "mldi,dakl,bcjm->abcijk" [(ESlice (EVar "g_aaaa") [SV "o"; SV "o"; SV "v"; SV "o"]); (EVar "t2_aaaa"); (EVar "t2_aaaa")]));
   (*L1902*) SAug true "triples_res" (EAdd (EAdd (EAdd (EScale (1 # 1) (EVar "contracted_intermediate")) (EScale (-1 # 1) (EEins "abcijk->abcikj" [(EVar "contracted_intermediate")]))) (EScale (-1 # 1) (EEins "abcijk->bacijk" [(EVar "contracted_intermediate")]))) (EScale (1 # 1) (EEins "abcijk->bacikj" [(EVar "contracted_intermediate")])));
   (*L1905*) SAssign "contracted_intermediate" (EScale (1 # 1) (EEins "mlid,adkl,bcjm->abcijk" [(ESlice (EVar "g_abab") [SV "o"; SV "o"; SV "o"; SV "v"]); (EVar "t2_abab"); (EVar "t2_aaaa")]));
   (*L1906*) SAug true "triples_res" (EAdd (EAdd (EAdd (EScale (1 # 1) (EVar "contracted_intermediate")) (EScale (-1 # 1) (EEins "abcijk->abcikj" [(EVar "contracted_intermediate")]))) (EScale (-1 # 1) (EEins "abcijk->bacijk" [(EVar "contracted_intermediate")]))) (EScale (1 # 1) (EEins "abcijk->bacikj" [(EVar "contracted_intermediate")])));
   (*L1909*) SAssign "contracted_intermediate" (EScale (-1 # 2) (EEins "mldi,dajk,bcml->abcijk" [(ESlice (EVar "g_aaaa") [SV "o"; SV "o"; SV "v"; SV "o"]); (EVar "t2_aaaa"); (EVar "t2_aaaa")]));
   (*L1910*) SAug true "triples_res" (EAdd (EScale (1 # 1) (EVar "contracted_intermediate")) (EScale (-1 # 1) (EEins "abcijk->bacijk" [(EVar "contracted_intermediate")])));
   (*L1913*) SAssign "contracted_intermediate" (EScale (1 # 1) (EEins "mldi,dckl,abjm->abcijk" [(ESlice (EVar "g_aaaa") [SV "o"; SV "o"; SV "v"; SV "o"]); (EVar "t2_aaaa"); (EVar "t2_aaaa")]));
   (*L1914*) SAug true "triples_res" (EAdd (EScale (1 # 1) (EVar "contracted_intermediate")) (EScale (-1 # 1) (EEins "abcijk->abcikj" [(EVar "contracted_intermediate")])));
   (*L1917*) SAssign "contracted_intermediate" (EScale (1 # 1) (EEins "mlid,cdkl,abjm->abcijk" [(ESlice (EVar "g_abab") [SV "o"; SV "o"; SV "o"; SV "v"]); (EVar "t2_abab"); (EVar "t2_aaaa")]));
   (*L1918*) SAug true "triples_res" (EAdd (EScale (1 # 1) (EVar "contracted_intermediate")) (EScale (-1 # 1) (EEins "abcijk->abcikj" [(EVar "contracted_intermediate")])));
   (*L1921*) SAug true "triples_res" (EScale (-1 # 2) (EEins "mldi,dcjk,abml->abcijk" [(ESlice (EVar "g_aaaa") [SV "o"; SV "o"; SV "v"; SV "o"]); (EVar "t2_aaaa"); (EVar "t2_aaaa")]));
   (*L1924*) SAssign "contracted_intermediate" (EScale (-1 # 2) (EEins "lade,dejk,bcil->abcijk" [(ESlice (EVar "g_aaaa") [SV "o"; SV "v"; SV "v"; SV "v"]); (EVar "t2_aaaa"); (EVar "t2_aaaa")]));
   (*L1925*) SAug true "triples_res" (EAdd (EAdd (EAdd (EScale (1 # 1) (EVar "contracted_intermediate")) (EScale (-1 # 1) (EEins "abcijk->abcjik" [(EVar "contracted_intermediate")]))) (EScale (-1 # 1) (EEins "abcijk->bacijk" [(EVar "contracted_intermediate")]))) (EScale (1 # 1) (EEins "abcijk->bacjik" [(EVar "contracted_intermediate")])));
   (*L1928*) SAssign "contracted_intermediate" (EScale (-1 # 2) (EEins "lade,deij,bckl->abcijk" [(ESlice (EVar "g_aaaa") [SV "o"; SV "v"; SV "v"; SV "v"]); (EVar "t2_aaaa"); (EVar "t2_aaaa")]));
   (*L1929*) SAug true "triples_res" (EAdd (EScale (1 # 1) (EVar "contracted_intermediate")) (EScale (-1 # 1) (EEins "abcijk->bacijk" [(EVar "contracted_intermediate")])));
   (*L1932*) SAssign "contracted_intermediate" (EScale (1 # 1) (EEins "lade,dbkl,ecij->abcijk" [(ESlice (EVar "g_aaaa") [SV "o"; SV "v"; SV "v"; SV "v"]); (EVar "t2_aaaa"); (EVar "t2_aaaa")]));
   (*L1933*) SAug true "triples_res" (EAdd (EAdd (EAdd (EScale (1 # 1) (EVar "contracted_intermediate")) (EScale (-1 # 1) (EEins "abcijk->abcikj" [(EVar "contracted_intermediate")]))) (EScale (-1 # 1) (EEins "abcijk->bacijk" [(EVar "contracted_intermediate")]))) (EScale (1 # 1) (EEins "abcijk->bacikj" [(EVar "contracted_intermediate")])));
   (*L1936*) SAssign "contracted_intermediate" (EScale (-1 # 1) (EEins "aled,bdkl,ecij->abcijk" [(ESlice (EVar "g_abab") [SV "v"; SV "o"; SV "v"; SV "v"]); (EVar "t2_abab"); (EVar "t2_aaaa")]));
   (*L1937*) SAug true "triples_res" (EAdd (EAdd (EAdd (EScale (1 # 1) (EVar "contracted_intermediate")) (EScale (-1 # 1) (EEins "abcijk->abcikj" [(EVar "contracted_intermediate")]))) (EScale (-1 # 1) (EEins "abcijk->bacijk" [(EVar "contracted_intermediate")]))) (EScale (1 # 1) (EEins "abcijk->bacikj" [(EVar "contracted_intermediate")])));
   (*L1940*) SAssign "contracted_intermediate" (EScale (1 # 1) (EEins "lade,dbil,ecjk->abcijk" [(ESlice (EVar "g_aaaa") [SV "o"; SV "v"; SV "v"; SV "v"]); (EVar "t2_aaaa"); (EVar "t2_aaaa")]));
   (*L1941*) SAug true "triples_res" (EAdd (EScale (1 # 1) (EVar "contracted_intermediate")) (EScale (-1 # 1) (EEins "abcijk->bacijk" [(EVar "contracted_intermediate")])));
   (*L1944*) SAssign "contracted_intermediate" (EScale (-1 # 1) (EEins "aled,bdil,ecjk->abcijk" [(ESlice (EVar "g_abab") [SV "v"; SV "o"; SV "v"; SV "v"]); (EVar "t2_abab"); (EVar "t2_aaaa")]));
   (*L1945*) SAug true "triples_res" (EAdd (EScale (1 # 1) (EVar "contracted_intermediate")) (EScale (-1 # 1) (EEins "abcijk->bacijk" [(EVar "contracted_intermediate")])));
   (*L1948*) SAssign "contracted_intermediate" (EScale (1 # 1) (EEins "lade,dbjk,ecil->abcijk" [(ESlice (EVar "g_aaaa") [SV "o"; SV "v"; SV "v"; SV "v"]); (EVar "t2_aaaa"); (EVar "t2_aaaa")]));
   (*L1949*) SAug true "triples_res" (EAdd (EAdd (EAdd (EScale (1 # 1) (EVar "contracted_intermediate")) (EScale (-1 # 1) (EEins "abcijk->abcjik" [(EVar "contracted_intermediate")]))) (EScale (-1 # 1) (EEins "abcijk->bacijk" [(EVar "contracted_intermediate")]))) (EScale (1 # 1) (EEins "abcijk->bacjik" [(EVar "contracted_intermediate")])));
   (*L1952*) SAssign "contracted_intermediate" (EScale (1 # 1) (EEins "alde,dbjk,ceil->abcijk" [(ESlice (EVar "g_abab") [SV "v"; SV "o"; SV "v"; SV "v"]); (EVar "t2_aaaa"); (EVar "t2_abab")]));
   (*L1953*) SAug true "triples_res" (EAdd (EAdd (EAdd (EScale (1 # 1) (EVar "contracted_intermediate")) (EScale (-1 # 1) (EEins "abcijk->abcjik" [(EVar "contracted_intermediate")]))) (EScale (-1 # 1) (EEins "abcijk->bacijk" [(EVar "contracted_intermediate")]))) (EScale (1 # 1) (EEins "abcijk->bacjik" [(EVar "contracted_intermediate")])));
   (*L1956*) SAssign "contracted_intermediate" (EScale (1 # 1) (EEins "lade,dbij,eckl->abcijk" [(ESlice (EVar "g_aaaa") [SV "o"; SV "v"; SV "v"; SV "v"]); (EVar "t2_aaaa"); (EVar "t2_aaaa")]));
   (*L1957*) SAug true "triples_res" (EAdd (EScale (1 # 1) (EVar "contracted_intermediate")) (EScale (-1 # 1) (EEins "abcijk->bacijk" [(EVar "contracted_intermediate")])));
   (*L1960*) SAssign "contracted_intermediate" (EScale (1 # 1) (EEins "alde,dbij,cekl->abcijk" [(ESlice (EVar "g_abab") [SV "v"; SV "o"; SV "v"; SV "v"]); (EVar "t2_aaaa"); (EVar "t2_abab")]));
   (*L1961*) SAug true "triples_res" (EAdd (EScale (1 # 1) (EVar "contracted_intermediate")) (EScale (-1 # 1) (EEins "abcijk->bacijk" [(EVar "contracted_intermediate")])));
   (*L1964*) SAssign "contracted_intermediate" (EScale (-1 # 2) (EEins "lcde,dejk,abil->abcijk" [(ESlice (EVar "g_aaaa") [SV "o"; SV "v"; SV "v"; SV "v"]); (EVar "t2_aaaa"); (EVar "t2_aaaa")]));
   (*L1965*) SAug true "triples_res" (EAdd (EScale (1 # 1) (EVar "contracted_intermediate")) (EScale (-1 # 1) (EEins "abcijk->abcjik" [(EVar "contracted_intermediate")])));
   (*L1968*) SAug true "triples_res" (EScale (-1 # 2) (EEins "lcde,deij,abkl->abcijk" [(ESlice (EVar "g_aaaa") [SV "o"; SV "v"; SV "v"; SV "v"]); (EVar "t2_aaaa"); (EVar "t2_aaaa")]));
   (*L1971*) SAssign "contracted_intermediate" (EScale (1 # 1) (EEins "lcde,dakl,ebij->abcijk" [(ESlice (EVar "g_aaaa") [SV "o"; SV "v"; SV "v"; SV "v"]); (EVar "t2_aaaa"); (EVar "t2_aaaa")]));
   (*L1972*) SAug true "triples_res" (EAdd (EScale (1 # 1) (EVar "contracted_intermediate")) (EScale (-1 # 1) (EEins "abcijk->abcikj" [(EVar "contracted_intermediate")])));
   (*L1975*) SAssign "contracted_intermediate" (EScale (-1 # 1) (EEins "cled,adkl,ebij->abcijk" [(ESlice (EVar "g_abab") [SV "v"; SV "o"; SV "v"; SV "v"]); (EVar "t2_abab"); (EVar "t2_aaaa")]));
   (*L1976*) SAug true "triples_res" (EAdd (EScale (1 # 1) (EVar "contracted_intermediate")) (EScale (-1 # 1) (EEins "abcijk->abcikj" [(EVar "contracted_intermediate")])));
   (*L1979*) SAug true "triples_res" (EScale (1 # 1) (EEins "lcde,dail,ebjk->abcijk" [(ESlice (EVar "g_aaaa") [SV "o"; SV "v"; SV "v"; SV "v"]); (EVar "t2_aaaa"); (EVar "t2_aaaa")]));
   (*L1982*) SAug true "triples_res" (EScale (-1 # 1) (EEins "cled,adil,ebjk->abcijk" [(ESlice (EVar "g_abab") [SV "v"; SV "o"; SV "v"; SV "v"]); (EVar "t2_abab"); (EVar "t2_aaaa")]));
   (*L1985*) SAssign "contracted_intermediate" (EScale (1 # 1) (EEins "lcde,dajk,ebil->abcijk" [(ESlice (EVar "g_aaaa") [SV "o"; SV "v"; SV "v"; SV "v"]); (EVar "t2_aaaa"); (EVar "t2_aaaa")]));
   (*L1986*) SAug true "triples_res" (EAdd (EScale (1 # 1) (EVar "contracted_intermediate")) (EScale (-1 # 1) (EEins "abcijk->abcjik" [(EVar "contracted_intermediate")])));
   (*L1989*) SAssign "contracted_intermediate" (EScale (1 # 1) (EEins "clde,dajk,beil->abcijk" [(ESlice (EVar "g_abab") [SV "v"; SV "o"; SV "v"; SV "v"]); (EVar "t2_aaaa"); (EVar "t2_abab")]));
   (*L1990*) SAug true "triples_res" (EAdd (EScale (1 # 1) (EVar "contracted_intermediate")) (EScale (-1 # 1) (EEins "abcijk->abcjik" [(EVar "contracted_intermediate")])));
   (*L1993*) SAug true "triples_res" (EScale (1 # 1) (EEins "lcde,daij,ebkl->abcijk" [(ESlice (EVar "g_aaaa") [SV "o"; SV "v"; SV "v"; SV "v"]); (EVar "t2_aaaa"); (EVar "t2_aaaa")]));
   (*L1996*) SAug true "triples_res" (EScale (1 # 1) (EEins "clde,daij,bekl->abcijk" [(ESlice (EVar "g_abab") [SV "v"; SV "o"; SV "v"; SV "v"]); (EVar "t2_aaaa"); (EVar "t2_abab")]));
   (*L1999*) SAssign "contracted_intermediate" (EScale (1 # 1) (EEins "mlde,dl,eajk,bcim->abcijk" [(ESlice (EVar "g_aaaa") [SV "o"; SV "o"; SV "v"; SV "v"]); (EVar "t1_aa"); (EVar "t2_aaaa"); (EVar "t2_aaaa")]));
   (*L2000*) SAug true "triples_res" (EAdd (EAdd (EAdd (EScale (1 # 1) (EVar "contracted_intermediate")) (EScale (-1 # 1) (EEins "abcijk->abcjik" [(EVar "contracted_intermediate")]))) (EScale (-1 # 1) (EEins "abcijk->bacijk" [(EVar "contracted_intermediate")]))) (EScale (1 # 1) (EEins "abcijk->bacjik" [(EVar "contracted_intermediate")])));
   (*L2003*) SAssign "contracted_intermediate" (EScale (-1 # 1) (EEins "mled,dl,eajk,bcim->abcijk" [(ESlice (EVar "g_abab") [SV "o"; SV "o"; SV "v"; SV "v"]); (EVar "t1_bb"); (EVar "t2_aaaa"); (EVar "t2_aaaa")]));
   (*L2004*) SAug true "triples_res" (EAdd (EAdd (EAdd (EScale (1 # 1) (EVar "contracted_intermediate")) (EScale (-1 # 1) (EEins "abcijk->abcjik" [(EVar "contracted_intermediate")]))) (EScale (-1 # 1) (EEins "abcijk->bacijk" [(EVar "contracted_intermediate")]))) (EScale (1 # 1) (EEins "abcijk->bacjik" [(EVar "contracted_intermediate")])));
   (*L2007*) SAssign "contracted_intermediate" (EScale (1 # 1) (EEins "mlde,dl,eaij,bckm->abcijk" [(ESlice (EVar "g_aaaa") [SV "o"; SV "o"; SV "v"; SV "v"]); (EVar "t1_aa"); (EVar "t2_aaaa"); (EVar "t2_aaaa")]));
   (*L2008*) SAug true "triples_res" (EAdd (EScale (1 # 1) (EVar "contracted_intermediate")) (EScale (-1 # 1) (EEins "abcijk->bacijk" [(EVar "contracted_intermediate")])));
   (*L2011*) SAssign "contracted_intermediate" (EScale (-1 # 1) (EEins "mled,dl,eaij,bckm->abcijk" [(ESlice (EVar "g_abab") [SV "o"; SV "o"; SV "v"; SV "v"]); (EVar "t1_bb"); (EVar "t2_aaaa"); (EVar "t2_aaaa")]));
   (*L2012*) SAug true "triples_res" (EAdd (EScale (1 # 1) (EVar "contracted_intermediate")) (EScale (-1 # 1) (EEins "abcijk->bacijk" [(EVar "contracted_intermediate")])));
   (*L2015*) SAssign "contracted_intermediate" (EScale (1 # 1) (EEins "mlde,dl,ecjk,abim->abcijk" [(ESlice (EVar "g_aaaa") [SV "o"; SV "o"; SV "v"; SV "v"]); (EVar "t1_aa"); (EVar "t2_aaaa"); (EVar "t2_aaaa")]));
   (*L2016*) SAug true "triples_res" (EAdd (EScale (1 # 1) (EVar "contracted_intermediate")) (EScale (-1 # 1) (EEins "abcijk->abcjik" [(EVar "contracted_intermediate")])));
   (*L2019*) SAssign "contracted_intermediate" (EScale (-1 # 1) (EEins "mled,dl,ecjk,abim->abcijk" [(ESlice (EVar "g_abab") [SV "o"; SV "o"; SV "v"; SV "v"]); (EVar "t1_bb"); (EVar "t2_aaaa"); (EVar "t2_aaaa")]));
   (*L2020*) SAug true "triples_res" (EAdd (EScale (1 # 1) (EVar "contracted_intermediate")) (EScale (-1 # 1) (EEins "abcijk->abcjik" [(EVar "contracted_intermediate")])));
   (*L2023*) SAug true "triples_res" (EScale (1 # 1) (EEins "mlde,dl,ecij,abkm->abcijk" [(ESlice (EVar "g_aaaa") [SV "o"; SV "o"; SV "v"; SV "v"]); (EVar "t1_aa"); (EVar "t2_aaaa"); (EVar "t2_aaaa")]));
   (*L2026*) SAug true "triples_res" (EScale (-1 # 1) (EEins "mled,dl,ecij,abkm->abcijk" [(ESlice (EVar "g_abab") [SV "o"; SV "o"; SV "v"; SV "v"]); (EVar "t1_bb"); (EVar "t2_aaaa"); (EVar "t2_aaaa")]));
   (*L2029*) SAssign "contracted_intermediate" (EScale (-1 # 1) (EEins "mlde,dk,eajl,bcim->abcijk" [(ESlice (EVar "g_aaaa") [SV "o"; SV "o"; SV "v"; SV "v"]); (EVar "t1_aa"); (EVar "t2_aaaa"); (EVar "t2_aaaa")]));
   (*L2030*) SAug true "triples_res" (EAdd (EAdd (EAdd (EScale (1 # 1) (EVar "contracted_intermediate")) (EScale (-1 # 1) (EEins "abcijk->abcjik" [(EVar "contracted_intermediate")]))) (EScale (-1 # 1) (EEins "abcijk->bacijk" [(EVar "contracted_intermediate")]))) (EScale (1 # 1) (EEins "abcijk->bacjik" [(EVar "contracted_intermediate")])));
   (*L2033*) SAssign "contracted_intermediate" (EScale (1 # 1) (EEins "mlde,dk,aejl,bcim->abcijk" [(ESlice (EVar "g_abab") [SV "o"; SV "o"; SV "v"; SV "v"]); (EVar "t1_aa"); (EVar "t2_abab"); (EVar "t2_aaaa")]));
   (*L2034*) SAug true "triples_res" (EAdd (EAdd (EAdd (EScale (1 # 1) (EVar "contracted_intermediate")) (EScale (-1 # 1) (EEins "abcijk->abcjik" [(EVar "contracted_intermediate")]))) (EScale (-1 # 1) (EEins "abcijk->bacijk" [(EVar "contracted_intermediate")]))) (EScale (1 # 1) (EEins "abcijk->bacjik" [(EVar "contracted_intermediate")])));
   (*L2037*) SAssign "contracted_intermediate" (EScale (1 # 2) (EEins "mlde,dk,eaij,bcml->abcijk" [(ESlice (EVar "g_aaaa") [SV "o"; SV "o"; SV "v"; SV "v"]); (EVar "t1_aa"); (EVar "t2_aaaa"); (EVar "t2_aaaa")]));
   (*L2038*) SAug true "triples_res" (EAdd (EAdd (EAdd (EScale (1 # 1) (EVar "contracted_intermediate")) (EScale (-1 # 1) (EEins "abcijk->abcikj" [(EVar "contracted_intermediate")]))) (EScale (-1 # 1) (EEins "abcijk->bacijk" [(EVar "contracted_intermediate")]))) (EScale (1 # 1) (EEins "abcijk->bacikj" [(EVar "contracted_intermediate")])));
   (*L2041*) SAssign "contracted_intermediate" (EScale (-1 # 1) (EEins "mlde,dk,ecjl,abim->abcijk" [(ESlice (EVar "g_aaaa") [SV "o"; SV "o"; SV "v"; SV "v"]); (EVar "t1_aa"); (EVar "t2_aaaa"); (EVar "t2_aaaa")]));
   (*L2042*) SAug true "triples_res" (EAdd (EScale (1 # 1) (EVar "contracted_intermediate")) (EScale (-1 # 1) (EEins "abcijk->abcjik" [(EVar "contracted_intermediate")])));
   (*L2045*) SAssign "contracted_intermediate" (EScale (1 # 1) (EEins "mlde,dk,cejl,abim->abcijk" [(ESlice (EVar "g_abab") [SV "o"; SV "o"; SV "v"; SV "v"]); (EVar "t1_aa"); (EVar "t2_abab"); (EVar "t2_aaaa")]));
   (*L2046*) SAug true "triples_res" (EAdd (EScale (1 # 1) (EVar "contracted_intermediate")) (EScale (-1 # 1) (EEins "abcijk->abcjik" [(EVar "contracted_intermediate")])));
   (*L2049*) SAssign "contracted_intermediate" (EScale (1 # 2) (EEins "mlde,dk,ecij,abml->abcijk" [(ESlice (EVar "g_aaaa") [SV "o"; SV "o"; SV "v"; SV "v"]); (EVar "t1_aa"); (EVar "t2_aaaa"); (EVar "t2_aaaa")]));
   (*L2050*) SAug true "triples_res" (EAdd (EScale (1 # 1) (EVar "contracted_intermediate")) (EScale (-1 # 1) (EEins "abcijk->abcikj" [(EVar "contracted_intermediate")])));
   (*L2053*) SAssign "contracted_intermediate" (EScale (1 # 1) (EEins "mlde,dj,eakl,bcim->abcijk" [(ESlice (EVar "g_aaaa") [SV "o"; SV "o"; SV "v"; SV "v"]); (EVar "t1_aa"); (EVar "t2_aaaa"); (EVar "t2_aaaa")]));
   (*L2054*) SAug true "triples_res" (EAdd (EAdd (EAdd (EScale (1 # 1) (EVar "contracted_intermediate")) (EScale (-1 # 1) (EEins "abcijk->abckji" [(EVar "contracted_intermediate")]))) (EScale (-1 # 1) (EEins "abcijk->bacijk" [(EVar "contracted_intermediate")]))) (EScale (1 # 1) (EEins "abcijk->backji" [(EVar "contracted_intermediate")])));
   (*L2057*) SAssign "contracted_intermediate" (EScale (-1 # 1) (EEins "mlde,dj,aekl,bcim->abcijk" [(ESlice (EVar "g_abab") [SV "o"; SV "o"; SV "v"; SV "v"]); (EVar "t1_aa"); (EVar "t2_abab"); (EVar "t2_aaaa")]));
   (*L2058*) SAug true "triples_res" (EAdd (EAdd (EAdd (EScale (1 # 1) (EVar "contracted_intermediate")) (EScale (-1 # 1) (EEins "abcijk->abckji" [(EVar "contracted_intermediate")]))) (EScale (-1 # 1) (EEins "abcijk->bacijk" [(EVar "contracted_intermediate")]))) (EScale (1 # 1) (EEins "abcijk->backji" [(EVar "contracted_intermediate")])));
   (*L2061*) SAssign "contracted_intermediate" (EScale (1 # 1) (EEins "mlde,dj,eckl,abim->abcijk" [(ESlice (EVar "g_aaaa") [SV "o"; SV "o"; SV "v"; SV "v"]); (EVar "t1_aa"); (EVar "t2_aaaa"); (EVar "t2_aaaa")]));
   (*L2062*) SAug true "triples_res" (EAdd (EScale (1 # 1) (EVar "contracted_intermediate")) (EScale (-1 # 1) (EEins "abcijk->abckji" [(EVar "contracted_intermediate")])));
   (*L2065*) SAssign "contracted_intermediate" (EScale (-1 # 1) (EEins "mlde,dj,cekl,abim->abcijk" [(ESlice (EVar "g_abab") [SV "o"; SV "o"; SV "v"; SV "v"]); (EVar "t1_aa"); (EVar "t2_abab"); (EVar "t2_aaaa")]));
   (*L2066*) SAug true "triples_res" (EAdd (EScale (1 # 1) (EVar "contracted_intermediate")) (EScale (-1 # 1) (EEins "abcijk->abckji" [(EVar "contracted_intermediate")])));
   (*L2069*) SAssign "contracted_intermediate" (EScale (-1 # 1) (EEins "mlde,di,eakl,bcjm->abcijk" [(ESlice (EVar "g_aaaa") [SV "o"; SV "o"; SV "v"; SV "v"]); (EVar "t1_aa"); (EVar "t2_aaaa"); (EVar "t2_aaaa")]));
   (*L2070*) SAug true "triples_res" (EAdd (EAdd (EAdd (EScale (1 # 1) (EVar "contracted_intermediate")) (EScale (-1 # 1) (EEins "abcijk->abcikj" [(EVar "contracted_intermediate")]))) (EScale (-1 # 1) (EEins "abcijk->bacijk" [(EVar "contracted_intermediate")]))) (EScale (1 # 1) (EEins "abcijk->bacikj" [(EVar "contracted_intermediate")])));
   (*L2073*) SAssign "contracted_intermediate" (EScale (1 # 1) (EEins "mlde,di,aekl,bcjm->abcijk" [(ESlice (EVar "g_abab") [SV "o"; SV "o"; SV "v"; SV "v"]); (EVar "t1_aa"); (EVar "t2_abab"); (EVar "t2_aaaa")]));
   (*L2074*) SAug true "triples_res" (EAdd (EAdd (EAdd (EScale (1 # 1) (EVar "contracted_intermediate")) (EScale (-1 # 1) (EEins "abcijk->abcikj" [(EVar "contracted_intermediate")]))) (EScale (-1 # 1) (EEins "abcijk->bacijk" [(EVar "contracted_intermediate")]))) (EScale (1 # 1) (EEins "abcijk->bacikj" [(EVar "contracted_intermediate")])));
   (*L2077*) SAssign "contracted_intermediate" (EScale (1 # 2) (EEins "mlde,di,eajk,bcml->abcijk" [(ESlice (EVar "g_aaaa") [SV "o"; SV "o"; SV "v"; SV "v"]); (EVar "t1_aa"); (EVar "t2_aaaa"); (EVar "t2_aaaa")]));
   (*L2078*) SAug true "triples_res" (EAdd (EScale (1 # 1) (EVar "contracted_intermediate")) (EScale (-1 # 1) (EEins "abcijk->bacijk" [(EVar "contracted_intermediate")])));
   (*L2081*) SAssign "contracted_intermediate" (EScale (-1 # 1) (EEins "mlde,di,eckl,abjm->abcijk" [(ESlice (EVar "g_aaaa") [SV "o"; SV "o"; SV "v"; SV "v"]); (EVar "t1_aa"); (EVar "t2_aaaa"); (EVar "t2_aaaa")]));
   (*L2082*) SAug true "triples_res" (EAdd (EScale (1 # 1) (EVar "contracted_intermediate")) (EScale (-1 # 1) (EEins "abcijk->abcikj" [(EVar "contracted_intermediate")])));
   (*L2085*) SAssign "contracted_intermediate" (EScale (1 # 1) (EEins "mlde,di,cekl,abjm->abcijk" [(ESlice (EVar "g_abab") [SV "o"; SV "o"; SV "v"; SV "v"]); (EVar "t1_aa"); (EVar "t2_abab"); (EVar "t2_aaaa")]));
   (*L2086*) SAug true "triples_res" (EAdd (EScale (1 # 1) (EVar "contracted_intermediate")) (EScale (-1 # 1) (EEins "abcijk->abcikj" [(EVar "contracted_intermediate")])));
   (*L2089*) SAug true "triples_res" (EScale (1 # 2) (EEins "mlde,di,ecjk,abml->abcijk" [(ESlice (EVar "g_aaaa") [SV "o"; SV "o"; SV "v"; SV "v"]); (EVar "t1_aa"); (EVar "t2_aaaa"); (EVar "t2_aaaa")]));
   (*L2092*) SAssign "contracted_intermediate" (EScale (1 # 2) (EEins "mlde,al,dejk,bcim->abcijk" [(ESlice (EVar "g_aaaa") [SV "o"; SV "o"; SV "v"; SV "v"]); (EVar "t1_aa"); (EVar "t2_aaaa"); (EVar "t2_aaaa")]));
   (*L2093*) SAug true "triples_res" (EAdd (EAdd (EAdd (EScale (1 # 1) (EVar "contracted_intermediate")) (EScale (-1 # 1) (EEins "abcijk->abcjik" [(EVar "contracted_intermediate")]))) (EScale (-1 # 1) (EEins "abcijk->bacijk" [(EVar "contracted_intermediate")]))) (EScale (1 # 1) (EEins "abcijk->bacjik" [(EVar "contracted_intermediate")])));
   (*L2096*) SAssign "contracted_intermediate" (EScale (1 # 2) (EEins "mlde,al,deij,bckm->abcijk" [(ESlice (EVar "g_aaaa") [SV "o"; SV "o"; SV "v"; SV "v"]); (EVar "t1_aa"); (EVar "t2_aaaa"); (EVar "t2_aaaa")]));
   (*L2097*) SAug true "triples_res" (EAdd (EScale (1 # 1) (EVar "contracted_intermediate")) (EScale (-1 # 1) (EEins "abcijk->bacijk" [(EVar "contracted_intermediate")])));
   (*L2100*) SAssign "contracted_intermediate" (EScale (-1 # 1) (EEins "mlde,al,dbkm,ecij->abcijk" [(ESlice (EVar "g_aaaa") [SV "o"; SV "o"; SV "v"; SV "v"]); (EVar "t1_aa"); (EVar "t2_aaaa"); (EVar "t2_aaaa")]));
   (*L2101*) SAug true "triples_res" (EAdd (EAdd (EAdd (EScale (1 # 1) (EVar "contracted_intermediate")) (EScale (-1 # 1) (EEins "abcijk->abcikj" [(EVar "contracted_intermediate")]))) (EScale (-1 # 1) (EEins "abcijk->bacijk" [(EVar "contracted_intermediate")]))) (EScale (1 # 1) (EEins "abcijk->bacikj" [(EVar "contracted_intermediate")])));
   (*L2104*) SAssign "contracted_intermediate" (EScale (1 # 1) (EEins "lmed,al,bdkm,ecij->abcijk" [(ESlice (EVar "g_abab") [SV "o"; SV "o"; SV "v"; SV "v"]); (EVar "t1_aa"); (EVar "t2_abab"); (EVar "t2_aaaa")]));
   (*L2105*) SAug true "triples_res" (EAdd (EAdd (EAdd (EScale (1 # 1) (EVar "contracted_intermediate")) (EScale (-1 # 1) (EEins "abcijk->abcikj" [(EVar "contracted_intermediate")]))) (EScale (-1 # 1) (EEins "abcijk->bacijk" [(EVar "contracted_intermediate")]))) (EScale (1 # 1) (EEins "abcijk->bacikj" [(EVar "contracted_intermediate")])));
   (*L2108*) SAssign "contracted_intermediate" (EScale (-1 # 1) (EEins "mlde,al,dbim,ecjk->abcijk" [(ESlice (EVar "g_aaaa") [SV "o"; SV "o"; SV "v"; SV "v"]); (EVar "t1_aa"); (EVar "t2_aaaa"); (EVar "t2_aaaa")]));
   (*L2109*) SAug true "triples_res" (EAdd (EScale (1 # 1) (EVar "contracted_intermediate")) (EScale (-1 # 1) (EEins "abcijk->bacijk" [(EVar "contracted_intermediate")])));
   (*L2112*) SAssign "contracted_intermediate" (EScale (1 # 1) (EEins "lmed,al,bdim,ecjk->abcijk" [(ESlice (EVar "g_abab") [SV "o"; SV "o"; SV "v"; SV "v"]); (EVar "t1_aa"); (EVar "t2_abab"); (EVar "t2_aaaa")]));
   (*L2113*) SAug true "triples_res" (EAdd (EScale (1 # 1) (EVar "contracted_intermediate")) (EScale (-1 # 1) (EEins "abcijk->bacijk" [(EVar "contracted_intermediate")])));
   (*L2116*) SAssign "contracted_intermediate" (EScale (-1 # 1) (EEins "mlde,al,dbjk,ecim->abcijk" [(ESlice (EVar "g_aaaa") [SV "o"; SV "o"; SV "v"; SV "v"]); (EVar "t1_aa"); (EVar "t2_aaaa"); (EVar "t2_aaaa")]));
   (*L2117*) SAug true "triples_res" (EAdd (EAdd (EAdd (EScale (1 # 1) (EVar "contracted_intermediate")) (EScale (-1 # 1) (EEins "abcijk->abcjik" [(EVar "contracted_intermediate")]))) (EScale (-1 # 1) (EEins "abcijk->bacijk" [(EVar "contracted_intermediate")]))) (EScale (1 # 1) (EEins "abcijk->bacjik" [(EVar "contracted_intermediate")])));
   (*L2120*) SAssign "contracted_intermediate" (EScale (-1 # 1) (EEins "lmde,al,dbjk,ceim->abcijk" [(ESlice (EVar "g_abab") [SV "o"; SV "o"; SV "v"; SV "v"]); (EVar "t1_aa"); (EVar "t2_aaaa"); (EVar "t2_abab")]));
   (*L2121*) SAug true "triples_res" (EAdd (EAdd (EAdd (EScale (1 # 1) (EVar "contracted_intermediate")) (EScale (-1 # 1) (EEins "abcijk->abcjik" [(EVar "contracted_intermediate")]))) (EScale (-1 # 1) (EEins "abcijk->bacijk" [(EVar "contracted_intermediate")]))) (EScale (1 # 1) (EEins "abcijk->bacjik" [(EVar "contracted_intermediate")])));
   (*L2124*) SAssign "contracted_intermediate" (EScale (-1 # 1) (EEins "mlde,al,dbij,eckm->abcijk" [(ESlice (EVar "g_aaaa") [SV "o"; SV "o"; SV "v"; SV "v"]); (EVar "t1_aa"); (EVar "t2_aaaa"); (EVar "t2_aaaa")]));
   (*L2125*) SAug true "triples_res" (EAdd (EScale (1 # 1) (EVar "contracted_intermediate")) (EScale (-1 # 1) (EEins "abcijk->bacijk" [(EVar "contracted_intermediate")])));
   (*L2128*) SAssign "contracted_intermediate" (EScale (-1 # 1) (EEins "lmde,al,dbij,cekm->abcijk" [(ESlice (EVar "g_abab") [SV "o"; SV "o"; SV "v"; SV "v"]); (EVar "t1_aa"); (EVar "t2_aaaa"); (EVar "t2_abab")]));
   (*L2129*) SAug true "triples_res" (EAdd (EScale (1 # 1) (EVar "contracted_intermediate")) (EScale (-1 # 1) (EEins "abcijk->bacijk" [(EVar "contracted_intermediate")])));
   (*L2132*) SAssign "contracted_intermediate" (EScale (1 # 2) (EEins "mlde,cl,dejk,abim->abcijk" [(ESlice (EVar "g_aaaa") [SV "o"; SV "o"; SV "v"; SV "v"]); (EVar "t1_aa"); (EVar "t2_aaaa"); (EVar "t2_aaaa")]));
   (*L2133*) SAug true "triples_res" (EAdd (EScale (1 # 1) (EVar "contracted_intermediate")) (EScale (-1 # 1) (EEins "abcijk->abcjik" [(EVar "contracted_intermediate")])));
   (*L2136*) SAug true "triples_res" (EScale (1 # 2) (EEins "mlde,cl,deij,abkm->abcijk" [(ESlice (EVar "g_aaaa") [SV "o"; SV "o"; SV "v"; SV "v"]); (EVar "t1_aa"); (EVar "t2_aaaa"); (EVar "t2_aaaa")]));
   (*L2139*) SAssign "contracted_intermediate" (EScale (-1 # 1) (EEins "mlde,cl,dakm,ebij->abcijk" [(ESlice (EVar "g_aaaa") [SV "o"; SV "o"; SV "v"; SV "v"]); (EVar "t1_aa"); (EVar "t2_aaaa"); (EVar "t2_aaaa")]));
   (*L2140*) SAug true "triples_res" (EAdd (EScale (1 # 1) (EVar "contracted_intermediate")) (EScale (-1 # 1) (EEins "abcijk->abcikj" [(EVar "contracted_intermediate")])));
   (*L2143*) SAssign "contracted_intermediate" (EScale (1 # 1) (EEins "lmed,cl,adkm,ebij->abcijk" [(ESlice (EVar "g_abab") [SV "o"; SV "o"; SV "v"; SV "v"]); (EVar "t1_aa"); (EVar "t2_abab"); (EVar "t2_aaaa")]));
   (*L2144*) SAug true "triples_res" (EAdd (EScale (1 # 1) (EVar "contracted_intermediate")) (EScale (-1 # 1) (EEins "abcijk->abcikj" [(EVar "contracted_intermediate")])));
   (*L2147*) SAug true "triples_res" (EScale (-1 # 1) (EEins "mlde,cl,daim,ebjk->abcijk" [(ESlice (EVar "g_aaaa") [SV "o"; SV "o"; SV "v"; SV "v"]); (EVar "t1_aa"); (EVar "t2_aaaa"); (EVar "t2_aaaa")]));
   (*L2150*) SAug true "triples_res" (EScale (1 # 1) (EEins "lmed,cl,adim,ebjk->abcijk" [(ESlice (EVar "g_abab") [SV "o"; SV "o"; SV "v"; SV "v"]); (EVar "t1_aa"); (EVar "t2_abab"); (EVar "t2_aaaa")]));
   (*L2153*) SAssign "contracted_intermediate" (EScale (-1 # 1) (EEins "mlde,cl,dajk,ebim->abcijk" [(ESlice (EVar "g_aaaa") [SV "o"; SV "o"; SV "v"; SV "v"]); (EVar "t1_aa"); (EVar "t2_aaaa"); (EVar "t2_aaaa")]));
   (*L2154*) SAug true "triples_res" (EAdd (EScale (1 # 1) (EVar "contracted_intermediate")) (EScale (-1 # 1) (EEins "abcijk->abcjik" [(EVar "contracted_intermediate")])));
   (*L2157*) SAssign "contracted_intermediate" (EScale (-1 # 1) (EEins "lmde,cl,dajk,beim->abcijk" [(ESlice (EVar "g_abab") [SV "o"; SV "o"; SV "v"; SV "v"]); (EVar "t1_aa"); (EVar "t2_aaaa"); (EVar "t2_abab")]));
   (*L2158*) SAug true "triples_res" (EAdd (EScale (1 # 1) (EVar "contracted_intermediate")) (EScale (-1 # 1) (EEins "abcijk->abcjik" [(EVar "contracted_intermediate")])));
   (*L2161*) SAug true "triples_res" (EScale (-1 # 1) (EEins "mlde,cl,daij,ebkm->abcijk" [(ESlice (EVar "g_aaaa") [SV "o"; SV "o"; SV "v"; SV "v"]); (EVar "t1_aa"); (EVar "t2_aaaa"); (EVar "t2_aaaa")]));
   (*L2164*) SAug true "triples_res" (EScale (-1 # 1) (EEins "lmde,cl,daij,bekm->abcijk" [(ESlice (EVar "g_abab") [SV "o"; SV "o"; SV "v"; SV "v"]); (EVar "t1_aa"); (EVar "t2_aaaa"); (EVar "t2_abab")]));
   (*L2167*) SAssign "contracted_intermediate" (EScale (1 # 1) (EEins "mldk,dj,al,bcim->abcijk" [(ESlice (EVar "g_aaaa") [SV "o"; SV "o"; SV "v"; SV "o"]); (EVar "t1_aa"); (EVar "t1_aa"); (EVar "t2_aaaa")]));
   (*L2168*) SAug true "triples_res" (EAdd (EAdd (EAdd (EScale (1 # 1) (EVar "contracted_intermediate")) (EScale (-1 # 1) (EEins "abcijk->abcjik" [(EVar "contracted_intermediate")]))) (EScale (-1 # 1) (EEins "abcijk->bacijk" [(EVar "contracted_intermediate")]))) (EScale (1 # 1) (EEins "abcijk->bacjik" [(EVar "contracted_intermediate")])));
   (*L2171*) SAssign "contracted_intermediate" (EScale (1 # 1) (EEins "mldk,dj,cl,abim->abcijk" [(ESlice (EVar "g_aaaa") [SV "o"; SV "o"; SV "v"; SV "o"]); (EVar "t1_aa"); (EVar "t1_aa"); (EVar "t2_aaaa")]));
   (*L2172*) SAug true "triples_res" (EAdd (EScale (1 # 1) (EVar "contracted_intermediate")) (EScale (-1 # 1) (EEins "abcijk->abcjik" [(EVar "contracted_intermediate")])));
   (*L2175*) SAssign "contracted_intermediate" (EScale (1 # 1) (EEins "mldk,al,bm,dcij->abcijk" [(ESlice (EVar "g_aaaa") [SV "o"; SV "o"; SV "v"; SV "o"]); (EVar "t1_aa"); (EVar "t1_aa"); (EVar "t2_aaaa")]));
   (*L2176*) SAug true "triples_res" (EAdd (EAdd (EAdd (EScale (1 # 1) (EVar "contracted_intermediate")) (EScale (-1 # 1) (EEins "abcijk->abcikj" [(EVar "contracted_intermediate")]))) (EScale (-1 # 1) (EEins "abcijk->acbijk" [(EVar "contracted_intermediate")]))) (EScale (1 # 1) (EEins "abcijk->acbikj" [(EVar "contracted_intermediate")])));
   (*L2179*) SAssign "contracted_intermediate" (EScale (1 # 1) (EEins "mldk,bl,cm,daij->abcijk" [(ESlice (EVar "g_aaaa") [SV "o"; SV "o"; SV "v"; SV "o"]); (EVar "t1_aa"); (EVar "t1_aa"); (EVar "t2_aaaa")]));
   (*L2180*) SAug true "triples_res" (EAdd (EScale (1 # 1) (EVar "contracted_intermediate")) (EScale (-1 # 1) (EEins "abcijk->abcikj" [(EVar "contracted_intermediate")])));
   (*L2183*) SAssign "contracted_intermediate" (EScale (-1 # 1) (EEins "mldj,dk,al,bcim->abcijk" [(ESlice (EVar "g_aaaa") [SV "o"; SV "o"; SV "v"; SV "o"]); (EVar "t1_aa"); (EVar "t1_aa"); (EVar "t2_aaaa")]));
   (*L2184*) SAug true "triples_res" (EAdd (EAdd (EAdd (EScale (1 # 1) (EVar "contracted_intermediate")) (EScale (-1 # 1) (EEins "abcijk->abckji" [(EVar "contracted_intermediate")]))) (EScale (-1 # 1) (EEins "abcijk->bacijk" [(EVar "contracted_intermediate")]))) (EScale (1 # 1) (EEins "abcijk->backji" [(EVar "contracted_intermediate")])));
   (*L2187*) SAssign "contracted_intermediate" (EScale (-1 # 1) (EEins "mldj,dk,cl,abim->abcijk" [(ESlice (EVar "g_aaaa") [SV "o"; SV "o"; SV "v"; SV "o"]); (EVar "t1_aa"); (EVar "t1_aa"); (EVar "t2_aaaa")]));
   (*L2188*) SAug true "triples_res" (EAdd (EScale (1 # 1) (EVar "contracted_intermediate")) (EScale (-1 # 1) (EEins "abcijk->abckji" [(EVar "contracted_intermediate")])));
   (*L2191*) SAssign "contracted_intermediate" (EScale (1 # 1) (EEins "mldi,dk,al,bcjm->abcijk" [(ESlice (EVar "g_aaaa") [SV "o"; SV "o"; SV "v"; SV "o"]); (EVar "t1_aa"); (EVar "t1_aa"); (EVar "t2_aaaa")]));
   (*L2192*) SAug true "triples_res" (EAdd (EAdd (EAdd (EScale (1 # 1) (EVar "contracted_intermediate")) (EScale (-1 # 1) (EEins "abcijk->abcikj" [(EVar "contracted_intermediate")]))) (EScale (-1 # 1) (EEins "abcijk->bacijk" [(EVar "contracted_intermediate")]))) (EScale (1 # 1) (EEins "abcijk->bacikj" [(EVar "contracted_intermediate")])));
   (*L2195*) SAssign "contracted_intermediate" (EScale (1 # 1) (EEins "mldi,dk,cl,abjm->abcijk" [(ESlice (EVar "g_aaaa") [SV "o"; SV "o"; SV "v"; SV "o"]); (EVar "t1_aa"); (EVar "t1_aa"); (EVar "t2_aaaa")]));
   (*L2196*) SAug true "triples_res" (EAdd (EScale (1 # 1) (EVar "contracted_intermediate")) (EScale (-1 # 1) (EEins "abcijk->abcikj" [(EVar "contracted_intermediate")])));
   (*L2199*) SAssign "contracted_intermediate" (EScale (1 # 1) (EEins "mldi,al,bm,dcjk->abcijk" [(ESlice (EVar "g_aaaa") [SV "o"; SV "o"; SV "v"; SV "o"]); (EVar "t1_aa"); (EVar "t1_aa"); (EVar "t2_aaaa")]));
   (*L2200*) SAug true "triples_res" (EAdd (EScale (1 # 1) (EVar "contracted_intermediate")) (EScale (-1 # 1) (EEins "abcijk->acbijk" [(EVar "contracted_intermediate")])));
   (*L2203*) SAug true "triples_res" (EScale (1 # 1) (EEins "mldi,bl,cm,dajk->abcijk" [(ESlice (EVar "g_aaaa") [SV "o"; SV "o"; SV "v"; SV "o"]); (EVar "t1_aa"); (EVar "t1_aa"); (EVar "t2_aaaa")]));
   (*L2206*) SAssign "contracted_intermediate" (EScale (1 # 1) (EEins "lade,dk,ej,bcil->abcijk" [(ESlice (EVar "g_aaaa") [SV "o"; SV "v"; SV "v"; SV "v"]); (EVar "t1_aa"); (EVar "t1_aa"); (EVar "t2_aaaa")]));
   (*L2207*) SAug true "triples_res" (EAdd (EAdd (EAdd (EScale (1 # 1) (EVar "contracted_intermediate")) (EScale (-1 # 1) (EEins "abcijk->abcjik" [(EVar "contracted_intermediate")]))) (EScale (-1 # 1) (EEins "abcijk->bacijk" [(EVar "contracted_intermediate")]))) (EScale (1 # 1) (EEins "abcijk->bacjik" [(EVar "contracted_intermediate")])));
   (*L2210*) SAssign "contracted_intermediate" (EScale (1 # 1) (EEins "lade,dk,bl,ecij->abcijk" [(ESlice (EVar "g_aaaa") [SV "o"; SV "v"; SV "v"; SV "v"]); (EVar "t1_aa"); (EVar "t1_aa"); (EVar "t2_aaaa")]));
   (*L2211*) SAug true "triples_res" (EAdd (EAdd (EAdd (EScale (1 # 1) (EVar "contracted_intermediate")) (EScale (-1 # 1) (EEins "abcijk->abcikj" [(EVar "contracted_intermediate")]))) (EScale (-1 # 1) (EEins "abcijk->acbijk" [(EVar "contracted_intermediate")]))) (EScale (1 # 1) (EEins "abcijk->acbikj" [(EVar "contracted_intermediate")])));
   (*L2214*) SAssign "contracted_intermediate" (EScale (1 # 1) (EEins "lade,dj,ei,bckl->abcijk" [(ESlice (EVar "g_aaaa") [SV "o"; SV "v"; SV "v"; SV "v"]); (EVar "t1_aa"); (EVar "t1_aa"); (EVar "t2_aaaa")]));
   (*L2215*) SAug true "triples_res" (EAdd (EScale (1 # 1) (EVar "contracted_intermediate")) (EScale (-1 # 1) (EEins "abcijk->bacijk" [(EVar "contracted_intermediate")])));
   (*L2218*) SAssign "contracted_intermediate" (EScale (1 # 1) (EEins "lade,di,bl,ecjk->abcijk" [(ESlice (EVar "g_aaaa") [SV "o"; SV "v"; SV "v"; SV "v"]); (EVar "t1_aa"); (EVar "t1_aa"); (EVar "t2_aaaa")]));
   (*L2219*) SAug true "triples_res" (EAdd (EScale (1 # 1) (EVar "contracted_intermediate")) (EScale (-1 # 1) (EEins "abcijk->acbijk" [(EVar "contracted_intermediate")])));
   (*L2222*) SAssign "contracted_intermediate" (EScale (-1 # 1) (EEins "lbde,dk,al,ecij->abcijk" [(ESlice (EVar "g_aaaa") [SV "o"; SV "v"; SV "v"; SV "v"]); (EVar "t1_aa"); (EVar "t1_aa"); (EVar "t2_aaaa")]));
   (*L2223*) SAug true "triples_res" (EAdd (EAdd (EAdd (EScale (1 # 1) (EVar "contracted_intermediate")) (EScale (-1 # 1) (EEins "abcijk->abcikj" [(EVar "contracted_intermediate")]))) (EScale (-1 # 1) (EEins "abcijk->cbaijk" [(EVar "contracted_intermediate")]))) (EScale (1 # 1) (EEins "abcijk->cbaikj" [(EVar "contracted_intermediate")])));
   (*L2226*) SAssign "contracted_intermediate" (EScale (-1 # 1) (EEins "lbde,di,al,ecjk->abcijk" [(ESlice (EVar "g_aaaa") [SV "o"; SV "v"; SV "v"; SV "v"]); (EVar "t1_aa"); (EVar "t1_aa"); (EVar "t2_aaaa")]));
   (*L2227*) SAug true "triples_res" (EAdd (EScale (1 # 1) (EVar "contracted_intermediate")) (EScale (-1 # 1) (EEins "abcijk->cbaijk" [(EVar "contracted_intermediate")])));
   (*L2230*) SAssign "contracted_intermediate" (EScale (1 # 1) (EEins "lcde,dk,ej,abil->abcijk" [(ESlice (EVar "g_aaaa") [SV "o"; SV "v"; SV "v"; SV "v"]); (EVar "t1_aa"); (EVar "t1_aa"); (EVar "t2_aaaa")]));
   (*L2231*) SAug true "triples_res" (EAdd (EScale (1 # 1) (EVar "contracted_intermediate")) (EScale (-1 # 1) (EEins "abcijk->abcjik" [(EVar "contracted_intermediate")])));
   (*L2234*) SAssign "contracted_intermediate" (EScale (1 # 1) (EEins "lcde,dk,al,ebij->abcijk" [(ESlice (EVar "g_aaaa") [SV "o"; SV "v"; SV "v"; SV "v"]); (EVar "t1_aa"); (EVar "t1_aa"); (EVar "t2_aaaa")]));
   (*L2235*) SAug true "triples_res" (EAdd (EAdd (EAdd (EScale (1 # 1) (EVar "contracted_intermediate")) (EScale (-1 # 1) (EEins "abcijk->abcikj" [(EVar "contracted_intermediate")]))) (EScale (-1 # 1) (EEins "abcijk->bacijk" [(EVar "contracted_intermediate")]))) (EScale (1 # 1) (EEins "abcijk->bacikj" [(EVar "contracted_intermediate")])));
   (*L2238*) SAug true "triples_res" (EScale (1 # 1) (EEins "lcde,dj,ei,abkl->abcijk" [(ESlice (EVar "g_aaaa") [SV "o"; SV "v"; SV "v"; SV "v"]); (EVar "t1_aa"); (EVar "t1_aa"); (EVar "t2_aaaa")]));
   (*L2241*) SAssign "contracted_intermediate" (EScale (1 # 1) (EEins "lcde,di,al,ebjk->abcijk" [(ESlice (EVar "g_aaaa") [SV "o"; SV "v"; SV "v"; SV "v"]); (EVar "t1_aa"); (EVar "t1_aa"); (EVar "t2_aaaa")]));
   (*L2242*) SAug true "triples_res" (EAdd (EScale (1 # 1) (EVar "contracted_intermediate")) (EScale (-1 # 1) (EEins "abcijk->bacijk" [(EVar "contracted_intermediate")])));
   (*L2245*) SAssign "contracted_intermediate" (EScale (1 # 1) (EEins "mlde,dl,ek,abcijm->abcijk" [(ESlice (EVar "g_aaaa") [SV "o"; SV "o"; SV "v"; SV "v"]); (EVar "t1_aa"); (EVar "t1_aa"); (EVar "t3_aaaaaa")]));
   (*L2246*) SAug true "triples_res" (EAdd (EScale (1 # 1) (EVar "contracted_intermediate")) (EScale (-1 # 1) (EEins "abcijk->abcikj" [(EVar "contracted_intermediate")])));
   (*L2249*) SAssign "contracted_intermediate" (EScale (-1 # 1) (EEins "mled,dl,ek,abcijm->abcijk" [(ESlice (EVar "g_abab") [SV "o"; SV "o"; SV "v"; SV "v"]); (EVar "t1_bb"); (EVar "t1_aa"); (EVar "t3_aaaaaa")]));
   (*L2250*) SAug true "triples_res" (EAdd (EScale (1 # 1) (EVar "contracted_intermediate")) (EScale (-1 # 1) (EEins "abcijk->abcikj" [(EVar "contracted_intermediate")])));
   (*L2253*) SAug true "triples_res" (EScale (1 # 1) (EEins "mlde,dl,ei,abcjkm->abcijk" [(ESlice (EVar "g_aaaa") [SV "o"; SV "o"; SV "v"; SV "v"]); (EVar "t1_aa"); (EVar "t1_aa"); (EVar "t3_aaaaaa")]));
   (*L2256*) SAug true "triples_res" (EScale (-1 # 1) (EEins "mled,dl,ei,abcjkm->abcijk" [(ESlice (EVar "g_abab") [SV "o"; SV "o"; SV "v"; SV "v"]); (EVar "t1_bb"); (EVar "t1_aa"); (EVar "t3_aaaaaa")]));
   (*L2259*) SAssign "contracted_intermediate" (EScale (1 # 1) (EEins "mlde,dl,am,ebcijk->abcijk" [(ESlice (EVar "g_aaaa") [SV "o"; SV "o"; SV "v"; SV "v"]); (EVar "t1_aa"); (EVar "t1_aa"); (EVar "t3_aaaaaa")]));
   (*L2260*) SAug true "triples_res" (EAdd (EScale (1 # 1) (EVar "contracted_intermediate")) (EScale (-1 # 1) (EEins "abcijk->bacijk" [(EVar "contracted_intermediate")])));
   (*L2263*) SAssign "contracted_intermediate" (EScale (-1 # 1) (EEins "mled,dl,am,ebcijk->abcijk" [(ESlice (EVar "g_abab") [SV "o"; SV "o"; SV "v"; SV "v"]); (EVar "t1_bb"); (EVar "t1_aa"); (EVar "t3_aaaaaa")]));
   (*L2264*) SAug true "triples_res" (EAdd (EScale (1 # 1) (EVar "contracted_intermediate")) (EScale (-1 # 1) (EEins "abcijk->bacijk" [(EVar "contracted_intermediate")])));
   (*L2267*) SAug true "triples_res" (EScale (1 # 1) (EEins "mlde,dl,cm,eabijk->abcijk" [(ESlice (EVar "g_aaaa") [SV "o"; SV "o"; SV "v"; SV "v"]); (EVar "t1_aa"); (EVar "t1_aa"); (EVar "t3_aaaaaa")]));
   (*L2270*) SAug true "triples_res" (EScale (-1 # 1) (EEins "mled,dl,cm,eabijk->abcijk" [(ESlice (EVar "g_abab") [SV "o"; SV "o"; SV "v"; SV "v"]); (EVar "t1_bb"); (EVar "t1_aa"); (EVar "t3_aaaaaa")]));
   (*L2273*) SAssign "contracted_intermediate" (EScale (-1 # 2) (EEins "mlde,dk,ej,abciml->abcijk" [(ESlice (EVar "g_aaaa") [SV "o"; SV "o"; SV "v"; SV "v"]); (EVar "t1_aa"); (EVar "t1_aa"); (EVar "t3_aaaaaa")]));
   (*L2274*) SAug true "triples_res" (EAdd (EScale (1 # 1) (EVar "contracted_intermediate")) (EScale (-1 # 1) (EEins "abcijk->abcjik" [(EVar "contracted_intermediate")])));
   (*L2277*) SAssign "contracted_intermediate" (EScale (1 # 1) (EEins "mlde,dk,al,ebcijm->abcijk" [(ESlice (EVar "g_aaaa") [SV "o"; SV "o"; SV "v"; SV "v"]); (EVar "t1_aa"); (EVar "t1_aa"); (EVar "t3_aaaaaa")]));
   (*L2278*) SAug true "triples_res" (EAdd (EAdd (EAdd (EScale (1 # 1) (EVar "contracted_intermediate")) (EScale (-1 # 1) (EEins "abcijk->abcikj" [(EVar "contracted_intermediate")]))) (EScale (-1 # 1) (EEins "abcijk->bacijk" [(EVar "contracted_intermediate")]))) (EScale (1 # 1) (EEins "abcijk->bacikj" [(EVar "contracted_intermediate")])));
   (*L2281*) SAssign "contracted_intermediate" (EScale (1 # 1) (EEins "lmde,dk,al,cbeijm->abcijk" [(ESlice (EVar "g_abab") [SV "o"; SV "o"; SV "v"; SV "v"]); (EVar "t1_aa"); (EVar "t1_aa"); (EVar "t3_aabaab")]));
   (*L2282*) SAug true "triples_res" (EAdd (EAdd (EAdd (EScale (1 # 1) (EVar "contracted_intermediate")) (EScale (-1 # 1) (EEins "abcijk->abcikj" [(EVar "contracted_intermediate")]))) (EScale (-1 # 1) (EEins "abcijk->bacijk" [(EVar "contracted_intermediate")]))) (EScale (1 # 1) (EEins "abcijk->bacikj" [(EVar "contracted_intermediate")])));
   (*L2285*) SAssign "contracted_intermediate" (EScale (1 # 1) (EEins "mlde,dk,cl,eabijm->abcijk" [(ESlice (EVar "g_aaaa") [SV "o"; SV "o"; SV "v"; SV "v"]); (EVar "t1_aa"); (EVar "t1_aa"); (EVar "t3_aaaaaa")]));
   (*L2286*) SAug true "triples_res" (EAdd (EScale (1 # 1) (EVar "contracted_intermediate")) (EScale (-1 # 1) (EEins "abcijk->abcikj" [(EVar "contracted_intermediate")])));
   (*L2289*) SAssign "contracted_intermediate" (EScale (1 # 1) (EEins "lmde,dk,cl,baeijm->abcijk" [(ESlice (EVar "g_abab") [SV "o"; SV "o"; SV "v"; SV "v"]); (EVar "t1_aa"); (EVar "t1_aa"); (EVar "t3_aabaab")]));
   (*L2290*) SAug true "triples_res" (EAdd (EScale (1 # 1) (EVar "contracted_intermediate")) (EScale (-1 # 1) (EEins "abcijk->abcikj" [(EVar "contracted_intermediate")])));
   (*L2293*) SAug true "triples_res" (EScale (-1 # 2) (EEins "mlde,dj,ei,abckml->abcijk" [(ESlice (EVar "g_aaaa") [SV "o"; SV "o"; SV "v"; SV "v"]); (EVar "t1_aa"); (EVar "t1_aa"); (EVar "t3_aaaaaa")]));
   (*L2296*) SAssign "contracted_intermediate" (EScale (1 # 1) (EEins "mlde,di,al,ebcjkm->abcijk" [(ESlice (EVar "g_aaaa") [SV "o"; SV "o"; SV "v"; SV "v"]); (EVar "t1_aa"); (EVar "t1_aa"); (EVar "t3_aaaaaa")]));
   (*L2297*) SAug true "triples_res" (EAdd (EScale (1 # 1) (EVar "contracted_intermediate")) (EScale (-1 # 1) (EEins "abcijk->bacijk" [(EVar "contracted_intermediate")])));
   (*L2300*) SAssign "contracted_intermediate" (EScale (1 # 1) (EEins "lmde,di,al,cbejkm->abcijk" [(ESlice (EVar "g_abab") [SV "o"; SV "o"; SV "v"; SV "v"]); (EVar "t1_aa"); (EVar "t1_aa"); (EVar "t3_aabaab")]));
   (*L2301*) SAug true "triples_res" (EAdd (EScale (1 # 1) (EVar "contracted_intermediate")) (EScale (-1 # 1) (EEins "abcijk->bacijk" [(EVar "contracted_intermediate")])));
   (*L2304*) SAug true "triples_res" (EScale (1 # 1) (EEins "mlde,di,cl,eabjkm->abcijk" [(ESlice (EVar "g_aaaa") [SV "o"; SV "o"; SV "v"; SV "v"]); (EVar "t1_aa"); (EVar "t1_aa"); (EVar "t3_aaaaaa")]));
   (*L2307*) SAug true "triples_res" (EScale (1 # 1) (EEins "lmde,di,cl,baejkm->abcijk" [(ESlice (EVar "g_abab") [SV "o"; SV "o"; SV "v"; SV "v"]); (EVar "t1_aa"); (EVar "t1_aa"); (EVar "t3_aabaab")]));
   (*L2310*) SAssign "contracted_intermediate" (EScale (-1 # 2) (EEins "mlde,al,bm,decijk->abcijk" [(ESlice (EVar "g_aaaa") [SV "o"; SV "o"; SV "v"; SV "v"]); (EVar "t1_aa"); (EVar "t1_aa"); (EVar "t3_aaaaaa")]));
   (*L2311*) SAug true "triples_res" (EAdd (EScale (1 # 1) (EVar "contracted_intermediate")) (EScale (-1 # 1) (EEins "abcijk->acbijk" [(EVar "contracted_intermediate")])));
   (*L2314*) SAug true "triples_res" (EScale (-1 # 2) (EEins "mlde,bl,cm,deaijk->abcijk" [(ESlice (EVar "g_aaaa") [SV "o"; SV "o"; SV "v"; SV "v"]); (EVar "t1_aa"); (EVar "t1_aa"); (EVar "t3_aaaaaa")]));
   (*L2317*) SAssign "contracted_intermediate" (EScale (-1 # 1) (EEins "mlde,dk,ej,al,bcim->abcijk" [(ESlice (EVar "g_aaaa") [SV "o"; SV "o"; SV "v"; SV "v"]); (EVar "t1_aa"); (EVar "t1_aa"); (EVar "t1_aa"); (EVar "t2_aaaa")]));
   (*L2318*) SAug true "triples_res" (EAdd (EAdd (EAdd (EScale (1 # 1) (EVar "contracted_intermediate")) (EScale (-1 # 1) (EEins "abcijk->abcjik" [(EVar "contracted_intermediate")]))) (EScale (-1 # 1) (EEins "abcijk->bacijk" [(EVar "contracted_intermediate")]))) (EScale (1 # 1) (EEins "abcijk->bacjik" [(EVar "contracted_intermediate")])));
   (*L2321*) SAssign "contracted_intermediate" (EScale (-1 # 1) (EEins "mlde,dk,ej,cl,abim->abcijk" [(ESlice (EVar "g_aaaa") [SV "o"; SV "o"; SV "v"; SV "v"]); (EVar "t1_aa"); (EVar "t1_aa"); (EVar "t1_aa"); (EVar "t2_aaaa")]));
   (*L2322*) SAug true "triples_res" (EAdd (EScale (1 # 1) (EVar "contracted_intermediate")) (EScale (-1 # 1) (EEins "abcijk->abcjik" [(EVar "contracted_intermediate")])));
   (*L2325*) SAssign "contracted_intermediate" (EScale (-1 # 1) (EEins "mlde,dk,al,bm,ecij->abcijk" [(ESlice (EVar "g_aaaa") [SV "o"; SV "o"; SV "v"; SV "v"]); (EVar "t1_aa"); (EVar "t1_aa"); (EVar "t1_aa"); (EVar "t2_aaaa")]));
   (*L2326*) SAug true "triples_res" (EAdd (EAdd (EAdd (EScale (1 # 1) (EVar "contracted_intermediate")) (EScale (-1 # 1) (EEins "abcijk->abcikj" [(EVar "contracted_intermediate")]))) (EScale (-1 # 1) (EEins "abcijk->acbijk" [(EVar "contracted_intermediate")]))) (EScale (1 # 1) (EEins "abcijk->acbikj" [(EVar "contracted_intermediate")])));
   (*L2329*) SAssign "contracted_intermediate" (EScale (-1 # 1) (EEins "mlde,dk,bl,cm,eaij->abcijk" [(ESlice (EVar "g_aaaa") [SV "o"; SV "o"; SV "v"; SV "v"]); (EVar "t1_aa"); (EVar "t1_aa"); (EVar "t1_aa"); (EVar "t2_aaaa")]));
   (*L2330*) SAug true "triples_res" (EAdd (EScale (1 # 1) (EVar "contracted_intermediate")) (EScale (-1 # 1) (EEins "abcijk->abcikj" [(EVar "contracted_intermediate")])));
   (*L2333*) SAssign "contracted_intermediate" (EScale (-1 # 1) (EEins "mlde,dj,ei,al,bckm->abcijk" [(ESlice (EVar "g_aaaa") [SV "o"; SV "o"; SV "v"; SV "v"]); (EVar "t1_aa"); (EVar "t1_aa"); (EVar "t1_aa"); (EVar "t2_aaaa")]));
   (*L2334*) SAug true "triples_res" (EAdd (EScale (1 # 1) (EVar "contracted_intermediate")) (EScale (-1 # 1) (EEins "abcijk->bacijk" [(EVar "contracted_intermediate")])));
   (*L2337*) SAug true "triples_res" (EScale (-1 # 1) (EEins "mlde,dj,ei,cl,abkm->abcijk" [(ESlice (EVar "g_aaaa") [SV "o"; SV "o"; SV "v"; SV "v"]); (EVar "t1_aa"); (EVar "t1_aa"); (EVar "t1_aa"); (EVar "t2_aaaa")]));
   (*L2340*) SAssign "contracted_intermediate" (EScale (-1 # 1) (EEins "mlde,di,al,bm,ecjk->abcijk" [(ESlice (EVar "g_aaaa") [SV "o"; SV "o"; SV "v"; SV "v"]); (EVar "t1_aa"); (EVar "t1_aa"); (EVar "t1_aa"); (EVar "t2_aaaa")]));
   (*L2341*) SAug true "triples_res" (EAdd (EScale (1 # 1) (EVar "contracted_intermediate")) (EScale (-1 # 1) (EEins "abcijk->acbijk" [(EVar "contracted_intermediate")])));
   (*L2344*) SAug true "triples_res" (EScale (-1 # 1) (EEins "mlde,di,bl,cm,eajk->abcijk" [(ESlice (EVar "g_aaaa") [SV "o"; SV "o"; SV "v"; SV "v"]); (EVar "t1_aa"); (EVar "t1_aa"); (EVar "t1_aa"); (EVar "t2_aaaa")]))]
  (*L2346*) (EVar "triples_res").

(** /repo/UT2/fullCCresidEqns.py:2349-3568  def ccsdt_t3_aabaab_residual *)
Definition ccsdt_t3_aabaab_residual : fn := mkFn
  ["t1_aa"; "t1_bb"; "t2_aaaa"; "t2_bbbb"; "t2_abab"; "t3_aaaaaa"; "t3_aabaab"; "t3_abbabb"; "t3_bbbbbb"; "f_aa"; "f_bb"; "g_aaaa"; "g_bbbb"; "g_abab"; "oa"; "ob"; "va"; "vb"]
  [(*L2353*) SAssign "o" (EVar "oa");
   (*L2354*) SAssign "v" (EVar "va");
   (*L2357*) SAssign "triples_res" (EScale (-1 # 1) (EEins "lk,abcijl->abcijk" [(ESlice (EVar "f_bb") [SV "o"; SV "o"]); (EVar "t3_aabaab")]));
   (*L2360*) SAug true "triples_res" (EScale (-1 # 1) (EEins "lj,abcilk->abcijk" [(ESlice (EVar "f_aa") [SV "o"; SV "o"]); (EVar "t3_aabaab")]));
   (*L2363*) SAug true "triples_res" (EScale (1 # 1) (EEins "li,abcjlk->abcijk" [(ESlice (EVar "f_aa") [SV "o"; SV "o"]); (EVar "t3_aabaab")]));
   (*L2366*) SAssign "contracted_intermediate" (EScale (1 # 1) (EEins "ad,dbcijk->abcijk" [(ESlice (EVar "f_aa") [SV "v"; SV "v"]); (EVar "t3_aabaab")]));
   (*L2367*) SAug true "triples_res" (EAdd (EScale (1 # 1) (EVar "contracted_intermediate")) (EScale (-1 # 1) (EEins "abcijk->bacijk" [(EVar "contracted_intermediate")])));
   (*L2370*) SAug true "triples_res" (EScale (-1 # 1) (EEins "cd,badijk->abcijk" [(ESlice (EVar "f_bb") [SV "v"; SV "v"]); (EVar "t3_aabaab")]));
   (*L2373*) SAug true "triples_res" (EScale (-1 # 1) (EEins "ld,dk,abcijl->abcijk" [(ESlice (EVar "f_bb") [SV "o"; SV "v"]); (EVar "t1_bb"); (EVar "t3_aabaab")]));
   (*L2376*) SAug true "triples_res" (EScale (-1 # 1) (EEins "ld,dj,abcilk->abcijk" [(ESlice (EVar "f_aa") [SV "o"; SV "v"]); (EVar "t1_aa"); (EVar "t3_aabaab")]));
   (*L2379*) SAug true "triples_res" (EScale (1 # 1) (EEins "ld,di,abcjlk->abcijk" [(ESlice (EVar "f_aa") [SV "o"; SV "v"]); (EVar "t1_aa"); (EVar "t3_aabaab")]));
   (*L2382*) SAssign "contracted_intermediate" (EScale (-1 # 1) (EEins "ld,al,dbcijk->abcijk" [(ESlice (EVar "f_aa") [SV "o"; SV "v"]); (EVar "t1_aa"); (EVar "t3_aabaab")]));
   (*L2383*) SAug true "triples_res" (EAdd (EScale (1 # 1) (EVar "contracted_intermediate")) (EScale (-1 # 1) (EEins "abcijk->bacijk" [(EVar "contracted_intermediate")])));
   (*L2386*) SAug true "triples_res" (EScale (1 # 1) (EEins "ld,cl,badijk->abcijk" [(ESlice (EVar "f_bb") [SV "o"; SV "v"]); (EVar "t1_bb"); (EVar "t3_aabaab")]));
   (*L2389*) SAssign "contracted_intermediate" (EScale (1 # 1) (EEins "ld,adjk,bcil->abcijk" [(ESlice (EVar "f_bb") [SV "o"; SV "v"]); (EVar "t2_abab"); (EVar "t2_abab")]));
   (*L2390*) SAug true "triples_res" (EAdd (EAdd (EAdd (EScale (1 # 1) (EVar "contracted_intermediate")) (EScale (-1 # 1) (EEins "abcijk->abcjik" [(EVar "contracted_intermediate")]))) (EScale (-1 # 1) (EEins "abcijk->bacijk" [(EVar "contracted_intermediate")]))) (EScale (1 # 1) (EEins "abcijk->bacjik" [(EVar "contracted_intermediate")])));
   (*L2393*) SAssign "contracted_intermediate" (EScale (1 # 1) (EEins "ld,daij,bclk->abcijk" [(ESlice (EVar "f_aa") [SV "o"; SV "v"]); (EVar "t2_aaaa"); (EVar "t2_abab")]));
   (*L2394*) SAug true "triples_res" (EAdd (EScale (1 # 1) (EVar "contracted_intermediate")) (EScale (-1 # 1) (EEins "abcijk->bacijk" [(EVar "contracted_intermediate")])));
   (*L2397*) SAssign "contracted_intermediate" (EScale (-1 # 1) (EEins "ld,dcjk,abil->abcijk" [(ESlice (EVar "f_aa") [SV "o"; SV "v"]); (EVar "t2_abab"); (EVar "t2_aaaa")]));
   (*L2398*) SAug true "triples_res" (EAdd (EScale (1 # 1) (EVar "contracted_intermediate")) (EScale (-1 # 1) (EEins "abcijk->abcjik" [(EVar "contracted_intermediate")])));
   (*L2401*) SAssign "contracted_intermediate" (EScale (1 # 1) (EEins "aljk,bcil->abcijk" [(ESlice (EVar "g_abab") [SV "v"; SV "o"; SV "o"; SV "o"]); (EVar "t2_abab")]));
   (*L2402*) SAug true "triples_res" (EAdd (EAdd (EAdd (EScale (1 # 1) (EVar "contracted_intermediate")) (EScale (-1 # 1) (EEins "abcijk->abcjik" [(EVar "contracted_intermediate")]))) (EScale (-1 # 1) (EEins "abcijk->bacijk" [(EVar "contracted_intermediate")]))) (EScale (1 # 1) (EEins "abcijk->bacjik" [(EVar "contracted_intermediate")])));
   (*L2405*) SAssign "contracted_intermediate" (EScale (1 # 1) (EEins "laij,bclk->abcijk" [(ESlice (EVar "g_aaaa") [SV "o"; SV "v"; SV "o"; SV "o"]); (EVar "t2_abab")]));
   (*L2406*) SAug true "triples_res" (EAdd (EScale (1 # 1) (EVar "contracted_intermediate")) (EScale (-1 # 1) (EEins "abcijk->bacijk" [(EVar "contracted_intermediate")])));
   (*L2409*) SAssign "contracted_intermediate" (EScale (-1 # 1) (EEins "lcjk,abil->abcijk" [(ESlice (EVar "g_abab") [SV "o"; SV "v"; SV "o"; SV "o"]); (EVar "t2_aaaa")]));
   (*L2410*) SAug true "triples_res" (EAdd (EScale (1 # 1) (EVar "contracted_intermediate")) (EScale (-1 # 1) (EEins "abcijk->abcjik" [(EVar "contracted_intermediate")])));
   (*L2413*) SAug true "triples_res" (EScale (1 # 1) (EEins "acdk,dbij->abcijk" [(ESlice (EVar "g_abab") [SV "v"; SV "v"; SV "v"; SV "o"]); (EVar "t2_aaaa")]));
   (*L2416*) SAug true "triples_res" (EScale (1 # 1) (EEins "abdj,dcik->abcijk" [(ESlice (EVar "g_aaaa") [SV "v"; SV "v"; SV "v"; SV "o"]); (EVar "t2_abab")]));
   (*L2419*) SAug true "triples_res" (EScale (-1 # 1) (EEins "acjd,bdik->abcijk" [(ESlice (EVar "g_abab") [SV "v"; SV "v"; SV "o"; SV "v"]); (EVar "t2_abab")]));
   (*L2422*) SAug true "triples_res" (EScale (-1 # 1) (EEins "abdi,dcjk->abcijk" [(ESlice (EVar "g_aaaa") [SV "v"; SV "v"; SV "v"; SV "o"]); (EVar "t2_abab")]));
   (*L2425*) SAug true "triples_res" (EScale (1 # 1) (EEins "acid,bdjk->abcijk" [(ESlice (EVar "g_abab") [SV "v"; SV "v"; SV "o"; SV "v"]); (EVar "t2_abab")]));
   (*L2428*) SAug true "triples_res" (EScale (-1 # 1) (EEins "bcdk,daij->abcijk" [(ESlice (EVar "g_abab") [SV "v"; SV "v"; SV "v"; SV "o"]); (EVar "t2_aaaa")]));
   (*L2431*) SAug true "triples_res" (EScale (1 # 1) (EEins "bcjd,adik->abcijk" [(ESlice (EVar "g_abab") [SV "v"; SV "v"; SV "o"; SV "v"]); (EVar "t2_abab")]));
   (*L2434*) SAug true "triples_res" (EScale (-1 # 1) (EEins "bcid,adjk->abcijk" [(ESlice (EVar "g_abab") [SV "v"; SV "v"; SV "o"; SV "v"]); (EVar "t2_abab")]));
   (*L2437*) SAssign "contracted_intermediate" (EScale (1 # 2) (EEins "mljk,abciml->abcijk" [(ESlice (EVar "g_abab") [SV "o"; SV "o"; SV "o"; SV "o"]); (EVar "t3_aabaab")]));
   (*L2438*) SAug true "triples_res" (EAdd (EScale (1 # 1) (EVar "contracted_intermediate")) (EScale (-1 # 1) (EEins "abcijk->abcjik" [(EVar "contracted_intermediate")])));
   (*L2441*) SAssign "contracted_intermediate" (EScale (1 # 2) (EEins "lmjk,abcilm->abcijk" [(ESlice (EVar "g_abab") [SV "o"; SV "o"; SV "o"; SV "o"]); (EVar "t3_aabaab")]));
   (*L2442*) SAug true "triples_res" (EAdd (EScale (1 # 1) (EVar "contracted_intermediate")) (EScale (-1 # 1) (EEins "abcijk->abcjik" [(EVar "contracted_intermediate")])));
   (*L2445*) SAug true "triples_res" (EScale (-1 # 2) (EEins "mlij,abclmk->abcijk" [(ESlice (EVar "g_aaaa") [SV "o"; SV "o"; SV "o"; SV "o"]); (EVar "t3_aabaab")]));
   (*L2448*) SAssign "contracted_intermediate" (EScale (-1 # 1) (EEins "aldk,dbcijl->abcijk" [(ESlice (EVar "g_abab") [SV "v"; SV "o"; SV "v"; SV "o"]); (EVar "t3_aabaab")]));
   (*L2449*) SAug true "triples_res" (EAdd (EScale (1 # 1) (EVar "contracted_intermediate")) (EScale (-1 # 1) (EEins "abcijk->bacijk" [(EVar "contracted_intermediate")])));
   (*L2452*) SAssign "contracted_intermediate" (EScale (1 # 1) (EEins "ladj,dbcilk->abcijk" [(ESlice (EVar "g_aaaa") [SV "o"; SV "v"; SV "v"; SV "o"]); (EVar "t3_aabaab")]));
   (*L2453*) SAug true "triples_res" (EAdd (EScale (1 # 1) (EVar "contracted_intermediate")) (EScale (-1 # 1) (EEins "abcijk->bacijk" [(EVar "contracted_intermediate")])));
   (*L2456*) SAssign "contracted_intermediate" (EScale (1 # 1) (EEins "aljd,bdcikl->abcijk" [(ESlice (EVar "g_abab") [SV "v"; SV "o"; SV "o"; SV "v"]); (EVar "t3_abbabb")]));
   (*L2457*) SAug true "triples_res" (EAdd (EScale (1 # 1) (EVar "contracted_intermediate")) (EScale (-1 # 1) (EEins "abcijk->bacijk" [(EVar "contracted_intermediate")])));
   (*L2460*) SAssign "contracted_intermediate" (EScale (-1 # 1) (EEins "ladi,dbcjlk->abcijk" [(ESlice (EVar "g_aaaa") [SV "o"; SV "v"; SV "v"; SV "o"]); (EVar "t3_aabaab")]));
   (*L2461*) SAug true "triples_res" (EAdd (EScale (1 # 1) (EVar "contracted_intermediate")) (EScale (-1 # 1) (EEins "abcijk->bacijk" [(EVar "contracted_intermediate")])));
   (*L2464*) SAssign "contracted_intermediate" (EScale (-1 # 1) (EEins "alid,bdcjkl->abcijk" [(ESlice (EVar "g_abab") [SV "v"; SV "o"; SV "o"; SV "v"]); (EVar "t3_abbabb")]));
   (*L2465*) SAug true "triples_res" (EAdd (EScale (1 # 1) (EVar "contracted_intermediate")) (EScale (-1 # 1) (EEins "abcijk->bacijk" [(EVar "contracted_intermediate")])));
   (*L2468*) SAug true "triples_res" (EScale (1 # 1) (EEins "lcdk,dabijl->abcijk" [(ESlice (EVar "g_abab") [SV "o"; SV "v"; SV "v"; SV "o"]); (EVar "t3_aaaaaa")]));
   (*L2471*) SAug true "triples_res" (EScale (-1 # 1) (EEins "lcdk,badijl->abcijk" [(ESlice (EVar "g_bbbb") [SV "o"; SV "v"; SV "v"; SV "o"]); (EVar "t3_aabaab")]));
   (*L2474*) SAug true "triples_res" (EScale (1 # 1) (EEins "lcjd,badilk->abcijk" [(ESlice (EVar "g_abab") [SV "o"; SV "v"; SV "o"; SV "v"]); (EVar "t3_aabaab")]));
   (*L2477*) SAug true "triples_res" (EScale (-1 # 1) (EEins "lcid,badjlk->abcijk" [(ESlice (EVar "g_abab") [SV "o"; SV "v"; SV "o"; SV "v"]); (EVar "t3_aabaab")]));
   (*L2480*) SAug true "triples_res" (EScale (1 # 2) (EEins "abde,decijk->abcijk" [(ESlice (EVar "g_aaaa") [SV "v"; SV "v"; SV "v"; SV "v"]); (EVar "t3_aabaab")]));
   (*L2483*) SAug true "triples_res" (EScale (1 # 2) (EEins "acde,dbeijk->abcijk" [(ESlice (EVar "g_abab") [SV "v"; SV "v"; SV "v"; SV "v"]); (EVar "t3_aabaab")]));
   (*L2486*) SAug true "triples_res" (EScale (-1 # 2) (EEins "aced,bedijk->abcijk" [(ESlice (EVar "g_abab") [SV "v"; SV "v"; SV "v"; SV "v"]); (EVar "t3_aabaab")]));
   (*L2489*) SAug true "triples_res" (EScale (-1 # 2) (EEins "bcde,daeijk->abcijk" [(ESlice (EVar "g_abab") [SV "v"; SV "v"; SV "v"; SV "v"]); (EVar "t3_aabaab")]));
   (*L2492*) SAug true "triples_res" (EScale (1 # 2) (EEins "bced,aedijk->abcijk" [(ESlice (EVar "g_abab") [SV "v"; SV "v"; SV "v"; SV "v"]); (EVar "t3_aabaab")]));
   (*L2495*) SAssign "contracted_intermediate" (EScale (-1 # 1) (EEins "lmjk,al,bcim->abcijk" [(ESlice (EVar "g_abab") [SV "o"; SV "o"; SV "o"; SV "o"]); (EVar "t1_aa"); (EVar "t2_abab")]));
   (*L2496*) SAug true "triples_res" (EAdd (EAdd (EAdd (EScale (1 # 1) (EVar "contracted_intermediate")) (EScale (-1 # 1) (EEins "abcijk->abcjik" [(EVar "contracted_intermediate")]))) (EScale (-1 # 1) (EEins "abcijk->bacijk" [(EVar "contracted_intermediate")]))) (EScale (1 # 1) (EEins "abcijk->bacjik" [(EVar "contracted_intermediate")])));
   (*L2499*) SAssign "contracted_intermediate" (EScale (1 # 1) (EEins "mljk,cl,abim->abcijk" [(ESlice (EVar "g_abab") [SV "o"; SV "o"; SV "o"; SV "o"]); (EVar "t1_bb"); (EVar "t2_aaaa")]));
   (*L2500*) SAug true "triples_res" (EAdd (EScale (1 # 1) (EVar "contracted_intermediate")) (EScale (-1 # 1) (EEins "abcijk->abcjik" [(EVar "contracted_intermediate")])));
   (*L2503*) SAssign "contracted_intermediate" (EScale (-1 # 1) (EEins "mlij,al,bcmk->abcijk" [(ESlice (EVar "g_aaaa") [SV "o"; SV "o"; SV "o"; SV "o"]); (EVar "t1_aa"); (EVar "t2_abab")]));
   (*L2504*) SAug true "triples_res" (EAdd (EScale (1 # 1) (EVar "contracted_intermediate")) (EScale (-1 # 1) (EEins "abcijk->bacijk" [(EVar "contracted_intermediate")])));
   (*L2507*) SAssign "contracted_intermediate" (EScale (1 # 1) (EEins "aldk,dj,bcil->abcijk" [(ESlice (EVar "g_abab") [SV "v"; SV "o"; SV "v"; SV "o"]); (EVar "t1_aa"); (EVar "t2_abab")]));
   (*L2508*) SAug true "triples_res" (EAdd (EAdd (EAdd (EScale (1 # 1) (EVar "contracted_intermediate")) (EScale (-1 # 1) (EEins "abcijk->abcjik" [(EVar "contracted_intermediate")]))) (EScale (-1 # 1) (EEins "abcijk->bacijk" [(EVar "contracted_intermediate")]))) (EScale (1 # 1) (EEins "abcijk->bacjik" [(EVar "contracted_intermediate")])));
   (*L2511*) SAug true "triples_res" (EScale (-1 # 1) (EEins "aldk,cl,dbij->abcijk" [(ESlice (EVar "g_abab") [SV "v"; SV "o"; SV "v"; SV "o"]); (EVar "t1_bb"); (EVar "t2_aaaa")]));
   (*L2514*) SAug true "triples_res" (EScale (1 # 1) (EEins "ladj,bl,dcik->abcijk" [(ESlice (EVar "g_aaaa") [SV "o"; SV "v"; SV "v"; SV "o"]); (EVar "t1_aa"); (EVar "t2_abab")]));
   (*L2517*) SAug true "triples_res" (EScale (1 # 1) (EEins "aljd,cl,bdik->abcijk" [(ESlice (EVar "g_abab") [SV "v"; SV "o"; SV "o"; SV "v"]); (EVar "t1_bb"); (EVar "t2_abab")]));
   (*L2520*) SAssign "contracted_intermediate" (EScale (1 # 1) (EEins "aljd,dk,bcil->abcijk" [(ESlice (EVar "g_abab") [SV "v"; SV "o"; SV "o"; SV "v"]); (EVar "t1_bb"); (EVar "t2_abab")]));
   (*L2521*) SAug true "triples_res" (EAdd (EScale (1 # 1) (EVar "contracted_intermediate")) (EScale (-1 # 1) (EEins "abcijk->bacijk" [(EVar "contracted_intermediate")])));
   (*L2524*) SAssign "contracted_intermediate" (EScale (1 # 1) (EEins "ladj,di,bclk->abcijk" [(ESlice (EVar "g_aaaa") [SV "o"; SV "v"; SV "v"; SV "o"]); (EVar "t1_aa"); (EVar "t2_abab")]));
   (*L2525*) SAug true "triples_res" (EAdd (EScale (1 # 1) (EVar "contracted_intermediate")) (EScale (-1 # 1) (EEins "abcijk->bacijk" [(EVar "contracted_intermediate")])));
   (*L2528*) SAssign "contracted_intermediate" (EScale (-1 # 1) (EEins "alid,dk,bcjl->abcijk" [(ESlice (EVar "g_abab") [SV "v"; SV "o"; SV "o"; SV "v"]); (EVar "t1_bb"); (EVar "t2_abab")]));
   (*L2529*) SAug true "triples_res" (EAdd (EScale (1 # 1) (EVar "contracted_intermediate")) (EScale (-1 # 1) (EEins "abcijk->bacijk" [(EVar "contracted_intermediate")])));
   (*L2532*) SAssign "contracted_intermediate" (EScale (-1 # 1) (EEins "ladi,dj,bclk->abcijk" [(ESlice (EVar "g_aaaa") [SV "o"; SV "v"; SV "v"; SV "o"]); (EVar "t1_aa"); (EVar "t2_abab")]));
   (*L2533*) SAug true "triples_res" (EAdd (EScale (1 # 1) (EVar "contracted_intermediate")) (EScale (-1 # 1) (EEins "abcijk->bacijk" [(EVar "contracted_intermediate")])));
   (*L2536*) SAug true "triples_res" (EScale (-1 # 1) (EEins "ladi,bl,dcjk->abcijk" [(ESlice (EVar "g_aaaa") [SV "o"; SV "v"; SV "v"; SV "o"]); (EVar "t1_aa"); (EVar "t2_abab")]));
   (*L2539*) SAug true "triples_res" (EScale (-1 # 1) (EEins "alid,cl,bdjk->abcijk" [(ESlice (EVar "g_abab") [SV "v"; SV "o"; SV "o"; SV "v"]); (EVar "t1_bb"); (EVar "t2_abab")]));
   (*L2542*) SAug true "triples_res" (EScale (1 # 1) (EEins "bldk,cl,daij->abcijk" [(ESlice (EVar "g_abab") [SV "v"; SV "o"; SV "v"; SV "o"]); (EVar "t1_bb"); (EVar "t2_aaaa")]));
   (*L2545*) SAug true "triples_res" (EScale (-1 # 1) (EEins "lbdj,al,dcik->abcijk" [(ESlice (EVar "g_aaaa") [SV "o"; SV "v"; SV "v"; SV "o"]); (EVar "t1_aa"); (EVar "t2_abab")]));
   (*L2548*) SAug true "triples_res" (EScale (-1 # 1) (EEins "bljd,cl,adik->abcijk" [(ESlice (EVar "g_abab") [SV "v"; SV "o"; SV "o"; SV "v"]); (EVar "t1_bb"); (EVar "t2_abab")]));
   (*L2551*) SAug true "triples_res" (EScale (1 # 1) (EEins "lbdi,al,dcjk->abcijk" [(ESlice (EVar "g_aaaa") [SV "o"; SV "v"; SV "v"; SV "o"]); (EVar "t1_aa"); (EVar "t2_abab")]));
   (*L2554*) SAug true "triples_res" (EScale (1 # 1) (EEins "blid,cl,adjk->abcijk" [(ESlice (EVar "g_abab") [SV "v"; SV "o"; SV "o"; SV "v"]); (EVar "t1_bb"); (EVar "t2_abab")]));
   (*L2557*) SAssign "contracted_intermediate" (EScale (-1 # 1) (EEins "lcdk,dj,abil->abcijk" [(ESlice (EVar "g_abab") [SV "o"; SV "v"; SV "v"; SV "o"]); (EVar "t1_aa"); (EVar "t2_aaaa")]));
   (*L2558*) SAug true "triples_res" (EAdd (EScale (1 # 1) (EVar "contracted_intermediate")) (EScale (-1 # 1) (EEins "abcijk->abcjik" [(EVar "contracted_intermediate")])));
   (*L2561*) SAssign "contracted_intermediate" (EScale (-1 # 1) (EEins "lcdk,al,dbij->abcijk" [(ESlice (EVar "g_abab") [SV "o"; SV "v"; SV "v"; SV "o"]); (EVar "t1_aa"); (EVar "t2_aaaa")]));
   (*L2562*) SAug true "triples_res" (EAdd (EScale (1 # 1) (EVar "contracted_intermediate")) (EScale (-1 # 1) (EEins "abcijk->bacijk" [(EVar "contracted_intermediate")])));
   (*L2565*) SAssign "contracted_intermediate" (EScale (1 # 1) (EEins "lcjd,al,bdik->abcijk" [(ESlice (EVar "g_abab") [SV "o"; SV "v"; SV "o"; SV "v"]); (EVar "t1_aa"); (EVar "t2_abab")]));
   (*L2566*) SAug true "triples_res" (EAdd (EScale (1 # 1) (EVar "contracted_intermediate")) (EScale (-1 # 1) (EEins "abcijk->bacijk" [(EVar "contracted_intermediate")])));
   (*L2569*) SAug true "triples_res" (EScale (-1 # 1) (EEins "lcjd,dk,abil->abcijk" [(ESlice (EVar "g_abab") [SV "o"; SV "v"; SV "o"; SV "v"]); (EVar "t1_bb"); (EVar "t2_aaaa")]));
   (*L2572*) SAug true "triples_res" (EScale (1 # 1) (EEins "lcid,dk,abjl->abcijk" [(ESlice (EVar "g_abab") [SV "o"; SV "v"; SV "o"; SV "v"]); (EVar "t1_bb"); (EVar "t2_aaaa")]));
   (*L2575*) SAssign "contracted_intermediate" (EScale (-1 # 1) (EEins "lcid,al,bdjk->abcijk" [(ESlice (EVar "g_abab") [SV "o"; SV "v"; SV "o"; SV "v"]); (EVar "t1_aa"); (EVar "t2_abab")]));
   (*L2576*) SAug true "triples_res" (EAdd (EScale (1 # 1) (EVar "contracted_intermediate")) (EScale (-1 # 1) (EEins "abcijk->bacijk" [(EVar "contracted_intermediate")])));
   (*L2579*) SAug true "triples_res" (EScale (1 # 1) (EEins "aced,dk,ebij->abcijk" [(ESlice (EVar "g_abab") [SV "v"; SV "v"; SV "v"; SV "v"]); (EVar "t1_bb"); (EVar "t2_aaaa")]));
   (*L2582*) SAug true "triples_res" (EScale (-1 # 1) (EEins "abde,dj,ecik->abcijk" [(ESlice (EVar "g_aaaa") [SV "v"; SV "v"; SV "v"; SV "v"]); (EVar "t1_aa"); (EVar "t2_abab")]));
   (*L2585*) SAug true "triples_res" (EScale (-1 # 1) (EEins "acde,dj,beik->abcijk" [(ESlice (EVar "g_abab") [SV "v"; SV "v"; SV "v"; SV "v"]); (EVar "t1_aa"); (EVar "t2_abab")]));
   (*L2588*) SAug true "triples_res" (EScale (1 # 1) (EEins "abde,di,ecjk->abcijk" [(ESlice (EVar "g_aaaa") [SV "v"; SV "v"; SV "v"; SV "v"]); (EVar "t1_aa"); (EVar "t2_abab")]));
   (*L2591*) SAug true "triples_res" (EScale (1 # 1) (EEins "acde,di,bejk->abcijk" [(ESlice (EVar "g_abab") [SV "v"; SV "v"; SV "v"; SV "v"]); (EVar "t1_aa"); (EVar "t2_abab")]));
   (*L2594*) SAug true "triples_res" (EScale (-1 # 1) (EEins "bced,dk,eaij->abcijk" [(ESlice (EVar "g_abab") [SV "v"; SV "v"; SV "v"; SV "v"]); (EVar "t1_bb"); (EVar "t2_aaaa")]));
   (*L2597*) SAug true "triples_res" (EScale (1 # 1) (EEins "bcde,dj,aeik->abcijk" [(ESlice (EVar "g_abab") [SV "v"; SV "v"; SV "v"; SV "v"]); (EVar "t1_aa"); (EVar "t2_abab")]));
   (*L2600*) SAug true "triples_res" (EScale (-1 # 1) (EEins "bcde,di,aejk->abcijk" [(ESlice (EVar "g_abab") [SV "v"; SV "v"; SV "v"; SV "v"]); (EVar "t1_aa"); (EVar "t2_abab")]));
   (*L2603*) SAug true "triples_res" (EScale (-1 # 1) (EEins "lmdk,dl,abcijm->abcijk" [(ESlice (EVar "g_abab") [SV "o"; SV "o"; SV "v"; SV "o"]); (EVar "t1_aa"); (EVar "t3_aabaab")]));
   (*L2606*) SAug true "triples_res" (EScale (1 # 1) (EEins "mldk,dl,abcijm->abcijk" [(ESlice (EVar "g_bbbb") [SV "o"; SV "o"; SV "v"; SV "o"]); (EVar "t1_bb"); (EVar "t3_aabaab")]));
   (*L2609*) SAug true "triples_res" (EScale (1 # 1) (EEins "mldj,dl,abcimk->abcijk" [(ESlice (EVar "g_aaaa") [SV "o"; SV "o"; SV "v"; SV "o"]); (EVar "t1_aa"); (EVar "t3_aabaab")]));
   (*L2612*) SAug true "triples_res" (EScale (-1 # 1) (EEins "mljd,dl,abcimk->abcijk" [(ESlice (EVar "g_abab") [SV "o"; SV "o"; SV "o"; SV "v"]); (EVar "t1_bb"); (EVar "t3_aabaab")]));
   (*L2615*) SAssign "contracted_intermediate" (EScale (1 # 2) (EEins "mldk,dj,abciml->abcijk" [(ESlice (EVar "g_abab") [SV "o"; SV "o"; SV "v"; SV "o"]); (EVar "t1_aa"); (EVar "t3_aabaab")]));
   (*L2616*) SAug true "triples_res" (EAdd (EScale (1 # 1) (EVar "contracted_intermediate")) (EScale (-1 # 1) (EEins "abcijk->abcjik" [(EVar "contracted_intermediate")])));
   (*L2619*) SAssign "contracted_intermediate" (EScale (1 # 2) (EEins "lmdk,dj,abcilm->abcijk" [(ESlice (EVar "g_abab") [SV "o"; SV "o"; SV "v"; SV "o"]); (EVar "t1_aa"); (EVar "t3_aabaab")]));
   (*L2620*) SAug true "triples_res" (EAdd (EScale (1 # 1) (EVar "contracted_intermediate")) (EScale (-1 # 1) (EEins "abcijk->abcjik" [(EVar "contracted_intermediate")])));
   (*L2623*) SAssign "contracted_intermediate" (EScale (1 # 1) (EEins "lmdk,al,dbcijm->abcijk" [(ESlice (EVar "g_abab") [SV "o"; SV "o"; SV "v"; SV "o"]); (EVar "t1_aa"); (EVar "t3_aabaab")]));
   (*L2624*) SAug true "triples_res" (EAdd (EScale (1 # 1) (EVar "contracted_intermediate")) (EScale (-1 # 1) (EEins "abcijk->bacijk" [(EVar "contracted_intermediate")])));
   (*L2627*) SAssign "contracted_intermediate" (EScale (-1 # 1) (EEins "mldj,al,dbcimk->abcijk" [(ESlice (EVar "g_aaaa") [SV "o"; SV "o"; SV "v"; SV "o"]); (EVar "t1_aa"); (EVar "t3_aabaab")]));
   (*L2628*) SAug true "triples_res" (EAdd (EScale (1 # 1) (EVar "contracted_intermediate")) (EScale (-1 # 1) (EEins "abcijk->bacijk" [(EVar "contracted_intermediate")])));
   (*L2631*) SAssign "contracted_intermediate" (EScale (-1 # 1) (EEins "lmjd,al,bdcikm->abcijk" [(ESlice (EVar "g_abab") [SV "o"; SV "o"; SV "o"; SV "v"]); (EVar "t1_aa"); (EVar "t3_abbabb")]));
   (*L2632*) SAug true "triples_res" (EAdd (EScale (1 # 1) (EVar "contracted_intermediate")) (EScale (-1 # 1) (EEins "abcijk->bacijk" [(EVar "contracted_intermediate")])));
   (*L2635*) SAug true "triples_res" (EScale (-1 # 1) (EEins "mldk,cl,dabijm->abcijk" [(ESlice (EVar "g_abab") [SV "o"; SV "o"; SV "v"; SV "o"]); (EVar "t1_bb"); (EVar "t3_aaaaaa")]));
   (*L2638*) SAug true "triples_res" (EScale (1 # 1) (EEins "mldk,cl,badijm->abcijk" [(ESlice (EVar "g_bbbb") [SV "o"; SV "o"; SV "v"; SV "o"]); (EVar "t1_bb"); (EVar "t3_aabaab")]));
   (*L2641*) SAug true "triples_res" (EScale (-1 # 1) (EEins "mljd,cl,badimk->abcijk" [(ESlice (EVar "g_abab") [SV "o"; SV "o"; SV "o"; SV "v"]); (EVar "t1_bb"); (EVar "t3_aabaab")]));
   (*L2644*) SAug true "triples_res" (EScale (1 # 2) (EEins "mljd,dk,abciml->abcijk" [(ESlice (EVar "g_abab") [SV "o"; SV "o"; SV "o"; SV "v"]); (EVar "t1_bb"); (EVar "t3_aabaab")]));
   (*L2647*) SAug true "triples_res" (EScale (1 # 2) (EEins "lmjd,dk,abcilm->abcijk" [(ESlice (EVar "g_abab") [SV "o"; SV "o"; SV "o"; SV "v"]); (EVar "t1_bb"); (EVar "t3_aabaab")]));
   (*L2650*) SAug true "triples_res" (EScale (-1 # 2) (EEins "mldj,di,abclmk->abcijk" [(ESlice (EVar "g_aaaa") [SV "o"; SV "o"; SV "v"; SV "o"]); (EVar "t1_aa"); (EVar "t3_aabaab")]));
   (*L2653*) SAug true "triples_res" (EScale (-1 # 1) (EEins "mldi,dl,abcjmk->abcijk" [(ESlice (EVar "g_aaaa") [SV "o"; SV "o"; SV "v"; SV "o"]); (EVar "t1_aa"); (EVar "t3_aabaab")]));
   (*L2656*) SAug true "triples_res" (EScale (1 # 1) (EEins "mlid,dl,abcjmk->abcijk" [(ESlice (EVar "g_abab") [SV "o"; SV "o"; SV "o"; SV "v"]); (EVar "t1_bb"); (EVar "t3_aabaab")]));
   (*L2659*) SAug true "triples_res" (EScale (-1 # 2) (EEins "mlid,dk,abcjml->abcijk" [(ESlice (EVar "g_abab") [SV "o"; SV "o"; SV "o"; SV "v"]); (EVar "t1_bb"); (EVar "t3_aabaab")]));
   (*L2662*) SAug true "triples_res" (EScale (-1 # 2) (EEins "lmid,dk,abcjlm->abcijk" [(ESlice (EVar "g_abab") [SV "o"; SV "o"; SV "o"; SV "v"]); (EVar "t1_bb"); (EVar "t3_aabaab")]));
   (*L2665*) SAug true "triples_res" (EScale (1 # 2) (EEins "mldi,dj,abclmk->abcijk" [(ESlice (EVar "g_aaaa") [SV "o"; SV "o"; SV "v"; SV "o"]); (EVar "t1_aa"); (EVar "t3_aabaab")]));
   (*L2668*) SAssign "contracted_intermediate" (EScale (1 # 1) (EEins "mldi,al,dbcjmk->abcijk" [(ESlice (EVar "g_aaaa") [SV "o"; SV "o"; SV "v"; SV "o"]); (EVar "t1_aa"); (EVar "t3_aabaab")]));
   (*L2669*) SAug true "triples_res" (EAdd (EScale (1 # 1) (EVar "contracted_intermediate")) (EScale (-1 # 1) (EEins "abcijk->bacijk" [(EVar "contracted_intermediate")])));
   (*L2672*) SAssign "contracted_intermediate" (EScale (1 # 1) (EEins "lmid,al,bdcjkm->abcijk" [(ESlice (EVar "g_abab") [SV "o"; SV "o"; SV "o"; SV "v"]); (EVar "t1_aa"); (EVar "t3_abbabb")]));
   (*L2673*) SAug true "triples_res" (EAdd (EScale (1 # 1) (EVar "contracted_intermediate")) (EScale (-1 # 1) (EEins "abcijk->bacijk" [(EVar "contracted_intermediate")])));
   (*L2676*) SAug true "triples_res" (EScale (1 # 1) (EEins "mlid,cl,badjmk->abcijk" [(ESlice (EVar "g_abab") [SV "o"; SV "o"; SV "o"; SV "v"]); (EVar "t1_bb"); (EVar "t3_aabaab")]));
   (*L2679*) SAssign "contracted_intermediate" (EScale (1 # 1) (EEins "lade,dl,ebcijk->abcijk" [(ESlice (EVar "g_aaaa") [SV "o"; SV "v"; SV "v"; SV "v"]); (EVar "t1_aa"); (EVar "t3_aabaab")]));
   (*L2680*) SAug true "triples_res" (EAdd (EScale (1 # 1) (EVar "contracted_intermediate")) (EScale (-1 # 1) (EEins "abcijk->bacijk" [(EVar "contracted_intermediate")])));
   (*L2683*) SAssign "contracted_intermediate" (EScale (1 # 1) (EEins "aled,dl,ebcijk->abcijk" [(ESlice (EVar "g_abab") [SV "v"; SV "o"; SV "v"; SV "v"]); (EVar "t1_bb"); (EVar "t3_aabaab")]));
   (*L2684*) SAug true "triples_res" (EAdd (EScale (1 # 1) (EVar "contracted_intermediate")) (EScale (-1 # 1) (EEins "abcijk->bacijk" [(EVar "contracted_intermediate")])));
   (*L2687*) SAssign "contracted_intermediate" (EScale (-1 # 1) (EEins "aled,dk,ebcijl->abcijk" [(ESlice (EVar "g_abab") [SV "v"; SV "o"; SV "v"; SV "v"]); (EVar "t1_bb"); (EVar "t3_aabaab")]));
   (*L2688*) SAug true "triples_res" (EAdd (EScale (1 # 1) (EVar "contracted_intermediate")) (EScale (-1 # 1) (EEins "abcijk->bacijk" [(EVar "contracted_intermediate")])));
   (*L2691*) SAssign "contracted_intermediate" (EScale (-1 # 1) (EEins "lade,dj,ebcilk->abcijk" [(ESlice (EVar "g_aaaa") [SV "o"; SV "v"; SV "v"; SV "v"]); (EVar "t1_aa"); (EVar "t3_aabaab")]));
   (*L2692*) SAug true "triples_res" (EAdd (EScale (1 # 1) (EVar "contracted_intermediate")) (EScale (-1 # 1) (EEins "abcijk->bacijk" [(EVar "contracted_intermediate")])));
   (*L2695*) SAssign "contracted_intermediate" (EScale (1 # 1) (EEins "alde,dj,becikl->abcijk" [(ESlice (EVar "g_abab") [SV "v"; SV "o"; SV "v"; SV "v"]); (EVar "t1_aa"); (EVar "t3_abbabb")]));
   (*L2696*) SAug true "triples_res" (EAdd (EScale (1 # 1) (EVar "contracted_intermediate")) (EScale (-1 # 1) (EEins "abcijk->bacijk" [(EVar "contracted_intermediate")])));
   (*L2699*) SAssign "contracted_intermediate" (EScale (1 # 1) (EEins "lade,di,ebcjlk->abcijk" [(ESlice (EVar "g_aaaa") [SV "o"; SV "v"; SV "v"; SV "v"]); (EVar "t1_aa"); (EVar "t3_aabaab")]));
   (*L2700*) SAug true "triples_res" (EAdd (EScale (1 # 1) (EVar "contracted_intermediate")) (EScale (-1 # 1) (EEins "abcijk->bacijk" [(EVar "contracted_intermediate")])));
   (*L2703*) SAssign "contracted_intermediate" (EScale (-1 # 1) (EEins "alde,di,becjkl->abcijk" [(ESlice (EVar "g_abab") [SV "v"; SV "o"; SV "v"; SV "v"]); (EVar "t1_aa"); (EVar "t3_abbabb")]));
   (*L2704*) SAug true "triples_res" (EAdd (EScale (1 # 1) (EVar "contracted_intermediate")) (EScale (-1 # 1) (EEins "abcijk->bacijk" [(EVar "contracted_intermediate")])));
   (*L2707*) SAug true "triples_res" (EScale (1 # 2) (EEins "lade,bl,decijk->abcijk" [(ESlice (EVar "g_aaaa") [SV "o"; SV "v"; SV "v"; SV "v"]); (EVar "t1_aa"); (EVar "t3_aabaab")]));
   (*L2710*) SAug true "triples_res" (EScale (-1 # 2) (EEins "alde,cl,dbeijk->abcijk" [(ESlice (EVar "g_abab") [SV "v"; SV "o"; SV "v"; SV "v"]); (EVar "t1_bb"); (EVar "t3_aabaab")]));
   (*L2713*) SAug true "triples_res" (EScale (1 # 2) (EEins "aled,cl,bedijk->abcijk" [(ESlice (EVar "g_abab") [SV "v"; SV "o"; SV "v"; SV "v"]); (EVar "t1_bb"); (EVar "t3_aabaab")]));
   (*L2716*) SAug true "triples_res" (EScale (-1 # 2) (EEins "lbde,al,decijk->abcijk" [(ESlice (EVar "g_aaaa") [SV "o"; SV "v"; SV "v"; SV "v"]); (EVar "t1_aa"); (EVar "t3_aabaab")]));
   (*L2719*) SAug true "triples_res" (EScale (1 # 2) (EEins "blde,cl,daeijk->abcijk" [(ESlice (EVar "g_abab") [SV "v"; SV "o"; SV "v"; SV "v"]); (EVar "t1_bb"); (EVar "t3_aabaab")]));
   (*L2722*) SAug true "triples_res" (EScale (-1 # 2) (EEins "bled,cl,aedijk->abcijk" [(ESlice (EVar "g_abab") [SV "v"; SV "o"; SV "v"; SV "v"]); (EVar "t1_bb"); (EVar "t3_aabaab")]));
   (*L2725*) SAug true "triples_res" (EScale (-1 # 1) (EEins "lcde,dl,baeijk->abcijk" [(ESlice (EVar "g_abab") [SV "o"; SV "v"; SV "v"; SV "v"]); (EVar "t1_aa"); (EVar "t3_aabaab")]));
   (*L2728*) SAug true "triples_res" (EScale (-1 # 1) (EEins "lcde,dl,baeijk->abcijk" [(ESlice (EVar "g_bbbb") [SV "o"; SV "v"; SV "v"; SV "v"]); (EVar "t1_bb"); (EVar "t3_aabaab")]));
   (*L2731*) SAug true "triples_res" (EScale (1 # 1) (EEins "lced,dk,eabijl->abcijk" [(ESlice (EVar "g_abab") [SV "o"; SV "v"; SV "v"; SV "v"]); (EVar "t1_bb"); (EVar "t3_aaaaaa")]));
   (*L2734*) SAug true "triples_res" (EScale (1 # 1) (EEins "lcde,dk,baeijl->abcijk" [(ESlice (EVar "g_bbbb") [SV "o"; SV "v"; SV "v"; SV "v"]); (EVar "t1_bb"); (EVar "t3_aabaab")]));
   (*L2737*) SAug true "triples_res" (EScale (1 # 1) (EEins "lcde,dj,baeilk->abcijk" [(ESlice (EVar "g_abab") [SV "o"; SV "v"; SV "v"; SV "v"]); (EVar "t1_aa"); (EVar "t3_aabaab")]));
   (*L2740*) SAug true "triples_res" (EScale (-1 # 1) (EEins "lcde,di,baejlk->abcijk" [(ESlice (EVar "g_abab") [SV "o"; SV "v"; SV "v"; SV "v"]); (EVar "t1_aa"); (EVar "t3_aabaab")]));
   (*L2743*) SAssign "contracted_intermediate" (EScale (-1 # 2) (EEins "lcde,al,dbeijk->abcijk" [(ESlice (EVar "g_abab") [SV "o"; SV "v"; SV "v"; SV "v"]); (EVar "t1_aa"); (EVar "t3_aabaab")]));
   (*L2744*) SAug true "triples_res" (EAdd (EScale (1 # 1) (EVar "contracted_intermediate")) (EScale (-1 # 1) (EEins "abcijk->bacijk" [(EVar "contracted_intermediate")])));
   (*L2747*) SAssign "contracted_intermediate" (EScale (1 # 2) (EEins "lced,al,bedijk->abcijk" [(ESlice (EVar "g_abab") [SV "o"; SV "v"; SV "v"; SV "v"]); (EVar "t1_aa"); (EVar "t3_aabaab")]));
   (*L2748*) SAug true "triples_res" (EAdd (EScale (1 # 1) (EVar "contracted_intermediate")) (EScale (-1 # 1) (EEins "abcijk->bacijk" [(EVar "contracted_intermediate")])));
   (*L2751*) SAug true "triples_res" (EScale (-1 # 2) (EEins "lmde,delk,abcijm->abcijk" [(ESlice (EVar "g_abab") [SV "o"; SV "o"; SV "v"; SV "v"]); (EVar "t2_abab"); (EVar "t3_aabaab")]));
   (*L2754*) SAug true "triples_res" (EScale (-1 # 2) (EEins "lmed,edlk,abcijm->abcijk" [(ESlice (EVar "g_abab") [SV "o"; SV "o"; SV "v"; SV "v"]); (EVar "t2_abab"); (EVar "t3_aabaab")]));
   (*L2757*) SAug true "triples_res" (EScale (-1 # 2) (EEins "mlde,dekl,abcijm->abcijk" [(ESlice (EVar "g_bbbb") [SV "o"; SV "o"; SV "v"; SV "v"]); (EVar "t2_bbbb"); (EVar "t3_aabaab")]));
   (*L2760*) SAug true "triples_res" (EScale (-1 # 2) (EEins "mlde,dejl,abcimk->abcijk" [(ESlice (EVar "g_aaaa") [SV "o"; SV "o"; SV "v"; SV "v"]); (EVar "t2_aaaa"); (EVar "t3_aabaab")]));
   (*L2763*) SAug true "triples_res" (EScale (-1 # 2) (EEins "mlde,dejl,abcimk->abcijk" [(ESlice (EVar "g_abab") [SV "o"; SV "o"; SV "v"; SV "v"]); (EVar "t2_abab"); (EVar "t3_aabaab")]));
   (*L2766*) SAug true "triples_res" (EScale (-1 # 2) (EEins "mled,edjl,abcimk->abcijk" [(ESlice (EVar "g_abab") [SV "o"; SV "o"; SV "v"; SV "v"]); (EVar "t2_abab"); (EVar "t3_aabaab")]));
   (*L2769*) SAug true "triples_res" (EScale (1 # 2) (EEins "mlde,deil,abcjmk->abcijk" [(ESlice (EVar "g_aaaa") [SV "o"; SV "o"; SV "v"; SV "v"]); (EVar "t2_aaaa"); (EVar "t3_aabaab")]));
   (*L2772*) SAug true "triples_res" (EScale (1 # 2) (EEins "mlde,deil,abcjmk->abcijk" [(ESlice (EVar "g_abab") [SV "o"; SV "o"; SV "v"; SV "v"]); (EVar "t2_abab"); (EVar "t3_aabaab")]));
   (*L2775*) SAug true "triples_res" (EScale (1 # 2) (EEins "mled,edil,abcjmk->abcijk" [(ESlice (EVar "g_abab") [SV "o"; SV "o"; SV "v"; SV "v"]); (EVar "t2_abab"); (EVar "t3_aabaab")]));
   (*L2778*) SAssign "contracted_intermediate" (EScale (1 # 4) (EEins "mlde,dejk,abciml->abcijk" [(ESlice (EVar "g_abab") [SV "o"; SV "o"; SV "v"; SV "v"]); (EVar "t2_abab"); (EVar "t3_aabaab")]));
   (*L2779*) SAug true "triples_res" (EAdd (EScale (1 # 1) (EVar "contracted_intermediate")) (EScale (-1 # 1) (EEins "abcijk->abcjik" [(EVar "contracted_intermediate")])));
   (*L2782*) SAssign "contracted_intermediate" (EScale (1 # 4) (EEins "lmde,dejk,abcilm->abcijk" [(ESlice (EVar "g_abab") [SV "o"; SV "o"; SV "v"; SV "v"]); (EVar "t2_abab"); (EVar "t3_aabaab")]));
   (*L2783*) SAug true "triples_res" (EAdd (EScale (1 # 1) (EVar "contracted_intermediate")) (EScale (-1 # 1) (EEins "abcijk->abcjik" [(EVar "contracted_intermediate")])));
   (*L2786*) SAssign "contracted_intermediate" (EScale (1 # 4) (EEins "mled,edjk,abciml->abcijk" [(ESlice (EVar "g_abab") [SV "o"; SV "o"; SV "v"; SV "v"]); (EVar "t2_abab"); (EVar "t3_aabaab")]));
   (*L2787*) SAug true "triples_res" (EAdd (EScale (1 # 1) (EVar "contracted_intermediate")) (EScale (-1 # 1) (EEins "abcijk->abcjik" [(EVar "contracted_intermediate")])));
   (*L2790*) SAssign "contracted_intermediate" (EScale (1 # 4) (EEins "lmed,edjk,abcilm->abcijk" [(ESlice (EVar "g_abab") [SV "o"; SV "o"; SV "v"; SV "v"]); (EVar "t2_abab"); (EVar "t3_aabaab")]));
   (*L2791*) SAug true "triples_res" (EAdd (EScale (1 # 1) (EVar "contracted_intermediate")) (EScale (-1 # 1) (EEins "abcijk->abcjik" [(EVar "contracted_intermediate")])));
   (*L2794*) SAug true "triples_res" (EScale (-1 # 4) (EEins "mlde,deij,abclmk->abcijk" [(ESlice (EVar "g_aaaa") [SV "o"; SV "o"; SV "v"; SV "v"]); (EVar "t2_aaaa"); (EVar "t3_aabaab")]));
   (*L2797*) SAssign "contracted_intermediate" (EScale (-1 # 2) (EEins "mlde,daml,ebcijk->abcijk" [(ESlice (EVar "g_aaaa") [SV "o"; SV "o"; SV "v"; SV "v"]); (EVar "t2_aaaa"); (EVar "t3_aabaab")]));
   (*L2798*) SAug true "triples_res" (EAdd (EScale (1 # 1) (EVar "contracted_intermediate")) (EScale (-1 # 1) (EEins "abcijk->bacijk" [(EVar "contracted_intermediate")])));
   (*L2801*) SAssign "contracted_intermediate" (EScale (-1 # 2) (EEins "mled,adml,ebcijk->abcijk" [(ESlice (EVar "g_abab") [SV "o"; SV "o"; SV "v"; SV "v"]); (EVar "t2_abab"); (EVar "t3_aabaab")]));
   (*L2802*) SAug true "triples_res" (EAdd (EScale (1 # 1) (EVar "contracted_intermediate")) (EScale (-1 # 1) (EEins "abcijk->bacijk" [(EVar "contracted_intermediate")])));
   (*L2805*) SAssign "contracted_intermediate" (EScale (-1 # 2) (EEins "lmed,adlm,ebcijk->abcijk" [(ESlice (EVar "g_abab") [SV "o"; SV "o"; SV "v"; SV "v"]); (EVar "t2_abab"); (EVar "t3_aabaab")]));
   (*L2806*) SAug true "triples_res" (EAdd (EScale (1 # 1) (EVar "contracted_intermediate")) (EScale (-1 # 1) (EEins "abcijk->bacijk" [(EVar "contracted_intermediate")])));
   (*L2809*) SAssign "contracted_intermediate" (EScale (100000000000001 # 100000000000000) (EEins "lmed,adlk,ebcijm->abcijk" [(ESlice (EVar "g_abab") [SV "o"; SV "o"; SV "v"; SV "v"]); (EVar "t2_abab"); (EVar "t3_aabaab")]));
   (*L2810*) SAug true "triples_res" (EAdd (EScale (1 # 1) (EVar "contracted_intermediate")) (EScale (-1 # 1) (EEins "abcijk->bacijk" [(EVar "contracted_intermediate")])));
   (*L2813*) SAssign "contracted_intermediate" (EScale (100000000000001 # 100000000000000) (EEins "mlde,dajl,ebcimk->abcijk" [(ESlice (EVar "g_aaaa") [SV "o"; SV "o"; SV "v"; SV "v"]); (EVar "t2_aaaa"); (EVar "t3_aabaab")]));
   (*L2814*) SAug true "triples_res" (EAdd (EScale (1 # 1) (EVar "contracted_intermediate")) (EScale (-1 # 1) (EEins "abcijk->bacijk" [(EVar "contracted_intermediate")])));
   (*L2817*) SAssign "contracted_intermediate" (EScale (-100000000000001 # 100000000000000) (EEins "lmde,dajl,becikm->abcijk" [(ESlice (EVar "g_abab") [SV "o"; SV "o"; SV "v"; SV "v"]); (EVar "t2_aaaa"); (EVar "t3_abbabb")]));
   (*L2818*) SAug true "triples_res" (EAdd (EScale (1 # 1) (EVar "contracted_intermediate")) (EScale (-1 # 1) (EEins "abcijk->bacijk" [(EVar "contracted_intermediate")])));
   (*L2821*) SAssign "contracted_intermediate" (EScale (100000000000001 # 100000000000000) (EEins "mled,adjl,ebcimk->abcijk" [(ESlice (EVar "g_abab") [SV "o"; SV "o"; SV "v"; SV "v"]); (EVar "t2_abab"); (EVar "t3_aabaab")]));
   (*L2822*) SAug true "triples_res" (EAdd (EScale (1 # 1) (EVar "contracted_intermediate")) (EScale (-1 # 1) (EEins "abcijk->bacijk" [(EVar "contracted_intermediate")])));
   (*L2825*) SAssign "contracted_intermediate" (EScale (-100000000000001 # 100000000000000) (EEins "mlde,adjl,becikm->abcijk" [(ESlice (EVar "g_bbbb") [SV "o"; SV "o"; SV "v"; SV "v"]); (EVar "t2_abab"); (EVar "t3_abbabb")]));
   (*L2826*) SAug true "triples_res" (EAdd (EScale (1 # 1) (EVar "contracted_intermediate")) (EScale (-1 # 1) (EEins "abcijk->bacijk" [(EVar "contracted_intermediate")])));
   (*L2829*) SAssign "contracted_intermediate" (EScale (-100000000000001 # 100000000000000) (EEins "mlde,dail,ebcjmk->abcijk" [(ESlice (EVar "g_aaaa") [SV "o"; SV "o"; SV "v"; SV "v"]); (EVar "t2_aaaa"); (EVar "t3_aabaab")]));
   (*L2830*) SAug true "triples_res" (EAdd (EScale (1 # 1) (EVar "contracted_intermediate")) (EScale (-1 # 1) (EEins "abcijk->bacijk" [(EVar "contracted_intermediate")])));
   (*L2833*) SAssign "contracted_intermediate" (EScale (100000000000001 # 100000000000000) (EEins "lmde,dail,becjkm->abcijk" [(ESlice (EVar "g_abab") [SV "o"; SV "o"; SV "v"; SV "v"]); (EVar "t2_aaaa"); (EVar "t3_abbabb")]));
   (*L2834*) SAug true "triples_res" (EAdd (EScale (1 # 1) (EVar "contracted_intermediate")) (EScale (-1 # 1) (EEins "abcijk->bacijk" [(EVar "contracted_intermediate")])));
   (*L2837*) SAssign "contracted_intermediate" (EScale (-100000000000001 # 100000000000000) (EEins "mled,adil,ebcjmk->abcijk" [(ESlice (EVar "g_abab") [SV "o"; SV "o"; SV "v"; SV "v"]); (EVar "t2_abab"); (EVar "t3_aabaab")]));
   (*L2838*) SAug true "triples_res" (EAdd (EScale (1 # 1) (EVar "contracted_intermediate")) (EScale (-1 # 1) (EEins "abcijk->bacijk" [(EVar "contracted_intermediate")])));
   (*L2841*) SAssign "contracted_intermediate" (EScale (100000000000001 # 100000000000000) (EEins "mlde,adil,becjkm->abcijk" [(ESlice (EVar "g_bbbb") [SV "o"; SV "o"; SV "v"; SV "v"]); (EVar "t2_abab"); (EVar "t3_abbabb")]));
   (*L2842*) SAug true "triples_res" (EAdd (EScale (1 # 1) (EVar "contracted_intermediate")) (EScale (-1 # 1) (EEins "abcijk->bacijk" [(EVar "contracted_intermediate")])));
   (*L2845*) SAssign "contracted_intermediate" (EScale (-1 # 2) (EEins "mled,adjk,ebciml->abcijk" [(ESlice (EVar "g_abab") [SV "o"; SV "o"; SV "v"; SV "v"]); (EVar "t2_abab"); (EVar "t3_aabaab")]));
   (*L2846*) SAug true "triples_res" (EAdd (EAdd (EAdd (EScale (1 # 1) (EVar "contracted_intermediate")) (EScale (-1 # 1) (EEins "abcijk->abcjik" [(EVar "contracted_intermediate")]))) (EScale (-1 # 1) (EEins "abcijk->bacijk" [(EVar "contracted_intermediate")]))) (EScale (1 # 1) (EEins "abcijk->bacjik" [(EVar "contracted_intermediate")])));
   (*L2849*) SAssign "contracted_intermediate" (EScale (-1 # 2) (EEins "lmed,adjk,ebcilm->abcijk" [(ESlice (EVar "g_abab") [SV "o"; SV "o"; SV "v"; SV "v"]); (EVar "t2_abab"); (EVar "t3_aabaab")]));
   (*L2850*) SAug true "triples_res" (EAdd (EAdd (EAdd (EScale (1 # 1) (EVar "contracted_intermediate")) (EScale (-1 # 1) (EEins "abcijk->abcjik" [(EVar "contracted_intermediate")]))) (EScale (-1 # 1) (EEins "abcijk->bacijk" [(EVar "contracted_intermediate")]))) (EScale (1 # 1) (EEins "abcijk->bacjik" [(EVar "contracted_intermediate")])));
   (*L2853*) SAssign "contracted_intermediate" (EScale (-1 # 2) (EEins "mlde,adjk,beciml->abcijk" [(ESlice (EVar "g_bbbb") [SV "o"; SV "o"; SV "v"; SV "v"]); (EVar "t2_abab"); (EVar "t3_abbabb")]));
   (*L2854*) SAug true "triples_res" (EAdd (EAdd (EAdd (EScale (1 # 1) (EVar "contracted_intermediate")) (EScale (-1 # 1) (EEins "abcijk->abcjik" [(EVar "contracted_intermediate")]))) (EScale (-1 # 1) (EEins "abcijk->bacijk" [(EVar "contracted_intermediate")]))) (EScale (1 # 1) (EEins "abcijk->bacjik" [(EVar "contracted_intermediate")])));
   (*L2857*) SAssign "contracted_intermediate" (EScale (1 # 2) (EEins "mlde,daij,ebclmk->abcijk" [(ESlice (EVar "g_aaaa") [SV "o"; SV "o"; SV "v"; SV "v"]); (EVar "t2_aaaa"); (EVar "t3_aabaab")]));
   (*L2858*) SAug true "triples_res" (EAdd (EScale (1 # 1) (EVar "contracted_intermediate")) (EScale (-1 # 1) (EEins "abcijk->bacijk" [(EVar "contracted_intermediate")])));
   (*L2861*) SAssign "contracted_intermediate" (EScale (-1 # 2) (EEins "mlde,daij,becmkl->abcijk" [(ESlice (EVar "g_abab") [SV "o"; SV "o"; SV "v"; SV "v"]); (EVar "t2_aaaa"); (EVar "t3_abbabb")]));
   (*L2862*) SAug true "triples_res" (EAdd (EScale (1 # 1) (EVar "contracted_intermediate")) (EScale (-1 # 1) (EEins "abcijk->bacijk" [(EVar "contracted_intermediate")])));
   (*L2865*) SAssign "contracted_intermediate" (EScale (1 # 2) (EEins "lmde,daij,beclmk->abcijk" [(ESlice (EVar "g_abab") [SV "o"; SV "o"; SV "v"; SV "v"]); (EVar "t2_aaaa"); (EVar "t3_abbabb")]));
   (*L2866*) SAug true "triples_res" (EAdd (EScale (1 # 1) (EVar "contracted_intermediate")) (EScale (-1 # 1) (EEins "abcijk->bacijk" [(EVar "contracted_intermediate")])));
   (*L2869*) SAug true "triples_res" (EScale (1 # 2) (EEins "mlde,dcml,baeijk->abcijk" [(ESlice (EVar "g_abab") [SV "o"; SV "o"; SV "v"; SV "v"]); (EVar "t2_abab"); (EVar "t3_aabaab")]));
   (*L2872*) SAug true "triples_res" (EScale (1 # 2) (EEins "lmde,dclm,baeijk->abcijk" [(ESlice (EVar "g_abab") [SV "o"; SV "o"; SV "v"; SV "v"]); (EVar "t2_abab"); (EVar "t3_aabaab")]));
   (*L2875*) SAug true "triples_res" (EScale (1 # 2) (EEins "mlde,dcml,baeijk->abcijk" [(ESlice (EVar "g_bbbb") [SV "o"; SV "o"; SV "v"; SV "v"]); (EVar "t2_bbbb"); (EVar "t3_aabaab")]));
   (*L2878*) SAug true "triples_res" (EScale (-100000000000001 # 100000000000000) (EEins "mlde,dclk,eabijm->abcijk" [(ESlice (EVar "g_aaaa") [SV "o"; SV "o"; SV "v"; SV "v"]); (EVar "t2_abab"); (EVar "t3_aaaaaa")]));
   (*L2881*) SAug true "triples_res" (EScale (-100000000000001 # 100000000000000) (EEins "lmde,dclk,baeijm->abcijk" [(ESlice (EVar "g_abab") [SV "o"; SV "o"; SV "v"; SV "v"]); (EVar "t2_abab"); (EVar "t3_aabaab")]));
   (*L2884*) SAug true "triples_res" (EScale (-100000000000001 # 100000000000000) (EEins "mled,dckl,eabijm->abcijk" [(ESlice (EVar "g_abab") [SV "o"; SV "o"; SV "v"; SV "v"]); (EVar "t2_bbbb"); (EVar "t3_aaaaaa")]));
   (*L2887*) SAug true "triples_res" (EScale (-100000000000001 # 100000000000000) (EEins "mlde,dckl,baeijm->abcijk" [(ESlice (EVar "g_bbbb") [SV "o"; SV "o"; SV "v"; SV "v"]); (EVar "t2_bbbb"); (EVar "t3_aabaab")]));
   (*L2890*) SAug true "triples_res" (EScale (-100000000000001 # 100000000000000) (EEins "mlde,dcjl,baeimk->abcijk" [(ESlice (EVar "g_abab") [SV "o"; SV "o"; SV "v"; SV "v"]); (EVar "t2_abab"); (EVar "t3_aabaab")]));
   (*L2893*) SAug true "triples_res" (EScale (100000000000001 # 100000000000000) (EEins "mlde,dcil,baejmk->abcijk" [(ESlice (EVar "g_abab") [SV "o"; SV "o"; SV "v"; SV "v"]); (EVar "t2_abab"); (EVar "t3_aabaab")]));
   (*L2896*) SAssign "contracted_intermediate" (EScale (-1 # 2) (EEins "mlde,dcjk,eabiml->abcijk" [(ESlice (EVar "g_aaaa") [SV "o"; SV "o"; SV "v"; SV "v"]); (EVar "t2_abab"); (EVar "t3_aaaaaa")]));
   (*L2897*) SAug true "triples_res" (EAdd (EScale (1 # 1) (EVar "contracted_intermediate")) (EScale (-1 # 1) (EEins "abcijk->abcjik" [(EVar "contracted_intermediate")])));
   (*L2900*) SAssign "contracted_intermediate" (EScale (1 # 2) (EEins "mlde,dcjk,baeiml->abcijk" [(ESlice (EVar "g_abab") [SV "o"; SV "o"; SV "v"; SV "v"]); (EVar "t2_abab"); (EVar "t3_aabaab")]));
   (*L2901*) SAug true "triples_res" (EAdd (EScale (1 # 1) (EVar "contracted_intermediate")) (EScale (-1 # 1) (EEins "abcijk->abcjik" [(EVar "contracted_intermediate")])));
   (*L2904*) SAssign "contracted_intermediate" (EScale (1 # 2) (EEins "lmde,dcjk,baeilm->abcijk" [(ESlice (EVar "g_abab") [SV "o"; SV "o"; SV "v"; SV "v"]); (EVar "t2_abab"); (EVar "t3_aabaab")]));
   (*L2905*) SAug true "triples_res" (EAdd (EScale (1 # 1) (EVar "contracted_intermediate")) (EScale (-1 # 1) (EEins "abcijk->abcjik" [(EVar "contracted_intermediate")])));
   (*L2908*) SAug true "triples_res" (EScale (1 # 4) (EEins "mlde,abml,decijk->abcijk" [(ESlice (EVar "g_aaaa") [SV "o"; SV "o"; SV "v"; SV "v"]); (EVar "t2_aaaa"); (EVar "t3_aabaab")]));
   (*L2911*) SAug true "triples_res" (EScale (1 # 4) (EEins "mlde,acml,dbeijk->abcijk" [(ESlice (EVar "g_abab") [SV "o"; SV "o"; SV "v"; SV "v"]); (EVar "t2_abab"); (EVar "t3_aabaab")]));
   (*L2914*) SAug true "triples_res" (EScale (-1 # 4) (EEins "mled,acml,bedijk->abcijk" [(ESlice (EVar "g_abab") [SV "o"; SV "o"; SV "v"; SV "v"]); (EVar "t2_abab"); (EVar "t3_aabaab")]));
   (*L2917*) SAug true "triples_res" (EScale (1 # 4) (EEins "lmde,aclm,dbeijk->abcijk" [(ESlice (EVar "g_abab") [SV "o"; SV "o"; SV "v"; SV "v"]); (EVar "t2_abab"); (EVar "t3_aabaab")]));
   (*L2920*) SAug true "triples_res" (EScale (-1 # 4) (EEins "lmed,aclm,bedijk->abcijk" [(ESlice (EVar "g_abab") [SV "o"; SV "o"; SV "v"; SV "v"]); (EVar "t2_abab"); (EVar "t3_aabaab")]));
   (*L2923*) SAug true "triples_res" (EScale (-1 # 2) (EEins "mlde,aclk,debijm->abcijk" [(ESlice (EVar "g_aaaa") [SV "o"; SV "o"; SV "v"; SV "v"]); (EVar "t2_abab"); (EVar "t3_aaaaaa")]));
   (*L2926*) SAug true "triples_res" (EScale (-1 # 2) (EEins "lmde,aclk,dbeijm->abcijk" [(ESlice (EVar "g_abab") [SV "o"; SV "o"; SV "v"; SV "v"]); (EVar "t2_abab"); (EVar "t3_aabaab")]));
   (*L2929*) SAug true "triples_res" (EScale (1 # 2) (EEins "lmed,aclk,bedijm->abcijk" [(ESlice (EVar "g_abab") [SV "o"; SV "o"; SV "v"; SV "v"]); (EVar "t2_abab"); (EVar "t3_aabaab")]));
   (*L2932*) SAug true "triples_res" (EScale (-1 # 2) (EEins "mlde,abjl,decimk->abcijk" [(ESlice (EVar "g_aaaa") [SV "o"; SV "o"; SV "v"; SV "v"]); (EVar "t2_aaaa"); (EVar "t3_aabaab")]));
   (*L2935*) SAug true "triples_res" (EScale (-1 # 2) (EEins "lmde,abjl,decikm->abcijk" [(ESlice (EVar "g_abab") [SV "o"; SV "o"; SV "v"; SV "v"]); (EVar "t2_aaaa"); (EVar "t3_abbabb")]));
   (*L2938*) SAug true "triples_res" (EScale (-1 # 2) (EEins "lmed,abjl,edcikm->abcijk" [(ESlice (EVar "g_abab") [SV "o"; SV "o"; SV "v"; SV "v"]); (EVar "t2_aaaa"); (EVar "t3_abbabb")]));
   (*L2941*) SAug true "triples_res" (EScale (-1 # 2) (EEins "mlde,acjl,dbeimk->abcijk" [(ESlice (EVar "g_abab") [SV "o"; SV "o"; SV "v"; SV "v"]); (EVar "t2_abab"); (EVar "t3_aabaab")]));
   (*L2944*) SAug true "triples_res" (EScale (1 # 2) (EEins "mled,acjl,bedimk->abcijk" [(ESlice (EVar "g_abab") [SV "o"; SV "o"; SV "v"; SV "v"]); (EVar "t2_abab"); (EVar "t3_aabaab")]));
   (*L2947*) SAug true "triples_res" (EScale (1 # 2) (EEins "mlde,acjl,bedikm->abcijk" [(ESlice (EVar "g_bbbb") [SV "o"; SV "o"; SV "v"; SV "v"]); (EVar "t2_abab"); (EVar "t3_abbabb")]));
   (*L2950*) SAug true "triples_res" (EScale (1 # 2) (EEins "mlde,abil,decjmk->abcijk" [(ESlice (EVar "g_aaaa") [SV "o"; SV "o"; SV "v"; SV "v"]); (EVar "t2_aaaa"); (EVar "t3_aabaab")]));
   (*L2953*) SAug true "triples_res" (EScale (1 # 2) (EEins "lmde,abil,decjkm->abcijk" [(ESlice (EVar "g_abab") [SV "o"; SV "o"; SV "v"; SV "v"]); (EVar "t2_aaaa"); (EVar "t3_abbabb")]));
   (*L2956*) SAug true "triples_res" (EScale (1 # 2) (EEins "lmed,abil,edcjkm->abcijk" [(ESlice (EVar "g_abab") [SV "o"; SV "o"; SV "v"; SV "v"]); (EVar "t2_aaaa"); (EVar "t3_abbabb")]));
   (*L2959*) SAug true "triples_res" (EScale (1 # 2) (EEins "mlde,acil,dbejmk->abcijk" [(ESlice (EVar "g_abab") [SV "o"; SV "o"; SV "v"; SV "v"]); (EVar "t2_abab"); (EVar "t3_aabaab")]));
   (*L2962*) SAug true "triples_res" (EScale (-1 # 2) (EEins "mled,acil,bedjmk->abcijk" [(ESlice (EVar "g_abab") [SV "o"; SV "o"; SV "v"; SV "v"]); (EVar "t2_abab"); (EVar "t3_aabaab")]));
   (*L2965*) SAug true "triples_res" (EScale (-1 # 2) (EEins "mlde,acil,bedjkm->abcijk" [(ESlice (EVar "g_bbbb") [SV "o"; SV "o"; SV "v"; SV "v"]); (EVar "t2_abab"); (EVar "t3_abbabb")]));
   (*L2968*) SAug true "triples_res" (EScale (-1 # 4) (EEins "mlde,bcml,daeijk->abcijk" [(ESlice (EVar "g_abab") [SV "o"; SV "o"; SV "v"; SV "v"]); (EVar "t2_abab"); (EVar "t3_aabaab")]));
   (*L2971*) SAug true "triples_res" (EScale (1 # 4) (EEins "mled,bcml,aedijk->abcijk" [(ESlice (EVar "g_abab") [SV "o"; SV "o"; SV "v"; SV "v"]); (EVar "t2_abab"); (EVar "t3_aabaab")]));
   (*L2974*) SAug true "triples_res" (EScale (-1 # 4) (EEins "lmde,bclm,daeijk->abcijk" [(ESlice (EVar "g_abab") [SV "o"; SV "o"; SV "v"; SV "v"]); (EVar "t2_abab"); (EVar "t3_aabaab")]));
   (*L2977*) SAug true "triples_res" (EScale (1 # 4) (EEins "lmed,bclm,aedijk->abcijk" [(ESlice (EVar "g_abab") [SV "o"; SV "o"; SV "v"; SV "v"]); (EVar "t2_abab"); (EVar "t3_aabaab")]));
   (*L2980*) SAug true "triples_res" (EScale (1 # 2) (EEins "mlde,bclk,deaijm->abcijk" [(ESlice (EVar "g_aaaa") [SV "o"; SV "o"; SV "v"; SV "v"]); (EVar "t2_abab"); (EVar "t3_aaaaaa")]));
   (*L2983*) SAug true "triples_res" (EScale (1 # 2) (EEins "lmde,bclk,daeijm->abcijk" [(ESlice (EVar "g_abab") [SV "o"; SV "o"; SV "v"; SV "v"]); (EVar "t2_abab"); (EVar "t3_aabaab")]));
   (*L2986*) SAug true "triples_res" (EScale (-1 # 2) (EEins "lmed,bclk,aedijm->abcijk" [(ESlice (EVar "g_abab") [SV "o"; SV "o"; SV "v"; SV "v"]); (EVar "t2_abab"); (EVar "t3_aabaab")]));
   (*L2989*) SAug true "triples_res" (EScale (1 # 2) (EEins "mlde,bcjl,daeimk->abcijk" [(ESlice (EVar "g_abab") [SV "o"; SV "o"; SV "v"; SV "v"]); (EVar "t2_abab"); (EVar "t3_aabaab")]));
   (*L2992*) SAug true "triples_res" (EScale (-1 # 2) (EEins "mled,bcjl,aedimk->abcijk" [(ESlice (EVar "g_abab") [SV "o"; SV "o"; SV "v"; SV "v"]); (EVar "t2_abab"); (EVar "t3_aabaab")]));
   (*L2995*) SAug true "triples_res" (EScale (-1 # 2) (EEins "mlde,bcjl,aedikm->abcijk" [(ESlice (EVar "g_bbbb") [SV "o"; SV "o"; SV "v"; SV "v"]); (EVar "t2_abab"); (EVar "t3_abbabb")]));
   (*L2998*) SAug true "triples_res" (EScale (-1 # 2) (EEins "mlde,bcil,daejmk->abcijk" [(ESlice (EVar "g_abab") [SV "o"; SV "o"; SV "v"; SV "v"]); (EVar "t2_abab"); (EVar "t3_aabaab")]));
   (*L3001*) SAug true "triples_res" (EScale (1 # 2) (EEins "mled,bcil,aedjmk->abcijk" [(ESlice (EVar "g_abab") [SV "o"; SV "o"; SV "v"; SV "v"]); (EVar "t2_abab"); (EVar "t3_aabaab")]));
   (*L3004*) SAug true "triples_res" (EScale (1 # 2) (EEins "mlde,bcil,aedjkm->abcijk" [(ESlice (EVar "g_bbbb") [SV "o"; SV "o"; SV "v"; SV "v"]); (EVar "t2_abab"); (EVar "t3_abbabb")]));
   (*L3007*) SAssign "contracted_intermediate" (EScale (-1 # 1) (EEins "lmdk,dajl,bcim->abcijk" [(ESlice (EVar "g_abab") [SV "o"; SV "o"; SV "v"; SV "o"]); (EVar "t2_aaaa"); (EVar "t2_abab")]));
   (*L3008*) SAug true "triples_res" (EAdd (EAdd (EAdd (EScale (1 # 1) (EVar "contracted_intermediate")) (EScale (-1 # 1) (EEins "abcijk->abcjik" [(EVar "contracted_intermediate")]))) (EScale (-1 # 1) (EEins "abcijk->bacijk" [(EVar "contracted_intermediate")]))) (EScale (1 # 1) (EEins "abcijk->bacjik" [(EVar "contracted_intermediate")])));
   (*L3011*) SAssign "contracted_intermediate" (EScale (-1 # 1) (EEins "mldk,adjl,bcim->abcijk" [(ESlice (EVar "g_bbbb") [SV "o"; SV "o"; SV "v"; SV "o"]); (EVar "t2_abab"); (EVar "t2_abab")]));
   (*L3012*) SAug true "triples_res" (EAdd (EAdd (EAdd (EScale (1 # 1) (EVar "contracted_intermediate")) (EScale (-1 # 1) (EEins "abcijk->abcjik" [(EVar "contracted_intermediate")]))) (EScale (-1 # 1) (EEins "abcijk->bacijk" [(EVar "contracted_intermediate")]))) (EScale (1 # 1) (EEins "abcijk->bacjik" [(EVar "contracted_intermediate")])));
   (*L3015*) SAssign "contracted_intermediate" (EScale (-1 # 2) (EEins "mldk,daij,bcml->abcijk" [(ESlice (EVar "g_abab") [SV "o"; SV "o"; SV "v"; SV "o"]); (EVar "t2_aaaa"); (EVar "t2_abab")]));
   (*L3016*) SAug true "triples_res" (EAdd (EScale (1 # 1) (EVar "contracted_intermediate")) (EScale (-1 # 1) (EEins "abcijk->bacijk" [(EVar "contracted_intermediate")])));
   (*L3019*) SAssign "contracted_intermediate" (EScale (-1 # 2) (EEins "lmdk,daij,bclm->abcijk" [(ESlice (EVar "g_abab") [SV "o"; SV "o"; SV "v"; SV "o"]); (EVar "t2_aaaa"); (EVar "t2_abab")]));
   (*L3020*) SAug true "triples_res" (EAdd (EScale (1 # 1) (EVar "contracted_intermediate")) (EScale (-1 # 1) (EEins "abcijk->bacijk" [(EVar "contracted_intermediate")])));
   (*L3023*) SAssign "contracted_intermediate" (EScale (1 # 2) (EEins "mljd,adik,bcml->abcijk" [(ESlice (EVar "g_abab") [SV "o"; SV "o"; SV "o"; SV "v"]); (EVar "t2_abab"); (EVar "t2_abab")]));
   (*L3024*) SAug true "triples_res" (EAdd (EScale (1 # 1) (EVar "contracted_intermediate")) (EScale (-1 # 1) (EEins "abcijk->bacijk" [(EVar "contracted_intermediate")])));
   (*L3027*) SAssign "contracted_intermediate" (EScale (1 # 2) (EEins "lmjd,adik,bclm->abcijk" [(ESlice (EVar "g_abab") [SV "o"; SV "o"; SV "o"; SV "v"]); (EVar "t2_abab"); (EVar "t2_abab")]));
   (*L3028*) SAug true "triples_res" (EAdd (EScale (1 # 1) (EVar "contracted_intermediate")) (EScale (-1 # 1) (EEins "abcijk->bacijk" [(EVar "contracted_intermediate")])));
   (*L3031*) SAssign "contracted_intermediate" (EScale (1 # 1) (EEins "mldk,dcjl,abim->abcijk" [(ESlice (EVar "g_abab") [SV "o"; SV "o"; SV "v"; SV "o"]); (EVar "t2_abab"); (EVar "t2_aaaa")]));
   (*L3032*) SAug true "triples_res" (EAdd (EScale (1 # 1) (EVar "contracted_intermediate")) (EScale (-1 # 1) (EEins "abcijk->abcjik" [(EVar "contracted_intermediate")])));
   (*L3035*) SAug true "triples_res" (EScale (1 # 2) (EEins "mldj,dcik,abml->abcijk" [(ESlice (EVar "g_aaaa") [SV "o"; SV "o"; SV "v"; SV "o"]); (EVar "t2_abab"); (EVar "t2_aaaa")]));
   (*L3038*) SAssign "contracted_intermediate" (EScale (-1 # 1) (EEins "lmjd,adlk,bcim->abcijk" [(ESlice (EVar "g_abab") [SV "o"; SV "o"; SV "o"; SV "v"]); (EVar "t2_abab"); (EVar "t2_abab")]));
   (*L3039*) SAug true "triples_res" (EAdd (EScale (1 # 1) (EVar "contracted_intermediate")) (EScale (-1 # 1) (EEins "abcijk->bacijk" [(EVar "contracted_intermediate")])));
   (*L3042*) SAssign "contracted_intermediate" (EScale (-1 # 1) (EEins "mldj,dail,bcmk->abcijk" [(ESlice (EVar "g_aaaa") [SV "o"; SV "o"; SV "v"; SV "o"]); (EVar "t2_aaaa"); (EVar "t2_abab")]));
   (*L3043*) SAug true "triples_res" (EAdd (EScale (1 # 1) (EVar "contracted_intermediate")) (EScale (-1 # 1) (EEins "abcijk->bacijk" [(EVar "contracted_intermediate")])));
   (*L3046*) SAssign "contracted_intermediate" (EScale (-1 # 1) (EEins "mljd,adil,bcmk->abcijk" [(ESlice (EVar "g_abab") [SV "o"; SV "o"; SV "o"; SV "v"]); (EVar "t2_abab"); (EVar "t2_abab")]));
   (*L3047*) SAug true "triples_res" (EAdd (EScale (1 # 1) (EVar "contracted_intermediate")) (EScale (-1 # 1) (EEins "abcijk->bacijk" [(EVar "contracted_intermediate")])));
   (*L3050*) SAug true "triples_res" (EScale (1 # 1) (EEins "mldj,dclk,abim->abcijk" [(ESlice (EVar "g_aaaa") [SV "o"; SV "o"; SV "v"; SV "o"]); (EVar "t2_abab"); (EVar "t2_aaaa")]));
   (*L3053*) SAug true "triples_res" (EScale (1 # 1) (EEins "mljd,dckl,abim->abcijk" [(ESlice (EVar "g_abab") [SV "o"; SV "o"; SV "o"; SV "v"]); (EVar "t2_bbbb"); (EVar "t2_aaaa")]));
   (*L3056*) SAssign "contracted_intermediate" (EScale (1 # 1) (EEins "lmid,adlk,bcjm->abcijk" [(ESlice (EVar "g_abab") [SV "o"; SV "o"; SV "o"; SV "v"]); (EVar "t2_abab"); (EVar "t2_abab")]));
   (*L3057*) SAug true "triples_res" (EAdd (EScale (1 # 1) (EVar "contracted_intermediate")) (EScale (-1 # 1) (EEins "abcijk->bacijk" [(EVar "contracted_intermediate")])));
   (*L3060*) SAssign "contracted_intermediate" (EScale (1 # 1) (EEins "mldi,dajl,bcmk->abcijk" [(ESlice (EVar "g_aaaa") [SV "o"; SV "o"; SV "v"; SV "o"]); (EVar "t2_aaaa"); (EVar "t2_abab")]));
   (*L3061*) SAug true "triples_res" (EAdd (EScale (1 # 1) (EVar "contracted_intermediate")) (EScale (-1 # 1) (EEins "abcijk->bacijk" [(EVar "contracted_intermediate")])));
   (*L3064*) SAssign "contracted_intermediate" (EScale (1 # 1) (EEins "mlid,adjl,bcmk->abcijk" [(ESlice (EVar "g_abab") [SV "o"; SV "o"; SV "o"; SV "v"]); (EVar "t2_abab"); (EVar "t2_abab")]));
   (*L3065*) SAug true "triples_res" (EAdd (EScale (1 # 1) (EVar "contracted_intermediate")) (EScale (-1 # 1) (EEins "abcijk->bacijk" [(EVar "contracted_intermediate")])));
   (*L3068*) SAssign "contracted_intermediate" (EScale (-1 # 2) (EEins "mlid,adjk,bcml->abcijk" [(ESlice (EVar "g_abab") [SV "o"; SV "o"; SV "o"; SV "v"]); (EVar "t2_abab"); (EVar "t2_abab")]));
   (*L3069*) SAug true "triples_res" (EAdd (EScale (1 # 1) (EVar "contracted_intermediate")) (EScale (-1 # 1) (EEins "abcijk->bacijk" [(EVar "contracted_intermediate")])));
   (*L3072*) SAssign "contracted_intermediate" (EScale (-1 # 2) (EEins "lmid,adjk,bclm->abcijk" [(ESlice (EVar "g_abab") [SV "o"; SV "o"; SV "o"; SV "v"]); (EVar "t2_abab"); (EVar "t2_abab")]));
   (*L3073*) SAug true "triples_res" (EAdd (EScale (1 # 1) (EVar "contracted_intermediate")) (EScale (-1 # 1) (EEins "abcijk->bacijk" [(EVar "contracted_intermediate")])));
   (*L3076*) SAug true "triples_res" (EScale (-1 # 1) (EEins "mldi,dclk,abjm->abcijk" [(ESlice (EVar "g_aaaa") [SV "o"; SV "o"; SV "v"; SV "o"]); (EVar "t2_abab"); (EVar "t2_aaaa")]));
   (*L3079*) SAug true "triples_res" (EScale (-1 # 1) (EEins "mlid,dckl,abjm->abcijk" [(ESlice (EVar "g_abab") [SV "o"; SV "o"; SV "o"; SV "v"]); (EVar "t2_bbbb"); (EVar "t2_aaaa")]));
   (*L3082*) SAug true "triples_res" (EScale (-1 # 2) (EEins "mldi,dcjk,abml->abcijk" [(ESlice (EVar "g_aaaa") [SV "o"; SV "o"; SV "v"; SV "o"]); (EVar "t2_abab"); (EVar "t2_aaaa")]));
   (*L3085*) SAssign "contracted_intermediate" (EScale (1 # 2) (EEins "alde,dejk,bcil->abcijk" [(ESlice (EVar "g_abab") [SV "v"; SV "o"; SV "v"; SV "v"]); (EVar "t2_abab"); (EVar "t2_abab")]));
   (*L3086*) SAug true "triples_res" (EAdd (EAdd (EAdd (EScale (1 # 1) (EVar "contracted_intermediate")) (EScale (-1 # 1) (EEins "abcijk->abcjik" [(EVar "contracted_intermediate")]))) (EScale (-1 # 1) (EEins "abcijk->bacijk" [(EVar "contracted_intermediate")]))) (EScale (1 # 1) (EEins "abcijk->bacjik" [(EVar "contracted_intermediate")])));
   (*L3089*) SAssign "contracted_intermediate" (EScale (1 # 2) (EEins "aled,edjk,bcil->abcijk" [(ESlice (EVar "g_abab") [SV "v"; SV "o"; SV "v"; SV "v"]); (EVar "t2_abab"); (EVar "t2_abab")]));
   (*L3090*) SAug true "triples_res" (EAdd (EAdd (EAdd (EScale (1 # 1) (EVar "contracted_intermediate")) (EScale (-1 # 1) (EEins "abcijk->abcjik" [(EVar "contracted_intermediate")]))) (EScale (-1 # 1) (EEins "abcijk->bacijk" [(EVar "contracted_intermediate")]))) (EScale (1 # 1) (EEins "abcijk->bacjik" [(EVar "contracted_intermediate")])));
   (*L3093*) SAssign "contracted_intermediate" (EScale (1 # 2) (EEins "lade,deij,bclk->abcijk" [(ESlice (EVar "g_aaaa") [SV "o"; SV "v"; SV "v"; SV "v"]); (EVar "t2_aaaa"); (EVar "t2_abab")]));
   (*L3094*) SAug true "triples_res" (EAdd (EScale (1 # 1) (EVar "contracted_intermediate")) (EScale (-1 # 1) (EEins "abcijk->bacijk" [(EVar "contracted_intermediate")])));
   (*L3097*) SAssign "contracted_intermediate" (EScale (-1 # 1) (EEins "lade,dbjl,ecik->abcijk" [(ESlice (EVar "g_aaaa") [SV "o"; SV "v"; SV "v"; SV "v"]); (EVar "t2_aaaa"); (EVar "t2_abab")]));
   (*L3098*) SAug true "triples_res" (EAdd (EScale (1 # 1) (EVar "contracted_intermediate")) (EScale (-1 # 1) (EEins "abcijk->bacijk" [(EVar "contracted_intermediate")])));
   (*L3101*) SAssign "contracted_intermediate" (EScale (1 # 1) (EEins "aled,bdjl,ecik->abcijk" [(ESlice (EVar "g_abab") [SV "v"; SV "o"; SV "v"; SV "v"]); (EVar "t2_abab"); (EVar "t2_abab")]));
   (*L3102*) SAug true "triples_res" (EAdd (EScale (1 # 1) (EVar "contracted_intermediate")) (EScale (-1 # 1) (EEins "abcijk->bacijk" [(EVar "contracted_intermediate")])));
   (*L3105*) SAssign "contracted_intermediate" (EScale (1 # 1) (EEins "lade,dbil,ecjk->abcijk" [(ESlice (EVar "g_aaaa") [SV "o"; SV "v"; SV "v"; SV "v"]); (EVar "t2_aaaa"); (EVar "t2_abab")]));
   (*L3106*) SAug true "triples_res" (EAdd (EScale (1 # 1) (EVar "contracted_intermediate")) (EScale (-1 # 1) (EEins "abcijk->bacijk" [(EVar "contracted_intermediate")])));
   (*L3109*) SAssign "contracted_intermediate" (EScale (-1 # 1) (EEins "aled,bdil,ecjk->abcijk" [(ESlice (EVar "g_abab") [SV "v"; SV "o"; SV "v"; SV "v"]); (EVar "t2_abab"); (EVar "t2_abab")]));
   (*L3110*) SAug true "triples_res" (EAdd (EScale (1 # 1) (EVar "contracted_intermediate")) (EScale (-1 # 1) (EEins "abcijk->bacijk" [(EVar "contracted_intermediate")])));
   (*L3113*) SAssign "contracted_intermediate" (EScale (-1 # 1) (EEins "aled,bdjk,ecil->abcijk" [(ESlice (EVar "g_abab") [SV "v"; SV "o"; SV "v"; SV "v"]); (EVar "t2_abab"); (EVar "t2_abab")]));
   (*L3114*) SAug true "triples_res" (EAdd (EAdd (EAdd (EScale (1 # 1) (EVar "contracted_intermediate")) (EScale (-1 # 1) (EEins "abcijk->abcjik" [(EVar "contracted_intermediate")]))) (EScale (-1 # 1) (EEins "abcijk->bacijk" [(EVar "contracted_intermediate")]))) (EScale (1 # 1) (EEins "abcijk->bacjik" [(EVar "contracted_intermediate")])));
   (*L3117*) SAssign "contracted_intermediate" (EScale (-1 # 1) (EEins "lade,dbij,eclk->abcijk" [(ESlice (EVar "g_aaaa") [SV "o"; SV "v"; SV "v"; SV "v"]); (EVar "t2_aaaa"); (EVar "t2_abab")]));
   (*L3118*) SAug true "triples_res" (EAdd (EScale (1 # 1) (EVar "contracted_intermediate")) (EScale (-1 # 1) (EEins "abcijk->bacijk" [(EVar "contracted_intermediate")])));
   (*L3121*) SAssign "contracted_intermediate" (EScale (-1 # 1) (EEins "alde,dbij,eckl->abcijk" [(ESlice (EVar "g_abab") [SV "v"; SV "o"; SV "v"; SV "v"]); (EVar "t2_aaaa"); (EVar "t2_bbbb")]));
   (*L3122*) SAug true "triples_res" (EAdd (EScale (1 # 1) (EVar "contracted_intermediate")) (EScale (-1 # 1) (EEins "abcijk->bacijk" [(EVar "contracted_intermediate")])));
   (*L3125*) SAssign "contracted_intermediate" (EScale (-1 # 2) (EEins "lcde,dejk,abil->abcijk" [(ESlice (EVar "g_abab") [SV "o"; SV "v"; SV "v"; SV "v"]); (EVar "t2_abab"); (EVar "t2_aaaa")]));
   (*L3126*) SAug true "triples_res" (EAdd (EScale (1 # 1) (EVar "contracted_intermediate")) (EScale (-1 # 1) (EEins "abcijk->abcjik" [(EVar "contracted_intermediate")])));
   (*L3129*) SAssign "contracted_intermediate" (EScale (-1 # 2) (EEins "lced,edjk,abil->abcijk" [(ESlice (EVar "g_abab") [SV "o"; SV "v"; SV "v"; SV "v"]); (EVar "t2_abab"); (EVar "t2_aaaa")]));
   (*L3130*) SAug true "triples_res" (EAdd (EScale (1 # 1) (EVar "contracted_intermediate")) (EScale (-1 # 1) (EEins "abcijk->abcjik" [(EVar "contracted_intermediate")])));
   (*L3133*) SAug true "triples_res" (EScale (-1 # 1) (EEins "lced,adlk,ebij->abcijk" [(ESlice (EVar "g_abab") [SV "o"; SV "v"; SV "v"; SV "v"]); (EVar "t2_abab"); (EVar "t2_aaaa")]));
   (*L3136*) SAug true "triples_res" (EScale (1 # 1) (EEins "lcde,dajl,beik->abcijk" [(ESlice (EVar "g_abab") [SV "o"; SV "v"; SV "v"; SV "v"]); (EVar "t2_aaaa"); (EVar "t2_abab")]));
   (*L3139*) SAug true "triples_res" (EScale (-1 # 1) (EEins "lcde,adjl,beik->abcijk" [(ESlice (EVar "g_bbbb") [SV "o"; SV "v"; SV "v"; SV "v"]); (EVar "t2_abab"); (EVar "t2_abab")]));
   (*L3142*) SAug true "triples_res" (EScale (-1 # 1) (EEins "lcde,dail,bejk->abcijk" [(ESlice (EVar "g_abab") [SV "o"; SV "v"; SV "v"; SV "v"]); (EVar "t2_aaaa"); (EVar "t2_abab")]));
   (*L3145*) SAug true "triples_res" (EScale (1 # 1) (EEins "lcde,adil,bejk->abcijk" [(ESlice (EVar "g_bbbb") [SV "o"; SV "v"; SV "v"; SV "v"]); (EVar "t2_abab"); (EVar "t2_abab")]));
   (*L3148*) SAssign "contracted_intermediate" (EScale (1 # 1) (EEins "lced,adjk,ebil->abcijk" [(ESlice (EVar "g_abab") [SV "o"; SV "v"; SV "v"; SV "v"]); (EVar "t2_abab"); (EVar "t2_aaaa")]));
   (*L3149*) SAug true "triples_res" (EAdd (EScale (1 # 1) (EVar "contracted_intermediate")) (EScale (-1 # 1) (EEins "abcijk->abcjik" [(EVar "contracted_intermediate")])));
   (*L3152*) SAssign "contracted_intermediate" (EScale (1 # 1) (EEins "lcde,adjk,beil->abcijk" [(ESlice (EVar "g_bbbb") [SV "o"; SV "v"; SV "v"; SV "v"]); (EVar "t2_abab"); (EVar "t2_abab")]));
   (*L3153*) SAug true "triples_res" (EAdd (EScale (1 # 1) (EVar "contracted_intermediate")) (EScale (-1 # 1) (EEins "abcijk->abcjik" [(EVar "contracted_intermediate")])));
   (*L3156*) SAug true "triples_res" (EScale (1 # 1) (EEins "lcde,daij,belk->abcijk" [(ESlice (EVar "g_abab") [SV "o"; SV "v"; SV "v"; SV "v"]); (EVar "t2_aaaa"); (EVar "t2_abab")]));
   (*L3159*) SAssign "contracted_intermediate" (EScale (1 # 1) (EEins "lmde,dl,aejk,bcim->abcijk" [(ESlice (EVar "g_abab") [SV "o"; SV "o"; SV "v"; SV "v"]); (EVar "t1_aa"); (EVar "t2_abab"); (EVar "t2_abab")]));
   (*L3160*) SAug true "triples_res" (EAdd (EAdd (EAdd (EScale (1 # 1) (EVar "contracted_intermediate")) (EScale (-1 # 1) (EEins "abcijk->abcjik" [(EVar "contracted_intermediate")]))) (EScale (-1 # 1) (EEins "abcijk->bacijk" [(EVar "contracted_intermediate")]))) (EScale (1 # 1) (EEins "abcijk->bacjik" [(EVar "contracted_intermediate")])));
   (*L3163*) SAssign "contracted_intermediate" (EScale (-1 # 1) (EEins "mlde,dl,aejk,bcim->abcijk" [(ESlice (EVar "g_bbbb") [SV "o"; SV "o"; SV "v"; SV "v"]); (EVar "t1_bb"); (EVar "t2_abab"); (EVar "t2_abab")]));
   (*L3164*) SAug true "triples_res" (EAdd (EAdd (EAdd (EScale (1 # 1) (EVar "contracted_intermediate")) (EScale (-1 # 1) (EEins "abcijk->abcjik" [(EVar "contracted_intermediate")]))) (EScale (-1 # 1) (EEins "abcijk->bacijk" [(EVar "contracted_intermediate")]))) (EScale (1 # 1) (EEins "abcijk->bacjik" [(EVar "contracted_intermediate")])));
   (*L3167*) SAssign "contracted_intermediate" (EScale (-1 # 1) (EEins "mlde,dl,eaij,bcmk->abcijk" [(ESlice (EVar "g_aaaa") [SV "o"; SV "o"; SV "v"; SV "v"]); (EVar "t1_aa"); (EVar "t2_aaaa"); (EVar "t2_abab")]));
   (*L3168*) SAug true "triples_res" (EAdd (EScale (1 # 1) (EVar "contracted_intermediate")) (EScale (-1 # 1) (EEins "abcijk->bacijk" [(EVar "contracted_intermediate")])));
   (*L3171*) SAssign "contracted_intermediate" (EScale (1 # 1) (EEins "mled,dl,eaij,bcmk->abcijk" [(ESlice (EVar "g_abab") [SV "o"; SV "o"; SV "v"; SV "v"]); (EVar "t1_bb"); (EVar "t2_aaaa"); (EVar "t2_abab")]));
   (*L3172*) SAug true "triples_res" (EAdd (EScale (1 # 1) (EVar "contracted_intermediate")) (EScale (-1 # 1) (EEins "abcijk->bacijk" [(EVar "contracted_intermediate")])));
   (*L3175*) SAssign "contracted_intermediate" (EScale (1 # 1) (EEins "mlde,dl,ecjk,abim->abcijk" [(ESlice (EVar "g_aaaa") [SV "o"; SV "o"; SV "v"; SV "v"]); (EVar "t1_aa"); (EVar "t2_abab"); (EVar "t2_aaaa")]));
   (*L3176*) SAug true "triples_res" (EAdd (EScale (1 # 1) (EVar "contracted_intermediate")) (EScale (-1 # 1) (EEins "abcijk->abcjik" [(EVar "contracted_intermediate")])));
   (*L3179*) SAssign "contracted_intermediate" (EScale (-1 # 1) (EEins "mled,dl,ecjk,abim->abcijk" [(ESlice (EVar "g_abab") [SV "o"; SV "o"; SV "v"; SV "v"]); (EVar "t1_bb"); (EVar "t2_abab"); (EVar "t2_aaaa")]));
   (*L3180*) SAug true "triples_res" (EAdd (EScale (1 # 1) (EVar "contracted_intermediate")) (EScale (-1 # 1) (EEins "abcijk->abcjik" [(EVar "contracted_intermediate")])));
   (*L3183*) SAssign "contracted_intermediate" (EScale (-1 # 1) (EEins "lmed,dk,eajl,bcim->abcijk" [(ESlice (EVar "g_abab") [SV "o"; SV "o"; SV "v"; SV "v"]); (EVar "t1_bb"); (EVar "t2_aaaa"); (EVar "t2_abab")]));
   (*L3184*) SAug true "triples_res" (EAdd (EAdd (EAdd (EScale (1 # 1) (EVar "contracted_intermediate")) (EScale (-1 # 1) (EEins "abcijk->abcjik" [(EVar "contracted_intermediate")]))) (EScale (-1 # 1) (EEins "abcijk->bacijk" [(EVar "contracted_intermediate")]))) (EScale (1 # 1) (EEins "abcijk->bacjik" [(EVar "contracted_intermediate")])));
   (*L3187*) SAssign "contracted_intermediate" (EScale (1 # 1) (EEins "mlde,dk,aejl,bcim->abcijk" [(ESlice (EVar "g_bbbb") [SV "o"; SV "o"; SV "v"; SV "v"]); (EVar "t1_bb"); (EVar "t2_abab"); (EVar "t2_abab")]));
   (*L3188*) SAug true "triples_res" (EAdd (EAdd (EAdd (EScale (1 # 1) (EVar "contracted_intermediate")) (EScale (-1 # 1) (EEins "abcijk->abcjik" [(EVar "contracted_intermediate")]))) (EScale (-1 # 1) (EEins "abcijk->bacijk" [(EVar "contracted_intermediate")]))) (EScale (1 # 1) (EEins "abcijk->bacjik" [(EVar "contracted_intermediate")])));
   (*L3191*) SAssign "contracted_intermediate" (EScale (-1 # 2) (EEins "mled,dk,eaij,bcml->abcijk" [(ESlice (EVar "g_abab") [SV "o"; SV "o"; SV "v"; SV "v"]); (EVar "t1_bb"); (EVar "t2_aaaa"); (EVar "t2_abab")]));
   (*L3192*) SAug true "triples_res" (EAdd (EScale (1 # 1) (EVar "contracted_intermediate")) (EScale (-1 # 1) (EEins "abcijk->bacijk" [(EVar "contracted_intermediate")])));
   (*L3195*) SAssign "contracted_intermediate" (EScale (-1 # 2) (EEins "lmed,dk,eaij,bclm->abcijk" [(ESlice (EVar "g_abab") [SV "o"; SV "o"; SV "v"; SV "v"]); (EVar "t1_bb"); (EVar "t2_aaaa"); (EVar "t2_abab")]));
   (*L3196*) SAug true "triples_res" (EAdd (EScale (1 # 1) (EVar "contracted_intermediate")) (EScale (-1 # 1) (EEins "abcijk->bacijk" [(EVar "contracted_intermediate")])));
   (*L3199*) SAssign "contracted_intermediate" (EScale (1 # 2) (EEins "mlde,dj,aeik,bcml->abcijk" [(ESlice (EVar "g_abab") [SV "o"; SV "o"; SV "v"; SV "v"]); (EVar "t1_aa"); (EVar "t2_abab"); (EVar "t2_abab")]));
   (*L3200*) SAug true "triples_res" (EAdd (EScale (1 # 1) (EVar "contracted_intermediate")) (EScale (-1 # 1) (EEins "abcijk->bacijk" [(EVar "contracted_intermediate")])));
   (*L3203*) SAssign "contracted_intermediate" (EScale (1 # 2) (EEins "lmde,dj,aeik,bclm->abcijk" [(ESlice (EVar "g_abab") [SV "o"; SV "o"; SV "v"; SV "v"]); (EVar "t1_aa"); (EVar "t2_abab"); (EVar "t2_abab")]));
   (*L3204*) SAug true "triples_res" (EAdd (EScale (1 # 1) (EVar "contracted_intermediate")) (EScale (-1 # 1) (EEins "abcijk->bacijk" [(EVar "contracted_intermediate")])));
   (*L3207*) SAssign "contracted_intermediate" (EScale (1 # 1) (EEins "mled,dk,ecjl,abim->abcijk" [(ESlice (EVar "g_abab") [SV "o"; SV "o"; SV "v"; SV "v"]); (EVar "t1_bb"); (EVar "t2_abab"); (EVar "t2_aaaa")]));
   (*L3208*) SAug true "triples_res" (EAdd (EScale (1 # 1) (EVar "contracted_intermediate")) (EScale (-1 # 1) (EEins "abcijk->abcjik" [(EVar "contracted_intermediate")])));
   (*L3211*) SAug true "triples_res" (EScale (-1 # 2) (EEins "mlde,dj,ecik,abml->abcijk" [(ESlice (EVar "g_aaaa") [SV "o"; SV "o"; SV "v"; SV "v"]); (EVar "t1_aa"); (EVar "t2_abab"); (EVar "t2_aaaa")]));
   (*L3214*) SAssign "contracted_intermediate" (EScale (-1 # 1) (EEins "lmde,dj,aelk,bcim->abcijk" [(ESlice (EVar "g_abab") [SV "o"; SV "o"; SV "v"; SV "v"]); (EVar "t1_aa"); (EVar "t2_abab"); (EVar "t2_abab")]));
   (*L3215*) SAug true "triples_res" (EAdd (EScale (1 # 1) (EVar "contracted_intermediate")) (EScale (-1 # 1) (EEins "abcijk->bacijk" [(EVar "contracted_intermediate")])));
   (*L3218*) SAssign "contracted_intermediate" (EScale (1 # 1) (EEins "mlde,dj,eail,bcmk->abcijk" [(ESlice (EVar "g_aaaa") [SV "o"; SV "o"; SV "v"; SV "v"]); (EVar "t1_aa"); (EVar "t2_aaaa"); (EVar "t2_abab")]));
   (*L3219*) SAug true "triples_res" (EAdd (EScale (1 # 1) (EVar "contracted_intermediate")) (EScale (-1 # 1) (EEins "abcijk->bacijk" [(EVar "contracted_intermediate")])));
   (*L3222*) SAssign "contracted_intermediate" (EScale (-1 # 1) (EEins "mlde,dj,aeil,bcmk->abcijk" [(ESlice (EVar "g_abab") [SV "o"; SV "o"; SV "v"; SV "v"]); (EVar "t1_aa"); (EVar "t2_abab"); (EVar "t2_abab")]));
   (*L3223*) SAug true "triples_res" (EAdd (EScale (1 # 1) (EVar "contracted_intermediate")) (EScale (-1 # 1) (EEins "abcijk->bacijk" [(EVar "contracted_intermediate")])));
   (*L3226*) SAug true "triples_res" (EScale (-1 # 1) (EEins "mlde,dj,eclk,abim->abcijk" [(ESlice (EVar "g_aaaa") [SV "o"; SV "o"; SV "v"; SV "v"]); (EVar "t1_aa"); (EVar "t2_abab"); (EVar "t2_aaaa")]));
   (*L3229*) SAug true "triples_res" (EScale (1 # 1) (EEins "mlde,dj,eckl,abim->abcijk" [(ESlice (EVar "g_abab") [SV "o"; SV "o"; SV "v"; SV "v"]); (EVar "t1_aa"); (EVar "t2_bbbb"); (EVar "t2_aaaa")]));
   (*L3232*) SAssign "contracted_intermediate" (EScale (1 # 1) (EEins "lmde,di,aelk,bcjm->abcijk" [(ESlice (EVar "g_abab") [SV "o"; SV "o"; SV "v"; SV "v"]); (EVar "t1_aa"); (EVar "t2_abab"); (EVar "t2_abab")]));
   (*L3233*) SAug true "triples_res" (EAdd (EScale (1 # 1) (EVar "contracted_intermediate")) (EScale (-1 # 1) (EEins "abcijk->bacijk" [(EVar "contracted_intermediate")])));
   (*L3236*) SAssign "contracted_intermediate" (EScale (-1 # 1) (EEins "mlde,di,eajl,bcmk->abcijk" [(ESlice (EVar "g_aaaa") [SV "o"; SV "o"; SV "v"; SV "v"]); (EVar "t1_aa"); (EVar "t2_aaaa"); (EVar "t2_abab")]));
   (*L3237*) SAug true "triples_res" (EAdd (EScale (1 # 1) (EVar "contracted_intermediate")) (EScale (-1 # 1) (EEins "abcijk->bacijk" [(EVar "contracted_intermediate")])));
   (*L3240*) SAssign "contracted_intermediate" (EScale (1 # 1) (EEins "mlde,di,aejl,bcmk->abcijk" [(ESlice (EVar "g_abab") [SV "o"; SV "o"; SV "v"; SV "v"]); (EVar "t1_aa"); (EVar "t2_abab"); (EVar "t2_abab")]));
   (*L3241*) SAug true "triples_res" (EAdd (EScale (1 # 1) (EVar "contracted_intermediate")) (EScale (-1 # 1) (EEins "abcijk->bacijk" [(EVar "contracted_intermediate")])));
   (*L3244*) SAssign "contracted_intermediate" (EScale (-1 # 2) (EEins "mlde,di,aejk,bcml->abcijk" [(ESlice (EVar "g_abab") [SV "o"; SV "o"; SV "v"; SV "v"]); (EVar "t1_aa"); (EVar "t2_abab"); (EVar "t2_abab")]));
   (*L3245*) SAug true "triples_res" (EAdd (EScale (1 # 1) (EVar "contracted_intermediate")) (EScale (-1 # 1) (EEins "abcijk->bacijk" [(EVar "contracted_intermediate")])));
   (*L3248*) SAssign "contracted_intermediate" (EScale (-1 # 2) (EEins "lmde,di,aejk,bclm->abcijk" [(ESlice (EVar "g_abab") [SV "o"; SV "o"; SV "v"; SV "v"]); (EVar "t1_aa"); (EVar "t2_abab"); (EVar "t2_abab")]));
   (*L3249*) SAug true "triples_res" (EAdd (EScale (1 # 1) (EVar "contracted_intermediate")) (EScale (-1 # 1) (EEins "abcijk->bacijk" [(EVar "contracted_intermediate")])));
   (*L3252*) SAug true "triples_res" (EScale (1 # 1) (EEins "mlde,di,eclk,abjm->abcijk" [(ESlice (EVar "g_aaaa") [SV "o"; SV "o"; SV "v"; SV "v"]); (EVar "t1_aa"); (EVar "t2_abab"); (EVar "t2_aaaa")]));
   (*L3255*) SAug true "triples_res" (EScale (-1 # 1) (EEins "mlde,di,eckl,abjm->abcijk" [(ESlice (EVar "g_abab") [SV "o"; SV "o"; SV "v"; SV "v"]); (EVar "t1_aa"); (EVar "t2_bbbb"); (EVar "t2_aaaa")]));
   (*L3258*) SAug true "triples_res" (EScale (1 # 2) (EEins "mlde,di,ecjk,abml->abcijk" [(ESlice (EVar "g_aaaa") [SV "o"; SV "o"; SV "v"; SV "v"]); (EVar "t1_aa"); (EVar "t2_abab"); (EVar "t2_aaaa")]));
   (*L3261*) SAssign "contracted_intermediate" (EScale (-1 # 2) (EEins "lmde,al,dejk,bcim->abcijk" [(ESlice (EVar "g_abab") [SV "o"; SV "o"; SV "v"; SV "v"]); (EVar "t1_aa"); (EVar "t2_abab"); (EVar "t2_abab")]));
   (*L3262*) SAug true "triples_res" (EAdd (EAdd (EAdd (EScale (1 # 1) (EVar "contracted_intermediate")) (EScale (-1 # 1) (EEins "abcijk->abcjik" [(EVar "contracted_intermediate")]))) (EScale (-1 # 1) (EEins "abcijk->bacijk" [(EVar "contracted_intermediate")]))) (EScale (1 # 1) (EEins "abcijk->bacjik" [(EVar "contracted_intermediate")])));
   (*L3265*) SAssign "contracted_intermediate" (EScale (-1 # 2) (EEins "lmed,al,edjk,bcim->abcijk" [(ESlice (EVar "g_abab") [SV "o"; SV "o"; SV "v"; SV "v"]); (EVar "t1_aa"); (EVar "t2_abab"); (EVar "t2_abab")]));
   (*L3266*) SAug true "triples_res" (EAdd (EAdd (EAdd (EScale (1 # 1) (EVar "contracted_intermediate")) (EScale (-1 # 1) (EEins "abcijk->abcjik" [(EVar "contracted_intermediate")]))) (EScale (-1 # 1) (EEins "abcijk->bacijk" [(EVar "contracted_intermediate")]))) (EScale (1 # 1) (EEins "abcijk->bacjik" [(EVar "contracted_intermediate")])));
   (*L3269*) SAssign "contracted_intermediate" (EScale (-1 # 2) (EEins "mlde,al,deij,bcmk->abcijk" [(ESlice (EVar "g_aaaa") [SV "o"; SV "o"; SV "v"; SV "v"]); (EVar "t1_aa"); (EVar "t2_aaaa"); (EVar "t2_abab")]));
   (*L3270*) SAug true "triples_res" (EAdd (EScale (1 # 1) (EVar "contracted_intermediate")) (EScale (-1 # 1) (EEins "abcijk->bacijk" [(EVar "contracted_intermediate")])));
   (*L3273*) SAssign "contracted_intermediate" (EScale (1 # 1) (EEins "mlde,al,dbjm,ecik->abcijk" [(ESlice (EVar "g_aaaa") [SV "o"; SV "o"; SV "v"; SV "v"]); (EVar "t1_aa"); (EVar "t2_aaaa"); (EVar "t2_abab")]));
   (*L3274*) SAug true "triples_res" (EAdd (EScale (1 # 1) (EVar "contracted_intermediate")) (EScale (-1 # 1) (EEins "abcijk->bacijk" [(EVar "contracted_intermediate")])));
   (*L3277*) SAssign "contracted_intermediate" (EScale (-1 # 1) (EEins "lmed,al,bdjm,ecik->abcijk" [(ESlice (EVar "g_abab") [SV "o"; SV "o"; SV "v"; SV "v"]); (EVar "t1_aa"); (EVar "t2_abab"); (EVar "t2_abab")]));
   (*L3278*) SAug true "triples_res" (EAdd (EScale (1 # 1) (EVar "contracted_intermediate")) (EScale (-1 # 1) (EEins "abcijk->bacijk" [(EVar "contracted_intermediate")])));
   (*L3281*) SAssign "contracted_intermediate" (EScale (-1 # 1) (EEins "mlde,al,dbim,ecjk->abcijk" [(ESlice (EVar "g_aaaa") [SV "o"; SV "o"; SV "v"; SV "v"]); (EVar "t1_aa"); (EVar "t2_aaaa"); (EVar "t2_abab")]));
   (*L3282*) SAug true "triples_res" (EAdd (EScale (1 # 1) (EVar "contracted_intermediate")) (EScale (-1 # 1) (EEins "abcijk->bacijk" [(EVar "contracted_intermediate")])));
   (*L3285*) SAssign "contracted_intermediate" (EScale (1 # 1) (EEins "lmed,al,bdim,ecjk->abcijk" [(ESlice (EVar "g_abab") [SV "o"; SV "o"; SV "v"; SV "v"]); (EVar "t1_aa"); (EVar "t2_abab"); (EVar "t2_abab")]));
   (*L3286*) SAug true "triples_res" (EAdd (EScale (1 # 1) (EVar "contracted_intermediate")) (EScale (-1 # 1) (EEins "abcijk->bacijk" [(EVar "contracted_intermediate")])));
   (*L3289*) SAssign "contracted_intermediate" (EScale (1 # 1) (EEins "lmed,al,bdjk,ecim->abcijk" [(ESlice (EVar "g_abab") [SV "o"; SV "o"; SV "v"; SV "v"]); (EVar "t1_aa"); (EVar "t2_abab"); (EVar "t2_abab")]));
   (*L3290*) SAug true "triples_res" (EAdd (EAdd (EAdd (EScale (1 # 1) (EVar "contracted_intermediate")) (EScale (-1 # 1) (EEins "abcijk->abcjik" [(EVar "contracted_intermediate")]))) (EScale (-1 # 1) (EEins "abcijk->bacijk" [(EVar "contracted_intermediate")]))) (EScale (1 # 1) (EEins "abcijk->bacjik" [(EVar "contracted_intermediate")])));
   (*L3293*) SAssign "contracted_intermediate" (EScale (1 # 1) (EEins "mlde,al,dbij,ecmk->abcijk" [(ESlice (EVar "g_aaaa") [SV "o"; SV "o"; SV "v"; SV "v"]); (EVar "t1_aa"); (EVar "t2_aaaa"); (EVar "t2_abab")]));
   (*L3294*) SAug true "triples_res" (EAdd (EScale (1 # 1) (EVar "contracted_intermediate")) (EScale (-1 # 1) (EEins "abcijk->bacijk" [(EVar "contracted_intermediate")])));
   (*L3297*) SAssign "contracted_intermediate" (EScale (1 # 1) (EEins "lmde,al,dbij,eckm->abcijk" [(ESlice (EVar "g_abab") [SV "o"; SV "o"; SV "v"; SV "v"]); (EVar "t1_aa"); (EVar "t2_aaaa"); (EVar "t2_bbbb")]));
   (*L3298*) SAug true "triples_res" (EAdd (EScale (1 # 1) (EVar "contracted_intermediate")) (EScale (-1 # 1) (EEins "abcijk->bacijk" [(EVar "contracted_intermediate")])));
   (*L3301*) SAssign "contracted_intermediate" (EScale (1 # 2) (EEins "mlde,cl,dejk,abim->abcijk" [(ESlice (EVar "g_abab") [SV "o"; SV "o"; SV "v"; SV "v"]); (EVar "t1_bb"); (EVar "t2_abab"); (EVar "t2_aaaa")]));
   (*L3302*) SAug true "triples_res" (EAdd (EScale (1 # 1) (EVar "contracted_intermediate")) (EScale (-1 # 1) (EEins "abcijk->abcjik" [(EVar "contracted_intermediate")])));
   (*L3305*) SAssign "contracted_intermediate" (EScale (1 # 2) (EEins "mled,cl,edjk,abim->abcijk" [(ESlice (EVar "g_abab") [SV "o"; SV "o"; SV "v"; SV "v"]); (EVar "t1_bb"); (EVar "t2_abab"); (EVar "t2_aaaa")]));
   (*L3306*) SAug true "triples_res" (EAdd (EScale (1 # 1) (EVar "contracted_intermediate")) (EScale (-1 # 1) (EEins "abcijk->abcjik" [(EVar "contracted_intermediate")])));
   (*L3309*) SAug true "triples_res" (EScale (1 # 1) (EEins "mled,cl,admk,ebij->abcijk" [(ESlice (EVar "g_abab") [SV "o"; SV "o"; SV "v"; SV "v"]); (EVar "t1_bb"); (EVar "t2_abab"); (EVar "t2_aaaa")]));
   (*L3312*) SAug true "triples_res" (EScale (-1 # 1) (EEins "mlde,cl,dajm,beik->abcijk" [(ESlice (EVar "g_abab") [SV "o"; SV "o"; SV "v"; SV "v"]); (EVar "t1_bb"); (EVar "t2_aaaa"); (EVar "t2_abab")]));
   (*L3315*) SAug true "triples_res" (EScale (1 # 1) (EEins "mlde,cl,adjm,beik->abcijk" [(ESlice (EVar "g_bbbb") [SV "o"; SV "o"; SV "v"; SV "v"]); (EVar "t1_bb"); (EVar "t2_abab"); (EVar "t2_abab")]));
   (*L3318*) SAug true "triples_res" (EScale (1 # 1) (EEins "mlde,cl,daim,bejk->abcijk" [(ESlice (EVar "g_abab") [SV "o"; SV "o"; SV "v"; SV "v"]); (EVar "t1_bb"); (EVar "t2_aaaa"); (EVar "t2_abab")]));
   (*L3321*) SAug true "triples_res" (EScale (-1 # 1) (EEins "mlde,cl,adim,bejk->abcijk" [(ESlice (EVar "g_bbbb") [SV "o"; SV "o"; SV "v"; SV "v"]); (EVar "t1_bb"); (EVar "t2_abab"); (EVar "t2_abab")]));
   (*L3324*) SAssign "contracted_intermediate" (EScale (-1 # 1) (EEins "mled,cl,adjk,ebim->abcijk" [(ESlice (EVar "g_abab") [SV "o"; SV "o"; SV "v"; SV "v"]); (EVar "t1_bb"); (EVar "t2_abab"); (EVar "t2_aaaa")]));
   (*L3325*) SAug true "triples_res" (EAdd (EScale (1 # 1) (EVar "contracted_intermediate")) (EScale (-1 # 1) (EEins "abcijk->abcjik" [(EVar "contracted_intermediate")])));
   (*L3328*) SAssign "contracted_intermediate" (EScale (-1 # 1) (EEins "mlde,cl,adjk,beim->abcijk" [(ESlice (EVar "g_bbbb") [SV "o"; SV "o"; SV "v"; SV "v"]); (EVar "t1_bb"); (EVar "t2_abab"); (EVar "t2_abab")]));
   (*L3329*) SAug true "triples_res" (EAdd (EScale (1 # 1) (EVar "contracted_intermediate")) (EScale (-1 # 1) (EEins "abcijk->abcjik" [(EVar "contracted_intermediate")])));
   (*L3332*) SAug true "triples_res" (EScale (-1 # 1) (EEins "mlde,cl,daij,bemk->abcijk" [(ESlice (EVar "g_abab") [SV "o"; SV "o"; SV "v"; SV "v"]); (EVar "t1_bb"); (EVar "t2_aaaa"); (EVar "t2_abab")]));
   (*L3335*) SAssign "contracted_intermediate" (EScale (-1 # 1) (EEins "lmdk,dj,al,bcim->abcijk" [(ESlice (EVar "g_abab") [SV "o"; SV "o"; SV "v"; SV "o"]); (EVar "t1_aa"); (EVar "t1_aa"); (EVar "t2_abab")]));
   (*L3336*) SAug true "triples_res" (EAdd (EAdd (EAdd (EScale (1 # 1) (EVar "contracted_intermediate")) (EScale (-1 # 1) (EEins "abcijk->abcjik" [(EVar "contracted_intermediate")]))) (EScale (-1 # 1) (EEins "abcijk->bacijk" [(EVar "contracted_intermediate")]))) (EScale (1 # 1) (EEins "abcijk->bacjik" [(EVar "contracted_intermediate")])));
   (*L3339*) SAssign "contracted_intermediate" (EScale (1 # 1) (EEins "mldk,dj,cl,abim->abcijk" [(ESlice (EVar "g_abab") [SV "o"; SV "o"; SV "v"; SV "o"]); (EVar "t1_aa"); (EVar "t1_bb"); (EVar "t2_aaaa")]));
   (*L3340*) SAug true "triples_res" (EAdd (EScale (1 # 1) (EVar "contracted_intermediate")) (EScale (-1 # 1) (EEins "abcijk->abcjik" [(EVar "contracted_intermediate")])));
   (*L3343*) SAug true "triples_res" (EScale (1 # 1) (EEins "lmdk,al,cm,dbij->abcijk" [(ESlice (EVar "g_abab") [SV "o"; SV "o"; SV "v"; SV "o"]); (EVar "t1_aa"); (EVar "t1_bb"); (EVar "t2_aaaa")]));
   (*L3346*) SAug true "triples_res" (EScale (-1 # 1) (EEins "mldj,al,bm,dcik->abcijk" [(ESlice (EVar "g_aaaa") [SV "o"; SV "o"; SV "v"; SV "o"]); (EVar "t1_aa"); (EVar "t1_aa"); (EVar "t2_abab")]));
   (*L3349*) SAug true "triples_res" (EScale (-1 # 1) (EEins "lmjd,al,cm,bdik->abcijk" [(ESlice (EVar "g_abab") [SV "o"; SV "o"; SV "o"; SV "v"]); (EVar "t1_aa"); (EVar "t1_bb"); (EVar "t2_abab")]));
   (*L3352*) SAug true "triples_res" (EScale (-1 # 1) (EEins "lmdk,bl,cm,daij->abcijk" [(ESlice (EVar "g_abab") [SV "o"; SV "o"; SV "v"; SV "o"]); (EVar "t1_aa"); (EVar "t1_bb"); (EVar "t2_aaaa")]));
   (*L3355*) SAug true "triples_res" (EScale (1 # 1) (EEins "lmjd,bl,cm,adik->abcijk" [(ESlice (EVar "g_abab") [SV "o"; SV "o"; SV "o"; SV "v"]); (EVar "t1_aa"); (EVar "t1_bb"); (EVar "t2_abab")]));
   (*L3358*) SAssign "contracted_intermediate" (EScale (-1 # 1) (EEins "lmjd,dk,al,bcim->abcijk" [(ESlice (EVar "g_abab") [SV "o"; SV "o"; SV "o"; SV "v"]); (EVar "t1_bb"); (EVar "t1_aa"); (EVar "t2_abab")]));
   (*L3359*) SAug true "triples_res" (EAdd (EScale (1 # 1) (EVar "contracted_intermediate")) (EScale (-1 # 1) (EEins "abcijk->bacijk" [(EVar "contracted_intermediate")])));
   (*L3362*) SAssign "contracted_intermediate" (EScale (-1 # 1) (EEins "mldj,di,al,bcmk->abcijk" [(ESlice (EVar "g_aaaa") [SV "o"; SV "o"; SV "v"; SV "o"]); (EVar "t1_aa"); (EVar "t1_aa"); (EVar "t2_abab")]));
   (*L3363*) SAug true "triples_res" (EAdd (EScale (1 # 1) (EVar "contracted_intermediate")) (EScale (-1 # 1) (EEins "abcijk->bacijk" [(EVar "contracted_intermediate")])));
   (*L3366*) SAug true "triples_res" (EScale (1 # 1) (EEins "mljd,dk,cl,abim->abcijk" [(ESlice (EVar "g_abab") [SV "o"; SV "o"; SV "o"; SV "v"]); (EVar "t1_bb"); (EVar "t1_bb"); (EVar "t2_aaaa")]));
   (*L3369*) SAssign "contracted_intermediate" (EScale (1 # 1) (EEins "lmid,dk,al,bcjm->abcijk" [(ESlice (EVar "g_abab") [SV "o"; SV "o"; SV "o"; SV "v"]); (EVar "t1_bb"); (EVar "t1_aa"); (EVar "t2_abab")]));
   (*L3370*) SAug true "triples_res" (EAdd (EScale (1 # 1) (EVar "contracted_intermediate")) (EScale (-1 # 1) (EEins "abcijk->bacijk" [(EVar "contracted_intermediate")])));
   (*L3373*) SAssign "contracted_intermediate" (EScale (1 # 1) (EEins "mldi,dj,al,bcmk->abcijk" [(ESlice (EVar "g_aaaa") [SV "o"; SV "o"; SV "v"; SV "o"]); (EVar "t1_aa"); (EVar "t1_aa"); (EVar "t2_abab")]));
   (*L3374*) SAug true "triples_res" (EAdd (EScale (1 # 1) (EVar "contracted_intermediate")) (EScale (-1 # 1) (EEins "abcijk->bacijk" [(EVar "contracted_intermediate")])));
   (*L3377*) SAug true "triples_res" (EScale (-1 # 1) (EEins "mlid,dk,cl,abjm->abcijk" [(ESlice (EVar "g_abab") [SV "o"; SV "o"; SV "o"; SV "v"]); (EVar "t1_bb"); (EVar "t1_bb"); (EVar "t2_aaaa")]));
   (*L3380*) SAug true "triples_res" (EScale (1 # 1) (EEins "mldi,al,bm,dcjk->abcijk" [(ESlice (EVar "g_aaaa") [SV "o"; SV "o"; SV "v"; SV "o"]); (EVar "t1_aa"); (EVar "t1_aa"); (EVar "t2_abab")]));
   (*L3383*) SAug true "triples_res" (EScale (1 # 1) (EEins "lmid,al,cm,bdjk->abcijk" [(ESlice (EVar "g_abab") [SV "o"; SV "o"; SV "o"; SV "v"]); (EVar "t1_aa"); (EVar "t1_bb"); (EVar "t2_abab")]));
   (*L3386*) SAug true "triples_res" (EScale (-1 # 1) (EEins "lmid,bl,cm,adjk->abcijk" [(ESlice (EVar "g_abab") [SV "o"; SV "o"; SV "o"; SV "v"]); (EVar "t1_aa"); (EVar "t1_bb"); (EVar "t2_abab")]));
   (*L3389*) SAssign "contracted_intermediate" (EScale (1 # 1) (EEins "aled,dk,ej,bcil->abcijk" [(ESlice (EVar "g_abab") [SV "v"; SV "o"; SV "v"; SV "v"]); (EVar "t1_bb"); (EVar "t1_aa"); (EVar "t2_abab")]));
   (*L3390*) SAug true "triples_res" (EAdd (EAdd (EAdd (EScale (1 # 1) (EVar "contracted_intermediate")) (EScale (-1 # 1) (EEins "abcijk->abcjik" [(EVar "contracted_intermediate")]))) (EScale (-1 # 1) (EEins "abcijk->bacijk" [(EVar "contracted_intermediate")]))) (EScale (1 # 1) (EEins "abcijk->bacjik" [(EVar "contracted_intermediate")])));
   (*L3393*) SAug true "triples_res" (EScale (-1 # 1) (EEins "aled,dk,cl,ebij->abcijk" [(ESlice (EVar "g_abab") [SV "v"; SV "o"; SV "v"; SV "v"]); (EVar "t1_bb"); (EVar "t1_bb"); (EVar "t2_aaaa")]));
   (*L3396*) SAug true "triples_res" (EScale (-1 # 1) (EEins "lade,dj,bl,ecik->abcijk" [(ESlice (EVar "g_aaaa") [SV "o"; SV "v"; SV "v"; SV "v"]); (EVar "t1_aa"); (EVar "t1_aa"); (EVar "t2_abab")]));
   (*L3399*) SAug true "triples_res" (EScale (1 # 1) (EEins "alde,dj,cl,beik->abcijk" [(ESlice (EVar "g_abab") [SV "v"; SV "o"; SV "v"; SV "v"]); (EVar "t1_aa"); (EVar "t1_bb"); (EVar "t2_abab")]));
   (*L3402*) SAssign "contracted_intermediate" (EScale (-1 # 1) (EEins "lade,dj,ei,bclk->abcijk" [(ESlice (EVar "g_aaaa") [SV "o"; SV "v"; SV "v"; SV "v"]); (EVar "t1_aa"); (EVar "t1_aa"); (EVar "t2_abab")]));
   (*L3403*) SAug true "triples_res" (EAdd (EScale (1 # 1) (EVar "contracted_intermediate")) (EScale (-1 # 1) (EEins "abcijk->bacijk" [(EVar "contracted_intermediate")])));
   (*L3406*) SAug true "triples_res" (EScale (1 # 1) (EEins "lade,di,bl,ecjk->abcijk" [(ESlice (EVar "g_aaaa") [SV "o"; SV "v"; SV "v"; SV "v"]); (EVar "t1_aa"); (EVar "t1_aa"); (EVar "t2_abab")]));
   (*L3409*) SAug true "triples_res" (EScale (-1 # 1) (EEins "alde,di,cl,bejk->abcijk" [(ESlice (EVar "g_abab") [SV "v"; SV "o"; SV "v"; SV "v"]); (EVar "t1_aa"); (EVar "t1_bb"); (EVar "t2_abab")]));
   (*L3412*) SAug true "triples_res" (EScale (1 # 1) (EEins "bled,dk,cl,eaij->abcijk" [(ESlice (EVar "g_abab") [SV "v"; SV "o"; SV "v"; SV "v"]); (EVar "t1_bb"); (EVar "t1_bb"); (EVar "t2_aaaa")]));
   (*L3415*) SAug true "triples_res" (EScale (1 # 1) (EEins "lbde,dj,al,ecik->abcijk" [(ESlice (EVar "g_aaaa") [SV "o"; SV "v"; SV "v"; SV "v"]); (EVar "t1_aa"); (EVar "t1_aa"); (EVar "t2_abab")]));
   (*L3418*) SAug true "triples_res" (EScale (-1 # 1) (EEins "blde,dj,cl,aeik->abcijk" [(ESlice (EVar "g_abab") [SV "v"; SV "o"; SV "v"; SV "v"]); (EVar "t1_aa"); (EVar "t1_bb"); (EVar "t2_abab")]));
   (*L3421*) SAug true "triples_res" (EScale (-1 # 1) (EEins "lbde,di,al,ecjk->abcijk" [(ESlice (EVar "g_aaaa") [SV "o"; SV "v"; SV "v"; SV "v"]); (EVar "t1_aa"); (EVar "t1_aa"); (EVar "t2_abab")]));
   (*L3424*) SAug true "triples_res" (EScale (1 # 1) (EEins "blde,di,cl,aejk->abcijk" [(ESlice (EVar "g_abab") [SV "v"; SV "o"; SV "v"; SV "v"]); (EVar "t1_aa"); (EVar "t1_bb"); (EVar "t2_abab")]));
   (*L3427*) SAssign "contracted_intermediate" (EScale (-1 # 1) (EEins "lced,dk,ej,abil->abcijk" [(ESlice (EVar "g_abab") [SV "o"; SV "v"; SV "v"; SV "v"]); (EVar "t1_bb"); (EVar "t1_aa"); (EVar "t2_aaaa")]));
   (*L3428*) SAug true "triples_res" (EAdd (EScale (1 # 1) (EVar "contracted_intermediate")) (EScale (-1 # 1) (EEins "abcijk->abcjik" [(EVar "contracted_intermediate")])));
   (*L3431*) SAssign "contracted_intermediate" (EScale (-1 # 1) (EEins "lced,dk,al,ebij->abcijk" [(ESlice (EVar "g_abab") [SV "o"; SV "v"; SV "v"; SV "v"]); (EVar "t1_bb"); (EVar "t1_aa"); (EVar "t2_aaaa")]));
   (*L3432*) SAug true "triples_res" (EAdd (EScale (1 # 1) (EVar "contracted_intermediate")) (EScale (-1 # 1) (EEins "abcijk->bacijk" [(EVar "contracted_intermediate")])));
   (*L3435*) SAssign "contracted_intermediate" (EScale (1 # 1) (EEins "lcde,dj,al,beik->abcijk" [(ESlice (EVar "g_abab") [SV "o"; SV "v"; SV "v"; SV "v"]); (EVar "t1_aa"); (EVar "t1_aa"); (EVar "t2_abab")]));
   (*L3436*) SAug true "triples_res" (EAdd (EScale (1 # 1) (EVar "contracted_intermediate")) (EScale (-1 # 1) (EEins "abcijk->bacijk" [(EVar "contracted_intermediate")])));
   (*L3439*) SAssign "contracted_intermediate" (EScale (-1 # 1) (EEins "lcde,di,al,bejk->abcijk" [(ESlice (EVar "g_abab") [SV "o"; SV "v"; SV "v"; SV "v"]); (EVar "t1_aa"); (EVar "t1_aa"); (EVar "t2_abab")]));
   (*L3440*) SAug true "triples_res" (EAdd (EScale (1 # 1) (EVar "contracted_intermediate")) (EScale (-1 # 1) (EEins "abcijk->bacijk" [(EVar "contracted_intermediate")])));
   (*L3443*) SAug true "triples_res" (EScale (-1 # 1) (EEins "lmde,dl,ek,abcijm->abcijk" [(ESlice (EVar "g_abab") [SV "o"; SV "o"; SV "v"; SV "v"]); (EVar "t1_aa"); (EVar "t1_bb"); (EVar "t3_aabaab")]));
   (*L3446*) SAug true "triples_res" (EScale (1 # 1) (EEins "mlde,dl,ek,abcijm->abcijk" [(ESlice (EVar "g_bbbb") [SV "o"; SV "o"; SV "v"; SV "v"]); (EVar "t1_bb"); (EVar "t1_bb"); (EVar "t3_aabaab")]));
   (*L3449*) SAug true "triples_res" (EScale (1 # 1) (EEins "mlde,dl,ej,abcimk->abcijk" [(ESlice (EVar "g_aaaa") [SV "o"; SV "o"; SV "v"; SV "v"]); (EVar "t1_aa"); (EVar "t1_aa"); (EVar "t3_aabaab")]));
   (*L3452*) SAug true "triples_res" (EScale (-1 # 1) (EEins "mled,dl,ej,abcimk->abcijk" [(ESlice (EVar "g_abab") [SV "o"; SV "o"; SV "v"; SV "v"]); (EVar "t1_bb"); (EVar "t1_aa"); (EVar "t3_aabaab")]));
   (*L3455*) SAug true "triples_res" (EScale (-1 # 1) (EEins "mlde,dl,ei,abcjmk->abcijk" [(ESlice (EVar "g_aaaa") [SV "o"; SV "o"; SV "v"; SV "v"]); (EVar "t1_aa"); (EVar "t1_aa"); (EVar "t3_aabaab")]));
   (*L3458*) SAug true "triples_res" (EScale (1 # 1) (EEins "mled,dl,ei,abcjmk->abcijk" [(ESlice (EVar "g_abab") [SV "o"; SV "o"; SV "v"; SV "v"]); (EVar "t1_bb"); (EVar "t1_aa"); (EVar "t3_aabaab")]));
   (*L3461*) SAssign "contracted_intermediate" (EScale (1 # 1) (EEins "mlde,dl,am,ebcijk->abcijk" [(ESlice (EVar "g_aaaa") [SV "o"; SV "o"; SV "v"; SV "v"]); (EVar "t1_aa"); (EVar "t1_aa"); (EVar "t3_aabaab")]));
   (*L3462*) SAug true "triples_res" (EAdd (EScale (1 # 1) (EVar "contracted_intermediate")) (EScale (-1 # 1) (EEins "abcijk->bacijk" [(EVar "contracted_intermediate")])));
   (*L3465*) SAssign "contracted_intermediate" (EScale (-1 # 1) (EEins "mled,dl,am,ebcijk->abcijk" [(ESlice (EVar "g_abab") [SV "o"; SV "o"; SV "v"; SV "v"]); (EVar "t1_bb"); (EVar "t1_aa"); (EVar "t3_aabaab")]));
   (*L3466*) SAug true "triples_res" (EAdd (EScale (1 # 1) (EVar "contracted_intermediate")) (EScale (-1 # 1) (EEins "abcijk->bacijk" [(EVar "contracted_intermediate")])));
   (*L3469*) SAug true "triples_res" (EScale (1 # 1) (EEins "lmde,dl,cm,baeijk->abcijk" [(ESlice (EVar "g_abab") [SV "o"; SV "o"; SV "v"; SV "v"]); (EVar "t1_aa"); (EVar "t1_bb"); (EVar "t3_aabaab")]));
   (*L3472*) SAug true "triples_res" (EScale (-1 # 1) (EEins "mlde,dl,cm,baeijk->abcijk" [(ESlice (EVar "g_bbbb") [SV "o"; SV "o"; SV "v"; SV "v"]); (EVar "t1_bb"); (EVar "t1_bb"); (EVar "t3_aabaab")]));
   (*L3475*) SAssign "contracted_intermediate" (EScale (1 # 2) (EEins "mled,dk,ej,abciml->abcijk" [(ESlice (EVar "g_abab") [SV "o"; SV "o"; SV "v"; SV "v"]); (EVar "t1_bb"); (EVar "t1_aa"); (EVar "t3_aabaab")]));
   (*L3476*) SAug true "triples_res" (EAdd (EScale (1 # 1) (EVar "contracted_intermediate")) (EScale (-1 # 1) (EEins "abcijk->abcjik" [(EVar "contracted_intermediate")])));
   (*L3479*) SAssign "contracted_intermediate" (EScale (1 # 2) (EEins "lmed,dk,ej,abcilm->abcijk" [(ESlice (EVar "g_abab") [SV "o"; SV "o"; SV "v"; SV "v"]); (EVar "t1_bb"); (EVar "t1_aa"); (EVar "t3_aabaab")]));
   (*L3480*) SAug true "triples_res" (EAdd (EScale (1 # 1) (EVar "contracted_intermediate")) (EScale (-1 # 1) (EEins "abcijk->abcjik" [(EVar "contracted_intermediate")])));
   (*L3483*) SAssign "contracted_intermediate" (EScale (1 # 1) (EEins "lmed,dk,al,ebcijm->abcijk" [(ESlice (EVar "g_abab") [SV "o"; SV "o"; SV "v"; SV "v"]); (EVar "t1_bb"); (EVar "t1_aa"); (EVar "t3_aabaab")]));
   (*L3484*) SAug true "triples_res" (EAdd (EScale (1 # 1) (EVar "contracted_intermediate")) (EScale (-1 # 1) (EEins "abcijk->bacijk" [(EVar "contracted_intermediate")])));
   (*L3487*) SAssign "contracted_intermediate" (EScale (1 # 1) (EEins "mlde,dj,al,ebcimk->abcijk" [(ESlice (EVar "g_aaaa") [SV "o"; SV "o"; SV "v"; SV "v"]); (EVar "t1_aa"); (EVar "t1_aa"); (EVar "t3_aabaab")]));
   (*L3488*) SAug true "triples_res" (EAdd (EScale (1 # 1) (EVar "contracted_intermediate")) (EScale (-1 # 1) (EEins "abcijk->bacijk" [(EVar "contracted_intermediate")])));
   (*L3491*) SAssign "contracted_intermediate" (EScale (-1 # 1) (EEins "lmde,dj,al,becikm->abcijk" [(ESlice (EVar "g_abab") [SV "o"; SV "o"; SV "v"; SV "v"]); (EVar "t1_aa"); (EVar "t1_aa"); (EVar "t3_abbabb")]));
   (*L3492*) SAug true "triples_res" (EAdd (EScale (1 # 1) (EVar "contracted_intermediate")) (EScale (-1 # 1) (EEins "abcijk->bacijk" [(EVar "contracted_intermediate")])));
   (*L3495*) SAug true "triples_res" (EScale (-1 # 1) (EEins "mled,dk,cl,eabijm->abcijk" [(ESlice (EVar "g_abab") [SV "o"; SV "o"; SV "v"; SV "v"]); (EVar "t1_bb"); (EVar "t1_bb"); (EVar "t3_aaaaaa")]));
   (*L3498*) SAug true "triples_res" (EScale (-1 # 1) (EEins "mlde,dk,cl,baeijm->abcijk" [(ESlice (EVar "g_bbbb") [SV "o"; SV "o"; SV "v"; SV "v"]); (EVar "t1_bb"); (EVar "t1_bb"); (EVar "t3_aabaab")]));
   (*L3501*) SAug true "triples_res" (EScale (-1 # 1) (EEins "mlde,dj,cl,baeimk->abcijk" [(ESlice (EVar "g_abab") [SV "o"; SV "o"; SV "v"; SV "v"]); (EVar "t1_aa"); (EVar "t1_bb"); (EVar "t3_aabaab")]));
   (*L3504*) SAug true "triples_res" (EScale (1 # 2) (EEins "mlde,dj,ei,abclmk->abcijk" [(ESlice (EVar "g_aaaa") [SV "o"; SV "o"; SV "v"; SV "v"]); (EVar "t1_aa"); (EVar "t1_aa"); (EVar "t3_aabaab")]));
   (*L3507*) SAssign "contracted_intermediate" (EScale (-1 # 1) (EEins "mlde,di,al,ebcjmk->abcijk" [(ESlice (EVar "g_aaaa") [SV "o"; SV "o"; SV "v"; SV "v"]); (EVar "t1_aa"); (EVar "t1_aa"); (EVar "t3_aabaab")]));
   (*L3508*) SAug true "triples_res" (EAdd (EScale (1 # 1) (EVar "contracted_intermediate")) (EScale (-1 # 1) (EEins "abcijk->bacijk" [(EVar "contracted_intermediate")])));
   (*L3511*) SAssign "contracted_intermediate" (EScale (1 # 1) (EEins "lmde,di,al,becjkm->abcijk" [(ESlice (EVar "g_abab") [SV "o"; SV "o"; SV "v"; SV "v"]); (EVar "t1_aa"); (EVar "t1_aa"); (EVar "t3_abbabb")]));
   (*L3512*) SAug true "triples_res" (EAdd (EScale (1 # 1) (EVar "contracted_intermediate")) (EScale (-1 # 1) (EEins "abcijk->bacijk" [(EVar "contracted_intermediate")])));
   (*L3515*) SAug true "triples_res" (EScale (1 # 1) (EEins "mlde,di,cl,baejmk->abcijk" [(ESlice (EVar "g_abab") [SV "o"; SV "o"; SV "v"; SV "v"]); (EVar "t1_aa"); (EVar "t1_bb"); (EVar "t3_aabaab")]));
   (*L3518*) SAug true "triples_res" (EScale (-1 # 2) (EEins "mlde,al,bm,decijk->abcijk" [(ESlice (EVar "g_aaaa") [SV "o"; SV "o"; SV "v"; SV "v"]); (EVar "t1_aa"); (EVar "t1_aa"); (EVar "t3_aabaab")]));
   (*L3521*) SAug true "triples_res" (EScale (1 # 2) (EEins "lmde,al,cm,dbeijk->abcijk" [(ESlice (EVar "g_abab") [SV "o"; SV "o"; SV "v"; SV "v"]); (EVar "t1_aa"); (EVar "t1_bb"); (EVar "t3_aabaab")]));
   (*L3524*) SAug true "triples_res" (EScale (-1 # 2) (EEins "lmed,al,cm,bedijk->abcijk" [(ESlice (EVar "g_abab") [SV "o"; SV "o"; SV "v"; SV "v"]); (EVar "t1_aa"); (EVar "t1_bb"); (EVar "t3_aabaab")]));
   (*L3527*) SAug true "triples_res" (EScale (-1 # 2) (EEins "lmde,bl,cm,daeijk->abcijk" [(ESlice (EVar "g_abab") [SV "o"; SV "o"; SV "v"; SV "v"]); (EVar "t1_aa"); (EVar "t1_bb"); (EVar "t3_aabaab")]));
   (*L3530*) SAug true "triples_res" (EScale (1 # 2) (EEins "lmed,bl,cm,aedijk->abcijk" [(ESlice (EVar "g_abab") [SV "o"; SV "o"; SV "v"; SV "v"]); (EVar "t1_aa"); (EVar "t1_bb"); (EVar "t3_aabaab")]));
   (*L3533*) SAssign "contracted_intermediate" (EScale (-1 # 1) (EEins "lmed,dk,ej,al,bcim->abcijk" [(ESlice (EVar "g_abab") [SV "o"; SV "o"; SV "v"; SV "v"]); (EVar "t1_bb"); (EVar "t1_aa"); (EVar "t1_aa"); (EVar "t2_abab")]));
   (*L3534*) SAug true "triples_res" (EAdd (EAdd (EAdd (EScale (1 # 1) (EVar "contracted_intermediate")) (EScale (-1 # 1) (EEins "abcijk->abcjik" [(EVar "contracted_intermediate")]))) (EScale (-1 # 1) (EEins "abcijk->bacijk" [(EVar "contracted_intermediate")]))) (EScale (1 # 1) (EEins "abcijk->bacjik" [(EVar "contracted_intermediate")])));
   (*L3537*) SAssign "contracted_intermediate" (EScale (1 # 1) (EEins "mled,dk,ej,cl,abim->abcijk" [(ESlice (EVar "g_abab") [SV "o"; SV "o"; SV "v"; SV "v"]); (EVar "t1_bb"); (EVar "t1_aa"); (EVar "t1_bb"); (EVar "t2_aaaa")]));
   (*L3538*) SAug true "triples_res" (EAdd (EScale (1 # 1) (EVar "contracted_intermediate")) (EScale (-1 # 1) (EEins "abcijk->abcjik" [(EVar "contracted_intermediate")])));
   (*L3541*) SAug true "triples_res" (EScale (1 # 1) (EEins "lmed,dk,al,cm,ebij->abcijk" [(ESlice (EVar "g_abab") [SV "o"; SV "o"; SV "v"; SV "v"]); (EVar "t1_bb"); (EVar "t1_aa"); (EVar "t1_bb"); (EVar "t2_aaaa")]));
   (*L3544*) SAug true "triples_res" (EScale (1 # 1) (EEins "mlde,dj,al,bm,ecik->abcijk" [(ESlice (EVar "g_aaaa") [SV "o"; SV "o"; SV "v"; SV "v"]); (EVar "t1_aa"); (EVar "t1_aa"); (EVar "t1_aa"); (EVar "t2_abab")]));
   (*L3547*) SAug true "triples_res" (EScale (-1 # 1) (EEins "lmde,dj,al,cm,beik->abcijk" [(ESlice (EVar "g_abab") [SV "o"; SV "o"; SV "v"; SV "v"]); (EVar "t1_aa"); (EVar "t1_aa"); (EVar "t1_bb"); (EVar "t2_abab")]));
   (*L3550*) SAug true "triples_res" (EScale (-1 # 1) (EEins "lmed,dk,bl,cm,eaij->abcijk" [(ESlice (EVar "g_abab") [SV "o"; SV "o"; SV "v"; SV "v"]); (EVar "t1_bb"); (EVar "t1_aa"); (EVar "t1_bb"); (EVar "t2_aaaa")]));
   (*L3553*) SAug true "triples_res" (EScale (1 # 1) (EEins "lmde,dj,bl,cm,aeik->abcijk" [(ESlice (EVar "g_abab") [SV "o"; SV "o"; SV "v"; SV "v"]); (EVar "t1_aa"); (EVar "t1_aa"); (EVar "t1_bb"); (EVar "t2_abab")]));
   (*L3556*) SAssign "contracted_intermediate" (EScale (1 # 1) (EEins "mlde,dj,ei,al,bcmk->abcijk" [(ESlice (EVar "g_aaaa") [SV "o"; SV "o"; SV "v"; SV "v"]); (EVar "t1_aa"); (EVar "t1_aa"); (EVar "t1_aa"); (EVar "t2_abab")]));
   (*L3557*) SAug true "triples_res" (EAdd (EScale (1 # 1) (EVar "contracted_intermediate")) (EScale (-1 # 1) (EEins "abcijk->bacijk" [(EVar "contracted_intermediate")])));
   (*L3560*) SAug true "triples_res" (EScale (-1 # 1) (EEins "mlde,di,al,bm,ecjk->abcijk" [(ESlice (EVar "g_aaaa") [SV "o"; SV "o"; SV "v"; SV "v"]); (EVar "t1_aa"); (EVar "t1_aa"); (EVar "t1_aa"); (EVar "t2_abab")]));
   (*L3563*) SAug true "triples_res" (EScale (1 # 1) (EEins "lmde,di,al,cm,bejk->abcijk" [(ESlice (EVar "g_abab") [SV "o"; SV "o"; SV "v"; SV "v"]); (EVar "t1_aa"); (EVar "t1_aa"); (EVar "t1_bb"); (EVar "t2_abab")]));
   (*L3566*) SAug true "triples_res" (EScale (-1 # 1) (EEins "lmde,di,bl,cm,aejk->abcijk" [(ESlice (EVar "g_abab") [SV "o"; SV "o"; SV "v"; SV "v"]); (EVar "t1_aa"); (EVar "t1_aa"); (EVar "t1_bb"); (EVar "t2_abab")]))]
  (*L3568*) (EVar "triples_res").

(** /repo/UT2/fullCCresidEqns.py:3571-4946  def ccsdt_t3_abbabb_residual *)
Definition ccsdt_t3_abbabb_residual : fn := mkFn
  ["t1_aa"; "t1_bb"; "t2_aaaa"; "t2_bbbb"; "t2_abab"; "t3_aaaaaa"; "t3_aabaab"; "t3_abbabb"; "t3_bbbbbb"; "f_aa"; "f_bb"; "g_aaaa"; "g_bbbb"; "g_abab"; "oa"; "ob"; "va"; "vb"]
  [(*L3575*) SAssign "o" (EVar "oa");
   (*L3576*) SAssign "v" (EVar "va");
   (*L3579*) SAssign "contracted_intermediate" (EScale (-1 # 1) (EEins "lk,abcijl->abcijk" [(ESlice (EVar "f_bb") [SV "o"; SV "o"]); (EVar "t3_abbabb")]));
   (*L3580*) SAssign "triples_res" (EAdd (EScale (1 # 1) (EVar "contracted_intermediate")) (EScale (-1 # 1) (EEins "abcijk->abcikj" [(EVar "contracted_intermediate")])));
   (*L3583*) SAug true "triples_res" (EScale (1 # 1) (EEins "li,abclkj->abcijk" [(ESlice (EVar "f_aa") [SV "o"; SV "o"]); (EVar "t3_abbabb")]));
   (*L3586*) SAug true "triples_res" (EScale (1 # 1) (EEins "ad,dbcijk->abcijk" [(ESlice (EVar "f_aa") [SV "v"; SV "v"]); (EVar "t3_abbabb")]));
   (*L3589*) SAug true "triples_res" (EScale (1 # 1) (EEins "bd,adcijk->abcijk" [(ESlice (EVar "f_bb") [SV "v"; SV "v"]); (EVar "t3_abbabb")]));
   (*L3592*) SAug true "triples_res" (EScale (-1 # 1) (EEins "cd,adbijk->abcijk" [(ESlice (EVar "f_bb") [SV "v"; SV "v"]); (EVar "t3_abbabb")]));
   (*L3595*) SAssign "contracted_intermediate" (EScale (-1 # 1) (EEins "ld,dk,abcijl->abcijk" [(ESlice (EVar "f_bb") [SV "o"; SV "v"]); (EVar "t1_bb"); (EVar "t3_abbabb")]));
   (*L3596*) SAug true "triples_res" (EAdd (EScale (1 # 1) (EVar "contracted_intermediate")) (EScale (-1 # 1) (EEins "abcijk->abcikj" [(EVar "contracted_intermediate")])));
   (*L3599*) SAug true "triples_res" (EScale (1 # 1) (EEins "ld,di,abclkj->abcijk" [(ESlice (EVar "f_aa") [SV "o"; SV "v"]); (EVar "t1_aa"); (EVar "t3_abbabb")]));
   (*L3602*) SAug true "triples_res" (EScale (-1 # 1) (EEins "ld,al,dbcijk->abcijk" [(ESlice (EVar "f_aa") [SV "o"; SV "v"]); (EVar "t1_aa"); (EVar "t3_abbabb")]));
   (*L3605*) SAug true "triples_res" (EScale (-1 # 1) (EEins "ld,bl,adcijk->abcijk" [(ESlice (EVar "f_bb") [SV "o"; SV "v"]); (EVar "t1_bb"); (EVar "t3_abbabb")]));
   (*L3608*) SAug true "triples_res" (EScale (1 # 1) (EEins "ld,cl,adbijk->abcijk" [(ESlice (EVar "f_bb") [SV "o"; SV "v"]); (EVar "t1_bb"); (EVar "t3_abbabb")]));
   (*L3611*) SAug true "triples_res" (EScale (1 # 1) (EEins "ld,dbjk,acil->abcijk" [(ESlice (EVar "f_bb") [SV "o"; SV "v"]); (EVar "t2_bbbb"); (EVar "t2_abab")]));
   (*L3614*) SAug true "triples_res" (EScale (-1 # 1) (EEins "ld,adik,bcjl->abcijk" [(ESlice (EVar "f_bb") [SV "o"; SV "v"]); (EVar "t2_abab"); (EVar "t2_bbbb")]));
   (*L3617*) SAug true "triples_res" (EScale (1 # 1) (EEins "ld,dbik,aclj->abcijk" [(ESlice (EVar "f_aa") [SV "o"; SV "v"]); (EVar "t2_abab"); (EVar "t2_abab")]));
   (*L3620*) SAug true "triples_res" (EScale (1 # 1) (EEins "ld,adij,bckl->abcijk" [(ESlice (EVar "f_bb") [SV "o"; SV "v"]); (EVar "t2_abab"); (EVar "t2_bbbb")]));
   (*L3623*) SAug true "triples_res" (EScale (-1 # 1) (EEins "ld,dbij,aclk->abcijk" [(ESlice (EVar "f_aa") [SV "o"; SV "v"]); (EVar "t2_abab"); (EVar "t2_abab")]));
   (*L3626*) SAug true "triples_res" (EScale (-1 # 1) (EEins "ld,dcjk,abil->abcijk" [(ESlice (EVar "f_bb") [SV "o"; SV "v"]); (EVar "t2_bbbb"); (EVar "t2_abab")]));
   (*L3629*) SAug true "triples_res" (EScale (-1 # 1) (EEins "ld,dcik,ablj->abcijk" [(ESlice (EVar "f_aa") [SV "o"; SV "v"]); (EVar "t2_abab"); (EVar "t2_abab")]));
   (*L3632*) SAug true "triples_res" (EScale (1 # 1) (EEins "ld,dcij,ablk->abcijk" [(ESlice (EVar "f_aa") [SV "o"; SV "v"]); (EVar "t2_abab"); (EVar "t2_abab")]));
   (*L3635*) SAug true "triples_res" (EScale (1 # 1) (EEins "lbjk,acil->abcijk" [(ESlice (EVar "g_bbbb") [SV "o"; SV "v"; SV "o"; SV "o"]); (EVar "t2_abab")]));
   (*L3638*) SAug true "triples_res" (EScale (-1 # 1) (EEins "alik,bcjl->abcijk" [(ESlice (EVar "g_abab") [SV "v"; SV "o"; SV "o"; SV "o"]); (EVar "t2_bbbb")]));
   (*L3641*) SAug true "triples_res" (EScale (1 # 1) (EEins "lbik,aclj->abcijk" [(ESlice (EVar "g_abab") [SV "o"; SV "v"; SV "o"; SV "o"]); (EVar "t2_abab")]));
   (*L3644*) SAug true "triples_res" (EScale (1 # 1) (EEins "alij,bckl->abcijk" [(ESlice (EVar "g_abab") [SV "v"; SV "o"; SV "o"; SV "o"]); (EVar "t2_bbbb")]));
   (*L3647*) SAug true "triples_res" (EScale (-1 # 1) (EEins "lbij,aclk->abcijk" [(ESlice (EVar "g_abab") [SV "o"; SV "v"; SV "o"; SV "o"]); (EVar "t2_abab")]));
   (*L3650*) SAug true "triples_res" (EScale (-1 # 1) (EEins "lcjk,abil->abcijk" [(ESlice (EVar "g_bbbb") [SV "o"; SV "v"; SV "o"; SV "o"]); (EVar "t2_abab")]));
   (*L3653*) SAug true "triples_res" (EScale (-1 # 1) (EEins "lcik,ablj->abcijk" [(ESlice (EVar "g_abab") [SV "o"; SV "v"; SV "o"; SV "o"]); (EVar "t2_abab")]));
   (*L3656*) SAug true "triples_res" (EScale (1 # 1) (EEins "lcij,ablk->abcijk" [(ESlice (EVar "g_abab") [SV "o"; SV "v"; SV "o"; SV "o"]); (EVar "t2_abab")]));
   (*L3659*) SAssign "contracted_intermediate" (EScale (-1 # 1) (EEins "abdk,dcij->abcijk" [(ESlice (EVar "g_abab") [SV "v"; SV "v"; SV "v"; SV "o"]); (EVar "t2_abab")]));
   (*L3660*) SAug true "triples_res" (EAdd (EAdd (EAdd (EScale (1 # 1) (EVar "contracted_intermediate")) (EScale (-1 # 1) (EEins "abcijk->abcikj" [(EVar "contracted_intermediate")]))) (EScale (-1 # 1) (EEins "abcijk->acbijk" [(EVar "contracted_intermediate")]))) (EScale (1 # 1) (EEins "abcijk->acbikj" [(EVar "contracted_intermediate")])));
   (*L3663*) SAssign "contracted_intermediate" (EScale (1 # 1) (EEins "abid,dcjk->abcijk" [(ESlice (EVar "g_abab") [SV "v"; SV "v"; SV "o"; SV "v"]); (EVar "t2_bbbb")]));
   (*L3664*) SAug true "triples_res" (EAdd (EScale (1 # 1) (EVar "contracted_intermediate")) (EScale (-1 # 1) (EEins "abcijk->acbijk" [(EVar "contracted_intermediate")])));
   (*L3667*) SAssign "contracted_intermediate" (EScale (1 # 1) (EEins "bcdk,adij->abcijk" [(ESlice (EVar "g_bbbb") [SV "v"; SV "v"; SV "v"; SV "o"]); (EVar "t2_abab")]));
   (*L3668*) SAug true "triples_res" (EAdd (EScale (1 # 1) (EVar "contracted_intermediate")) (EScale (-1 # 1) (EEins "abcijk->abcikj" [(EVar "contracted_intermediate")])));
   (*L3671*) SAug true "triples_res" (EScale (1 # 2) (EEins "mljk,abciml->abcijk" [(ESlice (EVar "g_bbbb") [SV "o"; SV "o"; SV "o"; SV "o"]); (EVar "t3_abbabb")]));
   (*L3674*) SAug true "triples_res" (EScale (1 # 2) (EEins "mlik,abcmjl->abcijk" [(ESlice (EVar "g_abab") [SV "o"; SV "o"; SV "o"; SV "o"]); (EVar "t3_abbabb")]));
   (*L3677*) SAug true "triples_res" (EScale (-1 # 2) (EEins "lmik,abclmj->abcijk" [(ESlice (EVar "g_abab") [SV "o"; SV "o"; SV "o"; SV "o"]); (EVar "t3_abbabb")]));
   (*L3680*) SAug true "triples_res" (EScale (-1 # 2) (EEins "mlij,abcmkl->abcijk" [(ESlice (EVar "g_abab") [SV "o"; SV "o"; SV "o"; SV "o"]); (EVar "t3_abbabb")]));
   (*L3683*) SAug true "triples_res" (EScale (1 # 2) (EEins "lmij,abclmk->abcijk" [(ESlice (EVar "g_abab") [SV "o"; SV "o"; SV "o"; SV "o"]); (EVar "t3_abbabb")]));
   (*L3686*) SAssign "contracted_intermediate" (EScale (-1 # 1) (EEins "aldk,dbcijl->abcijk" [(ESlice (EVar "g_abab") [SV "v"; SV "o"; SV "v"; SV "o"]); (EVar "t3_abbabb")]));
   (*L3687*) SAug true "triples_res" (EAdd (EScale (1 # 1) (EVar "contracted_intermediate")) (EScale (-1 # 1) (EEins "abcijk->abcikj" [(EVar "contracted_intermediate")])));
   (*L3690*) SAssign "contracted_intermediate" (EScale (1 # 1) (EEins "lbdk,dacilj->abcijk" [(ESlice (EVar "g_abab") [SV "o"; SV "v"; SV "v"; SV "o"]); (EVar "t3_aabaab")]));
   (*L3691*) SAug true "triples_res" (EAdd (EScale (1 # 1) (EVar "contracted_intermediate")) (EScale (-1 # 1) (EEins "abcijk->abcikj" [(EVar "contracted_intermediate")])));
   (*L3694*) SAssign "contracted_intermediate" (EScale (1 # 1) (EEins "lbdk,adcijl->abcijk" [(ESlice (EVar "g_bbbb") [SV "o"; SV "v"; SV "v"; SV "o"]); (EVar "t3_abbabb")]));
   (*L3695*) SAug true "triples_res" (EAdd (EScale (1 # 1) (EVar "contracted_intermediate")) (EScale (-1 # 1) (EEins "abcijk->abcikj" [(EVar "contracted_intermediate")])));
   (*L3698*) SAug true "triples_res" (EScale (-1 # 1) (EEins "ladi,dbclkj->abcijk" [(ESlice (EVar "g_aaaa") [SV "o"; SV "v"; SV "v"; SV "o"]); (EVar "t3_abbabb")]));
   (*L3701*) SAug true "triples_res" (EScale (1 # 1) (EEins "alid,dbcjkl->abcijk" [(ESlice (EVar "g_abab") [SV "v"; SV "o"; SV "o"; SV "v"]); (EVar "t3_bbbbbb")]));
   (*L3704*) SAug true "triples_res" (EScale (1 # 1) (EEins "lbid,adclkj->abcijk" [(ESlice (EVar "g_abab") [SV "o"; SV "v"; SV "o"; SV "v"]); (EVar "t3_abbabb")]));
   (*L3707*) SAssign "contracted_intermediate" (EScale (-1 # 1) (EEins "lcdk,dabilj->abcijk" [(ESlice (EVar "g_abab") [SV "o"; SV "v"; SV "v"; SV "o"]); (EVar "t3_aabaab")]));
   (*L3708*) SAug true "triples_res" (EAdd (EScale (1 # 1) (EVar "contracted_intermediate")) (EScale (-1 # 1) (EEins "abcijk->abcikj" [(EVar "contracted_intermediate")])));
   (*L3711*) SAssign "contracted_intermediate" (EScale (-1 # 1) (EEins "lcdk,adbijl->abcijk" [(ESlice (EVar "g_bbbb") [SV "o"; SV "v"; SV "v"; SV "o"]); (EVar "t3_abbabb")]));
   (*L3712*) SAug true "triples_res" (EAdd (EScale (1 # 1) (EVar "contracted_intermediate")) (EScale (-1 # 1) (EEins "abcijk->abcikj" [(EVar "contracted_intermediate")])));
   (*L3715*) SAug true "triples_res" (EScale (-1 # 1) (EEins "lcid,adblkj->abcijk" [(ESlice (EVar "g_abab") [SV "o"; SV "v"; SV "o"; SV "v"]); (EVar "t3_abbabb")]));
   (*L3718*) SAssign "contracted_intermediate" (EScale (1 # 2) (EEins "abde,decijk->abcijk" [(ESlice (EVar "g_abab") [SV "v"; SV "v"; SV "v"; SV "v"]); (EVar "t3_abbabb")]));
   (*L3719*) SAug true "triples_res" (EAdd (EScale (1 # 1) (EVar "contracted_intermediate")) (EScale (-1 # 1) (EEins "abcijk->acbijk" [(EVar "contracted_intermediate")])));
   (*L3722*) SAssign "contracted_intermediate" (EScale (1 # 2) (EEins "abed,edcijk->abcijk" [(ESlice (EVar "g_abab") [SV "v"; SV "v"; SV "v"; SV "v"]); (EVar "t3_abbabb")]));
   (*L3723*) SAug true "triples_res" (EAdd (EScale (1 # 1) (EVar "contracted_intermediate")) (EScale (-1 # 1) (EEins "abcijk->acbijk" [(EVar "contracted_intermediate")])));
   (*L3726*) SAug true "triples_res" (EScale (-1 # 2) (EEins "bcde,aedijk->abcijk" [(ESlice (EVar "g_bbbb") [SV "v"; SV "v"; SV "v"; SV "v"]); (EVar "t3_abbabb")]));
   (*L3729*) SAug true "triples_res" (EScale (-1 # 1) (EEins "mljk,bl,acim->abcijk" [(ESlice (EVar "g_bbbb") [SV "o"; SV "o"; SV "o"; SV "o"]); (EVar "t1_bb"); (EVar "t2_abab")]));
   (*L3732*) SAug true "triples_res" (EScale (1 # 1) (EEins "lmik,al,bcjm->abcijk" [(ESlice (EVar "g_abab") [SV "o"; SV "o"; SV "o"; SV "o"]); (EVar "t1_aa"); (EVar "t2_bbbb")]));
   (*L3735*) SAug true "triples_res" (EScale (-1 # 1) (EEins "mlik,bl,acmj->abcijk" [(ESlice (EVar "g_abab") [SV "o"; SV "o"; SV "o"; SV "o"]); (EVar "t1_bb"); (EVar "t2_abab")]));
   (*L3738*) SAug true "triples_res" (EScale (1 # 1) (EEins "mljk,cl,abim->abcijk" [(ESlice (EVar "g_bbbb") [SV "o"; SV "o"; SV "o"; SV "o"]); (EVar "t1_bb"); (EVar "t2_abab")]));
   (*L3741*) SAug true "triples_res" (EScale (1 # 1) (EEins "mlik,cl,abmj->abcijk" [(ESlice (EVar "g_abab") [SV "o"; SV "o"; SV "o"; SV "o"]); (EVar "t1_bb"); (EVar "t2_abab")]));
   (*L3744*) SAug true "triples_res" (EScale (-1 # 1) (EEins "lmij,al,bckm->abcijk" [(ESlice (EVar "g_abab") [SV "o"; SV "o"; SV "o"; SV "o"]); (EVar "t1_aa"); (EVar "t2_bbbb")]));
   (*L3747*) SAug true "triples_res" (EScale (1 # 1) (EEins "mlij,bl,acmk->abcijk" [(ESlice (EVar "g_abab") [SV "o"; SV "o"; SV "o"; SV "o"]); (EVar "t1_bb"); (EVar "t2_abab")]));
   (*L3750*) SAug true "triples_res" (EScale (-1 # 1) (EEins "mlij,cl,abmk->abcijk" [(ESlice (EVar "g_abab") [SV "o"; SV "o"; SV "o"; SV "o"]); (EVar "t1_bb"); (EVar "t2_abab")]));
   (*L3753*) SAug true "triples_res" (EScale (1 # 1) (EEins "lbdk,dj,acil->abcijk" [(ESlice (EVar "g_bbbb") [SV "o"; SV "v"; SV "v"; SV "o"]); (EVar "t1_bb"); (EVar "t2_abab")]));
   (*L3756*) SAug true "triples_res" (EScale (-1 # 1) (EEins "aldk,di,bcjl->abcijk" [(ESlice (EVar "g_abab") [SV "v"; SV "o"; SV "v"; SV "o"]); (EVar "t1_aa"); (EVar "t2_bbbb")]));
   (*L3759*) SAug true "triples_res" (EScale (1 # 1) (EEins "lbdk,di,aclj->abcijk" [(ESlice (EVar "g_abab") [SV "o"; SV "v"; SV "v"; SV "o"]); (EVar "t1_aa"); (EVar "t2_abab")]));
   (*L3762*) SAssign "contracted_intermediate" (EScale (1 # 1) (EEins "aldk,bl,dcij->abcijk" [(ESlice (EVar "g_abab") [SV "v"; SV "o"; SV "v"; SV "o"]); (EVar "t1_bb"); (EVar "t2_abab")]));
   (*L3763*) SAug true "triples_res" (EAdd (EAdd (EAdd (EScale (1 # 1) (EVar "contracted_intermediate")) (EScale (-1 # 1) (EEins "abcijk->abcikj" [(EVar "contracted_intermediate")]))) (EScale (-1 # 1) (EEins "abcijk->acbijk" [(EVar "contracted_intermediate")]))) (EScale (1 # 1) (EEins "abcijk->acbikj" [(EVar "contracted_intermediate")])));
   (*L3766*) SAug true "triples_res" (EScale (-1 # 1) (EEins "lbdj,dk,acil->abcijk" [(ESlice (EVar "g_bbbb") [SV "o"; SV "v"; SV "v"; SV "o"]); (EVar "t1_bb"); (EVar "t2_abab")]));
   (*L3769*) SAug true "triples_res" (EScale (1 # 1) (EEins "aldj,di,bckl->abcijk" [(ESlice (EVar "g_abab") [SV "v"; SV "o"; SV "v"; SV "o"]); (EVar "t1_aa"); (EVar "t2_bbbb")]));
   (*L3772*) SAug true "triples_res" (EScale (-1 # 1) (EEins "lbdj,di,aclk->abcijk" [(ESlice (EVar "g_abab") [SV "o"; SV "v"; SV "v"; SV "o"]); (EVar "t1_aa"); (EVar "t2_abab")]));
   (*L3775*) SAssign "contracted_intermediate" (EScale (-1 # 1) (EEins "alid,dk,bcjl->abcijk" [(ESlice (EVar "g_abab") [SV "v"; SV "o"; SV "o"; SV "v"]); (EVar "t1_bb"); (EVar "t2_bbbb")]));
   (*L3776*) SAug true "triples_res" (EAdd (EScale (1 # 1) (EVar "contracted_intermediate")) (EScale (-1 # 1) (EEins "abcijk->abcikj" [(EVar "contracted_intermediate")])));
   (*L3779*) SAssign "contracted_intermediate" (EScale (1 # 1) (EEins "lbid,dk,aclj->abcijk" [(ESlice (EVar "g_abab") [SV "o"; SV "v"; SV "o"; SV "v"]); (EVar "t1_bb"); (EVar "t2_abab")]));
   (*L3780*) SAug true "triples_res" (EAdd (EScale (1 # 1) (EVar "contracted_intermediate")) (EScale (-1 # 1) (EEins "abcijk->abcikj" [(EVar "contracted_intermediate")])));
   (*L3783*) SAssign "contracted_intermediate" (EScale (-1 # 1) (EEins "alid,bl,dcjk->abcijk" [(ESlice (EVar "g_abab") [SV "v"; SV "o"; SV "o"; SV "v"]); (EVar "t1_bb"); (EVar "t2_bbbb")]));
   (*L3784*) SAug true "triples_res" (EAdd (EScale (1 # 1) (EVar "contracted_intermediate")) (EScale (-1 # 1) (EEins "abcijk->acbijk" [(EVar "contracted_intermediate")])));
   (*L3787*) SAssign "contracted_intermediate" (EScale (1 # 1) (EEins "lbdk,al,dcij->abcijk" [(ESlice (EVar "g_abab") [SV "o"; SV "v"; SV "v"; SV "o"]); (EVar "t1_aa"); (EVar "t2_abab")]));
   (*L3788*) SAug true "triples_res" (EAdd (EScale (1 # 1) (EVar "contracted_intermediate")) (EScale (-1 # 1) (EEins "abcijk->abcikj" [(EVar "contracted_intermediate")])));
   (*L3791*) SAssign "contracted_intermediate" (EScale (1 # 1) (EEins "lbdk,cl,adij->abcijk" [(ESlice (EVar "g_bbbb") [SV "o"; SV "v"; SV "v"; SV "o"]); (EVar "t1_bb"); (EVar "t2_abab")]));
   (*L3792*) SAug true "triples_res" (EAdd (EScale (1 # 1) (EVar "contracted_intermediate")) (EScale (-1 # 1) (EEins "abcijk->abcikj" [(EVar "contracted_intermediate")])));
   (*L3795*) SAug true "triples_res" (EScale (-1 # 1) (EEins "lbid,al,dcjk->abcijk" [(ESlice (EVar "g_abab") [SV "o"; SV "v"; SV "o"; SV "v"]); (EVar "t1_aa"); (EVar "t2_bbbb")]));
   (*L3798*) SAug true "triples_res" (EScale (-1 # 1) (EEins "lcdk,dj,abil->abcijk" [(ESlice (EVar "g_bbbb") [SV "o"; SV "v"; SV "v"; SV "o"]); (EVar "t1_bb"); (EVar "t2_abab")]));
   (*L3801*) SAug true "triples_res" (EScale (-1 # 1) (EEins "lcdk,di,ablj->abcijk" [(ESlice (EVar "g_abab") [SV "o"; SV "v"; SV "v"; SV "o"]); (EVar "t1_aa"); (EVar "t2_abab")]));
   (*L3804*) SAssign "contracted_intermediate" (EScale (-1 # 1) (EEins "lcdk,al,dbij->abcijk" [(ESlice (EVar "g_abab") [SV "o"; SV "v"; SV "v"; SV "o"]); (EVar "t1_aa"); (EVar "t2_abab")]));
   (*L3805*) SAug true "triples_res" (EAdd (EScale (1 # 1) (EVar "contracted_intermediate")) (EScale (-1 # 1) (EEins "abcijk->abcikj" [(EVar "contracted_intermediate")])));
   (*L3808*) SAssign "contracted_intermediate" (EScale (-1 # 1) (EEins "lcdk,bl,adij->abcijk" [(ESlice (EVar "g_bbbb") [SV "o"; SV "v"; SV "v"; SV "o"]); (EVar "t1_bb"); (EVar "t2_abab")]));
   (*L3809*) SAug true "triples_res" (EAdd (EScale (1 # 1) (EVar "contracted_intermediate")) (EScale (-1 # 1) (EEins "abcijk->abcikj" [(EVar "contracted_intermediate")])));
   (*L3812*) SAug true "triples_res" (EScale (1 # 1) (EEins "lcdj,dk,abil->abcijk" [(ESlice (EVar "g_bbbb") [SV "o"; SV "v"; SV "v"; SV "o"]); (EVar "t1_bb"); (EVar "t2_abab")]));
   (*L3815*) SAug true "triples_res" (EScale (1 # 1) (EEins "lcdj,di,ablk->abcijk" [(ESlice (EVar "g_abab") [SV "o"; SV "v"; SV "v"; SV "o"]); (EVar "t1_aa"); (EVar "t2_abab")]));
   (*L3818*) SAssign "contracted_intermediate" (EScale (-1 # 1) (EEins "lcid,dk,ablj->abcijk" [(ESlice (EVar "g_abab") [SV "o"; SV "v"; SV "o"; SV "v"]); (EVar "t1_bb"); (EVar "t2_abab")]));
   (*L3819*) SAug true "triples_res" (EAdd (EScale (1 # 1) (EVar "contracted_intermediate")) (EScale (-1 # 1) (EEins "abcijk->abcikj" [(EVar "contracted_intermediate")])));
   (*L3822*) SAug true "triples_res" (EScale (1 # 1) (EEins "lcid,al,dbjk->abcijk" [(ESlice (EVar "g_abab") [SV "o"; SV "v"; SV "o"; SV "v"]); (EVar "t1_aa"); (EVar "t2_bbbb")]));
   (*L3825*) SAssign "contracted_intermediate" (EScale (-1 # 1) (EEins "abed,dk,ecij->abcijk" [(ESlice (EVar "g_abab") [SV "v"; SV "v"; SV "v"; SV "v"]); (EVar "t1_bb"); (EVar "t2_abab")]));
   (*L3826*) SAug true "triples_res" (EAdd (EAdd (EAdd (EScale (1 # 1) (EVar "contracted_intermediate")) (EScale (-1 # 1) (EEins "abcijk->abcikj" [(EVar "contracted_intermediate")]))) (EScale (-1 # 1) (EEins "abcijk->acbijk" [(EVar "contracted_intermediate")]))) (EScale (1 # 1) (EEins "abcijk->acbikj" [(EVar "contracted_intermediate")])));
   (*L3829*) SAssign "contracted_intermediate" (EScale (1 # 1) (EEins "abde,di,ecjk->abcijk" [(ESlice (EVar "g_abab") [SV "v"; SV "v"; SV "v"; SV "v"]); (EVar "t1_aa"); (EVar "t2_bbbb")]));
   (*L3830*) SAug true "triples_res" (EAdd (EScale (1 # 1) (EVar "contracted_intermediate")) (EScale (-1 # 1) (EEins "abcijk->acbijk" [(EVar "contracted_intermediate")])));
   (*L3833*) SAssign "contracted_intermediate" (EScale (-1 # 1) (EEins "bcde,dk,aeij->abcijk" [(ESlice (EVar "g_bbbb") [SV "v"; SV "v"; SV "v"; SV "v"]); (EVar "t1_bb"); (EVar "t2_abab")]));
   (*L3834*) SAug true "triples_res" (EAdd (EScale (1 # 1) (EVar "contracted_intermediate")) (EScale (-1 # 1) (EEins "abcijk->abcikj" [(EVar "contracted_intermediate")])));
   (*L3837*) SAssign "contracted_intermediate" (EScale (-1 # 1) (EEins "lmdk,dl,abcijm->abcijk" [(ESlice (EVar "g_abab") [SV "o"; SV "o"; SV "v"; SV "o"]); (EVar "t1_aa"); (EVar "t3_abbabb")]));
   (*L3838*) SAug true "triples_res" (EAdd (EScale (1 # 1) (EVar "contracted_intermediate")) (EScale (-1 # 1) (EEins "abcijk->abcikj" [(EVar "contracted_intermediate")])));
   (*L3841*) SAssign "contracted_intermediate" (EScale (1 # 1) (EEins "mldk,dl,abcijm->abcijk" [(ESlice (EVar "g_bbbb") [SV "o"; SV "o"; SV "v"; SV "o"]); (EVar "t1_bb"); (EVar "t3_abbabb")]));
   (*L3842*) SAug true "triples_res" (EAdd (EScale (1 # 1) (EVar "contracted_intermediate")) (EScale (-1 # 1) (EEins "abcijk->abcikj" [(EVar "contracted_intermediate")])));
   (*L3845*) SAug true "triples_res" (EScale (1 # 2) (EEins "mldk,dj,abciml->abcijk" [(ESlice (EVar "g_bbbb") [SV "o"; SV "o"; SV "v"; SV "o"]); (EVar "t1_bb"); (EVar "t3_abbabb")]));
   (*L3848*) SAug true "triples_res" (EScale (1 # 2) (EEins "mldk,di,abcmjl->abcijk" [(ESlice (EVar "g_abab") [SV "o"; SV "o"; SV "v"; SV "o"]); (EVar "t1_aa"); (EVar "t3_abbabb")]));
   (*L3851*) SAug true "triples_res" (EScale (-1 # 2) (EEins "lmdk,di,abclmj->abcijk" [(ESlice (EVar "g_abab") [SV "o"; SV "o"; SV "v"; SV "o"]); (EVar "t1_aa"); (EVar "t3_abbabb")]));
   (*L3854*) SAssign "contracted_intermediate" (EScale (1 # 1) (EEins "lmdk,al,dbcijm->abcijk" [(ESlice (EVar "g_abab") [SV "o"; SV "o"; SV "v"; SV "o"]); (EVar "t1_aa"); (EVar "t3_abbabb")]));
   (*L3855*) SAug true "triples_res" (EAdd (EScale (1 # 1) (EVar "contracted_intermediate")) (EScale (-1 # 1) (EEins "abcijk->abcikj" [(EVar "contracted_intermediate")])));
   (*L3858*) SAssign "contracted_intermediate" (EScale (-1 # 1) (EEins "mldk,bl,dacimj->abcijk" [(ESlice (EVar "g_abab") [SV "o"; SV "o"; SV "v"; SV "o"]); (EVar "t1_bb"); (EVar "t3_aabaab")]));
   (*L3859*) SAug true "triples_res" (EAdd (EScale (1 # 1) (EVar "contracted_intermediate")) (EScale (-1 # 1) (EEins "abcijk->abcikj" [(EVar "contracted_intermediate")])));
   (*L3862*) SAssign "contracted_intermediate" (EScale (-1 # 1) (EEins "mldk,bl,adcijm->abcijk" [(ESlice (EVar "g_bbbb") [SV "o"; SV "o"; SV "v"; SV "o"]); (EVar "t1_bb"); (EVar "t3_abbabb")]));
   (*L3863*) SAug true "triples_res" (EAdd (EScale (1 # 1) (EVar "contracted_intermediate")) (EScale (-1 # 1) (EEins "abcijk->abcikj" [(EVar "contracted_intermediate")])));
   (*L3866*) SAssign "contracted_intermediate" (EScale (1 # 1) (EEins "mldk,cl,dabimj->abcijk" [(ESlice (EVar "g_abab") [SV "o"; SV "o"; SV "v"; SV "o"]); (EVar "t1_bb"); (EVar "t3_aabaab")]));
   (*L3867*) SAug true "triples_res" (EAdd (EScale (1 # 1) (EVar "contracted_intermediate")) (EScale (-1 # 1) (EEins "abcijk->abcikj" [(EVar "contracted_intermediate")])));
   (*L3870*) SAssign "contracted_intermediate" (EScale (1 # 1) (EEins "mldk,cl,adbijm->abcijk" [(ESlice (EVar "g_bbbb") [SV "o"; SV "o"; SV "v"; SV "o"]); (EVar "t1_bb"); (EVar "t3_abbabb")]));
   (*L3871*) SAug true "triples_res" (EAdd (EScale (1 # 1) (EVar "contracted_intermediate")) (EScale (-1 # 1) (EEins "abcijk->abcikj" [(EVar "contracted_intermediate")])));
   (*L3874*) SAug true "triples_res" (EScale (-1 # 2) (EEins "mldj,dk,abciml->abcijk" [(ESlice (EVar "g_bbbb") [SV "o"; SV "o"; SV "v"; SV "o"]); (EVar "t1_bb"); (EVar "t3_abbabb")]));
   (*L3877*) SAug true "triples_res" (EScale (-1 # 2) (EEins "mldj,di,abcmkl->abcijk" [(ESlice (EVar "g_abab") [SV "o"; SV "o"; SV "v"; SV "o"]); (EVar "t1_aa"); (EVar "t3_abbabb")]));
   (*L3880*) SAug true "triples_res" (EScale (1 # 2) (EEins "lmdj,di,abclmk->abcijk" [(ESlice (EVar "g_abab") [SV "o"; SV "o"; SV "v"; SV "o"]); (EVar "t1_aa"); (EVar "t3_abbabb")]));
   (*L3883*) SAug true "triples_res" (EScale (-1 # 1) (EEins "mldi,dl,abcmkj->abcijk" [(ESlice (EVar "g_aaaa") [SV "o"; SV "o"; SV "v"; SV "o"]); (EVar "t1_aa"); (EVar "t3_abbabb")]));
   (*L3886*) SAug true "triples_res" (EScale (1 # 1) (EEins "mlid,dl,abcmkj->abcijk" [(ESlice (EVar "g_abab") [SV "o"; SV "o"; SV "o"; SV "v"]); (EVar "t1_bb"); (EVar "t3_abbabb")]));
   (*L3889*) SAssign "contracted_intermediate" (EScale (1 # 2) (EEins "mlid,dk,abcmjl->abcijk" [(ESlice (EVar "g_abab") [SV "o"; SV "o"; SV "o"; SV "v"]); (EVar "t1_bb"); (EVar "t3_abbabb")]));
   (*L3890*) SAug true "triples_res" (EAdd (EScale (1 # 1) (EVar "contracted_intermediate")) (EScale (-1 # 1) (EEins "abcijk->abcikj" [(EVar "contracted_intermediate")])));
   (*L3893*) SAssign "contracted_intermediate" (EScale (-1 # 2) (EEins "lmid,dk,abclmj->abcijk" [(ESlice (EVar "g_abab") [SV "o"; SV "o"; SV "o"; SV "v"]); (EVar "t1_bb"); (EVar "t3_abbabb")]));
   (*L3894*) SAug true "triples_res" (EAdd (EScale (1 # 1) (EVar "contracted_intermediate")) (EScale (-1 # 1) (EEins "abcijk->abcikj" [(EVar "contracted_intermediate")])));
   (*L3897*) SAug true "triples_res" (EScale (1 # 1) (EEins "mldi,al,dbcmkj->abcijk" [(ESlice (EVar "g_aaaa") [SV "o"; SV "o"; SV "v"; SV "o"]); (EVar "t1_aa"); (EVar "t3_abbabb")]));
   (*L3900*) SAug true "triples_res" (EScale (-1 # 1) (EEins "lmid,al,dbcjkm->abcijk" [(ESlice (EVar "g_abab") [SV "o"; SV "o"; SV "o"; SV "v"]); (EVar "t1_aa"); (EVar "t3_bbbbbb")]));
   (*L3903*) SAug true "triples_res" (EScale (-1 # 1) (EEins "mlid,bl,adcmkj->abcijk" [(ESlice (EVar "g_abab") [SV "o"; SV "o"; SV "o"; SV "v"]); (EVar "t1_bb"); (EVar "t3_abbabb")]));
   (*L3906*) SAug true "triples_res" (EScale (1 # 1) (EEins "mlid,cl,adbmkj->abcijk" [(ESlice (EVar "g_abab") [SV "o"; SV "o"; SV "o"; SV "v"]); (EVar "t1_bb"); (EVar "t3_abbabb")]));
   (*L3909*) SAug true "triples_res" (EScale (1 # 1) (EEins "lade,dl,ebcijk->abcijk" [(ESlice (EVar "g_aaaa") [SV "o"; SV "v"; SV "v"; SV "v"]); (EVar "t1_aa"); (EVar "t3_abbabb")]));
   (*L3912*) SAug true "triples_res" (EScale (1 # 1) (EEins "aled,dl,ebcijk->abcijk" [(ESlice (EVar "g_abab") [SV "v"; SV "o"; SV "v"; SV "v"]); (EVar "t1_bb"); (EVar "t3_abbabb")]));
   (*L3915*) SAug true "triples_res" (EScale (1 # 1) (EEins "lbde,dl,aecijk->abcijk" [(ESlice (EVar "g_abab") [SV "o"; SV "v"; SV "v"; SV "v"]); (EVar "t1_aa"); (EVar "t3_abbabb")]));
   (*L3918*) SAug true "triples_res" (EScale (1 # 1) (EEins "lbde,dl,aecijk->abcijk" [(ESlice (EVar "g_bbbb") [SV "o"; SV "v"; SV "v"; SV "v"]); (EVar "t1_bb"); (EVar "t3_abbabb")]));
   (*L3921*) SAssign "contracted_intermediate" (EScale (-1 # 1) (EEins "aled,dk,ebcijl->abcijk" [(ESlice (EVar "g_abab") [SV "v"; SV "o"; SV "v"; SV "v"]); (EVar "t1_bb"); (EVar "t3_abbabb")]));
   (*L3922*) SAug true "triples_res" (EAdd (EScale (1 # 1) (EVar "contracted_intermediate")) (EScale (-1 # 1) (EEins "abcijk->abcikj" [(EVar "contracted_intermediate")])));
   (*L3925*) SAssign "contracted_intermediate" (EScale (1 # 1) (EEins "lbed,dk,eacilj->abcijk" [(ESlice (EVar "g_abab") [SV "o"; SV "v"; SV "v"; SV "v"]); (EVar "t1_bb"); (EVar "t3_aabaab")]));
   (*L3926*) SAug true "triples_res" (EAdd (EScale (1 # 1) (EVar "contracted_intermediate")) (EScale (-1 # 1) (EEins "abcijk->abcikj" [(EVar "contracted_intermediate")])));
   (*L3929*) SAssign "contracted_intermediate" (EScale (-1 # 1) (EEins "lbde,dk,aecijl->abcijk" [(ESlice (EVar "g_bbbb") [SV "o"; SV "v"; SV "v"; SV "v"]); (EVar "t1_bb"); (EVar "t3_abbabb")]));
   (*L3930*) SAug true "triples_res" (EAdd (EScale (1 # 1) (EVar "contracted_intermediate")) (EScale (-1 # 1) (EEins "abcijk->abcikj" [(EVar "contracted_intermediate")])));
   (*L3933*) SAug true "triples_res" (EScale (1 # 1) (EEins "lade,di,ebclkj->abcijk" [(ESlice (EVar "g_aaaa") [SV "o"; SV "v"; SV "v"; SV "v"]); (EVar "t1_aa"); (EVar "t3_abbabb")]));
   (*L3936*) SAug true "triples_res" (EScale (1 # 1) (EEins "alde,di,ebcjkl->abcijk" [(ESlice (EVar "g_abab") [SV "v"; SV "o"; SV "v"; SV "v"]); (EVar "t1_aa"); (EVar "t3_bbbbbb")]));
   (*L3939*) SAug true "triples_res" (EScale (1 # 1) (EEins "lbde,di,aeclkj->abcijk" [(ESlice (EVar "g_abab") [SV "o"; SV "v"; SV "v"; SV "v"]); (EVar "t1_aa"); (EVar "t3_abbabb")]));
   (*L3942*) SAssign "contracted_intermediate" (EScale (-1 # 2) (EEins "alde,bl,decijk->abcijk" [(ESlice (EVar "g_abab") [SV "v"; SV "o"; SV "v"; SV "v"]); (EVar "t1_bb"); (EVar "t3_abbabb")]));
   (*L3943*) SAug true "triples_res" (EAdd (EScale (1 # 1) (EVar "contracted_intermediate")) (EScale (-1 # 1) (EEins "abcijk->acbijk" [(EVar "contracted_intermediate")])));
   (*L3946*) SAssign "contracted_intermediate" (EScale (-1 # 2) (EEins "aled,bl,edcijk->abcijk" [(ESlice (EVar "g_abab") [SV "v"; SV "o"; SV "v"; SV "v"]); (EVar "t1_bb"); (EVar "t3_abbabb")]));
   (*L3947*) SAug true "triples_res" (EAdd (EScale (1 # 1) (EVar "contracted_intermediate")) (EScale (-1 # 1) (EEins "abcijk->acbijk" [(EVar "contracted_intermediate")])));
   (*L3950*) SAug true "triples_res" (EScale (-1 # 2) (EEins "lbde,al,decijk->abcijk" [(ESlice (EVar "g_abab") [SV "o"; SV "v"; SV "v"; SV "v"]); (EVar "t1_aa"); (EVar "t3_abbabb")]));
   (*L3953*) SAug true "triples_res" (EScale (-1 # 2) (EEins "lbed,al,edcijk->abcijk" [(ESlice (EVar "g_abab") [SV "o"; SV "v"; SV "v"; SV "v"]); (EVar "t1_aa"); (EVar "t3_abbabb")]));
   (*L3956*) SAug true "triples_res" (EScale (-1 # 2) (EEins "lbde,cl,aedijk->abcijk" [(ESlice (EVar "g_bbbb") [SV "o"; SV "v"; SV "v"; SV "v"]); (EVar "t1_bb"); (EVar "t3_abbabb")]));
   (*L3959*) SAug true "triples_res" (EScale (-1 # 1) (EEins "lcde,dl,aebijk->abcijk" [(ESlice (EVar "g_abab") [SV "o"; SV "v"; SV "v"; SV "v"]); (EVar "t1_aa"); (EVar "t3_abbabb")]));
   (*L3962*) SAug true "triples_res" (EScale (-1 # 1) (EEins "lcde,dl,aebijk->abcijk" [(ESlice (EVar "g_bbbb") [SV "o"; SV "v"; SV "v"; SV "v"]); (EVar "t1_bb"); (EVar "t3_abbabb")]));
   (*L3965*) SAssign "contracted_intermediate" (EScale (-1 # 1) (EEins "lced,dk,eabilj->abcijk" [(ESlice (EVar "g_abab") [SV "o"; SV "v"; SV "v"; SV "v"]); (EVar "t1_bb"); (EVar "t3_aabaab")]));
   (*L3966*) SAug true "triples_res" (EAdd (EScale (1 # 1) (EVar "contracted_intermediate")) (EScale (-1 # 1) (EEins "abcijk->abcikj" [(EVar "contracted_intermediate")])));
   (*L3969*) SAssign "contracted_intermediate" (EScale (1 # 1) (EEins "lcde,dk,aebijl->abcijk" [(ESlice (EVar "g_bbbb") [SV "o"; SV "v"; SV "v"; SV "v"]); (EVar "t1_bb"); (EVar "t3_abbabb")]));
   (*L3970*) SAug true "triples_res" (EAdd (EScale (1 # 1) (EVar "contracted_intermediate")) (EScale (-1 # 1) (EEins "abcijk->abcikj" [(EVar "contracted_intermediate")])));
   (*L3973*) SAug true "triples_res" (EScale (-1 # 1) (EEins "lcde,di,aeblkj->abcijk" [(ESlice (EVar "g_abab") [SV "o"; SV "v"; SV "v"; SV "v"]); (EVar "t1_aa"); (EVar "t3_abbabb")]));
   (*L3976*) SAug true "triples_res" (EScale (1 # 2) (EEins "lcde,al,debijk->abcijk" [(ESlice (EVar "g_abab") [SV "o"; SV "v"; SV "v"; SV "v"]); (EVar "t1_aa"); (EVar "t3_abbabb")]));
   (*L3979*) SAug true "triples_res" (EScale (1 # 2) (EEins "lced,al,edbijk->abcijk" [(ESlice (EVar "g_abab") [SV "o"; SV "v"; SV "v"; SV "v"]); (EVar "t1_aa"); (EVar "t3_abbabb")]));
   (*L3982*) SAug true "triples_res" (EScale (1 # 2) (EEins "lcde,bl,aedijk->abcijk" [(ESlice (EVar "g_bbbb") [SV "o"; SV "v"; SV "v"; SV "v"]); (EVar "t1_bb"); (EVar "t3_abbabb")]));
   (*L3985*) SAssign "contracted_intermediate" (EScale (-1 # 2) (EEins "lmde,delk,abcijm->abcijk" [(ESlice (EVar "g_abab") [SV "o"; SV "o"; SV "v"; SV "v"]); (EVar "t2_abab"); (EVar "t3_abbabb")]));
   (*L3986*) SAug true "triples_res" (EAdd (EScale (1 # 1) (EVar "contracted_intermediate")) (EScale (-1 # 1) (EEins "abcijk->abcikj" [(EVar "contracted_intermediate")])));
   (*L3989*) SAssign "contracted_intermediate" (EScale (-1 # 2) (EEins "lmed,edlk,abcijm->abcijk" [(ESlice (EVar "g_abab") [SV "o"; SV "o"; SV "v"; SV "v"]); (EVar "t2_abab"); (EVar "t3_abbabb")]));
   (*L3990*) SAug true "triples_res" (EAdd (EScale (1 # 1) (EVar "contracted_intermediate")) (EScale (-1 # 1) (EEins "abcijk->abcikj" [(EVar "contracted_intermediate")])));
   (*L3993*) SAssign "contracted_intermediate" (EScale (-1 # 2) (EEins "mlde,dekl,abcijm->abcijk" [(ESlice (EVar "g_bbbb") [SV "o"; SV "o"; SV "v"; SV "v"]); (EVar "t2_bbbb"); (EVar "t3_abbabb")]));
   (*L3994*) SAug true "triples_res" (EAdd (EScale (1 # 1) (EVar "contracted_intermediate")) (EScale (-1 # 1) (EEins "abcijk->abcikj" [(EVar "contracted_intermediate")])));
   (*L3997*) SAug true "triples_res" (EScale (1 # 2) (EEins "mlde,deil,abcmkj->abcijk" [(ESlice (EVar "g_aaaa") [SV "o"; SV "o"; SV "v"; SV "v"]); (EVar "t2_aaaa"); (EVar "t3_abbabb")]));
   (*L4000*) SAug true "triples_res" (EScale (1 # 2) (EEins "mlde,deil,abcmkj->abcijk" [(ESlice (EVar "g_abab") [SV "o"; SV "o"; SV "v"; SV "v"]); (EVar "t2_abab"); (EVar "t3_abbabb")]));
   (*L4003*) SAug true "triples_res" (EScale (1 # 2) (EEins "mled,edil,abcmkj->abcijk" [(ESlice (EVar "g_abab") [SV "o"; SV "o"; SV "v"; SV "v"]); (EVar "t2_abab"); (EVar "t3_abbabb")]));
   (*L4006*) SAug true "triples_res" (EScale (1 # 4) (EEins "mlde,dejk,abciml->abcijk" [(ESlice (EVar "g_bbbb") [SV "o"; SV "o"; SV "v"; SV "v"]); (EVar "t2_bbbb"); (EVar "t3_abbabb")]));
   (*L4009*) SAug true "triples_res" (EScale (1 # 4) (EEins "mlde,deik,abcmjl->abcijk" [(ESlice (EVar "g_abab") [SV "o"; SV "o"; SV "v"; SV "v"]); (EVar "t2_abab"); (EVar "t3_abbabb")]));
   (*L4012*) SAug true "triples_res" (EScale (-1 # 4) (EEins "lmde,deik,abclmj->abcijk" [(ESlice (EVar "g_abab") [SV "o"; SV "o"; SV "v"; SV "v"]); (EVar "t2_abab"); (EVar "t3_abbabb")]));
   (*L4015*) SAug true "triples_res" (EScale (1 # 4) (EEins "mled,edik,abcmjl->abcijk" [(ESlice (EVar "g_abab") [SV "o"; SV "o"; SV "v"; SV "v"]); (EVar "t2_abab"); (EVar "t3_abbabb")]));
   (*L4018*) SAug true "triples_res" (EScale (-1 # 4) (EEins "lmed,edik,abclmj->abcijk" [(ESlice (EVar "g_abab") [SV "o"; SV "o"; SV "v"; SV "v"]); (EVar "t2_abab"); (EVar "t3_abbabb")]));
   (*L4021*) SAug true "triples_res" (EScale (-1 # 4) (EEins "mlde,deij,abcmkl->abcijk" [(ESlice (EVar "g_abab") [SV "o"; SV "o"; SV "v"; SV "v"]); (EVar "t2_abab"); (EVar "t3_abbabb")]));
   (*L4024*) SAug true "triples_res" (EScale (1 # 4) (EEins "lmde,deij,abclmk->abcijk" [(ESlice (EVar "g_abab") [SV "o"; SV "o"; SV "v"; SV "v"]); (EVar "t2_abab"); (EVar "t3_abbabb")]));
   (*L4027*) SAug true "triples_res" (EScale (-1 # 4) (EEins "mled,edij,abcmkl->abcijk" [(ESlice (EVar "g_abab") [SV "o"; SV "o"; SV "v"; SV "v"]); (EVar "t2_abab"); (EVar "t3_abbabb")]));
   (*L4030*) SAug true "triples_res" (EScale (1 # 4) (EEins "lmed,edij,abclmk->abcijk" [(ESlice (EVar "g_abab") [SV "o"; SV "o"; SV "v"; SV "v"]); (EVar "t2_abab"); (EVar "t3_abbabb")]));
   (*L4033*) SAug true "triples_res" (EScale (-1 # 2) (EEins "mlde,daml,ebcijk->abcijk" [(ESlice (EVar "g_aaaa") [SV "o"; SV "o"; SV "v"; SV "v"]); (EVar "t2_aaaa"); (EVar "t3_abbabb")]));
   (*L4036*) SAug true "triples_res" (EScale (-1 # 2) (EEins "mled,adml,ebcijk->abcijk" [(ESlice (EVar "g_abab") [SV "o"; SV "o"; SV "v"; SV "v"]); (EVar "t2_abab"); (EVar "t3_abbabb")]));
   (*L4039*) SAug true "triples_res" (EScale (-1 # 2) (EEins "lmed,adlm,ebcijk->abcijk" [(ESlice (EVar "g_abab") [SV "o"; SV "o"; SV "v"; SV "v"]); (EVar "t2_abab"); (EVar "t3_abbabb")]));
   (*L4042*) SAug true "triples_res" (EScale (-1 # 2) (EEins "mlde,dbml,aecijk->abcijk" [(ESlice (EVar "g_abab") [SV "o"; SV "o"; SV "v"; SV "v"]); (EVar "t2_abab"); (EVar "t3_abbabb")]));
   (*L4045*) SAug true "triples_res" (EScale (-1 # 2) (EEins "lmde,dblm,aecijk->abcijk" [(ESlice (EVar "g_abab") [SV "o"; SV "o"; SV "v"; SV "v"]); (EVar "t2_abab"); (EVar "t3_abbabb")]));
   (*L4048*) SAug true "triples_res" (EScale (-1 # 2) (EEins "mlde,dbml,aecijk->abcijk" [(ESlice (EVar "g_bbbb") [SV "o"; SV "o"; SV "v"; SV "v"]); (EVar "t2_bbbb"); (EVar "t3_abbabb")]));
   (*L4051*) SAssign "contracted_intermediate" (EScale (100000000000001 # 100000000000000) (EEins "lmed,adlk,ebcijm->abcijk" [(ESlice (EVar "g_abab") [SV "o"; SV "o"; SV "v"; SV "v"]); (EVar "t2_abab"); (EVar "t3_abbabb")]));
   (*L4052*) SAug true "triples_res" (EAdd (EScale (1 # 1) (EVar "contracted_intermediate")) (EScale (-1 # 1) (EEins "abcijk->abcikj" [(EVar "contracted_intermediate")])));
   (*L4055*) SAssign "contracted_intermediate" (EScale (-100000000000001 # 100000000000000) (EEins "mlde,dblk,eacimj->abcijk" [(ESlice (EVar "g_aaaa") [SV "o"; SV "o"; SV "v"; SV "v"]); (EVar "t2_abab"); (EVar "t3_aabaab")]));
   (*L4056*) SAug true "triples_res" (EAdd (EScale (1 # 1) (EVar "contracted_intermediate")) (EScale (-1 # 1) (EEins "abcijk->abcikj" [(EVar "contracted_intermediate")])));
   (*L4059*) SAssign "contracted_intermediate" (EScale (100000000000001 # 100000000000000) (EEins "lmde,dblk,aecijm->abcijk" [(ESlice (EVar "g_abab") [SV "o"; SV "o"; SV "v"; SV "v"]); (EVar "t2_abab"); (EVar "t3_abbabb")]));
   (*L4060*) SAug true "triples_res" (EAdd (EScale (1 # 1) (EVar "contracted_intermediate")) (EScale (-1 # 1) (EEins "abcijk->abcikj" [(EVar "contracted_intermediate")])));
   (*L4063*) SAssign "contracted_intermediate" (EScale (-100000000000001 # 100000000000000) (EEins "mled,dbkl,eacimj->abcijk" [(ESlice (EVar "g_abab") [SV "o"; SV "o"; SV "v"; SV "v"]); (EVar "t2_bbbb"); (EVar "t3_aabaab")]));
   (*L4064*) SAug true "triples_res" (EAdd (EScale (1 # 1) (EVar "contracted_intermediate")) (EScale (-1 # 1) (EEins "abcijk->abcikj" [(EVar "contracted_intermediate")])));
   (*L4067*) SAssign "contracted_intermediate" (EScale (100000000000001 # 100000000000000) (EEins "mlde,dbkl,aecijm->abcijk" [(ESlice (EVar "g_bbbb") [SV "o"; SV "o"; SV "v"; SV "v"]); (EVar "t2_bbbb"); (EVar "t3_abbabb")]));
   (*L4068*) SAug true "triples_res" (EAdd (EScale (1 # 1) (EVar "contracted_intermediate")) (EScale (-1 # 1) (EEins "abcijk->abcikj" [(EVar "contracted_intermediate")])));
   (*L4071*) SAug true "triples_res" (EScale (-100000000000001 # 100000000000000) (EEins "mlde,dail,ebcmkj->abcijk" [(ESlice (EVar "g_aaaa") [SV "o"; SV "o"; SV "v"; SV "v"]); (EVar "t2_aaaa"); (EVar "t3_abbabb")]));
   (*L4074*) SAug true "triples_res" (EScale (-100000000000001 # 100000000000000) (EEins "lmde,dail,ebcjkm->abcijk" [(ESlice (EVar "g_abab") [SV "o"; SV "o"; SV "v"; SV "v"]); (EVar "t2_aaaa"); (EVar "t3_bbbbbb")]));
   (*L4077*) SAug true "triples_res" (EScale (-100000000000001 # 100000000000000) (EEins "mled,adil,ebcmkj->abcijk" [(ESlice (EVar "g_abab") [SV "o"; SV "o"; SV "v"; SV "v"]); (EVar "t2_abab"); (EVar "t3_abbabb")]));
   (*L4080*) SAug true "triples_res" (EScale (-100000000000001 # 100000000000000) (EEins "mlde,adil,ebcjkm->abcijk" [(ESlice (EVar "g_bbbb") [SV "o"; SV "o"; SV "v"; SV "v"]); (EVar "t2_abab"); (EVar "t3_bbbbbb")]));
   (*L4083*) SAug true "triples_res" (EScale (-100000000000001 # 100000000000000) (EEins "mlde,dbil,aecmkj->abcijk" [(ESlice (EVar "g_abab") [SV "o"; SV "o"; SV "v"; SV "v"]); (EVar "t2_abab"); (EVar "t3_abbabb")]));
   (*L4086*) SAug true "triples_res" (EScale (-1 # 2) (EEins "mled,dbjk,eaciml->abcijk" [(ESlice (EVar "g_abab") [SV "o"; SV "o"; SV "v"; SV "v"]); (EVar "t2_bbbb"); (EVar "t3_aabaab")]));
   (*L4089*) SAug true "triples_res" (EScale (-1 # 2) (EEins "lmed,dbjk,eacilm->abcijk" [(ESlice (EVar "g_abab") [SV "o"; SV "o"; SV "v"; SV "v"]); (EVar "t2_bbbb"); (EVar "t3_aabaab")]));
   (*L4092*) SAug true "triples_res" (EScale (-1 # 2) (EEins "mlde,dbjk,aeciml->abcijk" [(ESlice (EVar "g_bbbb") [SV "o"; SV "o"; SV "v"; SV "v"]); (EVar "t2_bbbb"); (EVar "t3_abbabb")]));
   (*L4095*) SAug true "triples_res" (EScale (-1 # 2) (EEins "mled,adik,ebcmjl->abcijk" [(ESlice (EVar "g_abab") [SV "o"; SV "o"; SV "v"; SV "v"]); (EVar "t2_abab"); (EVar "t3_abbabb")]));
   (*L4098*) SAug true "triples_res" (EScale (1 # 2) (EEins "lmed,adik,ebclmj->abcijk" [(ESlice (EVar "g_abab") [SV "o"; SV "o"; SV "v"; SV "v"]); (EVar "t2_abab"); (EVar "t3_abbabb")]));
   (*L4101*) SAug true "triples_res" (EScale (-1 # 2) (EEins "mlde,adik,ebcjml->abcijk" [(ESlice (EVar "g_bbbb") [SV "o"; SV "o"; SV "v"; SV "v"]); (EVar "t2_abab"); (EVar "t3_bbbbbb")]));
   (*L4104*) SAug true "triples_res" (EScale (1 # 2) (EEins "mlde,dbik,eaclmj->abcijk" [(ESlice (EVar "g_aaaa") [SV "o"; SV "o"; SV "v"; SV "v"]); (EVar "t2_abab"); (EVar "t3_aabaab")]));
   (*L4107*) SAug true "triples_res" (EScale (-1 # 2) (EEins "mlde,dbik,aecmjl->abcijk" [(ESlice (EVar "g_abab") [SV "o"; SV "o"; SV "v"; SV "v"]); (EVar "t2_abab"); (EVar "t3_abbabb")]));
   (*L4110*) SAug true "triples_res" (EScale (1 # 2) (EEins "lmde,dbik,aeclmj->abcijk" [(ESlice (EVar "g_abab") [SV "o"; SV "o"; SV "v"; SV "v"]); (EVar "t2_abab"); (EVar "t3_abbabb")]));
   (*L4113*) SAug true "triples_res" (EScale (1 # 2) (EEins "mled,adij,ebcmkl->abcijk" [(ESlice (EVar "g_abab") [SV "o"; SV "o"; SV "v"; SV "v"]); (EVar "t2_abab"); (EVar "t3_abbabb")]));
   (*L4116*) SAug true "triples_res" (EScale (-1 # 2) (EEins "lmed,adij,ebclmk->abcijk" [(ESlice (EVar "g_abab") [SV "o"; SV "o"; SV "v"; SV "v"]); (EVar "t2_abab"); (EVar "t3_abbabb")]));
   (*L4119*) SAug true "triples_res" (EScale (1 # 2) (EEins "mlde,adij,ebckml->abcijk" [(ESlice (EVar "g_bbbb") [SV "o"; SV "o"; SV "v"; SV "v"]); (EVar "t2_abab"); (EVar "t3_bbbbbb")]));
   (*L4122*) SAug true "triples_res" (EScale (-1 # 2) (EEins "mlde,dbij,eaclmk->abcijk" [(ESlice (EVar "g_aaaa") [SV "o"; SV "o"; SV "v"; SV "v"]); (EVar "t2_abab"); (EVar "t3_aabaab")]));
   (*L4125*) SAug true "triples_res" (EScale (1 # 2) (EEins "mlde,dbij,aecmkl->abcijk" [(ESlice (EVar "g_abab") [SV "o"; SV "o"; SV "v"; SV "v"]); (EVar "t2_abab"); (EVar "t3_abbabb")]));
   (*L4128*) SAug true "triples_res" (EScale (-1 # 2) (EEins "lmde,dbij,aeclmk->abcijk" [(ESlice (EVar "g_abab") [SV "o"; SV "o"; SV "v"; SV "v"]); (EVar "t2_abab"); (EVar "t3_abbabb")]));
   (*L4131*) SAug true "triples_res" (EScale (1 # 2) (EEins "mlde,dcml,aebijk->abcijk" [(ESlice (EVar "g_abab") [SV "o"; SV "o"; SV "v"; SV "v"]); (EVar "t2_abab"); (EVar "t3_abbabb")]));
   (*L4134*) SAug true "triples_res" (EScale (1 # 2) (EEins "lmde,dclm,aebijk->abcijk" [(ESlice (EVar "g_abab") [SV "o"; SV "o"; SV "v"; SV "v"]); (EVar "t2_abab"); (EVar "t3_abbabb")]));
   (*L4137*) SAug true "triples_res" (EScale (1 # 2) (EEins "mlde,dcml,aebijk->abcijk" [(ESlice (EVar "g_bbbb") [SV "o"; SV "o"; SV "v"; SV "v"]); (EVar "t2_bbbb"); (EVar "t3_abbabb")]));
   (*L4140*) SAssign "contracted_intermediate" (EScale (100000000000001 # 100000000000000) (EEins "mlde,dclk,eabimj->abcijk" [(ESlice (EVar "g_aaaa") [SV "o"; SV "o"; SV "v"; SV "v"]); (EVar "t2_abab"); (EVar "t3_aabaab")]));
   (*L4141*) SAug true "triples_res" (EAdd (EScale (1 # 1) (EVar "contracted_intermediate")) (EScale (-1 # 1) (EEins "abcijk->abcikj" [(EVar "contracted_intermediate")])));
   (*L4144*) SAssign "contracted_intermediate" (EScale (-100000000000001 # 100000000000000) (EEins "lmde,dclk,aebijm->abcijk" [(ESlice (EVar "g_abab") [SV "o"; SV "o"; SV "v"; SV "v"]); (EVar "t2_abab"); (EVar "t3_abbabb")]));
   (*L4145*) SAug true "triples_res" (EAdd (EScale (1 # 1) (EVar "contracted_intermediate")) (EScale (-1 # 1) (EEins "abcijk->abcikj" [(EVar "contracted_intermediate")])));
   (*L4148*) SAssign "contracted_intermediate" (EScale (100000000000001 # 100000000000000) (EEins "mled,dckl,eabimj->abcijk" [(ESlice (EVar "g_abab") [SV "o"; SV "o"; SV "v"; SV "v"]); (EVar "t2_bbbb"); (EVar "t3_aabaab")]));
   (*L4149*) SAug true "triples_res" (EAdd (EScale (1 # 1) (EVar "contracted_intermediate")) (EScale (-1 # 1) (EEins "abcijk->abcikj" [(EVar "contracted_intermediate")])));
   (*L4152*) SAssign "contracted_intermediate" (EScale (-100000000000001 # 100000000000000) (EEins "mlde,dckl,aebijm->abcijk" [(ESlice (EVar "g_bbbb") [SV "o"; SV "o"; SV "v"; SV "v"]); (EVar "t2_bbbb"); (EVar "t3_abbabb")]));
   (*L4153*) SAug true "triples_res" (EAdd (EScale (1 # 1) (EVar "contracted_intermediate")) (EScale (-1 # 1) (EEins "abcijk->abcikj" [(EVar "contracted_intermediate")])));
   (*L4156*) SAug true "triples_res" (EScale (100000000000001 # 100000000000000) (EEins "mlde,dcil,aebmkj->abcijk" [(ESlice (EVar "g_abab") [SV "o"; SV "o"; SV "v"; SV "v"]); (EVar "t2_abab"); (EVar "t3_abbabb")]));
   (*L4159*) SAug true "triples_res" (EScale (1 # 2) (EEins "mled,dcjk,eabiml->abcijk" [(ESlice (EVar "g_abab") [SV "o"; SV "o"; SV "v"; SV "v"]); (EVar "t2_bbbb"); (EVar "t3_aabaab")]));
   (*L4162*) SAug true "triples_res" (EScale (1 # 2) (EEins "lmed,dcjk,eabilm->abcijk" [(ESlice (EVar "g_abab") [SV "o"; SV "o"; SV "v"; SV "v"]); (EVar "t2_bbbb"); (EVar "t3_aabaab")]));
   (*L4165*) SAug true "triples_res" (EScale (1 # 2) (EEins "mlde,dcjk,aebiml->abcijk" [(ESlice (EVar "g_bbbb") [SV "o"; SV "o"; SV "v"; SV "v"]); (EVar "t2_bbbb"); (EVar "t3_abbabb")]));
   (*L4168*) SAug true "triples_res" (EScale (-1 # 2) (EEins "mlde,dcik,eablmj->abcijk" [(ESlice (EVar "g_aaaa") [SV "o"; SV "o"; SV "v"; SV "v"]); (EVar "t2_abab"); (EVar "t3_aabaab")]));
   (*L4171*) SAug true "triples_res" (EScale (1 # 2) (EEins "mlde,dcik,aebmjl->abcijk" [(ESlice (EVar "g_abab") [SV "o"; SV "o"; SV "v"; SV "v"]); (EVar "t2_abab"); (EVar "t3_abbabb")]));
   (*L4174*) SAug true "triples_res" (EScale (-1 # 2) (EEins "lmde,dcik,aeblmj->abcijk" [(ESlice (EVar "g_abab") [SV "o"; SV "o"; SV "v"; SV "v"]); (EVar "t2_abab"); (EVar "t3_abbabb")]));
   (*L4177*) SAug true "triples_res" (EScale (1 # 2) (EEins "mlde,dcij,eablmk->abcijk" [(ESlice (EVar "g_aaaa") [SV "o"; SV "o"; SV "v"; SV "v"]); (EVar "t2_abab"); (EVar "t3_aabaab")]));
   (*L4180*) SAug true "triples_res" (EScale (-1 # 2) (EEins "mlde,dcij,aebmkl->abcijk" [(ESlice (EVar "g_abab") [SV "o"; SV "o"; SV "v"; SV "v"]); (EVar "t2_abab"); (EVar "t3_abbabb")]));
   (*L4183*) SAug true "triples_res" (EScale (1 # 2) (EEins "lmde,dcij,aeblmk->abcijk" [(ESlice (EVar "g_abab") [SV "o"; SV "o"; SV "v"; SV "v"]); (EVar "t2_abab"); (EVar "t3_abbabb")]));
   (*L4186*) SAssign "contracted_intermediate" (EScale (1 # 4) (EEins "mlde,abml,decijk->abcijk" [(ESlice (EVar "g_abab") [SV "o"; SV "o"; SV "v"; SV "v"]); (EVar "t2_abab"); (EVar "t3_abbabb")]));
   (*L4187*) SAug true "triples_res" (EAdd (EScale (1 # 1) (EVar "contracted_intermediate")) (EScale (-1 # 1) (EEins "abcijk->acbijk" [(EVar "contracted_intermediate")])));
   (*L4190*) SAssign "contracted_intermediate" (EScale (1 # 4) (EEins "mled,abml,edcijk->abcijk" [(ESlice (EVar "g_abab") [SV "o"; SV "o"; SV "v"; SV "v"]); (EVar "t2_abab"); (EVar "t3_abbabb")]));
   (*L4191*) SAug true "triples_res" (EAdd (EScale (1 # 1) (EVar "contracted_intermediate")) (EScale (-1 # 1) (EEins "abcijk->acbijk" [(EVar "contracted_intermediate")])));
   (*L4194*) SAssign "contracted_intermediate" (EScale (1 # 4) (EEins "lmde,ablm,decijk->abcijk" [(ESlice (EVar "g_abab") [SV "o"; SV "o"; SV "v"; SV "v"]); (EVar "t2_abab"); (EVar "t3_abbabb")]));
   (*L4195*) SAug true "triples_res" (EAdd (EScale (1 # 1) (EVar "contracted_intermediate")) (EScale (-1 # 1) (EEins "abcijk->acbijk" [(EVar "contracted_intermediate")])));
   (*L4198*) SAssign "contracted_intermediate" (EScale (1 # 4) (EEins "lmed,ablm,edcijk->abcijk" [(ESlice (EVar "g_abab") [SV "o"; SV "o"; SV "v"; SV "v"]); (EVar "t2_abab"); (EVar "t3_abbabb")]));
   (*L4199*) SAug true "triples_res" (EAdd (EScale (1 # 1) (EVar "contracted_intermediate")) (EScale (-1 # 1) (EEins "abcijk->acbijk" [(EVar "contracted_intermediate")])));
   (*L4202*) SAssign "contracted_intermediate" (EScale (-1 # 2) (EEins "mlde,ablk,decimj->abcijk" [(ESlice (EVar "g_aaaa") [SV "o"; SV "o"; SV "v"; SV "v"]); (EVar "t2_abab"); (EVar "t3_aabaab")]));
   (*L4203*) SAug true "triples_res" (EAdd (EAdd (EAdd (EScale (1 # 1) (EVar "contracted_intermediate")) (EScale (-1 # 1) (EEins "abcijk->abcikj" [(EVar "contracted_intermediate")]))) (EScale (-1 # 1) (EEins "abcijk->acbijk" [(EVar "contracted_intermediate")]))) (EScale (1 # 1) (EEins "abcijk->acbikj" [(EVar "contracted_intermediate")])));
   (*L4206*) SAssign "contracted_intermediate" (EScale (-1 # 2) (EEins "lmde,ablk,decijm->abcijk" [(ESlice (EVar "g_abab") [SV "o"; SV "o"; SV "v"; SV "v"]); (EVar "t2_abab"); (EVar "t3_abbabb")]));
   (*L4207*) SAug true "triples_res" (EAdd (EAdd (EAdd (EScale (1 # 1) (EVar "contracted_intermediate")) (EScale (-1 # 1) (EEins "abcijk->abcikj" [(EVar "contracted_intermediate")]))) (EScale (-1 # 1) (EEins "abcijk->acbijk" [(EVar "contracted_intermediate")]))) (EScale (1 # 1) (EEins "abcijk->acbikj" [(EVar "contracted_intermediate")])));
   (*L4210*) SAssign "contracted_intermediate" (EScale (-1 # 2) (EEins "lmed,ablk,edcijm->abcijk" [(ESlice (EVar "g_abab") [SV "o"; SV "o"; SV "v"; SV "v"]); (EVar "t2_abab"); (EVar "t3_abbabb")]));
   (*L4211*) SAug true "triples_res" (EAdd (EAdd (EAdd (EScale (1 # 1) (EVar "contracted_intermediate")) (EScale (-1 # 1) (EEins "abcijk->abcikj" [(EVar "contracted_intermediate")]))) (EScale (-1 # 1) (EEins "abcijk->acbijk" [(EVar "contracted_intermediate")]))) (EScale (1 # 1) (EEins "abcijk->acbikj" [(EVar "contracted_intermediate")])));
   (*L4214*) SAssign "contracted_intermediate" (EScale (1 # 2) (EEins "mlde,abil,decmkj->abcijk" [(ESlice (EVar "g_abab") [SV "o"; SV "o"; SV "v"; SV "v"]); (EVar "t2_abab"); (EVar "t3_abbabb")]));
   (*L4215*) SAug true "triples_res" (EAdd (EScale (1 # 1) (EVar "contracted_intermediate")) (EScale (-1 # 1) (EEins "abcijk->acbijk" [(EVar "contracted_intermediate")])));
   (*L4218*) SAssign "contracted_intermediate" (EScale (1 # 2) (EEins "mled,abil,edcmkj->abcijk" [(ESlice (EVar "g_abab") [SV "o"; SV "o"; SV "v"; SV "v"]); (EVar "t2_abab"); (EVar "t3_abbabb")]));
   (*L4219*) SAug true "triples_res" (EAdd (EScale (1 # 1) (EVar "contracted_intermediate")) (EScale (-1 # 1) (EEins "abcijk->acbijk" [(EVar "contracted_intermediate")])));
   (*L4222*) SAssign "contracted_intermediate" (EScale (-1 # 2) (EEins "mlde,abil,decjkm->abcijk" [(ESlice (EVar "g_bbbb") [SV "o"; SV "o"; SV "v"; SV "v"]); (EVar "t2_abab"); (EVar "t3_bbbbbb")]));
   (*L4223*) SAug true "triples_res" (EAdd (EScale (1 # 1) (EVar "contracted_intermediate")) (EScale (-1 # 1) (EEins "abcijk->acbijk" [(EVar "contracted_intermediate")])));
   (*L4226*) SAug true "triples_res" (EScale (-1 # 4) (EEins "mlde,bcml,aedijk->abcijk" [(ESlice (EVar "g_bbbb") [SV "o"; SV "o"; SV "v"; SV "v"]); (EVar "t2_bbbb"); (EVar "t3_abbabb")]));
   (*L4229*) SAssign "contracted_intermediate" (EScale (-1 # 2) (EEins "mlde,bckl,daeimj->abcijk" [(ESlice (EVar "g_abab") [SV "o"; SV "o"; SV "v"; SV "v"]); (EVar "t2_bbbb"); (EVar "t3_aabaab")]));
   (*L4230*) SAug true "triples_res" (EAdd (EScale (1 # 1) (EVar "contracted_intermediate")) (EScale (-1 # 1) (EEins "abcijk->abcikj" [(EVar "contracted_intermediate")])));
   (*L4233*) SAssign "contracted_intermediate" (EScale (1 # 2) (EEins "mled,bckl,aedimj->abcijk" [(ESlice (EVar "g_abab") [SV "o"; SV "o"; SV "v"; SV "v"]); (EVar "t2_bbbb"); (EVar "t3_aabaab")]));
   (*L4234*) SAug true "triples_res" (EAdd (EScale (1 # 1) (EVar "contracted_intermediate")) (EScale (-1 # 1) (EEins "abcijk->abcikj" [(EVar "contracted_intermediate")])));
   (*L4237*) SAssign "contracted_intermediate" (EScale (1 # 2) (EEins "mlde,bckl,aedijm->abcijk" [(ESlice (EVar "g_bbbb") [SV "o"; SV "o"; SV "v"; SV "v"]); (EVar "t2_bbbb"); (EVar "t3_abbabb")]));
   (*L4238*) SAug true "triples_res" (EAdd (EScale (1 # 1) (EVar "contracted_intermediate")) (EScale (-1 # 1) (EEins "abcijk->abcikj" [(EVar "contracted_intermediate")])));
   (*L4241*) SAug true "triples_res" (EScale (-1 # 1) (EEins "lmdk,dblj,acim->abcijk" [(ESlice (EVar "g_abab") [SV "o"; SV "o"; SV "v"; SV "o"]); (EVar "t2_abab"); (EVar "t2_abab")]));
   (*L4244*) SAug true "triples_res" (EScale (-1 # 1) (EEins "mldk,dbjl,acim->abcijk" [(ESlice (EVar "g_bbbb") [SV "o"; SV "o"; SV "v"; SV "o"]); (EVar "t2_bbbb"); (EVar "t2_abab")]));
   (*L4247*) SAug true "triples_res" (EScale (1 # 1) (EEins "lmdk,dail,bcjm->abcijk" [(ESlice (EVar "g_abab") [SV "o"; SV "o"; SV "v"; SV "o"]); (EVar "t2_aaaa"); (EVar "t2_bbbb")]));
   (*L4250*) SAug true "triples_res" (EScale (1 # 1) (EEins "mldk,adil,bcjm->abcijk" [(ESlice (EVar "g_bbbb") [SV "o"; SV "o"; SV "v"; SV "o"]); (EVar "t2_abab"); (EVar "t2_bbbb")]));
   (*L4253*) SAug true "triples_res" (EScale (-1 # 1) (EEins "mldk,dbil,acmj->abcijk" [(ESlice (EVar "g_abab") [SV "o"; SV "o"; SV "v"; SV "o"]); (EVar "t2_abab"); (EVar "t2_abab")]));
   (*L4256*) SAssign "contracted_intermediate" (EScale (1 # 2) (EEins "mldk,adij,bcml->abcijk" [(ESlice (EVar "g_bbbb") [SV "o"; SV "o"; SV "v"; SV "o"]); (EVar "t2_abab"); (EVar "t2_bbbb")]));
   (*L4257*) SAug true "triples_res" (EAdd (EScale (1 # 1) (EVar "contracted_intermediate")) (EScale (-1 # 1) (EEins "abcijk->abcikj" [(EVar "contracted_intermediate")])));
   (*L4260*) SAssign "contracted_intermediate" (EScale (1 # 2) (EEins "mldk,dbij,acml->abcijk" [(ESlice (EVar "g_abab") [SV "o"; SV "o"; SV "v"; SV "o"]); (EVar "t2_abab"); (EVar "t2_abab")]));
   (*L4261*) SAug true "triples_res" (EAdd (EScale (1 # 1) (EVar "contracted_intermediate")) (EScale (-1 # 1) (EEins "abcijk->abcikj" [(EVar "contracted_intermediate")])));
   (*L4264*) SAssign "contracted_intermediate" (EScale (1 # 2) (EEins "lmdk,dbij,aclm->abcijk" [(ESlice (EVar "g_abab") [SV "o"; SV "o"; SV "v"; SV "o"]); (EVar "t2_abab"); (EVar "t2_abab")]));
   (*L4265*) SAug true "triples_res" (EAdd (EScale (1 # 1) (EVar "contracted_intermediate")) (EScale (-1 # 1) (EEins "abcijk->abcikj" [(EVar "contracted_intermediate")])));
   (*L4268*) SAug true "triples_res" (EScale (1 # 1) (EEins "lmdk,dclj,abim->abcijk" [(ESlice (EVar "g_abab") [SV "o"; SV "o"; SV "v"; SV "o"]); (EVar "t2_abab"); (EVar "t2_abab")]));
   (*L4271*) SAug true "triples_res" (EScale (1 # 1) (EEins "mldk,dcjl,abim->abcijk" [(ESlice (EVar "g_bbbb") [SV "o"; SV "o"; SV "v"; SV "o"]); (EVar "t2_bbbb"); (EVar "t2_abab")]));
   (*L4274*) SAug true "triples_res" (EScale (1 # 1) (EEins "mldk,dcil,abmj->abcijk" [(ESlice (EVar "g_abab") [SV "o"; SV "o"; SV "v"; SV "o"]); (EVar "t2_abab"); (EVar "t2_abab")]));
   (*L4277*) SAssign "contracted_intermediate" (EScale (-1 # 2) (EEins "mldk,dcij,abml->abcijk" [(ESlice (EVar "g_abab") [SV "o"; SV "o"; SV "v"; SV "o"]); (EVar "t2_abab"); (EVar "t2_abab")]));
   (*L4278*) SAug true "triples_res" (EAdd (EScale (1 # 1) (EVar "contracted_intermediate")) (EScale (-1 # 1) (EEins "abcijk->abcikj" [(EVar "contracted_intermediate")])));
   (*L4281*) SAssign "contracted_intermediate" (EScale (-1 # 2) (EEins "lmdk,dcij,ablm->abcijk" [(ESlice (EVar "g_abab") [SV "o"; SV "o"; SV "v"; SV "o"]); (EVar "t2_abab"); (EVar "t2_abab")]));
   (*L4282*) SAug true "triples_res" (EAdd (EScale (1 # 1) (EVar "contracted_intermediate")) (EScale (-1 # 1) (EEins "abcijk->abcikj" [(EVar "contracted_intermediate")])));
   (*L4285*) SAug true "triples_res" (EScale (1 # 1) (EEins "lmdj,dblk,acim->abcijk" [(ESlice (EVar "g_abab") [SV "o"; SV "o"; SV "v"; SV "o"]); (EVar "t2_abab"); (EVar "t2_abab")]));
   (*L4288*) SAug true "triples_res" (EScale (1 # 1) (EEins "mldj,dbkl,acim->abcijk" [(ESlice (EVar "g_bbbb") [SV "o"; SV "o"; SV "v"; SV "o"]); (EVar "t2_bbbb"); (EVar "t2_abab")]));
   (*L4291*) SAug true "triples_res" (EScale (-1 # 1) (EEins "lmdj,dail,bckm->abcijk" [(ESlice (EVar "g_abab") [SV "o"; SV "o"; SV "v"; SV "o"]); (EVar "t2_aaaa"); (EVar "t2_bbbb")]));
   (*L4294*) SAug true "triples_res" (EScale (-1 # 1) (EEins "mldj,adil,bckm->abcijk" [(ESlice (EVar "g_bbbb") [SV "o"; SV "o"; SV "v"; SV "o"]); (EVar "t2_abab"); (EVar "t2_bbbb")]));
   (*L4297*) SAug true "triples_res" (EScale (1 # 1) (EEins "mldj,dbil,acmk->abcijk" [(ESlice (EVar "g_abab") [SV "o"; SV "o"; SV "v"; SV "o"]); (EVar "t2_abab"); (EVar "t2_abab")]));
   (*L4300*) SAug true "triples_res" (EScale (-1 # 1) (EEins "lmdj,dclk,abim->abcijk" [(ESlice (EVar "g_abab") [SV "o"; SV "o"; SV "v"; SV "o"]); (EVar "t2_abab"); (EVar "t2_abab")]));
   (*L4303*) SAug true "triples_res" (EScale (-1 # 1) (EEins "mldj,dckl,abim->abcijk" [(ESlice (EVar "g_bbbb") [SV "o"; SV "o"; SV "v"; SV "o"]); (EVar "t2_bbbb"); (EVar "t2_abab")]));
   (*L4306*) SAug true "triples_res" (EScale (-1 # 1) (EEins "mldj,dcil,abmk->abcijk" [(ESlice (EVar "g_abab") [SV "o"; SV "o"; SV "v"; SV "o"]); (EVar "t2_abab"); (EVar "t2_abab")]));
   (*L4309*) SAssign "contracted_intermediate" (EScale (1 # 1) (EEins "lmid,adlk,bcjm->abcijk" [(ESlice (EVar "g_abab") [SV "o"; SV "o"; SV "o"; SV "v"]); (EVar "t2_abab"); (EVar "t2_bbbb")]));
   (*L4310*) SAug true "triples_res" (EAdd (EScale (1 # 1) (EVar "contracted_intermediate")) (EScale (-1 # 1) (EEins "abcijk->abcikj" [(EVar "contracted_intermediate")])));
   (*L4313*) SAssign "contracted_intermediate" (EScale (-1 # 1) (EEins "mldi,dblk,acmj->abcijk" [(ESlice (EVar "g_aaaa") [SV "o"; SV "o"; SV "v"; SV "o"]); (EVar "t2_abab"); (EVar "t2_abab")]));
   (*L4314*) SAug true "triples_res" (EAdd (EScale (1 # 1) (EVar "contracted_intermediate")) (EScale (-1 # 1) (EEins "abcijk->abcikj" [(EVar "contracted_intermediate")])));
   (*L4317*) SAssign "contracted_intermediate" (EScale (-1 # 1) (EEins "mlid,dbkl,acmj->abcijk" [(ESlice (EVar "g_abab") [SV "o"; SV "o"; SV "o"; SV "v"]); (EVar "t2_bbbb"); (EVar "t2_abab")]));
   (*L4318*) SAug true "triples_res" (EAdd (EScale (1 # 1) (EVar "contracted_intermediate")) (EScale (-1 # 1) (EEins "abcijk->abcikj" [(EVar "contracted_intermediate")])));
   (*L4321*) SAug true "triples_res" (EScale (-1 # 2) (EEins "mlid,dbjk,acml->abcijk" [(ESlice (EVar "g_abab") [SV "o"; SV "o"; SV "o"; SV "v"]); (EVar "t2_bbbb"); (EVar "t2_abab")]));
   (*L4324*) SAug true "triples_res" (EScale (-1 # 2) (EEins "lmid,dbjk,aclm->abcijk" [(ESlice (EVar "g_abab") [SV "o"; SV "o"; SV "o"; SV "v"]); (EVar "t2_bbbb"); (EVar "t2_abab")]));
   (*L4327*) SAssign "contracted_intermediate" (EScale (1 # 1) (EEins "mldi,dclk,abmj->abcijk" [(ESlice (EVar "g_aaaa") [SV "o"; SV "o"; SV "v"; SV "o"]); (EVar "t2_abab"); (EVar "t2_abab")]));
   (*L4328*) SAug true "triples_res" (EAdd (EScale (1 # 1) (EVar "contracted_intermediate")) (EScale (-1 # 1) (EEins "abcijk->abcikj" [(EVar "contracted_intermediate")])));
   (*L4331*) SAssign "contracted_intermediate" (EScale (1 # 1) (EEins "mlid,dckl,abmj->abcijk" [(ESlice (EVar "g_abab") [SV "o"; SV "o"; SV "o"; SV "v"]); (EVar "t2_bbbb"); (EVar "t2_abab")]));
   (*L4332*) SAug true "triples_res" (EAdd (EScale (1 # 1) (EVar "contracted_intermediate")) (EScale (-1 # 1) (EEins "abcijk->abcikj" [(EVar "contracted_intermediate")])));
   (*L4335*) SAug true "triples_res" (EScale (1 # 2) (EEins "mlid,dcjk,abml->abcijk" [(ESlice (EVar "g_abab") [SV "o"; SV "o"; SV "o"; SV "v"]); (EVar "t2_bbbb"); (EVar "t2_abab")]));
   (*L4338*) SAug true "triples_res" (EScale (1 # 2) (EEins "lmid,dcjk,ablm->abcijk" [(ESlice (EVar "g_abab") [SV "o"; SV "o"; SV "o"; SV "v"]); (EVar "t2_bbbb"); (EVar "t2_abab")]));
   (*L4341*) SAug true "triples_res" (EScale (1 # 2) (EEins "lbde,dejk,acil->abcijk" [(ESlice (EVar "g_bbbb") [SV "o"; SV "v"; SV "v"; SV "v"]); (EVar "t2_bbbb"); (EVar "t2_abab")]));
   (*L4344*) SAug true "triples_res" (EScale (-1 # 2) (EEins "alde,deik,bcjl->abcijk" [(ESlice (EVar "g_abab") [SV "v"; SV "o"; SV "v"; SV "v"]); (EVar "t2_abab"); (EVar "t2_bbbb")]));
   (*L4347*) SAug true "triples_res" (EScale (-1 # 2) (EEins "aled,edik,bcjl->abcijk" [(ESlice (EVar "g_abab") [SV "v"; SV "o"; SV "v"; SV "v"]); (EVar "t2_abab"); (EVar "t2_bbbb")]));
   (*L4350*) SAug true "triples_res" (EScale (1 # 2) (EEins "lbde,deik,aclj->abcijk" [(ESlice (EVar "g_abab") [SV "o"; SV "v"; SV "v"; SV "v"]); (EVar "t2_abab"); (EVar "t2_abab")]));
   (*L4353*) SAug true "triples_res" (EScale (1 # 2) (EEins "lbed,edik,aclj->abcijk" [(ESlice (EVar "g_abab") [SV "o"; SV "v"; SV "v"; SV "v"]); (EVar "t2_abab"); (EVar "t2_abab")]));
   (*L4356*) SAug true "triples_res" (EScale (1 # 2) (EEins "alde,deij,bckl->abcijk" [(ESlice (EVar "g_abab") [SV "v"; SV "o"; SV "v"; SV "v"]); (EVar "t2_abab"); (EVar "t2_bbbb")]));
   (*L4359*) SAug true "triples_res" (EScale (1 # 2) (EEins "aled,edij,bckl->abcijk" [(ESlice (EVar "g_abab") [SV "v"; SV "o"; SV "v"; SV "v"]); (EVar "t2_abab"); (EVar "t2_bbbb")]));
   (*L4362*) SAug true "triples_res" (EScale (-1 # 2) (EEins "lbde,deij,aclk->abcijk" [(ESlice (EVar "g_abab") [SV "o"; SV "v"; SV "v"; SV "v"]); (EVar "t2_abab"); (EVar "t2_abab")]));
   (*L4365*) SAug true "triples_res" (EScale (-1 # 2) (EEins "lbed,edij,aclk->abcijk" [(ESlice (EVar "g_abab") [SV "o"; SV "v"; SV "v"; SV "v"]); (EVar "t2_abab"); (EVar "t2_abab")]));
   (*L4368*) SAssign "contracted_intermediate" (EScale (-1 # 1) (EEins "lade,dblk,ecij->abcijk" [(ESlice (EVar "g_aaaa") [SV "o"; SV "v"; SV "v"; SV "v"]); (EVar "t2_abab"); (EVar "t2_abab")]));
   (*L4369*) SAug true "triples_res" (EAdd (EScale (1 # 1) (EVar "contracted_intermediate")) (EScale (-1 # 1) (EEins "abcijk->abcikj" [(EVar "contracted_intermediate")])));
   (*L4372*) SAssign "contracted_intermediate" (EScale (1 # 1) (EEins "aled,dbkl,ecij->abcijk" [(ESlice (EVar "g_abab") [SV "v"; SV "o"; SV "v"; SV "v"]); (EVar "t2_bbbb"); (EVar "t2_abab")]));
   (*L4373*) SAug true "triples_res" (EAdd (EScale (1 # 1) (EVar "contracted_intermediate")) (EScale (-1 # 1) (EEins "abcijk->abcikj" [(EVar "contracted_intermediate")])));
   (*L4376*) SAssign "contracted_intermediate" (EScale (1 # 1) (EEins "lbed,adlk,ecij->abcijk" [(ESlice (EVar "g_abab") [SV "o"; SV "v"; SV "v"; SV "v"]); (EVar "t2_abab"); (EVar "t2_abab")]));
   (*L4377*) SAug true "triples_res" (EAdd (EScale (1 # 1) (EVar "contracted_intermediate")) (EScale (-1 # 1) (EEins "abcijk->abcikj" [(EVar "contracted_intermediate")])));
   (*L4380*) SAug true "triples_res" (EScale (-1 # 1) (EEins "alde,dbil,ecjk->abcijk" [(ESlice (EVar "g_abab") [SV "v"; SV "o"; SV "v"; SV "v"]); (EVar "t2_abab"); (EVar "t2_bbbb")]));
   (*L4383*) SAug true "triples_res" (EScale (-1 # 1) (EEins "lbde,dail,ecjk->abcijk" [(ESlice (EVar "g_abab") [SV "o"; SV "v"; SV "v"; SV "v"]); (EVar "t2_aaaa"); (EVar "t2_bbbb")]));
   (*L4386*) SAug true "triples_res" (EScale (1 # 1) (EEins "lbde,adil,ecjk->abcijk" [(ESlice (EVar "g_bbbb") [SV "o"; SV "v"; SV "v"; SV "v"]); (EVar "t2_abab"); (EVar "t2_bbbb")]));
   (*L4389*) SAug true "triples_res" (EScale (1 # 1) (EEins "aled,dbjk,ecil->abcijk" [(ESlice (EVar "g_abab") [SV "v"; SV "o"; SV "v"; SV "v"]); (EVar "t2_bbbb"); (EVar "t2_abab")]));
   (*L4392*) SAug true "triples_res" (EScale (1 # 1) (EEins "lade,dbik,eclj->abcijk" [(ESlice (EVar "g_aaaa") [SV "o"; SV "v"; SV "v"; SV "v"]); (EVar "t2_abab"); (EVar "t2_abab")]));
   (*L4395*) SAug true "triples_res" (EScale (1 # 1) (EEins "alde,dbik,ecjl->abcijk" [(ESlice (EVar "g_abab") [SV "v"; SV "o"; SV "v"; SV "v"]); (EVar "t2_abab"); (EVar "t2_bbbb")]));
   (*L4398*) SAug true "triples_res" (EScale (-1 # 1) (EEins "lbed,adik,eclj->abcijk" [(ESlice (EVar "g_abab") [SV "o"; SV "v"; SV "v"; SV "v"]); (EVar "t2_abab"); (EVar "t2_abab")]));
   (*L4401*) SAug true "triples_res" (EScale (-1 # 1) (EEins "lbde,adik,ecjl->abcijk" [(ESlice (EVar "g_bbbb") [SV "o"; SV "v"; SV "v"; SV "v"]); (EVar "t2_abab"); (EVar "t2_bbbb")]));
   (*L4404*) SAug true "triples_res" (EScale (-1 # 1) (EEins "lade,dbij,eclk->abcijk" [(ESlice (EVar "g_aaaa") [SV "o"; SV "v"; SV "v"; SV "v"]); (EVar "t2_abab"); (EVar "t2_abab")]));
   (*L4407*) SAug true "triples_res" (EScale (-1 # 1) (EEins "alde,dbij,eckl->abcijk" [(ESlice (EVar "g_abab") [SV "v"; SV "o"; SV "v"; SV "v"]); (EVar "t2_abab"); (EVar "t2_bbbb")]));
   (*L4410*) SAug true "triples_res" (EScale (1 # 1) (EEins "lbed,adij,eclk->abcijk" [(ESlice (EVar "g_abab") [SV "o"; SV "v"; SV "v"; SV "v"]); (EVar "t2_abab"); (EVar "t2_abab")]));
   (*L4413*) SAug true "triples_res" (EScale (1 # 1) (EEins "lbde,adij,eckl->abcijk" [(ESlice (EVar "g_bbbb") [SV "o"; SV "v"; SV "v"; SV "v"]); (EVar "t2_abab"); (EVar "t2_bbbb")]));
   (*L4416*) SAug true "triples_res" (EScale (-1 # 2) (EEins "lcde,dejk,abil->abcijk" [(ESlice (EVar "g_bbbb") [SV "o"; SV "v"; SV "v"; SV "v"]); (EVar "t2_bbbb"); (EVar "t2_abab")]));
   (*L4419*) SAug true "triples_res" (EScale (-1 # 2) (EEins "lcde,deik,ablj->abcijk" [(ESlice (EVar "g_abab") [SV "o"; SV "v"; SV "v"; SV "v"]); (EVar "t2_abab"); (EVar "t2_abab")]));
   (*L4422*) SAug true "triples_res" (EScale (-1 # 2) (EEins "lced,edik,ablj->abcijk" [(ESlice (EVar "g_abab") [SV "o"; SV "v"; SV "v"; SV "v"]); (EVar "t2_abab"); (EVar "t2_abab")]));
   (*L4425*) SAug true "triples_res" (EScale (1 # 2) (EEins "lcde,deij,ablk->abcijk" [(ESlice (EVar "g_abab") [SV "o"; SV "v"; SV "v"; SV "v"]); (EVar "t2_abab"); (EVar "t2_abab")]));
   (*L4428*) SAug true "triples_res" (EScale (1 # 2) (EEins "lced,edij,ablk->abcijk" [(ESlice (EVar "g_abab") [SV "o"; SV "v"; SV "v"; SV "v"]); (EVar "t2_abab"); (EVar "t2_abab")]));
   (*L4431*) SAssign "contracted_intermediate" (EScale (-1 # 1) (EEins "lced,adlk,ebij->abcijk" [(ESlice (EVar "g_abab") [SV "o"; SV "v"; SV "v"; SV "v"]); (EVar "t2_abab"); (EVar "t2_abab")]));
   (*L4432*) SAug true "triples_res" (EAdd (EScale (1 # 1) (EVar "contracted_intermediate")) (EScale (-1 # 1) (EEins "abcijk->abcikj" [(EVar "contracted_intermediate")])));
   (*L4435*) SAug true "triples_res" (EScale (1 # 1) (EEins "lcde,dail,ebjk->abcijk" [(ESlice (EVar "g_abab") [SV "o"; SV "v"; SV "v"; SV "v"]); (EVar "t2_aaaa"); (EVar "t2_bbbb")]));
   (*L4438*) SAug true "triples_res" (EScale (-1 # 1) (EEins "lcde,adil,ebjk->abcijk" [(ESlice (EVar "g_bbbb") [SV "o"; SV "v"; SV "v"; SV "v"]); (EVar "t2_abab"); (EVar "t2_bbbb")]));
   (*L4441*) SAug true "triples_res" (EScale (1 # 1) (EEins "lced,adik,eblj->abcijk" [(ESlice (EVar "g_abab") [SV "o"; SV "v"; SV "v"; SV "v"]); (EVar "t2_abab"); (EVar "t2_abab")]));
   (*L4444*) SAug true "triples_res" (EScale (1 # 1) (EEins "lcde,adik,ebjl->abcijk" [(ESlice (EVar "g_bbbb") [SV "o"; SV "v"; SV "v"; SV "v"]); (EVar "t2_abab"); (EVar "t2_bbbb")]));
   (*L4447*) SAug true "triples_res" (EScale (-1 # 1) (EEins "lced,adij,eblk->abcijk" [(ESlice (EVar "g_abab") [SV "o"; SV "v"; SV "v"; SV "v"]); (EVar "t2_abab"); (EVar "t2_abab")]));
   (*L4450*) SAug true "triples_res" (EScale (-1 # 1) (EEins "lcde,adij,ebkl->abcijk" [(ESlice (EVar "g_bbbb") [SV "o"; SV "v"; SV "v"; SV "v"]); (EVar "t2_abab"); (EVar "t2_bbbb")]));
   (*L4453*) SAug true "triples_res" (EScale (1 # 1) (EEins "lmde,dl,ebjk,acim->abcijk" [(ESlice (EVar "g_abab") [SV "o"; SV "o"; SV "v"; SV "v"]); (EVar "t1_aa"); (EVar "t2_bbbb"); (EVar "t2_abab")]));
   (*L4456*) SAug true "triples_res" (EScale (-1 # 1) (EEins "mlde,dl,ebjk,acim->abcijk" [(ESlice (EVar "g_bbbb") [SV "o"; SV "o"; SV "v"; SV "v"]); (EVar "t1_bb"); (EVar "t2_bbbb"); (EVar "t2_abab")]));
   (*L4459*) SAug true "triples_res" (EScale (-1 # 1) (EEins "lmde,dl,aeik,bcjm->abcijk" [(ESlice (EVar "g_abab") [SV "o"; SV "o"; SV "v"; SV "v"]); (EVar "t1_aa"); (EVar "t2_abab"); (EVar "t2_bbbb")]));
   (*L4462*) SAug true "triples_res" (EScale (1 # 1) (EEins "mlde,dl,aeik,bcjm->abcijk" [(ESlice (EVar "g_bbbb") [SV "o"; SV "o"; SV "v"; SV "v"]); (EVar "t1_bb"); (EVar "t2_abab"); (EVar "t2_bbbb")]));
   (*L4465*) SAug true "triples_res" (EScale (-1 # 1) (EEins "mlde,dl,ebik,acmj->abcijk" [(ESlice (EVar "g_aaaa") [SV "o"; SV "o"; SV "v"; SV "v"]); (EVar "t1_aa"); (EVar "t2_abab"); (EVar "t2_abab")]));
   (*L4468*) SAug true "triples_res" (EScale (1 # 1) (EEins "mled,dl,ebik,acmj->abcijk" [(ESlice (EVar "g_abab") [SV "o"; SV "o"; SV "v"; SV "v"]); (EVar "t1_bb"); (EVar "t2_abab"); (EVar "t2_abab")]));
   (*L4471*) SAug true "triples_res" (EScale (1 # 1) (EEins "lmde,dl,aeij,bckm->abcijk" [(ESlice (EVar "g_abab") [SV "o"; SV "o"; SV "v"; SV "v"]); (EVar "t1_aa"); (EVar "t2_abab"); (EVar "t2_bbbb")]));
   (*L4474*) SAug true "triples_res" (EScale (-1 # 1) (EEins "mlde,dl,aeij,bckm->abcijk" [(ESlice (EVar "g_bbbb") [SV "o"; SV "o"; SV "v"; SV "v"]); (EVar "t1_bb"); (EVar "t2_abab"); (EVar "t2_bbbb")]));
   (*L4477*) SAug true "triples_res" (EScale (1 # 1) (EEins "mlde,dl,ebij,acmk->abcijk" [(ESlice (EVar "g_aaaa") [SV "o"; SV "o"; SV "v"; SV "v"]); (EVar "t1_aa"); (EVar "t2_abab"); (EVar "t2_abab")]));
   (*L4480*) SAug true "triples_res" (EScale (-1 # 1) (EEins "mled,dl,ebij,acmk->abcijk" [(ESlice (EVar "g_abab") [SV "o"; SV "o"; SV "v"; SV "v"]); (EVar "t1_bb"); (EVar "t2_abab"); (EVar "t2_abab")]));
   (*L4483*) SAug true "triples_res" (EScale (-1 # 1) (EEins "lmde,dl,ecjk,abim->abcijk" [(ESlice (EVar "g_abab") [SV "o"; SV "o"; SV "v"; SV "v"]); (EVar "t1_aa"); (EVar "t2_bbbb"); (EVar "t2_abab")]));
   (*L4486*) SAug true "triples_res" (EScale (1 # 1) (EEins "mlde,dl,ecjk,abim->abcijk" [(ESlice (EVar "g_bbbb") [SV "o"; SV "o"; SV "v"; SV "v"]); (EVar "t1_bb"); (EVar "t2_bbbb"); (EVar "t2_abab")]));
   (*L4489*) SAug true "triples_res" (EScale (1 # 1) (EEins "mlde,dl,ecik,abmj->abcijk" [(ESlice (EVar "g_aaaa") [SV "o"; SV "o"; SV "v"; SV "v"]); (EVar "t1_aa"); (EVar "t2_abab"); (EVar "t2_abab")]));
   (*L4492*) SAug true "triples_res" (EScale (-1 # 1) (EEins "mled,dl,ecik,abmj->abcijk" [(ESlice (EVar "g_abab") [SV "o"; SV "o"; SV "v"; SV "v"]); (EVar "t1_bb"); (EVar "t2_abab"); (EVar "t2_abab")]));
   (*L4495*) SAug true "triples_res" (EScale (-1 # 1) (EEins "mlde,dl,ecij,abmk->abcijk" [(ESlice (EVar "g_aaaa") [SV "o"; SV "o"; SV "v"; SV "v"]); (EVar "t1_aa"); (EVar "t2_abab"); (EVar "t2_abab")]));
   (*L4498*) SAug true "triples_res" (EScale (1 # 1) (EEins "mled,dl,ecij,abmk->abcijk" [(ESlice (EVar "g_abab") [SV "o"; SV "o"; SV "v"; SV "v"]); (EVar "t1_bb"); (EVar "t2_abab"); (EVar "t2_abab")]));
   (*L4501*) SAug true "triples_res" (EScale (-1 # 1) (EEins "lmed,dk,eblj,acim->abcijk" [(ESlice (EVar "g_abab") [SV "o"; SV "o"; SV "v"; SV "v"]); (EVar "t1_bb"); (EVar "t2_abab"); (EVar "t2_abab")]));
   (*L4504*) SAug true "triples_res" (EScale (1 # 1) (EEins "mlde,dk,ebjl,acim->abcijk" [(ESlice (EVar "g_bbbb") [SV "o"; SV "o"; SV "v"; SV "v"]); (EVar "t1_bb"); (EVar "t2_bbbb"); (EVar "t2_abab")]));
   (*L4507*) SAug true "triples_res" (EScale (1 # 1) (EEins "lmed,dk,eail,bcjm->abcijk" [(ESlice (EVar "g_abab") [SV "o"; SV "o"; SV "v"; SV "v"]); (EVar "t1_bb"); (EVar "t2_aaaa"); (EVar "t2_bbbb")]));
   (*L4510*) SAug true "triples_res" (EScale (-1 # 1) (EEins "mlde,dk,aeil,bcjm->abcijk" [(ESlice (EVar "g_bbbb") [SV "o"; SV "o"; SV "v"; SV "v"]); (EVar "t1_bb"); (EVar "t2_abab"); (EVar "t2_bbbb")]));
   (*L4513*) SAug true "triples_res" (EScale (-1 # 1) (EEins "mled,dk,ebil,acmj->abcijk" [(ESlice (EVar "g_abab") [SV "o"; SV "o"; SV "v"; SV "v"]); (EVar "t1_bb"); (EVar "t2_abab"); (EVar "t2_abab")]));
   (*L4516*) SAssign "contracted_intermediate" (EScale (-1 # 2) (EEins "mlde,dk,aeij,bcml->abcijk" [(ESlice (EVar "g_bbbb") [SV "o"; SV "o"; SV "v"; SV "v"]); (EVar "t1_bb"); (EVar "t2_abab"); (EVar "t2_bbbb")]));
   (*L4517*) SAug true "triples_res" (EAdd (EScale (1 # 1) (EVar "contracted_intermediate")) (EScale (-1 # 1) (EEins "abcijk->abcikj" [(EVar "contracted_intermediate")])));
   (*L4520*) SAssign "contracted_intermediate" (EScale (1 # 2) (EEins "mled,dk,ebij,acml->abcijk" [(ESlice (EVar "g_abab") [SV "o"; SV "o"; SV "v"; SV "v"]); (EVar "t1_bb"); (EVar "t2_abab"); (EVar "t2_abab")]));
   (*L4521*) SAug true "triples_res" (EAdd (EScale (1 # 1) (EVar "contracted_intermediate")) (EScale (-1 # 1) (EEins "abcijk->abcikj" [(EVar "contracted_intermediate")])));
   (*L4524*) SAssign "contracted_intermediate" (EScale (1 # 2) (EEins "lmed,dk,ebij,aclm->abcijk" [(ESlice (EVar "g_abab") [SV "o"; SV "o"; SV "v"; SV "v"]); (EVar "t1_bb"); (EVar "t2_abab"); (EVar "t2_abab")]));
   (*L4525*) SAug true "triples_res" (EAdd (EScale (1 # 1) (EVar "contracted_intermediate")) (EScale (-1 # 1) (EEins "abcijk->abcikj" [(EVar "contracted_intermediate")])));
   (*L4528*) SAug true "triples_res" (EScale (1 # 1) (EEins "lmed,dk,eclj,abim->abcijk" [(ESlice (EVar "g_abab") [SV "o"; SV "o"; SV "v"; SV "v"]); (EVar "t1_bb"); (EVar "t2_abab"); (EVar "t2_abab")]));
   (*L4531*) SAug true "triples_res" (EScale (-1 # 1) (EEins "mlde,dk,ecjl,abim->abcijk" [(ESlice (EVar "g_bbbb") [SV "o"; SV "o"; SV "v"; SV "v"]); (EVar "t1_bb"); (EVar "t2_bbbb"); (EVar "t2_abab")]));
   (*L4534*) SAug true "triples_res" (EScale (1 # 1) (EEins "mled,dk,ecil,abmj->abcijk" [(ESlice (EVar "g_abab") [SV "o"; SV "o"; SV "v"; SV "v"]); (EVar "t1_bb"); (EVar "t2_abab"); (EVar "t2_abab")]));
   (*L4537*) SAssign "contracted_intermediate" (EScale (-1 # 2) (EEins "mled,dk,ecij,abml->abcijk" [(ESlice (EVar "g_abab") [SV "o"; SV "o"; SV "v"; SV "v"]); (EVar "t1_bb"); (EVar "t2_abab"); (EVar "t2_abab")]));
   (*L4538*) SAug true "triples_res" (EAdd (EScale (1 # 1) (EVar "contracted_intermediate")) (EScale (-1 # 1) (EEins "abcijk->abcikj" [(EVar "contracted_intermediate")])));
   (*L4541*) SAssign "contracted_intermediate" (EScale (-1 # 2) (EEins "lmed,dk,ecij,ablm->abcijk" [(ESlice (EVar "g_abab") [SV "o"; SV "o"; SV "v"; SV "v"]); (EVar "t1_bb"); (EVar "t2_abab"); (EVar "t2_abab")]));
   (*L4542*) SAug true "triples_res" (EAdd (EScale (1 # 1) (EVar "contracted_intermediate")) (EScale (-1 # 1) (EEins "abcijk->abcikj" [(EVar "contracted_intermediate")])));
   (*L4545*) SAug true "triples_res" (EScale (1 # 1) (EEins "lmed,dj,eblk,acim->abcijk" [(ESlice (EVar "g_abab") [SV "o"; SV "o"; SV "v"; SV "v"]); (EVar "t1_bb"); (EVar "t2_abab"); (EVar "t2_abab")]));
   (*L4548*) SAug true "triples_res" (EScale (-1 # 1) (EEins "mlde,dj,ebkl,acim->abcijk" [(ESlice (EVar "g_bbbb") [SV "o"; SV "o"; SV "v"; SV "v"]); (EVar "t1_bb"); (EVar "t2_bbbb"); (EVar "t2_abab")]));
   (*L4551*) SAug true "triples_res" (EScale (-1 # 1) (EEins "lmed,dj,eail,bckm->abcijk" [(ESlice (EVar "g_abab") [SV "o"; SV "o"; SV "v"; SV "v"]); (EVar "t1_bb"); (EVar "t2_aaaa"); (EVar "t2_bbbb")]));
   (*L4554*) SAug true "triples_res" (EScale (1 # 1) (EEins "mlde,dj,aeil,bckm->abcijk" [(ESlice (EVar "g_bbbb") [SV "o"; SV "o"; SV "v"; SV "v"]); (EVar "t1_bb"); (EVar "t2_abab"); (EVar "t2_bbbb")]));
   (*L4557*) SAug true "triples_res" (EScale (1 # 1) (EEins "mled,dj,ebil,acmk->abcijk" [(ESlice (EVar "g_abab") [SV "o"; SV "o"; SV "v"; SV "v"]); (EVar "t1_bb"); (EVar "t2_abab"); (EVar "t2_abab")]));
   (*L4560*) SAug true "triples_res" (EScale (-1 # 1) (EEins "lmed,dj,eclk,abim->abcijk" [(ESlice (EVar "g_abab") [SV "o"; SV "o"; SV "v"; SV "v"]); (EVar "t1_bb"); (EVar "t2_abab"); (EVar "t2_abab")]));
   (*L4563*) SAug true "triples_res" (EScale (1 # 1) (EEins "mlde,dj,eckl,abim->abcijk" [(ESlice (EVar "g_bbbb") [SV "o"; SV "o"; SV "v"; SV "v"]); (EVar "t1_bb"); (EVar "t2_bbbb"); (EVar "t2_abab")]));
   (*L4566*) SAug true "triples_res" (EScale (-1 # 1) (EEins "mled,dj,ecil,abmk->abcijk" [(ESlice (EVar "g_abab") [SV "o"; SV "o"; SV "v"; SV "v"]); (EVar "t1_bb"); (EVar "t2_abab"); (EVar "t2_abab")]));
   (*L4569*) SAssign "contracted_intermediate" (EScale (1 # 1) (EEins "lmde,di,aelk,bcjm->abcijk" [(ESlice (EVar "g_abab") [SV "o"; SV "o"; SV "v"; SV "v"]); (EVar "t1_aa"); (EVar "t2_abab"); (EVar "t2_bbbb")]));
   (*L4570*) SAug true "triples_res" (EAdd (EScale (1 # 1) (EVar "contracted_intermediate")) (EScale (-1 # 1) (EEins "abcijk->abcikj" [(EVar "contracted_intermediate")])));
   (*L4573*) SAssign "contracted_intermediate" (EScale (1 # 1) (EEins "mlde,di,eblk,acmj->abcijk" [(ESlice (EVar "g_aaaa") [SV "o"; SV "o"; SV "v"; SV "v"]); (EVar "t1_aa"); (EVar "t2_abab"); (EVar "t2_abab")]));
   (*L4574*) SAug true "triples_res" (EAdd (EScale (1 # 1) (EVar "contracted_intermediate")) (EScale (-1 # 1) (EEins "abcijk->abcikj" [(EVar "contracted_intermediate")])));
   (*L4577*) SAssign "contracted_intermediate" (EScale (-1 # 1) (EEins "mlde,di,ebkl,acmj->abcijk" [(ESlice (EVar "g_abab") [SV "o"; SV "o"; SV "v"; SV "v"]); (EVar "t1_aa"); (EVar "t2_bbbb"); (EVar "t2_abab")]));
   (*L4578*) SAug true "triples_res" (EAdd (EScale (1 # 1) (EVar "contracted_intermediate")) (EScale (-1 # 1) (EEins "abcijk->abcikj" [(EVar "contracted_intermediate")])));
   (*L4581*) SAug true "triples_res" (EScale (-1 # 2) (EEins "mlde,di,ebjk,acml->abcijk" [(ESlice (EVar "g_abab") [SV "o"; SV "o"; SV "v"; SV "v"]); (EVar "t1_aa"); (EVar "t2_bbbb"); (EVar "t2_abab")]));
   (*L4584*) SAug true "triples_res" (EScale (-1 # 2) (EEins "lmde,di,ebjk,aclm->abcijk" [(ESlice (EVar "g_abab") [SV "o"; SV "o"; SV "v"; SV "v"]); (EVar "t1_aa"); (EVar "t2_bbbb"); (EVar "t2_abab")]));
   (*L4587*) SAssign "contracted_intermediate" (EScale (-1 # 1) (EEins "mlde,di,eclk,abmj->abcijk" [(ESlice (EVar "g_aaaa") [SV "o"; SV "o"; SV "v"; SV "v"]); (EVar "t1_aa"); (EVar "t2_abab"); (EVar "t2_abab")]));
   (*L4588*) SAug true "triples_res" (EAdd (EScale (1 # 1) (EVar "contracted_intermediate")) (EScale (-1 # 1) (EEins "abcijk->abcikj" [(EVar "contracted_intermediate")])));
   (*L4591*) SAssign "contracted_intermediate" (EScale (1 # 1) (EEins "mlde,di,eckl,abmj->abcijk" [(ESlice (EVar "g_abab") [SV "o"; SV "o"; SV "v"; SV "v"]); (EVar "t1_aa"); (EVar "t2_bbbb"); (EVar "t2_abab")]));
   (*L4592*) SAug true "triples_res" (EAdd (EScale (1 # 1) (EVar "contracted_intermediate")) (EScale (-1 # 1) (EEins "abcijk->abcikj" [(EVar "contracted_intermediate")])));
   (*L4595*) SAug true "triples_res" (EScale (1 # 2) (EEins "mlde,di,ecjk,abml->abcijk" [(ESlice (EVar "g_abab") [SV "o"; SV "o"; SV "v"; SV "v"]); (EVar "t1_aa"); (EVar "t2_bbbb"); (EVar "t2_abab")]));
   (*L4598*) SAug true "triples_res" (EScale (1 # 2) (EEins "lmde,di,ecjk,ablm->abcijk" [(ESlice (EVar "g_abab") [SV "o"; SV "o"; SV "v"; SV "v"]); (EVar "t1_aa"); (EVar "t2_bbbb"); (EVar "t2_abab")]));
   (*L4601*) SAug true "triples_res" (EScale (-1 # 2) (EEins "mlde,bl,dejk,acim->abcijk" [(ESlice (EVar "g_bbbb") [SV "o"; SV "o"; SV "v"; SV "v"]); (EVar "t1_bb"); (EVar "t2_bbbb"); (EVar "t2_abab")]));
   (*L4604*) SAug true "triples_res" (EScale (1 # 2) (EEins "lmde,al,deik,bcjm->abcijk" [(ESlice (EVar "g_abab") [SV "o"; SV "o"; SV "v"; SV "v"]); (EVar "t1_aa"); (EVar "t2_abab"); (EVar "t2_bbbb")]));
   (*L4607*) SAug true "triples_res" (EScale (1 # 2) (EEins "lmed,al,edik,bcjm->abcijk" [(ESlice (EVar "g_abab") [SV "o"; SV "o"; SV "v"; SV "v"]); (EVar "t1_aa"); (EVar "t2_abab"); (EVar "t2_bbbb")]));
   (*L4610*) SAug true "triples_res" (EScale (-1 # 2) (EEins "mlde,bl,deik,acmj->abcijk" [(ESlice (EVar "g_abab") [SV "o"; SV "o"; SV "v"; SV "v"]); (EVar "t1_bb"); (EVar "t2_abab"); (EVar "t2_abab")]));
   (*L4613*) SAug true "triples_res" (EScale (-1 # 2) (EEins "mled,bl,edik,acmj->abcijk" [(ESlice (EVar "g_abab") [SV "o"; SV "o"; SV "v"; SV "v"]); (EVar "t1_bb"); (EVar "t2_abab"); (EVar "t2_abab")]));
   (*L4616*) SAug true "triples_res" (EScale (-1 # 2) (EEins "lmde,al,deij,bckm->abcijk" [(ESlice (EVar "g_abab") [SV "o"; SV "o"; SV "v"; SV "v"]); (EVar "t1_aa"); (EVar "t2_abab"); (EVar "t2_bbbb")]));
   (*L4619*) SAug true "triples_res" (EScale (-1 # 2) (EEins "lmed,al,edij,bckm->abcijk" [(ESlice (EVar "g_abab") [SV "o"; SV "o"; SV "v"; SV "v"]); (EVar "t1_aa"); (EVar "t2_abab"); (EVar "t2_bbbb")]));
   (*L4622*) SAug true "triples_res" (EScale (1 # 2) (EEins "mlde,bl,deij,acmk->abcijk" [(ESlice (EVar "g_abab") [SV "o"; SV "o"; SV "v"; SV "v"]); (EVar "t1_bb"); (EVar "t2_abab"); (EVar "t2_abab")]));
   (*L4625*) SAug true "triples_res" (EScale (1 # 2) (EEins "mled,bl,edij,acmk->abcijk" [(ESlice (EVar "g_abab") [SV "o"; SV "o"; SV "v"; SV "v"]); (EVar "t1_bb"); (EVar "t2_abab"); (EVar "t2_abab")]));
   (*L4628*) SAssign "contracted_intermediate" (EScale (1 # 1) (EEins "mlde,al,dbmk,ecij->abcijk" [(ESlice (EVar "g_aaaa") [SV "o"; SV "o"; SV "v"; SV "v"]); (EVar "t1_aa"); (EVar "t2_abab"); (EVar "t2_abab")]));
   (*L4629*) SAug true "triples_res" (EAdd (EScale (1 # 1) (EVar "contracted_intermediate")) (EScale (-1 # 1) (EEins "abcijk->abcikj" [(EVar "contracted_intermediate")])));
   (*L4632*) SAssign "contracted_intermediate" (EScale (-1 # 1) (EEins "lmed,al,dbkm,ecij->abcijk" [(ESlice (EVar "g_abab") [SV "o"; SV "o"; SV "v"; SV "v"]); (EVar "t1_aa"); (EVar "t2_bbbb"); (EVar "t2_abab")]));
   (*L4633*) SAug true "triples_res" (EAdd (EScale (1 # 1) (EVar "contracted_intermediate")) (EScale (-1 # 1) (EEins "abcijk->abcikj" [(EVar "contracted_intermediate")])));
   (*L4636*) SAssign "contracted_intermediate" (EScale (-1 # 1) (EEins "mled,bl,admk,ecij->abcijk" [(ESlice (EVar "g_abab") [SV "o"; SV "o"; SV "v"; SV "v"]); (EVar "t1_bb"); (EVar "t2_abab"); (EVar "t2_abab")]));
   (*L4637*) SAug true "triples_res" (EAdd (EScale (1 # 1) (EVar "contracted_intermediate")) (EScale (-1 # 1) (EEins "abcijk->abcikj" [(EVar "contracted_intermediate")])));
   (*L4640*) SAug true "triples_res" (EScale (1 # 1) (EEins "lmde,al,dbim,ecjk->abcijk" [(ESlice (EVar "g_abab") [SV "o"; SV "o"; SV "v"; SV "v"]); (EVar "t1_aa"); (EVar "t2_abab"); (EVar "t2_bbbb")]));
   (*L4643*) SAug true "triples_res" (EScale (1 # 1) (EEins "mlde,bl,daim,ecjk->abcijk" [(ESlice (EVar "g_abab") [SV "o"; SV "o"; SV "v"; SV "v"]); (EVar "t1_bb"); (EVar "t2_aaaa"); (EVar "t2_bbbb")]));
   (*L4646*) SAug true "triples_res" (EScale (-1 # 1) (EEins "mlde,bl,adim,ecjk->abcijk" [(ESlice (EVar "g_bbbb") [SV "o"; SV "o"; SV "v"; SV "v"]); (EVar "t1_bb"); (EVar "t2_abab"); (EVar "t2_bbbb")]));
   (*L4649*) SAug true "triples_res" (EScale (-1 # 1) (EEins "lmed,al,dbjk,ecim->abcijk" [(ESlice (EVar "g_abab") [SV "o"; SV "o"; SV "v"; SV "v"]); (EVar "t1_aa"); (EVar "t2_bbbb"); (EVar "t2_abab")]));
   (*L4652*) SAug true "triples_res" (EScale (-1 # 1) (EEins "mlde,al,dbik,ecmj->abcijk" [(ESlice (EVar "g_aaaa") [SV "o"; SV "o"; SV "v"; SV "v"]); (EVar "t1_aa"); (EVar "t2_abab"); (EVar "t2_abab")]));
   (*L4655*) SAug true "triples_res" (EScale (-1 # 1) (EEins "lmde,al,dbik,ecjm->abcijk" [(ESlice (EVar "g_abab") [SV "o"; SV "o"; SV "v"; SV "v"]); (EVar "t1_aa"); (EVar "t2_abab"); (EVar "t2_bbbb")]));
   (*L4658*) SAug true "triples_res" (EScale (1 # 1) (EEins "mled,bl,adik,ecmj->abcijk" [(ESlice (EVar "g_abab") [SV "o"; SV "o"; SV "v"; SV "v"]); (EVar "t1_bb"); (EVar "t2_abab"); (EVar "t2_abab")]));
   (*L4661*) SAug true "triples_res" (EScale (1 # 1) (EEins "mlde,bl,adik,ecjm->abcijk" [(ESlice (EVar "g_bbbb") [SV "o"; SV "o"; SV "v"; SV "v"]); (EVar "t1_bb"); (EVar "t2_abab"); (EVar "t2_bbbb")]));
   (*L4664*) SAug true "triples_res" (EScale (1 # 1) (EEins "mlde,al,dbij,ecmk->abcijk" [(ESlice (EVar "g_aaaa") [SV "o"; SV "o"; SV "v"; SV "v"]); (EVar "t1_aa"); (EVar "t2_abab"); (EVar "t2_abab")]));
   (*L4667*) SAug true "triples_res" (EScale (1 # 1) (EEins "lmde,al,dbij,eckm->abcijk" [(ESlice (EVar "g_abab") [SV "o"; SV "o"; SV "v"; SV "v"]); (EVar "t1_aa"); (EVar "t2_abab"); (EVar "t2_bbbb")]));
   (*L4670*) SAug true "triples_res" (EScale (-1 # 1) (EEins "mled,bl,adij,ecmk->abcijk" [(ESlice (EVar "g_abab") [SV "o"; SV "o"; SV "v"; SV "v"]); (EVar "t1_bb"); (EVar "t2_abab"); (EVar "t2_abab")]));
   (*L4673*) SAug true "triples_res" (EScale (-1 # 1) (EEins "mlde,bl,adij,eckm->abcijk" [(ESlice (EVar "g_bbbb") [SV "o"; SV "o"; SV "v"; SV "v"]); (EVar "t1_bb"); (EVar "t2_abab"); (EVar "t2_bbbb")]));
   (*L4676*) SAug true "triples_res" (EScale (1 # 2) (EEins "mlde,cl,dejk,abim->abcijk" [(ESlice (EVar "g_bbbb") [SV "o"; SV "o"; SV "v"; SV "v"]); (EVar "t1_bb"); (EVar "t2_bbbb"); (EVar "t2_abab")]));
   (*L4679*) SAug true "triples_res" (EScale (1 # 2) (EEins "mlde,cl,deik,abmj->abcijk" [(ESlice (EVar "g_abab") [SV "o"; SV "o"; SV "v"; SV "v"]); (EVar "t1_bb"); (EVar "t2_abab"); (EVar "t2_abab")]));
   (*L4682*) SAug true "triples_res" (EScale (1 # 2) (EEins "mled,cl,edik,abmj->abcijk" [(ESlice (EVar "g_abab") [SV "o"; SV "o"; SV "v"; SV "v"]); (EVar "t1_bb"); (EVar "t2_abab"); (EVar "t2_abab")]));
   (*L4685*) SAug true "triples_res" (EScale (-1 # 2) (EEins "mlde,cl,deij,abmk->abcijk" [(ESlice (EVar "g_abab") [SV "o"; SV "o"; SV "v"; SV "v"]); (EVar "t1_bb"); (EVar "t2_abab"); (EVar "t2_abab")]));
   (*L4688*) SAug true "triples_res" (EScale (-1 # 2) (EEins "mled,cl,edij,abmk->abcijk" [(ESlice (EVar "g_abab") [SV "o"; SV "o"; SV "v"; SV "v"]); (EVar "t1_bb"); (EVar "t2_abab"); (EVar "t2_abab")]));
   (*L4691*) SAssign "contracted_intermediate" (EScale (1 # 1) (EEins "mled,cl,admk,ebij->abcijk" [(ESlice (EVar "g_abab") [SV "o"; SV "o"; SV "v"; SV "v"]); (EVar "t1_bb"); (EVar "t2_abab"); (EVar "t2_abab")]));
   (*L4692*) SAug true "triples_res" (EAdd (EScale (1 # 1) (EVar "contracted_intermediate")) (EScale (-1 # 1) (EEins "abcijk->abcikj" [(EVar "contracted_intermediate")])));
   (*L4695*) SAug true "triples_res" (EScale (-1 # 1) (EEins "mlde,cl,daim,ebjk->abcijk" [(ESlice (EVar "g_abab") [SV "o"; SV "o"; SV "v"; SV "v"]); (EVar "t1_bb"); (EVar "t2_aaaa"); (EVar "t2_bbbb")]));
   (*L4698*) SAug true "triples_res" (EScale (1 # 1) (EEins "mlde,cl,adim,ebjk->abcijk" [(ESlice (EVar "g_bbbb") [SV "o"; SV "o"; SV "v"; SV "v"]); (EVar "t1_bb"); (EVar "t2_abab"); (EVar "t2_bbbb")]));
   (*L4701*) SAug true "triples_res" (EScale (-1 # 1) (EEins "mled,cl,adik,ebmj->abcijk" [(ESlice (EVar "g_abab") [SV "o"; SV "o"; SV "v"; SV "v"]); (EVar "t1_bb"); (EVar "t2_abab"); (EVar "t2_abab")]));
   (*L4704*) SAug true "triples_res" (EScale (-1 # 1) (EEins "mlde,cl,adik,ebjm->abcijk" [(ESlice (EVar "g_bbbb") [SV "o"; SV "o"; SV "v"; SV "v"]); (EVar "t1_bb"); (EVar "t2_abab"); (EVar "t2_bbbb")]));
   (*L4707*) SAug true "triples_res" (EScale (1 # 1) (EEins "mled,cl,adij,ebmk->abcijk" [(ESlice (EVar "g_abab") [SV "o"; SV "o"; SV "v"; SV "v"]); (EVar "t1_bb"); (EVar "t2_abab"); (EVar "t2_abab")]));
   (*L4710*) SAug true "triples_res" (EScale (1 # 1) (EEins "mlde,cl,adij,ebkm->abcijk" [(ESlice (EVar "g_bbbb") [SV "o"; SV "o"; SV "v"; SV "v"]); (EVar "t1_bb"); (EVar "t2_abab"); (EVar "t2_bbbb")]));
   (*L4713*) SAug true "triples_res" (EScale (-1 # 1) (EEins "mldk,dj,bl,acim->abcijk" [(ESlice (EVar "g_bbbb") [SV "o"; SV "o"; SV "v"; SV "o"]); (EVar "t1_bb"); (EVar "t1_bb"); (EVar "t2_abab")]));
   (*L4716*) SAug true "triples_res" (EScale (1 # 1) (EEins "lmdk,di,al,bcjm->abcijk" [(ESlice (EVar "g_abab") [SV "o"; SV "o"; SV "v"; SV "o"]); (EVar "t1_aa"); (EVar "t1_aa"); (EVar "t2_bbbb")]));
   (*L4719*) SAug true "triples_res" (EScale (-1 # 1) (EEins "mldk,di,bl,acmj->abcijk" [(ESlice (EVar "g_abab") [SV "o"; SV "o"; SV "v"; SV "o"]); (EVar "t1_aa"); (EVar "t1_bb"); (EVar "t2_abab")]));
   (*L4722*) SAug true "triples_res" (EScale (1 # 1) (EEins "mldk,dj,cl,abim->abcijk" [(ESlice (EVar "g_bbbb") [SV "o"; SV "o"; SV "v"; SV "o"]); (EVar "t1_bb"); (EVar "t1_bb"); (EVar "t2_abab")]));
   (*L4725*) SAug true "triples_res" (EScale (1 # 1) (EEins "mldk,di,cl,abmj->abcijk" [(ESlice (EVar "g_abab") [SV "o"; SV "o"; SV "v"; SV "o"]); (EVar "t1_aa"); (EVar "t1_bb"); (EVar "t2_abab")]));
   (*L4728*) SAssign "contracted_intermediate" (EScale (-1 # 1) (EEins "lmdk,al,bm,dcij->abcijk" [(ESlice (EVar "g_abab") [SV "o"; SV "o"; SV "v"; SV "o"]); (EVar "t1_aa"); (EVar "t1_bb"); (EVar "t2_abab")]));
   (*L4729*) SAug true "triples_res" (EAdd (EAdd (EAdd (EScale (1 # 1) (EVar "contracted_intermediate")) (EScale (-1 # 1) (EEins "abcijk->abcikj" [(EVar "contracted_intermediate")]))) (EScale (-1 # 1) (EEins "abcijk->acbijk" [(EVar "contracted_intermediate")]))) (EScale (1 # 1) (EEins "abcijk->acbikj" [(EVar "contracted_intermediate")])));
   (*L4732*) SAssign "contracted_intermediate" (EScale (-1 # 1) (EEins "mldk,bl,cm,adij->abcijk" [(ESlice (EVar "g_bbbb") [SV "o"; SV "o"; SV "v"; SV "o"]); (EVar "t1_bb"); (EVar "t1_bb"); (EVar "t2_abab")]));
   (*L4733*) SAug true "triples_res" (EAdd (EScale (1 # 1) (EVar "contracted_intermediate")) (EScale (-1 # 1) (EEins "abcijk->abcikj" [(EVar "contracted_intermediate")])));
   (*L4736*) SAug true "triples_res" (EScale (1 # 1) (EEins "mldj,dk,bl,acim->abcijk" [(ESlice (EVar "g_bbbb") [SV "o"; SV "o"; SV "v"; SV "o"]); (EVar "t1_bb"); (EVar "t1_bb"); (EVar "t2_abab")]));
   (*L4739*) SAug true "triples_res" (EScale (-1 # 1) (EEins "lmdj,di,al,bckm->abcijk" [(ESlice (EVar "g_abab") [SV "o"; SV "o"; SV "v"; SV "o"]); (EVar "t1_aa"); (EVar "t1_aa"); (EVar "t2_bbbb")]));
   (*L4742*) SAug true "triples_res" (EScale (1 # 1) (EEins "mldj,di,bl,acmk->abcijk" [(ESlice (EVar "g_abab") [SV "o"; SV "o"; SV "v"; SV "o"]); (EVar "t1_aa"); (EVar "t1_bb"); (EVar "t2_abab")]));
   (*L4745*) SAug true "triples_res" (EScale (-1 # 1) (EEins "mldj,dk,cl,abim->abcijk" [(ESlice (EVar "g_bbbb") [SV "o"; SV "o"; SV "v"; SV "o"]); (EVar "t1_bb"); (EVar "t1_bb"); (EVar "t2_abab")]));
   (*L4748*) SAug true "triples_res" (EScale (-1 # 1) (EEins "mldj,di,cl,abmk->abcijk" [(ESlice (EVar "g_abab") [SV "o"; SV "o"; SV "v"; SV "o"]); (EVar "t1_aa"); (EVar "t1_bb"); (EVar "t2_abab")]));
   (*L4751*) SAssign "contracted_intermediate" (EScale (1 # 1) (EEins "lmid,dk,al,bcjm->abcijk" [(ESlice (EVar "g_abab") [SV "o"; SV "o"; SV "o"; SV "v"]); (EVar "t1_bb"); (EVar "t1_aa"); (EVar "t2_bbbb")]));
   (*L4752*) SAug true "triples_res" (EAdd (EScale (1 # 1) (EVar "contracted_intermediate")) (EScale (-1 # 1) (EEins "abcijk->abcikj" [(EVar "contracted_intermediate")])));
   (*L4755*) SAssign "contracted_intermediate" (EScale (-1 # 1) (EEins "mlid,dk,bl,acmj->abcijk" [(ESlice (EVar "g_abab") [SV "o"; SV "o"; SV "o"; SV "v"]); (EVar "t1_bb"); (EVar "t1_bb"); (EVar "t2_abab")]));
   (*L4756*) SAug true "triples_res" (EAdd (EScale (1 # 1) (EVar "contracted_intermediate")) (EScale (-1 # 1) (EEins "abcijk->abcikj" [(EVar "contracted_intermediate")])));
   (*L4759*) SAssign "contracted_intermediate" (EScale (1 # 1) (EEins "mlid,dk,cl,abmj->abcijk" [(ESlice (EVar "g_abab") [SV "o"; SV "o"; SV "o"; SV "v"]); (EVar "t1_bb"); (EVar "t1_bb"); (EVar "t2_abab")]));
   (*L4760*) SAug true "triples_res" (EAdd (EScale (1 # 1) (EVar "contracted_intermediate")) (EScale (-1 # 1) (EEins "abcijk->abcikj" [(EVar "contracted_intermediate")])));
   (*L4763*) SAssign "contracted_intermediate" (EScale (1 # 1) (EEins "lmid,al,bm,dcjk->abcijk" [(ESlice (EVar "g_abab") [SV "o"; SV "o"; SV "o"; SV "v"]); (EVar "t1_aa"); (EVar "t1_bb"); (EVar "t2_bbbb")]));
   (*L4764*) SAug true "triples_res" (EAdd (EScale (1 # 1) (EVar "contracted_intermediate")) (EScale (-1 # 1) (EEins "abcijk->acbijk" [(EVar "contracted_intermediate")])));
   (*L4767*) SAug true "triples_res" (EScale (-1 # 1) (EEins "lbde,dk,ej,acil->abcijk" [(ESlice (EVar "g_bbbb") [SV "o"; SV "v"; SV "v"; SV "v"]); (EVar "t1_bb"); (EVar "t1_bb"); (EVar "t2_abab")]));
   (*L4770*) SAug true "triples_res" (EScale (-1 # 1) (EEins "aled,dk,ei,bcjl->abcijk" [(ESlice (EVar "g_abab") [SV "v"; SV "o"; SV "v"; SV "v"]); (EVar "t1_bb"); (EVar "t1_aa"); (EVar "t2_bbbb")]));
   (*L4773*) SAug true "triples_res" (EScale (1 # 1) (EEins "lbed,dk,ei,aclj->abcijk" [(ESlice (EVar "g_abab") [SV "o"; SV "v"; SV "v"; SV "v"]); (EVar "t1_bb"); (EVar "t1_aa"); (EVar "t2_abab")]));
   (*L4776*) SAssign "contracted_intermediate" (EScale (1 # 1) (EEins "aled,dk,bl,ecij->abcijk" [(ESlice (EVar "g_abab") [SV "v"; SV "o"; SV "v"; SV "v"]); (EVar "t1_bb"); (EVar "t1_bb"); (EVar "t2_abab")]));
   (*L4777*) SAug true "triples_res" (EAdd (EAdd (EAdd (EScale (1 # 1) (EVar "contracted_intermediate")) (EScale (-1 # 1) (EEins "abcijk->abcikj" [(EVar "contracted_intermediate")]))) (EScale (-1 # 1) (EEins "abcijk->acbijk" [(EVar "contracted_intermediate")]))) (EScale (1 # 1) (EEins "abcijk->acbikj" [(EVar "contracted_intermediate")])));
   (*L4780*) SAug true "triples_res" (EScale (1 # 1) (EEins "aled,dj,ei,bckl->abcijk" [(ESlice (EVar "g_abab") [SV "v"; SV "o"; SV "v"; SV "v"]); (EVar "t1_bb"); (EVar "t1_aa"); (EVar "t2_bbbb")]));
   (*L4783*) SAug true "triples_res" (EScale (-1 # 1) (EEins "lbed,dj,ei,aclk->abcijk" [(ESlice (EVar "g_abab") [SV "o"; SV "v"; SV "v"; SV "v"]); (EVar "t1_bb"); (EVar "t1_aa"); (EVar "t2_abab")]));
   (*L4786*) SAssign "contracted_intermediate" (EScale (-1 # 1) (EEins "alde,di,bl,ecjk->abcijk" [(ESlice (EVar "g_abab") [SV "v"; SV "o"; SV "v"; SV "v"]); (EVar "t1_aa"); (EVar "t1_bb"); (EVar "t2_bbbb")]));
   (*L4787*) SAug true "triples_res" (EAdd (EScale (1 # 1) (EVar "contracted_intermediate")) (EScale (-1 # 1) (EEins "abcijk->acbijk" [(EVar "contracted_intermediate")])));
   (*L4790*) SAssign "contracted_intermediate" (EScale (1 # 1) (EEins "lbed,dk,al,ecij->abcijk" [(ESlice (EVar "g_abab") [SV "o"; SV "v"; SV "v"; SV "v"]); (EVar "t1_bb"); (EVar "t1_aa"); (EVar "t2_abab")]));
   (*L4791*) SAug true "triples_res" (EAdd (EScale (1 # 1) (EVar "contracted_intermediate")) (EScale (-1 # 1) (EEins "abcijk->abcikj" [(EVar "contracted_intermediate")])));
   (*L4794*) SAssign "contracted_intermediate" (EScale (-1 # 1) (EEins "lbde,dk,cl,aeij->abcijk" [(ESlice (EVar "g_bbbb") [SV "o"; SV "v"; SV "v"; SV "v"]); (EVar "t1_bb"); (EVar "t1_bb"); (EVar "t2_abab")]));
   (*L4795*) SAug true "triples_res" (EAdd (EScale (1 # 1) (EVar "contracted_intermediate")) (EScale (-1 # 1) (EEins "abcijk->abcikj" [(EVar "contracted_intermediate")])));
   (*L4798*) SAug true "triples_res" (EScale (-1 # 1) (EEins "lbde,di,al,ecjk->abcijk" [(ESlice (EVar "g_abab") [SV "o"; SV "v"; SV "v"; SV "v"]); (EVar "t1_aa"); (EVar "t1_aa"); (EVar "t2_bbbb")]));
   (*L4801*) SAug true "triples_res" (EScale (1 # 1) (EEins "lcde,dk,ej,abil->abcijk" [(ESlice (EVar "g_bbbb") [SV "o"; SV "v"; SV "v"; SV "v"]); (EVar "t1_bb"); (EVar "t1_bb"); (EVar "t2_abab")]));
   (*L4804*) SAug true "triples_res" (EScale (-1 # 1) (EEins "lced,dk,ei,ablj->abcijk" [(ESlice (EVar "g_abab") [SV "o"; SV "v"; SV "v"; SV "v"]); (EVar "t1_bb"); (EVar "t1_aa"); (EVar "t2_abab")]));
   (*L4807*) SAssign "contracted_intermediate" (EScale (-1 # 1) (EEins "lced,dk,al,ebij->abcijk" [(ESlice (EVar "g_abab") [SV "o"; SV "v"; SV "v"; SV "v"]); (EVar "t1_bb"); (EVar "t1_aa"); (EVar "t2_abab")]));
   (*L4808*) SAug true "triples_res" (EAdd (EScale (1 # 1) (EVar "contracted_intermediate")) (EScale (-1 # 1) (EEins "abcijk->abcikj" [(EVar "contracted_intermediate")])));
   (*L4811*) SAssign "contracted_intermediate" (EScale (1 # 1) (EEins "lcde,dk,bl,aeij->abcijk" [(ESlice (EVar "g_bbbb") [SV "o"; SV "v"; SV "v"; SV "v"]); (EVar "t1_bb"); (EVar "t1_bb"); (EVar "t2_abab")]));
   (*L4812*) SAug true "triples_res" (EAdd (EScale (1 # 1) (EVar "contracted_intermediate")) (EScale (-1 # 1) (EEins "abcijk->abcikj" [(EVar "contracted_intermediate")])));
   (*L4815*) SAug true "triples_res" (EScale (1 # 1) (EEins "lced,dj,ei,ablk->abcijk" [(ESlice (EVar "g_abab") [SV "o"; SV "v"; SV "v"; SV "v"]); (EVar "t1_bb"); (EVar "t1_aa"); (EVar "t2_abab")]));
   (*L4818*) SAug true "triples_res" (EScale (1 # 1) (EEins "lcde,di,al,ebjk->abcijk" [(ESlice (EVar "g_abab") [SV "o"; SV "v"; SV "v"; SV "v"]); (EVar "t1_aa"); (EVar "t1_aa"); (EVar "t2_bbbb")]));
   (*L4821*) SAssign "contracted_intermediate" (EScale (-1 # 1) (EEins "lmde,dl,ek,abcijm->abcijk" [(ESlice (EVar "g_abab") [SV "o"; SV "o"; SV "v"; SV "v"]); (EVar "t1_aa"); (EVar "t1_bb"); (EVar "t3_abbabb")]));
   (*L4822*) SAug true "triples_res" (EAdd (EScale (1 # 1) (EVar "contracted_intermediate")) (EScale (-1 # 1) (EEins "abcijk->abcikj" [(EVar "contracted_intermediate")])));
   (*L4825*) SAssign "contracted_intermediate" (EScale (1 # 1) (EEins "mlde,dl,ek,abcijm->abcijk" [(ESlice (EVar "g_bbbb") [SV "o"; SV "o"; SV "v"; SV "v"]); (EVar "t1_bb"); (EVar "t1_bb"); (EVar "t3_abbabb")]));
   (*L4826*) SAug true "triples_res" (EAdd (EScale (1 # 1) (EVar "contracted_intermediate")) (EScale (-1 # 1) (EEins "abcijk->abcikj" [(EVar "contracted_intermediate")])));
   (*L4829*) SAug true "triples_res" (EScale (-1 # 1) (EEins "mlde,dl,ei,abcmkj->abcijk" [(ESlice (EVar "g_aaaa") [SV "o"; SV "o"; SV "v"; SV "v"]); (EVar "t1_aa"); (EVar "t1_aa"); (EVar "t3_abbabb")]));
   (*L4832*) SAug true "triples_res" (EScale (1 # 1) (EEins "mled,dl,ei,abcmkj->abcijk" [(ESlice (EVar "g_abab") [SV "o"; SV "o"; SV "v"; SV "v"]); (EVar "t1_bb"); (EVar "t1_aa"); (EVar "t3_abbabb")]));
   (*L4835*) SAug true "triples_res" (EScale (1 # 1) (EEins "mlde,dl,am,ebcijk->abcijk" [(ESlice (EVar "g_aaaa") [SV "o"; SV "o"; SV "v"; SV "v"]); (EVar "t1_aa"); (EVar "t1_aa"); (EVar "t3_abbabb")]));
   (*L4838*) SAug true "triples_res" (EScale (-1 # 1) (EEins "mled,dl,am,ebcijk->abcijk" [(ESlice (EVar "g_abab") [SV "o"; SV "o"; SV "v"; SV "v"]); (EVar "t1_bb"); (EVar "t1_aa"); (EVar "t3_abbabb")]));
   (*L4841*) SAug true "triples_res" (EScale (-1 # 1) (EEins "lmde,dl,bm,aecijk->abcijk" [(ESlice (EVar "g_abab") [SV "o"; SV "o"; SV "v"; SV "v"]); (EVar "t1_aa"); (EVar "t1_bb"); (EVar "t3_abbabb")]));
   (*L4844*) SAug true "triples_res" (EScale (1 # 1) (EEins "mlde,dl,bm,aecijk->abcijk" [(ESlice (EVar "g_bbbb") [SV "o"; SV "o"; SV "v"; SV "v"]); (EVar "t1_bb"); (EVar "t1_bb"); (EVar "t3_abbabb")]));
   (*L4847*) SAug true "triples_res" (EScale (1 # 1) (EEins "lmde,dl,cm,aebijk->abcijk" [(ESlice (EVar "g_abab") [SV "o"; SV "o"; SV "v"; SV "v"]); (EVar "t1_aa"); (EVar "t1_bb"); (EVar "t3_abbabb")]));
   (*L4850*) SAug true "triples_res" (EScale (-1 # 1) (EEins "mlde,dl,cm,aebijk->abcijk" [(ESlice (EVar "g_bbbb") [SV "o"; SV "o"; SV "v"; SV "v"]); (EVar "t1_bb"); (EVar "t1_bb"); (EVar "t3_abbabb")]));
   (*L4853*) SAug true "triples_res" (EScale (-1 # 2) (EEins "mlde,dk,ej,abciml->abcijk" [(ESlice (EVar "g_bbbb") [SV "o"; SV "o"; SV "v"; SV "v"]); (EVar "t1_bb"); (EVar "t1_bb"); (EVar "t3_abbabb")]));
   (*L4856*) SAug true "triples_res" (EScale (1 # 2) (EEins "mled,dk,ei,abcmjl->abcijk" [(ESlice (EVar "g_abab") [SV "o"; SV "o"; SV "v"; SV "v"]); (EVar "t1_bb"); (EVar "t1_aa"); (EVar "t3_abbabb")]));
   (*L4859*) SAug true "triples_res" (EScale (-1 # 2) (EEins "lmed,dk,ei,abclmj->abcijk" [(ESlice (EVar "g_abab") [SV "o"; SV "o"; SV "v"; SV "v"]); (EVar "t1_bb"); (EVar "t1_aa"); (EVar "t3_abbabb")]));
   (*L4862*) SAssign "contracted_intermediate" (EScale (1 # 1) (EEins "lmed,dk,al,ebcijm->abcijk" [(ESlice (EVar "g_abab") [SV "o"; SV "o"; SV "v"; SV "v"]); (EVar "t1_bb"); (EVar "t1_aa"); (EVar "t3_abbabb")]));
   (*L4863*) SAug true "triples_res" (EAdd (EScale (1 # 1) (EVar "contracted_intermediate")) (EScale (-1 # 1) (EEins "abcijk->abcikj" [(EVar "contracted_intermediate")])));
   (*L4866*) SAssign "contracted_intermediate" (EScale (-1 # 1) (EEins "mled,dk,bl,eacimj->abcijk" [(ESlice (EVar "g_abab") [SV "o"; SV "o"; SV "v"; SV "v"]); (EVar "t1_bb"); (EVar "t1_bb"); (EVar "t3_aabaab")]));
   (*L4867*) SAug true "triples_res" (EAdd (EScale (1 # 1) (EVar "contracted_intermediate")) (EScale (-1 # 1) (EEins "abcijk->abcikj" [(EVar "contracted_intermediate")])));
   (*L4870*) SAssign "contracted_intermediate" (EScale (1 # 1) (EEins "mlde,dk,bl,aecijm->abcijk" [(ESlice (EVar "g_bbbb") [SV "o"; SV "o"; SV "v"; SV "v"]); (EVar "t1_bb"); (EVar "t1_bb"); (EVar "t3_abbabb")]));
   (*L4871*) SAug true "triples_res" (EAdd (EScale (1 # 1) (EVar "contracted_intermediate")) (EScale (-1 # 1) (EEins "abcijk->abcikj" [(EVar "contracted_intermediate")])));
   (*L4874*) SAssign "contracted_intermediate" (EScale (1 # 1) (EEins "mled,dk,cl,eabimj->abcijk" [(ESlice (EVar "g_abab") [SV "o"; SV "o"; SV "v"; SV "v"]); (EVar "t1_bb"); (EVar "t1_bb"); (EVar "t3_aabaab")]));
   (*L4875*) SAug true "triples_res" (EAdd (EScale (1 # 1) (EVar "contracted_intermediate")) (EScale (-1 # 1) (EEins "abcijk->abcikj" [(EVar "contracted_intermediate")])));
   (*L4878*) SAssign "contracted_intermediate" (EScale (-1 # 1) (EEins "mlde,dk,cl,aebijm->abcijk" [(ESlice (EVar "g_bbbb") [SV "o"; SV "o"; SV "v"; SV "v"]); (EVar "t1_bb"); (EVar "t1_bb"); (EVar "t3_abbabb")]));
   (*L4879*) SAug true "triples_res" (EAdd (EScale (1 # 1) (EVar "contracted_intermediate")) (EScale (-1 # 1) (EEins "abcijk->abcikj" [(EVar "contracted_intermediate")])));
   (*L4882*) SAug true "triples_res" (EScale (-1 # 2) (EEins "mled,dj,ei,abcmkl->abcijk" [(ESlice (EVar "g_abab") [SV "o"; SV "o"; SV "v"; SV "v"]); (EVar "t1_bb"); (EVar "t1_aa"); (EVar "t3_abbabb")]));
   (*L4885*) SAug true "triples_res" (EScale (1 # 2) (EEins "lmed,dj,ei,abclmk->abcijk" [(ESlice (EVar "g_abab") [SV "o"; SV "o"; SV "v"; SV "v"]); (EVar "t1_bb"); (EVar "t1_aa"); (EVar "t3_abbabb")]));
   (*L4888*) SAug true "triples_res" (EScale (-1 # 1) (EEins "mlde,di,al,ebcmkj->abcijk" [(ESlice (EVar "g_aaaa") [SV "o"; SV "o"; SV "v"; SV "v"]); (EVar "t1_aa"); (EVar "t1_aa"); (EVar "t3_abbabb")]));
   (*L4891*) SAug true "triples_res" (EScale (-1 # 1) (EEins "lmde,di,al,ebcjkm->abcijk" [(ESlice (EVar "g_abab") [SV "o"; SV "o"; SV "v"; SV "v"]); (EVar "t1_aa"); (EVar "t1_aa"); (EVar "t3_bbbbbb")]));
   (*L4894*) SAug true "triples_res" (EScale (-1 # 1) (EEins "mlde,di,bl,aecmkj->abcijk" [(ESlice (EVar "g_abab") [SV "o"; SV "o"; SV "v"; SV "v"]); (EVar "t1_aa"); (EVar "t1_bb"); (EVar "t3_abbabb")]));
   (*L4897*) SAug true "triples_res" (EScale (1 # 1) (EEins "mlde,di,cl,aebmkj->abcijk" [(ESlice (EVar "g_abab") [SV "o"; SV "o"; SV "v"; SV "v"]); (EVar "t1_aa"); (EVar "t1_bb"); (EVar "t3_abbabb")]));
   (*L4900*) SAssign "contracted_intermediate" (EScale (1 # 2) (EEins "lmde,al,bm,decijk->abcijk" [(ESlice (EVar "g_abab") [SV "o"; SV "o"; SV "v"; SV "v"]); (EVar "t1_aa"); (EVar "t1_bb"); (EVar "t3_abbabb")]));
   (*L4901*) SAug true "triples_res" (EAdd (EScale (1 # 1) (EVar "contracted_intermediate")) (EScale (-1 # 1) (EEins "abcijk->acbijk" [(EVar "contracted_intermediate")])));
   (*L4904*) SAssign "contracted_intermediate" (EScale (1 # 2) (EEins "lmed,al,bm,edcijk->abcijk" [(ESlice (EVar "g_abab") [SV "o"; SV "o"; SV "v"; SV "v"]); (EVar "t1_aa"); (EVar "t1_bb"); (EVar "t3_abbabb")]));
   (*L4905*) SAug true "triples_res" (EAdd (EScale (1 # 1) (EVar "contracted_intermediate")) (EScale (-1 # 1) (EEins "abcijk->acbijk" [(EVar "contracted_intermediate")])));
   (*L4908*) SAug true "triples_res" (EScale (1 # 2) (EEins "mlde,bl,cm,aedijk->abcijk" [(ESlice (EVar "g_bbbb") [SV "o"; SV "o"; SV "v"; SV "v"]); (EVar "t1_bb"); (EVar "t1_bb"); (EVar "t3_abbabb")]));
   (*L4911*) SAug true "triples_res" (EScale (1 # 1) (EEins "mlde,dk,ej,bl,acim->abcijk" [(ESlice (EVar "g_bbbb") [SV "o"; SV "o"; SV "v"; SV "v"]); (EVar "t1_bb"); (EVar "t1_bb"); (EVar "t1_bb"); (EVar "t2_abab")]));
   (*L4914*) SAug true "triples_res" (EScale (1 # 1) (EEins "lmed,dk,ei,al,bcjm->abcijk" [(ESlice (EVar "g_abab") [SV "o"; SV "o"; SV "v"; SV "v"]); (EVar "t1_bb"); (EVar "t1_aa"); (EVar "t1_aa"); (EVar "t2_bbbb")]));
   (*L4917*) SAug true "triples_res" (EScale (-1 # 1) (EEins "mled,dk,ei,bl,acmj->abcijk" [(ESlice (EVar "g_abab") [SV "o"; SV "o"; SV "v"; SV "v"]); (EVar "t1_bb"); (EVar "t1_aa"); (EVar "t1_bb"); (EVar "t2_abab")]));
   (*L4920*) SAug true "triples_res" (EScale (-1 # 1) (EEins "mlde,dk,ej,cl,abim->abcijk" [(ESlice (EVar "g_bbbb") [SV "o"; SV "o"; SV "v"; SV "v"]); (EVar "t1_bb"); (EVar "t1_bb"); (EVar "t1_bb"); (EVar "t2_abab")]));
   (*L4923*) SAug true "triples_res" (EScale (1 # 1) (EEins "mled,dk,ei,cl,abmj->abcijk" [(ESlice (EVar "g_abab") [SV "o"; SV "o"; SV "v"; SV "v"]); (EVar "t1_bb"); (EVar "t1_aa"); (EVar "t1_bb"); (EVar "t2_abab")]));
   (*L4926*) SAssign "contracted_intermediate" (EScale (-1 # 1) (EEins "lmed,dk,al,bm,ecij->abcijk" [(ESlice (EVar "g_abab") [SV "o"; SV "o"; SV "v"; SV "v"]); (EVar "t1_bb"); (EVar "t1_aa"); (EVar "t1_bb"); (EVar "t2_abab")]));
   (*L4927*) SAug true "triples_res" (EAdd (EAdd (EAdd (EScale (1 # 1) (EVar "contracted_intermediate")) (EScale (-1 # 1) (EEins "abcijk->abcikj" [(EVar "contracted_intermediate")]))) (EScale (-1 # 1) (EEins "abcijk->acbijk" [(EVar "contracted_intermediate")]))) (EScale (1 # 1) (EEins "abcijk->acbikj" [(EVar "contracted_intermediate")])));
   (*L4930*) SAssign "contracted_intermediate" (EScale (1 # 1) (EEins "mlde,dk,bl,cm,aeij->abcijk" [(ESlice (EVar "g_bbbb") [SV "o"; SV "o"; SV "v"; SV "v"]); (EVar "t1_bb"); (EVar "t1_bb"); (EVar "t1_bb"); (EVar "t2_abab")]));
   (*L4931*) SAug true "triples_res" (EAdd (EScale (1 # 1) (EVar "contracted_intermediate")) (EScale (-1 # 1) (EEins "abcijk->abcikj" [(EVar "contracted_intermediate")])));
   (*L4934*) SAug true "triples_res" (EScale (-1 # 1) (EEins "lmed,dj,ei,al,bckm->abcijk" [(ESlice (EVar "g_abab") [SV "o"; SV "o"; SV "v"; SV "v"]); (EVar "t1_bb"); (EVar "t1_aa"); (EVar "t1_aa"); (EVar "t2_bbbb")]));
   (*L4937*) SAug true "triples_res" (EScale (1 # 1) (EEins "mled,dj,ei,bl,acmk->abcijk" [(ESlice (EVar "g_abab") [SV "o"; SV "o"; SV "v"; SV "v"]); (EVar "t1_bb"); (EVar "t1_aa"); (EVar "t1_bb"); (EVar "t2_abab")]));
   (*L4940*) SAug true "triples_res" (EScale (-1 # 1) (EEins "mled,dj,ei,cl,abmk->abcijk" [(ESlice (EVar "g_abab") [SV "o"; SV "o"; SV "v"; SV "v"]); (EVar "t1_bb"); (EVar "t1_aa"); (EVar "t1_bb"); (EVar "t2_abab")]));
   (*L4943*) SAssign "contracted_intermediate" (EScale (1 # 1) (EEins "lmde,di,al,bm,ecjk->abcijk" [(ESlice (EVar "g_abab") [SV "o"; SV "o"; SV "v"; SV "v"]); (EVar "t1_aa"); (EVar "t1_aa"); (EVar "t1_bb"); (EVar "t2_bbbb")]));
   (*L4944*) SAug true "triples_res" (EAdd (EScale (1 # 1) (EVar "contracted_intermediate")) (EScale (-1 # 1) (EEins "abcijk->acbijk" [(EVar "contracted_intermediate")])))]
  (*L4946*) (EVar "triples_res").

(** /repo/UT2/fullCCresidEqns.py:4949-5955  def ccsdt_t3_bbbbbb_residual *)
Definition ccsdt_t3_bbbbbb_residual : fn := mkFn
  ["t1_aa"; "t1_bb"; "t2_aaaa"; "t2_bbbb"; "t2_abab"; "t3_aaaaaa"; "t3_aabaab"; "t3_abbabb"; "t3_bbbbbb"; "f_aa"; "f_bb"; "g_aaaa"; "g_bbbb"; "g_abab"; "oa"; "ob"; "va"; "vb"]
  [(*L4953*) SAssign "o" (EVar "oa");
   (*L4954*) SAssign "v" (EVar "va");
   (*L4957*) SAssign "contracted_intermediate" (EScale (-1 # 1) (EEins "lk,abcijl->abcijk" [(ESlice (EVar "f_bb") [SV "o"; SV "o"]); (EVar "t3_bbbbbb")]));
   (*L4958*) SAssign "triples_res" (EAdd (EScale (1 # 1) (EVar "contracted_intermediate")) (EScale (-1 # 1) (EEins "abcijk->abcikj" [(EVar "contracted_intermediate")])));
   (*L4961*) SAug true "triples_res" (EScale (-1 # 1) (EEins "li,abcjkl->abcijk" [(ESlice (EVar "f_bb") [SV "o"; SV "o"]); (EVar "t3_bbbbbb")]));
   (*L4964*) SAssign "contracted_intermediate" (EScale (1 # 1) (EEins "ad,dbcijk->abcijk" [(ESlice (EVar "f_bb") [SV "v"; SV "v"]); (EVar "t3_bbbbbb")]));
   (*L4965*) SAug true "triples_res" (EAdd (EScale (1 # 1) (EVar "contracted_intermediate")) (EScale (-1 # 1) (EEins "abcijk->bacijk" [(EVar "contracted_intermediate")])));
   (*L4968*) SAug true "triples_res" (EScale (1 # 1) (EEins "cd,dabijk->abcijk" [(ESlice (EVar "f_bb") [SV "v"; SV "v"]); (EVar "t3_bbbbbb")]));
   (*L4971*) SAssign "contracted_intermediate" (EScale (-1 # 1) (EEins "ld,dk,abcijl->abcijk" [(ESlice (EVar "f_bb") [SV "o"; SV "v"]); (EVar "t1_bb"); (EVar "t3_bbbbbb")]));
   (*L4972*) SAug true "triples_res" (EAdd (EScale (1 # 1) (EVar "contracted_intermediate")) (EScale (-1 # 1) (EEins "abcijk->abcikj" [(EVar "contracted_intermediate")])));
   (*L4975*) SAug true "triples_res" (EScale (-1 # 1) (EEins "ld,di,abcjkl->abcijk" [(ESlice (EVar "f_bb") [SV "o"; SV "v"]); (EVar "t1_bb"); (EVar "t3_bbbbbb")]));
   (*L4978*) SAssign "contracted_intermediate" (EScale (-1 # 1) (EEins "ld,al,dbcijk->abcijk" [(ESlice (EVar "f_bb") [SV "o"; SV "v"]); (EVar "t1_bb"); (EVar "t3_bbbbbb")]));
   (*L4979*) SAug true "triples_res" (EAdd (EScale (1 # 1) (EVar "contracted_intermediate")) (EScale (-1 # 1) (EEins "abcijk->bacijk" [(EVar "contracted_intermediate")])));
   (*L4982*) SAug true "triples_res" (EScale (-1 # 1) (EEins "ld,cl,dabijk->abcijk" [(ESlice (EVar "f_bb") [SV "o"; SV "v"]); (EVar "t1_bb"); (EVar "t3_bbbbbb")]));
   (*L4985*) SAssign "contracted_intermediate" (EScale (-1 # 1) (EEins "ld,dajk,bcil->abcijk" [(ESlice (EVar "f_bb") [SV "o"; SV "v"]); (EVar "t2_bbbb"); (EVar "t2_bbbb")]));
   (*L4986*) SAug true "triples_res" (EAdd (EAdd (EAdd (EScale (1 # 1) (EVar "contracted_intermediate")) (EScale (-1 # 1) (EEins "abcijk->abcjik" [(EVar "contracted_intermediate")]))) (EScale (-1 # 1) (EEins "abcijk->bacijk" [(EVar "contracted_intermediate")]))) (EScale (1 # 1) (EEins "abcijk->bacjik" [(EVar "contracted_intermediate")])));
   (*L4989*) SAssign "contracted_intermediate" (EScale (-1 # 1) (EEins "ld,daij,bckl->abcijk" [(ESlice (EVar "f_bb") [SV "o"; SV "v"]); (EVar "t2_bbbb"); (EVar "t2_bbbb")]));
   (*L4990*) SAug true "triples_res" (EAdd (EScale (1 # 1) (EVar "contracted_intermediate")) (EScale (-1 # 1) (EEins "abcijk->bacijk" [(EVar "contracted_intermediate")])));
   (*L4993*) SAssign "contracted_intermediate" (EScale (-1 # 1) (EEins "ld,dcjk,abil->abcijk" [(ESlice (EVar "f_bb") [SV "o"; SV "v"]); (EVar "t2_bbbb"); (EVar "t2_bbbb")]));
   (*L4994*) SAug true "triples_res" (EAdd (EScale (1 # 1) (EVar "contracted_intermediate")) (EScale (-1 # 1) (EEins "abcijk->abcjik" [(EVar "contracted_intermediate")])));
   (*L4997*) SAug true "triples_res" (EScale (-1 # 1) (EEins "ld,dcij,abkl->abcijk" [(ESlice (EVar "f_bb") [SV "o"; SV "v"]); (EVar "t2_bbbb"); (EVar "t2_bbbb")]));
   (*L5000*) SAssign "contracted_intermediate" (EScale (-1 # 1) (EEins "lajk,bcil->abcijk" [(ESlice (EVar "g_bbbb") [SV "o"; SV "v"; SV "o"; SV "o"]); (EVar "t2_bbbb")]));
   (*L5001*) SAug true "triples_res" (EAdd (EAdd (EAdd (EScale (1 # 1) (EVar "contracted_intermediate")) (EScale (-1 # 1) (EEins "abcijk->abcjik" [(EVar "contracted_intermediate")]))) (EScale (-1 # 1) (EEins "abcijk->bacijk" [(EVar "contracted_intermediate")]))) (EScale (1 # 1) (EEins "abcijk->bacjik" [(EVar "contracted_intermediate")])));
   (*L5004*) SAssign "contracted_intermediate" (EScale (-1 # 1) (EEins "laij,bckl->abcijk" [(ESlice (EVar "g_bbbb") [SV "o"; SV "v"; SV "o"; SV "o"]); (EVar "t2_bbbb")]));
   (*L5005*) SAug true "triples_res" (EAdd (EScale (1 # 1) (EVar "contracted_intermediate")) (EScale (-1 # 1) (EEins "abcijk->bacijk" [(EVar "contracted_intermediate")])));
   (*L5008*) SAssign "contracted_intermediate" (EScale (-1 # 1) (EEins "lcjk,abil->abcijk" [(ESlice (EVar "g_bbbb") [SV "o"; SV "v"; SV "o"; SV "o"]); (EVar "t2_bbbb")]));
   (*L5009*) SAug true "triples_res" (EAdd (EScale (1 # 1) (EVar "contracted_intermediate")) (EScale (-1 # 1) (EEins "abcijk->abcjik" [(EVar "contracted_intermediate")])));
   (*L5012*) SAug true "triples_res" (EScale (-1 # 1) (EEins "lcij,abkl->abcijk" [(ESlice (EVar "g_bbbb") [SV "o"; SV "v"; SV "o"; SV "o"]); (EVar "t2_bbbb")]));
   (*L5015*) SAssign "contracted_intermediate" (EScale (-1 # 1) (EEins "abdk,dcij->abcijk" [(ESlice (EVar "g_bbbb") [SV "v"; SV "v"; SV "v"; SV "o"]); (EVar "t2_bbbb")]));
   (*L5016*) SAug true "triples_res" (EAdd (EAdd (EAdd (EScale (1 # 1) (EVar "contracted_intermediate")) (EScale (-1 # 1) (EEins "abcijk->abcikj" [(EVar "contracted_intermediate")]))) (EScale (-1 # 1) (EEins "abcijk->acbijk" [(EVar "contracted_intermediate")]))) (EScale (1 # 1) (EEins "abcijk->acbikj" [(EVar "contracted_intermediate")])));
   (*L5019*) SAssign "contracted_intermediate" (EScale (-1 # 1) (EEins "abdi,dcjk->abcijk" [(ESlice (EVar "g_bbbb") [SV "v"; SV "v"; SV "v"; SV "o"]); (EVar "t2_bbbb")]));
   (*L5020*) SAug true "triples_res" (EAdd (EScale (1 # 1) (EVar "contracted_intermediate")) (EScale (-1 # 1) (EEins "abcijk->acbijk" [(EVar "contracted_intermediate")])));
   (*L5023*) SAssign "contracted_intermediate" (EScale (-1 # 1) (EEins "bcdk,daij->abcijk" [(ESlice (EVar "g_bbbb") [SV "v"; SV "v"; SV "v"; SV "o"]); (EVar "t2_bbbb")]));
   (*L5024*) SAug true "triples_res" (EAdd (EScale (1 # 1) (EVar "contracted_intermediate")) (EScale (-1 # 1) (EEins "abcijk->abcikj" [(EVar "contracted_intermediate")])));
   (*L5027*) SAug true "triples_res" (EScale (-1 # 1) (EEins "bcdi,dajk->abcijk" [(ESlice (EVar "g_bbbb") [SV "v"; SV "v"; SV "v"; SV "o"]); (EVar "t2_bbbb")]));
   (*L5030*) SAssign "contracted_intermediate" (EScale (1 # 2) (EEins "mljk,abciml->abcijk" [(ESlice (EVar "g_bbbb") [SV "o"; SV "o"; SV "o"; SV "o"]); (EVar "t3_bbbbbb")]));
   (*L5031*) SAug true "triples_res" (EAdd (EScale (1 # 1) (EVar "contracted_intermediate")) (EScale (-1 # 1) (EEins "abcijk->abcjik" [(EVar "contracted_intermediate")])));
   (*L5034*) SAug true "triples_res" (EScale (1 # 2) (EEins "mlij,abckml->abcijk" [(ESlice (EVar "g_bbbb") [SV "o"; SV "o"; SV "o"; SV "o"]); (EVar "t3_bbbbbb")]));
   (*L5037*) SAssign "contracted_intermediate" (EScale (-1 # 1) (EEins "ladk,dbclji->abcijk" [(ESlice (EVar "g_abab") [SV "o"; SV "v"; SV "v"; SV "o"]); (EVar "t3_abbabb")]));
   (*L5038*) SAug true "triples_res" (EAdd (EAdd (EAdd (EScale (1 # 1) (EVar "contracted_intermediate")) (EScale (-1 # 1) (EEins "abcijk->abcikj" [(EVar "contracted_intermediate")]))) (EScale (-1 # 1) (EEins "abcijk->bacijk" [(EVar "contracted_intermediate")]))) (EScale (1 # 1) (EEins "abcijk->bacikj" [(EVar "contracted_intermediate")])));
   (*L5041*) SAssign "contracted_intermediate" (EScale (1 # 1) (EEins "ladk,dbcijl->abcijk" [(ESlice (EVar "g_bbbb") [SV "o"; SV "v"; SV "v"; SV "o"]); (EVar "t3_bbbbbb")]));
   (*L5042*) SAug true "triples_res" (EAdd (EAdd (EAdd (EScale (1 # 1) (EVar "contracted_intermediate")) (EScale (-1 # 1) (EEins "abcijk->abcikj" [(EVar "contracted_intermediate")]))) (EScale (-1 # 1) (EEins "abcijk->bacijk" [(EVar "contracted_intermediate")]))) (EScale (1 # 1) (EEins "abcijk->bacikj" [(EVar "contracted_intermediate")])));
   (*L5045*) SAssign "contracted_intermediate" (EScale (-1 # 1) (EEins "ladi,dbclkj->abcijk" [(ESlice (EVar "g_abab") [SV "o"; SV "v"; SV "v"; SV "o"]); (EVar "t3_abbabb")]));
   (*L5046*) SAug true "triples_res" (EAdd (EScale (1 # 1) (EVar "contracted_intermediate")) (EScale (-1 # 1) (EEins "abcijk->bacijk" [(EVar "contracted_intermediate")])));
   (*L5049*) SAssign "contracted_intermediate" (EScale (1 # 1) (EEins "ladi,dbcjkl->abcijk" [(ESlice (EVar "g_bbbb") [SV "o"; SV "v"; SV "v"; SV "o"]); (EVar "t3_bbbbbb")]));
   (*L5050*) SAug true "triples_res" (EAdd (EScale (1 # 1) (EVar "contracted_intermediate")) (EScale (-1 # 1) (EEins "abcijk->bacijk" [(EVar "contracted_intermediate")])));
   (*L5053*) SAssign "contracted_intermediate" (EScale (-1 # 1) (EEins "lcdk,dablji->abcijk" [(ESlice (EVar "g_abab") [SV "o"; SV "v"; SV "v"; SV "o"]); (EVar "t3_abbabb")]));
   (*L5054*) SAug true "triples_res" (EAdd (EScale (1 # 1) (EVar "contracted_intermediate")) (EScale (-1 # 1) (EEins "abcijk->abcikj" [(EVar "contracted_intermediate")])));
   (*L5057*) SAssign "contracted_intermediate" (EScale (1 # 1) (EEins "lcdk,dabijl->abcijk" [(ESlice (EVar "g_bbbb") [SV "o"; SV "v"; SV "v"; SV "o"]); (EVar "t3_bbbbbb")]));
   (*L5058*) SAug true "triples_res" (EAdd (EScale (1 # 1) (EVar "contracted_intermediate")) (EScale (-1 # 1) (EEins "abcijk->abcikj" [(EVar "contracted_intermediate")])));
   (*L5061*) SAug true "triples_res" (EScale (-1 # 1) (EEins "lcdi,dablkj->abcijk" [(ESlice (EVar "g_abab") [SV "o"; SV "v"; SV "v"; SV "o"]); (EVar "t3_abbabb")]));
   (*L5064*) SAug true "triples_res" (EScale (1 # 1) (EEins "lcdi,dabjkl->abcijk" [(ESlice (EVar "g_bbbb") [SV "o"; SV "v"; SV "v"; SV "o"]); (EVar "t3_bbbbbb")]));
   (*L5067*) SAssign "contracted_intermediate" (EScale (1 # 2) (EEins "abde,decijk->abcijk" [(ESlice (EVar "g_bbbb") [SV "v"; SV "v"; SV "v"; SV "v"]); (EVar "t3_bbbbbb")]));
   (*L5068*) SAug true "triples_res" (EAdd (EScale (1 # 1) (EVar "contracted_intermediate")) (EScale (-1 # 1) (EEins "abcijk->acbijk" [(EVar "contracted_intermediate")])));
   (*L5071*) SAug true "triples_res" (EScale (1 # 2) (EEins "bcde,deaijk->abcijk" [(ESlice (EVar "g_bbbb") [SV "v"; SV "v"; SV "v"; SV "v"]); (EVar "t3_bbbbbb")]));
   (*L5074*) SAssign "contracted_intermediate" (EScale (1 # 1) (EEins "mljk,al,bcim->abcijk" [(ESlice (EVar "g_bbbb") [SV "o"; SV "o"; SV "o"; SV "o"]); (EVar "t1_bb"); (EVar "t2_bbbb")]));
   (*L5075*) SAug true "triples_res" (EAdd (EAdd (EAdd (EScale (1 # 1) (EVar "contracted_intermediate")) (EScale (-1 # 1) (EEins "abcijk->abcjik" [(EVar "contracted_intermediate")]))) (EScale (-1 # 1) (EEins "abcijk->bacijk" [(EVar "contracted_intermediate")]))) (EScale (1 # 1) (EEins "abcijk->bacjik" [(EVar "contracted_intermediate")])));
   (*L5078*) SAssign "contracted_intermediate" (EScale (1 # 1) (EEins "mljk,cl,abim->abcijk" [(ESlice (EVar "g_bbbb") [SV "o"; SV "o"; SV "o"; SV "o"]); (EVar "t1_bb"); (EVar "t2_bbbb")]));
   (*L5079*) SAug true "triples_res" (EAdd (EScale (1 # 1) (EVar "contracted_intermediate")) (EScale (-1 # 1) (EEins "abcijk->abcjik" [(EVar "contracted_intermediate")])));
   (*L5082*) SAssign "contracted_intermediate" (EScale (1 # 1) (EEins "mlij,al,bckm->abcijk" [(ESlice (EVar "g_bbbb") [SV "o"; SV "o"; SV "o"; SV "o"]); (EVar "t1_bb"); (EVar "t2_bbbb")]));
   (*L5083*) SAug true "triples_res" (EAdd (EScale (1 # 1) (EVar "contracted_intermediate")) (EScale (-1 # 1) (EEins "abcijk->bacijk" [(EVar "contracted_intermediate")])));
   (*L5086*) SAug true "triples_res" (EScale (1 # 1) (EEins "mlij,cl,abkm->abcijk" [(ESlice (EVar "g_bbbb") [SV "o"; SV "o"; SV "o"; SV "o"]); (EVar "t1_bb"); (EVar "t2_bbbb")]));
   (*L5089*) SAssign "contracted_intermediate" (EScale (-1 # 1) (EEins "ladk,dj,bcil->abcijk" [(ESlice (EVar "g_bbbb") [SV "o"; SV "v"; SV "v"; SV "o"]); (EVar "t1_bb"); (EVar "t2_bbbb")]));
   (*L5090*) SAug true "triples_res" (EAdd (EAdd (EAdd (EScale (1 # 1) (EVar "contracted_intermediate")) (EScale (-1 # 1) (EEins "abcijk->abcjik" [(EVar "contracted_intermediate")]))) (EScale (-1 # 1) (EEins "abcijk->bacijk" [(EVar "contracted_intermediate")]))) (EScale (1 # 1) (EEins "abcijk->bacjik" [(EVar "contracted_intermediate")])));
   (*L5093*) SAssign "contracted_intermediate" (EScale (-1 # 1) (EEins "ladk,bl,dcij->abcijk" [(ESlice (EVar "g_bbbb") [SV "o"; SV "v"; SV "v"; SV "o"]); (EVar "t1_bb"); (EVar "t2_bbbb")]));
   (*L5094*) SAug true "triples_res" (EAdd (EAdd (EAdd (EScale (1 # 1) (EVar "contracted_intermediate")) (EScale (-1 # 1) (EEins "abcijk->abcikj" [(EVar "contracted_intermediate")]))) (EScale (-1 # 1) (EEins "abcijk->acbijk" [(EVar "contracted_intermediate")]))) (EScale (1 # 1) (EEins "abcijk->acbikj" [(EVar "contracted_intermediate")])));
   (*L5097*) SAssign "contracted_intermediate" (EScale (1 # 1) (EEins "ladj,dk,bcil->abcijk" [(ESlice (EVar "g_bbbb") [SV "o"; SV "v"; SV "v"; SV "o"]); (EVar "t1_bb"); (EVar "t2_bbbb")]));
   (*L5098*) SAug true "triples_res" (EAdd (EAdd (EAdd (EScale (1 # 1) (EVar "contracted_intermediate")) (EScale (-1 # 1) (EEins "abcijk->abckji" [(EVar "contracted_intermediate")]))) (EScale (-1 # 1) (EEins "abcijk->bacijk" [(EVar "contracted_intermediate")]))) (EScale (1 # 1) (EEins "abcijk->backji" [(EVar "contracted_intermediate")])));
   (*L5101*) SAssign "contracted_intermediate" (EScale (-1 # 1) (EEins "ladi,dk,bcjl->abcijk" [(ESlice (EVar "g_bbbb") [SV "o"; SV "v"; SV "v"; SV "o"]); (EVar "t1_bb"); (EVar "t2_bbbb")]));
   (*L5102*) SAug true "triples_res" (EAdd (EAdd (EAdd (EScale (1 # 1) (EVar "contracted_intermediate")) (EScale (-1 # 1) (EEins "abcijk->abcikj" [(EVar "contracted_intermediate")]))) (EScale (-1 # 1) (EEins "abcijk->bacijk" [(EVar "contracted_intermediate")]))) (EScale (1 # 1) (EEins "abcijk->bacikj" [(EVar "contracted_intermediate")])));
   (*L5105*) SAssign "contracted_intermediate" (EScale (-1 # 1) (EEins "ladi,bl,dcjk->abcijk" [(ESlice (EVar "g_bbbb") [SV "o"; SV "v"; SV "v"; SV "o"]); (EVar "t1_bb"); (EVar "t2_bbbb")]));
   (*L5106*) SAug true "triples_res" (EAdd (EScale (1 # 1) (EVar "contracted_intermediate")) (EScale (-1 # 1) (EEins "abcijk->acbijk" [(EVar "contracted_intermediate")])));
   (*L5109*) SAssign "contracted_intermediate" (EScale (1 # 1) (EEins "lbdk,al,dcij->abcijk" [(ESlice (EVar "g_bbbb") [SV "o"; SV "v"; SV "v"; SV "o"]); (EVar "t1_bb"); (EVar "t2_bbbb")]));
   (*L5110*) SAug true "triples_res" (EAdd (EAdd (EAdd (EScale (1 # 1) (EVar "contracted_intermediate")) (EScale (-1 # 1) (EEins "abcijk->abcikj" [(EVar "contracted_intermediate")]))) (EScale (-1 # 1) (EEins "abcijk->cbaijk" [(EVar "contracted_intermediate")]))) (EScale (1 # 1) (EEins "abcijk->cbaikj" [(EVar "contracted_intermediate")])));
   (*L5113*) SAssign "contracted_intermediate" (EScale (1 # 1) (EEins "lbdi,al,dcjk->abcijk" [(ESlice (EVar "g_bbbb") [SV "o"; SV "v"; SV "v"; SV "o"]); (EVar "t1_bb"); (EVar "t2_bbbb")]));
   (*L5114*) SAug true "triples_res" (EAdd (EScale (1 # 1) (EVar "contracted_intermediate")) (EScale (-1 # 1) (EEins "abcijk->cbaijk" [(EVar "contracted_intermediate")])));
   (*L5117*) SAssign "contracted_intermediate" (EScale (-1 # 1) (EEins "lcdk,dj,abil->abcijk" [(ESlice (EVar "g_bbbb") [SV "o"; SV "v"; SV "v"; SV "o"]); (EVar "t1_bb"); (EVar "t2_bbbb")]));
   (*L5118*) SAug true "triples_res" (EAdd (EScale (1 # 1) (EVar "contracted_intermediate")) (EScale (-1 # 1) (EEins "abcijk->abcjik" [(EVar "contracted_intermediate")])));
   (*L5121*) SAssign "contracted_intermediate" (EScale (-1 # 1) (EEins "lcdk,al,dbij->abcijk" [(ESlice (EVar "g_bbbb") [SV "o"; SV "v"; SV "v"; SV "o"]); (EVar "t1_bb"); (EVar "t2_bbbb")]));
   (*L5122*) SAug true "triples_res" (EAdd (EAdd (EAdd (EScale (1 # 1) (EVar "contracted_intermediate")) (EScale (-1 # 1) (EEins "abcijk->abcikj" [(EVar "contracted_intermediate")]))) (EScale (-1 # 1) (EEins "abcijk->bacijk" [(EVar "contracted_intermediate")]))) (EScale (1 # 1) (EEins "abcijk->bacikj" [(EVar "contracted_intermediate")])));
   (*L5125*) SAssign "contracted_intermediate" (EScale (1 # 1) (EEins "lcdj,dk,abil->abcijk" [(ESlice (EVar "g_bbbb") [SV "o"; SV "v"; SV "v"; SV "o"]); (EVar "t1_bb"); (EVar "t2_bbbb")]));
   (*L5126*) SAug true "triples_res" (EAdd (EScale (1 # 1) (EVar "contracted_intermediate")) (EScale (-1 # 1) (EEins "abcijk->abckji" [(EVar "contracted_intermediate")])));
   (*L5129*) SAssign "contracted_intermediate" (EScale (-1 # 1) (EEins "lcdi,dk,abjl->abcijk" [(ESlice (EVar "g_bbbb") [SV "o"; SV "v"; SV "v"; SV "o"]); (EVar "t1_bb"); (EVar "t2_bbbb")]));
   (*L5130*) SAug true "triples_res" (EAdd (EScale (1 # 1) (EVar "contracted_intermediate")) (EScale (-1 # 1) (EEins "abcijk->abcikj" [(EVar "contracted_intermediate")])));
   (*L5133*) SAssign "contracted_intermediate" (EScale (-1 # 1) (EEins "lcdi,al,dbjk->abcijk" [(ESlice (EVar "g_bbbb") [SV "o"; SV "v"; SV "v"; SV "o"]); (EVar "t1_bb"); (EVar "t2_bbbb")]));
   (*L5134*) SAug true "triples_res" (EAdd (EScale (1 # 1) (EVar "contracted_intermediate")) (EScale (-1 # 1) (EEins "abcijk->bacijk" [(EVar "contracted_intermediate")])));
   (*L5137*) SAssign "contracted_intermediate" (EScale (1 # 1) (EEins "abde,dk,ecij->abcijk" [(ESlice (EVar "g_bbbb") [SV "v"; SV "v"; SV "v"; SV "v"]); (EVar "t1_bb"); (EVar "t2_bbbb")]));
   (*L5138*) SAug true "triples_res" (EAdd (EAdd (EAdd (EScale (1 # 1) (EVar "contracted_intermediate")) (EScale (-1 # 1) (EEins "abcijk->abcikj" [(EVar "contracted_intermediate")]))) (EScale (-1 # 1) (EEins "abcijk->acbijk" [(EVar "contracted_intermediate")]))) (EScale (1 # 1) (EEins "abcijk->acbikj" [(EVar "contracted_intermediate")])));
   (*L5141*) SAssign "contracted_intermediate" (EScale (1 # 1) (EEins "abde,di,ecjk->abcijk" [(ESlice (EVar "g_bbbb") [SV "v"; SV "v"; SV "v"; SV "v"]); (EVar "t1_bb"); (EVar "t2_bbbb")]));
   (*L5142*) SAug true "triples_res" (EAdd (EScale (1 # 1) (EVar "contracted_intermediate")) (EScale (-1 # 1) (EEins "abcijk->acbijk" [(EVar "contracted_intermediate")])));
   (*L5145*) SAssign "contracted_intermediate" (EScale (1 # 1) (EEins "bcde,dk,eaij->abcijk" [(ESlice (EVar "g_bbbb") [SV "v"; SV "v"; SV "v"; SV "v"]); (EVar "t1_bb"); (EVar "t2_bbbb")]));
   (*L5146*) SAug true "triples_res" (EAdd (EScale (1 # 1) (EVar "contracted_intermediate")) (EScale (-1 # 1) (EEins "abcijk->abcikj" [(EVar "contracted_intermediate")])));
   (*L5149*) SAug true "triples_res" (EScale (1 # 1) (EEins "bcde,di,eajk->abcijk" [(ESlice (EVar "g_bbbb") [SV "v"; SV "v"; SV "v"; SV "v"]); (EVar "t1_bb"); (EVar "t2_bbbb")]));
   (*L5152*) SAssign "contracted_intermediate" (EScale (-1 # 1) (EEins "lmdk,dl,abcijm->abcijk" [(ESlice (EVar "g_abab") [SV "o"; SV "o"; SV "v"; SV "o"]); (EVar "t1_aa"); (EVar "t3_bbbbbb")]));
   (*L5153*) SAug true "triples_res" (EAdd (EScale (1 # 1) (EVar "contracted_intermediate")) (EScale (-1 # 1) (EEins "abcijk->abcikj" [(EVar "contracted_intermediate")])));
   (*L5156*) SAssign "contracted_intermediate" (EScale (1 # 1) (EEins "mldk,dl,abcijm->abcijk" [(ESlice (EVar "g_bbbb") [SV "o"; SV "o"; SV "v"; SV "o"]); (EVar "t1_bb"); (EVar "t3_bbbbbb")]));
   (*L5157*) SAug true "triples_res" (EAdd (EScale (1 # 1) (EVar "contracted_intermediate")) (EScale (-1 # 1) (EEins "abcijk->abcikj" [(EVar "contracted_intermediate")])));
   (*L5160*) SAssign "contracted_intermediate" (EScale (1 # 2) (EEins "mldk,dj,abciml->abcijk" [(ESlice (EVar "g_bbbb") [SV "o"; SV "o"; SV "v"; SV "o"]); (EVar "t1_bb"); (EVar "t3_bbbbbb")]));
   (*L5161*) SAug true "triples_res" (EAdd (EScale (1 # 1) (EVar "contracted_intermediate")) (EScale (-1 # 1) (EEins "abcijk->abcjik" [(EVar "contracted_intermediate")])));
   (*L5164*) SAssign "contracted_intermediate" (EScale (1 # 1) (EEins "mldk,al,dbcmji->abcijk" [(ESlice (EVar "g_abab") [SV "o"; SV "o"; SV "v"; SV "o"]); (EVar "t1_bb"); (EVar "t3_abbabb")]));
   (*L5165*) SAug true "triples_res" (EAdd (EAdd (EAdd (EScale (1 # 1) (EVar "contracted_intermediate")) (EScale (-1 # 1) (EEins "abcijk->abcikj" [(EVar "contracted_intermediate")]))) (EScale (-1 # 1) (EEins "abcijk->bacijk" [(EVar "contracted_intermediate")]))) (EScale (1 # 1) (EEins "abcijk->bacikj" [(EVar "contracted_intermediate")])));
   (*L5168*) SAssign "contracted_intermediate" (EScale (-1 # 1) (EEins "mldk,al,dbcijm->abcijk" [(ESlice (EVar "g_bbbb") [SV "o"; SV "o"; SV "v"; SV "o"]); (EVar "t1_bb"); (EVar "t3_bbbbbb")]));
   (*L5169*) SAug true "triples_res" (EAdd (EAdd (EAdd (EScale (1 # 1) (EVar "contracted_intermediate")) (EScale (-1 # 1) (EEins "abcijk->abcikj" [(EVar "contracted_intermediate")]))) (EScale (-1 # 1) (EEins "abcijk->bacijk" [(EVar "contracted_intermediate")]))) (EScale (1 # 1) (EEins "abcijk->bacikj" [(EVar "contracted_intermediate")])));
   (*L5172*) SAssign "contracted_intermediate" (EScale (1 # 1) (EEins "mldk,cl,dabmji->abcijk" [(ESlice (EVar "g_abab") [SV "o"; SV "o"; SV "v"; SV "o"]); (EVar "t1_bb"); (EVar "t3_abbabb")]));
   (*L5173*) SAug true "triples_res" (EAdd (EScale (1 # 1) (EVar "contracted_intermediate")) (EScale (-1 # 1) (EEins "abcijk->abcikj" [(EVar "contracted_intermediate")])));
   (*L5176*) SAssign "contracted_intermediate" (EScale (-1 # 1) (EEins "mldk,cl,dabijm->abcijk" [(ESlice (EVar "g_bbbb") [SV "o"; SV "o"; SV "v"; SV "o"]); (EVar "t1_bb"); (EVar "t3_bbbbbb")]));
   (*L5177*) SAug true "triples_res" (EAdd (EScale (1 # 1) (EVar "contracted_intermediate")) (EScale (-1 # 1) (EEins "abcijk->abcikj" [(EVar "contracted_intermediate")])));
   (*L5180*) SAssign "contracted_intermediate" (EScale (-1 # 2) (EEins "mldj,dk,abciml->abcijk" [(ESlice (EVar "g_bbbb") [SV "o"; SV "o"; SV "v"; SV "o"]); (EVar "t1_bb"); (EVar "t3_bbbbbb")]));
   (*L5181*) SAug true "triples_res" (EAdd (EScale (1 # 1) (EVar "contracted_intermediate")) (EScale (-1 # 1) (EEins "abcijk->abckji" [(EVar "contracted_intermediate")])));
   (*L5184*) SAug true "triples_res" (EScale (-1 # 1) (EEins "lmdi,dl,abcjkm->abcijk" [(ESlice (EVar "g_abab") [SV "o"; SV "o"; SV "v"; SV "o"]); (EVar "t1_aa"); (EVar "t3_bbbbbb")]));
   (*L5187*) SAug true "triples_res" (EScale (1 # 1) (EEins "mldi,dl,abcjkm->abcijk" [(ESlice (EVar "g_bbbb") [SV "o"; SV "o"; SV "v"; SV "o"]); (EVar "t1_bb"); (EVar "t3_bbbbbb")]));
   (*L5190*) SAssign "contracted_intermediate" (EScale (1 # 2) (EEins "mldi,dk,abcjml->abcijk" [(ESlice (EVar "g_bbbb") [SV "o"; SV "o"; SV "v"; SV "o"]); (EVar "t1_bb"); (EVar "t3_bbbbbb")]));
   (*L5191*) SAug true "triples_res" (EAdd (EScale (1 # 1) (EVar "contracted_intermediate")) (EScale (-1 # 1) (EEins "abcijk->abcikj" [(EVar "contracted_intermediate")])));
   (*L5194*) SAssign "contracted_intermediate" (EScale (1 # 1) (EEins "mldi,al,dbcmkj->abcijk" [(ESlice (EVar "g_abab") [SV "o"; SV "o"; SV "v"; SV "o"]); (EVar "t1_bb"); (EVar "t3_abbabb")]));
   (*L5195*) SAug true "triples_res" (EAdd (EScale (1 # 1) (EVar "contracted_intermediate")) (EScale (-1 # 1) (EEins "abcijk->bacijk" [(EVar "contracted_intermediate")])));
   (*L5198*) SAssign "contracted_intermediate" (EScale (-1 # 1) (EEins "mldi,al,dbcjkm->abcijk" [(ESlice (EVar "g_bbbb") [SV "o"; SV "o"; SV "v"; SV "o"]); (EVar "t1_bb"); (EVar "t3_bbbbbb")]));
   (*L5199*) SAug true "triples_res" (EAdd (EScale (1 # 1) (EVar "contracted_intermediate")) (EScale (-1 # 1) (EEins "abcijk->bacijk" [(EVar "contracted_intermediate")])));
   (*L5202*) SAug true "triples_res" (EScale (1 # 1) (EEins "mldi,cl,dabmkj->abcijk" [(ESlice (EVar "g_abab") [SV "o"; SV "o"; SV "v"; SV "o"]); (EVar "t1_bb"); (EVar "t3_abbabb")]));
   (*L5205*) SAug true "triples_res" (EScale (-1 # 1) (EEins "mldi,cl,dabjkm->abcijk" [(ESlice (EVar "g_bbbb") [SV "o"; SV "o"; SV "v"; SV "o"]); (EVar "t1_bb"); (EVar "t3_bbbbbb")]));
   (*L5208*) SAssign "contracted_intermediate" (EScale (1 # 1) (EEins "lade,dl,ebcijk->abcijk" [(ESlice (EVar "g_abab") [SV "o"; SV "v"; SV "v"; SV "v"]); (EVar "t1_aa"); (EVar "t3_bbbbbb")]));
   (*L5209*) SAug true "triples_res" (EAdd (EScale (1 # 1) (EVar "contracted_intermediate")) (EScale (-1 # 1) (EEins "abcijk->bacijk" [(EVar "contracted_intermediate")])));
   (*L5212*) SAssign "contracted_intermediate" (EScale (1 # 1) (EEins "lade,dl,ebcijk->abcijk" [(ESlice (EVar "g_bbbb") [SV "o"; SV "v"; SV "v"; SV "v"]); (EVar "t1_bb"); (EVar "t3_bbbbbb")]));
   (*L5213*) SAug true "triples_res" (EAdd (EScale (1 # 1) (EVar "contracted_intermediate")) (EScale (-1 # 1) (EEins "abcijk->bacijk" [(EVar "contracted_intermediate")])));
   (*L5216*) SAssign "contracted_intermediate" (EScale (-1 # 1) (EEins "laed,dk,ebclji->abcijk" [(ESlice (EVar "g_abab") [SV "o"; SV "v"; SV "v"; SV "v"]); (EVar "t1_bb"); (EVar "t3_abbabb")]));
   (*L5217*) SAug true "triples_res" (EAdd (EAdd (EAdd (EScale (1 # 1) (EVar "contracted_intermediate")) (EScale (-1 # 1) (EEins "abcijk->abcikj" [(EVar "contracted_intermediate")]))) (EScale (-1 # 1) (EEins "abcijk->bacijk" [(EVar "contracted_intermediate")]))) (EScale (1 # 1) (EEins "abcijk->bacikj" [(EVar "contracted_intermediate")])));
   (*L5220*) SAssign "contracted_intermediate" (EScale (-1 # 1) (EEins "lade,dk,ebcijl->abcijk" [(ESlice (EVar "g_bbbb") [SV "o"; SV "v"; SV "v"; SV "v"]); (EVar "t1_bb"); (EVar "t3_bbbbbb")]));
   (*L5221*) SAug true "triples_res" (EAdd (EAdd (EAdd (EScale (1 # 1) (EVar "contracted_intermediate")) (EScale (-1 # 1) (EEins "abcijk->abcikj" [(EVar "contracted_intermediate")]))) (EScale (-1 # 1) (EEins "abcijk->bacijk" [(EVar "contracted_intermediate")]))) (EScale (1 # 1) (EEins "abcijk->bacikj" [(EVar "contracted_intermediate")])));
   (*L5224*) SAssign "contracted_intermediate" (EScale (-1 # 1) (EEins "laed,di,ebclkj->abcijk" [(ESlice (EVar "g_abab") [SV "o"; SV "v"; SV "v"; SV "v"]); (EVar "t1_bb"); (EVar "t3_abbabb")]));
   (*L5225*) SAug true "triples_res" (EAdd (EScale (1 # 1) (EVar "contracted_intermediate")) (EScale (-1 # 1) (EEins "abcijk->bacijk" [(EVar "contracted_intermediate")])));
   (*L5228*) SAssign "contracted_intermediate" (EScale (-1 # 1) (EEins "lade,di,ebcjkl->abcijk" [(ESlice (EVar "g_bbbb") [SV "o"; SV "v"; SV "v"; SV "v"]); (EVar "t1_bb"); (EVar "t3_bbbbbb")]));
   (*L5229*) SAug true "triples_res" (EAdd (EScale (1 # 1) (EVar "contracted_intermediate")) (EScale (-1 # 1) (EEins "abcijk->bacijk" [(EVar "contracted_intermediate")])));
   (*L5232*) SAssign "contracted_intermediate" (EScale (1 # 2) (EEins "lade,bl,decijk->abcijk" [(ESlice (EVar "g_bbbb") [SV "o"; SV "v"; SV "v"; SV "v"]); (EVar "t1_bb"); (EVar "t3_bbbbbb")]));
   (*L5233*) SAug true "triples_res" (EAdd (EScale (1 # 1) (EVar "contracted_intermediate")) (EScale (-1 # 1) (EEins "abcijk->acbijk" [(EVar "contracted_intermediate")])));
   (*L5236*) SAssign "contracted_intermediate" (EScale (-1 # 2) (EEins "lbde,al,decijk->abcijk" [(ESlice (EVar "g_bbbb") [SV "o"; SV "v"; SV "v"; SV "v"]); (EVar "t1_bb"); (EVar "t3_bbbbbb")]));
   (*L5237*) SAug true "triples_res" (EAdd (EScale (1 # 1) (EVar "contracted_intermediate")) (EScale (-1 # 1) (EEins "abcijk->cbaijk" [(EVar "contracted_intermediate")])));
   (*L5240*) SAug true "triples_res" (EScale (1 # 1) (EEins "lcde,dl,eabijk->abcijk" [(ESlice (EVar "g_abab") [SV "o"; SV "v"; SV "v"; SV "v"]); (EVar "t1_aa"); (EVar "t3_bbbbbb")]));
   (*L5243*) SAug true "triples_res" (EScale (1 # 1) (EEins "lcde,dl,eabijk->abcijk" [(ESlice (EVar "g_bbbb") [SV "o"; SV "v"; SV "v"; SV "v"]); (EVar "t1_bb"); (EVar "t3_bbbbbb")]));
   (*L5246*) SAssign "contracted_intermediate" (EScale (-1 # 1) (EEins "lced,dk,eablji->abcijk" [(ESlice (EVar "g_abab") [SV "o"; SV "v"; SV "v"; SV "v"]); (EVar "t1_bb"); (EVar "t3_abbabb")]));
   (*L5247*) SAug true "triples_res" (EAdd (EScale (1 # 1) (EVar "contracted_intermediate")) (EScale (-1 # 1) (EEins "abcijk->abcikj" [(EVar "contracted_intermediate")])));
   (*L5250*) SAssign "contracted_intermediate" (EScale (-1 # 1) (EEins "lcde,dk,eabijl->abcijk" [(ESlice (EVar "g_bbbb") [SV "o"; SV "v"; SV "v"; SV "v"]); (EVar "t1_bb"); (EVar "t3_bbbbbb")]));
   (*L5251*) SAug true "triples_res" (EAdd (EScale (1 # 1) (EVar "contracted_intermediate")) (EScale (-1 # 1) (EEins "abcijk->abcikj" [(EVar "contracted_intermediate")])));
   (*L5254*) SAug true "triples_res" (EScale (-1 # 1) (EEins "lced,di,eablkj->abcijk" [(ESlice (EVar "g_abab") [SV "o"; SV "v"; SV "v"; SV "v"]); (EVar "t1_bb"); (EVar "t3_abbabb")]));
   (*L5257*) SAug true "triples_res" (EScale (-1 # 1) (EEins "lcde,di,eabjkl->abcijk" [(ESlice (EVar "g_bbbb") [SV "o"; SV "v"; SV "v"; SV "v"]); (EVar "t1_bb"); (EVar "t3_bbbbbb")]));
   (*L5260*) SAssign "contracted_intermediate" (EScale (1 # 2) (EEins "lcde,al,debijk->abcijk" [(ESlice (EVar "g_bbbb") [SV "o"; SV "v"; SV "v"; SV "v"]); (EVar "t1_bb"); (EVar "t3_bbbbbb")]));
   (*L5261*) SAug true "triples_res" (EAdd (EScale (1 # 1) (EVar "contracted_intermediate")) (EScale (-1 # 1) (EEins "abcijk->bacijk" [(EVar "contracted_intermediate")])));
   (*L5264*) SAssign "contracted_intermediate" (EScale (-1 # 2) (EEins "lmde,delk,abcijm->abcijk" [(ESlice (EVar "g_abab") [SV "o"; SV "o"; SV "v"; SV "v"]); (EVar "t2_abab"); (EVar "t3_bbbbbb")]));
   (*L5265*) SAug true "triples_res" (EAdd (EScale (1 # 1) (EVar "contracted_intermediate")) (EScale (-1 # 1) (EEins "abcijk->abcikj" [(EVar "contracted_intermediate")])));
   (*L5268*) SAssign "contracted_intermediate" (EScale (-1 # 2) (EEins "lmed,edlk,abcijm->abcijk" [(ESlice (EVar "g_abab") [SV "o"; SV "o"; SV "v"; SV "v"]); (EVar "t2_abab"); (EVar "t3_bbbbbb")]));
   (*L5269*) SAug true "triples_res" (EAdd (EScale (1 # 1) (EVar "contracted_intermediate")) (EScale (-1 # 1) (EEins "abcijk->abcikj" [(EVar "contracted_intermediate")])));
   (*L5272*) SAssign "contracted_intermediate" (EScale (-1 # 2) (EEins "mlde,dekl,abcijm->abcijk" [(ESlice (EVar "g_bbbb") [SV "o"; SV "o"; SV "v"; SV "v"]); (EVar "t2_bbbb"); (EVar "t3_bbbbbb")]));
   (*L5273*) SAug true "triples_res" (EAdd (EScale (1 # 1) (EVar "contracted_intermediate")) (EScale (-1 # 1) (EEins "abcijk->abcikj" [(EVar "contracted_intermediate")])));
   (*L5276*) SAug true "triples_res" (EScale (-1 # 2) (EEins "lmde,deli,abcjkm->abcijk" [(ESlice (EVar "g_abab") [SV "o"; SV "o"; SV "v"; SV "v"]); (EVar "t2_abab"); (EVar "t3_bbbbbb")]));
   (*L5279*) SAug true "triples_res" (EScale (-1 # 2) (EEins "lmed,edli,abcjkm->abcijk" [(ESlice (EVar "g_abab") [SV "o"; SV "o"; SV "v"; SV "v"]); (EVar "t2_abab"); (EVar "t3_bbbbbb")]));
   (*L5282*) SAug true "triples_res" (EScale (-1 # 2) (EEins "mlde,deil,abcjkm->abcijk" [(ESlice (EVar "g_bbbb") [SV "o"; SV "o"; SV "v"; SV "v"]); (EVar "t2_bbbb"); (EVar "t3_bbbbbb")]));
   (*L5285*) SAssign "contracted_intermediate" (EScale (1 # 4) (EEins "mlde,dejk,abciml->abcijk" [(ESlice (EVar "g_bbbb") [SV "o"; SV "o"; SV "v"; SV "v"]); (EVar "t2_bbbb"); (EVar "t3_bbbbbb")]));
   (*L5286*) SAug true "triples_res" (EAdd (EScale (1 # 1) (EVar "contracted_intermediate")) (EScale (-1 # 1) (EEins "abcijk->abcjik" [(EVar "contracted_intermediate")])));
   (*L5289*) SAug true "triples_res" (EScale (1 # 4) (EEins "mlde,deij,abckml->abcijk" [(ESlice (EVar "g_bbbb") [SV "o"; SV "o"; SV "v"; SV "v"]); (EVar "t2_bbbb"); (EVar "t3_bbbbbb")]));
   (*L5292*) SAssign "contracted_intermediate" (EScale (-1 # 2) (EEins "mlde,daml,ebcijk->abcijk" [(ESlice (EVar "g_abab") [SV "o"; SV "o"; SV "v"; SV "v"]); (EVar "t2_abab"); (EVar "t3_bbbbbb")]));
   (*L5293*) SAug true "triples_res" (EAdd (EScale (1 # 1) (EVar "contracted_intermediate")) (EScale (-1 # 1) (EEins "abcijk->bacijk" [(EVar "contracted_intermediate")])));
   (*L5296*) SAssign "contracted_intermediate" (EScale (-1 # 2) (EEins "lmde,dalm,ebcijk->abcijk" [(ESlice (EVar "g_abab") [SV "o"; SV "o"; SV "v"; SV "v"]); (EVar "t2_abab"); (EVar "t3_bbbbbb")]));
   (*L5297*) SAug true "triples_res" (EAdd (EScale (1 # 1) (EVar "contracted_intermediate")) (EScale (-1 # 1) (EEins "abcijk->bacijk" [(EVar "contracted_intermediate")])));
   (*L5300*) SAssign "contracted_intermediate" (EScale (-1 # 2) (EEins "mlde,daml,ebcijk->abcijk" [(ESlice (EVar "g_bbbb") [SV "o"; SV "o"; SV "v"; SV "v"]); (EVar "t2_bbbb"); (EVar "t3_bbbbbb")]));
   (*L5301*) SAug true "triples_res" (EAdd (EScale (1 # 1) (EVar "contracted_intermediate")) (EScale (-1 # 1) (EEins "abcijk->bacijk" [(EVar "contracted_intermediate")])));
   (*L5304*) SAssign "contracted_intermediate" (EScale (100000000000001 # 100000000000000) (EEins "mlde,dalk,ebcmji->abcijk" [(ESlice (EVar "g_aaaa") [SV "o"; SV "o"; SV "v"; SV "v"]); (EVar "t2_abab"); (EVar "t3_abbabb")]));
   (*L5305*) SAug true "triples_res" (EAdd (EAdd (EAdd (EScale (1 # 1) (EVar "contracted_intermediate")) (EScale (-1 # 1) (EEins "abcijk->abcikj" [(EVar "contracted_intermediate")]))) (EScale (-1 # 1) (EEins "abcijk->bacijk" [(EVar "contracted_intermediate")]))) (EScale (1 # 1) (EEins "abcijk->bacikj" [(EVar "contracted_intermediate")])));
   (*L5308*) SAssign "contracted_intermediate" (EScale (100000000000001 # 100000000000000) (EEins "lmde,dalk,ebcijm->abcijk" [(ESlice (EVar "g_abab") [SV "o"; SV "o"; SV "v"; SV "v"]); (EVar "t2_abab"); (EVar "t3_bbbbbb")]));
   (*L5309*) SAug true "triples_res" (EAdd (EAdd (EAdd (EScale (1 # 1) (EVar "contracted_intermediate")) (EScale (-1 # 1) (EEins "abcijk->abcikj" [(EVar "contracted_intermediate")]))) (EScale (-1 # 1) (EEins "abcijk->bacijk" [(EVar "contracted_intermediate")]))) (EScale (1 # 1) (EEins "abcijk->bacikj" [(EVar "contracted_intermediate")])));
   (*L5312*) SAssign "contracted_intermediate" (EScale (100000000000001 # 100000000000000) (EEins "mled,dakl,ebcmji->abcijk" [(ESlice (EVar "g_abab") [SV "o"; SV "o"; SV "v"; SV "v"]); (EVar "t2_bbbb"); (EVar "t3_abbabb")]));
   (*L5313*) SAug true "triples_res" (EAdd (EAdd (EAdd (EScale (1 # 1) (EVar "contracted_intermediate")) (EScale (-1 # 1) (EEins "abcijk->abcikj" [(EVar "contracted_intermediate")]))) (EScale (-1 # 1) (EEins "abcijk->bacijk" [(EVar "contracted_intermediate")]))) (EScale (1 # 1) (EEins "abcijk->bacikj" [(EVar "contracted_intermediate")])));
   (*L5316*) SAssign "contracted_intermediate" (EScale (100000000000001 # 100000000000000) (EEins "mlde,dakl,ebcijm->abcijk" [(ESlice (EVar "g_bbbb") [SV "o"; SV "o"; SV "v"; SV "v"]); (EVar "t2_bbbb"); (EVar "t3_bbbbbb")]));
   (*L5317*) SAug true "triples_res" (EAdd (EAdd (EAdd (EScale (1 # 1) (EVar "contracted_intermediate")) (EScale (-1 # 1) (EEins "abcijk->abcikj" [(EVar "contracted_intermediate")]))) (EScale (-1 # 1) (EEins "abcijk->bacijk" [(EVar "contracted_intermediate")]))) (EScale (1 # 1) (EEins "abcijk->bacikj" [(EVar "contracted_intermediate")])));
   (*L5320*) SAssign "contracted_intermediate" (EScale (100000000000001 # 100000000000000) (EEins "mlde,dali,ebcmkj->abcijk" [(ESlice (EVar "g_aaaa") [SV "o"; SV "o"; SV "v"; SV "v"]); (EVar "t2_abab"); (EVar "t3_abbabb")]));
   (*L5321*) SAug true "triples_res" (EAdd (EScale (1 # 1) (EVar "contracted_intermediate")) (EScale (-1 # 1) (EEins "abcijk->bacijk" [(EVar "contracted_intermediate")])));
   (*L5324*) SAssign "contracted_intermediate" (EScale (100000000000001 # 100000000000000) (EEins "lmde,dali,ebcjkm->abcijk" [(ESlice (EVar "g_abab") [SV "o"; SV "o"; SV "v"; SV "v"]); (EVar "t2_abab"); (EVar "t3_bbbbbb")]));
   (*L5325*) SAug true "triples_res" (EAdd (EScale (1 # 1) (EVar "contracted_intermediate")) (EScale (-1 # 1) (EEins "abcijk->bacijk" [(EVar "contracted_intermediate")])));
   (*L5328*) SAssign "contracted_intermediate" (EScale (100000000000001 # 100000000000000) (EEins "mled,dail,ebcmkj->abcijk" [(ESlice (EVar "g_abab") [SV "o"; SV "o"; SV "v"; SV "v"]); (EVar "t2_bbbb"); (EVar "t3_abbabb")]));
   (*L5329*) SAug true "triples_res" (EAdd (EScale (1 # 1) (EVar "contracted_intermediate")) (EScale (-1 # 1) (EEins "abcijk->bacijk" [(EVar "contracted_intermediate")])));
   (*L5332*) SAssign "contracted_intermediate" (EScale (100000000000001 # 100000000000000) (EEins "mlde,dail,ebcjkm->abcijk" [(ESlice (EVar "g_bbbb") [SV "o"; SV "o"; SV "v"; SV "v"]); (EVar "t2_bbbb"); (EVar "t3_bbbbbb")]));
   (*L5333*) SAug true "triples_res" (EAdd (EScale (1 # 1) (EVar "contracted_intermediate")) (EScale (-1 # 1) (EEins "abcijk->bacijk" [(EVar "contracted_intermediate")])));
   (*L5336*) SAssign "contracted_intermediate" (EScale (-1 # 2) (EEins "mled,dajk,ebcmil->abcijk" [(ESlice (EVar "g_abab") [SV "o"; SV "o"; SV "v"; SV "v"]); (EVar "t2_bbbb"); (EVar "t3_abbabb")]));
   (*L5337*) SAug true "triples_res" (EAdd (EAdd (EAdd (EScale (1 # 1) (EVar "contracted_intermediate")) (EScale (-1 # 1) (EEins "abcijk->abcjik" [(EVar "contracted_intermediate")]))) (EScale (-1 # 1) (EEins "abcijk->bacijk" [(EVar "contracted_intermediate")]))) (EScale (1 # 1) (EEins "abcijk->bacjik" [(EVar "contracted_intermediate")])));
   (*L5340*) SAssign "contracted_intermediate" (EScale (1 # 2) (EEins "lmed,dajk,ebclmi->abcijk" [(ESlice (EVar "g_abab") [SV "o"; SV "o"; SV "v"; SV "v"]); (EVar "t2_bbbb"); (EVar "t3_abbabb")]));
   (*L5341*) SAug true "triples_res" (EAdd (EAdd (EAdd (EScale (1 # 1) (EVar "contracted_intermediate")) (EScale (-1 # 1) (EEins "abcijk->abcjik" [(EVar "contracted_intermediate")]))) (EScale (-1 # 1) (EEins "abcijk->bacijk" [(EVar "contracted_intermediate")]))) (EScale (1 # 1) (EEins "abcijk->bacjik" [(EVar "contracted_intermediate")])));
   (*L5344*) SAssign "contracted_intermediate" (EScale (-1 # 2) (EEins "mlde,dajk,ebciml->abcijk" [(ESlice (EVar "g_bbbb") [SV "o"; SV "o"; SV "v"; SV "v"]); (EVar "t2_bbbb"); (EVar "t3_bbbbbb")]));
   (*L5345*) SAug true "triples_res" (EAdd (EAdd (EAdd (EScale (1 # 1) (EVar "contracted_intermediate")) (EScale (-1 # 1) (EEins "abcijk->abcjik" [(EVar "contracted_intermediate")]))) (EScale (-1 # 1) (EEins "abcijk->bacijk" [(EVar "contracted_intermediate")]))) (EScale (1 # 1) (EEins "abcijk->bacjik" [(EVar "contracted_intermediate")])));
   (*L5348*) SAssign "contracted_intermediate" (EScale (-1 # 2) (EEins "mled,daij,ebcmkl->abcijk" [(ESlice (EVar "g_abab") [SV "o"; SV "o"; SV "v"; SV "v"]); (EVar "t2_bbbb"); (EVar "t3_abbabb")]));
   (*L5349*) SAug true "triples_res" (EAdd (EScale (1 # 1) (EVar "contracted_intermediate")) (EScale (-1 # 1) (EEins "abcijk->bacijk" [(EVar "contracted_intermediate")])));
   (*L5352*) SAssign "contracted_intermediate" (EScale (1 # 2) (EEins "lmed,daij,ebclmk->abcijk" [(ESlice (EVar "g_abab") [SV "o"; SV "o"; SV "v"; SV "v"]); (EVar "t2_bbbb"); (EVar "t3_abbabb")]));
   (*L5353*) SAug true "triples_res" (EAdd (EScale (1 # 1) (EVar "contracted_intermediate")) (EScale (-1 # 1) (EEins "abcijk->bacijk" [(EVar "contracted_intermediate")])));
   (*L5356*) SAssign "contracted_intermediate" (EScale (-1 # 2) (EEins "mlde,daij,ebckml->abcijk" [(ESlice (EVar "g_bbbb") [SV "o"; SV "o"; SV "v"; SV "v"]); (EVar "t2_bbbb"); (EVar "t3_bbbbbb")]));
   (*L5357*) SAug true "triples_res" (EAdd (EScale (1 # 1) (EVar "contracted_intermediate")) (EScale (-1 # 1) (EEins "abcijk->bacijk" [(EVar "contracted_intermediate")])));
   (*L5360*) SAug true "triples_res" (EScale (-1 # 2) (EEins "mlde,dcml,eabijk->abcijk" [(ESlice (EVar "g_abab") [SV "o"; SV "o"; SV "v"; SV "v"]); (EVar "t2_abab"); (EVar "t3_bbbbbb")]));
   (*L5363*) SAug true "triples_res" (EScale (-1 # 2) (EEins "lmde,dclm,eabijk->abcijk" [(ESlice (EVar "g_abab") [SV "o"; SV "o"; SV "v"; SV "v"]); (EVar "t2_abab"); (EVar "t3_bbbbbb")]));
   (*L5366*) SAug true "triples_res" (EScale (-1 # 2) (EEins "mlde,dcml,eabijk->abcijk" [(ESlice (EVar "g_bbbb") [SV "o"; SV "o"; SV "v"; SV "v"]); (EVar "t2_bbbb"); (EVar "t3_bbbbbb")]));
   (*L5369*) SAssign "contracted_intermediate" (EScale (100000000000001 # 100000000000000) (EEins "mlde,dclk,eabmji->abcijk" [(ESlice (EVar "g_aaaa") [SV "o"; SV "o"; SV "v"; SV "v"]); (EVar "t2_abab"); (EVar "t3_abbabb")]));
   (*L5370*) SAug true "triples_res" (EAdd (EScale (1 # 1) (EVar "contracted_intermediate")) (EScale (-1 # 1) (EEins "abcijk->abcikj" [(EVar "contracted_intermediate")])));
   (*L5373*) SAssign "contracted_intermediate" (EScale (100000000000001 # 100000000000000) (EEins "lmde,dclk,eabijm->abcijk" [(ESlice (EVar "g_abab") [SV "o"; SV "o"; SV "v"; SV "v"]); (EVar "t2_abab"); (EVar "t3_bbbbbb")]));
   (*L5374*) SAug true "triples_res" (EAdd (EScale (1 # 1) (EVar "contracted_intermediate")) (EScale (-1 # 1) (EEins "abcijk->abcikj" [(EVar "contracted_intermediate")])));
   (*L5377*) SAssign "contracted_intermediate" (EScale (100000000000001 # 100000000000000) (EEins "mled,dckl,eabmji->abcijk" [(ESlice (EVar "g_abab") [SV "o"; SV "o"; SV "v"; SV "v"]); (EVar "t2_bbbb"); (EVar "t3_abbabb")]));
   (*L5378*) SAug true "triples_res" (EAdd (EScale (1 # 1) (EVar "contracted_intermediate")) (EScale (-1 # 1) (EEins "abcijk->abcikj" [(EVar "contracted_intermediate")])));
   (*L5381*) SAssign "contracted_intermediate" (EScale (100000000000001 # 100000000000000) (EEins "mlde,dckl,eabijm->abcijk" [(ESlice (EVar "g_bbbb") [SV "o"; SV "o"; SV "v"; SV "v"]); (EVar "t2_bbbb"); (EVar "t3_bbbbbb")]));
   (*L5382*) SAug true "triples_res" (EAdd (EScale (1 # 1) (EVar "contracted_intermediate")) (EScale (-1 # 1) (EEins "abcijk->abcikj" [(EVar "contracted_intermediate")])));
   (*L5385*) SAug true "triples_res" (EScale (100000000000001 # 100000000000000) (EEins "mlde,dcli,eabmkj->abcijk" [(ESlice (EVar "g_aaaa") [SV "o"; SV "o"; SV "v"; SV "v"]); (EVar "t2_abab"); (EVar "t3_abbabb")]));
   (*L5388*) SAug true "triples_res" (EScale (100000000000001 # 100000000000000) (EEins "lmde,dcli,eabjkm->abcijk" [(ESlice (EVar "g_abab") [SV "o"; SV "o"; SV "v"; SV "v"]); (EVar "t2_abab"); (EVar "t3_bbbbbb")]));
   (*L5391*) SAug true "triples_res" (EScale (100000000000001 # 100000000000000) (EEins "mled,dcil,eabmkj->abcijk" [(ESlice (EVar "g_abab") [SV "o"; SV "o"; SV "v"; SV "v"]); (EVar "t2_bbbb"); (EVar "t3_abbabb")]));
   (*L5394*) SAug true "triples_res" (EScale (100000000000001 # 100000000000000) (EEins "mlde,dcil,eabjkm->abcijk" [(ESlice (EVar "g_bbbb") [SV "o"; SV "o"; SV "v"; SV "v"]); (EVar "t2_bbbb"); (EVar "t3_bbbbbb")]));
   (*L5397*) SAssign "contracted_intermediate" (EScale (-1 # 2) (EEins "mled,dcjk,eabmil->abcijk" [(ESlice (EVar "g_abab") [SV "o"; SV "o"; SV "v"; SV "v"]); (EVar "t2_bbbb"); (EVar "t3_abbabb")]));
   (*L5398*) SAug true "triples_res" (EAdd (EScale (1 # 1) (EVar "contracted_intermediate")) (EScale (-1 # 1) (EEins "abcijk->abcjik" [(EVar "contracted_intermediate")])));
   (*L5401*) SAssign "contracted_intermediate" (EScale (1 # 2) (EEins "lmed,dcjk,eablmi->abcijk" [(ESlice (EVar "g_abab") [SV "o"; SV "o"; SV "v"; SV "v"]); (EVar "t2_bbbb"); (EVar "t3_abbabb")]));
   (*L5402*) SAug true "triples_res" (EAdd (EScale (1 # 1) (EVar "contracted_intermediate")) (EScale (-1 # 1) (EEins "abcijk->abcjik" [(EVar "contracted_intermediate")])));
   (*L5405*) SAssign "contracted_intermediate" (EScale (-1 # 2) (EEins "mlde,dcjk,eabiml->abcijk" [(ESlice (EVar "g_bbbb") [SV "o"; SV "o"; SV "v"; SV "v"]); (EVar "t2_bbbb"); (EVar "t3_bbbbbb")]));
   (*L5406*) SAug true "triples_res" (EAdd (EScale (1 # 1) (EVar "contracted_intermediate")) (EScale (-1 # 1) (EEins "abcijk->abcjik" [(EVar "contracted_intermediate")])));
   (*L5409*) SAug true "triples_res" (EScale (-1 # 2) (EEins "mled,dcij,eabmkl->abcijk" [(ESlice (EVar "g_abab") [SV "o"; SV "o"; SV "v"; SV "v"]); (EVar "t2_bbbb"); (EVar "t3_abbabb")]));
   (*L5412*) SAug true "triples_res" (EScale (1 # 2) (EEins "lmed,dcij,eablmk->abcijk" [(ESlice (EVar "g_abab") [SV "o"; SV "o"; SV "v"; SV "v"]); (EVar "t2_bbbb"); (EVar "t3_abbabb")]));
   (*L5415*) SAug true "triples_res" (EScale (-1 # 2) (EEins "mlde,dcij,eabkml->abcijk" [(ESlice (EVar "g_bbbb") [SV "o"; SV "o"; SV "v"; SV "v"]); (EVar "t2_bbbb"); (EVar "t3_bbbbbb")]));
   (*L5418*) SAssign "contracted_intermediate" (EScale (1 # 4) (EEins "mlde,abml,decijk->abcijk" [(ESlice (EVar "g_bbbb") [SV "o"; SV "o"; SV "v"; SV "v"]); (EVar "t2_bbbb"); (EVar "t3_bbbbbb")]));
   (*L5419*) SAug true "triples_res" (EAdd (EScale (1 # 1) (EVar "contracted_intermediate")) (EScale (-1 # 1) (EEins "abcijk->acbijk" [(EVar "contracted_intermediate")])));
   (*L5422*) SAssign "contracted_intermediate" (EScale (1 # 2) (EEins "mlde,abkl,decmji->abcijk" [(ESlice (EVar "g_abab") [SV "o"; SV "o"; SV "v"; SV "v"]); (EVar "t2_bbbb"); (EVar "t3_abbabb")]));
   (*L5423*) SAug true "triples_res" (EAdd (EAdd (EAdd (EScale (1 # 1) (EVar "contracted_intermediate")) (EScale (-1 # 1) (EEins "abcijk->abcikj" [(EVar "contracted_intermediate")]))) (EScale (-1 # 1) (EEins "abcijk->acbijk" [(EVar "contracted_intermediate")]))) (EScale (1 # 1) (EEins "abcijk->acbikj" [(EVar "contracted_intermediate")])));
   (*L5426*) SAssign "contracted_intermediate" (EScale (1 # 2) (EEins "mled,abkl,edcmji->abcijk" [(ESlice (EVar "g_abab") [SV "o"; SV "o"; SV "v"; SV "v"]); (EVar "t2_bbbb"); (EVar "t3_abbabb")]));
   (*L5427*) SAug true "triples_res" (EAdd (EAdd (EAdd (EScale (1 # 1) (EVar "contracted_intermediate")) (EScale (-1 # 1) (EEins "abcijk->abcikj" [(EVar "contracted_intermediate")]))) (EScale (-1 # 1) (EEins "abcijk->acbijk" [(EVar "contracted_intermediate")]))) (EScale (1 # 1) (EEins "abcijk->acbikj" [(EVar "contracted_intermediate")])));
   (*L5430*) SAssign "contracted_intermediate" (EScale (-1 # 2) (EEins "mlde,abkl,decijm->abcijk" [(ESlice (EVar "g_bbbb") [SV "o"; SV "o"; SV "v"; SV "v"]); (EVar "t2_bbbb"); (EVar "t3_bbbbbb")]));
   (*L5431*) SAug true "triples_res" (EAdd (EAdd (EAdd (EScale (1 # 1) (EVar "contracted_intermediate")) (EScale (-1 # 1) (EEins "abcijk->abcikj" [(EVar "contracted_intermediate")]))) (EScale (-1 # 1) (EEins "abcijk->acbijk" [(EVar "contracted_intermediate")]))) (EScale (1 # 1) (EEins "abcijk->acbikj" [(EVar "contracted_intermediate")])));
   (*L5434*) SAssign "contracted_intermediate" (EScale (1 # 2) (EEins "mlde,abil,decmkj->abcijk" [(ESlice (EVar "g_abab") [SV "o"; SV "o"; SV "v"; SV "v"]); (EVar "t2_bbbb"); (EVar "t3_abbabb")]));
   (*L5435*) SAug true "triples_res" (EAdd (EScale (1 # 1) (EVar "contracted_intermediate")) (EScale (-1 # 1) (EEins "abcijk->acbijk" [(EVar "contracted_intermediate")])));
   (*L5438*) SAssign "contracted_intermediate" (EScale (1 # 2) (EEins "mled,abil,edcmkj->abcijk" [(ESlice (EVar "g_abab") [SV "o"; SV "o"; SV "v"; SV "v"]); (EVar "t2_bbbb"); (EVar "t3_abbabb")]));
   (*L5439*) SAug true "triples_res" (EAdd (EScale (1 # 1) (EVar "contracted_intermediate")) (EScale (-1 # 1) (EEins "abcijk->acbijk" [(EVar "contracted_intermediate")])));
   (*L5442*) SAssign "contracted_intermediate" (EScale (-1 # 2) (EEins "mlde,abil,decjkm->abcijk" [(ESlice (EVar "g_bbbb") [SV "o"; SV "o"; SV "v"; SV "v"]); (EVar "t2_bbbb"); (EVar "t3_bbbbbb")]));
   (*L5443*) SAug true "triples_res" (EAdd (EScale (1 # 1) (EVar "contracted_intermediate")) (EScale (-1 # 1) (EEins "abcijk->acbijk" [(EVar "contracted_intermediate")])));
   (*L5446*) SAug true "triples_res" (EScale (1 # 4) (EEins "mlde,bcml,deaijk->abcijk" [(ESlice (EVar "g_bbbb") [SV "o"; SV "o"; SV "v"; SV "v"]); (EVar "t2_bbbb"); (EVar "t3_bbbbbb")]));
   (*L5449*) SAssign "contracted_intermediate" (EScale (1 # 2) (EEins "mlde,bckl,deamji->abcijk" [(ESlice (EVar "g_abab") [SV "o"; SV "o"; SV "v"; SV "v"]); (EVar "t2_bbbb"); (EVar "t3_abbabb")]));
   (*L5450*) SAug true "triples_res" (EAdd (EScale (1 # 1) (EVar "contracted_intermediate")) (EScale (-1 # 1) (EEins "abcijk->abcikj" [(EVar "contracted_intermediate")])));
   (*L5453*) SAssign "contracted_intermediate" (EScale (1 # 2) (EEins "mled,bckl,edamji->abcijk" [(ESlice (EVar "g_abab") [SV "o"; SV "o"; SV "v"; SV "v"]); (EVar "t2_bbbb"); (EVar "t3_abbabb")]));
   (*L5454*) SAug true "triples_res" (EAdd (EScale (1 # 1) (EVar "contracted_intermediate")) (EScale (-1 # 1) (EEins "abcijk->abcikj" [(EVar "contracted_intermediate")])));
   (*L5457*) SAssign "contracted_intermediate" (EScale (-1 # 2) (EEins "mlde,bckl,deaijm->abcijk" [(ESlice (EVar "g_bbbb") [SV "o"; SV "o"; SV "v"; SV "v"]); (EVar "t2_bbbb"); (EVar "t3_bbbbbb")]));
   (*L5458*) SAug true "triples_res" (EAdd (EScale (1 # 1) (EVar "contracted_intermediate")) (EScale (-1 # 1) (EEins "abcijk->abcikj" [(EVar "contracted_intermediate")])));
   (*L5461*) SAug true "triples_res" (EScale (1 # 2) (EEins "mlde,bcil,deamkj->abcijk" [(ESlice (EVar "g_abab") [SV "o"; SV "o"; SV "v"; SV "v"]); (EVar "t2_bbbb"); (EVar "t3_abbabb")]));
   (*L5464*) SAug true "triples_res" (EScale (1 # 2) (EEins "mled,bcil,edamkj->abcijk" [(ESlice (EVar "g_abab") [SV "o"; SV "o"; SV "v"; SV "v"]); (EVar "t2_bbbb"); (EVar "t3_abbabb")]));
   (*L5467*) SAug true "triples_res" (EScale (-1 # 2) (EEins "mlde,bcil,deajkm->abcijk" [(ESlice (EVar "g_bbbb") [SV "o"; SV "o"; SV "v"; SV "v"]); (EVar "t2_bbbb"); (EVar "t3_bbbbbb")]));
   (*L5470*) SAssign "contracted_intermediate" (EScale (1 # 1) (EEins "lmdk,dalj,bcim->abcijk" [(ESlice (EVar "g_abab") [SV "o"; SV "o"; SV "v"; SV "o"]); (EVar "t2_abab"); (EVar "t2_bbbb")]));
   (*L5471*) SAug true "triples_res" (EAdd (EAdd (EAdd (EScale (1 # 1) (EVar "contracted_intermediate")) (EScale (-1 # 1) (EEins "abcijk->abcjik" [(EVar "contracted_intermediate")]))) (EScale (-1 # 1) (EEins "abcijk->bacijk" [(EVar "contracted_intermediate")]))) (EScale (1 # 1) (EEins "abcijk->bacjik" [(EVar "contracted_intermediate")])));
   (*L5474*) SAssign "contracted_intermediate" (EScale (1 # 1) (EEins "mldk,dajl,bcim->abcijk" [(ESlice (EVar "g_bbbb") [SV "o"; SV "o"; SV "v"; SV "o"]); (EVar "t2_bbbb"); (EVar "t2_bbbb")]));
   (*L5475*) SAug true "triples_res" (EAdd (EAdd (EAdd (EScale (1 # 1) (EVar "contracted_intermediate")) (EScale (-1 # 1) (EEins "abcijk->abcjik" [(EVar "contracted_intermediate")]))) (EScale (-1 # 1) (EEins "abcijk->bacijk" [(EVar "contracted_intermediate")]))) (EScale (1 # 1) (EEins "abcijk->bacjik" [(EVar "contracted_intermediate")])));
   (*L5478*) SAssign "contracted_intermediate" (EScale (-1 # 2) (EEins "mldk,daij,bcml->abcijk" [(ESlice (EVar "g_bbbb") [SV "o"; SV "o"; SV "v"; SV "o"]); (EVar "t2_bbbb"); (EVar "t2_bbbb")]));
   (*L5479*) SAug true "triples_res" (EAdd (EAdd (EAdd (EScale (1 # 1) (EVar "contracted_intermediate")) (EScale (-1 # 1) (EEins "abcijk->abcikj" [(EVar "contracted_intermediate")]))) (EScale (-1 # 1) (EEins "abcijk->bacijk" [(EVar "contracted_intermediate")]))) (EScale (1 # 1) (EEins "abcijk->bacikj" [(EVar "contracted_intermediate")])));
   (*L5482*) SAssign "contracted_intermediate" (EScale (1 # 1) (EEins "lmdk,dclj,abim->abcijk" [(ESlice (EVar "g_abab") [SV "o"; SV "o"; SV "v"; SV "o"]); (EVar "t2_abab"); (EVar "t2_bbbb")]));
   (*L5483*) SAug true "triples_res" (EAdd (EScale (1 # 1) (EVar "contracted_intermediate")) (EScale (-1 # 1) (EEins "abcijk->abcjik" [(EVar "contracted_intermediate")])));
   (*L5486*) SAssign "contracted_intermediate" (EScale (1 # 1) (EEins "mldk,dcjl,abim->abcijk" [(ESlice (EVar "g_bbbb") [SV "o"; SV "o"; SV "v"; SV "o"]); (EVar "t2_bbbb"); (EVar "t2_bbbb")]));
   (*L5487*) SAug true "triples_res" (EAdd (EScale (1 # 1) (EVar "contracted_intermediate")) (EScale (-1 # 1) (EEins "abcijk->abcjik" [(EVar "contracted_intermediate")])));
   (*L5490*) SAssign "contracted_intermediate" (EScale (-1 # 2) (EEins "mldk,dcij,abml->abcijk" [(ESlice (EVar "g_bbbb") [SV "o"; SV "o"; SV "v"; SV "o"]); (EVar "t2_bbbb"); (EVar "t2_bbbb")]));
   (*L5491*) SAug true "triples_res" (EAdd (EScale (1 # 1) (EVar "contracted_intermediate")) (EScale (-1 # 1) (EEins "abcijk->abcikj" [(EVar "contracted_intermediate")])));
   (*L5494*) SAssign "contracted_intermediate" (EScale (-1 # 1) (EEins "lmdj,dalk,bcim->abcijk" [(ESlice (EVar "g_abab") [SV "o"; SV "o"; SV "v"; SV "o"]); (EVar "t2_abab"); (EVar "t2_bbbb")]));
   (*L5495*) SAug true "triples_res" (EAdd (EAdd (EAdd (EScale (1 # 1) (EVar "contracted_intermediate")) (EScale (-1 # 1) (EEins "abcijk->abckji" [(EVar "contracted_intermediate")]))) (EScale (-1 # 1) (EEins "abcijk->bacijk" [(EVar "contracted_intermediate")]))) (EScale (1 # 1) (EEins "abcijk->backji" [(EVar "contracted_intermediate")])));
   (*L5498*) SAssign "contracted_intermediate" (EScale (-1 # 1) (EEins "mldj,dakl,bcim->abcijk" [(ESlice (EVar "g_bbbb") [SV "o"; SV "o"; SV "v"; SV "o"]); (EVar "t2_bbbb"); (EVar "t2_bbbb")]));
   (*L5499*) SAug true "triples_res" (EAdd (EAdd (EAdd (EScale (1 # 1) (EVar "contracted_intermediate")) (EScale (-1 # 1) (EEins "abcijk->abckji" [(EVar "contracted_intermediate")]))) (EScale (-1 # 1) (EEins "abcijk->bacijk" [(EVar "contracted_intermediate")]))) (EScale (1 # 1) (EEins "abcijk->backji" [(EVar "contracted_intermediate")])));
   (*L5502*) SAssign "contracted_intermediate" (EScale (-1 # 1) (EEins "lmdj,dclk,abim->abcijk" [(ESlice (EVar "g_abab") [SV "o"; SV "o"; SV "v"; SV "o"]); (EVar "t2_abab"); (EVar "t2_bbbb")]));
   (*L5503*) SAug true "triples_res" (EAdd (EScale (1 # 1) (EVar "contracted_intermediate")) (EScale (-1 # 1) (EEins "abcijk->abckji" [(EVar "contracted_intermediate")])));
   (*L5506*) SAssign "contracted_intermediate" (EScale (-1 # 1) (EEins "mldj,dckl,abim->abcijk" [(ESlice (EVar "g_bbbb") [SV "o"; SV "o"; SV "v"; SV "o"]); (EVar "t2_bbbb"); (EVar "t2_bbbb")]));
   (*L5507*) SAug true "triples_res" (EAdd (EScale (1 # 1) (EVar "contracted_intermediate")) (EScale (-1 # 1) (EEins "abcijk->abckji" [(EVar "contracted_intermediate")])));
   (*L5510*) SAssign "contracted_intermediate" (EScale (1 # 1) (EEins "lmdi,dalk,bcjm->abcijk" [(ESlice (EVar "g_abab") [SV "o"; SV "o"; SV "v"; SV "o"]); (EVar "t2_abab"); (EVar "t2_bbbb")]));
   (*L5511*) SAug true "triples_res" (EAdd (EAdd (EAdd (EScale (1 # 1) (EVar "contracted_intermediate")) (EScale (-1 # 1) (EEins "abcijk->abcikj" [(EVar "contracted_intermediate")]))) (EScale (-1 # 1) (EEins "abcijk->bacijk" [(EVar "contracted_intermediate")]))) (EScale (1 # 1) (EEins "abcijk->bacikj" [(EVar "contracted_intermediate")])));
   (*L5514*) SAssign "contracted_intermediate" (EScale (1 # 1) (EEins "mldi,dakl,bcjm->abcijk" [(ESlice (EVar "g_bbbb") [SV "o"; SV "o"; SV "v"; SV "o"]); (EVar "t2_bbbb"); (EVar "t2_bbbb")]));
   (*L5515*) SAug true "triples_res" (EAdd (EAdd (EAdd (EScale (1 # 1) (EVar "contracted_intermediate")) (EScale (-1 # 1) (EEins "abcijk->abcikj" [(EVar "contracted_intermediate")]))) (EScale (-1 # 1) (EEins "abcijk->bacijk" [(EVar "contracted_intermediate")]))) (EScale (1 # 1) (EEins "abcijk->bacikj" [(EVar "contracted_intermediate")])));
   (*L5518*) SAssign "contracted_intermediate" (EScale (-1 # 2) (EEins "mldi,dajk,bcml->abcijk" [(ESlice (EVar "g_bbbb") [SV "o"; SV "o"; SV "v"; SV "o"]); (EVar "t2_bbbb"); (EVar "t2_bbbb")]));
   (*L5519*) SAug true "triples_res" (EAdd (EScale (1 # 1) (EVar "contracted_intermediate")) (EScale (-1 # 1) (EEins "abcijk->bacijk" [(EVar "contracted_intermediate")])));
   (*L5522*) SAssign "contracted_intermediate" (EScale (1 # 1) (EEins "lmdi,dclk,abjm->abcijk" [(ESlice (EVar "g_abab") [SV "o"; SV "o"; SV "v"; SV "o"]); (EVar "t2_abab"); (EVar "t2_bbbb")]));
   (*L5523*) SAug true "triples_res" (EAdd (EScale (1 # 1) (EVar "contracted_intermediate")) (EScale (-1 # 1) (EEins "abcijk->abcikj" [(EVar "contracted_intermediate")])));
   (*L5526*) SAssign "contracted_intermediate" (EScale (1 # 1) (EEins "mldi,dckl,abjm->abcijk" [(ESlice (EVar "g_bbbb") [SV "o"; SV "o"; SV "v"; SV "o"]); (EVar "t2_bbbb"); (EVar "t2_bbbb")]));
   (*L5527*) SAug true "triples_res" (EAdd (EScale (1 # 1) (EVar "contracted_intermediate")) (EScale (-1 # 1) (EEins "abcijk->abcikj" [(EVar "contracted_intermediate")])));
   (*L5530*) SAug true "triples_res" (EScale (-1 # 2) (EEins "mldi,dcjk,abml->abcijk" [(ESlice (EVar "g_bbbb") [SV "o"; SV "o"; SV "v"; SV "o"]); (EVar "t2_bbbb"); (EVar "t2_bbbb")]));
   (*L5533*) SAssign "contracted_intermediate" (EScale (-1 # 2) (EEins "lade,dejk,bcil->abcijk" [(ESlice (EVar "g_bbbb") [SV "o"; SV "v"; SV "v"; SV "v"]); (EVar "t2_bbbb"); (EVar "t2_bbbb")]));
   (*L5534*) SAug true "triples_res" (EAdd (EAdd (EAdd (EScale (1 # 1) (EVar "contracted_intermediate")) (EScale (-1 # 1) (EEins "abcijk->abcjik" [(EVar "contracted_intermediate")]))) (EScale (-1 # 1) (EEins "abcijk->bacijk" [(EVar "contracted_intermediate")]))) (EScale (1 # 1) (EEins "abcijk->bacjik" [(EVar "contracted_intermediate")])));
   (*L5537*) SAssign "contracted_intermediate" (EScale (-1 # 2) (EEins "lade,deij,bckl->abcijk" [(ESlice (EVar "g_bbbb") [SV "o"; SV "v"; SV "v"; SV "v"]); (EVar "t2_bbbb"); (EVar "t2_bbbb")]));
   (*L5538*) SAug true "triples_res" (EAdd (EScale (1 # 1) (EVar "contracted_intermediate")) (EScale (-1 # 1) (EEins "abcijk->bacijk" [(EVar "contracted_intermediate")])));
   (*L5541*) SAssign "contracted_intermediate" (EScale (-1 # 1) (EEins "lade,dblk,ecij->abcijk" [(ESlice (EVar "g_abab") [SV "o"; SV "v"; SV "v"; SV "v"]); (EVar "t2_abab"); (EVar "t2_bbbb")]));
   (*L5542*) SAug true "triples_res" (EAdd (EAdd (EAdd (EScale (1 # 1) (EVar "contracted_intermediate")) (EScale (-1 # 1) (EEins "abcijk->abcikj" [(EVar "contracted_intermediate")]))) (EScale (-1 # 1) (EEins "abcijk->bacijk" [(EVar "contracted_intermediate")]))) (EScale (1 # 1) (EEins "abcijk->bacikj" [(EVar "contracted_intermediate")])));
   (*L5545*) SAssign "contracted_intermediate" (EScale (1 # 1) (EEins "lade,dbkl,ecij->abcijk" [(ESlice (EVar "g_bbbb") [SV "o"; SV "v"; SV "v"; SV "v"]); (EVar "t2_bbbb"); (EVar "t2_bbbb")]));
   (*L5546*) SAug true "triples_res" (EAdd (EAdd (EAdd (EScale (1 # 1) (EVar "contracted_intermediate")) (EScale (-1 # 1) (EEins "abcijk->abcikj" [(EVar "contracted_intermediate")]))) (EScale (-1 # 1) (EEins "abcijk->bacijk" [(EVar "contracted_intermediate")]))) (EScale (1 # 1) (EEins "abcijk->bacikj" [(EVar "contracted_intermediate")])));
   (*L5549*) SAssign "contracted_intermediate" (EScale (-1 # 1) (EEins "lade,dbli,ecjk->abcijk" [(ESlice (EVar "g_abab") [SV "o"; SV "v"; SV "v"; SV "v"]); (EVar "t2_abab"); (EVar "t2_bbbb")]));
   (*L5550*) SAug true "triples_res" (EAdd (EScale (1 # 1) (EVar "contracted_intermediate")) (EScale (-1 # 1) (EEins "abcijk->bacijk" [(EVar "contracted_intermediate")])));
   (*L5553*) SAssign "contracted_intermediate" (EScale (1 # 1) (EEins "lade,dbil,ecjk->abcijk" [(ESlice (EVar "g_bbbb") [SV "o"; SV "v"; SV "v"; SV "v"]); (EVar "t2_bbbb"); (EVar "t2_bbbb")]));
   (*L5554*) SAug true "triples_res" (EAdd (EScale (1 # 1) (EVar "contracted_intermediate")) (EScale (-1 # 1) (EEins "abcijk->bacijk" [(EVar "contracted_intermediate")])));
   (*L5557*) SAssign "contracted_intermediate" (EScale (1 # 1) (EEins "laed,dbjk,ecli->abcijk" [(ESlice (EVar "g_abab") [SV "o"; SV "v"; SV "v"; SV "v"]); (EVar "t2_bbbb"); (EVar "t2_abab")]));
   (*L5558*) SAug true "triples_res" (EAdd (EAdd (EAdd (EScale (1 # 1) (EVar "contracted_intermediate")) (EScale (-1 # 1) (EEins "abcijk->abcjik" [(EVar "contracted_intermediate")]))) (EScale (-1 # 1) (EEins "abcijk->bacijk" [(EVar "contracted_intermediate")]))) (EScale (1 # 1) (EEins "abcijk->bacjik" [(EVar "contracted_intermediate")])));
   (*L5561*) SAssign "contracted_intermediate" (EScale (1 # 1) (EEins "lade,dbjk,ecil->abcijk" [(ESlice (EVar "g_bbbb") [SV "o"; SV "v"; SV "v"; SV "v"]); (EVar "t2_bbbb"); (EVar "t2_bbbb")]));
   (*L5562*) SAug true "triples_res" (EAdd (EAdd (EAdd (EScale (1 # 1) (EVar "contracted_intermediate")) (EScale (-1 # 1) (EEins "abcijk->abcjik" [(EVar "contracted_intermediate")]))) (EScale (-1 # 1) (EEins "abcijk->bacijk" [(EVar "contracted_intermediate")]))) (EScale (1 # 1) (EEins "abcijk->bacjik" [(EVar "contracted_intermediate")])));
   (*L5565*) SAssign "contracted_intermediate" (EScale (1 # 1) (EEins "laed,dbij,eclk->abcijk" [(ESlice (EVar "g_abab") [SV "o"; SV "v"; SV "v"; SV "v"]); (EVar "t2_bbbb"); (EVar "t2_abab")]));
   (*L5566*) SAug true "triples_res" (EAdd (EScale (1 # 1) (EVar "contracted_intermediate")) (EScale (-1 # 1) (EEins "abcijk->bacijk" [(EVar "contracted_intermediate")])));
   (*L5569*) SAssign "contracted_intermediate" (EScale (1 # 1) (EEins "lade,dbij,eckl->abcijk" [(ESlice (EVar "g_bbbb") [SV "o"; SV "v"; SV "v"; SV "v"]); (EVar "t2_bbbb"); (EVar "t2_bbbb")]));
   (*L5570*) SAug true "triples_res" (EAdd (EScale (1 # 1) (EVar "contracted_intermediate")) (EScale (-1 # 1) (EEins "abcijk->bacijk" [(EVar "contracted_intermediate")])));
   (*L5573*) SAssign "contracted_intermediate" (EScale (-1 # 2) (EEins "lcde,dejk,abil->abcijk" [(ESlice (EVar "g_bbbb") [SV "o"; SV "v"; SV "v"; SV "v"]); (EVar "t2_bbbb"); (EVar "t2_bbbb")]));
   (*L5574*) SAug true "triples_res" (EAdd (EScale (1 # 1) (EVar "contracted_intermediate")) (EScale (-1 # 1) (EEins "abcijk->abcjik" [(EVar "contracted_intermediate")])));
   (*L5577*) SAug true "triples_res" (EScale (-1 # 2) (EEins "lcde,deij,abkl->abcijk" [(ESlice (EVar "g_bbbb") [SV "o"; SV "v"; SV "v"; SV "v"]); (EVar "t2_bbbb"); (EVar "t2_bbbb")]));
   (*L5580*) SAssign "contracted_intermediate" (EScale (-1 # 1) (EEins "lcde,dalk,ebij->abcijk" [(ESlice (EVar "g_abab") [SV "o"; SV "v"; SV "v"; SV "v"]); (EVar "t2_abab"); (EVar "t2_bbbb")]));
   (*L5581*) SAug true "triples_res" (EAdd (EScale (1 # 1) (EVar "contracted_intermediate")) (EScale (-1 # 1) (EEins "abcijk->abcikj" [(EVar "contracted_intermediate")])));
   (*L5584*) SAssign "contracted_intermediate" (EScale (1 # 1) (EEins "lcde,dakl,ebij->abcijk" [(ESlice (EVar "g_bbbb") [SV "o"; SV "v"; SV "v"; SV "v"]); (EVar "t2_bbbb"); (EVar "t2_bbbb")]));
   (*L5585*) SAug true "triples_res" (EAdd (EScale (1 # 1) (EVar "contracted_intermediate")) (EScale (-1 # 1) (EEins "abcijk->abcikj" [(EVar "contracted_intermediate")])));
   (*L5588*) SAug true "triples_res" (EScale (-1 # 1) (EEins "lcde,dali,ebjk->abcijk" [(ESlice (EVar "g_abab") [SV "o"; SV "v"; SV "v"; SV "v"]); (EVar "t2_abab"); (EVar "t2_bbbb")]));
   (*L5591*) SAug true "triples_res" (EScale (1 # 1) (EEins "lcde,dail,ebjk->abcijk" [(ESlice (EVar "g_bbbb") [SV "o"; SV "v"; SV "v"; SV "v"]); (EVar "t2_bbbb"); (EVar "t2_bbbb")]));
   (*L5594*) SAssign "contracted_intermediate" (EScale (1 # 1) (EEins "lced,dajk,ebli->abcijk" [(ESlice (EVar "g_abab") [SV "o"; SV "v"; SV "v"; SV "v"]); (EVar "t2_bbbb"); (EVar "t2_abab")]));
   (*L5595*) SAug true "triples_res" (EAdd (EScale (1 # 1) (EVar "contracted_intermediate")) (EScale (-1 # 1) (EEins "abcijk->abcjik" [(EVar "contracted_intermediate")])));
   (*L5598*) SAssign "contracted_intermediate" (EScale (1 # 1) (EEins "lcde,dajk,ebil->abcijk" [(ESlice (EVar "g_bbbb") [SV "o"; SV "v"; SV "v"; SV "v"]); (EVar "t2_bbbb"); (EVar "t2_bbbb")]));
   (*L5599*) SAug true "triples_res" (EAdd (EScale (1 # 1) (EVar "contracted_intermediate")) (EScale (-1 # 1) (EEins "abcijk->abcjik" [(EVar "contracted_intermediate")])));
   (*L5602*) SAug true "triples_res" (EScale (1 # 1) (EEins "lced,daij,eblk->abcijk" [(ESlice (EVar "g_abab") [SV "o"; SV "v"; SV "v"; SV "v"]); (EVar "t2_bbbb"); (EVar "t2_abab")]));
   (*L5605*) SAug true "triples_res" (EScale (1 # 1) (EEins "lcde,daij,ebkl->abcijk" [(ESlice (EVar "g_bbbb") [SV "o"; SV "v"; SV "v"; SV "v"]); (EVar "t2_bbbb"); (EVar "t2_bbbb")]));
   (*L5608*) SAssign "contracted_intermediate" (EScale (-1 # 1) (EEins "lmde,dl,eajk,bcim->abcijk" [(ESlice (EVar "g_abab") [SV "o"; SV "o"; SV "v"; SV "v"]); (EVar "t1_aa"); (EVar "t2_bbbb"); (EVar "t2_bbbb")]));
   (*L5609*) SAug true "triples_res" (EAdd (EAdd (EAdd (EScale (1 # 1) (EVar "contracted_intermediate")) (EScale (-1 # 1) (EEins "abcijk->abcjik" [(EVar "contracted_intermediate")]))) (EScale (-1 # 1) (EEins "abcijk->bacijk" [(EVar "contracted_intermediate")]))) (EScale (1 # 1) (EEins "abcijk->bacjik" [(EVar "contracted_intermediate")])));
   (*L5612*) SAssign "contracted_intermediate" (EScale (1 # 1) (EEins "mlde,dl,eajk,bcim->abcijk" [(ESlice (EVar "g_bbbb") [SV "o"; SV "o"; SV "v"; SV "v"]); (EVar "t1_bb"); (EVar "t2_bbbb"); (EVar "t2_bbbb")]));
   (*L5613*) SAug true "triples_res" (EAdd (EAdd (EAdd (EScale (1 # 1) (EVar "contracted_intermediate")) (EScale (-1 # 1) (EEins "abcijk->abcjik" [(EVar "contracted_intermediate")]))) (EScale (-1 # 1) (EEins "abcijk->bacijk" [(EVar "contracted_intermediate")]))) (EScale (1 # 1) (EEins "abcijk->bacjik" [(EVar "contracted_intermediate")])));
   (*L5616*) SAssign "contracted_intermediate" (EScale (-1 # 1) (EEins "lmde,dl,eaij,bckm->abcijk" [(ESlice (EVar "g_abab") [SV "o"; SV "o"; SV "v"; SV "v"]); (EVar "t1_aa"); (EVar "t2_bbbb"); (EVar "t2_bbbb")]));
   (*L5617*) SAug true "triples_res" (EAdd (EScale (1 # 1) (EVar "contracted_intermediate")) (EScale (-1 # 1) (EEins "abcijk->bacijk" [(EVar "contracted_intermediate")])));
   (*L5620*) SAssign "contracted_intermediate" (EScale (1 # 1) (EEins "mlde,dl,eaij,bckm->abcijk" [(ESlice (EVar "g_bbbb") [SV "o"; SV "o"; SV "v"; SV "v"]); (EVar "t1_bb"); (EVar "t2_bbbb"); (EVar "t2_bbbb")]));
   (*L5621*) SAug true "triples_res" (EAdd (EScale (1 # 1) (EVar "contracted_intermediate")) (EScale (-1 # 1) (EEins "abcijk->bacijk" [(EVar "contracted_intermediate")])));
   (*L5624*) SAssign "contracted_intermediate" (EScale (-1 # 1) (EEins "lmde,dl,ecjk,abim->abcijk" [(ESlice (EVar "g_abab") [SV "o"; SV "o"; SV "v"; SV "v"]); (EVar "t1_aa"); (EVar "t2_bbbb"); (EVar "t2_bbbb")]));
   (*L5625*) SAug true "triples_res" (EAdd (EScale (1 # 1) (EVar "contracted_intermediate")) (EScale (-1 # 1) (EEins "abcijk->abcjik" [(EVar "contracted_intermediate")])));
   (*L5628*) SAssign "contracted_intermediate" (EScale (1 # 1) (EEins "mlde,dl,ecjk,abim->abcijk" [(ESlice (EVar "g_bbbb") [SV "o"; SV "o"; SV "v"; SV "v"]); (EVar "t1_bb"); (EVar "t2_bbbb"); (EVar "t2_bbbb")]));
   (*L5629*) SAug true "triples_res" (EAdd (EScale (1 # 1) (EVar "contracted_intermediate")) (EScale (-1 # 1) (EEins "abcijk->abcjik" [(EVar "contracted_intermediate")])));
   (*L5632*) SAug true "triples_res" (EScale (-1 # 1) (EEins "lmde,dl,ecij,abkm->abcijk" [(ESlice (EVar "g_abab") [SV "o"; SV "o"; SV "v"; SV "v"]); (EVar "t1_aa"); (EVar "t2_bbbb"); (EVar "t2_bbbb")]));
   (*L5635*) SAug true "triples_res" (EScale (1 # 1) (EEins "mlde,dl,ecij,abkm->abcijk" [(ESlice (EVar "g_bbbb") [SV "o"; SV "o"; SV "v"; SV "v"]); (EVar "t1_bb"); (EVar "t2_bbbb"); (EVar "t2_bbbb")]));
   (*L5638*) SAssign "contracted_intermediate" (EScale (1 # 1) (EEins "lmed,dk,ealj,bcim->abcijk" [(ESlice (EVar "g_abab") [SV "o"; SV "o"; SV "v"; SV "v"]); (EVar "t1_bb"); (EVar "t2_abab"); (EVar "t2_bbbb")]));
   (*L5639*) SAug true "triples_res" (EAdd (EAdd (EAdd (EScale (1 # 1) (EVar "contracted_intermediate")) (EScale (-1 # 1) (EEins "abcijk->abcjik" [(EVar "contracted_intermediate")]))) (EScale (-1 # 1) (EEins "abcijk->bacijk" [(EVar "contracted_intermediate")]))) (EScale (1 # 1) (EEins "abcijk->bacjik" [(EVar "contracted_intermediate")])));
   (*L5642*) SAssign "contracted_intermediate" (EScale (-1 # 1) (EEins "mlde,dk,eajl,bcim->abcijk" [(ESlice (EVar "g_bbbb") [SV "o"; SV "o"; SV "v"; SV "v"]); (EVar "t1_bb"); (EVar "t2_bbbb"); (EVar "t2_bbbb")]));
   (*L5643*) SAug true "triples_res" (EAdd (EAdd (EAdd (EScale (1 # 1) (EVar "contracted_intermediate")) (EScale (-1 # 1) (EEins "abcijk->abcjik" [(EVar "contracted_intermediate")]))) (EScale (-1 # 1) (EEins "abcijk->bacijk" [(EVar "contracted_intermediate")]))) (EScale (1 # 1) (EEins "abcijk->bacjik" [(EVar "contracted_intermediate")])));
   (*L5646*) SAssign "contracted_intermediate" (EScale (1 # 2) (EEins "mlde,dk,eaij,bcml->abcijk" [(ESlice (EVar "g_bbbb") [SV "o"; SV "o"; SV "v"; SV "v"]); (EVar "t1_bb"); (EVar "t2_bbbb"); (EVar "t2_bbbb")]));
   (*L5647*) SAug true "triples_res" (EAdd (EAdd (EAdd (EScale (1 # 1) (EVar "contracted_intermediate")) (EScale (-1 # 1) (EEins "abcijk->abcikj" [(EVar "contracted_intermediate")]))) (EScale (-1 # 1) (EEins "abcijk->bacijk" [(EVar "contracted_intermediate")]))) (EScale (1 # 1) (EEins "abcijk->bacikj" [(EVar "contracted_intermediate")])));
   (*L5650*) SAssign "contracted_intermediate" (EScale (1 # 1) (EEins "lmed,dk,eclj,abim->abcijk" [(ESlice (EVar "g_abab") [SV "o"; SV "o"; SV "v"; SV "v"]); (EVar "t1_bb"); (EVar "t2_abab"); (EVar "t2_bbbb")]));
   (*L5651*) SAug true "triples_res" (EAdd (EScale (1 # 1) (EVar "contracted_intermediate")) (EScale (-1 # 1) (EEins "abcijk->abcjik" [(EVar "contracted_intermediate")])));
   (*L5654*) SAssign "contracted_intermediate" (EScale (-1 # 1) (EEins "mlde,dk,ecjl,abim->abcijk" [(ESlice (EVar "g_bbbb") [SV "o"; SV "o"; SV "v"; SV "v"]); (EVar "t1_bb"); (EVar "t2_bbbb"); (EVar "t2_bbbb")]));
   (*L5655*) SAug true "triples_res" (EAdd (EScale (1 # 1) (EVar "contracted_intermediate")) (EScale (-1 # 1) (EEins "abcijk->abcjik" [(EVar "contracted_intermediate")])));
   (*L5658*) SAssign "contracted_intermediate" (EScale (1 # 2) (EEins "mlde,dk,ecij,abml->abcijk" [(ESlice (EVar "g_bbbb") [SV "o"; SV "o"; SV "v"; SV "v"]); (EVar "t1_bb"); (EVar "t2_bbbb"); (EVar "t2_bbbb")]));
   (*L5659*) SAug true "triples_res" (EAdd (EScale (1 # 1) (EVar "contracted_intermediate")) (EScale (-1 # 1) (EEins "abcijk->abcikj" [(EVar "contracted_intermediate")])));
   (*L5662*) SAssign "contracted_intermediate" (EScale (-1 # 1) (EEins "lmed,dj,ealk,bcim->abcijk" [(ESlice (EVar "g_abab") [SV "o"; SV "o"; SV "v"; SV "v"]); (EVar "t1_bb"); (EVar "t2_abab"); (EVar "t2_bbbb")]));
   (*L5663*) SAug true "triples_res" (EAdd (EAdd (EAdd (EScale (1 # 1) (EVar "contracted_intermediate")) (EScale (-1 # 1) (EEins "abcijk->abckji" [(EVar "contracted_intermediate")]))) (EScale (-1 # 1) (EEins "abcijk->bacijk" [(EVar "contracted_intermediate")]))) (EScale (1 # 1) (EEins "abcijk->backji" [(EVar "contracted_intermediate")])));
   (*L5666*) SAssign "contracted_intermediate" (EScale (1 # 1) (EEins "mlde,dj,eakl,bcim->abcijk" [(ESlice (EVar "g_bbbb") [SV "o"; SV "o"; SV "v"; SV "v"]); (EVar "t1_bb"); (EVar "t2_bbbb"); (EVar "t2_bbbb")]));
   (*L5667*) SAug true "triples_res" (EAdd (EAdd (EAdd (EScale (1 # 1) (EVar "contracted_intermediate")) (EScale (-1 # 1) (EEins "abcijk->abckji" [(EVar "contracted_intermediate")]))) (EScale (-1 # 1) (EEins "abcijk->bacijk" [(EVar "contracted_intermediate")]))) (EScale (1 # 1) (EEins "abcijk->backji" [(EVar "contracted_intermediate")])));
   (*L5670*) SAssign "contracted_intermediate" (EScale (-1 # 1) (EEins "lmed,dj,eclk,abim->abcijk" [(ESlice (EVar "g_abab") [SV "o"; SV "o"; SV "v"; SV "v"]); (EVar "t1_bb"); (EVar "t2_abab"); (EVar "t2_bbbb")]));
   (*L5671*) SAug true "triples_res" (EAdd (EScale (1 # 1) (EVar "contracted_intermediate")) (EScale (-1 # 1) (EEins "abcijk->abckji" [(EVar "contracted_intermediate")])));
   (*L5674*) SAssign "contracted_intermediate" (EScale (1 # 1) (EEins "mlde,dj,eckl,abim->abcijk" [(ESlice (EVar "g_bbbb") [SV "o"; SV "o"; SV "v"; SV "v"]); (EVar "t1_bb"); (EVar "t2_bbbb"); (EVar "t2_bbbb")]));
   (*L5675*) SAug true "triples_res" (EAdd (EScale (1 # 1) (EVar "contracted_intermediate")) (EScale (-1 # 1) (EEins "abcijk->abckji" [(EVar "contracted_intermediate")])));
   (*L5678*) SAssign "contracted_intermediate" (EScale (1 # 1) (EEins "lmed,di,ealk,bcjm->abcijk" [(ESlice (EVar "g_abab") [SV "o"; SV "o"; SV "v"; SV "v"]); (EVar "t1_bb"); (EVar "t2_abab"); (EVar "t2_bbbb")]));
   (*L5679*) SAug true "triples_res" (EAdd (EAdd (EAdd (EScale (1 # 1) (EVar "contracted_intermediate")) (EScale (-1 # 1) (EEins "abcijk->abcikj" [(EVar "contracted_intermediate")]))) (EScale (-1 # 1) (EEins "abcijk->bacijk" [(EVar "contracted_intermediate")]))) (EScale (1 # 1) (EEins "abcijk->bacikj" [(EVar "contracted_intermediate")])));
   (*L5682*) SAssign "contracted_intermediate" (EScale (-1 # 1) (EEins "mlde,di,eakl,bcjm->abcijk" [(ESlice (EVar "g_bbbb") [SV "o"; SV "o"; SV "v"; SV "v"]); (EVar "t1_bb"); (EVar "t2_bbbb"); (EVar "t2_bbbb")]));
   (*L5683*) SAug true "triples_res" (EAdd (EAdd (EAdd (EScale (1 # 1) (EVar "contracted_intermediate")) (EScale (-1 # 1) (EEins "abcijk->abcikj" [(EVar "contracted_intermediate")]))) (EScale (-1 # 1) (EEins "abcijk->bacijk" [(EVar "contracted_intermediate")]))) (EScale (1 # 1) (EEins "abcijk->bacikj" [(EVar "contracted_intermediate")])));
   (*L5686*) SAssign "contracted_intermediate" (EScale (1 # 2) (EEins "mlde,di,eajk,bcml->abcijk" [(ESlice (EVar "g_bbbb") [SV "o"; SV "o"; SV "v"; SV "v"]); (EVar "t1_bb"); (EVar "t2_bbbb"); (EVar "t2_bbbb")]));
   (*L5687*) SAug true "triples_res" (EAdd (EScale (1 # 1) (EVar "contracted_intermediate")) (EScale (-1 # 1) (EEins "abcijk->bacijk" [(EVar "contracted_intermediate")])));
   (*L5690*) SAssign "contracted_intermediate" (EScale (1 # 1) (EEins "lmed,di,eclk,abjm->abcijk" [(ESlice (EVar "g_abab") [SV "o"; SV "o"; SV "v"; SV "v"]); (EVar "t1_bb"); (EVar "t2_abab"); (EVar "t2_bbbb")]));
   (*L5691*) SAug true "triples_res" (EAdd (EScale (1 # 1) (EVar "contracted_intermediate")) (EScale (-1 # 1) (EEins "abcijk->abcikj" [(EVar "contracted_intermediate")])));
   (*L5694*) SAssign "contracted_intermediate" (EScale (-1 # 1) (EEins "mlde,di,eckl,abjm->abcijk" [(ESlice (EVar "g_bbbb") [SV "o"; SV "o"; SV "v"; SV "v"]); (EVar "t1_bb"); (EVar "t2_bbbb"); (EVar "t2_bbbb")]));
   (*L5695*) SAug true "triples_res" (EAdd (EScale (1 # 1) (EVar "contracted_intermediate")) (EScale (-1 # 1) (EEins "abcijk->abcikj" [(EVar "contracted_intermediate")])));
   (*L5698*) SAug true "triples_res" (EScale (1 # 2) (EEins "mlde,di,ecjk,abml->abcijk" [(ESlice (EVar "g_bbbb") [SV "o"; SV "o"; SV "v"; SV "v"]); (EVar "t1_bb"); (EVar "t2_bbbb"); (EVar "t2_bbbb")]));
   (*L5701*) SAssign "contracted_intermediate" (EScale (1 # 2) (EEins "mlde,al,dejk,bcim->abcijk" [(ESlice (EVar "g_bbbb") [SV "o"; SV "o"; SV "v"; SV "v"]); (EVar "t1_bb"); (EVar "t2_bbbb"); (EVar "t2_bbbb")]));
   (*L5702*) SAug true "triples_res" (EAdd (EAdd (EAdd (EScale (1 # 1) (EVar "contracted_intermediate")) (EScale (-1 # 1) (EEins "abcijk->abcjik" [(EVar "contracted_intermediate")]))) (EScale (-1 # 1) (EEins "abcijk->bacijk" [(EVar "contracted_intermediate")]))) (EScale (1 # 1) (EEins "abcijk->bacjik" [(EVar "contracted_intermediate")])));
   (*L5705*) SAssign "contracted_intermediate" (EScale (1 # 2) (EEins "mlde,al,deij,bckm->abcijk" [(ESlice (EVar "g_bbbb") [SV "o"; SV "o"; SV "v"; SV "v"]); (EVar "t1_bb"); (EVar "t2_bbbb"); (EVar "t2_bbbb")]));
   (*L5706*) SAug true "triples_res" (EAdd (EScale (1 # 1) (EVar "contracted_intermediate")) (EScale (-1 # 1) (EEins "abcijk->bacijk" [(EVar "contracted_intermediate")])));
   (*L5709*) SAssign "contracted_intermediate" (EScale (1 # 1) (EEins "mlde,al,dbmk,ecij->abcijk" [(ESlice (EVar "g_abab") [SV "o"; SV "o"; SV "v"; SV "v"]); (EVar "t1_bb"); (EVar "t2_abab"); (EVar "t2_bbbb")]));
   (*L5710*) SAug true "triples_res" (EAdd (EAdd (EAdd (EScale (1 # 1) (EVar "contracted_intermediate")) (EScale (-1 # 1) (EEins "abcijk->abcikj" [(EVar "contracted_intermediate")]))) (EScale (-1 # 1) (EEins "abcijk->bacijk" [(EVar "contracted_intermediate")]))) (EScale (1 # 1) (EEins "abcijk->bacikj" [(EVar "contracted_intermediate")])));
   (*L5713*) SAssign "contracted_intermediate" (EScale (-1 # 1) (EEins "mlde,al,dbkm,ecij->abcijk" [(ESlice (EVar "g_bbbb") [SV "o"; SV "o"; SV "v"; SV "v"]); (EVar "t1_bb"); (EVar "t2_bbbb"); (EVar "t2_bbbb")]));
   (*L5714*) SAug true "triples_res" (EAdd (EAdd (EAdd (EScale (1 # 1) (EVar "contracted_intermediate")) (EScale (-1 # 1) (EEins "abcijk->abcikj" [(EVar "contracted_intermediate")]))) (EScale (-1 # 1) (EEins "abcijk->bacijk" [(EVar "contracted_intermediate")]))) (EScale (1 # 1) (EEins "abcijk->bacikj" [(EVar "contracted_intermediate")])));
   (*L5717*) SAssign "contracted_intermediate" (EScale (1 # 1) (EEins "mlde,al,dbmi,ecjk->abcijk" [(ESlice (EVar "g_abab") [SV "o"; SV "o"; SV "v"; SV "v"]); (EVar "t1_bb"); (EVar "t2_abab"); (EVar "t2_bbbb")]));
   (*L5718*) SAug true "triples_res" (EAdd (EScale (1 # 1) (EVar "contracted_intermediate")) (EScale (-1 # 1) (EEins "abcijk->bacijk" [(EVar "contracted_intermediate")])));
   (*L5721*) SAssign "contracted_intermediate" (EScale (-1 # 1) (EEins "mlde,al,dbim,ecjk->abcijk" [(ESlice (EVar "g_bbbb") [SV "o"; SV "o"; SV "v"; SV "v"]); (EVar "t1_bb"); (EVar "t2_bbbb"); (EVar "t2_bbbb")]));
   (*L5722*) SAug true "triples_res" (EAdd (EScale (1 # 1) (EVar "contracted_intermediate")) (EScale (-1 # 1) (EEins "abcijk->bacijk" [(EVar "contracted_intermediate")])));
   (*L5725*) SAssign "contracted_intermediate" (EScale (-1 # 1) (EEins "mled,al,dbjk,ecmi->abcijk" [(ESlice (EVar "g_abab") [SV "o"; SV "o"; SV "v"; SV "v"]); (EVar "t1_bb"); (EVar "t2_bbbb"); (EVar "t2_abab")]));
   (*L5726*) SAug true "triples_res" (EAdd (EAdd (EAdd (EScale (1 # 1) (EVar "contracted_intermediate")) (EScale (-1 # 1) (EEins "abcijk->abcjik" [(EVar "contracted_intermediate")]))) (EScale (-1 # 1) (EEins "abcijk->bacijk" [(EVar "contracted_intermediate")]))) (EScale (1 # 1) (EEins "abcijk->bacjik" [(EVar "contracted_intermediate")])));
   (*L5729*) SAssign "contracted_intermediate" (EScale (-1 # 1) (EEins "mlde,al,dbjk,ecim->abcijk" [(ESlice (EVar "g_bbbb") [SV "o"; SV "o"; SV "v"; SV "v"]); (EVar "t1_bb"); (EVar "t2_bbbb"); (EVar "t2_bbbb")]));
   (*L5730*) SAug true "triples_res" (EAdd (EAdd (EAdd (EScale (1 # 1) (EVar "contracted_intermediate")) (EScale (-1 # 1) (EEins "abcijk->abcjik" [(EVar "contracted_intermediate")]))) (EScale (-1 # 1) (EEins "abcijk->bacijk" [(EVar "contracted_intermediate")]))) (EScale (1 # 1) (EEins "abcijk->bacjik" [(EVar "contracted_intermediate")])));
   (*L5733*) SAssign "contracted_intermediate" (EScale (-1 # 1) (EEins "mled,al,dbij,ecmk->abcijk" [(ESlice (EVar "g_abab") [SV "o"; SV "o"; SV "v"; SV "v"]); (EVar "t1_bb"); (EVar "t2_bbbb"); (EVar "t2_abab")]));
   (*L5734*) SAug true "triples_res" (EAdd (EScale (1 # 1) (EVar "contracted_intermediate")) (EScale (-1 # 1) (EEins "abcijk->bacijk" [(EVar "contracted_intermediate")])));
   (*L5737*) SAssign "contracted_intermediate" (EScale (-1 # 1) (EEins "mlde,al,dbij,eckm->abcijk" [(ESlice (EVar "g_bbbb") [SV "o"; SV "o"; SV "v"; SV "v"]); (EVar "t1_bb"); (EVar "t2_bbbb"); (EVar "t2_bbbb")]));
   (*L5738*) SAug true "triples_res" (EAdd (EScale (1 # 1) (EVar "contracted_intermediate")) (EScale (-1 # 1) (EEins "abcijk->bacijk" [(EVar "contracted_intermediate")])));
   (*L5741*) SAssign "contracted_intermediate" (EScale (1 # 2) (EEins "mlde,cl,dejk,abim->abcijk" [(ESlice (EVar "g_bbbb") [SV "o"; SV "o"; SV "v"; SV "v"]); (EVar "t1_bb"); (EVar "t2_bbbb"); (EVar "t2_bbbb")]));
   (*L5742*) SAug true "triples_res" (EAdd (EScale (1 # 1) (EVar "contracted_intermediate")) (EScale (-1 # 1) (EEins "abcijk->abcjik" [(EVar "contracted_intermediate")])));
   (*L5745*) SAug true "triples_res" (EScale (1 # 2) (EEins "mlde,cl,deij,abkm->abcijk" [(ESlice (EVar "g_bbbb") [SV "o"; SV "o"; SV "v"; SV "v"]); (EVar "t1_bb"); (EVar "t2_bbbb"); (EVar "t2_bbbb")]));
   (*L5748*) SAssign "contracted_intermediate" (EScale (1 # 1) (EEins "mlde,cl,damk,ebij->abcijk" [(ESlice (EVar "g_abab") [SV "o"; SV "o"; SV "v"; SV "v"]); (EVar "t1_bb"); (EVar "t2_abab"); (EVar "t2_bbbb")]));
   (*L5749*) SAug true "triples_res" (EAdd (EScale (1 # 1) (EVar "contracted_intermediate")) (EScale (-1 # 1) (EEins "abcijk->abcikj" [(EVar "contracted_intermediate")])));
   (*L5752*) SAssign "contracted_intermediate" (EScale (-1 # 1) (EEins "mlde,cl,dakm,ebij->abcijk" [(ESlice (EVar "g_bbbb") [SV "o"; SV "o"; SV "v"; SV "v"]); (EVar "t1_bb"); (EVar "t2_bbbb"); (EVar "t2_bbbb")]));
   (*L5753*) SAug true "triples_res" (EAdd (EScale (1 # 1) (EVar "contracted_intermediate")) (EScale (-1 # 1) (EEins "abcijk->abcikj" [(EVar "contracted_intermediate")])));
   (*L5756*) SAug true "triples_res" (EScale (1 # 1) (EEins "mlde,cl,dami,ebjk->abcijk" [(ESlice (EVar "g_abab") [SV "o"; SV "o"; SV "v"; SV "v"]); (EVar "t1_bb"); (EVar "t2_abab"); (EVar "t2_bbbb")]));
   (*L5759*) SAug true "triples_res" (EScale (-1 # 1) (EEins "mlde,cl,daim,ebjk->abcijk" [(ESlice (EVar "g_bbbb") [SV "o"; SV "o"; SV "v"; SV "v"]); (EVar "t1_bb"); (EVar "t2_bbbb"); (EVar "t2_bbbb")]));
   (*L5762*) SAssign "contracted_intermediate" (EScale (-1 # 1) (EEins "mled,cl,dajk,ebmi->abcijk" [(ESlice (EVar "g_abab") [SV "o"; SV "o"; SV "v"; SV "v"]); (EVar "t1_bb"); (EVar "t2_bbbb"); (EVar "t2_abab")]));
   (*L5763*) SAug true "triples_res" (EAdd (EScale (1 # 1) (EVar "contracted_intermediate")) (EScale (-1 # 1) (EEins "abcijk->abcjik" [(EVar "contracted_intermediate")])));
   (*L5766*) SAssign "contracted_intermediate" (EScale (-1 # 1) (EEins "mlde,cl,dajk,ebim->abcijk" [(ESlice (EVar "g_bbbb") [SV "o"; SV "o"; SV "v"; SV "v"]); (EVar "t1_bb"); (EVar "t2_bbbb"); (EVar "t2_bbbb")]));
   (*L5767*) SAug true "triples_res" (EAdd (EScale (1 # 1) (EVar "contracted_intermediate")) (EScale (-1 # 1) (EEins "abcijk->abcjik" [(EVar "contracted_intermediate")])));
   (*L5770*) SAug true "triples_res" (EScale (-1 # 1) (EEins "mled,cl,daij,ebmk->abcijk" [(ESlice (EVar "g_abab") [SV "o"; SV "o"; SV "v"; SV "v"]); (EVar "t1_bb"); (EVar "t2_bbbb"); (EVar "t2_abab")]));
   (*L5773*) SAug true "triples_res" (EScale (-1 # 1) (EEins "mlde,cl,daij,ebkm->abcijk" [(ESlice (EVar "g_bbbb") [SV "o"; SV "o"; SV "v"; SV "v"]); (EVar "t1_bb"); (EVar "t2_bbbb"); (EVar "t2_bbbb")]));
   (*L5776*) SAssign "contracted_intermediate" (EScale (1 # 1) (EEins "mldk,dj,al,bcim->abcijk" [(ESlice (EVar "g_bbbb") [SV "o"; SV "o"; SV "v"; SV "o"]); (EVar "t1_bb"); (EVar "t1_bb"); (EVar "t2_bbbb")]));
   (*L5777*) SAug true "triples_res" (EAdd (EAdd (EAdd (EScale (1 # 1) (EVar "contracted_intermediate")) (EScale (-1 # 1) (EEins "abcijk->abcjik" [(EVar "contracted_intermediate")]))) (EScale (-1 # 1) (EEins "abcijk->bacijk" [(EVar "contracted_intermediate")]))) (EScale (1 # 1) (EEins "abcijk->bacjik" [(EVar "contracted_intermediate")])));
   (*L5780*) SAssign "contracted_intermediate" (EScale (1 # 1) (EEins "mldk,dj,cl,abim->abcijk" [(ESlice (EVar "g_bbbb") [SV "o"; SV "o"; SV "v"; SV "o"]); (EVar "t1_bb"); (EVar "t1_bb"); (EVar "t2_bbbb")]));
   (*L5781*) SAug true "triples_res" (EAdd (EScale (1 # 1) (EVar "contracted_intermediate")) (EScale (-1 # 1) (EEins "abcijk->abcjik" [(EVar "contracted_intermediate")])));
   (*L5784*) SAssign "contracted_intermediate" (EScale (1 # 1) (EEins "mldk,al,bm,dcij->abcijk" [(ESlice (EVar "g_bbbb") [SV "o"; SV "o"; SV "v"; SV "o"]); (EVar "t1_bb"); (EVar "t1_bb"); (EVar "t2_bbbb")]));
   (*L5785*) SAug true "triples_res" (EAdd (EAdd (EAdd (EScale (1 # 1) (EVar "contracted_intermediate")) (EScale (-1 # 1) (EEins "abcijk->abcikj" [(EVar "contracted_intermediate")]))) (EScale (-1 # 1) (EEins "abcijk->acbijk" [(EVar "contracted_intermediate")]))) (EScale (1 # 1) (EEins "abcijk->acbikj" [(EVar "contracted_intermediate")])));
   (*L5788*) SAssign "contracted_intermediate" (EScale (1 # 1) (EEins "mldk,bl,cm,daij->abcijk" [(ESlice (EVar "g_bbbb") [SV "o"; SV "o"; SV "v"; SV "o"]); (EVar "t1_bb"); (EVar "t1_bb"); (EVar "t2_bbbb")]));
   (*L5789*) SAug true "triples_res" (EAdd (EScale (1 # 1) (EVar "contracted_intermediate")) (EScale (-1 # 1) (EEins "abcijk->abcikj" [(EVar "contracted_intermediate")])));
   (*L5792*) SAssign "contracted_intermediate" (EScale (-1 # 1) (EEins "mldj,dk,al,bcim->abcijk" [(ESlice (EVar "g_bbbb") [SV "o"; SV "o"; SV "v"; SV "o"]); (EVar "t1_bb"); (EVar "t1_bb"); (EVar "t2_bbbb")]));
   (*L5793*) SAug true "triples_res" (EAdd (EAdd (EAdd (EScale (1 # 1) (EVar "contracted_intermediate")) (EScale (-1 # 1) (EEins "abcijk->abckji" [(EVar "contracted_intermediate")]))) (EScale (-1 # 1) (EEins "abcijk->bacijk" [(EVar "contracted_intermediate")]))) (EScale (1 # 1) (EEins "abcijk->backji" [(EVar "contracted_intermediate")])));
   (*L5796*) SAssign "contracted_intermediate" (EScale (-1 # 1) (EEins "mldj,dk,cl,abim->abcijk" [(ESlice (EVar "g_bbbb") [SV "o"; SV "o"; SV "v"; SV "o"]); (EVar "t1_bb"); (EVar "t1_bb"); (EVar "t2_bbbb")]));
   (*L5797*) SAug true "triples_res" (EAdd (EScale (1 # 1) (EVar "contracted_intermediate")) (EScale (-1 # 1) (EEins "abcijk->abckji" [(EVar "contracted_intermediate")])));
   (*L5800*) SAssign "contracted_intermediate" (EScale (1 # 1) (EEins "mldi,dk,al,bcjm->abcijk" [(ESlice (EVar "g_bbbb") [SV "o"; SV "o"; SV "v"; SV "o"]); (EVar "t1_bb"); (EVar "t1_bb"); (EVar "t2_bbbb")]));
   (*L5801*) SAug true "triples_res" (EAdd (EAdd (EAdd (EScale (1 # 1) (EVar "contracted_intermediate")) (EScale (-1 # 1) (EEins "abcijk->abcikj" [(EVar "contracted_intermediate")]))) (EScale (-1 # 1) (EEins "abcijk->bacijk" [(EVar "contracted_intermediate")]))) (EScale (1 # 1) (EEins "abcijk->bacikj" [(EVar "contracted_intermediate")])));
   (*L5804*) SAssign "contracted_intermediate" (EScale (1 # 1) (EEins "mldi,dk,cl,abjm->abcijk" [(ESlice (EVar "g_bbbb") [SV "o"; SV "o"; SV "v"; SV "o"]); (EVar "t1_bb"); (EVar "t1_bb"); (EVar "t2_bbbb")]));
   (*L5805*) SAug true "triples_res" (EAdd (EScale (1 # 1) (EVar "contracted_intermediate")) (EScale (-1 # 1) (EEins "abcijk->abcikj" [(EVar "contracted_intermediate")])));
   (*L5808*) SAssign "contracted_intermediate" (EScale (1 # 1) (EEins "mldi,al,bm,dcjk->abcijk" [(ESlice (EVar "g_bbbb") [SV "o"; SV "o"; SV "v"; SV "o"]); (EVar "t1_bb"); (EVar "t1_bb"); (EVar "t2_bbbb")]));
   (*L5809*) SAug true "triples_res" (EAdd (EScale (1 # 1) (EVar "contracted_intermediate")) (EScale (-1 # 1) (EEins "abcijk->acbijk" [(EVar "contracted_intermediate")])));
   (*L5812*) SAug true "triples_res" (EScale (1 # 1) (EEins "mldi,bl,cm,dajk->abcijk" [(ESlice (EVar "g_bbbb") [SV "o"; SV "o"; SV "v"; SV "o"]); (EVar "t1_bb"); (EVar "t1_bb"); (EVar "t2_bbbb")]));
   (*L5815*) SAssign "contracted_intermediate" (EScale (1 # 1) (EEins "lade,dk,ej,bcil->abcijk" [(ESlice (EVar "g_bbbb") [SV "o"; SV "v"; SV "v"; SV "v"]); (EVar "t1_bb"); (EVar "t1_bb"); (EVar "t2_bbbb")]));
   (*L5816*) SAug true "triples_res" (EAdd (EAdd (EAdd (EScale (1 # 1) (EVar "contracted_intermediate")) (EScale (-1 # 1) (EEins "abcijk->abcjik" [(EVar "contracted_intermediate")]))) (EScale (-1 # 1) (EEins "abcijk->bacijk" [(EVar "contracted_intermediate")]))) (EScale (1 # 1) (EEins "abcijk->bacjik" [(EVar "contracted_intermediate")])));
   (*L5819*) SAssign "contracted_intermediate" (EScale (1 # 1) (EEins "lade,dk,bl,ecij->abcijk" [(ESlice (EVar "g_bbbb") [SV "o"; SV "v"; SV "v"; SV "v"]); (EVar "t1_bb"); (EVar "t1_bb"); (EVar "t2_bbbb")]));
   (*L5820*) SAug true "triples_res" (EAdd (EAdd (EAdd (EScale (1 # 1) (EVar "contracted_intermediate")) (EScale (-1 # 1) (EEins "abcijk->abcikj" [(EVar "contracted_intermediate")]))) (EScale (-1 # 1) (EEins "abcijk->acbijk" [(EVar "contracted_intermediate")]))) (EScale (1 # 1) (EEins "abcijk->acbikj" [(EVar "contracted_intermediate")])));
   (*L5823*) SAssign "contracted_intermediate" (EScale (1 # 1) (EEins "lade,dj,ei,bckl->abcijk" [(ESlice (EVar "g_bbbb") [SV "o"; SV "v"; SV "v"; SV "v"]); (EVar "t1_bb"); (EVar "t1_bb"); (EVar "t2_bbbb")]));
   (*L5824*) SAug true "triples_res" (EAdd (EScale (1 # 1) (EVar "contracted_intermediate")) (EScale (-1 # 1) (EEins "abcijk->bacijk" [(EVar "contracted_intermediate")])));
   (*L5827*) SAssign "contracted_intermediate" (EScale (1 # 1) (EEins "lade,di,bl,ecjk->abcijk" [(ESlice (EVar "g_bbbb") [SV "o"; SV "v"; SV "v"; SV "v"]); (EVar "t1_bb"); (EVar "t1_bb"); (EVar "t2_bbbb")]));
   (*L5828*) SAug true "triples_res" (EAdd (EScale (1 # 1) (EVar "contracted_intermediate")) (EScale (-1 # 1) (EEins "abcijk->acbijk" [(EVar "contracted_intermediate")])));
   (*L5831*) SAssign "contracted_intermediate" (EScale (-1 # 1) (EEins "lbde,dk,al,ecij->abcijk" [(ESlice (EVar "g_bbbb") [SV "o"; SV "v"; SV "v"; SV "v"]); (EVar "t1_bb"); (EVar "t1_bb"); (EVar "t2_bbbb")]));
   (*L5832*) SAug true "triples_res" (EAdd (EAdd (EAdd (EScale (1 # 1) (EVar "contracted_intermediate")) (EScale (-1 # 1) (EEins "abcijk->abcikj" [(EVar "contracted_intermediate")]))) (EScale (-1 # 1) (EEins "abcijk->cbaijk" [(EVar "contracted_intermediate")]))) (EScale (1 # 1) (EEins "abcijk->cbaikj" [(EVar "contracted_intermediate")])));
   (*L5835*) SAssign "contracted_intermediate" (EScale (-1 # 1) (EEins "lbde,di,al,ecjk->abcijk" [(ESlice (EVar "g_bbbb") [SV "o"; SV "v"; SV "v"; SV "v"]); (EVar "t1_bb"); (EVar "t1_bb"); (EVar "t2_bbbb")]));
   (*L5836*) SAug true "triples_res" (EAdd (EScale (1 # 1) (EVar "contracted_intermediate")) (EScale (-1 # 1) (EEins "abcijk->cbaijk" [(EVar "contracted_intermediate")])));
   (*L5839*) SAssign "contracted_intermediate" (EScale (1 # 1) (EEins "lcde,dk,ej,abil->abcijk" [(ESlice (EVar "g_bbbb") [SV "o"; SV "v"; SV "v"; SV "v"]); (EVar "t1_bb"); (EVar "t1_bb"); (EVar "t2_bbbb")]));
   (*L5840*) SAug true "triples_res" (EAdd (EScale (1 # 1) (EVar "contracted_intermediate")) (EScale (-1 # 1) (EEins "abcijk->abcjik" [(EVar "contracted_intermediate")])));
   (*L5843*) SAssign "contracted_intermediate" (EScale (1 # 1) (EEins "lcde,dk,al,ebij->abcijk" [(ESlice (EVar "g_bbbb") [SV "o"; SV "v"; SV "v"; SV "v"]); (EVar "t1_bb"); (EVar "t1_bb"); (EVar "t2_bbbb")]));
   (*L5844*) SAug true "triples_res" (EAdd (EAdd (EAdd (EScale (1 # 1) (EVar "contracted_intermediate")) (EScale (-1 # 1) (EEins "abcijk->abcikj" [(EVar "contracted_intermediate")]))) (EScale (-1 # 1) (EEins "abcijk->bacijk" [(EVar "contracted_intermediate")]))) (EScale (1 # 1) (EEins "abcijk->bacikj" [(EVar "contracted_intermediate")])));
   (*L5847*) SAug true "triples_res" (EScale (1 # 1) (EEins "lcde,dj,ei,abkl->abcijk" [(ESlice (EVar "g_bbbb") [SV "o"; SV "v"; SV "v"; SV "v"]); (EVar "t1_bb"); (EVar "t1_bb"); (EVar "t2_bbbb")]));
   (*L5850*) SAssign "contracted_intermediate" (EScale (1 # 1) (EEins "lcde,di,al,ebjk->abcijk" [(ESlice (EVar "g_bbbb") [SV "o"; SV "v"; SV "v"; SV "v"]); (EVar "t1_bb"); (EVar "t1_bb"); (EVar "t2_bbbb")]));
   (*L5851*) SAug true "triples_res" (EAdd (EScale (1 # 1) (EVar "contracted_intermediate")) (EScale (-1 # 1) (EEins "abcijk->bacijk" [(EVar "contracted_intermediate")])));
   (*L5854*) SAssign "contracted_intermediate" (EScale (-1 # 1) (EEins "lmde,dl,ek,abcijm->abcijk" [(ESlice (EVar "g_abab") [SV "o"; SV "o"; SV "v"; SV "v"]); (EVar "t1_aa"); (EVar "t1_bb"); (EVar "t3_bbbbbb")]));
   (*L5855*) SAug true "triples_res" (EAdd (EScale (1 # 1) (EVar "contracted_intermediate")) (EScale (-1 # 1) (EEins "abcijk->abcikj" [(EVar "contracted_intermediate")])));
   (*L5858*) SAssign "contracted_intermediate" (EScale (1 # 1) (EEins "mlde,dl,ek,abcijm->abcijk" [(ESlice (EVar "g_bbbb") [SV "o"; SV "o"; SV "v"; SV "v"]); (EVar "t1_bb"); (EVar "t1_bb"); (EVar "t3_bbbbbb")]));
   (*L5859*) SAug true "triples_res" (EAdd (EScale (1 # 1) (EVar "contracted_intermediate")) (EScale (-1 # 1) (EEins "abcijk->abcikj" [(EVar "contracted_intermediate")])));
   (*L5862*) SAug true "triples_res" (EScale (-1 # 1) (EEins "lmde,dl,ei,abcjkm->abcijk" [(ESlice (EVar "g_abab") [SV "o"; SV "o"; SV "v"; SV "v"]); (EVar "t1_aa"); (EVar "t1_bb"); (EVar "t3_bbbbbb")]));
   (*L5865*) SAug true "triples_res" (EScale (1 # 1) (EEins "mlde,dl,ei,abcjkm->abcijk" [(ESlice (EVar "g_bbbb") [SV "o"; SV "o"; SV "v"; SV "v"]); (EVar "t1_bb"); (EVar "t1_bb"); (EVar "t3_bbbbbb")]));
   (*L5868*) SAssign "contracted_intermediate" (EScale (-1 # 1) (EEins "lmde,dl,am,ebcijk->abcijk" [(ESlice (EVar "g_abab") [SV "o"; SV "o"; SV "v"; SV "v"]); (EVar "t1_aa"); (EVar "t1_bb"); (EVar "t3_bbbbbb")]));
   (*L5869*) SAug true "triples_res" (EAdd (EScale (1 # 1) (EVar "contracted_intermediate")) (EScale (-1 # 1) (EEins "abcijk->bacijk" [(EVar "contracted_intermediate")])));
   (*L5872*) SAssign "contracted_intermediate" (EScale (1 # 1) (EEins "mlde,dl,am,ebcijk->abcijk" [(ESlice (EVar "g_bbbb") [SV "o"; SV "o"; SV "v"; SV "v"]); (EVar "t1_bb"); (EVar "t1_bb"); (EVar "t3_bbbbbb")]));
   (*L5873*) SAug true "triples_res" (EAdd (EScale (1 # 1) (EVar "contracted_intermediate")) (EScale (-1 # 1) (EEins "abcijk->bacijk" [(EVar "contracted_intermediate")])));
   (*L5876*) SAug true "triples_res" (EScale (-1 # 1) (EEins "lmde,dl,cm,eabijk->abcijk" [(ESlice (EVar "g_abab") [SV "o"; SV "o"; SV "v"; SV "v"]); (EVar "t1_aa"); (EVar "t1_bb"); (EVar "t3_bbbbbb")]));
   (*L5879*) SAug true "triples_res" (EScale (1 # 1) (EEins "mlde,dl,cm,eabijk->abcijk" [(ESlice (EVar "g_bbbb") [SV "o"; SV "o"; SV "v"; SV "v"]); (EVar "t1_bb"); (EVar "t1_bb"); (EVar "t3_bbbbbb")]));
   (*L5882*) SAssign "contracted_intermediate" (EScale (-1 # 2) (EEins "mlde,dk,ej,abciml->abcijk" [(ESlice (EVar "g_bbbb") [SV "o"; SV "o"; SV "v"; SV "v"]); (EVar "t1_bb"); (EVar "t1_bb"); (EVar "t3_bbbbbb")]));
   (*L5883*) SAug true "triples_res" (EAdd (EScale (1 # 1) (EVar "contracted_intermediate")) (EScale (-1 # 1) (EEins "abcijk->abcjik" [(EVar "contracted_intermediate")])));
   (*L5886*) SAssign "contracted_intermediate" (EScale (1 # 1) (EEins "mled,dk,al,ebcmji->abcijk" [(ESlice (EVar "g_abab") [SV "o"; SV "o"; SV "v"; SV "v"]); (EVar "t1_bb"); (EVar "t1_bb"); (EVar "t3_abbabb")]));
   (*L5887*) SAug true "triples_res" (EAdd (EAdd (EAdd (EScale (1 # 1) (EVar "contracted_intermediate")) (EScale (-1 # 1) (EEins "abcijk->abcikj" [(EVar "contracted_intermediate")]))) (EScale (-1 # 1) (EEins "abcijk->bacijk" [(EVar "contracted_intermediate")]))) (EScale (1 # 1) (EEins "abcijk->bacikj" [(EVar "contracted_intermediate")])));
   (*L5890*) SAssign "contracted_intermediate" (EScale (1 # 1) (EEins "mlde,dk,al,ebcijm->abcijk" [(ESlice (EVar "g_bbbb") [SV "o"; SV "o"; SV "v"; SV "v"]); (EVar "t1_bb"); (EVar "t1_bb"); (EVar "t3_bbbbbb")]));
   (*L5891*) SAug true "triples_res" (EAdd (EAdd (EAdd (EScale (1 # 1) (EVar "contracted_intermediate")) (EScale (-1 # 1) (EEins "abcijk->abcikj" [(EVar "contracted_intermediate")]))) (EScale (-1 # 1) (EEins "abcijk->bacijk" [(EVar "contracted_intermediate")]))) (EScale (1 # 1) (EEins "abcijk->bacikj" [(EVar "contracted_intermediate")])));
   (*L5894*) SAssign "contracted_intermediate" (EScale (1 # 1) (EEins "mled,dk,cl,eabmji->abcijk" [(ESlice (EVar "g_abab") [SV "o"; SV "o"; SV "v"; SV "v"]); (EVar "t1_bb"); (EVar "t1_bb"); (EVar "t3_abbabb")]));
   (*L5895*) SAug true "triples_res" (EAdd (EScale (1 # 1) (EVar "contracted_intermediate")) (EScale (-1 # 1) (EEins "abcijk->abcikj" [(EVar "contracted_intermediate")])));
   (*L5898*) SAssign "contracted_intermediate" (EScale (1 # 1) (EEins "mlde,dk,cl,eabijm->abcijk" [(ESlice (EVar "g_bbbb") [SV "o"; SV "o"; SV "v"; SV "v"]); (EVar "t1_bb"); (EVar "t1_bb"); (EVar "t3_bbbbbb")]));
   (*L5899*) SAug true "triples_res" (EAdd (EScale (1 # 1) (EVar "contracted_intermediate")) (EScale (-1 # 1) (EEins "abcijk->abcikj" [(EVar "contracted_intermediate")])));
   (*L5902*) SAug true "triples_res" (EScale (-1 # 2) (EEins "mlde,dj,ei,abckml->abcijk" [(ESlice (EVar "g_bbbb") [SV "o"; SV "o"; SV "v"; SV "v"]); (EVar "t1_bb"); (EVar "t1_bb"); (EVar "t3_bbbbbb")]));
   (*L5905*) SAssign "contracted_intermediate" (EScale (1 # 1) (EEins "mled,di,al,ebcmkj->abcijk" [(ESlice (EVar "g_abab") [SV "o"; SV "o"; SV "v"; SV "v"]); (EVar "t1_bb"); (EVar "t1_bb"); (EVar "t3_abbabb")]));
   (*L5906*) SAug true "triples_res" (EAdd (EScale (1 # 1) (EVar "contracted_intermediate")) (EScale (-1 # 1) (EEins "abcijk->bacijk" [(EVar "contracted_intermediate")])));
   (*L5909*) SAssign "contracted_intermediate" (EScale (1 # 1) (EEins "mlde,di,al,ebcjkm->abcijk" [(ESlice (EVar "g_bbbb") [SV "o"; SV "o"; SV "v"; SV "v"]); (EVar "t1_bb"); (EVar "t1_bb"); (EVar "t3_bbbbbb")]));
   (*L5910*) SAug true "triples_res" (EAdd (EScale (1 # 1) (EVar "contracted_intermediate")) (EScale (-1 # 1) (EEins "abcijk->bacijk" [(EVar "contracted_intermediate")])));
   (*L5913*) SAug true "triples_res" (EScale (1 # 1) (EEins "mled,di,cl,eabmkj->abcijk" [(ESlice (EVar "g_abab") [SV "o"; SV "o"; SV "v"; SV "v"]); (EVar "t1_bb"); (EVar "t1_bb"); (EVar "t3_abbabb")]));
   (*L5916*) SAug true "triples_res" (EScale (1 # 1) (EEins "mlde,di,cl,eabjkm->abcijk" [(ESlice (EVar "g_bbbb") [SV "o"; SV "o"; SV "v"; SV "v"]); (EVar "t1_bb"); (EVar "t1_bb"); (EVar "t3_bbbbbb")]));
   (*L5919*) SAssign "contracted_intermediate" (EScale (-1 # 2) (EEins "mlde,al,bm,decijk->abcijk" [(ESlice (EVar "g_bbbb") [SV "o"; SV "o"; SV "v"; SV "v"]); (EVar "t1_bb"); (EVar "t1_bb"); (EVar "t3_bbbbbb")]));
   (*L5920*) SAug true "triples_res" (EAdd (EScale (1 # 1) (EVar "contracted_intermediate")) (EScale (-1 # 1) (EEins "abcijk->acbijk" [(EVar "contracted_intermediate")])));
   (*L5923*) SAug true "triples_res" (EScale (-1 # 2) (EEins "mlde,bl,cm,deaijk->abcijk" [(ESlice (EVar "g_bbbb") [SV "o"; SV "o"; SV "v"; SV "v"]); (EVar "t1_bb"); (EVar "t1_bb"); (EVar "t3_bbbbbb")]));
   (*L5926*) SAssign "contracted_intermediate" (EScale (-1 # 1) (EEins "mlde,dk,ej,al,bcim->abcijk" [(ESlice (EVar "g_bbbb") [SV "o"; SV "o"; SV "v"; SV "v"]); (EVar "t1_bb"); (EVar "t1_bb"); (EVar "t1_bb"); (EVar "t2_bbbb")]));
   (*L5927*) SAug true "triples_res" (EAdd (EAdd (EAdd (EScale (1 # 1) (EVar "contracted_intermediate")) (EScale (-1 # 1) (EEins "abcijk->abcjik" [(EVar "contracted_intermediate")]))) (EScale (-1 # 1) (EEins "abcijk->bacijk" [(EVar "contracted_intermediate")]))) (EScale (1 # 1) (EEins "abcijk->bacjik" [(EVar "contracted_intermediate")])));
   (*L5930*) SAssign "contracted_intermediate" (EScale (-1 # 1) (EEins "mlde,dk,ej,cl,abim->abcijk" [(ESlice (EVar "g_bbbb") [SV "o"; SV "o"; SV "v"; SV "v"]); (EVar "t1_bb"); (EVar "t1_bb"); (EVar "t1_bb"); (EVar "t2_bbbb")]));
   (*L5931*) SAug true "triples_res" (EAdd (EScale (1 # 1) (EVar "contracted_intermediate")) (EScale (-1 # 1) (EEins "abcijk->abcjik" [(EVar "contracted_intermediate")])));
   (*L5934*) SAssign "contracted_intermediate" (EScale (-1 # 1) (EEins "mlde,dk,al,bm,ecij->abcijk" [(ESlice (EVar "g_bbbb") [SV "o"; SV "o"; SV "v"; SV "v"]); (EVar "t1_bb"); (EVar "t1_bb"); (EVar "t1_bb"); (EVar "t2_bbbb")]));
   (*L5935*) SAug true "triples_res" (EAdd (EAdd (EAdd (EScale (1 # 1) (EVar "contracted_intermediate")) (EScale (-1 # 1) (EEins "abcijk->abcikj" [(EVar "contracted_intermediate")]))) (EScale (-1 # 1) (EEins "abcijk->acbijk" [(EVar "contracted_intermediate")]))) (EScale (1 # 1) (EEins "abcijk->acbikj" [(EVar "contracted_intermediate")])));
   (*L5938*) SAssign "contracted_intermediate" (EScale (-1 # 1) (EEins "mlde,dk,bl,cm,eaij->abcijk" [(ESlice (EVar "g_bbbb") [SV "o"; SV "o"; SV "v"; SV "v"]); (EVar "t1_bb"); (EVar "t1_bb"); (EVar "t1_bb"); (EVar "t2_bbbb")]));
   (*L5939*) SAug true "triples_res" (EAdd (EScale (1 # 1) (EVar "contracted_intermediate")) (EScale (-1 # 1) (EEins "abcijk->abcikj" [(EVar "contracted_intermediate")])));
   (*L5942*) SAssign "contracted_intermediate" (EScale (-1 # 1) (EEins "mlde,dj,ei,al,bckm->abcijk" [(ESlice (EVar "g_bbbb") [SV "o"; SV "o"; SV "v"; SV "v"]); (EVar "t1_bb"); (EVar "t1_bb"); (EVar "t1_bb"); (EVar "t2_bbbb")]));
   (*L5943*) SAug true "triples_res" (EAdd (EScale (1 # 1) (EVar "contracted_intermediate")) (EScale (-1 # 1) (EEins "abcijk->bacijk" [(EVar "contracted_intermediate")])));
   (*L5946*) SAug true "triples_res" (EScale (-1 # 1) (EEins "mlde,dj,ei,cl,abkm->abcijk" [(ESlice (EVar "g_bbbb") [SV "o"; SV "o"; SV "v"; SV "v"]); (EVar "t1_bb"); (EVar "t1_bb"); (EVar "t1_bb"); (EVar "t2_bbbb")]));
   (*L5949*) SAssign "contracted_intermediate" (EScale (-1 # 1) (EEins "mlde,di,al,bm,ecjk->abcijk" [(ESlice (EVar "g_bbbb") [SV "o"; SV "o"; SV "v"; SV "v"]); (EVar "t1_bb"); (EVar "t1_bb"); (EVar "t1_bb"); (EVar "t2_bbbb")]));
   (*L5950*) SAug true "triples_res" (EAdd (EScale (1 # 1) (EVar "contracted_intermediate")) (EScale (-1 # 1) (EEins "abcijk->acbijk" [(EVar "contracted_intermediate")])));
   (*L5953*) SAug true "triples_res" (EScale (-1 # 1) (EEins "mlde,di,bl,cm,eajk->abcijk" [(ESlice (EVar "g_bbbb") [SV "o"; SV "o"; SV "v"; SV "v"]); (EVar "t1_bb"); (EVar "t1_bb"); (EVar "t1_bb"); (EVar "t2_bbbb")]))]
  (*L5955*) (EVar "triples_res").
