(** Generated by tools/transcribe.py from /repo/UT2/t2residEqnsSlow.py; do not edit. *)
From Coq Require Import String List QArith.
From Verif Require Import Interp.
Import ListNotations.
Open Scope string_scope.

(** /repo/UT2/t2residEqnsSlow.py:123-139  def pccd_t2resid *)
Definition pccd_t2resid : fn := mkFn
  ["t2"; "f"; "g"; "o"; "v"]
  [(*L124*) SAssign "doubles_res" (EEins "aaii" [(ESlice (EVar "g") [SV "v"; SV "v"; SV "o"; SV "o"])]);
   (*L125*) SAug true "doubles_res" (EEins "aa,aaii" [(ESlice (EVar "f") [SV "v"; SV "v"]); (EVar "t2")]);
   (*L126*) SAug false "doubles_res" (EEins "ii,aaii" [(ESlice (EVar "f") [SV "o"; SV "o"]); (EVar "t2")]);
   (*L128*) SAug false "doubles_res" (EEins "jjaa,aajj,aaii" [(ESlice (EVar "g") [SV "o"; SV "o"; SV "v"; SV "v"]); (EVar "t2"); (EVar "t2")]);
   (*L129*) SAug false "doubles_res" (EEins "iibb,bbii,aaii" [(ESlice (EVar "g") [SV "o"; SV "o"; SV "v"; SV "v"]); (EVar "t2"); (EVar "t2")]);
   (*L131*) SAssign "reduced" (ESub (ESub (EScale (2 # 1) (EEins "iaia" [(ESlice (EVar "g") [SV "o"; SV "v"; SV "o"; SV "v"])])) (EEins "iaai" [(ESlice (EVar "g") [SV "o"; SV "v"; SV "o"; SV "v"])])) (EEins "iiaa,aaii" [(ESlice (EVar "g") [SV "o"; SV "v"; SV "o"; SV "v"]); (EVar "t2")]));
   (*L133*) SAug false "doubles_res" (EMul (EVar "reduced") (EVar "t2"));
   (*L136*) SAug true "doubles_res" (EEins "bbaa,bbii" [(ESlice (EVar "g") [SV "v"; SV "v"; SV "v"; SV "v"]); (EVar "t2")]);
   (*L137*) SAug true "doubles_res" (EEins "iijj,aajj" [(ESlice (EVar "g") [SV "o"; SV "o"; SV "o"; SV "o"]); (EVar "t2")]);
   (*L138*) SAug true "doubles_res" (EEins "bbjj,aajj,bbii" [(ESlice (EVar "g") [SV "v"; SV "o"; SV "v"; SV "o"]); (EVar "t2"); (EVar "t2")])]
  (*L139*) (EVar "doubles_res").

(** /repo/UT2/t2residEqnsSlow.py:141-180  def ccd_t2residual *)
Definition ccd_t2residual : fn := mkFn
  ["t2"; "f"; "g"; "o"; "v"]
  [(*L143*) SAssign "contracted_intermediate" (EScale (-1 # 1) (EEins "kj,abik->abij" [(ESlice (EVar "f") [SV "o"; SV "o"]); (EVar "t2")]));
   (*L144*) SAssign "doubles_res" (EAdd (EScale (1 # 1) (EVar "contracted_intermediate")) (EScale (-1 # 1) (EEins "abij->abji" [(EVar "contracted_intermediate")])));
   (*L147*) SAssign "contracted_intermediate" (EScale (1 # 1) (EEins "ac,cbij->abij" [(ESlice (EVar "f") [SV "v"; SV "v"]); (EVar "t2")]));
   (*L148*) SAug true "doubles_res" (EAdd (EScale (1 # 1) (EVar "contracted_intermediate")) (EScale (-1 # 1) (EEins "abij->baij" [(EVar "contracted_intermediate")])));
   (*L151*) SAug true "doubles_res" (EScale (1 # 1) (EEins "abij->abij" [(ESlice (EVar "g") [SV "v"; SV "v"; SV "o"; SV "o"])]));
   (*L154*) SAug true "doubles_res" (EScale (1 # 2) (EEins "lkij,ablk->abij" [(ESlice (EVar "g") [SV "o"; SV "o"; SV "o"; SV "o"]); (EVar "t2")]));
   (*L157*) SAssign "contracted_intermediate" (EScale (1 # 1) (EEins "kacj,cbik->abij" [(ESlice (EVar "g") [SV "o"; SV "v"; SV "v"; SV "o"]); (EVar "t2")]));
   (*L158*) SAug true "doubles_res" (EAdd (EAdd (EAdd (EScale (1 # 1) (EVar "contracted_intermediate")) (EScale (-1 # 1) (EEins "abij->abji" [(EVar "contracted_intermediate")]))) (EScale (-1 # 1) (EEins "abij->baij" [(EVar "contracted_intermediate")]))) (EScale (1 # 1) (EEins "abij->baji" [(EVar "contracted_intermediate")])));
   (*L161*) SAug true "doubles_res" (EScale (1 # 2) (EEins "abcd,cdij->abij" [(ESlice (EVar "g") [SV "v"; SV "v"; SV "v"; SV "v"]); (EVar "t2")]));
   (*L164*) SAssign "contracted_intermediate" (EScale (-1 # 2) (EEins "lkcd,cdjk,abil->abij" [(ESlice (EVar "g") [SV "o"; SV "o"; SV "v"; SV "v"]); (EVar "t2"); (EVar "t2")]));
   (*L165*) SAug true "doubles_res" (EAdd (EScale (1 # 1) (EVar "contracted_intermediate")) (EScale (-1 # 1) (EEins "abij->abji" [(EVar "contracted_intermediate")])));
   (*L168*) SAug true "doubles_res" (EScale (1 # 4) (EEins "lkcd,cdij,ablk->abij" [(ESlice (EVar "g") [SV "o"; SV "o"; SV "v"; SV "v"]); (EVar "t2"); (EVar "t2")]));
   (*L171*) SAug true "doubles_res" (EScale (-1 # 2) (EEins "lkcd,calk,dbij->abij" [(ESlice (EVar "g") [SV "o"; SV "o"; SV "v"; SV "v"]); (EVar "t2"); (EVar "t2")]));
   (*L174*) SAssign "contracted_intermediate" (EScale (1 # 1) (EEins "lkcd,cajk,dbil->abij" [(ESlice (EVar "g") [SV "o"; SV "o"; SV "v"; SV "v"]); (EVar "t2"); (EVar "t2")]));
   (*L175*) SAug true "doubles_res" (EAdd (EScale (1 # 1) (EVar "contracted_intermediate")) (EScale (-1 # 1) (EEins "abij->abji" [(EVar "contracted_intermediate")])));
   (*L178*) SAug true "doubles_res" (EScale (-1 # 2) (EEins "lkcd,caij,dblk->abij" [(ESlice (EVar "g") [SV "o"; SV "o"; SV "v"; SV "v"]); (EVar "t2"); (EVar "t2")]))]
  (*L180*) (EVar "doubles_res").

(** /repo/UT2/t2residEqnsSlow.py:182-200  def doubles_resLCCDoffset *)
Definition doubles_resLCCDoffset : fn := mkFn
  ["t2"; "f"; "g"; "o"; "v"]
  [(*L184*) SAssign "contracted_intermediate" (EScale (-1 # 2) (EEins "lkcd,cdjk,abil->abij" [(ESlice (EVar "g") [SV "o"; SV "o"; SV "v"; SV "v"]); (EVar "t2"); (EVar "t2")]));
   (*L185*) SAssign "doubles_res" (EAdd (EScale (1 # 1) (EVar "contracted_intermediate")) (EScale (-1 # 1) (EEins "abij->abji" [(EVar "contracted_intermediate")])));
   (*L188*) SAug true "doubles_res" (EScale (1 # 4) (EEins "lkcd,cdij,ablk->abij" [(ESlice (EVar "g") [SV "o"; SV "o"; SV "v"; SV "v"]); (EVar "t2"); (EVar "t2")]));
   (*L191*) SAug true "doubles_res" (EScale (-1 # 2) (EEins "lkcd,calk,dbij->abij" [(ESlice (EVar "g") [SV "o"; SV "o"; SV "v"; SV "v"]); (EVar "t2"); (EVar "t2")]));
   (*L194*) SAssign "contracted_intermediate" (EScale (1 # 1) (EEins "lkcd,cajk,dbil->abij" [(ESlice (EVar "g") [SV "o"; SV "o"; SV "v"; SV "v"]); (EVar "t2"); (EVar "t2")]));
   (*L195*) SAug true "doubles_res" (EAdd (EScale (1 # 1) (EVar "contracted_intermediate")) (EScale (-1 # 1) (EEins "abij->abji" [(EVar "contracted_intermediate")])));
   (*L198*) SAug true "doubles_res" (EScale (-1 # 2) (EEins "lkcd,caij,dblk->abij" [(ESlice (EVar "g") [SV "o"; SV "o"; SV "v"; SV "v"]); (EVar "t2"); (EVar "t2")]))]
  (*L200*) (EVar "doubles_res").
