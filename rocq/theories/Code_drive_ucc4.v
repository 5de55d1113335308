(** Generated by tools/transcribe.py from /repo/UT2/drive_ucc4.py; do not edit. *)
From Coq Require Import String List QArith.
From Verif Require Import Interp.
Import ListNotations.
Open Scope string_scope.

(** /repo/UT2/drive_ucc4.py:97-112  def t1_residEqns *)
Definition t1_residEqns : fn := mkFn
  ["t1"; "t2"; "f"; "g"; "o"; "v"]
  [(*L99*) SAssign "singles_res" (EScale (-1 # 2) (EEins "kjbi,bakj->ai" [(ESlice (EVar "g") [SV "o"; SV "o"; SV "v"; SV "o"]); (EVar "t2")]));
   (*L102*) SAug true "singles_res" (EScale (-1 # 2) (EEins "jabc,bcij->ai" [(ESlice (EVar "g") [SV "o"; SV "v"; SV "v"; SV "v"]); (EVar "t2")]));
   (*L105*) SAug true "singles_res" (EScale (1 # 1) (EEins "ai->ai" [(ESlice (EVar "f") [SV "v"; SV "o"])]));
   (*L108*) SAug true "singles_res" (EScale (-1 # 1) (EEins "ji,aj->ai" [(ESlice (EVar "f") [SV "o"; SV "o"]); (EVar "t1")]));
   (*L111*) SAug true "singles_res" (EScale (1 # 1) (EEins "ab,bi->ai" [(ESlice (EVar "f") [SV "v"; SV "v"]); (EVar "t1")]))]
  (*L112*) (EVar "singles_res").

(** /repo/UT2/drive_ucc4.py:123-167  def t3_resid *)
Definition t3_resid : fn := mkFn
  ["t3"; "t2"; "f"; "g"; "o"; "v"]
  [(*L125*) SAssign "contracted_intermediate" (EScale (-1 # 1) (EEins "lk,abcijl->abcijk" [(ESlice (EVar "f") [SV "o"; SV "o"]); (EVar "t3")]));
   (*L126*) SAssign "triples_res" (EAdd (EScale (1 # 1) (EVar "contracted_intermediate")) (EScale (-1 # 1) (EEins "abcijk->abcikj" [(EVar "contracted_intermediate")])));
   (*L129*) SAug true "triples_res" (EScale (-1 # 1) (EEins "li,abcjkl->abcijk" [(ESlice (EVar "f") [SV "o"; SV "o"]); (EVar "t3")]));
   (*L132*) SAssign "contracted_intermediate" (EScale (1 # 1) (EEins "ad,dbcijk->abcijk" [(ESlice (EVar "f") [SV "v"; SV "v"]); (EVar "t3")]));
   (*L133*) SAug true "triples_res" (EAdd (EScale (1 # 1) (EVar "contracted_intermediate")) (EScale (-1 # 1) (EEins "abcijk->bacijk" [(EVar "contracted_intermediate")])));
   (*L136*) SAug true "triples_res" (EScale (1 # 1) (EEins "cd,dabijk->abcijk" [(ESlice (EVar "f") [SV "v"; SV "v"]); (EVar "t3")]));
   (*L139*) SAssign "contracted_intermediate" (EScale (-1 # 1) (EEins "lajk,bcil->abcijk" [(ESlice (EVar "g") [SV "o"; SV "v"; SV "o"; SV "o"]); (EVar "t2")]));
   (*L140*) SAug true "triples_res" (EAdd (EAdd (EAdd (EScale (1 # 1) (EVar "contracted_intermediate")) (EScale (-1 # 1) (EEins "abcijk->abcjik" [(EVar "contracted_intermediate")]))) (EScale (-1 # 1) (EEins "abcijk->bacijk" [(EVar "contracted_intermediate")]))) (EScale (1 # 1) (EEins "abcijk->bacjik" [(EVar "contracted_intermediate")])));
   (*L143*) SAssign "contracted_intermediate" (EScale (-1 # 1) (EEins "laij,bckl->abcijk" [(ESlice (EVar "g") [SV "o"; SV "v"; SV "o"; SV "o"]); (EVar "t2")]));
   (*L144*) SAug true "triples_res" (EAdd (EScale (1 # 1) (EVar "contracted_intermediate")) (EScale (-1 # 1) (EEins "abcijk->bacijk" [(EVar "contracted_intermediate")])));
   (*L147*) SAssign "contracted_intermediate" (EScale (-1 # 1) (EEins "lcjk,abil->abcijk" [(ESlice (EVar "g") [SV "o"; SV "v"; SV "o"; SV "o"]); (EVar "t2")]));
   (*L148*) SAug true "triples_res" (EAdd (EScale (1 # 1) (EVar "contracted_intermediate")) (EScale (-1 # 1) (EEins "abcijk->abcjik" [(EVar "contracted_intermediate")])));
   (*L151*) SAug true "triples_res" (EScale (-1 # 1) (EEins "lcij,abkl->abcijk" [(ESlice (EVar "g") [SV "o"; SV "v"; SV "o"; SV "o"]); (EVar "t2")]));
   (*L154*) SAssign "contracted_intermediate" (EScale (-1 # 1) (EEins "abdk,dcij->abcijk" [(ESlice (EVar "g") [SV "v"; SV "v"; SV "v"; SV "o"]); (EVar "t2")]));
   (*L155*) SAug true "triples_res" (EAdd (EAdd (EAdd (EScale (1 # 1) (EVar "contracted_intermediate")) (EScale (-1 # 1) (EEins "abcijk->abcikj" [(EVar "contracted_intermediate")]))) (EScale (-1 # 1) (EEins "abcijk->acbijk" [(EVar "contracted_intermediate")]))) (EScale (1 # 1) (EEins "abcijk->acbikj" [(EVar "contracted_intermediate")])));
   (*L158*) SAssign "contracted_intermediate" (EScale (-1 # 1) (EEins "abdi,dcjk->abcijk" [(ESlice (EVar "g") [SV "v"; SV "v"; SV "v"; SV "o"]); (EVar "t2")]));
   (*L159*) SAug true "triples_res" (EAdd (EScale (1 # 1) (EVar "contracted_intermediate")) (EScale (-1 # 1) (EEins "abcijk->acbijk" [(EVar "contracted_intermediate")])));
   (*L162*) SAssign "contracted_intermediate" (EScale (-1 # 1) (EEins "bcdk,daij->abcijk" [(ESlice (EVar "g") [SV "v"; SV "v"; SV "v"; SV "o"]); (EVar "t2")]));
   (*L163*) SAug true "triples_res" (EAdd (EScale (1 # 1) (EVar "contracted_intermediate")) (EScale (-1 # 1) (EEins "abcijk->abcikj" [(EVar "contracted_intermediate")])));
   (*L166*) SAug true "triples_res" (EScale (-1 # 1) (EEins "bcdi,dajk->abcijk" [(ESlice (EVar "g") [SV "v"; SV "v"; SV "v"; SV "o"]); (EVar "t2")]))]
  (*L167*) (EVar "triples_res").

(** /repo/UT2/drive_ucc4.py:175-193  def offset_t2resid_t2squared *)
Definition offset_t2resid_t2squared : fn := mkFn
  ["t2"; "g"; "o"; "v"]
  [(*L177*) SAssign "contracted_intermediate" (EScale (-1 # 2) (EEins "lkcd,cdjk,abil->abij" [(ESlice (EVar "g") [SV "o"; SV "o"; SV "v"; SV "v"]); (EVar "t2"); (EVar "t2")]));
   (*L178*) SAssign "doubles_res" (EAdd (EScale (1 # 1) (EVar "contracted_intermediate")) (EScale (-1 # 1) (EEins "abij->abji" [(EVar "contracted_intermediate")])));
   (*L181*) SAug true "doubles_res" (EScale (1 # 4) (EEins "lkcd,cdij,ablk->abij" [(ESlice (EVar "g") [SV "o"; SV "o"; SV "v"; SV "v"]); (EVar "t2"); (EVar "t2")]));
   (*L184*) SAug true "doubles_res" (EScale (-1 # 2) (EEins "lkcd,calk,dbij->abij" [(ESlice (EVar "g") [SV "o"; SV "o"; SV "v"; SV "v"]); (EVar "t2"); (EVar "t2")]));
   (*L187*) SAssign "contracted_intermediate" (EScale (1 # 1) (EEins "lkcd,cajk,dbil->abij" [(ESlice (EVar "g") [SV "o"; SV "o"; SV "v"; SV "v"]); (EVar "t2"); (EVar "t2")]));
   (*L188*) SAug true "doubles_res" (EAdd (EScale (1 # 1) (EVar "contracted_intermediate")) (EScale (-1 # 1) (EEins "abij->abji" [(EVar "contracted_intermediate")])));
   (*L191*) SAug true "doubles_res" (EScale (-1 # 2) (EEins "lkcd,caij,dblk->abij" [(ESlice (EVar "g") [SV "o"; SV "o"; SV "v"; SV "v"]); (EVar "t2"); (EVar "t2")]))]
  (*L193*) (EScale (1 # 2) (EVar "doubles_res")).

(** /repo/UT2/drive_ucc4.py:195-213  def offset_t2resid_t2dag_w_t2 *)
Definition offset_t2resid_t2dag_w_t2 : fn := mkFn
  ["t2"; "t2_dag"; "g"; "o"; "v"]
  [(*L197*) SAssign "contracted_intermediate" (EScale (-1 # 2) (EEins "lkcd,cdjk,abil->abij" [(EVar "t2_dag"); (ESlice (EVar "g") [SV "v"; SV "v"; SV "o"; SV "o"]); (EVar "t2")]));
   (*L198*) SAssign "doubles_res" (EAdd (EScale (1 # 1) (EVar "contracted_intermediate")) (EScale (-1 # 1) (EEins "abij->abji" [(EVar "contracted_intermediate")])));
   (*L201*) SAug true "doubles_res" (EScale (1 # 4) (EEins "lkcd,cdij,ablk->abij" [(EVar "t2_dag"); (ESlice (EVar "g") [SV "v"; SV "v"; SV "o"; SV "o"]); (EVar "t2")]));
   (*L204*) SAug true "doubles_res" (EScale (-1 # 2) (EEins "lkcd,calk,dbij->abij" [(EVar "t2_dag"); (ESlice (EVar "g") [SV "v"; SV "v"; SV "o"; SV "o"]); (EVar "t2")]));
   (*L207*) SAssign "contracted_intermediate" (EScale (1 # 1) (EEins "lkcd,cajk,dbil->abij" [(EVar "t2_dag"); (ESlice (EVar "g") [SV "v"; SV "v"; SV "o"; SV "o"]); (EVar "t2")]));
   (*L208*) SAug true "doubles_res" (EAdd (EScale (1 # 1) (EVar "contracted_intermediate")) (EScale (-1 # 1) (EEins "abij->abji" [(EVar "contracted_intermediate")])));
   (*L211*) SAug true "doubles_res" (EScale (-1 # 2) (EEins "lkcd,caij,dblk->abij" [(EVar "t2_dag"); (ESlice (EVar "g") [SV "v"; SV "v"; SV "o"; SV "o"]); (EVar "t2")]))]
  (*L213*) (EVar "doubles_res").

(** /repo/UT2/drive_ucc4.py:215-237  def offset_t2resid_T1_T3 *)
Definition offset_t2resid_T1_T3 : fn := mkFn
  ["t1"; "t3"; "g"; "o"; "v"]
  [(*L220*) SAssign "contracted_intermediate" (EScale (1 # 1) (EEins "kaij,bk->abij" [(ESlice (EVar "g") [SV "o"; SV "v"; SV "o"; SV "o"]); (EVar "t1")]));
   (*L221*) SAssign "doubles_res" (EAdd (EScale (1 # 1) (EVar "contracted_intermediate")) (EScale (-1 # 1) (EEins "abij->baij" [(EVar "contracted_intermediate")])));
   (*L224*) SAssign "contracted_intermediate" (EScale (1 # 1) (EEins "abcj,ci->abij" [(ESlice (EVar "g") [SV "v"; SV "v"; SV "v"; SV "o"]); (EVar "t1")]));
   (*L225*) SAug true "doubles_res" (EAdd (EScale (1 # 1) (EVar "contracted_intermediate")) (EScale (-1 # 1) (EEins "abij->abji" [(EVar "contracted_intermediate")])));
   (*L230*) SAssign "contracted_intermediate" (EScale (1 # 2) (EEins "lkcj,cabilk->abij" [(ESlice (EVar "g") [SV "o"; SV "o"; SV "v"; SV "o"]); (EVar "t3")]));
   (*L231*) SAug true "doubles_res" (EAdd (EScale (1 # 1) (EVar "contracted_intermediate")) (EScale (-1 # 1) (EEins "abij->abji" [(EVar "contracted_intermediate")])));
   (*L234*) SAssign "contracted_intermediate" (EScale (1 # 2) (EEins "kacd,cdbijk->abij" [(ESlice (EVar "g") [SV "o"; SV "v"; SV "v"; SV "v"]); (EVar "t3")]));
   (*L235*) SAug true "doubles_res" (EAdd (EScale (1 # 1) (EVar "contracted_intermediate")) (EScale (-1 # 1) (EEins "abij->baij" [(EVar "contracted_intermediate")])))]
  (*L237*) (EVar "doubles_res").
