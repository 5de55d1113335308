(** Generated by tools/transcribe.py from /repo/UT2/pdagq_T3corr.py; do not edit. *)
From Coq Require Import String List QArith.
From Verif Require Import Interp.
Import ListNotations.
Open Scope string_scope.

(** /repo/UT2/pdagq_T3corr.py:4-37  def build_T3 *)
Definition build_T3 : fn := mkFn
  ["g"; "o"; "v"; "t2"]
  [(*L7*) SAssign "contracted_intermediate" (EScale (-1 # 1) (EEins "lajk,bcil->abcijk" [(ESlice (EVar "g") [SV "o"; SV "v"; SV "o"; SV "o"]); (EVar "t2")]));
   (*L8*) SAssign "triples_res" (EAdd (EAdd (EAdd (EScale (1 # 1) (EVar "contracted_intermediate")) (EScale (-1 # 1) (EEins "abcijk->abcjik" [(EVar "contracted_intermediate")]))) (EScale (-1 # 1) (EEins "abcijk->bacijk" [(EVar "contracted_intermediate")]))) (EScale (1 # 1) (EEins "abcijk->bacjik" [(EVar "contracted_intermediate")])));
   (*L11*) SAssign "contracted_intermediate" (EScale (-1 # 1) (EEins "laij,bckl->abcijk" [(ESlice (EVar "g") [SV "o"; SV "v"; SV "o"; SV "o"]); (EVar "t2")]));
   (*L12*) SAug true "triples_res" (EAdd (EScale (1 # 1) (EVar "contracted_intermediate")) (EScale (-1 # 1) (EEins "abcijk->bacijk" [(EVar "contracted_intermediate")])));
   (*L15*) SAssign "contracted_intermediate" (EScale (-1 # 1) (EEins "lcjk,abil->abcijk" [(ESlice (EVar "g") [SV "o"; SV "v"; SV "o"; SV "o"]); (EVar "t2")]));
   (*L16*) SAug true "triples_res" (EAdd (EScale (1 # 1) (EVar "contracted_intermediate")) (EScale (-1 # 1) (EEins "abcijk->abcjik" [(EVar "contracted_intermediate")])));
   (*L19*) SAug true "triples_res" (EScale (-1 # 1) (EEins "lcij,abkl->abcijk" [(ESlice (EVar "g") [SV "o"; SV "v"; SV "o"; SV "o"]); (EVar "t2")]));
   (*L22*) SAssign "contracted_intermediate" (EScale (-1 # 1) (EEins "abdk,dcij->abcijk" [(ESlice (EVar "g") [SV "v"; SV "v"; SV "v"; SV "o"]); (EVar "t2")]));
   (*L23*) SAug true "triples_res" (EAdd (EAdd (EAdd (EScale (1 # 1) (EVar "contracted_intermediate")) (EScale (-1 # 1) (EEins "abcijk->abcikj" [(EVar "contracted_intermediate")]))) (EScale (-1 # 1) (EEins "abcijk->acbijk" [(EVar "contracted_intermediate")]))) (EScale (1 # 1) (EEins "abcijk->acbikj" [(EVar "contracted_intermediate")])));
   (*L26*) SAssign "contracted_intermediate" (EScale (-1 # 1) (EEins "abdi,dcjk->abcijk" [(ESlice (EVar "g") [SV "v"; SV "v"; SV "v"; SV "o"]); (EVar "t2")]));
   (*L27*) SAug true "triples_res" (EAdd (EScale (1 # 1) (EVar "contracted_intermediate")) (EScale (-1 # 1) (EEins "abcijk->acbijk" [(EVar "contracted_intermediate")])));
   (*L30*) SAssign "contracted_intermediate" (EScale (-1 # 1) (EEins "bcdk,daij->abcijk" [(ESlice (EVar "g") [SV "v"; SV "v"; SV "v"; SV "o"]); (EVar "t2")]));
   (*L31*) SAug true "triples_res" (EAdd (EScale (1 # 1) (EVar "contracted_intermediate")) (EScale (-1 # 1) (EEins "abcijk->abcikj" [(EVar "contracted_intermediate")])));
   (*L34*) SAug true "triples_res" (EScale (-1 # 1) (EEins "bcdi,dajk->abcijk" [(ESlice (EVar "g") [SV "v"; SV "v"; SV "v"; SV "o"]); (EVar "t2")]))]
  (*L37*) (EVar "triples_res").

(** /repo/UT2/pdagq_T3corr.py:39-49  def pdagq_T3energy *)
Definition pdagq_T3energy : fn := mkFn
  ["g"; "o"; "v"; "l1"; "l2"; "t3"]
  [(*L41*) SAssign "energy" (EScale (1 # 4) (EEins "kjbc,ia,bcaikj" [(ESlice (EVar "g") [SV "o"; SV "o"; SV "v"; SV "v"]); (EVar "l1"); (EVar "t3")]));
   (*L44*) SAssign "energy" (EScale (1 # 4) (EEins "lkcj,ijba,cbailk" [(ESlice (EVar "g") [SV "o"; SV "o"; SV "v"; SV "o"]); (EVar "l2"); (EVar "t3")]));
   (*L47*) SAug true "energy" (EScale (1 # 4) (EEins "kbcd,ijba,cdaijk" [(ESlice (EVar "g") [SV "o"; SV "v"; SV "v"; SV "v"]); (EVar "l2"); (EVar "t3")]))]
  (*L49*) (EVar "energy").

(** /repo/UT2/pdagq_T3corr.py:51-68  def ccsd_energy_L68 *)
Definition ccsd_energy_L68 : fn := mkFn
  ["g"; "f"; "o"; "v"; "t1"; "t2"]
  [(*L53*) SAssign "energy" (EScale (1 # 1) (EEins "ii" [(ESlice (EVar "f") [SV "o"; SV "o"])]));
   (*L57*) SAug true "energy" (EScale (1 # 1) (EEins "ia,ai" [(ESlice (EVar "f") [SV "o"; SV "v"]); (EVar "t1")]));
   (*L60*) SAug true "energy" (EScale (-1 # 2) (EEins "jiji" [(ESlice (EVar "g") [SV "o"; SV "o"; SV "o"; SV "o"])]));
   (*L63*) SAug true "energy" (EScale (1 # 4) (EEins "jiab,abji" [(ESlice (EVar "g") [SV "o"; SV "o"; SV "v"; SV "v"]); (EVar "t2")]));
   (*L66*) SAug true "energy" (EScale (-1 # 2) (EEins "jiab,ai,bj" [(ESlice (EVar "g") [SV "o"; SV "o"; SV "v"; SV "v"]); (EVar "t1"); (EVar "t1")]))]
  (*L68*) (EVar "energy").
