(** Generated by tools/transcribe.py from /repo/UT2/t2energySlow.py; do not edit. *)
From Coq Require Import String List QArith.
From Verif Require Import Interp.
Import ListNotations.
Open Scope string_scope.

(** /repo/UT2/t2energySlow.py:95-99  def pccdEnergy *)
Definition pccdEnergy : fn := mkFn
  ["t2"; "f"; "g"; "o"; "v"]
  [(*L96*) SAssign "energy" (EEins "ii" [(ESlice (EVar "f") [SV "o"; SV "o"])]);
   (*L97*) SAug true "energy" (EScale (-1 # 2) (EEins "jiji" [(ESlice (EVar "g") [SV "o"; SV "o"; SV "o"; SV "o"])]));
   (*L98*) SAug true "energy" (EScale (1 # 4) (EEins "iiaa,aaii" [(ESlice (EVar "g") [SV "o"; SV "o"; SV "v"; SV "v"]); (EVar "t2")]))]
  (*L99*) (EVar "energy").

(** /repo/UT2/t2energySlow.py:101-120  def ccdEnergy *)
Definition ccdEnergy : fn := mkFn
  ["t2"; "f"; "g"; "o"; "v"]
  [(*L114*) SAssign "energy" (EScale (1 # 1) (EEins "ii" [(ESlice (EVar "f") [SV "o"; SV "o"])]));
   (*L116*) SAug true "energy" (EScale (-1 # 2) (EEins "jiji" [(ESlice (EVar "g") [SV "o"; SV "o"; SV "o"; SV "o"])]));
   (*L118*) SAug true "energy" (EScale (1 # 4) (EEins "jiab,abji" [(ESlice (EVar "g") [SV "o"; SV "o"; SV "v"; SV "v"]); (EVar "t2")]))]
  (*L120*) (EVar "energy").
