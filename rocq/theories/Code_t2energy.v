(** Generated by tools/transcribe.py from /repo/UT2/t2energy.py; do not edit. *)
From Coq Require Import String List QArith.
From Verif Require Import Interp.
Import ListNotations.
Open Scope string_scope.

(** /repo/UT2/t2energy.py:58-103  def ccd_energy_with_spin *)
Definition ccd_energy_with_spin : fn := mkFn
  ["t2_aaaa"; "t2_bbbb"; "t2_abab"; "f_aa"; "f_bb"; "g_aaaa"; "g_bbbb"; "g_abab"; "oa"; "ob"; "va"; "vb"]
  [(*L66*) SAssign "o" (EVar "oa");
   (*L67*) SAssign "v" (EVar "va");
   (*L68*) SAssign "energy" (EScale (1 # 1) (EEins "ii" [(ESlice (EVar "f_aa") [SV "o"; SV "o"])]));
   (*L71*) SAug true "energy" (EScale (1 # 1) (EEins "ii" [(ESlice (EVar "f_bb") [SV "o"; SV "o"])]));
   (*L74*) SAug true "energy" (EScale (-1 # 2) (EEins "jiji" [(ESlice (EVar "g_aaaa") [SV "o"; SV "o"; SV "o"; SV "o"])]));
   (*L77*) SAug true "energy" (EScale (-1 # 2) (EEins "jiji" [(ESlice (EVar "g_abab") [SV "o"; SV "o"; SV "o"; SV "o"])]));
   (*L80*) SAug true "energy" (EScale (-1 # 2) (EEins "ijij" [(ESlice (EVar "g_abab") [SV "o"; SV "o"; SV "o"; SV "o"])]));
   (*L83*) SAug true "energy" (EScale (-1 # 2) (EEins "jiji" [(ESlice (EVar "g_bbbb") [SV "o"; SV "o"; SV "o"; SV "o"])]));
   (*L85*) SAug true "energy" (EScale (1 # 4) (EEins "jiab,abji" [(ESlice (EVar "g_aaaa") [SV "o"; SV "o"; SV "v"; SV "v"]); (EVar "t2_aaaa")]));
   (*L89*) SAug true "energy" (EScale (1 # 4) (EEins "jiab,abji" [(ESlice (EVar "g_abab") [SV "o"; SV "o"; SV "v"; SV "v"]); (EVar "t2_abab")]));
   (*L92*) SAug true "energy" (EScale (1 # 4) (EEins "ijab,abij" [(ESlice (EVar "g_abab") [SV "o"; SV "o"; SV "v"; SV "v"]); (EVar "t2_abab")]));
   (*L95*) SAug true "energy" (EScale (1 # 4) (EEins "jiba,baji" [(ESlice (EVar "g_abab") [SV "o"; SV "o"; SV "v"; SV "v"]); (EVar "t2_abab")]));
   (*L98*) SAug true "energy" (EScale (1 # 4) (EEins "ijba,baij" [(ESlice (EVar "g_abab") [SV "o"; SV "o"; SV "v"; SV "v"]); (EVar "t2_abab")]));
   (*L101*) SAug true "energy" (EScale (1 # 4) (EEins "jiab,abji" [(ESlice (EVar "g_bbbb") [SV "o"; SV "o"; SV "v"; SV "v"]); (EVar "t2_bbbb")]))]
  (*L103*) (EVar "energy").
