(** Generated by tools/transcribe.py from /repo/UT2/square_brakT_corr.py; do not edit. *)
From Coq Require Import String List QArith.
From Verif Require Import Interp.
Import ListNotations.
Open Scope string_scope.

(** /repo/UT2/square_brakT_corr.py:4-114  def square_brakT *)
Definition square_brakT : fn := mkFn
  ["g_aaaa"; "g_abab"; "g_bbbb"; "o"; "v"; "l2_aaaa"; "l2_abab"; "l2_bbbb"; "t3_aaaaaa"; "t3_aabaab"; "t3_abbabb"; "t3_bbbbbb"]
  [(*L7*) SAssign "energy" (EScale (1 # 4) (EEins "lkcj,ijba,cbailk" [(ESlice (EVar "g_aaaa") [SV "o"; SV "o"; SV "v"; SV "o"]); (EVar "l2_aaaa"); (EVar "t3_aaaaaa")]));
   (*L10*) SAug true "energy" (EScale (1 # 4) (EEins "lkjc,ijba,abcilk" [(ESlice (EVar "g_abab") [SV "o"; SV "o"; SV "o"; SV "v"]); (EVar "l2_aaaa"); (EVar "t3_aabaab")]));
   (*L13*) SAug true "energy" (EScale (1 # 4) (EEins "kljc,ijba,abcikl" [(ESlice (EVar "g_abab") [SV "o"; SV "o"; SV "o"; SV "v"]); (EVar "l2_aaaa"); (EVar "t3_aabaab")]));
   (*L16*) SAug true "energy" (EScale (1 # 4) (EEins "lkcj,ijba,cbailk" [(ESlice (EVar "g_abab") [SV "o"; SV "o"; SV "v"; SV "o"]); (EVar "l2_abab"); (EVar "t3_aabaab")]));
   (*L19*) SAug true "energy" (EScale (1 # 4) (EEins "klcj,ijba,cbaikl" [(ESlice (EVar "g_abab") [SV "o"; SV "o"; SV "v"; SV "o"]); (EVar "l2_abab"); (EVar "t3_aabaab")]));
   (*L22*) SAug true "energy" (EScale (-1 # 4) (EEins "lkcj,ijba,bcailk" [(ESlice (EVar "g_bbbb") [SV "o"; SV "o"; SV "v"; SV "o"]); (EVar "l2_abab"); (EVar "t3_abbabb")]));
   (*L25*) SAug true "energy" (EScale (1 # 4) (EEins "lkcj,ijab,cabilk" [(ESlice (EVar "g_abab") [SV "o"; SV "o"; SV "v"; SV "o"]); (EVar "l2_abab"); (EVar "t3_aabaab")]));
   (*L28*) SAug true "energy" (EScale (1 # 4) (EEins "klcj,ijab,cabikl" [(ESlice (EVar "g_abab") [SV "o"; SV "o"; SV "v"; SV "o"]); (EVar "l2_abab"); (EVar "t3_aabaab")]));
   (*L31*) SAug true "energy" (EScale (1 # 4) (EEins "lkcj,ijab,abcilk" [(ESlice (EVar "g_bbbb") [SV "o"; SV "o"; SV "v"; SV "o"]); (EVar "l2_abab"); (EVar "t3_abbabb")]));
   (*L34*) SAug true "energy" (EScale (1 # 4) (EEins "lkcj,jiba,cbakli" [(ESlice (EVar "g_aaaa") [SV "o"; SV "o"; SV "v"; SV "o"]); (EVar "l2_abab"); (EVar "t3_aabaab")]));
   (*L37*) SAug true "energy" (EScale (1 # 4) (EEins "lkjc,jiba,bcalik" [(ESlice (EVar "g_abab") [SV "o"; SV "o"; SV "o"; SV "v"]); (EVar "l2_abab"); (EVar "t3_abbabb")]));
   (*L40*) SAug true "energy" (EScale (-1 # 4) (EEins "kljc,jiba,bcakli" [(ESlice (EVar "g_abab") [SV "o"; SV "o"; SV "o"; SV "v"]); (EVar "l2_abab"); (EVar "t3_abbabb")]));
   (*L43*) SAug true "energy" (EScale (1 # 4) (EEins "lkcj,jiab,cabkli" [(ESlice (EVar "g_aaaa") [SV "o"; SV "o"; SV "v"; SV "o"]); (EVar "l2_abab"); (EVar "t3_aabaab")]));
   (*L46*) SAug true "energy" (EScale (-1 # 4) (EEins "lkjc,jiab,abclik" [(ESlice (EVar "g_abab") [SV "o"; SV "o"; SV "o"; SV "v"]); (EVar "l2_abab"); (EVar "t3_abbabb")]));
   (*L49*) SAug true "energy" (EScale (1 # 4) (EEins "kljc,jiab,abckli" [(ESlice (EVar "g_abab") [SV "o"; SV "o"; SV "o"; SV "v"]); (EVar "l2_abab"); (EVar "t3_abbabb")]));
   (*L52*) SAug true "energy" (EScale (-1 # 4) (EEins "lkcj,ijba,cbalik" [(ESlice (EVar "g_abab") [SV "o"; SV "o"; SV "v"; SV "o"]); (EVar "l2_bbbb"); (EVar "t3_abbabb")]));
   (*L55*) SAug true "energy" (EScale (1 # 4) (EEins "klcj,ijba,cbakli" [(ESlice (EVar "g_abab") [SV "o"; SV "o"; SV "v"; SV "o"]); (EVar "l2_bbbb"); (EVar "t3_abbabb")]));
   (*L58*) SAug true "energy" (EScale (1 # 4) (EEins "lkcj,ijba,cbailk" [(ESlice (EVar "g_bbbb") [SV "o"; SV "o"; SV "v"; SV "o"]); (EVar "l2_bbbb"); (EVar "t3_bbbbbb")]));
   (*L61*) SAug true "energy" (EScale (1 # 4) (EEins "kbcd,ijba,cdaijk" [(ESlice (EVar "g_aaaa") [SV "o"; SV "v"; SV "v"; SV "v"]); (EVar "l2_aaaa"); (EVar "t3_aaaaaa")]));
   (*L64*) SAug true "energy" (EScale (1 # 4) (EEins "bkcd,ijba,cadijk" [(ESlice (EVar "g_abab") [SV "v"; SV "o"; SV "v"; SV "v"]); (EVar "l2_aaaa"); (EVar "t3_aabaab")]));
   (*L67*) SAug true "energy" (EScale (-1 # 4) (EEins "bkdc,ijba,adcijk" [(ESlice (EVar "g_abab") [SV "v"; SV "o"; SV "v"; SV "v"]); (EVar "l2_aaaa"); (EVar "t3_aabaab")]));
   (*L70*) SAug true "energy" (EScale (-1 # 4) (EEins "kbcd,ijba,cdaikj" [(ESlice (EVar "g_aaaa") [SV "o"; SV "v"; SV "v"; SV "v"]); (EVar "l2_abab"); (EVar "t3_aabaab")]));
   (*L73*) SAug true "energy" (EScale (-1 # 4) (EEins "bkcd,ijba,cdaijk" [(ESlice (EVar "g_abab") [SV "v"; SV "o"; SV "v"; SV "v"]); (EVar "l2_abab"); (EVar "t3_abbabb")]));
   (*L76*) SAug true "energy" (EScale (-1 # 4) (EEins "bkdc,ijba,dcaijk" [(ESlice (EVar "g_abab") [SV "v"; SV "o"; SV "v"; SV "v"]); (EVar "l2_abab"); (EVar "t3_abbabb")]));
   (*L79*) SAug true "energy" (EScale (-1 # 4) (EEins "kbcd,ijab,cadikj" [(ESlice (EVar "g_abab") [SV "o"; SV "v"; SV "v"; SV "v"]); (EVar "l2_abab"); (EVar "t3_aabaab")]));
   (*L82*) SAug true "energy" (EScale (1 # 4) (EEins "kbdc,ijab,adcikj" [(ESlice (EVar "g_abab") [SV "o"; SV "v"; SV "v"; SV "v"]); (EVar "l2_abab"); (EVar "t3_aabaab")]));
   (*L85*) SAug true "energy" (EScale (1 # 4) (EEins "kbcd,ijab,adcijk" [(ESlice (EVar "g_bbbb") [SV "o"; SV "v"; SV "v"; SV "v"]); (EVar "l2_abab"); (EVar "t3_abbabb")]));
   (*L88*) SAug true "energy" (EScale (1 # 4) (EEins "kbcd,jiba,cdakji" [(ESlice (EVar "g_aaaa") [SV "o"; SV "v"; SV "v"; SV "v"]); (EVar "l2_abab"); (EVar "t3_aabaab")]));
   (*L91*) SAug true "energy" (EScale (-1 # 4) (EEins "bkcd,jiba,cdajik" [(ESlice (EVar "g_abab") [SV "v"; SV "o"; SV "v"; SV "v"]); (EVar "l2_abab"); (EVar "t3_abbabb")]));
   (*L94*) SAug true "energy" (EScale (-1 # 4) (EEins "bkdc,jiba,dcajik" [(ESlice (EVar "g_abab") [SV "v"; SV "o"; SV "v"; SV "v"]); (EVar "l2_abab"); (EVar "t3_abbabb")]));
   (*L97*) SAug true "energy" (EScale (1 # 4) (EEins "kbcd,jiab,cadkji" [(ESlice (EVar "g_abab") [SV "o"; SV "v"; SV "v"; SV "v"]); (EVar "l2_abab"); (EVar "t3_aabaab")]));
   (*L100*) SAug true "energy" (EScale (-1 # 4) (EEins "kbdc,jiab,adckji" [(ESlice (EVar "g_abab") [SV "o"; SV "v"; SV "v"; SV "v"]); (EVar "l2_abab"); (EVar "t3_aabaab")]));
   (*L103*) SAug true "energy" (EScale (1 # 4) (EEins "kbcd,jiab,adcjik" [(ESlice (EVar "g_bbbb") [SV "o"; SV "v"; SV "v"; SV "v"]); (EVar "l2_abab"); (EVar "t3_abbabb")]));
   (*L106*) SAug true "energy" (EScale (-1 # 4) (EEins "kbcd,ijba,cdakji" [(ESlice (EVar "g_abab") [SV "o"; SV "v"; SV "v"; SV "v"]); (EVar "l2_bbbb"); (EVar "t3_abbabb")]));
   (*L109*) SAug true "energy" (EScale (-1 # 4) (EEins "kbdc,ijba,dcakji" [(ESlice (EVar "g_abab") [SV "o"; SV "v"; SV "v"; SV "v"]); (EVar "l2_bbbb"); (EVar "t3_abbabb")]));
   (*L112*) SAug true "energy" (EScale (1 # 4) (EEins "kbcd,ijba,cdaijk" [(ESlice (EVar "g_bbbb") [SV "o"; SV "v"; SV "v"; SV "v"]); (EVar "l2_bbbb"); (EVar "t3_bbbbbb")]))]
  (*L114*) (EVar "energy").
