(** Generated by tools/transcribe.py from /repo/UT2/modify_T2energy_pertQfSlow.py; do not edit. *)
From Coq Require Import String List QArith.
From Verif Require Import Interp.
Import ListNotations.
Open Scope string_scope.

(** /repo/UT2/modify_T2energy_pertQfSlow.py:4-103  def energy_pertQf *)
Definition energy_pertQf : fn := mkFn
  ["g"; "l2"; "t2"; "o"; "v"]
  [(*L8*) SAssign "energy" (EScale (-1 # 8) (EEins "nmkl,ijba,kldc,dcjm,bain" [(ESlice (EVar "g") [SV "o"; SV "o"; SV "o"; SV "o"]); (EVar "l2"); (EVar "l2"); (EVar "t2"); (EVar "t2")]));
   (*L11*) SAug true "energy" (EScale (1 # 4) (EEins "nmkl,ijba,kldc,dbjm,cain" [(ESlice (EVar "g") [SV "o"; SV "o"; SV "o"; SV "o"]); (EVar "l2"); (EVar "l2"); (EVar "t2"); (EVar "t2")]));
   (*L14*) SAug true "energy" (EScale (1 # 4) (EEins "nmjl,ijba,kldc,dckm,bain" [(ESlice (EVar "g") [SV "o"; SV "o"; SV "o"; SV "o"]); (EVar "l2"); (EVar "l2"); (EVar "t2"); (EVar "t2")]));
   (*L17*) SAug true "energy" (EScale (-1 # 4) (EEins "nmjl,ijba,kldc,dcim,bakn" [(ESlice (EVar "g") [SV "o"; SV "o"; SV "o"; SV "o"]); (EVar "l2"); (EVar "l2"); (EVar "t2"); (EVar "t2")]));
   (*L20*) SAug true "energy" (EScale (-1 # 2) (EEins "nmjl,ijba,kldc,dbkm,cain" [(ESlice (EVar "g") [SV "o"; SV "o"; SV "o"; SV "o"]); (EVar "l2"); (EVar "l2"); (EVar "t2"); (EVar "t2")]));
   (*L23*) SAug true "energy" (EScale (1 # 2) (EEins "nmjl,ijba,kldc,dbim,cakn" [(ESlice (EVar "g") [SV "o"; SV "o"; SV "o"; SV "o"]); (EVar "l2"); (EVar "l2"); (EVar "t2"); (EVar "t2")]));
   (*L26*) SAug true "energy" (EScale (-1 # 8) (EEins "nmij,ijba,kldc,dclm,bakn" [(ESlice (EVar "g") [SV "o"; SV "o"; SV "o"; SV "o"]); (EVar "l2"); (EVar "l2"); (EVar "t2"); (EVar "t2")]));
   (*L29*) SAug true "energy" (EScale (1 # 4) (EEins "nmij,ijba,kldc,dblm,cakn" [(ESlice (EVar "g") [SV "o"; SV "o"; SV "o"; SV "o"]); (EVar "l2"); (EVar "l2"); (EVar "t2"); (EVar "t2")]));
   (*L32*) SAug true "energy" (EScale (1 # 2) (EEins "mdel,ijba,kldc,ecjk,baim" [(ESlice (EVar "g") [SV "o"; SV "v"; SV "v"; SV "o"]); (EVar "l2"); (EVar "l2"); (EVar "t2"); (EVar "t2")]));
   (*L35*) SAug true "energy" (EScale (1 # 4) (EEins "mdel,ijba,kldc,ecij,bakm" [(ESlice (EVar "g") [SV "o"; SV "v"; SV "v"; SV "o"]); (EVar "l2"); (EVar "l2"); (EVar "t2"); (EVar "t2")]));
   (*L38*) SAug true "energy" (EScale (-1 # 1) (EEins "mdel,ijba,kldc,ebjk,caim" [(ESlice (EVar "g") [SV "o"; SV "v"; SV "v"; SV "o"]); (EVar "l2"); (EVar "l2"); (EVar "t2"); (EVar "t2")]));
   (*L41*) SAug true "energy" (EScale (-1 # 2) (EEins "mdel,ijba,kldc,ebij,cakm" [(ESlice (EVar "g") [SV "o"; SV "v"; SV "v"; SV "o"]); (EVar "l2"); (EVar "l2"); (EVar "t2"); (EVar "t2")]));
   (*L44*) SAug true "energy" (EScale (1 # 4) (EEins "mdej,ijba,kldc,eckl,baim" [(ESlice (EVar "g") [SV "o"; SV "v"; SV "v"; SV "o"]); (EVar "l2"); (EVar "l2"); (EVar "t2"); (EVar "t2")]));
   (*L47*) SAug true "energy" (EScale (-1 # 2) (EEins "mdej,ijba,kldc,ecil,bakm" [(ESlice (EVar "g") [SV "o"; SV "v"; SV "v"; SV "o"]); (EVar "l2"); (EVar "l2"); (EVar "t2"); (EVar "t2")]));
   (*L50*) SAug true "energy" (EScale (-1 # 2) (EEins "mdej,ijba,kldc,ebkl,caim" [(ESlice (EVar "g") [SV "o"; SV "v"; SV "v"; SV "o"]); (EVar "l2"); (EVar "l2"); (EVar "t2"); (EVar "t2")]));
   (*L53*) SAug true "energy" (EScale (1 # 1) (EEins "mdej,ijba,kldc,ebil,cakm" [(ESlice (EVar "g") [SV "o"; SV "v"; SV "v"; SV "o"]); (EVar "l2"); (EVar "l2"); (EVar "t2"); (EVar "t2")]));
   (*L56*) SAug true "energy" (EScale (1 # 1) (EEins "mbel,ijba,kldc,edjk,caim" [(ESlice (EVar "g") [SV "o"; SV "v"; SV "v"; SV "o"]); (EVar "l2"); (EVar "l2"); (EVar "t2"); (EVar "t2")]));
   (*L59*) SAug true "energy" (EScale (1 # 2) (EEins "mbel,ijba,kldc,edij,cakm" [(ESlice (EVar "g") [SV "o"; SV "v"; SV "v"; SV "o"]); (EVar "l2"); (EVar "l2"); (EVar "t2"); (EVar "t2")]));
   (*L62*) SAug true "energy" (EScale (1 # 2) (EEins "mbel,ijba,kldc,eajk,dcim" [(ESlice (EVar "g") [SV "o"; SV "v"; SV "v"; SV "o"]); (EVar "l2"); (EVar "l2"); (EVar "t2"); (EVar "t2")]));
   (*L65*) SAug true "energy" (EScale (1 # 4) (EEins "mbel,ijba,kldc,eaij,dckm" [(ESlice (EVar "g") [SV "o"; SV "v"; SV "v"; SV "o"]); (EVar "l2"); (EVar "l2"); (EVar "t2"); (EVar "t2")]));
   (*L68*) SAug true "energy" (EScale (1 # 2) (EEins "mbej,ijba,kldc,edkl,caim" [(ESlice (EVar "g") [SV "o"; SV "v"; SV "v"; SV "o"]); (EVar "l2"); (EVar "l2"); (EVar "t2"); (EVar "t2")]));
   (*L71*) SAug true "energy" (EScale (-1 # 1) (EEins "mbej,ijba,kldc,edil,cakm" [(ESlice (EVar "g") [SV "o"; SV "v"; SV "v"; SV "o"]); (EVar "l2"); (EVar "l2"); (EVar "t2"); (EVar "t2")]));
   (*L74*) SAug true "energy" (EScale (1 # 4) (EEins "mbej,ijba,kldc,eakl,dcim" [(ESlice (EVar "g") [SV "o"; SV "v"; SV "v"; SV "o"]); (EVar "l2"); (EVar "l2"); (EVar "t2"); (EVar "t2")]));
   (*L77*) SAug true "energy" (EScale (-1 # 2) (EEins "mbej,ijba,kldc,eail,dckm" [(ESlice (EVar "g") [SV "o"; SV "v"; SV "v"; SV "o"]); (EVar "l2"); (EVar "l2"); (EVar "t2"); (EVar "t2")]));
   (*L80*) SAug true "energy" (EScale (-1 # 8) (EEins "dcef,ijba,kldc,ebkl,faij" [(ESlice (EVar "g") [SV "v"; SV "v"; SV "v"; SV "v"]); (EVar "l2"); (EVar "l2"); (EVar "t2"); (EVar "t2")]));
   (*L83*) SAug true "energy" (EScale (1 # 4) (EEins "dcef,ijba,kldc,ebjl,faik" [(ESlice (EVar "g") [SV "v"; SV "v"; SV "v"; SV "v"]); (EVar "l2"); (EVar "l2"); (EVar "t2"); (EVar "t2")]));
   (*L86*) SAug true "energy" (EScale (1 # 4) (EEins "dbef,ijba,kldc,eckl,faij" [(ESlice (EVar "g") [SV "v"; SV "v"; SV "v"; SV "v"]); (EVar "l2"); (EVar "l2"); (EVar "t2"); (EVar "t2")]));
   (*L89*) SAug true "energy" (EScale (-5 # 8) (EEins "dbef,ijba,kldc,ecjl,faik" [(ESlice (EVar "g") [SV "v"; SV "v"; SV "v"; SV "v"]); (EVar "l2"); (EVar "l2"); (EVar "t2"); (EVar "t2")]));
   (*L92*) SAug true "energy" (EScale (1 # 4) (EEins "dbef,ijba,kldc,ecij,fakl" [(ESlice (EVar "g") [SV "v"; SV "v"; SV "v"; SV "v"]); (EVar "l2"); (EVar "l2"); (EVar "t2"); (EVar "t2")]));
   (*L95*) SAug true "energy" (EScale (-3 # 8) (EEins "daef,ijba,kldc,ebjl,fcik" [(ESlice (EVar "g") [SV "v"; SV "v"; SV "v"; SV "v"]); (EVar "l2"); (EVar "l2"); (EVar "t2"); (EVar "t2")]));
   (*L98*) SAug true "energy" (EScale (-1 # 8) (EEins "baef,ijba,kldc,edkl,fcij" [(ESlice (EVar "g") [SV "v"; SV "v"; SV "v"; SV "v"]); (EVar "l2"); (EVar "l2"); (EVar "t2"); (EVar "t2")]));
   (*L101*) SAug true "energy" (EScale (1 # 4) (EEins "baef,ijba,kldc,edjl,fcik" [(ESlice (EVar "g") [SV "v"; SV "v"; SV "v"; SV "v"]); (EVar "l2"); (EVar "l2"); (EVar "t2"); (EVar "t2")]))]
  (*L103*) (EVar "energy").
