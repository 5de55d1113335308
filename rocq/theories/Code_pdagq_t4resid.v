(** Generated by tools/transcribe.py from /repo/UT2/pdagq_t4resid.py; do not edit. *)
From Coq Require Import String List QArith.
From Verif Require Import Interp.
Import ListNotations.
Open Scope string_scope.

(** /repo/UT2/pdagq_t4resid.py:3-240  def t4_test_residual_1 *)
Definition t4_test_residual_1 : fn := mkFn
  ["t2"; "g"; "oa"; "va"]
  [(*L7*) SAssign "o" (EVar "oa");
   (*L8*) SAssign "v" (EVar "va");
   (*L11*) SAssign "contracted_intermediate" (EScale (-1 # 1) (EEins "nmkl,abjm,cdin->abcdijkl" [(ESlice (EVar "g") [SV "o"; SV "o"; SV "o"; SV "o"]); (EVar "t2"); (EVar "t2")]));
   (*L12*) SAssign "quadruples_res" (EAdd (EAdd (EAdd (EScale (1 # 1) (EVar "contracted_intermediate")) (EScale (-1 # 1) (EEins "abcdijkl->abcdjikl" [(EVar "contracted_intermediate")]))) (EScale (-1 # 1) (EEins "abcdijkl->acbdijkl" [(EVar "contracted_intermediate")]))) (EScale (1 # 1) (EEins "abcdijkl->acbdjikl" [(EVar "contracted_intermediate")])));
   (*L15*) SAssign "contracted_intermediate" (EScale (-1 # 1) (EEins "nmkl,adjm,bcin->abcdijkl" [(ESlice (EVar "g") [SV "o"; SV "o"; SV "o"; SV "o"]); (EVar "t2"); (EVar "t2")]));
   (*L16*) SAug true "quadruples_res" (EAdd (EScale (1 # 1) (EVar "contracted_intermediate")) (EScale (-1 # 1) (EEins "abcdijkl->abcdjikl" [(EVar "contracted_intermediate")])));
   (*L19*) SAssign "contracted_intermediate" (EScale (1 # 1) (EEins "nmjl,abkm,cdin->abcdijkl" [(ESlice (EVar "g") [SV "o"; SV "o"; SV "o"; SV "o"]); (EVar "t2"); (EVar "t2")]));
   (*L20*) SAug true "quadruples_res" (EAdd (EAdd (EAdd (EScale (1 # 1) (EVar "contracted_intermediate")) (EScale (-1 # 1) (EEins "abcdijkl->abcdkjil" [(EVar "contracted_intermediate")]))) (EScale (-1 # 1) (EEins "abcdijkl->acbdijkl" [(EVar "contracted_intermediate")]))) (EScale (1 # 1) (EEins "abcdijkl->acbdkjil" [(EVar "contracted_intermediate")])));
   (*L23*) SAssign "contracted_intermediate" (EScale (1 # 1) (EEins "nmjl,adkm,bcin->abcdijkl" [(ESlice (EVar "g") [SV "o"; SV "o"; SV "o"; SV "o"]); (EVar "t2"); (EVar "t2")]));
   (*L24*) SAug true "quadruples_res" (EAdd (EScale (1 # 1) (EVar "contracted_intermediate")) (EScale (-1 # 1) (EEins "abcdijkl->abcdkjil" [(EVar "contracted_intermediate")])));
   (*L27*) SAssign "contracted_intermediate" (EScale (-1 # 1) (EEins "nmil,abkm,cdjn->abcdijkl" [(ESlice (EVar "g") [SV "o"; SV "o"; SV "o"; SV "o"]); (EVar "t2"); (EVar "t2")]));
   (*L28*) SAug true "quadruples_res" (EAdd (EAdd (EAdd (EScale (1 # 1) (EVar "contracted_intermediate")) (EScale (-1 # 1) (EEins "abcdijkl->abcdikjl" [(EVar "contracted_intermediate")]))) (EScale (-1 # 1) (EEins "abcdijkl->acbdijkl" [(EVar "contracted_intermediate")]))) (EScale (1 # 1) (EEins "abcdijkl->acbdikjl" [(EVar "contracted_intermediate")])));
   (*L31*) SAssign "contracted_intermediate" (EScale (-1 # 1) (EEins "nmil,adkm,bcjn->abcdijkl" [(ESlice (EVar "g") [SV "o"; SV "o"; SV "o"; SV "o"]); (EVar "t2"); (EVar "t2")]));
   (*L32*) SAug true "quadruples_res" (EAdd (EScale (1 # 1) (EVar "contracted_intermediate")) (EScale (-1 # 1) (EEins "abcdijkl->abcdikjl" [(EVar "contracted_intermediate")])));
   (*L35*) SAssign "contracted_intermediate" (EScale (-1 # 1) (EEins "nmjk,ablm,cdin->abcdijkl" [(ESlice (EVar "g") [SV "o"; SV "o"; SV "o"; SV "o"]); (EVar "t2"); (EVar "t2")]));
   (*L36*) SAug true "quadruples_res" (EAdd (EAdd (EAdd (EScale (1 # 1) (EVar "contracted_intermediate")) (EScale (-1 # 1) (EEins "abcdijkl->abcdljki" [(EVar "contracted_intermediate")]))) (EScale (-1 # 1) (EEins "abcdijkl->acbdijkl" [(EVar "contracted_intermediate")]))) (EScale (1 # 1) (EEins "abcdijkl->acbdljki" [(EVar "contracted_intermediate")])));
   (*L39*) SAssign "contracted_intermediate" (EScale (-1 # 1) (EEins "nmjk,adlm,bcin->abcdijkl" [(ESlice (EVar "g") [SV "o"; SV "o"; SV "o"; SV "o"]); (EVar "t2"); (EVar "t2")]));
   (*L40*) SAug true "quadruples_res" (EAdd (EScale (1 # 1) (EVar "contracted_intermediate")) (EScale (-1 # 1) (EEins "abcdijkl->abcdljki" [(EVar "contracted_intermediate")])));
   (*L43*) SAssign "contracted_intermediate" (EScale (1 # 1) (EEins "nmik,ablm,cdjn->abcdijkl" [(ESlice (EVar "g") [SV "o"; SV "o"; SV "o"; SV "o"]); (EVar "t2"); (EVar "t2")]));
   (*L44*) SAug true "quadruples_res" (EAdd (EAdd (EAdd (EScale (1 # 1) (EVar "contracted_intermediate")) (EScale (-1 # 1) (EEins "abcdijkl->abcdilkj" [(EVar "contracted_intermediate")]))) (EScale (-1 # 1) (EEins "abcdijkl->acbdijkl" [(EVar "contracted_intermediate")]))) (EScale (1 # 1) (EEins "abcdijkl->acbdilkj" [(EVar "contracted_intermediate")])));
   (*L47*) SAssign "contracted_intermediate" (EScale (1 # 1) (EEins "nmik,adlm,bcjn->abcdijkl" [(ESlice (EVar "g") [SV "o"; SV "o"; SV "o"; SV "o"]); (EVar "t2"); (EVar "t2")]));
   (*L48*) SAug true "quadruples_res" (EAdd (EScale (1 # 1) (EVar "contracted_intermediate")) (EScale (-1 # 1) (EEins "abcdijkl->abcdilkj" [(EVar "contracted_intermediate")])));
   (*L51*) SAssign "contracted_intermediate" (EScale (-1 # 1) (EEins "nmij,ablm,cdkn->abcdijkl" [(ESlice (EVar "g") [SV "o"; SV "o"; SV "o"; SV "o"]); (EVar "t2"); (EVar "t2")]));
   (*L52*) SAug true "quadruples_res" (EAdd (EAdd (EAdd (EScale (1 # 1) (EVar "contracted_intermediate")) (EScale (-1 # 1) (EEins "abcdijkl->abcdijlk" [(EVar "contracted_intermediate")]))) (EScale (-1 # 1) (EEins "abcdijkl->acbdijkl" [(EVar "contracted_intermediate")]))) (EScale (1 # 1) (EEins "abcdijkl->acbdijlk" [(EVar "contracted_intermediate")])));
   (*L55*) SAssign "contracted_intermediate" (EScale (-1 # 1) (EEins "nmij,adlm,bckn->abcdijkl" [(ESlice (EVar "g") [SV "o"; SV "o"; SV "o"; SV "o"]); (EVar "t2"); (EVar "t2")]));
   (*L56*) SAug true "quadruples_res" (EAdd (EScale (1 # 1) (EVar "contracted_intermediate")) (EScale (-1 # 1) (EEins "abcdijkl->abcdijlk" [(EVar "contracted_intermediate")])));
   (*L58*) SAssign "t4_resid_oo" (EVar "quadruples_res");
   (*L61*) SAssign "contracted_intermediate" (EScale (1 # 1) (EEins "mael,ebjk,cdim->abcdijkl" [(ESlice (EVar "g") [SV "o"; SV "v"; SV "v"; SV "o"]); (EVar "t2"); (EVar "t2")]));
   (*L62*) SAug true "quadruples_res" (EAdd (EAdd (EAdd (EScale (1 # 1) (EVar "contracted_intermediate")) (EScale (-1 # 1) (EEins "abcdijkl->abcdjikl" [(EVar "contracted_intermediate")]))) (EScale (-1 # 1) (EEins "abcdijkl->acbdijkl" [(EVar "contracted_intermediate")]))) (EScale (1 # 1) (EEins "abcdijkl->acbdjikl" [(EVar "contracted_intermediate")])));
   (*L65*) SAssign "contracted_intermediate" (EScale (1 # 1) (EEins "mael,ebij,cdkm->abcdijkl" [(ESlice (EVar "g") [SV "o"; SV "v"; SV "v"; SV "o"]); (EVar "t2"); (EVar "t2")]));
   (*L66*) SAug true "quadruples_res" (EAdd (EAdd (EAdd (EScale (1 # 1) (EVar "contracted_intermediate")) (EScale (-1 # 1) (EEins "abcdijkl->abcdijlk" [(EVar "contracted_intermediate")]))) (EScale (-1 # 1) (EEins "abcdijkl->acbdijkl" [(EVar "contracted_intermediate")]))) (EScale (1 # 1) (EEins "abcdijkl->acbdijlk" [(EVar "contracted_intermediate")])));
   (*L69*) SAssign "contracted_intermediate" (EScale (1 # 1) (EEins "mael,edjk,bcim->abcdijkl" [(ESlice (EVar "g") [SV "o"; SV "v"; SV "v"; SV "o"]); (EVar "t2"); (EVar "t2")]));
   (*L70*) SAug true "quadruples_res" (EAdd (EAdd (EAdd (EScale (1 # 1) (EVar "contracted_intermediate")) (EScale (-1 # 1) (EEins "abcdijkl->abcdjikl" [(EVar "contracted_intermediate")]))) (EScale (-1 # 1) (EEins "abcdijkl->bacdijkl" [(EVar "contracted_intermediate")]))) (EScale (1 # 1) (EEins "abcdijkl->bacdjikl" [(EVar "contracted_intermediate")])));
   (*L73*) SAssign "contracted_intermediate" (EScale (1 # 1) (EEins "mael,edij,bckm->abcdijkl" [(ESlice (EVar "g") [SV "o"; SV "v"; SV "v"; SV "o"]); (EVar "t2"); (EVar "t2")]));
   (*L74*) SAug true "quadruples_res" (EAdd (EAdd (EAdd (EScale (1 # 1) (EVar "contracted_intermediate")) (EScale (-1 # 1) (EEins "abcdijkl->abcdijlk" [(EVar "contracted_intermediate")]))) (EScale (-1 # 1) (EEins "abcdijkl->bacdijkl" [(EVar "contracted_intermediate")]))) (EScale (1 # 1) (EEins "abcdijkl->bacdijlk" [(EVar "contracted_intermediate")])));
   (*L77*) SAssign "contracted_intermediate" (EScale (-1 # 1) (EEins "maek,ebjl,cdim->abcdijkl" [(ESlice (EVar "g") [SV "o"; SV "v"; SV "v"; SV "o"]); (EVar "t2"); (EVar "t2")]));
   (*L78*) SAug true "quadruples_res" (EAdd (EAdd (EAdd (EScale (1 # 1) (EVar "contracted_intermediate")) (EScale (-1 # 1) (EEins "abcdijkl->abcdjikl" [(EVar "contracted_intermediate")]))) (EScale (-1 # 1) (EEins "abcdijkl->acbdijkl" [(EVar "contracted_intermediate")]))) (EScale (1 # 1) (EEins "abcdijkl->acbdjikl" [(EVar "contracted_intermediate")])));
   (*L81*) SAssign "contracted_intermediate" (EScale (-1 # 1) (EEins "maek,edjl,bcim->abcdijkl" [(ESlice (EVar "g") [SV "o"; SV "v"; SV "v"; SV "o"]); (EVar "t2"); (EVar "t2")]));
   (*L82*) SAug true "quadruples_res" (EAdd (EAdd (EAdd (EScale (1 # 1) (EVar "contracted_intermediate")) (EScale (-1 # 1) (EEins "abcdijkl->abcdjikl" [(EVar "contracted_intermediate")]))) (EScale (-1 # 1) (EEins "abcdijkl->bacdijkl" [(EVar "contracted_intermediate")]))) (EScale (1 # 1) (EEins "abcdijkl->bacdjikl" [(EVar "contracted_intermediate")])));
   (*L85*) SAssign "contracted_intermediate" (EScale (1 # 1) (EEins "maej,ebkl,cdim->abcdijkl" [(ESlice (EVar "g") [SV "o"; SV "v"; SV "v"; SV "o"]); (EVar "t2"); (EVar "t2")]));
   (*L86*) SAug true "quadruples_res" (EAdd (EAdd (EAdd (EScale (1 # 1) (EVar "contracted_intermediate")) (EScale (-1 # 1) (EEins "abcdijkl->abcdkjil" [(EVar "contracted_intermediate")]))) (EScale (-1 # 1) (EEins "abcdijkl->acbdijkl" [(EVar "contracted_intermediate")]))) (EScale (1 # 1) (EEins "abcdijkl->acbdkjil" [(EVar "contracted_intermediate")])));
   (*L89*) SAssign "contracted_intermediate" (EScale (1 # 1) (EEins "maej,ebik,cdlm->abcdijkl" [(ESlice (EVar "g") [SV "o"; SV "v"; SV "v"; SV "o"]); (EVar "t2"); (EVar "t2")]));
   (*L90*) SAug true "quadruples_res" (EAdd (EAdd (EAdd (EScale (1 # 1) (EVar "contracted_intermediate")) (EScale (-1 # 1) (EEins "abcdijkl->abcdjikl" [(EVar "contracted_intermediate")]))) (EScale (-1 # 1) (EEins "abcdijkl->acbdijkl" [(EVar "contracted_intermediate")]))) (EScale (1 # 1) (EEins "abcdijkl->acbdjikl" [(EVar "contracted_intermediate")])));
   (*L93*) SAssign "contracted_intermediate" (EScale (1 # 1) (EEins "maej,edkl,bcim->abcdijkl" [(ESlice (EVar "g") [SV "o"; SV "v"; SV "v"; SV "o"]); (EVar "t2"); (EVar "t2")]));
   (*L94*) SAug true "quadruples_res" (EAdd (EAdd (EAdd (EScale (1 # 1) (EVar "contracted_intermediate")) (EScale (-1 # 1) (EEins "abcdijkl->abcdkjil" [(EVar "contracted_intermediate")]))) (EScale (-1 # 1) (EEins "abcdijkl->bacdijkl" [(EVar "contracted_intermediate")]))) (EScale (1 # 1) (EEins "abcdijkl->bacdkjil" [(EVar "contracted_intermediate")])));
   (*L97*) SAssign "contracted_intermediate" (EScale (1 # 1) (EEins "maej,edik,bclm->abcdijkl" [(ESlice (EVar "g") [SV "o"; SV "v"; SV "v"; SV "o"]); (EVar "t2"); (EVar "t2")]));
   (*L98*) SAug true "quadruples_res" (EAdd (EAdd (EAdd (EScale (1 # 1) (EVar "contracted_intermediate")) (EScale (-1 # 1) (EEins "abcdijkl->abcdjikl" [(EVar "contracted_intermediate")]))) (EScale (-1 # 1) (EEins "abcdijkl->bacdijkl" [(EVar "contracted_intermediate")]))) (EScale (1 # 1) (EEins "abcdijkl->bacdjikl" [(EVar "contracted_intermediate")])));
   (*L101*) SAssign "contracted_intermediate" (EScale (-1 # 1) (EEins "maei,ebkl,cdjm->abcdijkl" [(ESlice (EVar "g") [SV "o"; SV "v"; SV "v"; SV "o"]); (EVar "t2"); (EVar "t2")]));
   (*L102*) SAug true "quadruples_res" (EAdd (EAdd (EAdd (EScale (1 # 1) (EVar "contracted_intermediate")) (EScale (-1 # 1) (EEins "abcdijkl->abcdikjl" [(EVar "contracted_intermediate")]))) (EScale (-1 # 1) (EEins "abcdijkl->acbdijkl" [(EVar "contracted_intermediate")]))) (EScale (1 # 1) (EEins "abcdijkl->acbdikjl" [(EVar "contracted_intermediate")])));
   (*L105*) SAssign "contracted_intermediate" (EScale (-1 # 1) (EEins "maei,edkl,bcjm->abcdijkl" [(ESlice (EVar "g") [SV "o"; SV "v"; SV "v"; SV "o"]); (EVar "t2"); (EVar "t2")]));
   (*L106*) SAug true "quadruples_res" (EAdd (EAdd (EAdd (EScale (1 # 1) (EVar "contracted_intermediate")) (EScale (-1 # 1) (EEins "abcdijkl->abcdikjl" [(EVar "contracted_intermediate")]))) (EScale (-1 # 1) (EEins "abcdijkl->bacdijkl" [(EVar "contracted_intermediate")]))) (EScale (1 # 1) (EEins "abcdijkl->bacdikjl" [(EVar "contracted_intermediate")])));
   (*L109*) SAssign "contracted_intermediate" (EScale (-1 # 1) (EEins "mbel,eajk,cdim->abcdijkl" [(ESlice (EVar "g") [SV "o"; SV "v"; SV "v"; SV "o"]); (EVar "t2"); (EVar "t2")]));
   (*L110*) SAug true "quadruples_res" (EAdd (EAdd (EAdd (EScale (1 # 1) (EVar "contracted_intermediate")) (EScale (-1 # 1) (EEins "abcdijkl->abcdjikl" [(EVar "contracted_intermediate")]))) (EScale (-1 # 1) (EEins "abcdijkl->cbadijkl" [(EVar "contracted_intermediate")]))) (EScale (1 # 1) (EEins "abcdijkl->cbadjikl" [(EVar "contracted_intermediate")])));
   (*L113*) SAssign "contracted_intermediate" (EScale (-1 # 1) (EEins "mbel,eaij,cdkm->abcdijkl" [(ESlice (EVar "g") [SV "o"; SV "v"; SV "v"; SV "o"]); (EVar "t2"); (EVar "t2")]));
   (*L114*) SAug true "quadruples_res" (EAdd (EAdd (EAdd (EScale (1 # 1) (EVar "contracted_intermediate")) (EScale (-1 # 1) (EEins "abcdijkl->abcdijlk" [(EVar "contracted_intermediate")]))) (EScale (-1 # 1) (EEins "abcdijkl->cbadijkl" [(EVar "contracted_intermediate")]))) (EScale (1 # 1) (EEins "abcdijkl->cbadijlk" [(EVar "contracted_intermediate")])));
   (*L117*) SAssign "contracted_intermediate" (EScale (1 # 1) (EEins "mbek,eajl,cdim->abcdijkl" [(ESlice (EVar "g") [SV "o"; SV "v"; SV "v"; SV "o"]); (EVar "t2"); (EVar "t2")]));
   (*L118*) SAug true "quadruples_res" (EAdd (EAdd (EAdd (EScale (1 # 1) (EVar "contracted_intermediate")) (EScale (-1 # 1) (EEins "abcdijkl->abcdjikl" [(EVar "contracted_intermediate")]))) (EScale (-1 # 1) (EEins "abcdijkl->cbadijkl" [(EVar "contracted_intermediate")]))) (EScale (1 # 1) (EEins "abcdijkl->cbadjikl" [(EVar "contracted_intermediate")])));
   (*L121*) SAssign "contracted_intermediate" (EScale (-1 # 1) (EEins "mbej,eakl,cdim->abcdijkl" [(ESlice (EVar "g") [SV "o"; SV "v"; SV "v"; SV "o"]); (EVar "t2"); (EVar "t2")]));
   (*L122*) SAug true "quadruples_res" (EAdd (EAdd (EAdd (EScale (1 # 1) (EVar "contracted_intermediate")) (EScale (-1 # 1) (EEins "abcdijkl->abcdkjil" [(EVar "contracted_intermediate")]))) (EScale (-1 # 1) (EEins "abcdijkl->cbadijkl" [(EVar "contracted_intermediate")]))) (EScale (1 # 1) (EEins "abcdijkl->cbadkjil" [(EVar "contracted_intermediate")])));
   (*L125*) SAssign "contracted_intermediate" (EScale (-1 # 1) (EEins "mbej,eaik,cdlm->abcdijkl" [(ESlice (EVar "g") [SV "o"; SV "v"; SV "v"; SV "o"]); (EVar "t2"); (EVar "t2")]));
   (*L126*) SAug true "quadruples_res" (EAdd (EAdd (EAdd (EScale (1 # 1) (EVar "contracted_intermediate")) (EScale (-1 # 1) (EEins "abcdijkl->abcdjikl" [(EVar "contracted_intermediate")]))) (EScale (-1 # 1) (EEins "abcdijkl->cbadijkl" [(EVar "contracted_intermediate")]))) (EScale (1 # 1) (EEins "abcdijkl->cbadjikl" [(EVar "contracted_intermediate")])));
   (*L129*) SAssign "contracted_intermediate" (EScale (1 # 1) (EEins "mbei,eakl,cdjm->abcdijkl" [(ESlice (EVar "g") [SV "o"; SV "v"; SV "v"; SV "o"]); (EVar "t2"); (EVar "t2")]));
   (*L130*) SAug true "quadruples_res" (EAdd (EAdd (EAdd (EScale (1 # 1) (EVar "contracted_intermediate")) (EScale (-1 # 1) (EEins "abcdijkl->abcdikjl" [(EVar "contracted_intermediate")]))) (EScale (-1 # 1) (EEins "abcdijkl->cbadijkl" [(EVar "contracted_intermediate")]))) (EScale (1 # 1) (EEins "abcdijkl->cbadikjl" [(EVar "contracted_intermediate")])));
   (*L133*) SAssign "contracted_intermediate" (EScale (1 # 1) (EEins "mcel,eajk,bdim->abcdijkl" [(ESlice (EVar "g") [SV "o"; SV "v"; SV "v"; SV "o"]); (EVar "t2"); (EVar "t2")]));
   (*L134*) SAug true "quadruples_res" (EAdd (EAdd (EAdd (EScale (1 # 1) (EVar "contracted_intermediate")) (EScale (-1 # 1) (EEins "abcdijkl->abcdjikl" [(EVar "contracted_intermediate")]))) (EScale (-1 # 1) (EEins "abcdijkl->bacdijkl" [(EVar "contracted_intermediate")]))) (EScale (1 # 1) (EEins "abcdijkl->bacdjikl" [(EVar "contracted_intermediate")])));
   (*L137*) SAssign "contracted_intermediate" (EScale (1 # 1) (EEins "mcel,eaij,bdkm->abcdijkl" [(ESlice (EVar "g") [SV "o"; SV "v"; SV "v"; SV "o"]); (EVar "t2"); (EVar "t2")]));
   (*L138*) SAug true "quadruples_res" (EAdd (EAdd (EAdd (EScale (1 # 1) (EVar "contracted_intermediate")) (EScale (-1 # 1) (EEins "abcdijkl->abcdijlk" [(EVar "contracted_intermediate")]))) (EScale (-1 # 1) (EEins "abcdijkl->bacdijkl" [(EVar "contracted_intermediate")]))) (EScale (1 # 1) (EEins "abcdijkl->bacdijlk" [(EVar "contracted_intermediate")])));
   (*L141*) SAssign "contracted_intermediate" (EScale (1 # 1) (EEins "mcel,edjk,abim->abcdijkl" [(ESlice (EVar "g") [SV "o"; SV "v"; SV "v"; SV "o"]); (EVar "t2"); (EVar "t2")]));
   (*L142*) SAug true "quadruples_res" (EAdd (EAdd (EAdd (EScale (1 # 1) (EVar "contracted_intermediate")) (EScale (-1 # 1) (EEins "abcdijkl->abcdjikl" [(EVar "contracted_intermediate")]))) (EScale (-1 # 1) (EEins "abcdijkl->abdcijkl" [(EVar "contracted_intermediate")]))) (EScale (1 # 1) (EEins "abcdijkl->abdcjikl" [(EVar "contracted_intermediate")])));
   (*L145*) SAssign "contracted_intermediate" (EScale (1 # 1) (EEins "mcel,edij,abkm->abcdijkl" [(ESlice (EVar "g") [SV "o"; SV "v"; SV "v"; SV "o"]); (EVar "t2"); (EVar "t2")]));
   (*L146*) SAug true "quadruples_res" (EAdd (EAdd (EAdd (EScale (1 # 1) (EVar "contracted_intermediate")) (EScale (-1 # 1) (EEins "abcdijkl->abcdijlk" [(EVar "contracted_intermediate")]))) (EScale (-1 # 1) (EEins "abcdijkl->abdcijkl" [(EVar "contracted_intermediate")]))) (EScale (1 # 1) (EEins "abcdijkl->abdcijlk" [(EVar "contracted_intermediate")])));
   (*L149*) SAssign "contracted_intermediate" (EScale (-1 # 1) (EEins "mcek,eajl,bdim->abcdijkl" [(ESlice (EVar "g") [SV "o"; SV "v"; SV "v"; SV "o"]); (EVar "t2"); (EVar "t2")]));
   (*L150*) SAug true "quadruples_res" (EAdd (EAdd (EAdd (EScale (1 # 1) (EVar "contracted_intermediate")) (EScale (-1 # 1) (EEins "abcdijkl->abcdjikl" [(EVar "contracted_intermediate")]))) (EScale (-1 # 1) (EEins "abcdijkl->bacdijkl" [(EVar "contracted_intermediate")]))) (EScale (1 # 1) (EEins "abcdijkl->bacdjikl" [(EVar "contracted_intermediate")])));
   (*L153*) SAssign "contracted_intermediate" (EScale (-1 # 1) (EEins "mcek,edjl,abim->abcdijkl" [(ESlice (EVar "g") [SV "o"; SV "v"; SV "v"; SV "o"]); (EVar "t2"); (EVar "t2")]));
   (*L154*) SAug true "quadruples_res" (EAdd (EAdd (EAdd (EScale (1 # 1) (EVar "contracted_intermediate")) (EScale (-1 # 1) (EEins "abcdijkl->abcdjikl" [(EVar "contracted_intermediate")]))) (EScale (-1 # 1) (EEins "abcdijkl->abdcijkl" [(EVar "contracted_intermediate")]))) (EScale (1 # 1) (EEins "abcdijkl->abdcjikl" [(EVar "contracted_intermediate")])));
   (*L157*) SAssign "contracted_intermediate" (EScale (1 # 1) (EEins "mcej,eakl,bdim->abcdijkl" [(ESlice (EVar "g") [SV "o"; SV "v"; SV "v"; SV "o"]); (EVar "t2"); (EVar "t2")]));
   (*L158*) SAug true "quadruples_res" (EAdd (EAdd (EAdd (EScale (1 # 1) (EVar "contracted_intermediate")) (EScale (-1 # 1) (EEins "abcdijkl->abcdkjil" [(EVar "contracted_intermediate")]))) (EScale (-1 # 1) (EEins "abcdijkl->bacdijkl" [(EVar "contracted_intermediate")]))) (EScale (1 # 1) (EEins "abcdijkl->bacdkjil" [(EVar "contracted_intermediate")])));
   (*L161*) SAssign "contracted_intermediate" (EScale (1 # 1) (EEins "mcej,eaik,bdlm->abcdijkl" [(ESlice (EVar "g") [SV "o"; SV "v"; SV "v"; SV "o"]); (EVar "t2"); (EVar "t2")]));
   (*L162*) SAug true "quadruples_res" (EAdd (EAdd (EAdd (EScale (1 # 1) (EVar "contracted_intermediate")) (EScale (-1 # 1) (EEins "abcdijkl->abcdjikl" [(EVar "contracted_intermediate")]))) (EScale (-1 # 1) (EEins "abcdijkl->bacdijkl" [(EVar "contracted_intermediate")]))) (EScale (1 # 1) (EEins "abcdijkl->bacdjikl" [(EVar "contracted_intermediate")])));
   (*L165*) SAssign "contracted_intermediate" (EScale (1 # 1) (EEins "mcej,edkl,abim->abcdijkl" [(ESlice (EVar "g") [SV "o"; SV "v"; SV "v"; SV "o"]); (EVar "t2"); (EVar "t2")]));
   (*L166*) SAug true "quadruples_res" (EAdd (EAdd (EAdd (EScale (1 # 1) (EVar "contracted_intermediate")) (EScale (-1 # 1) (EEins "abcdijkl->abcdkjil" [(EVar "contracted_intermediate")]))) (EScale (-1 # 1) (EEins "abcdijkl->abdcijkl" [(EVar "contracted_intermediate")]))) (EScale (1 # 1) (EEins "abcdijkl->abdckjil" [(EVar "contracted_intermediate")])));
   (*L169*) SAssign "contracted_intermediate" (EScale (1 # 1) (EEins "mcej,edik,ablm->abcdijkl" [(ESlice (EVar "g") [SV "o"; SV "v"; SV "v"; SV "o"]); (EVar "t2"); (EVar "t2")]));
   (*L170*) SAug true "quadruples_res" (EAdd (EAdd (EAdd (EScale (1 # 1) (EVar "contracted_intermediate")) (EScale (-1 # 1) (EEins "abcdijkl->abcdjikl" [(EVar "contracted_intermediate")]))) (EScale (-1 # 1) (EEins "abcdijkl->abdcijkl" [(EVar "contracted_intermediate")]))) (EScale (1 # 1) (EEins "abcdijkl->abdcjikl" [(EVar "contracted_intermediate")])));
   (*L173*) SAssign "contracted_intermediate" (EScale (-1 # 1) (EEins "mcei,eakl,bdjm->abcdijkl" [(ESlice (EVar "g") [SV "o"; SV "v"; SV "v"; SV "o"]); (EVar "t2"); (EVar "t2")]));
   (*L174*) SAug true "quadruples_res" (EAdd (EAdd (EAdd (EScale (1 # 1) (EVar "contracted_intermediate")) (EScale (-1 # 1) (EEins "abcdijkl->abcdikjl" [(EVar "contracted_intermediate")]))) (EScale (-1 # 1) (EEins "abcdijkl->bacdijkl" [(EVar "contracted_intermediate")]))) (EScale (1 # 1) (EEins "abcdijkl->bacdikjl" [(EVar "contracted_intermediate")])));
   (*L177*) SAssign "contracted_intermediate" (EScale (-1 # 1) (EEins "mcei,edkl,abjm->abcdijkl" [(ESlice (EVar "g") [SV "o"; SV "v"; SV "v"; SV "o"]); (EVar "t2"); (EVar "t2")]));
   (*L178*) SAug true "quadruples_res" (EAdd (EAdd (EAdd (EScale (1 # 1) (EVar "contracted_intermediate")) (EScale (-1 # 1) (EEins "abcdijkl->abcdikjl" [(EVar "contracted_intermediate")]))) (EScale (-1 # 1) (EEins "abcdijkl->abdcijkl" [(EVar "contracted_intermediate")]))) (EScale (1 # 1) (EEins "abcdijkl->abdcikjl" [(EVar "contracted_intermediate")])));
   (*L181*) SAssign "contracted_intermediate" (EScale (-1 # 1) (EEins "mdel,eajk,bcim->abcdijkl" [(ESlice (EVar "g") [SV "o"; SV "v"; SV "v"; SV "o"]); (EVar "t2"); (EVar "t2")]));
   (*L182*) SAug true "quadruples_res" (EAdd (EAdd (EAdd (EScale (1 # 1) (EVar "contracted_intermediate")) (EScale (-1 # 1) (EEins "abcdijkl->abcdjikl" [(EVar "contracted_intermediate")]))) (EScale (-1 # 1) (EEins "abcdijkl->bacdijkl" [(EVar "contracted_intermediate")]))) (EScale (1 # 1) (EEins "abcdijkl->bacdjikl" [(EVar "contracted_intermediate")])));
   (*L185*) SAssign "contracted_intermediate" (EScale (-1 # 1) (EEins "mdel,eaij,bckm->abcdijkl" [(ESlice (EVar "g") [SV "o"; SV "v"; SV "v"; SV "o"]); (EVar "t2"); (EVar "t2")]));
   (*L186*) SAug true "quadruples_res" (EAdd (EAdd (EAdd (EScale (1 # 1) (EVar "contracted_intermediate")) (EScale (-1 # 1) (EEins "abcdijkl->abcdijlk" [(EVar "contracted_intermediate")]))) (EScale (-1 # 1) (EEins "abcdijkl->bacdijkl" [(EVar "contracted_intermediate")]))) (EScale (1 # 1) (EEins "abcdijkl->bacdijlk" [(EVar "contracted_intermediate")])));
   (*L189*) SAssign "contracted_intermediate" (EScale (1 # 1) (EEins "mdek,eajl,bcim->abcdijkl" [(ESlice (EVar "g") [SV "o"; SV "v"; SV "v"; SV "o"]); (EVar "t2"); (EVar "t2")]));
   (*L190*) SAug true "quadruples_res" (EAdd (EAdd (EAdd (EScale (1 # 1) (EVar "contracted_intermediate")) (EScale (-1 # 1) (EEins "abcdijkl->abcdjikl" [(EVar "contracted_intermediate")]))) (EScale (-1 # 1) (EEins "abcdijkl->bacdijkl" [(EVar "contracted_intermediate")]))) (EScale (1 # 1) (EEins "abcdijkl->bacdjikl" [(EVar "contracted_intermediate")])));
   (*L193*) SAssign "contracted_intermediate" (EScale (-1 # 1) (EEins "mdej,eakl,bcim->abcdijkl" [(ESlice (EVar "g") [SV "o"; SV "v"; SV "v"; SV "o"]); (EVar "t2"); (EVar "t2")]));
   (*L194*) SAug true "quadruples_res" (EAdd (EAdd (EAdd (EScale (1 # 1) (EVar "contracted_intermediate")) (EScale (-1 # 1) (EEins "abcdijkl->abcdkjil" [(EVar "contracted_intermediate")]))) (EScale (-1 # 1) (EEins "abcdijkl->bacdijkl" [(EVar "contracted_intermediate")]))) (EScale (1 # 1) (EEins "abcdijkl->bacdkjil" [(EVar "contracted_intermediate")])));
   (*L197*) SAssign "contracted_intermediate" (EScale (-1 # 1) (EEins "mdej,eaik,bclm->abcdijkl" [(ESlice (EVar "g") [SV "o"; SV "v"; SV "v"; SV "o"]); (EVar "t2"); (EVar "t2")]));
   (*L198*) SAug true "quadruples_res" (EAdd (EAdd (EAdd (EScale (1 # 1) (EVar "contracted_intermediate")) (EScale (-1 # 1) (EEins "abcdijkl->abcdjikl" [(EVar "contracted_intermediate")]))) (EScale (-1 # 1) (EEins "abcdijkl->bacdijkl" [(EVar "contracted_intermediate")]))) (EScale (1 # 1) (EEins "abcdijkl->bacdjikl" [(EVar "contracted_intermediate")])));
   (*L201*) SAssign "contracted_intermediate" (EScale (1 # 1) (EEins "mdei,eakl,bcjm->abcdijkl" [(ESlice (EVar "g") [SV "o"; SV "v"; SV "v"; SV "o"]); (EVar "t2"); (EVar "t2")]));
   (*L202*) SAug true "quadruples_res" (EAdd (EAdd (EAdd (EScale (1 # 1) (EVar "contracted_intermediate")) (EScale (-1 # 1) (EEins "abcdijkl->abcdikjl" [(EVar "contracted_intermediate")]))) (EScale (-1 # 1) (EEins "abcdijkl->bacdijkl" [(EVar "contracted_intermediate")]))) (EScale (1 # 1) (EEins "abcdijkl->bacdikjl" [(EVar "contracted_intermediate")])));
   (*L205*) SAssign "contracted_intermediate" (EScale (-1 # 1) (EEins "abef,eckl,fdij->abcdijkl" [(ESlice (EVar "g") [SV "v"; SV "v"; SV "v"; SV "v"]); (EVar "t2"); (EVar "t2")]));
   (*L206*) SAug true "quadruples_res" (EAdd (EAdd (EAdd (EScale (1 # 1) (EVar "contracted_intermediate")) (EScale (-1 # 1) (EEins "abcdijkl->abcdikjl" [(EVar "contracted_intermediate")]))) (EScale (-1 # 1) (EEins "abcdijkl->acbdijkl" [(EVar "contracted_intermediate")]))) (EScale (1 # 1) (EEins "abcdijkl->acbdikjl" [(EVar "contracted_intermediate")])));
   (*L209*) SAssign "contracted_intermediate" (EScale (-1 # 1) (EEins "abef,ecil,fdjk->abcdijkl" [(ESlice (EVar "g") [SV "v"; SV "v"; SV "v"; SV "v"]); (EVar "t2"); (EVar "t2")]));
   (*L210*) SAug true "quadruples_res" (EAdd (EAdd (EAdd (EScale (1 # 1) (EVar "contracted_intermediate")) (EScale (-1 # 1) (EEins "abcdijkl->abcdijlk" [(EVar "contracted_intermediate")]))) (EScale (-1 # 1) (EEins "abcdijkl->acbdijkl" [(EVar "contracted_intermediate")]))) (EScale (1 # 1) (EEins "abcdijkl->acbdijlk" [(EVar "contracted_intermediate")])));
   (*L213*) SAssign "contracted_intermediate" (EScale (-1 # 1) (EEins "abef,ecjk,fdil->abcdijkl" [(ESlice (EVar "g") [SV "v"; SV "v"; SV "v"; SV "v"]); (EVar "t2"); (EVar "t2")]));
   (*L214*) SAug true "quadruples_res" (EAdd (EAdd (EAdd (EScale (1 # 1) (EVar "contracted_intermediate")) (EScale (-1 # 1) (EEins "abcdijkl->abcdkjil" [(EVar "contracted_intermediate")]))) (EScale (-1 # 1) (EEins "abcdijkl->acbdijkl" [(EVar "contracted_intermediate")]))) (EScale (1 # 1) (EEins "abcdijkl->acbdkjil" [(EVar "contracted_intermediate")])));
   (*L217*) SAssign "contracted_intermediate" (EScale (-1 # 1) (EEins "adef,ebkl,fcij->abcdijkl" [(ESlice (EVar "g") [SV "v"; SV "v"; SV "v"; SV "v"]); (EVar "t2"); (EVar "t2")]));
   (*L218*) SAug true "quadruples_res" (EAdd (EAdd (EAdd (EScale (1 # 1) (EVar "contracted_intermediate")) (EScale (-1 # 1) (EEins "abcdijkl->abcdikjl" [(EVar "contracted_intermediate")]))) (EScale (-1 # 1) (EEins "abcdijkl->bacdijkl" [(EVar "contracted_intermediate")]))) (EScale (1 # 1) (EEins "abcdijkl->bacdikjl" [(EVar "contracted_intermediate")])));
   (*L221*) SAssign "contracted_intermediate" (EScale (-1 # 1) (EEins "adef,ebil,fcjk->abcdijkl" [(ESlice (EVar "g") [SV "v"; SV "v"; SV "v"; SV "v"]); (EVar "t2"); (EVar "t2")]));
   (*L222*) SAug true "quadruples_res" (EAdd (EAdd (EAdd (EScale (1 # 1) (EVar "contracted_intermediate")) (EScale (-1 # 1) (EEins "abcdijkl->abcdijlk" [(EVar "contracted_intermediate")]))) (EScale (-1 # 1) (EEins "abcdijkl->bacdijkl" [(EVar "contracted_intermediate")]))) (EScale (1 # 1) (EEins "abcdijkl->bacdijlk" [(EVar "contracted_intermediate")])));
   (*L225*) SAssign "contracted_intermediate" (EScale (-1 # 1) (EEins "adef,ebjk,fcil->abcdijkl" [(ESlice (EVar "g") [SV "v"; SV "v"; SV "v"; SV "v"]); (EVar "t2"); (EVar "t2")]));
   (*L226*) SAug true "quadruples_res" (EAdd (EAdd (EAdd (EScale (1 # 1) (EVar "contracted_intermediate")) (EScale (-1 # 1) (EEins "abcdijkl->abcdkjil" [(EVar "contracted_intermediate")]))) (EScale (-1 # 1) (EEins "abcdijkl->bacdijkl" [(EVar "contracted_intermediate")]))) (EScale (1 # 1) (EEins "abcdijkl->bacdkjil" [(EVar "contracted_intermediate")])));
   (*L229*) SAssign "contracted_intermediate" (EScale (-1 # 1) (EEins "bcef,eakl,fdij->abcdijkl" [(ESlice (EVar "g") [SV "v"; SV "v"; SV "v"; SV "v"]); (EVar "t2"); (EVar "t2")]));
   (*L230*) SAug true "quadruples_res" (EAdd (EAdd (EAdd (EScale (1 # 1) (EVar "contracted_intermediate")) (EScale (-1 # 1) (EEins "abcdijkl->abcdikjl" [(EVar "contracted_intermediate")]))) (EScale (-1 # 1) (EEins "abcdijkl->adcbijkl" [(EVar "contracted_intermediate")]))) (EScale (1 # 1) (EEins "abcdijkl->adcbikjl" [(EVar "contracted_intermediate")])));
   (*L233*) SAssign "contracted_intermediate" (EScale (-1 # 1) (EEins "bcef,eail,fdjk->abcdijkl" [(ESlice (EVar "g") [SV "v"; SV "v"; SV "v"; SV "v"]); (EVar "t2"); (EVar "t2")]));
   (*L234*) SAug true "quadruples_res" (EAdd (EAdd (EAdd (EScale (1 # 1) (EVar "contracted_intermediate")) (EScale (-1 # 1) (EEins "abcdijkl->abcdijlk" [(EVar "contracted_intermediate")]))) (EScale (-1 # 1) (EEins "abcdijkl->adcbijkl" [(EVar "contracted_intermediate")]))) (EScale (1 # 1) (EEins "abcdijkl->adcbijlk" [(EVar "contracted_intermediate")])));
   (*L237*) SAssign "contracted_intermediate" (EScale (-1 # 1) (EEins "bcef,eajk,fdil->abcdijkl" [(ESlice (EVar "g") [SV "v"; SV "v"; SV "v"; SV "v"]); (EVar "t2"); (EVar "t2")]));
   (*L238*) SAug true "quadruples_res" (EAdd (EAdd (EAdd (EScale (1 # 1) (EVar "contracted_intermediate")) (EScale (-1 # 1) (EEins "abcdijkl->abcdkjil" [(EVar "contracted_intermediate")]))) (EScale (-1 # 1) (EEins "abcdijkl->adcbijkl" [(EVar "contracted_intermediate")]))) (EScale (1 # 1) (EEins "abcdijkl->adcbkjil" [(EVar "contracted_intermediate")])))]
  (*L240*) (EVar "quadruples_res").
