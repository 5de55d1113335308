(** Generated by tools/transcribe.py from /repo/UT2/t2residEqns.py; do not edit. *)
From Coq Require Import String List QArith.
From Verif Require Import Interp.
Import ListNotations.
Open Scope string_scope.

(** /repo/UT2/t2residEqns.py:92-174  def ccd_t2_aaaa_residual *)
Definition ccd_t2_aaaa_residual : fn := mkFn
  ["t2_aaaa"; "t2_bbbb"; "t2_abab"; "f_aa"; "f_bb"; "g_aaaa"; "g_bbbb"; "g_abab"; "oa"; "ob"; "va"; "vb"; "cc_runtype"]
  [(*L96*) SAssign "o" (EVar "oa");
   (*L97*) SAssign "v" (EVar "va");
   (*L100*) SAssign "contracted_intermediate" (EScale (-1 # 1) (EEins "in,efmi->efmn" [(ESlice (EVar "f_aa") [SV "o"; SV "o"]); (EVar "t2_aaaa")]));
   (*L101*) SAssign "doubles_res" (EAdd (EScale (1 # 1) (EVar "contracted_intermediate")) (EScale (-1 # 1) (EEins "efmn->efnm" [(EVar "contracted_intermediate")])));
   (*L104*) SAssign "contracted_intermediate" (EScale (1 # 1) (EEins "ea,afmn->efmn" [(ESlice (EVar "f_aa") [SV "v"; SV "v"]); (EVar "t2_aaaa")]));
   (*L105*) SAug true "doubles_res" (EAdd (EScale (1 # 1) (EVar "contracted_intermediate")) (EScale (-1 # 1) (EEins "efmn->femn" [(EVar "contracted_intermediate")])));
   (*L108*) SAug true "doubles_res" (EScale (1 # 1) (EEins "efmn->efmn" [(ESlice (EVar "g_aaaa") [SV "v"; SV "v"; SV "o"; SV "o"])]));
   (*L111*) SAug true "doubles_res" (EScale (1 # 2) (EEins "jimn,efji->efmn" [(ESlice (EVar "g_aaaa") [SV "o"; SV "o"; SV "o"; SV "o"]); (EVar "t2_aaaa")]));
   (*L114*) SAssign "contracted_intermediate" (EScale (1 # 1) (EEins "iean,afmi->efmn" [(ESlice (EVar "g_aaaa") [SV "o"; SV "v"; SV "v"; SV "o"]); (EVar "t2_aaaa")]));
   (*L115*) SAug true "doubles_res" (EAdd (EAdd (EAdd (EScale (1 # 1) (EVar "contracted_intermediate")) (EScale (-1 # 1) (EEins "efmn->efnm" [(EVar "contracted_intermediate")]))) (EScale (-1 # 1) (EEins "efmn->femn" [(EVar "contracted_intermediate")]))) (EScale (1 # 1) (EEins "efmn->fenm" [(EVar "contracted_intermediate")])));
   (*L118*) SAssign "contracted_intermediate" (EScale (-1 # 1) (EEins "eina,fami->efmn" [(ESlice (EVar "g_abab") [SV "v"; SV "o"; SV "o"; SV "v"]); (EVar "t2_abab")]));
   (*L119*) SAug true "doubles_res" (EAdd (EAdd (EAdd (EScale (1 # 1) (EVar "contracted_intermediate")) (EScale (-1 # 1) (EEins "efmn->efnm" [(EVar "contracted_intermediate")]))) (EScale (-1 # 1) (EEins "efmn->femn" [(EVar "contracted_intermediate")]))) (EScale (1 # 1) (EEins "efmn->fenm" [(EVar "contracted_intermediate")])));
   (*L122*) SAug true "doubles_res" (EScale (1 # 2) (EEins "efab,abmn->efmn" [(ESlice (EVar "g_aaaa") [SV "v"; SV "v"; SV "v"; SV "v"]); (EVar "t2_aaaa")]));
   (*L125*) SAssign "contracted_intermediate" (EScale (-1 # 2) (EEins "jiab,abni,efmj->efmn" [(ESlice (EVar "g_aaaa") [SV "o"; SV "o"; SV "v"; SV "v"]); (EVar "t2_aaaa"); (EVar "t2_aaaa")]));
   (*L126*) SAug true "doubles_res" (EAdd (EScale (1 # 1) (EVar "contracted_intermediate")) (EScale (-1 # 1) (EEins "efmn->efnm" [(EVar "contracted_intermediate")])));
   (*L129*) SAssign "contracted_intermediate" (EScale (-1 # 2) (EEins "jiab,abni,efmj->efmn" [(ESlice (EVar "g_abab") [SV "o"; SV "o"; SV "v"; SV "v"]); (EVar "t2_abab"); (EVar "t2_aaaa")]));
   (*L130*) SAug true "doubles_res" (EAdd (EScale (1 # 1) (EVar "contracted_intermediate")) (EScale (-1 # 1) (EEins "efmn->efnm" [(EVar "contracted_intermediate")])));
   (*L133*) SAssign "contracted_intermediate" (EScale (-1 # 2) (EEins "jiba,bani,efmj->efmn" [(ESlice (EVar "g_abab") [SV "o"; SV "o"; SV "v"; SV "v"]); (EVar "t2_abab"); (EVar "t2_aaaa")]));
   (*L134*) SAug true "doubles_res" (EAdd (EScale (1 # 1) (EVar "contracted_intermediate")) (EScale (-1 # 1) (EEins "efmn->efnm" [(EVar "contracted_intermediate")])));
   (*L137*) SAug true "doubles_res" (EScale (1 # 4) (EEins "jiab,abmn,efji->efmn" [(ESlice (EVar "g_aaaa") [SV "o"; SV "o"; SV "v"; SV "v"]); (EVar "t2_aaaa"); (EVar "t2_aaaa")]));
   (*L140*) SAug true "doubles_res" (EScale (-1 # 2) (EEins "jiab,aeji,bfmn->efmn" [(ESlice (EVar "g_aaaa") [SV "o"; SV "o"; SV "v"; SV "v"]); (EVar "t2_aaaa"); (EVar "t2_aaaa")]));
   (*L143*) SAug true "doubles_res" (EScale (-1 # 2) (EEins "jiba,eaji,bfmn->efmn" [(ESlice (EVar "g_abab") [SV "o"; SV "o"; SV "v"; SV "v"]); (EVar "t2_abab"); (EVar "t2_aaaa")]));
   (*L146*) SAug true "doubles_res" (EScale (-1 # 2) (EEins "ijba,eaij,bfmn->efmn" [(ESlice (EVar "g_abab") [SV "o"; SV "o"; SV "v"; SV "v"]); (EVar "t2_abab"); (EVar "t2_aaaa")]));
   (*L149*) SAssign "contracted_intermediate" (EScale (1 # 1) (EEins "jiab,aeni,bfmj->efmn" [(ESlice (EVar "g_aaaa") [SV "o"; SV "o"; SV "v"; SV "v"]); (EVar "t2_aaaa"); (EVar "t2_aaaa")]));
   (*L150*) SAug true "doubles_res" (EAdd (EScale (1 # 1) (EVar "contracted_intermediate")) (EScale (-1 # 1) (EEins "efmn->efnm" [(EVar "contracted_intermediate")])));
   (*L153*) SAssign "contracted_intermediate" (EScale (1 # 1) (EEins "ijab,aeni,fbmj->efmn" [(ESlice (EVar "g_abab") [SV "o"; SV "o"; SV "v"; SV "v"]); (EVar "t2_aaaa"); (EVar "t2_abab")]));
   (*L154*) SAug true "doubles_res" (EAdd (EScale (1 # 1) (EVar "contracted_intermediate")) (EScale (-1 # 1) (EEins "efmn->efnm" [(EVar "contracted_intermediate")])));
   (*L157*) SAssign "contracted_intermediate" (EScale (1 # 1) (EEins "jiba,eani,bfmj->efmn" [(ESlice (EVar "g_abab") [SV "o"; SV "o"; SV "v"; SV "v"]); (EVar "t2_abab"); (EVar "t2_aaaa")]));
   (*L158*) SAug true "doubles_res" (EAdd (EScale (1 # 1) (EVar "contracted_intermediate")) (EScale (-1 # 1) (EEins "efmn->efnm" [(EVar "contracted_intermediate")])));
   (*L161*) SAssign "contracted_intermediate" (EScale (1 # 1) (EEins "jiab,eani,fbmj->efmn" [(ESlice (EVar "g_bbbb") [SV "o"; SV "o"; SV "v"; SV "v"]); (EVar "t2_abab"); (EVar "t2_abab")]));
   (*L162*) SAug true "doubles_res" (EAdd (EScale (1 # 1) (EVar "contracted_intermediate")) (EScale (-1 # 1) (EEins "efmn->efnm" [(EVar "contracted_intermediate")])));
   (*L165*) SAug true "doubles_res" (EScale (-1 # 2) (EEins "jiab,aemn,bfji->efmn" [(ESlice (EVar "g_aaaa") [SV "o"; SV "o"; SV "v"; SV "v"]); (EVar "t2_aaaa"); (EVar "t2_aaaa")]));
   (*L168*) SAug true "doubles_res" (EScale (1 # 2) (EEins "jiab,aemn,fbji->efmn" [(ESlice (EVar "g_abab") [SV "o"; SV "o"; SV "v"; SV "v"]); (EVar "t2_aaaa"); (EVar "t2_abab")]));
   (*L171*) SAug true "doubles_res" (EScale (1 # 2) (EEins "ijab,aemn,fbij->efmn" [(ESlice (EVar "g_abab") [SV "o"; SV "o"; SV "v"; SV "v"]); (EVar "t2_aaaa"); (EVar "t2_abab")]))]
  (*L174*) (EVar "doubles_res").

(** /repo/UT2/t2residEqns.py:177-258  def ccd_t2_bbbb_residual *)
Definition ccd_t2_bbbb_residual : fn := mkFn
  ["t2_aaaa"; "t2_bbbb"; "t2_abab"; "f_aa"; "f_bb"; "g_aaaa"; "g_bbbb"; "g_abab"; "oa"; "ob"; "va"; "vb"; "cc_runtype"]
  [(*L181*) SAssign "o" (EVar "oa");
   (*L182*) SAssign "v" (EVar "va");
   (*L185*) SAssign "contracted_intermediate" (EScale (-1 # 1) (EEins "in,efmi->efmn" [(ESlice (EVar "f_bb") [SV "o"; SV "o"]); (EVar "t2_bbbb")]));
   (*L186*) SAssign "doubles_res" (EAdd (EScale (1 # 1) (EVar "contracted_intermediate")) (EScale (-1 # 1) (EEins "efmn->efnm" [(EVar "contracted_intermediate")])));
   (*L189*) SAssign "contracted_intermediate" (EScale (1 # 1) (EEins "ea,afmn->efmn" [(ESlice (EVar "f_bb") [SV "v"; SV "v"]); (EVar "t2_bbbb")]));
   (*L190*) SAug true "doubles_res" (EAdd (EScale (1 # 1) (EVar "contracted_intermediate")) (EScale (-1 # 1) (EEins "efmn->femn" [(EVar "contracted_intermediate")])));
   (*L193*) SAug true "doubles_res" (EScale (1 # 1) (EEins "efmn->efmn" [(ESlice (EVar "g_bbbb") [SV "v"; SV "v"; SV "o"; SV "o"])]));
   (*L196*) SAug true "doubles_res" (EScale (1 # 2) (EEins "jimn,efji->efmn" [(ESlice (EVar "g_bbbb") [SV "o"; SV "o"; SV "o"; SV "o"]); (EVar "t2_bbbb")]));
   (*L199*) SAssign "contracted_intermediate" (EScale (-1 # 1) (EEins "iean,afim->efmn" [(ESlice (EVar "g_abab") [SV "o"; SV "v"; SV "v"; SV "o"]); (EVar "t2_abab")]));
   (*L200*) SAug true "doubles_res" (EAdd (EAdd (EAdd (EScale (1 # 1) (EVar "contracted_intermediate")) (EScale (-1 # 1) (EEins "efmn->efnm" [(EVar "contracted_intermediate")]))) (EScale (-1 # 1) (EEins "efmn->femn" [(EVar "contracted_intermediate")]))) (EScale (1 # 1) (EEins "efmn->fenm" [(EVar "contracted_intermediate")])));
   (*L203*) SAssign "contracted_intermediate" (EScale (1 # 1) (EEins "iean,afmi->efmn" [(ESlice (EVar "g_bbbb") [SV "o"; SV "v"; SV "v"; SV "o"]); (EVar "t2_bbbb")]));
   (*L204*) SAug true "doubles_res" (EAdd (EAdd (EAdd (EScale (1 # 1) (EVar "contracted_intermediate")) (EScale (-1 # 1) (EEins "efmn->efnm" [(EVar "contracted_intermediate")]))) (EScale (-1 # 1) (EEins "efmn->femn" [(EVar "contracted_intermediate")]))) (EScale (1 # 1) (EEins "efmn->fenm" [(EVar "contracted_intermediate")])));
   (*L207*) SAug true "doubles_res" (EScale (1 # 2) (EEins "efab,abmn->efmn" [(ESlice (EVar "g_bbbb") [SV "v"; SV "v"; SV "v"; SV "v"]); (EVar "t2_bbbb")]));
   (*L210*) SAssign "contracted_intermediate" (EScale (-1 # 2) (EEins "ijab,abin,efmj->efmn" [(ESlice (EVar "g_abab") [SV "o"; SV "o"; SV "v"; SV "v"]); (EVar "t2_abab"); (EVar "t2_bbbb")]));
   (*L211*) SAug true "doubles_res" (EAdd (EScale (1 # 1) (EVar "contracted_intermediate")) (EScale (-1 # 1) (EEins "efmn->efnm" [(EVar "contracted_intermediate")])));
   (*L214*) SAssign "contracted_intermediate" (EScale (-1 # 2) (EEins "ijba,bain,efmj->efmn" [(ESlice (EVar "g_abab") [SV "o"; SV "o"; SV "v"; SV "v"]); (EVar "t2_abab"); (EVar "t2_bbbb")]));
   (*L215*) SAug true "doubles_res" (EAdd (EScale (1 # 1) (EVar "contracted_intermediate")) (EScale (-1 # 1) (EEins "efmn->efnm" [(EVar "contracted_intermediate")])));
   (*L218*) SAssign "contracted_intermediate" (EScale (-1 # 2) (EEins "jiab,abni,efmj->efmn" [(ESlice (EVar "g_bbbb") [SV "o"; SV "o"; SV "v"; SV "v"]); (EVar "t2_bbbb"); (EVar "t2_bbbb")]));
   (*L219*) SAug true "doubles_res" (EAdd (EScale (1 # 1) (EVar "contracted_intermediate")) (EScale (-1 # 1) (EEins "efmn->efnm" [(EVar "contracted_intermediate")])));
   (*L222*) SAug true "doubles_res" (EScale (1 # 4) (EEins "jiab,abmn,efji->efmn" [(ESlice (EVar "g_bbbb") [SV "o"; SV "o"; SV "v"; SV "v"]); (EVar "t2_bbbb"); (EVar "t2_bbbb")]));
   (*L225*) SAug true "doubles_res" (EScale (-1 # 2) (EEins "jiab,aeji,bfmn->efmn" [(ESlice (EVar "g_abab") [SV "o"; SV "o"; SV "v"; SV "v"]); (EVar "t2_abab"); (EVar "t2_bbbb")]));
   (*L228*) SAug true "doubles_res" (EScale (-1 # 2) (EEins "ijab,aeij,bfmn->efmn" [(ESlice (EVar "g_abab") [SV "o"; SV "o"; SV "v"; SV "v"]); (EVar "t2_abab"); (EVar "t2_bbbb")]));
   (*L231*) SAug true "doubles_res" (EScale (-1 # 2) (EEins "jiab,aeji,bfmn->efmn" [(ESlice (EVar "g_bbbb") [SV "o"; SV "o"; SV "v"; SV "v"]); (EVar "t2_bbbb"); (EVar "t2_bbbb")]));
   (*L234*) SAssign "contracted_intermediate" (EScale (1 # 1) (EEins "jiab,aein,bfjm->efmn" [(ESlice (EVar "g_aaaa") [SV "o"; SV "o"; SV "v"; SV "v"]); (EVar "t2_abab"); (EVar "t2_abab")]));
   (*L235*) SAug true "doubles_res" (EAdd (EScale (1 # 1) (EVar "contracted_intermediate")) (EScale (-1 # 1) (EEins "efmn->efnm" [(EVar "contracted_intermediate")])));
   (*L238*) SAssign "contracted_intermediate" (EScale (1 # 1) (EEins "ijab,aein,bfmj->efmn" [(ESlice (EVar "g_abab") [SV "o"; SV "o"; SV "v"; SV "v"]); (EVar "t2_abab"); (EVar "t2_bbbb")]));
   (*L239*) SAug true "doubles_res" (EAdd (EScale (1 # 1) (EVar "contracted_intermediate")) (EScale (-1 # 1) (EEins "efmn->efnm" [(EVar "contracted_intermediate")])));
   (*L242*) SAssign "contracted_intermediate" (EScale (1 # 1) (EEins "jiba,aeni,bfjm->efmn" [(ESlice (EVar "g_abab") [SV "o"; SV "o"; SV "v"; SV "v"]); (EVar "t2_bbbb"); (EVar "t2_abab")]));
   (*L243*) SAug true "doubles_res" (EAdd (EScale (1 # 1) (EVar "contracted_intermediate")) (EScale (-1 # 1) (EEins "efmn->efnm" [(EVar "contracted_intermediate")])));
   (*L246*) SAssign "contracted_intermediate" (EScale (1 # 1) (EEins "jiab,aeni,bfmj->efmn" [(ESlice (EVar "g_bbbb") [SV "o"; SV "o"; SV "v"; SV "v"]); (EVar "t2_bbbb"); (EVar "t2_bbbb")]));
   (*L247*) SAug true "doubles_res" (EAdd (EScale (1 # 1) (EVar "contracted_intermediate")) (EScale (-1 # 1) (EEins "efmn->efnm" [(EVar "contracted_intermediate")])));
   (*L250*) SAug true "doubles_res" (EScale (1 # 2) (EEins "jiba,aemn,bfji->efmn" [(ESlice (EVar "g_abab") [SV "o"; SV "o"; SV "v"; SV "v"]); (EVar "t2_bbbb"); (EVar "t2_abab")]));
   (*L253*) SAug true "doubles_res" (EScale (1 # 2) (EEins "ijba,aemn,bfij->efmn" [(ESlice (EVar "g_abab") [SV "o"; SV "o"; SV "v"; SV "v"]); (EVar "t2_bbbb"); (EVar "t2_abab")]));
   (*L256*) SAug true "doubles_res" (EScale (-1 # 2) (EEins "jiab,aemn,bfji->efmn" [(ESlice (EVar "g_bbbb") [SV "o"; SV "o"; SV "v"; SV "v"]); (EVar "t2_bbbb"); (EVar "t2_bbbb")]))]
  (*L258*) (EVar "doubles_res").

(** /repo/UT2/t2residEqns.py:261-376  def ccd_t2_abab_residual *)
Definition ccd_t2_abab_residual : fn := mkFn
  ["t2_aaaa"; "t2_bbbb"; "t2_abab"; "f_aa"; "f_bb"; "g_aaaa"; "g_bbbb"; "g_abab"; "oa"; "ob"; "va"; "vb"; "cc_runtype"]
  [(*L265*) SAssign "o" (EVar "oa");
   (*L266*) SAssign "v" (EVar "va");
   (*L269*) SAssign "doubles_res" (EScale (-1 # 1) (EEins "in,efmi->efmn" [(ESlice (EVar "f_bb") [SV "o"; SV "o"]); (EVar "t2_abab")]));
   (*L272*) SAug true "doubles_res" (EScale (-1 # 1) (EEins "im,efin->efmn" [(ESlice (EVar "f_aa") [SV "o"; SV "o"]); (EVar "t2_abab")]));
   (*L275*) SAug true "doubles_res" (EScale (1 # 1) (EEins "ea,afmn->efmn" [(ESlice (EVar "f_aa") [SV "v"; SV "v"]); (EVar "t2_abab")]));
   (*L278*) SAug true "doubles_res" (EScale (1 # 1) (EEins "fa,eamn->efmn" [(ESlice (EVar "f_bb") [SV "v"; SV "v"]); (EVar "t2_abab")]));
   (*L281*) SAug true "doubles_res" (EScale (1 # 1) (EEins "efmn->efmn" [(ESlice (EVar "g_abab") [SV "v"; SV "v"; SV "o"; SV "o"])]));
   (*L284*) SAug true "doubles_res" (EScale (1 # 2) (EEins "jimn,efji->efmn" [(ESlice (EVar "g_abab") [SV "o"; SV "o"; SV "o"; SV "o"]); (EVar "t2_abab")]));
   (*L287*) SAug true "doubles_res" (EScale (1 # 2) (EEins "ijmn,efij->efmn" [(ESlice (EVar "g_abab") [SV "o"; SV "o"; SV "o"; SV "o"]); (EVar "t2_abab")]));
   (*L290*) SAug true "doubles_res" (EScale (-1 # 1) (EEins "eian,afmi->efmn" [(ESlice (EVar "g_abab") [SV "v"; SV "o"; SV "v"; SV "o"]); (EVar "t2_abab")]));
   (*L293*) SAug true "doubles_res" (EScale (-1 # 1) (EEins "ifan,aemi->efmn" [(ESlice (EVar "g_abab") [SV "o"; SV "v"; SV "v"; SV "o"]); (EVar "t2_aaaa")]));
   (*L296*) SAug true "doubles_res" (EScale (1 # 1) (EEins "ifan,eami->efmn" [(ESlice (EVar "g_bbbb") [SV "o"; SV "v"; SV "v"; SV "o"]); (EVar "t2_abab")]));
   (*L299*) SAug true "doubles_res" (EScale (1 # 1) (EEins "ieam,afin->efmn" [(ESlice (EVar "g_aaaa") [SV "o"; SV "v"; SV "v"; SV "o"]); (EVar "t2_abab")]));
   (*L302*) SAug true "doubles_res" (EScale (-1 # 1) (EEins "eima,afni->efmn" [(ESlice (EVar "g_abab") [SV "v"; SV "o"; SV "o"; SV "v"]); (EVar "t2_bbbb")]));
   (*L305*) SAug true "doubles_res" (EScale (-1 # 1) (EEins "ifma,eain->efmn" [(ESlice (EVar "g_abab") [SV "o"; SV "v"; SV "o"; SV "v"]); (EVar "t2_abab")]));
   (*L308*) SAug true "doubles_res" (EScale (1 # 2) (EEins "efab,abmn->efmn" [(ESlice (EVar "g_abab") [SV "v"; SV "v"; SV "v"; SV "v"]); (EVar "t2_abab")]));
   (*L311*) SAug true "doubles_res" (EScale (1 # 2) (EEins "efba,bamn->efmn" [(ESlice (EVar "g_abab") [SV "v"; SV "v"; SV "v"; SV "v"]); (EVar "t2_abab")]));
   (*L314*) SAug true "doubles_res" (EScale (-1 # 2) (EEins "ijab,abin,efmj->efmn" [(ESlice (EVar "g_abab") [SV "o"; SV "o"; SV "v"; SV "v"]); (EVar "t2_abab"); (EVar "t2_abab")]));
   (*L317*) SAug true "doubles_res" (EScale (-1 # 2) (EEins "ijba,bain,efmj->efmn" [(ESlice (EVar "g_abab") [SV "o"; SV "o"; SV "v"; SV "v"]); (EVar "t2_abab"); (EVar "t2_abab")]));
   (*L320*) SAug true "doubles_res" (EScale (-1 # 2) (EEins "jiab,abni,efmj->efmn" [(ESlice (EVar "g_bbbb") [SV "o"; SV "o"; SV "v"; SV "v"]); (EVar "t2_bbbb"); (EVar "t2_abab")]));
   (*L323*) SAug true "doubles_res" (EScale (-1 # 2) (EEins "jiab,abmi,efjn->efmn" [(ESlice (EVar "g_aaaa") [SV "o"; SV "o"; SV "v"; SV "v"]); (EVar "t2_aaaa"); (EVar "t2_abab")]));
   (*L326*) SAug true "doubles_res" (EScale (-1 # 2) (EEins "jiab,abmi,efjn->efmn" [(ESlice (EVar "g_abab") [SV "o"; SV "o"; SV "v"; SV "v"]); (EVar "t2_abab"); (EVar "t2_abab")]));
   (*L329*) SAug true "doubles_res" (EScale (-1 # 2) (EEins "jiba,bami,efjn->efmn" [(ESlice (EVar "g_abab") [SV "o"; SV "o"; SV "v"; SV "v"]); (EVar "t2_abab"); (EVar "t2_abab")]));
   (*L332*) SAug true "doubles_res" (EScale (1 # 4) (EEins "jiab,abmn,efji->efmn" [(ESlice (EVar "g_abab") [SV "o"; SV "o"; SV "v"; SV "v"]); (EVar "t2_abab"); (EVar "t2_abab")]));
   (*L335*) SAug true "doubles_res" (EScale (1 # 4) (EEins "ijab,abmn,efij->efmn" [(ESlice (EVar "g_abab") [SV "o"; SV "o"; SV "v"; SV "v"]); (EVar "t2_abab"); (EVar "t2_abab")]));
   (*L338*) SAug true "doubles_res" (EScale (1 # 4) (EEins "jiba,bamn,efji->efmn" [(ESlice (EVar "g_abab") [SV "o"; SV "o"; SV "v"; SV "v"]); (EVar "t2_abab"); (EVar "t2_abab")]));
   (*L341*) SAug true "doubles_res" (EScale (1 # 4) (EEins "ijba,bamn,efij->efmn" [(ESlice (EVar "g_abab") [SV "o"; SV "o"; SV "v"; SV "v"]); (EVar "t2_abab"); (EVar "t2_abab")]));
   (*L344*) SAug true "doubles_res" (EScale (-1 # 2) (EEins "jiab,aeji,bfmn->efmn" [(ESlice (EVar "g_aaaa") [SV "o"; SV "o"; SV "v"; SV "v"]); (EVar "t2_aaaa"); (EVar "t2_abab")]));
   (*L347*) SAug true "doubles_res" (EScale (-1 # 2) (EEins "jiba,eaji,bfmn->efmn" [(ESlice (EVar "g_abab") [SV "o"; SV "o"; SV "v"; SV "v"]); (EVar "t2_abab"); (EVar "t2_abab")]));
   (*L350*) SAug true "doubles_res" (EScale (-1 # 2) (EEins "ijba,eaij,bfmn->efmn" [(ESlice (EVar "g_abab") [SV "o"; SV "o"; SV "v"; SV "v"]); (EVar "t2_abab"); (EVar "t2_abab")]));
   (*L353*) SAug true "doubles_res" (EScale (1 # 1) (EEins "ijba,eain,bfmj->efmn" [(ESlice (EVar "g_abab") [SV "o"; SV "o"; SV "v"; SV "v"]); (EVar "t2_abab"); (EVar "t2_abab")]));
   (*L356*) SAug true "doubles_res" (EScale (1 # 1) (EEins "jiab,aemi,bfjn->efmn" [(ESlice (EVar "g_aaaa") [SV "o"; SV "o"; SV "v"; SV "v"]); (EVar "t2_aaaa"); (EVar "t2_abab")]));
   (*L359*) SAug true "doubles_res" (EScale (1 # 1) (EEins "ijab,aemi,bfnj->efmn" [(ESlice (EVar "g_abab") [SV "o"; SV "o"; SV "v"; SV "v"]); (EVar "t2_aaaa"); (EVar "t2_bbbb")]));
   (*L362*) SAug true "doubles_res" (EScale (1 # 1) (EEins "jiba,eami,bfjn->efmn" [(ESlice (EVar "g_abab") [SV "o"; SV "o"; SV "v"; SV "v"]); (EVar "t2_abab"); (EVar "t2_abab")]));
   (*L365*) SAug true "doubles_res" (EScale (1 # 1) (EEins "jiab,eami,bfnj->efmn" [(ESlice (EVar "g_bbbb") [SV "o"; SV "o"; SV "v"; SV "v"]); (EVar "t2_abab"); (EVar "t2_bbbb")]));
   (*L368*) SAug true "doubles_res" (EScale (-1 # 2) (EEins "jiba,eamn,bfji->efmn" [(ESlice (EVar "g_abab") [SV "o"; SV "o"; SV "v"; SV "v"]); (EVar "t2_abab"); (EVar "t2_abab")]));
   (*L371*) SAug true "doubles_res" (EScale (-1 # 2) (EEins "ijba,eamn,bfij->efmn" [(ESlice (EVar "g_abab") [SV "o"; SV "o"; SV "v"; SV "v"]); (EVar "t2_abab"); (EVar "t2_abab")]));
   (*L374*) SAug true "doubles_res" (EScale (1 # 2) (EEins "jiab,eamn,bfji->efmn" [(ESlice (EVar "g_bbbb") [SV "o"; SV "o"; SV "v"; SV "v"]); (EVar "t2_abab"); (EVar "t2_bbbb")]))]
  (*L376*) (EVar "doubles_res").
