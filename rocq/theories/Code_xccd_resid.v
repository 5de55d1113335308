(** Generated by tools/transcribe.py from /repo/UT2/xccd_resid.py; do not edit. *)
From Coq Require Import String List QArith.
From Verif Require Import Interp.
Import ListNotations.
Open Scope string_scope.

(** /repo/UT2/xccd_resid.py:5-213  def xccd_7 *)
Definition xccd_7 : fn := mkFn
  ["ccd_kernel"; "g"; "t2_aa"; "o"; "v"; "nocc"; "nvir"; "g2"]
  [(*L6*) SAssign "t" (ETransp (EVar "t2_aa") [2; 3; 0; 1]%nat);
   (*L7*) SAssign "v_oo" (ESlice (EVar "g") [SV "o"; SV "o"; SV "o"; SV "o"]);
   (*L8*) SAssign "v_vo" (ESlice (EVar "g") [SV "o"; SV "v"; SV "o"; SV "v"]);
   (*L9*) SAssign "v_vv" (ESlice (EVar "g") [SV "v"; SV "v"; SV "v"; SV "v"]);
   (*L10*) SAssign "v_m2" (ESlice (EVar "g") [SV "v"; SV "v"; SV "o"; SV "o"]);
   (*L13*) SAssign "t_dag" (EVar "t2_aa");
   (*L15*) SAssign "roooovvvv" (EZeros [(EVar "nocc"); (EVar "nocc"); (EVar "nocc"); (EVar "nocc"); (EVar "nvir"); (EVar "nvir"); (EVar "nvir"); (EVar "nvir")]);
   (*L16*) SAug true "roooovvvv" (EScale (3 # 128) (EEins "ijab,klcd,mnef,ghmn,efgh->ijklabcd" [(EVar "t"); (EVar "t"); (EVar "t"); (EVar "t_dag"); (EVar "v_vv")]));
   (*L17*) SAug true "roooovvvv" (EScale (-3 # 16) (EEins "ijab,klcd,mnef,egmh,hfng->ijklabcd" [(EVar "t"); (EVar "t"); (EVar "t"); (EVar "t_dag"); (EVar "v_vo")]));
   (*L18*) SAug true "roooovvvv" (EScale (3 # 128) (EEins "ijab,klcd,mnef,efgh,ghmn->ijklabcd" [(EVar "t"); (EVar "t"); (EVar "t"); (EVar "t_dag"); (EVar "v_oo")]));
   (*L19*) SAug true "roooovvvv" (EScale (-3 # 16) (EEins "ijab,kmcd,lnef,ghmn,efgh->ijklabcd" [(EVar "t"); (EVar "t"); (EVar "t"); (EVar "t_dag"); (EVar "v_vv")]));
   (*L20*) SAug true "roooovvvv" (EScale (3 # 4) (EEins "ijab,kmcd,lnef,egmh,hfng->ijklabcd" [(EVar "t"); (EVar "t"); (EVar "t"); (EVar "t_dag"); (EVar "v_vo")]));
   (*L21*) SAug true "roooovvvv" (EScale (-3 # 4) (EEins "ijab,kmcd,lnef,egnh,hfmg->ijklabcd" [(EVar "t"); (EVar "t"); (EVar "t"); (EVar "t_dag"); (EVar "v_vo")]));
   (*L22*) SAug true "roooovvvv" (EScale (-3 # 16) (EEins "ijab,kmcd,lnef,efgh,ghmn->ijklabcd" [(EVar "t"); (EVar "t"); (EVar "t"); (EVar "t_dag"); (EVar "v_oo")]));
   (*L23*) SAug true "roooovvvv" (EScale (-3 # 4) (EEins "ijab,kmcd,nefg,fhmn,lgeh->ijklabcd" [(EVar "t"); (EVar "t"); (EVar "t"); (EVar "t_dag"); (EVar "v_vo")]));
   (*L24*) SAug true "roooovvvv" (EScale (-3 # 16) (EEins "ijab,kmcd,nefg,fgmh,lhne->ijklabcd" [(EVar "t"); (EVar "t"); (EVar "t"); (EVar "t_dag"); (EVar "v_oo")]));
   (*L25*) SAug true "roooovvvv" (EScale (-3 # 8) (EEins "ijab,kmcd,nefg,fhne,lgmh->ijklabcd" [(EVar "t"); (EVar "t"); (EVar "t"); (EVar "t_dag"); (EVar "v_vo")]));
   (*L26*) SAug true "roooovvvv" (EScale (3 # 8) (EEins "ijab,kmcd,nefg,fgnh,lhme->ijklabcd" [(EVar "t"); (EVar "t"); (EVar "t"); (EVar "t_dag"); (EVar "v_oo")]));
   (*L27*) SAug true "roooovvvv" (EScale (3 # 64) (EEins "ijab,mncd,klef,ghmn,efgh->ijklabcd" [(EVar "t"); (EVar "t"); (EVar "t"); (EVar "t_dag"); (EVar "v_vv")]));
   (*L28*) SAug true "roooovvvv" (EScale (-3 # 8) (EEins "ijab,mncd,klef,egmh,hfng->ijklabcd" [(EVar "t"); (EVar "t"); (EVar "t"); (EVar "t_dag"); (EVar "v_vo")]));
   (*L29*) SAug true "roooovvvv" (EScale (3 # 64) (EEins "ijab,mncd,klef,efgh,ghmn->ijklabcd" [(EVar "t"); (EVar "t"); (EVar "t"); (EVar "t_dag"); (EVar "v_oo")]));
   (*L30*) SAug true "roooovvvv" (EScale (-3 # 8) (EEins "ijab,mncd,kefg,fhmn,lgeh->ijklabcd" [(EVar "t"); (EVar "t"); (EVar "t"); (EVar "t_dag"); (EVar "v_vo")]));
   (*L31*) SAug true "roooovvvv" (EScale (3 # 4) (EEins "ijab,mncd,kefg,fhme,lgnh->ijklabcd" [(EVar "t"); (EVar "t"); (EVar "t"); (EVar "t_dag"); (EVar "v_vo")]));
   (*L32*) SAug true "roooovvvv" (EScale (-3 # 8) (EEins "ijab,mncd,kefg,fgmh,lhne->ijklabcd" [(EVar "t"); (EVar "t"); (EVar "t"); (EVar "t_dag"); (EVar "v_oo")]));
   (*L33*) SAug true "roooovvvv" (EScale (-3 # 16) (EEins "ijab,mncd,kefg,fgeh,lhmn->ijklabcd" [(EVar "t"); (EVar "t"); (EVar "t"); (EVar "t_dag"); (EVar "v_oo")]));
   (*L34*) SAug true "roooovvvv" (EScale (3 # 64) (EEins "ijab,mncd,efgh,ghmn,klef->ijklabcd" [(EVar "t"); (EVar "t"); (EVar "t"); (EVar "t_dag"); (EVar "v_oo")]));
   (*L35*) SAug true "roooovvvv" (EScale (-3 # 16) (EEins "ijab,mncd,efgh,ghme,klnf->ijklabcd" [(EVar "t"); (EVar "t"); (EVar "t"); (EVar "t_dag"); (EVar "v_oo")]));
   (*L36*) SAug true "roooovvvv" (EScale (3 # 64) (EEins "ijab,mncd,efgh,ghef,klmn->ijklabcd" [(EVar "t"); (EVar "t"); (EVar "t"); (EVar "t_dag"); (EVar "v_oo")]));
   (*L37*) SAug true "roooovvvv" (EScale (-3 # 16) (EEins "ijab,klce,mndf,ghmn,efgh->ijklabcd" [(EVar "t"); (EVar "t"); (EVar "t"); (EVar "t_dag"); (EVar "v_vv")]));
   (*L38*) SAug true "roooovvvv" (EScale (-3 # 4) (EEins "ijab,klce,mndf,fgmh,heng->ijklabcd" [(EVar "t"); (EVar "t"); (EVar "t"); (EVar "t_dag"); (EVar "v_vo")]));
   (*L39*) SAug true "roooovvvv" (EScale (-3 # 16) (EEins "ijab,klce,mndf,efgh,ghmn->ijklabcd" [(EVar "t"); (EVar "t"); (EVar "t"); (EVar "t_dag"); (EVar "v_oo")]));
   (*L40*) SAug true "roooovvvv" (EScale (3 # 8) (EEins "ijab,klce,mnfd,fgmn,edhg->ijklabch" [(EVar "t"); (EVar "t"); (EVar "t"); (EVar "t_dag"); (EVar "v_vv")]));
   (*L41*) SAug true "roooovvvv" (EScale (-3 # 4) (EEins "ijab,klce,mnfd,efmg,gdnh->ijklabch" [(EVar "t"); (EVar "t"); (EVar "t"); (EVar "t_dag"); (EVar "v_vo")]));
   (*L42*) SAug true "roooovvvv" (EScale (-3 # 8) (EEins "ijab,klce,mnfd,fdmg,genh->ijklabch" [(EVar "t"); (EVar "t"); (EVar "t"); (EVar "t_dag"); (EVar "v_vo")]));
   (*L43*) SAug true "roooovvvv" (EScale (3 # 8) (EEins "ijab,kmce,lndf,ghmn,efgh->ijklabcd" [(EVar "t"); (EVar "t"); (EVar "t"); (EVar "t_dag"); (EVar "v_vv")]));
   (*L44*) SAug true "roooovvvv" (EScale (3 # 2) (EEins "ijab,kmce,lndf,fgmh,heng->ijklabcd" [(EVar "t"); (EVar "t"); (EVar "t"); (EVar "t_dag"); (EVar "v_vo")]));
   (*L45*) SAug true "roooovvvv" (EScale (-3 # 2) (EEins "ijab,kmce,lndf,fgnh,hemg->ijklabcd" [(EVar "t"); (EVar "t"); (EVar "t"); (EVar "t_dag"); (EVar "v_vo")]));
   (*L46*) SAug true "roooovvvv" (EScale (3 # 8) (EEins "ijab,kmce,lndf,efgh,ghmn->ijklabcd" [(EVar "t"); (EVar "t"); (EVar "t"); (EVar "t_dag"); (EVar "v_oo")]));
   (*L47*) SAug true "roooovvvv" (EScale (-3 # 2) (EEins "ijab,kmce,ndfg,ghmn,ledh->ijklabcf" [(EVar "t"); (EVar "t"); (EVar "t"); (EVar "t_dag"); (EVar "v_vo")]));
   (*L48*) SAug true "roooovvvv" (EScale (-3 # 4) (EEins "ijab,kmce,ndfg,ghnd,lemh->ijklabcf" [(EVar "t"); (EVar "t"); (EVar "t"); (EVar "t_dag"); (EVar "v_vo")]));
   (*L49*) SAug true "roooovvvv" (EScale (-3 # 2) (EEins "ijab,kmce,ndfg,egnh,lhmd->ijklabcf" [(EVar "t"); (EVar "t"); (EVar "t"); (EVar "t_dag"); (EVar "v_oo")]));
   (*L50*) SAug true "roooovvvv" (EScale (-3 # 2) (EEins "ijab,kmce,lnfd,fgmn,edhg->ijklabch" [(EVar "t"); (EVar "t"); (EVar "t"); (EVar "t_dag"); (EVar "v_vv")]));
   (*L51*) SAug true "roooovvvv" (EScale (3 # 2) (EEins "ijab,kmce,lnfd,efmg,gdnh->ijklabch" [(EVar "t"); (EVar "t"); (EVar "t"); (EVar "t_dag"); (EVar "v_vo")]));
   (*L52*) SAug true "roooovvvv" (EScale (3 # 4) (EEins "ijab,kmce,lnfd,fdmg,genh->ijklabch" [(EVar "t"); (EVar "t"); (EVar "t"); (EVar "t_dag"); (EVar "v_vo")]));
   (*L53*) SAug true "roooovvvv" (EScale (-3 # 2) (EEins "ijab,kmce,lnfd,efng,gdmh->ijklabch" [(EVar "t"); (EVar "t"); (EVar "t"); (EVar "t_dag"); (EVar "v_vo")]));
   (*L54*) SAug true "roooovvvv" (EScale (-3 # 4) (EEins "ijab,kmce,lnfd,fdng,gemh->ijklabch" [(EVar "t"); (EVar "t"); (EVar "t"); (EVar "t_dag"); (EVar "v_vo")]));
   (*L55*) SAug true "roooovvvv" (EScale (-3 # 2) (EEins "ijab,kmce,ndfg,efmn,lgdh->ijklabch" [(EVar "t"); (EVar "t"); (EVar "t"); (EVar "t_dag"); (EVar "v_vo")]));
   (*L56*) SAug true "roooovvvv" (EScale (-3 # 4) (EEins "ijab,kmce,ndfg,fgmn,ledh->ijklabch" [(EVar "t"); (EVar "t"); (EVar "t"); (EVar "t_dag"); (EVar "v_vo")]));
   (*L57*) SAug true "roooovvvv" (EScale (-3 # 4) (EEins "ijab,kmce,ndfg,efnd,lgmh->ijklabch" [(EVar "t"); (EVar "t"); (EVar "t"); (EVar "t_dag"); (EVar "v_vo")]));
   (*L58*) SAug true "roooovvvv" (EScale (-3 # 8) (EEins "ijab,kmce,ndfg,fgnd,lemh->ijklabch" [(EVar "t"); (EVar "t"); (EVar "t"); (EVar "t_dag"); (EVar "v_vo")]));
   (*L59*) SAug true "roooovvvv" (EScale (-3 # 4) (EEins "ijab,mnce,kldf,fgmh,heng->ijklabcd" [(EVar "t"); (EVar "t"); (EVar "t"); (EVar "t_dag"); (EVar "v_vo")]));
   (*L60*) SAug true "roooovvvv" (EScale (-3 # 4) (EEins "ijab,mnce,kdfg,ghmn,ledh->ijklabcf" [(EVar "t"); (EVar "t"); (EVar "t"); (EVar "t_dag"); (EVar "v_vo")]));
   (*L61*) SAug true "roooovvvv" (EScale (3 # 2) (EEins "ijab,mnce,kdfg,ghmd,lenh->ijklabcf" [(EVar "t"); (EVar "t"); (EVar "t"); (EVar "t_dag"); (EVar "v_vo")]));
   (*L62*) SAug true "roooovvvv" (EScale (3 # 4) (EEins "ijab,mnce,kdfg,egdh,lhmn->ijklabcf" [(EVar "t"); (EVar "t"); (EVar "t"); (EVar "t_dag"); (EVar "v_oo")]));
   (*L63*) SAug true "roooovvvv" (EScale (3 # 8) (EEins "ijab,mnce,dfgh,ehmd,klnf->ijklabcg" [(EVar "t"); (EVar "t"); (EVar "t"); (EVar "t_dag"); (EVar "v_oo")]));
   (*L64*) SAug true "roooovvvv" (EScale (-3 # 16) (EEins "ijab,mnce,dfgh,ehdf,klmn->ijklabcg" [(EVar "t"); (EVar "t"); (EVar "t"); (EVar "t_dag"); (EVar "v_oo")]));
   (*L65*) SAug true "roooovvvv" (EScale (3 # 8) (EEins "ijab,mnce,klfd,fgmn,edhg->ijklabch" [(EVar "t"); (EVar "t"); (EVar "t"); (EVar "t_dag"); (EVar "v_vv")]));
   (*L66*) SAug true "roooovvvv" (EScale (-3 # 4) (EEins "ijab,mnce,klfd,efmg,gdnh->ijklabch" [(EVar "t"); (EVar "t"); (EVar "t"); (EVar "t_dag"); (EVar "v_vo")]));
   (*L67*) SAug true "roooovvvv" (EScale (-3 # 8) (EEins "ijab,mnce,klfd,fdmg,genh->ijklabch" [(EVar "t"); (EVar "t"); (EVar "t"); (EVar "t_dag"); (EVar "v_vo")]));
   (*L68*) SAug true "roooovvvv" (EScale (-3 # 4) (EEins "ijab,mnce,kdfg,efmn,lgdh->ijklabch" [(EVar "t"); (EVar "t"); (EVar "t"); (EVar "t_dag"); (EVar "v_vo")]));
   (*L69*) SAug true "roooovvvv" (EScale (-3 # 8) (EEins "ijab,mnce,kdfg,fgmn,ledh->ijklabch" [(EVar "t"); (EVar "t"); (EVar "t"); (EVar "t_dag"); (EVar "v_vo")]));
   (*L70*) SAug true "roooovvvv" (EScale (3 # 2) (EEins "ijab,mnce,kdfg,efmd,lgnh->ijklabch" [(EVar "t"); (EVar "t"); (EVar "t"); (EVar "t_dag"); (EVar "v_vo")]));
   (*L71*) SAug true "roooovvvv" (EScale (3 # 4) (EEins "ijab,mnce,kdfg,fgmd,lenh->ijklabch" [(EVar "t"); (EVar "t"); (EVar "t"); (EVar "t_dag"); (EVar "v_vo")]));
   (*L72*) SAug true "roooovvvv" (EScale (-3 # 16) (EEins "ijab,klef,mncd,dgmn,efhg->ijklabch" [(EVar "t"); (EVar "t"); (EVar "t"); (EVar "t_dag"); (EVar "v_vv")]));
   (*L73*) SAug true "roooovvvv" (EScale (-3 # 16) (EEins "ijab,klef,mncd,ecmn,fdgh->ijklabgh" [(EVar "t"); (EVar "t"); (EVar "t"); (EVar "t_dag"); (EVar "v_vv")]));
   (*L74*) SAug true "roooovvvv" (EScale (3 # 64) (EEins "ijab,klef,mncd,cdmn,efgh->ijklabgh" [(EVar "t"); (EVar "t"); (EVar "t"); (EVar "t_dag"); (EVar "v_vv")]));
   (*L75*) SAug true "roooovvvv" (EScale (3 # 4) (EEins "ijab,kmef,lncd,dgmn,efhg->ijklabch" [(EVar "t"); (EVar "t"); (EVar "t"); (EVar "t_dag"); (EVar "v_vv")]));
   (*L76*) SAug true "roooovvvv" (EScale (3 # 8) (EEins "ijab,kmef,lncd,ecmn,fdgh->ijklabgh" [(EVar "t"); (EVar "t"); (EVar "t"); (EVar "t_dag"); (EVar "v_vv")]));
   (*L77*) SAug true "roooovvvv" (EScale (-3 # 16) (EEins "ijab,kmef,lncd,cdmn,efgh->ijklabgh" [(EVar "t"); (EVar "t"); (EVar "t"); (EVar "t_dag"); (EVar "v_vv")]));
   (*L78*) SAug true "roooovvvv" (EScale (-3 # 16) (EEins "ijab,mnef,klcd,dgmn,efhg->ijklabch" [(EVar "t"); (EVar "t"); (EVar "t"); (EVar "t_dag"); (EVar "v_vv")]));
   (*L79*) SAug true "roooovvvv" (EScale (3 # 64) (EEins "ijab,mnef,klcd,cdmn,efgh->ijklabgh" [(EVar "t"); (EVar "t"); (EVar "t"); (EVar "t_dag"); (EVar "v_vv")]));
   (*L80*) SAug true "roooovvvv" (EScale (-3 # 32) (EEins "imab,jncd,klef,ghmn,efgh->ijklabcd" [(EVar "t"); (EVar "t"); (EVar "t"); (EVar "t_dag"); (EVar "v_vv")]));
   (*L81*) SAug true "roooovvvv" (EScale (-3 # 4) (EEins "imab,jncd,klef,egnh,hfmg->ijklabcd" [(EVar "t"); (EVar "t"); (EVar "t"); (EVar "t_dag"); (EVar "v_vo")]));
   (*L82*) SAug true "roooovvvv" (EScale (-3 # 32) (EEins "imab,jncd,klef,efgh,ghmn->ijklabcd" [(EVar "t"); (EVar "t"); (EVar "t"); (EVar "t_dag"); (EVar "v_oo")]));
   (*L83*) SAug true "roooovvvv" (EScale (3 # 4) (EEins "imab,jncd,kefg,fhmn,lgeh->ijklabcd" [(EVar "t"); (EVar "t"); (EVar "t"); (EVar "t_dag"); (EVar "v_vo")]));
   (*L84*) SAug true "roooovvvv" (EScale (3 # 2) (EEins "imab,jncd,kefg,fhne,lgmh->ijklabcd" [(EVar "t"); (EVar "t"); (EVar "t"); (EVar "t_dag"); (EVar "v_vo")]));
   (*L85*) SAug true "roooovvvv" (EScale (-3 # 4) (EEins "imab,jncd,kefg,fgnh,lhme->ijklabcd" [(EVar "t"); (EVar "t"); (EVar "t"); (EVar "t_dag"); (EVar "v_oo")]));
   (*L86*) SAug true "roooovvvv" (EScale (3 # 8) (EEins "imab,jncd,kefg,fgeh,lhmn->ijklabcd" [(EVar "t"); (EVar "t"); (EVar "t"); (EVar "t_dag"); (EVar "v_oo")]));
   (*L87*) SAug true "roooovvvv" (EScale (-3 # 32) (EEins "imab,jncd,efgh,ghmn,klef->ijklabcd" [(EVar "t"); (EVar "t"); (EVar "t"); (EVar "t_dag"); (EVar "v_oo")]));
   (*L88*) SAug true "roooovvvv" (EScale (-3 # 8) (EEins "imab,jncd,efgh,ghne,klmf->ijklabcd" [(EVar "t"); (EVar "t"); (EVar "t"); (EVar "t_dag"); (EVar "v_oo")]));
   (*L89*) SAug true "roooovvvv" (EScale (-3 # 32) (EEins "imab,jncd,efgh,ghef,klmn->ijklabcd" [(EVar "t"); (EVar "t"); (EVar "t"); (EVar "t_dag"); (EVar "v_oo")]));
   (*L90*) SAug true "roooovvvv" (EScale (-3 # 4) (EEins "imab,ncde,jkfg,fhmn,lgch->ijklabde" [(EVar "t"); (EVar "t"); (EVar "t"); (EVar "t_dag"); (EVar "v_vo")]));
   (*L91*) SAug true "roooovvvv" (EScale (-3 # 8) (EEins "imab,ncde,jkfg,fhnc,lgmh->ijklabde" [(EVar "t"); (EVar "t"); (EVar "t"); (EVar "t_dag"); (EVar "v_vo")]));
   (*L92*) SAug true "roooovvvv" (EScale (3 # 8) (EEins "imab,ncde,jkfg,fgnh,lhmc->ijklabde" [(EVar "t"); (EVar "t"); (EVar "t"); (EVar "t_dag"); (EVar "v_oo")]));
   (*L93*) SAug true "roooovvvv" (EScale (-3 # 8) (EEins "imab,ncde,jfgh,ghmn,klcf->ijklabde" [(EVar "t"); (EVar "t"); (EVar "t"); (EVar "t_dag"); (EVar "v_oo")]));
   (*L94*) SAug true "roooovvvv" (EScale (-3 # 16) (EEins "imab,ncde,jfgh,ghnc,klmf->ijklabde" [(EVar "t"); (EVar "t"); (EVar "t"); (EVar "t_dag"); (EVar "v_oo")]));
   (*L95*) SAug true "roooovvvv" (EScale (3 # 8) (EEins "imab,ncde,jfgh,ghnf,klmc->ijklabde" [(EVar "t"); (EVar "t"); (EVar "t"); (EVar "t_dag"); (EVar "v_oo")]));
   (*L96*) SAug true "roooovvvv" (EScale (3 # 4) (EEins "imab,jkce,lndf,ghmn,efgh->ijklabcd" [(EVar "t"); (EVar "t"); (EVar "t"); (EVar "t_dag"); (EVar "v_vv")]));
   (*L97*) SAug true "roooovvvv" (EScale (3 # 2) (EEins "imab,jkce,lndf,fgmh,heng->ijklabcd" [(EVar "t"); (EVar "t"); (EVar "t"); (EVar "t_dag"); (EVar "v_vo")]));
   (*L98*) SAug true "roooovvvv" (EScale (-3 # 2) (EEins "imab,jkce,lndf,fgnh,hemg->ijklabcd" [(EVar "t"); (EVar "t"); (EVar "t"); (EVar "t_dag"); (EVar "v_vo")]));
   (*L99*) SAug true "roooovvvv" (EScale (3 # 4) (EEins "imab,jkce,lndf,efgh,ghmn->ijklabcd" [(EVar "t"); (EVar "t"); (EVar "t"); (EVar "t_dag"); (EVar "v_oo")]));
   (*L100*) SAug true "roooovvvv" (EScale (-3 # 2) (EEins "imab,jkce,ndfg,ghmn,ledh->ijklabcf" [(EVar "t"); (EVar "t"); (EVar "t"); (EVar "t_dag"); (EVar "v_vo")]));
   (*L101*) SAug true "roooovvvv" (EScale (3 # 4) (EEins "imab,jkce,ndfg,egmh,lhnd->ijklabcf" [(EVar "t"); (EVar "t"); (EVar "t"); (EVar "t_dag"); (EVar "v_oo")]));
   (*L102*) SAug true "roooovvvv" (EScale (-3 # 4) (EEins "imab,jkce,ndfg,ghnd,lemh->ijklabcf" [(EVar "t"); (EVar "t"); (EVar "t"); (EVar "t_dag"); (EVar "v_vo")]));
   (*L103*) SAug true "roooovvvv" (EScale (-3 # 2) (EEins "imab,jkce,ndfg,egnh,lhmd->ijklabcf" [(EVar "t"); (EVar "t"); (EVar "t"); (EVar "t_dag"); (EVar "v_oo")]));
   (*L104*) SAug true "roooovvvv" (EScale (-3 # 2) (EEins "imab,jkce,lnfd,fgmn,edhg->ijklabch" [(EVar "t"); (EVar "t"); (EVar "t"); (EVar "t_dag"); (EVar "v_vv")]));
   (*L105*) SAug true "roooovvvv" (EScale (3 # 2) (EEins "imab,jkce,lnfd,efmg,gdnh->ijklabch" [(EVar "t"); (EVar "t"); (EVar "t"); (EVar "t_dag"); (EVar "v_vo")]));
   (*L106*) SAug true "roooovvvv" (EScale (3 # 4) (EEins "imab,jkce,lnfd,fdmg,genh->ijklabch" [(EVar "t"); (EVar "t"); (EVar "t"); (EVar "t_dag"); (EVar "v_vo")]));
   (*L107*) SAug true "roooovvvv" (EScale (-3 # 2) (EEins "imab,jkce,lnfd,efng,gdmh->ijklabch" [(EVar "t"); (EVar "t"); (EVar "t"); (EVar "t_dag"); (EVar "v_vo")]));
   (*L108*) SAug true "roooovvvv" (EScale (-3 # 4) (EEins "imab,jkce,lnfd,fdng,gemh->ijklabch" [(EVar "t"); (EVar "t"); (EVar "t"); (EVar "t_dag"); (EVar "v_vo")]));
   (*L109*) SAug true "roooovvvv" (EScale (-3 # 2) (EEins "imab,jkce,ndfg,efmn,lgdh->ijklabch" [(EVar "t"); (EVar "t"); (EVar "t"); (EVar "t_dag"); (EVar "v_vo")]));
   (*L110*) SAug true "roooovvvv" (EScale (-3 # 4) (EEins "imab,jkce,ndfg,fgmn,ledh->ijklabch" [(EVar "t"); (EVar "t"); (EVar "t"); (EVar "t_dag"); (EVar "v_vo")]));
   (*L111*) SAug true "roooovvvv" (EScale (-3 # 4) (EEins "imab,jkce,ndfg,efnd,lgmh->ijklabch" [(EVar "t"); (EVar "t"); (EVar "t"); (EVar "t_dag"); (EVar "v_vo")]));
   (*L112*) SAug true "roooovvvv" (EScale (-3 # 8) (EEins "imab,jkce,ndfg,fgnd,lemh->ijklabch" [(EVar "t"); (EVar "t"); (EVar "t"); (EVar "t_dag"); (EVar "v_vo")]));
   (*L113*) SAug true "roooovvvv" (EScale (3 # 2) (EEins "imab,jnce,kldf,fgmh,heng->ijklabcd" [(EVar "t"); (EVar "t"); (EVar "t"); (EVar "t_dag"); (EVar "v_vo")]));
   (*L114*) SAug true "roooovvvv" (EScale (-3 # 2) (EEins "imab,jnce,kldf,fgnh,hemg->ijklabcd" [(EVar "t"); (EVar "t"); (EVar "t"); (EVar "t_dag"); (EVar "v_vo")]));
   (*L115*) SAug true "roooovvvv" (EScale (3 # 1) (EEins "imab,jnce,kdfg,ghmn,ledh->ijklabcf" [(EVar "t"); (EVar "t"); (EVar "t"); (EVar "t_dag"); (EVar "v_vo")]));
   (*L116*) SAug true "roooovvvv" (EScale (-3 # 1) (EEins "imab,jnce,kdfg,ghmd,lenh->ijklabcf" [(EVar "t"); (EVar "t"); (EVar "t"); (EVar "t_dag"); (EVar "v_vo")]));
   (*L117*) SAug true "roooovvvv" (EScale (-3 # 2) (EEins "imab,jnce,kdfg,egmh,lhnd->ijklabcf" [(EVar "t"); (EVar "t"); (EVar "t"); (EVar "t_dag"); (EVar "v_oo")]));
   (*L118*) SAug true "roooovvvv" (EScale (3 # 1) (EEins "imab,jnce,kdfg,ghnd,lemh->ijklabcf" [(EVar "t"); (EVar "t"); (EVar "t"); (EVar "t_dag"); (EVar "v_vo")]));
   (*L119*) SAug true "roooovvvv" (EScale (-3 # 1) (EEins "imab,jnce,kdfg,egdh,lhmn->ijklabcf" [(EVar "t"); (EVar "t"); (EVar "t"); (EVar "t_dag"); (EVar "v_oo")]));
   (*L120*) SAug true "roooovvvv" (EScale (-3 # 2) (EEins "imab,jnce,dfgh,ehmd,klnf->ijklabcg" [(EVar "t"); (EVar "t"); (EVar "t"); (EVar "t_dag"); (EVar "v_oo")]));
   (*L121*) SAug true "roooovvvv" (EScale (3 # 2) (EEins "imab,jnce,dfgh,ehnd,klmf->ijklabcg" [(EVar "t"); (EVar "t"); (EVar "t"); (EVar "t_dag"); (EVar "v_oo")]));
   (*L122*) SAug true "roooovvvv" (EScale (3 # 4) (EEins "imab,jnce,dfgh,ehdf,klmn->ijklabcg" [(EVar "t"); (EVar "t"); (EVar "t"); (EVar "t_dag"); (EVar "v_oo")]));
   (*L123*) SAug true "roooovvvv" (EScale (-3 # 2) (EEins "imab,jnce,klfd,fgmn,edhg->ijklabch" [(EVar "t"); (EVar "t"); (EVar "t"); (EVar "t_dag"); (EVar "v_vv")]));
   (*L124*) SAug true "roooovvvv" (EScale (3 # 2) (EEins "imab,jnce,klfd,efmg,gdnh->ijklabch" [(EVar "t"); (EVar "t"); (EVar "t"); (EVar "t_dag"); (EVar "v_vo")]));
   (*L125*) SAug true "roooovvvv" (EScale (3 # 4) (EEins "imab,jnce,klfd,fdmg,genh->ijklabch" [(EVar "t"); (EVar "t"); (EVar "t"); (EVar "t_dag"); (EVar "v_vo")]));
   (*L126*) SAug true "roooovvvv" (EScale (-3 # 2) (EEins "imab,jnce,klfd,efng,gdmh->ijklabch" [(EVar "t"); (EVar "t"); (EVar "t"); (EVar "t_dag"); (EVar "v_vo")]));
   (*L127*) SAug true "roooovvvv" (EScale (-3 # 4) (EEins "imab,jnce,klfd,fdng,gemh->ijklabch" [(EVar "t"); (EVar "t"); (EVar "t"); (EVar "t_dag"); (EVar "v_vo")]));
   (*L128*) SAug true "roooovvvv" (EScale (3 # 1) (EEins "imab,jnce,kdfg,efmn,lgdh->ijklabch" [(EVar "t"); (EVar "t"); (EVar "t"); (EVar "t_dag"); (EVar "v_vo")]));
   (*L129*) SAug true "roooovvvv" (EScale (3 # 2) (EEins "imab,jnce,kdfg,fgmn,ledh->ijklabch" [(EVar "t"); (EVar "t"); (EVar "t"); (EVar "t_dag"); (EVar "v_vo")]));
   (*L130*) SAug true "roooovvvv" (EScale (-3 # 1) (EEins "imab,jnce,kdfg,efmd,lgnh->ijklabch" [(EVar "t"); (EVar "t"); (EVar "t"); (EVar "t_dag"); (EVar "v_vo")]));
   (*L131*) SAug true "roooovvvv" (EScale (-3 # 2) (EEins "imab,jnce,kdfg,fgmd,lenh->ijklabch" [(EVar "t"); (EVar "t"); (EVar "t"); (EVar "t_dag"); (EVar "v_vo")]));
   (*L132*) SAug true "roooovvvv" (EScale (3 # 1) (EEins "imab,jnce,kdfg,efnd,lgmh->ijklabch" [(EVar "t"); (EVar "t"); (EVar "t"); (EVar "t_dag"); (EVar "v_vo")]));
   (*L133*) SAug true "roooovvvv" (EScale (3 # 2) (EEins "imab,jnce,kdfg,fgnd,lemh->ijklabch" [(EVar "t"); (EVar "t"); (EVar "t"); (EVar "t_dag"); (EVar "v_vo")]));
   (*L134*) SAug true "roooovvvv" (EScale (-3 # 2) (EEins "imab,ncde,jkfg,ghmn,lech->ijklabdf" [(EVar "t"); (EVar "t"); (EVar "t"); (EVar "t_dag"); (EVar "v_vo")]));
   (*L135*) SAug true "roooovvvv" (EScale (-3 # 4) (EEins "imab,ncde,jkfg,ghnc,lemh->ijklabdf" [(EVar "t"); (EVar "t"); (EVar "t"); (EVar "t_dag"); (EVar "v_vo")]));
   (*L136*) SAug true "roooovvvv" (EScale (3 # 4) (EEins "imab,ncde,jfgh,ehmf,klnc->ijklabdg" [(EVar "t"); (EVar "t"); (EVar "t"); (EVar "t_dag"); (EVar "v_oo")]));
   (*L137*) SAug true "roooovvvv" (EScale (-3 # 2) (EEins "imab,ncde,jkfg,efmn,lgch->ijklabdh" [(EVar "t"); (EVar "t"); (EVar "t"); (EVar "t_dag"); (EVar "v_vo")]));
   (*L138*) SAug true "roooovvvv" (EScale (-3 # 4) (EEins "imab,ncde,jkfg,fgmn,lech->ijklabdh" [(EVar "t"); (EVar "t"); (EVar "t"); (EVar "t_dag"); (EVar "v_vo")]));
   (*L139*) SAug true "roooovvvv" (EScale (-3 # 4) (EEins "imab,ncde,jkfg,efnc,lgmh->ijklabdh" [(EVar "t"); (EVar "t"); (EVar "t"); (EVar "t_dag"); (EVar "v_vo")]));
   (*L140*) SAug true "roooovvvv" (EScale (-3 # 8) (EEins "imab,ncde,jkfg,fgnc,lemh->ijklabdh" [(EVar "t"); (EVar "t"); (EVar "t"); (EVar "t_dag"); (EVar "v_vo")]));
   (*L141*) SAug true "roooovvvv" (EScale (3 # 4) (EEins "imab,jkef,lncd,dgmn,efhg->ijklabch" [(EVar "t"); (EVar "t"); (EVar "t"); (EVar "t_dag"); (EVar "v_vv")]));
   (*L142*) SAug true "roooovvvv" (EScale (3 # 4) (EEins "imab,jkef,lncd,ecmn,fdgh->ijklabgh" [(EVar "t"); (EVar "t"); (EVar "t"); (EVar "t_dag"); (EVar "v_vv")]));
   (*L143*) SAug true "roooovvvv" (EScale (-3 # 16) (EEins "imab,jkef,lncd,cdmn,efgh->ijklabgh" [(EVar "t"); (EVar "t"); (EVar "t"); (EVar "t_dag"); (EVar "v_vv")]));
   (*L144*) SAug true "roooovvvv" (EScale (3 # 4) (EEins "imab,jnef,klcd,dgmn,efhg->ijklabch" [(EVar "t"); (EVar "t"); (EVar "t"); (EVar "t_dag"); (EVar "v_vv")]));
   (*L145*) SAug true "roooovvvv" (EScale (-3 # 16) (EEins "imab,jnef,klcd,cdmn,efgh->ijklabgh" [(EVar "t"); (EVar "t"); (EVar "t"); (EVar "t_dag"); (EVar "v_vv")]));
   (*L146*) SAug true "roooovvvv" (EScale (-3 # 16) (EEins "mnab,icde,jkfg,fgch,lhmn->ijklabde" [(EVar "t"); (EVar "t"); (EVar "t"); (EVar "t_dag"); (EVar "v_oo")]));
   (*L147*) SAug true "roooovvvv" (EScale (-3 # 16) (EEins "mnab,icde,jfgh,ghcf,klmn->ijklabde" [(EVar "t"); (EVar "t"); (EVar "t"); (EVar "t_dag"); (EVar "v_oo")]));
   (*L148*) SAug true "roooovvvv" (EScale (-3 # 32) (EEins "mnab,cdef,ijgh,ghmc,klnd->ijklabef" [(EVar "t"); (EVar "t"); (EVar "t"); (EVar "t_dag"); (EVar "v_oo")]));
   (*L149*) SAug true "roooovvvv" (EScale (3 # 64) (EEins "mnab,cdef,ijgh,ghcd,klmn->ijklabef" [(EVar "t"); (EVar "t"); (EVar "t"); (EVar "t_dag"); (EVar "v_oo")]));
   (*L150*) SAug true "roooovvvv" (EScale (-3 # 32) (EEins "mnab,ijce,kldf,ghmn,efgh->ijklabcd" [(EVar "t"); (EVar "t"); (EVar "t"); (EVar "t_dag"); (EVar "v_vv")]));
   (*L151*) SAug true "roooovvvv" (EScale (-3 # 4) (EEins "mnab,ijce,kldf,fgmh,heng->ijklabcd" [(EVar "t"); (EVar "t"); (EVar "t"); (EVar "t_dag"); (EVar "v_vo")]));
   (*L152*) SAug true "roooovvvv" (EScale (-3 # 32) (EEins "mnab,ijce,kldf,efgh,ghmn->ijklabcd" [(EVar "t"); (EVar "t"); (EVar "t"); (EVar "t_dag"); (EVar "v_oo")]));
   (*L153*) SAug true "roooovvvv" (EScale (-3 # 4) (EEins "mnab,ijce,kdfg,ghmn,ledh->ijklabcf" [(EVar "t"); (EVar "t"); (EVar "t"); (EVar "t_dag"); (EVar "v_vo")]));
   (*L154*) SAug true "roooovvvv" (EScale (3 # 2) (EEins "mnab,ijce,kdfg,ghmd,lenh->ijklabcf" [(EVar "t"); (EVar "t"); (EVar "t"); (EVar "t_dag"); (EVar "v_vo")]));
   (*L155*) SAug true "roooovvvv" (EScale (3 # 2) (EEins "mnab,ijce,kdfg,egmh,lhnd->ijklabcf" [(EVar "t"); (EVar "t"); (EVar "t"); (EVar "t_dag"); (EVar "v_oo")]));
   (*L156*) SAug true "roooovvvv" (EScale (3 # 4) (EEins "mnab,ijce,kdfg,egdh,lhmn->ijklabcf" [(EVar "t"); (EVar "t"); (EVar "t"); (EVar "t_dag"); (EVar "v_oo")]));
   (*L157*) SAug true "roooovvvv" (EScale (-3 # 16) (EEins "mnab,ijce,dfgh,ehmn,kldf->ijklabcg" [(EVar "t"); (EVar "t"); (EVar "t"); (EVar "t_dag"); (EVar "v_oo")]));
   (*L158*) SAug true "roooovvvv" (EScale (3 # 4) (EEins "mnab,ijce,dfgh,ehmd,klnf->ijklabcg" [(EVar "t"); (EVar "t"); (EVar "t"); (EVar "t_dag"); (EVar "v_oo")]));
   (*L159*) SAug true "roooovvvv" (EScale (-3 # 16) (EEins "mnab,ijce,dfgh,ehdf,klmn->ijklabcg" [(EVar "t"); (EVar "t"); (EVar "t"); (EVar "t_dag"); (EVar "v_oo")]));
   (*L160*) SAug true "roooovvvv" (EScale (3 # 8) (EEins "mnab,ijce,klfd,fgmn,edhg->ijklabch" [(EVar "t"); (EVar "t"); (EVar "t"); (EVar "t_dag"); (EVar "v_vv")]));
   (*L161*) SAug true "roooovvvv" (EScale (-3 # 4) (EEins "mnab,ijce,klfd,efmg,gdnh->ijklabch" [(EVar "t"); (EVar "t"); (EVar "t"); (EVar "t_dag"); (EVar "v_vo")]));
   (*L162*) SAug true "roooovvvv" (EScale (-3 # 8) (EEins "mnab,ijce,klfd,fdmg,genh->ijklabch" [(EVar "t"); (EVar "t"); (EVar "t"); (EVar "t_dag"); (EVar "v_vo")]));
   (*L163*) SAug true "roooovvvv" (EScale (-3 # 4) (EEins "mnab,ijce,kdfg,efmn,lgdh->ijklabch" [(EVar "t"); (EVar "t"); (EVar "t"); (EVar "t_dag"); (EVar "v_vo")]));
   (*L164*) SAug true "roooovvvv" (EScale (-3 # 8) (EEins "mnab,ijce,kdfg,fgmn,ledh->ijklabch" [(EVar "t"); (EVar "t"); (EVar "t"); (EVar "t_dag"); (EVar "v_vo")]));
   (*L165*) SAug true "roooovvvv" (EScale (3 # 2) (EEins "mnab,ijce,kdfg,efmd,lgnh->ijklabch" [(EVar "t"); (EVar "t"); (EVar "t"); (EVar "t_dag"); (EVar "v_vo")]));
   (*L166*) SAug true "roooovvvv" (EScale (3 # 4) (EEins "mnab,ijce,kdfg,fgmd,lenh->ijklabch" [(EVar "t"); (EVar "t"); (EVar "t"); (EVar "t_dag"); (EVar "v_vo")]));
   (*L167*) SAug true "roooovvvv" (EScale (-3 # 4) (EEins "mnab,icde,jkfg,ghmn,lech->ijklabdf" [(EVar "t"); (EVar "t"); (EVar "t"); (EVar "t_dag"); (EVar "v_vo")]));
   (*L168*) SAug true "roooovvvv" (EScale (3 # 2) (EEins "mnab,icde,jkfg,ghmc,lenh->ijklabdf" [(EVar "t"); (EVar "t"); (EVar "t"); (EVar "t_dag"); (EVar "v_vo")]));
   (*L169*) SAug true "roooovvvv" (EScale (3 # 8) (EEins "mnab,icde,jfgh,ehmn,klcf->ijklabdg" [(EVar "t"); (EVar "t"); (EVar "t"); (EVar "t_dag"); (EVar "v_oo")]));
   (*L170*) SAug true "roooovvvv" (EScale (3 # 2) (EEins "mnab,icde,jfgh,ehmf,klnc->ijklabdg" [(EVar "t"); (EVar "t"); (EVar "t"); (EVar "t_dag"); (EVar "v_oo")]));
   (*L171*) SAug true "roooovvvv" (EScale (3 # 8) (EEins "mnab,icde,jfgh,ehcf,klmn->ijklabdg" [(EVar "t"); (EVar "t"); (EVar "t"); (EVar "t_dag"); (EVar "v_oo")]));
   (*L172*) SAug true "roooovvvv" (EScale (-3 # 4) (EEins "mnab,icde,jkfg,efmn,lgch->ijklabdh" [(EVar "t"); (EVar "t"); (EVar "t"); (EVar "t_dag"); (EVar "v_vo")]));
   (*L173*) SAug true "roooovvvv" (EScale (-3 # 8) (EEins "mnab,icde,jkfg,fgmn,lech->ijklabdh" [(EVar "t"); (EVar "t"); (EVar "t"); (EVar "t_dag"); (EVar "v_vo")]));
   (*L174*) SAug true "roooovvvv" (EScale (3 # 2) (EEins "mnab,icde,jkfg,efmc,lgnh->ijklabdh" [(EVar "t"); (EVar "t"); (EVar "t"); (EVar "t_dag"); (EVar "v_vo")]));
   (*L175*) SAug true "roooovvvv" (EScale (3 # 4) (EEins "mnab,icde,jkfg,fgmc,lenh->ijklabdh" [(EVar "t"); (EVar "t"); (EVar "t"); (EVar "t_dag"); (EVar "v_vo")]));
   (*L176*) SAug true "roooovvvv" (EScale (-3 # 16) (EEins "mnab,ijef,klcd,dgmn,efhg->ijklabch" [(EVar "t"); (EVar "t"); (EVar "t"); (EVar "t_dag"); (EVar "v_vv")]));
   (*L177*) SAug true "roooovvvv" (EScale (-3 # 32) (EEins "mnab,ijef,klcd,ecmn,fdgh->ijklabgh" [(EVar "t"); (EVar "t"); (EVar "t"); (EVar "t_dag"); (EVar "v_vv")]));
   (*L178*) SAug true "roooovvvv" (EScale (3 # 64) (EEins "mnab,ijef,klcd,cdmn,efgh->ijklabgh" [(EVar "t"); (EVar "t"); (EVar "t"); (EVar "t_dag"); (EVar "v_vv")]));
   (*L179*) SAug true "roooovvvv" (EScale (3 # 8) (EEins "ijae,klbf,mncd,dgmn,efhg->ijklabch" [(EVar "t"); (EVar "t"); (EVar "t"); (EVar "t_dag"); (EVar "v_vv")]));
   (*L180*) SAug true "roooovvvv" (EScale (3 # 2) (EEins "ijae,klbf,mncd,fdmg,genh->ijklabch" [(EVar "t"); (EVar "t"); (EVar "t"); (EVar "t_dag"); (EVar "v_vo")]));
   (*L181*) SAug true "roooovvvv" (EScale (-3 # 8) (EEins "ijae,klbf,mncd,fcmn,edgh->ijklabgh" [(EVar "t"); (EVar "t"); (EVar "t"); (EVar "t_dag"); (EVar "v_vv")]));
   (*L182*) SAug true "roooovvvv" (EScale (-3 # 32) (EEins "ijae,klbf,mncd,cdmn,efgh->ijklabgh" [(EVar "t"); (EVar "t"); (EVar "t"); (EVar "t_dag"); (EVar "v_vv")]));
   (*L183*) SAug true "roooovvvv" (EScale (-3 # 1) (EEins "ijae,kmbf,lncd,dgmn,efhg->ijklabch" [(EVar "t"); (EVar "t"); (EVar "t"); (EVar "t_dag"); (EVar "v_vv")]));
   (*L184*) SAug true "roooovvvv" (EScale (3 # 1) (EEins "ijae,kmbf,lncd,fdng,gemh->ijklabch" [(EVar "t"); (EVar "t"); (EVar "t"); (EVar "t_dag"); (EVar "v_vo")]));
   (*L185*) SAug true "roooovvvv" (EScale (3 # 1) (EEins "ijae,kmbf,ncdg,fgmn,lech->ijklabdh" [(EVar "t"); (EVar "t"); (EVar "t"); (EVar "t_dag"); (EVar "v_vo")]));
   (*L186*) SAug true "roooovvvv" (EScale (3 # 2) (EEins "ijae,kmbf,ncdg,fgnc,lemh->ijklabdh" [(EVar "t"); (EVar "t"); (EVar "t"); (EVar "t_dag"); (EVar "v_vo")]));
   (*L187*) SAug true "roooovvvv" (EScale (3 # 2) (EEins "ijae,kmbf,lncd,fcmn,edgh->ijklabgh" [(EVar "t"); (EVar "t"); (EVar "t"); (EVar "t_dag"); (EVar "v_vv")]));
   (*L188*) SAug true "roooovvvv" (EScale (3 # 4) (EEins "ijae,kmbf,lncd,cdmn,efgh->ijklabgh" [(EVar "t"); (EVar "t"); (EVar "t"); (EVar "t_dag"); (EVar "v_vv")]));
   (*L189*) SAug true "roooovvvv" (EScale (3 # 4) (EEins "ijae,mnbf,klcd,dgmn,efhg->ijklabch" [(EVar "t"); (EVar "t"); (EVar "t"); (EVar "t_dag"); (EVar "v_vv")]));
   (*L190*) SAug true "roooovvvv" (EScale (-3 # 8) (EEins "ijae,mnbf,klcd,fcmn,edgh->ijklabgh" [(EVar "t"); (EVar "t"); (EVar "t"); (EVar "t_dag"); (EVar "v_vv")]));
   (*L191*) SAug true "roooovvvv" (EScale (-3 # 16) (EEins "ijae,mnbf,klcd,cdmn,efgh->ijklabgh" [(EVar "t"); (EVar "t"); (EVar "t"); (EVar "t_dag"); (EVar "v_vv")]));
   (*L192*) SAug true "roooovvvv" (EScale (-3 # 1) (EEins "imae,jkbf,lncd,fdmg,genh->ijklabch" [(EVar "t"); (EVar "t"); (EVar "t"); (EVar "t_dag"); (EVar "v_vo")]));
   (*L193*) SAug true "roooovvvv" (EScale (3 # 1) (EEins "imae,jkbf,lncd,fdng,gemh->ijklabch" [(EVar "t"); (EVar "t"); (EVar "t"); (EVar "t_dag"); (EVar "v_vo")]));
   (*L194*) SAug true "roooovvvv" (EScale (3 # 1) (EEins "imae,jkbf,ncdg,fgmn,lech->ijklabdh" [(EVar "t"); (EVar "t"); (EVar "t"); (EVar "t_dag"); (EVar "v_vo")]));
   (*L195*) SAug true "roooovvvv" (EScale (3 # 2) (EEins "imae,jkbf,ncdg,fgnc,lemh->ijklabdh" [(EVar "t"); (EVar "t"); (EVar "t"); (EVar "t_dag"); (EVar "v_vo")]));
   (*L196*) SAug true "roooovvvv" (EScale (3 # 2) (EEins "imae,jkbf,lncd,fcmn,edgh->ijklabgh" [(EVar "t"); (EVar "t"); (EVar "t"); (EVar "t_dag"); (EVar "v_vv")]));
   (*L197*) SAug true "roooovvvv" (EScale (-3 # 2) (EEins "imae,jnbf,klcd,dgmn,efhg->ijklabch" [(EVar "t"); (EVar "t"); (EVar "t"); (EVar "t_dag"); (EVar "v_vv")]));
   (*L198*) SAug true "roooovvvv" (EScale (6 # 1) (EEins "imae,jnbf,kcdg,fgmc,lenh->ijklabdh" [(EVar "t"); (EVar "t"); (EVar "t"); (EVar "t_dag"); (EVar "v_vo")]));
   (*L199*) SAug true "roooovvvv" (EScale (-3 # 1) (EEins "imae,jnbf,kcdg,fgnc,lemh->ijklabdh" [(EVar "t"); (EVar "t"); (EVar "t"); (EVar "t_dag"); (EVar "v_vo")]));
   (*L200*) SAug true "roooovvvv" (EScale (3 # 2) (EEins "imae,jnbf,klcd,fcmn,edgh->ijklabgh" [(EVar "t"); (EVar "t"); (EVar "t"); (EVar "t_dag"); (EVar "v_vv")]));
   (*L201*) SAug true "roooovvvv" (EScale (3 # 8) (EEins "imae,jnbf,klcd,cdmn,efgh->ijklabgh" [(EVar "t"); (EVar "t"); (EVar "t"); (EVar "t_dag"); (EVar "v_vv")]));
   (*L202*) SAug true "roooovvvv" (EScale (3 # 4) (EEins "mnae,ijbf,klcd,fdmg,genh->ijklabch" [(EVar "t"); (EVar "t"); (EVar "t"); (EVar "t_dag"); (EVar "v_vo")]));
   (*L203*) SAug true "roooovvvv" (EScale (3 # 2) (EEins "mnae,ijbf,kcdg,fgmn,lech->ijklabdh" [(EVar "t"); (EVar "t"); (EVar "t"); (EVar "t_dag"); (EVar "v_vo")]));
   (*L204*) SAug true "roooovvvv" (EScale (-3 # 1) (EEins "mnae,ijbf,kcdg,fgmc,lenh->ijklabdh" [(EVar "t"); (EVar "t"); (EVar "t"); (EVar "t_dag"); (EVar "v_vo")]));
   (*L205*) SAug true "roooovvvv" (EScale (-3 # 8) (EEins "mnae,ijbf,klcd,fcmn,edgh->ijklabgh" [(EVar "t"); (EVar "t"); (EVar "t"); (EVar "t_dag"); (EVar "v_vv")]));
   (*L206*) SAug true "roooovvvv" (EScale (-3 # 16) (EEins "ijef,klab,mncd,bdmn,efgh->ijklacgh" [(EVar "t"); (EVar "t"); (EVar "t"); (EVar "t_dag"); (EVar "v_vv")]));
   (*L207*) SAug true "roooovvvv" (EScale (3 # 8) (EEins "ijef,kmab,lncd,bdmn,efgh->ijklacgh" [(EVar "t"); (EVar "t"); (EVar "t"); (EVar "t_dag"); (EVar "v_vv")]));
   (*L208*) SAug true "roooovvvv" (EScale (3 # 4) (EEins "imef,jkab,lncd,bdmn,efgh->ijklacgh" [(EVar "t"); (EVar "t"); (EVar "t"); (EVar "t_dag"); (EVar "v_vv")]));
   (*L209*) SAug true "roooovvvv" (EScale (-3 # 32) (EEins "mnef,ijab,klcd,bdmn,efgh->ijklacgh" [(EVar "t"); (EVar "t"); (EVar "t"); (EVar "t_dag"); (EVar "v_vv")]));
   (*L212*) SAssign "roooovvvv" (ECall "antisym.antisym_t4_residual" [(EVar "roooovvvv"); (EVar "nocc"); (EVar "nvir")])]
  (*L213*) (EVar "roooovvvv").
