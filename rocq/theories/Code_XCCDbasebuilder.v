(** Generated by tools/transcribe.py from /repo/UT2/XCCDbasebuilder.py; do not edit. *)
From Coq Require Import String List QArith.
From Verif Require Import Interp.
Import ListNotations.
Open Scope string_scope.

(** /repo/UT2/XCCDbasebuilder.py:6-87  def build_XCCDbase_5 *)
Definition build_XCCDbase_5 : fn := mkFn
  ["t2_aa"; "order"; "contractInfo"]
  [(*L16*) SAssign "nocc" (EItem (EVar "contractInfo") "nocc");
   (*L17*) SAssign "nvir" (EItem (EVar "contractInfo") "nvir");
   (*L18*) SAssign "t" (ETransp (EVar "t2_aa") [2; 3; 0; 1]%nat);
   (*L19*) SAssign "t2_dag" (EVar "t");
   (*L21*) SAssign "g" (EItem (EVar "contractInfo") "ints");
   (*L22*) SAssign "o" (EItem (EVar "contractInfo") "oa");
   (*L23*) SAssign "v" (EItem (EVar "contractInfo") "va");
   (*L24*) SAssign "Roooovvvv" (EZeros [(EVar "nocc"); (EVar "nocc"); (EVar "nocc"); (EVar "nocc"); (EVar "nvir"); (EVar "nvir"); (EVar "nvir"); (EVar "nvir")]);
   (*L25*) SAssign "v_oo" (ESlice (EVar "g") [SV "o"; SV "o"; SV "o"; SV "o"]);
   (*L26*) SAssign "v_vo" (ESlice (EVar "g") [SV "o"; SV "v"; SV "o"; SV "v"]);
   (*L27*) SAssign "v_vv" (ESlice (EVar "g") [SV "v"; SV "v"; SV "v"; SV "v"]);
   (*L28*) SAssign "v_m2" (ESlice (EVar "g") [SV "v"; SV "v"; SV "o"; SV "o"]);
   (*L32*) SAug true "Roooovvvv" (EScale (-1 # 16) (EEins "imab,jncd,klmn->ijklabcd" [(EVar "t"); (EVar "t"); (EVar "v_oo")]));
   (*L33*) SAug true "Roooovvvv" (EScale (-1 # 4) (EEins "imab,jkce,lemd->ijklabcd" [(EVar "t"); (EVar "t"); (EVar "v_vo")]));
   (*L34*) SAug true "Roooovvvv" (EScale (-1 # 16) (EEins "ijae,klbf,efcd->ijklabcd" [(EVar "t"); (EVar "t"); (EVar "v_vv")]));
   (*L36*) SAssign "t4" (ECall "antisym.antisym_t4_residual" [(EVar "Roooovvvv"); (EVar "nocc"); (EVar "nvir")]);
   (*L39*) SAssign "t4T" (ETransp (EVar "t4") [4; 5; 6; 7; 0; 1; 2; 3]%nat);
   (*L40*) SAssign "resid_aaaa" (EScale (1 # 8) (EEins "klcd,abcdijkl->abij" [(EVar "t2_dag"); (EVar "t4T")]))]
  (*L87*) (EVar "resid_aaaa").

(** /repo/UT2/XCCDbasebuilder.py:6-87  def build_XCCDbase_6 *)
Definition build_XCCDbase_6 : fn := mkFn
  ["t2_aa"; "order"; "contractInfo"]
  [(*L16*) SAssign "nocc" (EItem (EVar "contractInfo") "nocc");
   (*L17*) SAssign "nvir" (EItem (EVar "contractInfo") "nvir");
   (*L18*) SAssign "t" (ETransp (EVar "t2_aa") [2; 3; 0; 1]%nat);
   (*L19*) SAssign "t2_dag" (EVar "t");
   (*L21*) SAssign "g" (EItem (EVar "contractInfo") "ints");
   (*L22*) SAssign "o" (EItem (EVar "contractInfo") "oa");
   (*L23*) SAssign "v" (EItem (EVar "contractInfo") "va");
   (*L24*) SAssign "Roooovvvv" (EZeros [(EVar "nocc"); (EVar "nocc"); (EVar "nocc"); (EVar "nocc"); (EVar "nvir"); (EVar "nvir"); (EVar "nvir"); (EVar "nvir")]);
   (*L25*) SAssign "v_oo" (ESlice (EVar "g") [SV "o"; SV "o"; SV "o"; SV "o"]);
   (*L26*) SAssign "v_vo" (ESlice (EVar "g") [SV "o"; SV "v"; SV "o"; SV "v"]);
   (*L27*) SAssign "v_vv" (ESlice (EVar "g") [SV "v"; SV "v"; SV "v"; SV "v"]);
   (*L28*) SAssign "v_m2" (ESlice (EVar "g") [SV "v"; SV "v"; SV "o"; SV "o"]);
   (*L44*) SAssign "Roooovvvv" (EScale (-1 # 32) (EEins "imab,jncd,klef,efmn->ijklabcd" [(EVar "t"); (EVar "t"); (EVar "t"); (EVar "v_m2")]));
   (*L45*) SAug true "Roooovvvv" (EScale (1 # 4) (EEins "imab,jkce,lndf,efmn->ijklabcd" [(EVar "t"); (EVar "t"); (EVar "t"); (EVar "v_m2")]));
   (*L46*) SAug true "Roooovvvv" (EScale (-1 # 32) (EEins "mnab,ijce,kldf,efmn->ijklabcd" [(EVar "t"); (EVar "t"); (EVar "t"); (EVar "v_m2")]));
   (*L48*) SAssign "t4" (ECall "antisym.antisym_t4_residual" [(EVar "Roooovvvv"); (EVar "nocc"); (EVar "nvir")]);
   (*L49*) SAssign "t4" (ETransp (EVar "t4") [4; 5; 6; 7; 0; 1; 2; 3]%nat);
   (*L50*) SAssign "resid_aaaa" (EScale (1 # 8) (EEins "klcd,abcdijkl->abij" [(EVar "t2_dag"); (EVar "t4")]))]
  (*L87*) (EVar "resid_aaaa").

(** /repo/UT2/XCCDbasebuilder.py:6-87  def build_XCCDbase_7 *)
Definition build_XCCDbase_7 : fn := mkFn
  ["t2_aa"; "order"; "contractInfo"; "roooovvvv_t4_third.pickle"]
  [(*L16*) SAssign "nocc" (EItem (EVar "contractInfo") "nocc");
   (*L17*) SAssign "nvir" (EItem (EVar "contractInfo") "nvir");
   (*L18*) SAssign "t" (ETransp (EVar "t2_aa") [2; 3; 0; 1]%nat);
   (*L19*) SAssign "t2_dag" (EVar "t");
   (*L21*) SAssign "g" (EItem (EVar "contractInfo") "ints");
   (*L22*) SAssign "o" (EItem (EVar "contractInfo") "oa");
   (*L23*) SAssign "v" (EItem (EVar "contractInfo") "va");
   (*L24*) SAssign "Roooovvvv" (EZeros [(EVar "nocc"); (EVar "nocc"); (EVar "nocc"); (EVar "nocc"); (EVar "nvir"); (EVar "nvir"); (EVar "nvir"); (EVar "nvir")]);
   (*L25*) SAssign "v_oo" (ESlice (EVar "g") [SV "o"; SV "o"; SV "o"; SV "o"]);
   (*L26*) SAssign "v_vo" (ESlice (EVar "g") [SV "o"; SV "v"; SV "o"; SV "v"]);
   (*L27*) SAssign "v_vv" (ESlice (EVar "g") [SV "v"; SV "v"; SV "v"; SV "v"]);
   (*L28*) SAssign "v_m2" (ESlice (EVar "g") [SV "v"; SV "v"; SV "o"; SV "o"]);
   (*L54*) SAssign "t4" (EZeros [(EVar "nocc"); (EVar "nocc"); (EVar "nocc"); (EVar "nocc"); (EVar "nvir"); (EVar "nvir"); (EVar "nvir"); (EVar "nvir")]);
   (*L55*) SAssign "t4" (EVar "roooovvvv_t4_third.pickle");
   (*L58*) SAssign "Roooovvvv" (ECall "get_xcc7residual" [(EVar "nocc"); (EVar "nvir"); (EVar "t4"); (EVar "t"); (ETransp (EVar "t2_dag") [2; 3; 0; 1]%nat)]);
   (*L59*) SAssign "t4" (ECall "antisym.antisym_t4_residual" [(EVar "Roooovvvv"); (EVar "nocc"); (EVar "nvir")]);
   (*L60*) SAssign "t4" (ETransp (EVar "t4") [4; 5; 6; 7; 0; 1; 2; 3]%nat);
   (*L61*) SAssign "resid_aaaa" (EScale (1 # 24) (EEins "klcd,abcdijkl->abij" [(EVar "t2_dag"); (EVar "t4")]))]
  (*L87*) (EVar "resid_aaaa").

(** /repo/UT2/XCCDbasebuilder.py:6-87  def build_XCCDbase_8 *)
Definition build_XCCDbase_8 : fn := mkFn
  ["t2_aa"; "order"; "contractInfo"]
  [(*L16*) SAssign "nocc" (EItem (EVar "contractInfo") "nocc");
   (*L17*) SAssign "nvir" (EItem (EVar "contractInfo") "nvir");
   (*L18*) SAssign "t" (ETransp (EVar "t2_aa") [2; 3; 0; 1]%nat);
   (*L19*) SAssign "t2_dag" (EVar "t");
   (*L21*) SAssign "g" (EItem (EVar "contractInfo") "ints");
   (*L22*) SAssign "o" (EItem (EVar "contractInfo") "oa");
   (*L23*) SAssign "v" (EItem (EVar "contractInfo") "va");
   (*L24*) SAssign "Roooovvvv" (EZeros [(EVar "nocc"); (EVar "nocc"); (EVar "nocc"); (EVar "nocc"); (EVar "nvir"); (EVar "nvir"); (EVar "nvir"); (EVar "nvir")]);
   (*L25*) SAssign "v_oo" (ESlice (EVar "g") [SV "o"; SV "o"; SV "o"; SV "o"]);
   (*L26*) SAssign "v_vo" (ESlice (EVar "g") [SV "o"; SV "v"; SV "o"; SV "v"]);
   (*L27*) SAssign "v_vv" (ESlice (EVar "g") [SV "v"; SV "v"; SV "v"; SV "v"]);
   (*L28*) SAssign "v_m2" (ESlice (EVar "g") [SV "v"; SV "v"; SV "o"; SV "o"]);
   (*L64*) SAssign "t4" (ECall "get_xcc8residual" [(EVar "nocc"); (EVar "nvir"); (EVar "t"); (ETransp (EVar "t2_dag") [2; 3; 0; 1]%nat); (EVar "v_m2")]);
   (*L65*) SAssign "t4" (ECall "antisym.antisym_t4_residual" [(EVar "t4"); (EVar "nocc"); (EVar "nvir")]);
   (*L66*) SAssign "t4" (ETransp (EVar "t4") [4; 5; 6; 7; 0; 1; 2; 3]%nat);
   (*L68*) SAssign "resid_aaaa" (EScale (1 # 24) (EEins "klcd,abcdijkl->abij" [(EVar "t2_dag"); (EVar "t4")]))]
  (*L87*) (EVar "resid_aaaa").

(** /repo/UT2/XCCDbasebuilder.py:6-87  def build_XCCDbase_9 *)
Definition build_XCCDbase_9 : fn := mkFn
  ["t2_aa"; "order"; "contractInfo"; "roooovvvv_t4_third.pickle"]
  [(*L16*) SAssign "nocc" (EItem (EVar "contractInfo") "nocc");
   (*L17*) SAssign "nvir" (EItem (EVar "contractInfo") "nvir");
   (*L18*) SAssign "t" (ETransp (EVar "t2_aa") [2; 3; 0; 1]%nat);
   (*L19*) SAssign "t2_dag" (EVar "t");
   (*L21*) SAssign "g" (EItem (EVar "contractInfo") "ints");
   (*L22*) SAssign "o" (EItem (EVar "contractInfo") "oa");
   (*L23*) SAssign "v" (EItem (EVar "contractInfo") "va");
   (*L24*) SAssign "Roooovvvv" (EZeros [(EVar "nocc"); (EVar "nocc"); (EVar "nocc"); (EVar "nocc"); (EVar "nvir"); (EVar "nvir"); (EVar "nvir"); (EVar "nvir")]);
   (*L25*) SAssign "v_oo" (ESlice (EVar "g") [SV "o"; SV "o"; SV "o"; SV "o"]);
   (*L26*) SAssign "v_vo" (ESlice (EVar "g") [SV "o"; SV "v"; SV "o"; SV "v"]);
   (*L27*) SAssign "v_vv" (ESlice (EVar "g") [SV "v"; SV "v"; SV "v"; SV "v"]);
   (*L28*) SAssign "v_m2" (ESlice (EVar "g") [SV "v"; SV "v"; SV "o"; SV "o"]);
   (*L73*) SAssign "t4" (EZeros [(EVar "nocc"); (EVar "nocc"); (EVar "nocc"); (EVar "nocc"); (EVar "nvir"); (EVar "nvir"); (EVar "nvir"); (EVar "nvir")]);
   (*L74*) SAssign "t4" (EVar "roooovvvv_t4_third.pickle");
   (*L77*) SAssign "Roooovvvv" (ECall "get_xcc9residual" [(EVar "nocc"); (EVar "nvir"); (EVar "t4"); (EVar "t"); (ETransp (EVar "t2_dag") [2; 3; 0; 1]%nat)]);
   (*L78*) SAssign "t4" (ECall "antisym.antisym_t4_residual" [(EVar "Roooovvvv"); (EVar "nocc"); (EVar "nvir")]);
   (*L79*) SAssign "t4" (ETransp (EVar "t4") [4; 5; 6; 7; 0; 1; 2; 3]%nat);
   (*L80*) SAssign "resid_aaaa" (EScale (1 # 24) (EEins "klcd,abcdijkl->abij" [(EVar "t2_dag"); (EVar "t4")]))]
  (*L87*) (EVar "resid_aaaa").

(** /repo/UT2/XCCDbasebuilder.py:6-87  def build_XCCDbase_5_dump *)
Definition build_XCCDbase_5_dump : fn := mkFn
  ["t2_aa"; "order"; "contractInfo"]
  [(*L16*) SAssign "nocc" (EItem (EVar "contractInfo") "nocc");
   (*L17*) SAssign "nvir" (EItem (EVar "contractInfo") "nvir");
   (*L18*) SAssign "t" (ETransp (EVar "t2_aa") [2; 3; 0; 1]%nat);
   (*L19*) SAssign "t2_dag" (EVar "t");
   (*L21*) SAssign "g" (EItem (EVar "contractInfo") "ints");
   (*L22*) SAssign "o" (EItem (EVar "contractInfo") "oa");
   (*L23*) SAssign "v" (EItem (EVar "contractInfo") "va");
   (*L24*) SAssign "Roooovvvv" (EZeros [(EVar "nocc"); (EVar "nocc"); (EVar "nocc"); (EVar "nocc"); (EVar "nvir"); (EVar "nvir"); (EVar "nvir"); (EVar "nvir")]);
   (*L25*) SAssign "v_oo" (ESlice (EVar "g") [SV "o"; SV "o"; SV "o"; SV "o"]);
   (*L26*) SAssign "v_vo" (ESlice (EVar "g") [SV "o"; SV "v"; SV "o"; SV "v"]);
   (*L27*) SAssign "v_vv" (ESlice (EVar "g") [SV "v"; SV "v"; SV "v"; SV "v"]);
   (*L28*) SAssign "v_m2" (ESlice (EVar "g") [SV "v"; SV "v"; SV "o"; SV "o"]);
   (*L32*) SAug true "Roooovvvv" (EScale (-1 # 16) (EEins "imab,jncd,klmn->ijklabcd" [(EVar "t"); (EVar "t"); (EVar "v_oo")]));
   (*L33*) SAug true "Roooovvvv" (EScale (-1 # 4) (EEins "imab,jkce,lemd->ijklabcd" [(EVar "t"); (EVar "t"); (EVar "v_vo")]));
   (*L34*) SAug true "Roooovvvv" (EScale (-1 # 16) (EEins "ijae,klbf,efcd->ijklabcd" [(EVar "t"); (EVar "t"); (EVar "v_vv")]));
   (*L36*) SAssign "t4" (ECall "antisym.antisym_t4_residual" [(EVar "Roooovvvv"); (EVar "nocc"); (EVar "nvir")])]
  (*L37*) (EVar "t4").

(** /repo/UT2/XCCDbasebuilder.py:90-110  def get_xcc7residual *)
Definition get_xcc7residual : fn := mkFn
  ["nocc"; "nvir"; "t4"; "t2"; "t_dag"]
  [(*L102*) SAssign "roooovvvv" (EZeros [(EVar "nocc"); (EVar "nocc"); (EVar "nocc"); (EVar "nocc"); (EVar "nvir"); (EVar "nvir"); (EVar "nvir"); (EVar "nvir")]);
   (*L103*) SAug true "roooovvvv" (EScale (-20833333 # 1000000000) (EEins "imab,jklncdef,efmn->ijklabcd" [(EVar "t2"); (EVar "t4"); (EVar "t_dag")]));
   (*L104*) SAug true "roooovvvv" (EScale (2604167 # 1000000000) (EEins "mnab,ijklcdef,efmn->ijklabcd" [(EVar "t2"); (EVar "t4"); (EVar "t_dag")]));
   (*L105*) SAug true "roooovvvv" (EScale (-20833333 # 1000000000) (EEins "ijae,klmnbcdf,efmn->ijklabcd" [(EVar "t2"); (EVar "t4"); (EVar "t_dag")]));
   (*L106*) SAug true "roooovvvv" (EScale (13888889 # 500000000) (EEins "imae,jklnbcdf,efmn->ijklabcd" [(EVar "t2"); (EVar "t4"); (EVar "t_dag")]));
   (*L107*) SAug true "roooovvvv" (EScale (-1736111 # 500000000) (EEins "mnae,ijklbcdf,efmn->ijklabcd" [(EVar "t2"); (EVar "t4"); (EVar "t_dag")]));
   (*L108*) SAug true "roooovvvv" (EScale (2604167 # 1000000000) (EEins "ijef,klmnabcd,efmn->ijklabcd" [(EVar "t2"); (EVar "t4"); (EVar "t_dag")]));
   (*L109*) SAug true "roooovvvv" (EScale (-1736111 # 500000000) (EEins "imef,jklnabcd,efmn->ijklabcd" [(EVar "t2"); (EVar "t4"); (EVar "t_dag")]))]
  (*L110*) (EVar "roooovvvv").

(** /repo/UT2/XCCDbasebuilder.py:114-149  def get_xcc8residual *)
Definition get_xcc8residual : fn := mkFn
  ["nocc"; "nvir"; "t"; "t_dag"; "g"]
  [(*L127*) SAssign "roooovvvv" (EZeros [(EVar "nocc"); (EVar "nocc"); (EVar "nocc"); (EVar "nocc"); (EVar "nvir"); (EVar "nvir"); (EVar "nvir"); (EVar "nvir")]);
   (*L128*) SAug true "roooovvvv" (EScale (1 # 32) (EEins "imab,jncd,klef,ghop,eogh,fpmn->ijklabcd" [(EVar "t"); (EVar "t"); (EVar "t"); (EVar "t"); (EVar "t_dag"); (EVar "g")]));
   (*L129*) SAug true "roooovvvv" (EScale (-1 # 16) (EEins "imab,jncd,kefg,lhop,foeh,gpmn->ijklabcd" [(EVar "t"); (EVar "t"); (EVar "t"); (EVar "t"); (EVar "t_dag"); (EVar "g")]));
   (*L130*) SAug true "roooovvvv" (EScale (-1 # 8) (EEins "imab,ncde,jkfg,lhop,fonh,gpmc->ijklabde" [(EVar "t"); (EVar "t"); (EVar "t"); (EVar "t"); (EVar "t_dag"); (EVar "g")]));
   (*L131*) SAug true "roooovvvv" (EScale (1 # 8) (EEins "imab,jkce,lndf,ghop,opng,efmh->ijklabcd" [(EVar "t"); (EVar "t"); (EVar "t"); (EVar "t"); (EVar "t_dag"); (EVar "g")]));
   (*L132*) SAug true "roooovvvv" (EScale (1 # 8) (EEins "imab,jkce,lndf,ghop,fogh,epmn->ijklabcd" [(EVar "t"); (EVar "t"); (EVar "t"); (EVar "t"); (EVar "t_dag"); (EVar "g")]));
   (*L133*) SAug true "roooovvvv" (EScale (1 # 16) (EEins "imab,jkce,ndfg,lhop,opnd,egmh->ijklabcf" [(EVar "t"); (EVar "t"); (EVar "t"); (EVar "t"); (EVar "t_dag"); (EVar "g")]));
   (*L134*) SAug true "roooovvvv" (EScale (-1 # 4) (EEins "imab,jkce,ndfg,lhop,gonh,epmd->ijklabcf" [(EVar "t"); (EVar "t"); (EVar "t"); (EVar "t"); (EVar "t_dag"); (EVar "g")]));
   (*L135*) SAug true "roooovvvv" (EScale (-1 # 8) (EEins "imab,jnce,kdfg,lhop,opnd,egmh->ijklabcf" [(EVar "t"); (EVar "t"); (EVar "t"); (EVar "t"); (EVar "t_dag"); (EVar "g")]));
   (*L136*) SAug true "roooovvvv" (EScale (1 # 2) (EEins "imab,jnce,kdfg,lhop,gonh,epmd->ijklabcf" [(EVar "t"); (EVar "t"); (EVar "t"); (EVar "t"); (EVar "t_dag"); (EVar "g")]));
   (*L137*) SAug true "roooovvvv" (EScale (1 # 4) (EEins "imab,jnce,dfgh,klop,hond,epmf->ijklabcg" [(EVar "t"); (EVar "t"); (EVar "t"); (EVar "t"); (EVar "t_dag"); (EVar "g")]));
   (*L138*) SAug true "roooovvvv" (EScale (1 # 8) (EEins "imab,ncde,jfgh,klop,honc,epmf->ijklabdg" [(EVar "t"); (EVar "t"); (EVar "t"); (EVar "t"); (EVar "t_dag"); (EVar "g")]));
   (*L139*) SAug true "roooovvvv" (EScale (1 # 64) (EEins "mnab,cdef,ijgh,klop,gomc,hpnd->ijklabef" [(EVar "t"); (EVar "t"); (EVar "t"); (EVar "t"); (EVar "t_dag"); (EVar "g")]));
   (*L140*) SAug true "roooovvvv" (EScale (1 # 32) (EEins "mnab,ijce,kldf,ghop,opmg,efnh->ijklabcd" [(EVar "t"); (EVar "t"); (EVar "t"); (EVar "t"); (EVar "t_dag"); (EVar "g")]));
   (*L141*) SAug true "roooovvvv" (EScale (-1 # 8) (EEins "mnab,ijce,kdfg,lhop,opmd,egnh->ijklabcf" [(EVar "t"); (EVar "t"); (EVar "t"); (EVar "t"); (EVar "t_dag"); (EVar "g")]));
   (*L142*) SAug true "roooovvvv" (EScale (1 # 4) (EEins "mnab,ijce,kdfg,lhop,gomh,epnd->ijklabcf" [(EVar "t"); (EVar "t"); (EVar "t"); (EVar "t"); (EVar "t_dag"); (EVar "g")]));
   (*L143*) SAug true "roooovvvv" (EScale (1 # 8) (EEins "mnab,ijce,dfgh,klop,homd,epnf->ijklabcg" [(EVar "t"); (EVar "t"); (EVar "t"); (EVar "t"); (EVar "t_dag"); (EVar "g")]));
   (*L144*) SAug true "roooovvvv" (EScale (-1 # 4) (EEins "mnab,icde,jfgh,klop,homc,epnf->ijklabdg" [(EVar "t"); (EVar "t"); (EVar "t"); (EVar "t"); (EVar "t_dag"); (EVar "g")]));
   (*L145*) SAug true "roooovvvv" (EScale (-1 # 16) (EEins "ijae,klbf,mncd,ghop,dpmg,efnh->ijklabco" [(EVar "t"); (EVar "t"); (EVar "t"); (EVar "t"); (EVar "t_dag"); (EVar "g")]));
   (*L146*) SAug true "roooovvvv" (EScale (1 # 2) (EEins "ijae,kmbf,lncd,ghop,dpmg,efnh->ijklabco" [(EVar "t"); (EVar "t"); (EVar "t"); (EVar "t"); (EVar "t_dag"); (EVar "g")]));
   (*L147*) SAug true "roooovvvv" (EScale (-1 # 8) (EEins "ijae,mnbf,kcdg,lhop,gpmn,efch->ijklabdo" [(EVar "t"); (EVar "t"); (EVar "t"); (EVar "t"); (EVar "t_dag"); (EVar "g")]));
   (*L148*) SAug true "roooovvvv" (EScale (1 # 4) (EEins "imae,jnbf,kcdg,lhop,gpmn,efch->ijklabdo" [(EVar "t"); (EVar "t"); (EVar "t"); (EVar "t"); (EVar "t_dag"); (EVar "g")]))]
  (*L149*) (EVar "roooovvvv").

(** /repo/UT2/XCCDbasebuilder.py:151-290  def get_xcc9residual *)
Definition get_xcc9residual : fn := mkFn
  ["nocc"; "nvir"; "t4"; "t2"; "t_dag"]
  [(*L163*) SAssign "roooovvvv" (EZeros [(EVar "nocc"); (EVar "nocc"); (EVar "nocc"); (EVar "nocc"); (EVar "nvir"); (EVar "nvir"); (EVar "nvir"); (EVar "nvir")]);
   (*L164*) SAug true "roooovvvv" (EScale (-1 # 128) (EEins "imab,jncd,klefghop,opef,ghmn->ijklabcd" [(EVar "t2"); (EVar "t2"); (EVar "t4"); (EVar "t_dag"); (EVar "t_dag")]));
   (*L165*) SAug true "roooovvvv" (EScale (-10416667 # 1000000000) (EEins "imab,ncde,jklfghop,ghmn,opcf->ijklabde" [(EVar "t2"); (EVar "t2"); (EVar "t4"); (EVar "t_dag"); (EVar "t_dag")]));
   (*L166*) SAug true "roooovvvv" (EScale (1 # 16) (EEins "imab,jkce,lndfghop,opdf,ehmn->ijklabcg" [(EVar "t2"); (EVar "t2"); (EVar "t4"); (EVar "t_dag"); (EVar "t_dag")]));
   (*L167*) SAug true "roooovvvv" (EScale (-1 # 8) (EEins "imab,jnce,kldfghop,opnf,ehmd->ijklabcg" [(EVar "t2"); (EVar "t2"); (EVar "t4"); (EVar "t_dag"); (EVar "t_dag")]));
   (*L168*) SAug true "roooovvvv" (EScale (1 # 16) (EEins "imab,jnce,kldfghop,epdf,homn->ijklabcg" [(EVar "t2"); (EVar "t2"); (EVar "t4"); (EVar "t_dag"); (EVar "t_dag")]));
   (*L169*) SAug true "roooovvvv" (EScale (1 # 16) (EEins "imab,jnce,kldfghop,opdf,ehmn->ijklabcg" [(EVar "t2"); (EVar "t2"); (EVar "t4"); (EVar "t_dag"); (EVar "t_dag")]));
   (*L170*) SAug true "roooovvvv" (EScale (41666667 # 1000000000) (EEins "imab,ncde,jklfghop,homn,epcf->ijklabdg" [(EVar "t2"); (EVar "t2"); (EVar "t4"); (EVar "t_dag"); (EVar "t_dag")]));
   (*L171*) SAug true "roooovvvv" (EScale (20833333 # 1000000000) (EEins "imab,ncde,jklfghop,opnc,ehmf->ijklabdg" [(EVar "t2"); (EVar "t2"); (EVar "t4"); (EVar "t_dag"); (EVar "t_dag")]));
   (*L172*) SAug true "roooovvvv" (EScale (41666667 # 1000000000) (EEins "imab,ncde,jklfghop,opcf,ehmn->ijklabdg" [(EVar "t2"); (EVar "t2"); (EVar "t4"); (EVar "t_dag"); (EVar "t_dag")]));
   (*L173*) SAug true "roooovvvv" (EScale (1 # 16) (EEins "imab,jkef,lncdghop,fpcd,eomn->ijklabgh" [(EVar "t2"); (EVar "t2"); (EVar "t4"); (EVar "t_dag"); (EVar "t_dag")]));
   (*L174*) SAug true "roooovvvv" (EScale (-1 # 64) (EEins "imab,jkef,lncdghop,opcd,efmn->ijklabgh" [(EVar "t2"); (EVar "t2"); (EVar "t4"); (EVar "t_dag"); (EVar "t_dag")]));
   (*L175*) SAug true "roooovvvv" (EScale (1 # 32) (EEins "imab,jnef,klcdghop,efmc,opnd->ijklabgh" [(EVar "t2"); (EVar "t2"); (EVar "t4"); (EVar "t_dag"); (EVar "t_dag")]));
   (*L176*) SAug true "roooovvvv" (EScale (-1 # 8) (EEins "imab,jnef,klcdghop,eomc,fpnd->ijklabgh" [(EVar "t2"); (EVar "t2"); (EVar "t4"); (EVar "t_dag"); (EVar "t_dag")]));
   (*L177*) SAug true "roooovvvv" (EScale (-1 # 64) (EEins "imab,jnef,klcdghop,efcd,opmn->ijklabgh" [(EVar "t2"); (EVar "t2"); (EVar "t4"); (EVar "t_dag"); (EVar "t_dag")]));
   (*L178*) SAug true "roooovvvv" (EScale (1 # 16) (EEins "imab,jnef,klcdghop,fpcd,eomn->ijklabgh" [(EVar "t2"); (EVar "t2"); (EVar "t4"); (EVar "t_dag"); (EVar "t_dag")]));
   (*L179*) SAug true "roooovvvv" (EScale (41666667 # 1000000000) (EEins "imab,ncef,jkldghop,eomn,fpcd->ijklabgh" [(EVar "t2"); (EVar "t2"); (EVar "t4"); (EVar "t_dag"); (EVar "t_dag")]));
   (*L180*) SAug true "roooovvvv" (EScale (-10416667 # 1000000000) (EEins "imab,ncef,jkldghop,opmn,efcd->ijklabgh" [(EVar "t2"); (EVar "t2"); (EVar "t4"); (EVar "t_dag"); (EVar "t_dag")]));
   (*L181*) SAug true "roooovvvv" (EScale (20833333 # 1000000000) (EEins "imab,ncef,jkldghop,fpnc,eomd->ijklabgh" [(EVar "t2"); (EVar "t2"); (EVar "t4"); (EVar "t_dag"); (EVar "t_dag")]));
   (*L182*) SAug true "roooovvvv" (EScale (-5208333 # 1000000000) (EEins "imab,ncef,jkldghop,opnc,efmd->ijklabgh" [(EVar "t2"); (EVar "t2"); (EVar "t4"); (EVar "t_dag"); (EVar "t_dag")]));
   (*L183*) SAug true "roooovvvv" (EScale (-1302083 # 1000000000) (EEins "mnab,cdef,ijklghop,ghmc,opnd->ijklabef" [(EVar "t2"); (EVar "t2"); (EVar "t4"); (EVar "t_dag"); (EVar "t_dag")]));
   (*L184*) SAug true "roooovvvv" (EScale (1 # 16) (EEins "mnab,ijce,kldfghop,opnf,ehmd->ijklabcg" [(EVar "t2"); (EVar "t2"); (EVar "t4"); (EVar "t_dag"); (EVar "t_dag")]));
   (*L185*) SAug true "roooovvvv" (EScale (-1 # 64) (EEins "mnab,ijce,kldfghop,opdf,ehmn->ijklabcg" [(EVar "t2"); (EVar "t2"); (EVar "t4"); (EVar "t_dag"); (EVar "t_dag")]));
   (*L186*) SAug true "roooovvvv" (EScale (20833333 # 1000000000) (EEins "mnab,icde,jklfghop,ehmn,opcf->ijklabdg" [(EVar "t2"); (EVar "t2"); (EVar "t4"); (EVar "t_dag"); (EVar "t_dag")]));
   (*L187*) SAug true "roooovvvv" (EScale (-83333333 # 1000000000) (EEins "mnab,icde,jklfghop,homc,epnf->ijklabdg" [(EVar "t2"); (EVar "t2"); (EVar "t4"); (EVar "t_dag"); (EVar "t_dag")]));
   (*L188*) SAug true "roooovvvv" (EScale (-41666667 # 1000000000) (EEins "mnab,icde,jklfghop,opnf,ehmc->ijklabdg" [(EVar "t2"); (EVar "t2"); (EVar "t4"); (EVar "t_dag"); (EVar "t_dag")]));
   (*L189*) SAug true "roooovvvv" (EScale (20833333 # 1000000000) (EEins "mnab,cdef,ijklghop,opnd,fhmc->ijklabeg" [(EVar "t2"); (EVar "t2"); (EVar "t4"); (EVar "t_dag"); (EVar "t_dag")]));
   (*L190*) SAug true "roooovvvv" (EScale (-2604167 # 1000000000) (EEins "mnab,cdef,ijklghop,opcd,fhmn->ijklabeg" [(EVar "t2"); (EVar "t2"); (EVar "t4"); (EVar "t_dag"); (EVar "t_dag")]));
   (*L191*) SAug true "roooovvvv" (EScale (-1 # 64) (EEins "mnab,ijef,klcdghop,eomn,fpcd->ijklabgh" [(EVar "t2"); (EVar "t2"); (EVar "t4"); (EVar "t_dag"); (EVar "t_dag")]));
   (*L192*) SAug true "roooovvvv" (EScale (-1 # 64) (EEins "mnab,ijef,klcdghop,efmc,opnd->ijklabgh" [(EVar "t2"); (EVar "t2"); (EVar "t4"); (EVar "t_dag"); (EVar "t_dag")]));
   (*L193*) SAug true "roooovvvv" (EScale (1 # 16) (EEins "mnab,ijef,klcdghop,eomc,fpnd->ijklabgh" [(EVar "t2"); (EVar "t2"); (EVar "t4"); (EVar "t_dag"); (EVar "t_dag")]));
   (*L194*) SAug true "roooovvvv" (EScale (20833333 # 1000000000) (EEins "mnab,icef,jkldghop,eomn,fpcd->ijklabgh" [(EVar "t2"); (EVar "t2"); (EVar "t4"); (EVar "t_dag"); (EVar "t_dag")]));
   (*L195*) SAug true "roooovvvv" (EScale (-83333333 # 1000000000) (EEins "mnab,icef,jkldghop,eomc,fpnd->ijklabgh" [(EVar "t2"); (EVar "t2"); (EVar "t4"); (EVar "t_dag"); (EVar "t_dag")]));
   (*L196*) SAug true "roooovvvv" (EScale (20833333 # 1000000000) (EEins "mnab,icef,jkldghop,opmc,efnd->ijklabgh" [(EVar "t2"); (EVar "t2"); (EVar "t4"); (EVar "t_dag"); (EVar "t_dag")]));
   (*L197*) SAug true "roooovvvv" (EScale (-2604167 # 1000000000) (EEins "mnab,cdef,ijklghop,eomn,fpcd->ijklabgh" [(EVar "t2"); (EVar "t2"); (EVar "t4"); (EVar "t_dag"); (EVar "t_dag")]));
   (*L198*) SAug true "roooovvvv" (EScale (10416667 # 1000000000) (EEins "mnab,cdef,ijklghop,eomc,fpnd->ijklabgh" [(EVar "t2"); (EVar "t2"); (EVar "t4"); (EVar "t_dag"); (EVar "t_dag")]));
   (*L199*) SAug true "roooovvvv" (EScale (-2604167 # 1000000000) (EEins "mnab,cdef,ijklghop,opmc,efnd->ijklabgh" [(EVar "t2"); (EVar "t2"); (EVar "t4"); (EVar "t_dag"); (EVar "t_dag")]));
   (*L200*) SAug true "roooovvvv" (EScale (-108507 # 125000000) (EEins "ijkmabcd,lnefghop,opef,ghmn->ijklabcd" [(EVar "t4"); (EVar "t4"); (EVar "t_dag"); (EVar "t_dag")]));
   (*L201*) SAug true "roooovvvv" (EScale (325521 # 500000000) (EEins "ijmnabcd,klefghop,ghmn,opef->ijklabcd" [(EVar "t4"); (EVar "t4"); (EVar "t_dag"); (EVar "t_dag")]));
   (*L202*) SAug true "roooovvvv" (EScale (-2604167 # 1000000000) (EEins "ijmnabcd,klefghop,ghme,opnf->ijklabcd" [(EVar "t4"); (EVar "t4"); (EVar "t_dag"); (EVar "t_dag")]));
   (*L203*) SAug true "roooovvvv" (EScale (-1736111 # 1000000000) (EEins "imnabcde,jklfghop,ghmn,opaf->ijklbcde" [(EVar "t4"); (EVar "t4"); (EVar "t_dag"); (EVar "t_dag")]));
   (*L204*) SAug true "roooovvvv" (EScale (108507 # 1000000000) (EEins "mnabcdef,ijklghop,ghmn,opab->ijklcdef" [(EVar "t4"); (EVar "t4"); (EVar "t_dag"); (EVar "t_dag")]));
   (*L205*) SAug true "roooovvvv" (EScale (-108507 # 125000000) (EEins "ijklabce,mndfghop,opdf,ehmn->ijklabcg" [(EVar "t4"); (EVar "t4"); (EVar "t_dag"); (EVar "t_dag")]));
   (*L206*) SAug true "roooovvvv" (EScale (13888889 # 1000000000) (EEins "ijkmabce,lndfghop,ehnd,opmf->ijklabcg" [(EVar "t4"); (EVar "t4"); (EVar "t_dag"); (EVar "t_dag")]));
   (*L207*) SAug true "roooovvvv" (EScale (1736111 # 250000000) (EEins "ijkmabce,lndfghop,opdf,ehmn->ijklabcg" [(EVar "t4"); (EVar "t4"); (EVar "t_dag"); (EVar "t_dag")]));
   (*L208*) SAug true "roooovvvv" (EScale (-10416667 # 1000000000) (EEins "ijmnabce,kldfghop,opmn,ehdf->ijklabcg" [(EVar "t4"); (EVar "t4"); (EVar "t_dag"); (EVar "t_dag")]));
   (*L209*) SAug true "roooovvvv" (EScale (41666667 # 1000000000) (EEins "ijmnabce,kldfghop,homd,epnf->ijklabcg" [(EVar "t4"); (EVar "t4"); (EVar "t_dag"); (EVar "t_dag")]));
   (*L210*) SAug true "roooovvvv" (EScale (-5208333 # 1000000000) (EEins "ijmnabce,kldfghop,opdf,ehmn->ijklabcg" [(EVar "t4"); (EVar "t4"); (EVar "t_dag"); (EVar "t_dag")]));
   (*L211*) SAug true "roooovvvv" (EScale (13888889 # 1000000000) (EEins "imnabcde,jklfghop,ehmn,opaf->ijklbcdg" [(EVar "t4"); (EVar "t4"); (EVar "t_dag"); (EVar "t_dag")]));
   (*L212*) SAug true "roooovvvv" (EScale (13888889 # 1000000000) (EEins "imnabcde,jklfghop,homn,epaf->ijklbcdg" [(EVar "t4"); (EVar "t4"); (EVar "t_dag"); (EVar "t_dag")]));
   (*L213*) SAug true "roooovvvv" (EScale (-1736111 # 1000000000) (EEins "mnabcdef,ijklghop,opab,fhmn->ijklcdeg" [(EVar "t4"); (EVar "t4"); (EVar "t_dag"); (EVar "t_dag")]));
   (*L214*) SAug true "roooovvvv" (EScale (325521 # 500000000) (EEins "ijklabef,mncdghop,efmn,opcd->ijklabgh" [(EVar "t4"); (EVar "t4"); (EVar "t_dag"); (EVar "t_dag")]));
   (*L215*) SAug true "roooovvvv" (EScale (-2604167 # 1000000000) (EEins "ijklabef,mncdghop,eomn,fpcd->ijklabgh" [(EVar "t4"); (EVar "t4"); (EVar "t_dag"); (EVar "t_dag")]));
   (*L216*) SAug true "roooovvvv" (EScale (-10416667 # 1000000000) (EEins "ijkmabef,lncdghop,efnc,opmd->ijklabgh" [(EVar "t4"); (EVar "t4"); (EVar "t_dag"); (EVar "t_dag")]));
   (*L217*) SAug true "roooovvvv" (EScale (41666667 # 1000000000) (EEins "ijkmabef,lncdghop,eonc,fpmd->ijklabgh" [(EVar "t4"); (EVar "t4"); (EVar "t_dag"); (EVar "t_dag")]));
   (*L218*) SAug true "roooovvvv" (EScale (-5208333 # 1000000000) (EEins "ijkmabef,lncdghop,opcd,efmn->ijklabgh" [(EVar "t4"); (EVar "t4"); (EVar "t_dag"); (EVar "t_dag")]));
   (*L219*) SAug true "roooovvvv" (EScale (-1 # 64) (EEins "ijmnabef,klcdghop,efmc,opnd->ijklabgh" [(EVar "t4"); (EVar "t4"); (EVar "t_dag"); (EVar "t_dag")]));
   (*L220*) SAug true "roooovvvv" (EScale (1 # 32) (EEins "ijmnabef,klcdghop,eomc,fpnd->ijklabgh" [(EVar "t4"); (EVar "t4"); (EVar "t_dag"); (EVar "t_dag")]));
   (*L221*) SAug true "roooovvvv" (EScale (1 # 256) (EEins "ijmnabef,klcdghop,efcd,opmn->ijklabgh" [(EVar "t4"); (EVar "t4"); (EVar "t_dag"); (EVar "t_dag")]));
   (*L222*) SAug true "roooovvvv" (EScale (-1 # 64) (EEins "ijmnabef,klcdghop,eocd,fpmn->ijklabgh" [(EVar "t4"); (EVar "t4"); (EVar "t_dag"); (EVar "t_dag")]));
   (*L223*) SAug true "roooovvvv" (EScale (-1 # 128) (EEins "ijae,klbf,mncdghop,opcd,efmn->ijklabgh" [(EVar "t2"); (EVar "t2"); (EVar "t4"); (EVar "t_dag"); (EVar "t_dag")]));
   (*L224*) SAug true "roooovvvv" (EScale (1 # 16) (EEins "ijae,kmbf,lncdghop,efnc,opmd->ijklabgh" [(EVar "t2"); (EVar "t2"); (EVar "t4"); (EVar "t_dag"); (EVar "t_dag")]));
   (*L225*) SAug true "roooovvvv" (EScale (-1 # 8) (EEins "ijae,kmbf,lncdghop,fpcd,eomn->ijklabgh" [(EVar "t2"); (EVar "t2"); (EVar "t4"); (EVar "t_dag"); (EVar "t_dag")]));
   (*L226*) SAug true "roooovvvv" (EScale (1 # 16) (EEins "ijae,kmbf,lncdghop,opcd,efmn->ijklabgh" [(EVar "t2"); (EVar "t2"); (EVar "t4"); (EVar "t_dag"); (EVar "t_dag")]));
   (*L227*) SAug true "roooovvvv" (EScale (1 # 32) (EEins "ijae,mnbf,klcdghop,eomn,fpcd->ijklabgh" [(EVar "t2"); (EVar "t2"); (EVar "t4"); (EVar "t_dag"); (EVar "t_dag")]));
   (*L228*) SAug true "roooovvvv" (EScale (-1 # 64) (EEins "ijae,mnbf,klcdghop,opmn,efcd->ijklabgh" [(EVar "t2"); (EVar "t2"); (EVar "t4"); (EVar "t_dag"); (EVar "t_dag")]));
   (*L229*) SAug true "roooovvvv" (EScale (-1 # 8) (EEins "ijae,mnbf,klcdghop,eomc,fpnd->ijklabgh" [(EVar "t2"); (EVar "t2"); (EVar "t4"); (EVar "t_dag"); (EVar "t_dag")]));
   (*L230*) SAug true "roooovvvv" (EScale (1 # 16) (EEins "ijae,mnbf,klcdghop,opnd,efmc->ijklabgh" [(EVar "t2"); (EVar "t2"); (EVar "t4"); (EVar "t_dag"); (EVar "t_dag")]));
   (*L231*) SAug true "roooovvvv" (EScale (-10416667 # 1000000000) (EEins "ijae,klfb,mncdghop,efmn,bpcd->ijklagho" [(EVar "t2"); (EVar "t2"); (EVar "t4"); (EVar "t_dag"); (EVar "t_dag")]));
   (*L232*) SAug true "roooovvvv" (EScale (41666667 # 1000000000) (EEins "ijae,kmfb,lncdghop,efnc,bpmd->ijklagho" [(EVar "t2"); (EVar "t2"); (EVar "t4"); (EVar "t_dag"); (EVar "t_dag")]));
   (*L233*) SAug true "roooovvvv" (EScale (20833333 # 1000000000) (EEins "ijae,kmfb,lncdghop,fbcd,epmn->ijklagho" [(EVar "t2"); (EVar "t2"); (EVar "t4"); (EVar "t_dag"); (EVar "t_dag")]));
   (*L234*) SAug true "roooovvvv" (EScale (41666667 # 1000000000) (EEins "ijae,kmfb,lncdghop,bpcd,efmn->ijklagho" [(EVar "t2"); (EVar "t2"); (EVar "t4"); (EVar "t_dag"); (EVar "t_dag")]));
   (*L235*) SAug true "roooovvvv" (EScale (41666667 # 1000000000) (EEins "ijae,mnfb,klcdghop,efmc,bpnd->ijklagho" [(EVar "t2"); (EVar "t2"); (EVar "t4"); (EVar "t_dag"); (EVar "t_dag")]));
   (*L236*) SAug true "roooovvvv" (EScale (20833333 # 1000000000) (EEins "ijae,mnfb,klcdghop,fbnd,epmc->ijklagho" [(EVar "t2"); (EVar "t2"); (EVar "t4"); (EVar "t_dag"); (EVar "t_dag")]));
   (*L237*) SAug true "roooovvvv" (EScale (-10416667 # 1000000000) (EEins "ijae,mnfb,klcdghop,efcd,bpmn->ijklagho" [(EVar "t2"); (EVar "t2"); (EVar "t4"); (EVar "t_dag"); (EVar "t_dag")]));
   (*L238*) SAug true "roooovvvv" (EScale (-5208333 # 1000000000) (EEins "ijae,mnfb,klcdghop,fbcd,epmn->ijklagho" [(EVar "t2"); (EVar "t2"); (EVar "t4"); (EVar "t_dag"); (EVar "t_dag")]));
   (*L239*) SAug true "roooovvvv" (EScale (1 # 8) (EEins "imae,jnbf,klcdghop,opmd,efnc->ijklabgh" [(EVar "t2"); (EVar "t2"); (EVar "t4"); (EVar "t_dag"); (EVar "t_dag")]));
   (*L240*) SAug true "roooovvvv" (EScale (-1 # 4) (EEins "imae,jnbf,klcdghop,eonc,fpmd->ijklabgh" [(EVar "t2"); (EVar "t2"); (EVar "t4"); (EVar "t_dag"); (EVar "t_dag")]));
   (*L241*) SAug true "roooovvvv" (EScale (1 # 16) (EEins "imae,jnbf,klcdghop,efcd,opmn->ijklabgh" [(EVar "t2"); (EVar "t2"); (EVar "t4"); (EVar "t_dag"); (EVar "t_dag")]));
   (*L242*) SAug true "roooovvvv" (EScale (-1 # 8) (EEins "imae,jnbf,klcdghop,fpcd,eomn->ijklabgh" [(EVar "t2"); (EVar "t2"); (EVar "t4"); (EVar "t_dag"); (EVar "t_dag")]));
   (*L243*) SAug true "roooovvvv" (EScale (-83333333 # 1000000000) (EEins "imae,nbcf,jkldghop,eomn,fpbd->ijklacgh" [(EVar "t2"); (EVar "t2"); (EVar "t4"); (EVar "t_dag"); (EVar "t_dag")]));
   (*L244*) SAug true "roooovvvv" (EScale (166666667 # 1000000000) (EEins "imae,nbcf,jkldghop,fomn,epbd->ijklacgh" [(EVar "t2"); (EVar "t2"); (EVar "t4"); (EVar "t_dag"); (EVar "t_dag")]));
   (*L245*) SAug true "roooovvvv" (EScale (83333333 # 1000000000) (EEins "imae,nbcf,jkldghop,opmn,efbd->ijklacgh" [(EVar "t2"); (EVar "t2"); (EVar "t4"); (EVar "t_dag"); (EVar "t_dag")]));
   (*L246*) SAug true "roooovvvv" (EScale (-83333333 # 1000000000) (EEins "imae,nbcf,jkldghop,eonb,fpmd->ijklacgh" [(EVar "t2"); (EVar "t2"); (EVar "t4"); (EVar "t_dag"); (EVar "t_dag")]));
   (*L247*) SAug true "roooovvvv" (EScale (20833333 # 1000000000) (EEins "imae,nbcf,jkldghop,opnb,efmd->ijklacgh" [(EVar "t2"); (EVar "t2"); (EVar "t4"); (EVar "t_dag"); (EVar "t_dag")]));
   (*L248*) SAug true "roooovvvv" (EScale (-83333333 # 1000000000) (EEins "imae,jkfb,lncdghop,ebcd,fpmn->ijklagho" [(EVar "t2"); (EVar "t2"); (EVar "t4"); (EVar "t_dag"); (EVar "t_dag")]));
   (*L249*) SAug true "roooovvvv" (EScale (20833333 # 1000000000) (EEins "imae,jkfb,lncdghop,epcd,fbmn->ijklagho" [(EVar "t2"); (EVar "t2"); (EVar "t4"); (EVar "t_dag"); (EVar "t_dag")]));
   (*L250*) SAug true "roooovvvv" (EScale (41666667 # 1000000000) (EEins "imae,jkfb,lncdghop,bpcd,efmn->ijklagho" [(EVar "t2"); (EVar "t2"); (EVar "t4"); (EVar "t_dag"); (EVar "t_dag")]));
   (*L251*) SAug true "roooovvvv" (EScale (-83333333 # 1000000000) (EEins "imae,jnfb,klcdghop,efmc,bpnd->ijklagho" [(EVar "t2"); (EVar "t2"); (EVar "t4"); (EVar "t_dag"); (EVar "t_dag")]));
   (*L252*) SAug true "roooovvvv" (EScale (-83333333 # 1000000000) (EEins "imae,jnfb,klcdghop,fbmc,epnd->ijklagho" [(EVar "t2"); (EVar "t2"); (EVar "t4"); (EVar "t_dag"); (EVar "t_dag")]));
   (*L253*) SAug true "roooovvvv" (EScale (166666667 # 1000000000) (EEins "imae,jnfb,klcdghop,efnc,bpmd->ijklagho" [(EVar "t2"); (EVar "t2"); (EVar "t4"); (EVar "t_dag"); (EVar "t_dag")]));
   (*L254*) SAug true "roooovvvv" (EScale (-83333333 # 1000000000) (EEins "imae,jnfb,klcdghop,ebcd,fpmn->ijklagho" [(EVar "t2"); (EVar "t2"); (EVar "t4"); (EVar "t_dag"); (EVar "t_dag")]));
   (*L255*) SAug true "roooovvvv" (EScale (20833333 # 1000000000) (EEins "imae,jnfb,klcdghop,fbcd,epmn->ijklagho" [(EVar "t2"); (EVar "t2"); (EVar "t4"); (EVar "t_dag"); (EVar "t_dag")]));
   (*L256*) SAug true "roooovvvv" (EScale (-13888889 # 250000000) (EEins "imae,nbfc,jkldghop,fpmn,ecbd->ijklagho" [(EVar "t2"); (EVar "t2"); (EVar "t4"); (EVar "t_dag"); (EVar "t_dag")]));
   (*L257*) SAug true "roooovvvv" (EScale (-13888889 # 1000000000) (EEins "imae,nbfc,jkldghop,fcmb,epnd->ijklagho" [(EVar "t2"); (EVar "t2"); (EVar "t4"); (EVar "t_dag"); (EVar "t_dag")]));
   (*L258*) SAug true "roooovvvv" (EScale (-13888889 # 1000000000) (EEins "imae,nbfc,jkldghop,ecnb,fpmd->ijklagho" [(EVar "t2"); (EVar "t2"); (EVar "t4"); (EVar "t_dag"); (EVar "t_dag")]));
   (*L259*) SAug true "roooovvvv" (EScale (13888889 # 1000000000) (EEins "imae,nbfc,jkldghop,epnb,fcmd->ijklagho" [(EVar "t2"); (EVar "t2"); (EVar "t4"); (EVar "t_dag"); (EVar "t_dag")]));
   (*L260*) SAug true "roooovvvv" (EScale (13888889 # 1000000000) (EEins "imae,nbfc,jkldghop,cpnb,efmd->ijklagho" [(EVar "t2"); (EVar "t2"); (EVar "t4"); (EVar "t_dag"); (EVar "t_dag")]));
   (*L261*) SAug true "roooovvvv" (EScale (13888889 # 1000000000) (EEins "imae,nbfc,jkldghop,fcbd,epmn->ijklagho" [(EVar "t2"); (EVar "t2"); (EVar "t4"); (EVar "t_dag"); (EVar "t_dag")]));
   (*L262*) SAug true "roooovvvv" (EScale (-20833333 # 1000000000) (EEins "mnae,bcdf,ijklghop,eomb,fpnc->ijkladgh" [(EVar "t2"); (EVar "t2"); (EVar "t4"); (EVar "t_dag"); (EVar "t_dag")]));
   (*L263*) SAug true "roooovvvv" (EScale (5208333 # 1000000000) (EEins "mnae,bcdf,ijklghop,opmb,efnc->ijkladgh" [(EVar "t2"); (EVar "t2"); (EVar "t4"); (EVar "t_dag"); (EVar "t_dag")]));
   (*L264*) SAug true "roooovvvv" (EScale (5208333 # 1000000000) (EEins "mnae,bcdf,ijklghop,eobc,fpmn->ijkladgh" [(EVar "t2"); (EVar "t2"); (EVar "t4"); (EVar "t_dag"); (EVar "t_dag")]));
   (*L265*) SAug true "roooovvvv" (EScale (20833333 # 1000000000) (EEins "mnae,ijfb,klcdghop,fpmn,ebcd->ijklagho" [(EVar "t2"); (EVar "t2"); (EVar "t4"); (EVar "t_dag"); (EVar "t_dag")]));
   (*L266*) SAug true "roooovvvv" (EScale (83333333 # 1000000000) (EEins "mnae,ijfb,klcdghop,efmc,bpnd->ijklagho" [(EVar "t2"); (EVar "t2"); (EVar "t4"); (EVar "t_dag"); (EVar "t_dag")]));
   (*L267*) SAug true "roooovvvv" (EScale (20833333 # 1000000000) (EEins "mnae,ijfb,klcdghop,fbmc,epnd->ijklagho" [(EVar "t2"); (EVar "t2"); (EVar "t4"); (EVar "t_dag"); (EVar "t_dag")]));
   (*L268*) SAug true "roooovvvv" (EScale (1736111 # 250000000) (EEins "mnae,ibfc,jkldghop,fcmn,epbd->ijklagho" [(EVar "t2"); (EVar "t2"); (EVar "t4"); (EVar "t_dag"); (EVar "t_dag")]));
   (*L269*) SAug true "roooovvvv" (EScale (-13888889 # 500000000) (EEins "mnae,ibfc,jkldghop,fpmn,ecbd->ijklagho" [(EVar "t2"); (EVar "t2"); (EVar "t4"); (EVar "t_dag"); (EVar "t_dag")]));
   (*L270*) SAug true "roooovvvv" (EScale (13888889 # 250000000) (EEins "mnae,ibfc,jkldghop,fpmb,ecnd->ijklagho" [(EVar "t2"); (EVar "t2"); (EVar "t4"); (EVar "t_dag"); (EVar "t_dag")]));
   (*L271*) SAug true "roooovvvv" (EScale (-13888889 # 500000000) (EEins "mnae,ibfc,jkldghop,fpmd,ecnb->ijklagho" [(EVar "t2"); (EVar "t2"); (EVar "t4"); (EVar "t_dag"); (EVar "t_dag")]));
   (*L272*) SAug true "roooovvvv" (EScale (-13888889 # 500000000) (EEins "mnae,ibfc,jkldghop,fcnd,epmb->ijklagho" [(EVar "t2"); (EVar "t2"); (EVar "t4"); (EVar "t_dag"); (EVar "t_dag")]));
   (*L273*) SAug true "roooovvvv" (EScale (-108507 # 125000000) (EEins "mnae,bcfd,ijklghop,fdmn,epbc->ijklagho" [(EVar "t2"); (EVar "t2"); (EVar "t4"); (EVar "t_dag"); (EVar "t_dag")]));
   (*L274*) SAug true "roooovvvv" (EScale (1736111 # 1000000000) (EEins "mnae,bcfd,ijklghop,fpmn,edbc->ijklagho" [(EVar "t2"); (EVar "t2"); (EVar "t4"); (EVar "t_dag"); (EVar "t_dag")]));
   (*L275*) SAug true "roooovvvv" (EScale (-1736111 # 250000000) (EEins "mnae,bcfd,ijklghop,fpmb,ednc->ijklagho" [(EVar "t2"); (EVar "t2"); (EVar "t4"); (EVar "t_dag"); (EVar "t_dag")]));
   (*L276*) SAug true "roooovvvv" (EScale (1736111 # 500000000) (EEins "mnae,bcfd,ijklghop,fdnc,epmb->ijklagho" [(EVar "t2"); (EVar "t2"); (EVar "t4"); (EVar "t_dag"); (EVar "t_dag")]));
   (*L277*) SAug true "roooovvvv" (EScale (-1302083 # 1000000000) (EEins "ijef,klab,mncdghop,eamn,fbcd->ijklghop" [(EVar "t2"); (EVar "t2"); (EVar "t4"); (EVar "t_dag"); (EVar "t_dag")]));
   (*L278*) SAug true "roooovvvv" (EScale (20833333 # 1000000000) (EEins "ijef,kmab,lncdghop,fbcd,eamn->ijklghop" [(EVar "t2"); (EVar "t2"); (EVar "t4"); (EVar "t_dag"); (EVar "t_dag")]));
   (*L279*) SAug true "roooovvvv" (EScale (-2604167 # 1000000000) (EEins "ijef,kmab,lncdghop,abcd,efmn->ijklghop" [(EVar "t2"); (EVar "t2"); (EVar "t4"); (EVar "t_dag"); (EVar "t_dag")]));
   (*L280*) SAug true "roooovvvv" (EScale (-2604167 # 1000000000) (EEins "ijef,mnab,klcdghop,efmc,abnd->ijklghop" [(EVar "t2"); (EVar "t2"); (EVar "t4"); (EVar "t_dag"); (EVar "t_dag")]));
   (*L281*) SAug true "roooovvvv" (EScale (10416667 # 1000000000) (EEins "ijef,mnab,klcdghop,eamc,fbnd->ijklghop" [(EVar "t2"); (EVar "t2"); (EVar "t4"); (EVar "t_dag"); (EVar "t_dag")]));
   (*L282*) SAug true "roooovvvv" (EScale (-2604167 # 1000000000) (EEins "ijef,mnab,klcdghop,eacd,fbmn->ijklghop" [(EVar "t2"); (EVar "t2"); (EVar "t4"); (EVar "t_dag"); (EVar "t_dag")]));
   (*L283*) SAug true "roooovvvv" (EScale (-5208333 # 1000000000) (EEins "imef,jnab,klcdghop,efnc,abmd->ijklghop" [(EVar "t2"); (EVar "t2"); (EVar "t4"); (EVar "t_dag"); (EVar "t_dag")]));
   (*L284*) SAug true "roooovvvv" (EScale (20833333 # 1000000000) (EEins "imef,jnab,klcdghop,eanc,fbmd->ijklghop" [(EVar "t2"); (EVar "t2"); (EVar "t4"); (EVar "t_dag"); (EVar "t_dag")]));
   (*L285*) SAug true "roooovvvv" (EScale (5208333 # 1000000000) (EEins "imef,jnab,klcdghop,eacd,fbmn->ijklghop" [(EVar "t2"); (EVar "t2"); (EVar "t4"); (EVar "t_dag"); (EVar "t_dag")]));
   (*L286*) SAug true "roooovvvv" (EScale (-108507 # 125000000) (EEins "imef,nabc,jkldghop,efna,bcmd->ijklghop" [(EVar "t2"); (EVar "t2"); (EVar "t4"); (EVar "t_dag"); (EVar "t_dag")]));
   (*L287*) SAug true "roooovvvv" (EScale (1736111 # 500000000) (EEins "imef,nabc,jkldghop,fcna,ebmd->ijklghop" [(EVar "t2"); (EVar "t2"); (EVar "t4"); (EVar "t_dag"); (EVar "t_dag")]));
   (*L288*) SAug true "roooovvvv" (EScale (1736111 # 1000000000) (EEins "imef,nabc,jkldghop,efnd,bcma->ijklghop" [(EVar "t2"); (EVar "t2"); (EVar "t4"); (EVar "t_dag"); (EVar "t_dag")]));
   (*L289*) SAug true "roooovvvv" (EScale (-1736111 # 250000000) (EEins "imef,nabc,jkldghop,ebnd,fcma->ijklghop" [(EVar "t2"); (EVar "t2"); (EVar "t4"); (EVar "t_dag"); (EVar "t_dag")]))]
  (*L290*) (EVar "roooovvvv").
