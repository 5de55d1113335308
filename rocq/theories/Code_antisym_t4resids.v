(** Generated by tools/transcribe.py from /repo/UT2/antisym_t4resids.py; do not edit. *)
From Coq Require Import String List QArith.
From Verif Require Import Interp.
Import ListNotations.
Open Scope string_scope.

(** /repo/UT2/antisym_t4resids.py:125-132  def antisymmetrize_residual_2_2 *)
Definition antisymmetrize_residual_2_2 : fn := mkFn
  ["Roovv"; "nocc"; "nvir"]
  [(*L127*) SAssign "Roovv_anti" (EZeros [(EVar "nocc"); (EVar "nocc"); (EVar "nvir"); (EVar "nvir")]);
   (*L128*) SAug true "Roovv_anti" (EEins "ijab->ijab" [(EVar "Roovv")]);
   (*L129*) SAug false "Roovv_anti" (EEins "ijab->jiab" [(EVar "Roovv")]);
   (*L130*) SAug false "Roovv_anti" (EEins "ijab->ijba" [(EVar "Roovv")]);
   (*L131*) SAug true "Roovv_anti" (EEins "ijab->jiba" [(EVar "Roovv")])]
  (*L132*) (EVar "Roovv_anti").

(** /repo/UT2/antisym_t4resids.py:134-147  def antisym_A *)
Definition antisym_A : fn := mkFn
  ["A"; "nocc"; "nvirt"]
  [(*L135*) SAssign "A_vvv_voo" (EScale (1 # 1) (EEins "ijabcf->ijabcf" [(EVar "A")]));
   (*L136*) SAug true "A_vvv_voo" (EScale (-1 # 1) (EEins "ijabcf->ijacbf" [(EVar "A")]));
   (*L137*) SAug true "A_vvv_voo" (EScale (-1 # 1) (EEins "ijabcf->ijbacf" [(EVar "A")]));
   (*L138*) SAug true "A_vvv_voo" (EScale (1 # 1) (EEins "ijabcf->ijbcaf" [(EVar "A")]));
   (*L139*) SAug true "A_vvv_voo" (EScale (-1 # 1) (EEins "ijabcf->ijcbaf" [(EVar "A")]));
   (*L140*) SAug true "A_vvv_voo" (EScale (1 # 1) (EEins "ijabcf->ijcabf" [(EVar "A")]));
   (*L141*) SAug true "A_vvv_voo" (EScale (-1 # 1) (EEins "ijabcf->jiabcf" [(EVar "A")]));
   (*L142*) SAug true "A_vvv_voo" (EScale (1 # 1) (EEins "ijabcf->jiacbf" [(EVar "A")]));
   (*L143*) SAug true "A_vvv_voo" (EScale (1 # 1) (EEins "ijabcf->jibacf" [(EVar "A")]));
   (*L144*) SAug true "A_vvv_voo" (EScale (-1 # 1) (EEins "ijabcf->jibcaf" [(EVar "A")]));
   (*L145*) SAug true "A_vvv_voo" (EScale (1 # 1) (EEins "ijabcf->jicbaf" [(EVar "A")]));
   (*L146*) SAug true "A_vvv_voo" (EScale (-1 # 1) (EEins "ijabcf->jicabf" [(EVar "A")]))]
  (*L147*) (EVar "A_vvv_voo").

(** /repo/UT2/antisym_t4resids.py:149-198  def antisym_T3 *)
Definition antisym_T3 : fn := mkFn
  ["Roooovvvv"]
  [(*L150*) SAssign "Roooovvvv_anti" (EScale (1 # 1) (EEins "ijabcd->ijabcd" [(EVar "Roooovvvv")]));
   (*L151*) SAug true "Roooovvvv_anti" (EScale (-1 # 1) (EEins "ijabcd->ijabdc" [(EVar "Roooovvvv")]));
   (*L152*) SAug true "Roooovvvv_anti" (EScale (-1 # 1) (EEins "ijabcd->ijacbd" [(EVar "Roooovvvv")]));
   (*L153*) SAug true "Roooovvvv_anti" (EScale (1 # 1) (EEins "ijabcd->ijacdb" [(EVar "Roooovvvv")]));
   (*L154*) SAug true "Roooovvvv_anti" (EScale (-1 # 1) (EEins "ijabcd->ijadcb" [(EVar "Roooovvvv")]));
   (*L155*) SAug true "Roooovvvv_anti" (EScale (1 # 1) (EEins "ijabcd->ijadbc" [(EVar "Roooovvvv")]));
   (*L156*) SAug true "Roooovvvv_anti" (EScale (-1 # 1) (EEins "ijabcd->ijbacd" [(EVar "Roooovvvv")]));
   (*L157*) SAug true "Roooovvvv_anti" (EScale (1 # 1) (EEins "ijabcd->ijbadc" [(EVar "Roooovvvv")]));
   (*L158*) SAug true "Roooovvvv_anti" (EScale (1 # 1) (EEins "ijabcd->ijbcad" [(EVar "Roooovvvv")]));
   (*L159*) SAug true "Roooovvvv_anti" (EScale (-1 # 1) (EEins "ijabcd->ijbcda" [(EVar "Roooovvvv")]));
   (*L160*) SAug true "Roooovvvv_anti" (EScale (1 # 1) (EEins "ijabcd->ijbdca" [(EVar "Roooovvvv")]));
   (*L161*) SAug true "Roooovvvv_anti" (EScale (-1 # 1) (EEins "ijabcd->ijbdac" [(EVar "Roooovvvv")]));
   (*L162*) SAug true "Roooovvvv_anti" (EScale (-1 # 1) (EEins "ijabcd->ijcbad" [(EVar "Roooovvvv")]));
   (*L163*) SAug true "Roooovvvv_anti" (EScale (1 # 1) (EEins "ijabcd->ijcbda" [(EVar "Roooovvvv")]));
   (*L164*) SAug true "Roooovvvv_anti" (EScale (1 # 1) (EEins "ijabcd->ijcabd" [(EVar "Roooovvvv")]));
   (*L165*) SAug true "Roooovvvv_anti" (EScale (-1 # 1) (EEins "ijabcd->ijcadb" [(EVar "Roooovvvv")]));
   (*L166*) SAug true "Roooovvvv_anti" (EScale (1 # 1) (EEins "ijabcd->ijcdab" [(EVar "Roooovvvv")]));
   (*L167*) SAug true "Roooovvvv_anti" (EScale (-1 # 1) (EEins "ijabcd->ijcdba" [(EVar "Roooovvvv")]));
   (*L168*) SAug true "Roooovvvv_anti" (EScale (-1 # 1) (EEins "ijabcd->ijdbca" [(EVar "Roooovvvv")]));
   (*L169*) SAug true "Roooovvvv_anti" (EScale (1 # 1) (EEins "ijabcd->ijdbac" [(EVar "Roooovvvv")]));
   (*L170*) SAug true "Roooovvvv_anti" (EScale (1 # 1) (EEins "ijabcd->ijdcba" [(EVar "Roooovvvv")]));
   (*L171*) SAug true "Roooovvvv_anti" (EScale (-1 # 1) (EEins "ijabcd->ijdcab" [(EVar "Roooovvvv")]));
   (*L172*) SAug true "Roooovvvv_anti" (EScale (1 # 1) (EEins "ijabcd->ijdacb" [(EVar "Roooovvvv")]));
   (*L173*) SAug true "Roooovvvv_anti" (EScale (-1 # 1) (EEins "ijabcd->ijdabc" [(EVar "Roooovvvv")]));
   (*L174*) SAug true "Roooovvvv_anti" (EScale (-1 # 1) (EEins "ijabcd->jiabcd" [(EVar "Roooovvvv")]));
   (*L175*) SAug true "Roooovvvv_anti" (EScale (1 # 1) (EEins "ijabcd->jiabdc" [(EVar "Roooovvvv")]));
   (*L176*) SAug true "Roooovvvv_anti" (EScale (1 # 1) (EEins "ijabcd->jiacbd" [(EVar "Roooovvvv")]));
   (*L177*) SAug true "Roooovvvv_anti" (EScale (-1 # 1) (EEins "ijabcd->jiacdb" [(EVar "Roooovvvv")]));
   (*L178*) SAug true "Roooovvvv_anti" (EScale (1 # 1) (EEins "ijabcd->jiadcb" [(EVar "Roooovvvv")]));
   (*L179*) SAug true "Roooovvvv_anti" (EScale (-1 # 1) (EEins "ijabcd->jiadbc" [(EVar "Roooovvvv")]));
   (*L180*) SAug true "Roooovvvv_anti" (EScale (1 # 1) (EEins "ijabcd->jibacd" [(EVar "Roooovvvv")]));
   (*L181*) SAug true "Roooovvvv_anti" (EScale (-1 # 1) (EEins "ijabcd->jibadc" [(EVar "Roooovvvv")]));
   (*L182*) SAug true "Roooovvvv_anti" (EScale (-1 # 1) (EEins "ijabcd->jibcad" [(EVar "Roooovvvv")]));
   (*L183*) SAug true "Roooovvvv_anti" (EScale (1 # 1) (EEins "ijabcd->jibcda" [(EVar "Roooovvvv")]));
   (*L184*) SAug true "Roooovvvv_anti" (EScale (-1 # 1) (EEins "ijabcd->jibdca" [(EVar "Roooovvvv")]));
   (*L185*) SAug true "Roooovvvv_anti" (EScale (1 # 1) (EEins "ijabcd->jibdac" [(EVar "Roooovvvv")]));
   (*L186*) SAug true "Roooovvvv_anti" (EScale (1 # 1) (EEins "ijabcd->jicbad" [(EVar "Roooovvvv")]));
   (*L187*) SAug true "Roooovvvv_anti" (EScale (-1 # 1) (EEins "ijabcd->jicbda" [(EVar "Roooovvvv")]));
   (*L188*) SAug true "Roooovvvv_anti" (EScale (-1 # 1) (EEins "ijabcd->jicabd" [(EVar "Roooovvvv")]));
   (*L189*) SAug true "Roooovvvv_anti" (EScale (1 # 1) (EEins "ijabcd->jicadb" [(EVar "Roooovvvv")]));
   (*L190*) SAug true "Roooovvvv_anti" (EScale (-1 # 1) (EEins "ijabcd->jicdab" [(EVar "Roooovvvv")]));
   (*L191*) SAug true "Roooovvvv_anti" (EScale (1 # 1) (EEins "ijabcd->jicdba" [(EVar "Roooovvvv")]));
   (*L192*) SAug true "Roooovvvv_anti" (EScale (1 # 1) (EEins "ijabcd->jidbca" [(EVar "Roooovvvv")]));
   (*L193*) SAug true "Roooovvvv_anti" (EScale (-1 # 1) (EEins "ijabcd->jidbac" [(EVar "Roooovvvv")]));
   (*L194*) SAug true "Roooovvvv_anti" (EScale (-1 # 1) (EEins "ijabcd->jidcba" [(EVar "Roooovvvv")]));
   (*L195*) SAug true "Roooovvvv_anti" (EScale (1 # 1) (EEins "ijabcd->jidcab" [(EVar "Roooovvvv")]));
   (*L196*) SAug true "Roooovvvv_anti" (EScale (-1 # 1) (EEins "ijabcd->jidacb" [(EVar "Roooovvvv")]));
   (*L197*) SAug true "Roooovvvv_anti" (EScale (1 # 1) (EEins "ijabcd->jidabc" [(EVar "Roooovvvv")]))]
  (*L198*) (EVar "Roooovvvv_anti").

(** /repo/UT2/antisym_t4resids.py:200-212  def fifth_orderINTERMEDmain_L212 *)
Definition fifth_orderINTERMEDmain_L212 : fn := mkFn
  ["t2"; "v_vv"; "v_vo"; "nocc"; "nvirt"]
  [(*L201*) SAssign "A_abc_ijf" (EScale (-1 # 4) (EEins "ijae,debc->ijdabc" [(EVar "t2"); (EVar "v_vv")]));
   (*L202*) SAssign "antiAA" (EVar "A_abc_ijf");
   (*L204*) SAssign "S_c_f" (EScale (-1 # 4) (EEins "ijbacd,cdij->ba" [(EVar "antiAA"); (EVar "v_vo")]));
   (*L206*) SAssign "B_cd_kl" (EScale (-1 # 2) (EEins "ca,ijbc->ijab" [(EVar "S_c_f"); (EVar "t2")]));
   (*L208*) SAssign "netT2" (ECall "antisymmetrize_residual_2_2" [(EVar "B_cd_kl"); (EVar "nocc"); (EVar "nvirt")]);
   (*L210*) SAssign "energy" (EScale (-1 # 4) (EEins "ijab,abij->" [(EVar "netT2"); (EVar "v_vo")]))]
  (*L212*) (EVar "energy").

(** /repo/UT2/antisym_t4resids.py:251-264  def xccd_6 *)
Definition xccd_6 : fn := mkFn
  ["ccd_kernel"; "g"; "t2_aa"; "o"; "v"; "nocc"; "nvir"; "g2"]
  [(*L252*) SAssign "Roooovvvv" (EZeros [(EVar "nocc"); (EVar "nocc"); (EVar "nocc"); (EVar "nocc"); (EVar "nvir"); (EVar "nvir"); (EVar "nvir"); (EVar "nvir")]);
   (*L253*) SAssign "t" (ETransp (EVar "t2_aa") [2; 3; 0; 1]%nat);
   (*L254*) SAssign "v_oo" (ESlice (EVar "g") [SV "o"; SV "o"; SV "o"; SV "o"]);
   (*L255*) SAssign "v_vo" (ESlice (EVar "g") [SV "o"; SV "v"; SV "o"; SV "v"]);
   (*L256*) SAssign "v_vv" (ESlice (EVar "g") [SV "v"; SV "v"; SV "v"; SV "v"]);
   (*L257*) SAssign "v_m2" (ESlice (EVar "g") [SV "v"; SV "v"; SV "o"; SV "o"]);
   (*L259*) SAssign "Roooovvvv_t23" (EScale (-1 # 32) (EEins "imab,jncd,klef,efmn->ijklabcd" [(EVar "t"); (EVar "t"); (EVar "t"); (EVar "v_m2")]));
   (*L260*) SAug true "Roooovvvv_t23" (EScale (1 # 4) (EEins "imab,jkce,lndf,efmn->ijklabcd" [(EVar "t"); (EVar "t"); (EVar "t"); (EVar "v_m2")]));
   (*L261*) SAug true "Roooovvvv_t23" (EScale (-1 # 32) (EEins "mnab,ijce,kldf,efmn->ijklabcd" [(EVar "t"); (EVar "t"); (EVar "t"); (EVar "v_m2")]));
   (*L263*) SAssign "Roooovvvv" (ECall "antisym_t4_residual" [(EVar "Roooovvvv"); (EVar "nocc"); (EVar "nvir")])]
  (*L264*) (EVar "Roooovvvv").

(** /repo/UT2/antisym_t4resids.py:475-1054  def antisym_t4_residual *)
Definition antisym_t4_residual : fn := mkFn
  ["Roooovvvv"; "nocc"; "nvirt"]
  [(*L476*) SAssign "Roooovvvv_anti" (EZeros [(EVar "nocc"); (EVar "nocc"); (EVar "nocc"); (EVar "nocc"); (EVar "nvirt"); (EVar "nvirt"); (EVar "nvirt"); (EVar "nvirt")]);
   (*L478*) SAssign "Roooovvvv_anti" (EScale (1 # 1) (EEins "ijklabcd->ijklabcd" [(EVar "Roooovvvv")]));
   (*L479*) SAug true "Roooovvvv_anti" (EScale (-1 # 1) (EEins "ijklabcd->ijklabdc" [(EVar "Roooovvvv")]));
   (*L480*) SAug true "Roooovvvv_anti" (EScale (-1 # 1) (EEins "ijklabcd->ijklacbd" [(EVar "Roooovvvv")]));
   (*L481*) SAug true "Roooovvvv_anti" (EScale (1 # 1) (EEins "ijklabcd->ijklacdb" [(EVar "Roooovvvv")]));
   (*L482*) SAug true "Roooovvvv_anti" (EScale (-1 # 1) (EEins "ijklabcd->ijkladcb" [(EVar "Roooovvvv")]));
   (*L483*) SAug true "Roooovvvv_anti" (EScale (1 # 1) (EEins "ijklabcd->ijkladbc" [(EVar "Roooovvvv")]));
   (*L484*) SAug true "Roooovvvv_anti" (EScale (-1 # 1) (EEins "ijklabcd->ijklbacd" [(EVar "Roooovvvv")]));
   (*L485*) SAug true "Roooovvvv_anti" (EScale (1 # 1) (EEins "ijklabcd->ijklbadc" [(EVar "Roooovvvv")]));
   (*L486*) SAug true "Roooovvvv_anti" (EScale (1 # 1) (EEins "ijklabcd->ijklbcad" [(EVar "Roooovvvv")]));
   (*L487*) SAug true "Roooovvvv_anti" (EScale (-1 # 1) (EEins "ijklabcd->ijklbcda" [(EVar "Roooovvvv")]));
   (*L488*) SAug true "Roooovvvv_anti" (EScale (1 # 1) (EEins "ijklabcd->ijklbdca" [(EVar "Roooovvvv")]));
   (*L489*) SAug true "Roooovvvv_anti" (EScale (-1 # 1) (EEins "ijklabcd->ijklbdac" [(EVar "Roooovvvv")]));
   (*L490*) SAug true "Roooovvvv_anti" (EScale (-1 # 1) (EEins "ijklabcd->ijklcbad" [(EVar "Roooovvvv")]));
   (*L491*) SAug true "Roooovvvv_anti" (EScale (1 # 1) (EEins "ijklabcd->ijklcbda" [(EVar "Roooovvvv")]));
   (*L492*) SAug true "Roooovvvv_anti" (EScale (1 # 1) (EEins "ijklabcd->ijklcabd" [(EVar "Roooovvvv")]));
   (*L493*) SAug true "Roooovvvv_anti" (EScale (-1 # 1) (EEins "ijklabcd->ijklcadb" [(EVar "Roooovvvv")]));
   (*L494*) SAug true "Roooovvvv_anti" (EScale (1 # 1) (EEins "ijklabcd->ijklcdab" [(EVar "Roooovvvv")]));
   (*L495*) SAug true "Roooovvvv_anti" (EScale (-1 # 1) (EEins "ijklabcd->ijklcdba" [(EVar "Roooovvvv")]));
   (*L496*) SAug true "Roooovvvv_anti" (EScale (-1 # 1) (EEins "ijklabcd->ijkldbca" [(EVar "Roooovvvv")]));
   (*L497*) SAug true "Roooovvvv_anti" (EScale (1 # 1) (EEins "ijklabcd->ijkldbac" [(EVar "Roooovvvv")]));
   (*L498*) SAug true "Roooovvvv_anti" (EScale (1 # 1) (EEins "ijklabcd->ijkldcba" [(EVar "Roooovvvv")]));
   (*L499*) SAug true "Roooovvvv_anti" (EScale (-1 # 1) (EEins "ijklabcd->ijkldcab" [(EVar "Roooovvvv")]));
   (*L500*) SAug true "Roooovvvv_anti" (EScale (1 # 1) (EEins "ijklabcd->ijkldacb" [(EVar "Roooovvvv")]));
   (*L501*) SAug true "Roooovvvv_anti" (EScale (-1 # 1) (EEins "ijklabcd->ijkldabc" [(EVar "Roooovvvv")]));
   (*L502*) SAug true "Roooovvvv_anti" (EScale (-1 # 1) (EEins "ijklabcd->ijlkabcd" [(EVar "Roooovvvv")]));
   (*L503*) SAug true "Roooovvvv_anti" (EScale (1 # 1) (EEins "ijklabcd->ijlkabdc" [(EVar "Roooovvvv")]));
   (*L504*) SAug true "Roooovvvv_anti" (EScale (1 # 1) (EEins "ijklabcd->ijlkacbd" [(EVar "Roooovvvv")]));
   (*L505*) SAug true "Roooovvvv_anti" (EScale (-1 # 1) (EEins "ijklabcd->ijlkacdb" [(EVar "Roooovvvv")]));
   (*L506*) SAug true "Roooovvvv_anti" (EScale (1 # 1) (EEins "ijklabcd->ijlkadcb" [(EVar "Roooovvvv")]));
   (*L507*) SAug true "Roooovvvv_anti" (EScale (-1 # 1) (EEins "ijklabcd->ijlkadbc" [(EVar "Roooovvvv")]));
   (*L508*) SAug true "Roooovvvv_anti" (EScale (1 # 1) (EEins "ijklabcd->ijlkbacd" [(EVar "Roooovvvv")]));
   (*L509*) SAug true "Roooovvvv_anti" (EScale (-1 # 1) (EEins "ijklabcd->ijlkbadc" [(EVar "Roooovvvv")]));
   (*L510*) SAug true "Roooovvvv_anti" (EScale (-1 # 1) (EEins "ijklabcd->ijlkbcad" [(EVar "Roooovvvv")]));
   (*L511*) SAug true "Roooovvvv_anti" (EScale (1 # 1) (EEins "ijklabcd->ijlkbcda" [(EVar "Roooovvvv")]));
   (*L512*) SAug true "Roooovvvv_anti" (EScale (-1 # 1) (EEins "ijklabcd->ijlkbdca" [(EVar "Roooovvvv")]));
   (*L513*) SAug true "Roooovvvv_anti" (EScale (1 # 1) (EEins "ijklabcd->ijlkbdac" [(EVar "Roooovvvv")]));
   (*L514*) SAug true "Roooovvvv_anti" (EScale (1 # 1) (EEins "ijklabcd->ijlkcbad" [(EVar "Roooovvvv")]));
   (*L515*) SAug true "Roooovvvv_anti" (EScale (-1 # 1) (EEins "ijklabcd->ijlkcbda" [(EVar "Roooovvvv")]));
   (*L516*) SAug true "Roooovvvv_anti" (EScale (-1 # 1) (EEins "ijklabcd->ijlkcabd" [(EVar "Roooovvvv")]));
   (*L517*) SAug true "Roooovvvv_anti" (EScale (1 # 1) (EEins "ijklabcd->ijlkcadb" [(EVar "Roooovvvv")]));
   (*L518*) SAug true "Roooovvvv_anti" (EScale (-1 # 1) (EEins "ijklabcd->ijlkcdab" [(EVar "Roooovvvv")]));
   (*L519*) SAug true "Roooovvvv_anti" (EScale (1 # 1) (EEins "ijklabcd->ijlkcdba" [(EVar "Roooovvvv")]));
   (*L520*) SAug true "Roooovvvv_anti" (EScale (1 # 1) (EEins "ijklabcd->ijlkdbca" [(EVar "Roooovvvv")]));
   (*L521*) SAug true "Roooovvvv_anti" (EScale (-1 # 1) (EEins "ijklabcd->ijlkdbac" [(EVar "Roooovvvv")]));
   (*L522*) SAug true "Roooovvvv_anti" (EScale (-1 # 1) (EEins "ijklabcd->ijlkdcba" [(EVar "Roooovvvv")]));
   (*L523*) SAug true "Roooovvvv_anti" (EScale (1 # 1) (EEins "ijklabcd->ijlkdcab" [(EVar "Roooovvvv")]));
   (*L524*) SAug true "Roooovvvv_anti" (EScale (-1 # 1) (EEins "ijklabcd->ijlkdacb" [(EVar "Roooovvvv")]));
   (*L525*) SAug true "Roooovvvv_anti" (EScale (1 # 1) (EEins "ijklabcd->ijlkdabc" [(EVar "Roooovvvv")]));
   (*L526*) SAug true "Roooovvvv_anti" (EScale (-1 # 1) (EEins "ijklabcd->ikjlabcd" [(EVar "Roooovvvv")]));
   (*L527*) SAug true "Roooovvvv_anti" (EScale (1 # 1) (EEins "ijklabcd->ikjlabdc" [(EVar "Roooovvvv")]));
   (*L528*) SAug true "Roooovvvv_anti" (EScale (1 # 1) (EEins "ijklabcd->ikjlacbd" [(EVar "Roooovvvv")]));
   (*L529*) SAug true "Roooovvvv_anti" (EScale (-1 # 1) (EEins "ijklabcd->ikjlacdb" [(EVar "Roooovvvv")]));
   (*L530*) SAug true "Roooovvvv_anti" (EScale (1 # 1) (EEins "ijklabcd->ikjladcb" [(EVar "Roooovvvv")]));
   (*L531*) SAug true "Roooovvvv_anti" (EScale (-1 # 1) (EEins "ijklabcd->ikjladbc" [(EVar "Roooovvvv")]));
   (*L532*) SAug true "Roooovvvv_anti" (EScale (1 # 1) (EEins "ijklabcd->ikjlbacd" [(EVar "Roooovvvv")]));
   (*L533*) SAug true "Roooovvvv_anti" (EScale (-1 # 1) (EEins "ijklabcd->ikjlbadc" [(EVar "Roooovvvv")]));
   (*L534*) SAug true "Roooovvvv_anti" (EScale (-1 # 1) (EEins "ijklabcd->ikjlbcad" [(EVar "Roooovvvv")]));
   (*L535*) SAug true "Roooovvvv_anti" (EScale (1 # 1) (EEins "ijklabcd->ikjlbcda" [(EVar "Roooovvvv")]));
   (*L536*) SAug true "Roooovvvv_anti" (EScale (-1 # 1) (EEins "ijklabcd->ikjlbdca" [(EVar "Roooovvvv")]));
   (*L537*) SAug true "Roooovvvv_anti" (EScale (1 # 1) (EEins "ijklabcd->ikjlbdac" [(EVar "Roooovvvv")]));
   (*L538*) SAug true "Roooovvvv_anti" (EScale (1 # 1) (EEins "ijklabcd->ikjlcbad" [(EVar "Roooovvvv")]));
   (*L539*) SAug true "Roooovvvv_anti" (EScale (-1 # 1) (EEins "ijklabcd->ikjlcbda" [(EVar "Roooovvvv")]));
   (*L540*) SAug true "Roooovvvv_anti" (EScale (-1 # 1) (EEins "ijklabcd->ikjlcabd" [(EVar "Roooovvvv")]));
   (*L541*) SAug true "Roooovvvv_anti" (EScale (1 # 1) (EEins "ijklabcd->ikjlcadb" [(EVar "Roooovvvv")]));
   (*L542*) SAug true "Roooovvvv_anti" (EScale (-1 # 1) (EEins "ijklabcd->ikjlcdab" [(EVar "Roooovvvv")]));
   (*L543*) SAug true "Roooovvvv_anti" (EScale (1 # 1) (EEins "ijklabcd->ikjlcdba" [(EVar "Roooovvvv")]));
   (*L544*) SAug true "Roooovvvv_anti" (EScale (1 # 1) (EEins "ijklabcd->ikjldbca" [(EVar "Roooovvvv")]));
   (*L545*) SAug true "Roooovvvv_anti" (EScale (-1 # 1) (EEins "ijklabcd->ikjldbac" [(EVar "Roooovvvv")]));
   (*L546*) SAug true "Roooovvvv_anti" (EScale (-1 # 1) (EEins "ijklabcd->ikjldcba" [(EVar "Roooovvvv")]));
   (*L547*) SAug true "Roooovvvv_anti" (EScale (1 # 1) (EEins "ijklabcd->ikjldcab" [(EVar "Roooovvvv")]));
   (*L548*) SAug true "Roooovvvv_anti" (EScale (-1 # 1) (EEins "ijklabcd->ikjldacb" [(EVar "Roooovvvv")]));
   (*L549*) SAug true "Roooovvvv_anti" (EScale (1 # 1) (EEins "ijklabcd->ikjldabc" [(EVar "Roooovvvv")]));
   (*L550*) SAug true "Roooovvvv_anti" (EScale (1 # 1) (EEins "ijklabcd->ikljabcd" [(EVar "Roooovvvv")]));
   (*L551*) SAug true "Roooovvvv_anti" (EScale (-1 # 1) (EEins "ijklabcd->ikljabdc" [(EVar "Roooovvvv")]));
   (*L552*) SAug true "Roooovvvv_anti" (EScale (-1 # 1) (EEins "ijklabcd->ikljacbd" [(EVar "Roooovvvv")]));
   (*L553*) SAug true "Roooovvvv_anti" (EScale (1 # 1) (EEins "ijklabcd->ikljacdb" [(EVar "Roooovvvv")]));
   (*L554*) SAug true "Roooovvvv_anti" (EScale (-1 # 1) (EEins "ijklabcd->ikljadcb" [(EVar "Roooovvvv")]));
   (*L555*) SAug true "Roooovvvv_anti" (EScale (1 # 1) (EEins "ijklabcd->ikljadbc" [(EVar "Roooovvvv")]));
   (*L556*) SAug true "Roooovvvv_anti" (EScale (-1 # 1) (EEins "ijklabcd->ikljbacd" [(EVar "Roooovvvv")]));
   (*L557*) SAug true "Roooovvvv_anti" (EScale (1 # 1) (EEins "ijklabcd->ikljbadc" [(EVar "Roooovvvv")]));
   (*L558*) SAug true "Roooovvvv_anti" (EScale (1 # 1) (EEins "ijklabcd->ikljbcad" [(EVar "Roooovvvv")]));
   (*L559*) SAug true "Roooovvvv_anti" (EScale (-1 # 1) (EEins "ijklabcd->ikljbcda" [(EVar "Roooovvvv")]));
   (*L560*) SAug true "Roooovvvv_anti" (EScale (1 # 1) (EEins "ijklabcd->ikljbdca" [(EVar "Roooovvvv")]));
   (*L561*) SAug true "Roooovvvv_anti" (EScale (-1 # 1) (EEins "ijklabcd->ikljbdac" [(EVar "Roooovvvv")]));
   (*L562*) SAug true "Roooovvvv_anti" (EScale (-1 # 1) (EEins "ijklabcd->ikljcbad" [(EVar "Roooovvvv")]));
   (*L563*) SAug true "Roooovvvv_anti" (EScale (1 # 1) (EEins "ijklabcd->ikljcbda" [(EVar "Roooovvvv")]));
   (*L564*) SAug true "Roooovvvv_anti" (EScale (1 # 1) (EEins "ijklabcd->ikljcabd" [(EVar "Roooovvvv")]));
   (*L565*) SAug true "Roooovvvv_anti" (EScale (-1 # 1) (EEins "ijklabcd->ikljcadb" [(EVar "Roooovvvv")]));
   (*L566*) SAug true "Roooovvvv_anti" (EScale (1 # 1) (EEins "ijklabcd->ikljcdab" [(EVar "Roooovvvv")]));
   (*L567*) SAug true "Roooovvvv_anti" (EScale (-1 # 1) (EEins "ijklabcd->ikljcdba" [(EVar "Roooovvvv")]));
   (*L568*) SAug true "Roooovvvv_anti" (EScale (-1 # 1) (EEins "ijklabcd->ikljdbca" [(EVar "Roooovvvv")]));
   (*L569*) SAug true "Roooovvvv_anti" (EScale (1 # 1) (EEins "ijklabcd->ikljdbac" [(EVar "Roooovvvv")]));
   (*L570*) SAug true "Roooovvvv_anti" (EScale (1 # 1) (EEins "ijklabcd->ikljdcba" [(EVar "Roooovvvv")]));
   (*L571*) SAug true "Roooovvvv_anti" (EScale (-1 # 1) (EEins "ijklabcd->ikljdcab" [(EVar "Roooovvvv")]));
   (*L572*) SAug true "Roooovvvv_anti" (EScale (1 # 1) (EEins "ijklabcd->ikljdacb" [(EVar "Roooovvvv")]));
   (*L573*) SAug true "Roooovvvv_anti" (EScale (-1 # 1) (EEins "ijklabcd->ikljdabc" [(EVar "Roooovvvv")]));
   (*L574*) SAug true "Roooovvvv_anti" (EScale (-1 # 1) (EEins "ijklabcd->ilkjabcd" [(EVar "Roooovvvv")]));
   (*L575*) SAug true "Roooovvvv_anti" (EScale (1 # 1) (EEins "ijklabcd->ilkjabdc" [(EVar "Roooovvvv")]));
   (*L576*) SAug true "Roooovvvv_anti" (EScale (1 # 1) (EEins "ijklabcd->ilkjacbd" [(EVar "Roooovvvv")]));
   (*L577*) SAug true "Roooovvvv_anti" (EScale (-1 # 1) (EEins "ijklabcd->ilkjacdb" [(EVar "Roooovvvv")]));
   (*L578*) SAug true "Roooovvvv_anti" (EScale (1 # 1) (EEins "ijklabcd->ilkjadcb" [(EVar "Roooovvvv")]));
   (*L579*) SAug true "Roooovvvv_anti" (EScale (-1 # 1) (EEins "ijklabcd->ilkjadbc" [(EVar "Roooovvvv")]));
   (*L580*) SAug true "Roooovvvv_anti" (EScale (1 # 1) (EEins "ijklabcd->ilkjbacd" [(EVar "Roooovvvv")]));
   (*L581*) SAug true "Roooovvvv_anti" (EScale (-1 # 1) (EEins "ijklabcd->ilkjbadc" [(EVar "Roooovvvv")]));
   (*L582*) SAug true "Roooovvvv_anti" (EScale (-1 # 1) (EEins "ijklabcd->ilkjbcad" [(EVar "Roooovvvv")]));
   (*L583*) SAug true "Roooovvvv_anti" (EScale (1 # 1) (EEins "ijklabcd->ilkjbcda" [(EVar "Roooovvvv")]));
   (*L584*) SAug true "Roooovvvv_anti" (EScale (-1 # 1) (EEins "ijklabcd->ilkjbdca" [(EVar "Roooovvvv")]));
   (*L585*) SAug true "Roooovvvv_anti" (EScale (1 # 1) (EEins "ijklabcd->ilkjbdac" [(EVar "Roooovvvv")]));
   (*L586*) SAug true "Roooovvvv_anti" (EScale (1 # 1) (EEins "ijklabcd->ilkjcbad" [(EVar "Roooovvvv")]));
   (*L587*) SAug true "Roooovvvv_anti" (EScale (-1 # 1) (EEins "ijklabcd->ilkjcbda" [(EVar "Roooovvvv")]));
   (*L588*) SAug true "Roooovvvv_anti" (EScale (-1 # 1) (EEins "ijklabcd->ilkjcabd" [(EVar "Roooovvvv")]));
   (*L589*) SAug true "Roooovvvv_anti" (EScale (1 # 1) (EEins "ijklabcd->ilkjcadb" [(EVar "Roooovvvv")]));
   (*L590*) SAug true "Roooovvvv_anti" (EScale (-1 # 1) (EEins "ijklabcd->ilkjcdab" [(EVar "Roooovvvv")]));
   (*L591*) SAug true "Roooovvvv_anti" (EScale (1 # 1) (EEins "ijklabcd->ilkjcdba" [(EVar "Roooovvvv")]));
   (*L592*) SAug true "Roooovvvv_anti" (EScale (1 # 1) (EEins "ijklabcd->ilkjdbca" [(EVar "Roooovvvv")]));
   (*L593*) SAug true "Roooovvvv_anti" (EScale (-1 # 1) (EEins "ijklabcd->ilkjdbac" [(EVar "Roooovvvv")]));
   (*L594*) SAug true "Roooovvvv_anti" (EScale (-1 # 1) (EEins "ijklabcd->ilkjdcba" [(EVar "Roooovvvv")]));
   (*L595*) SAug true "Roooovvvv_anti" (EScale (1 # 1) (EEins "ijklabcd->ilkjdcab" [(EVar "Roooovvvv")]));
   (*L596*) SAug true "Roooovvvv_anti" (EScale (-1 # 1) (EEins "ijklabcd->ilkjdacb" [(EVar "Roooovvvv")]));
   (*L597*) SAug true "Roooovvvv_anti" (EScale (1 # 1) (EEins "ijklabcd->ilkjdabc" [(EVar "Roooovvvv")]));
   (*L598*) SAug true "Roooovvvv_anti" (EScale (1 # 1) (EEins "ijklabcd->iljkabcd" [(EVar "Roooovvvv")]));
   (*L599*) SAug true "Roooovvvv_anti" (EScale (-1 # 1) (EEins "ijklabcd->iljkabdc" [(EVar "Roooovvvv")]));
   (*L600*) SAug true "Roooovvvv_anti" (EScale (-1 # 1) (EEins "ijklabcd->iljkacbd" [(EVar "Roooovvvv")]));
   (*L601*) SAug true "Roooovvvv_anti" (EScale (1 # 1) (EEins "ijklabcd->iljkacdb" [(EVar "Roooovvvv")]));
   (*L602*) SAug true "Roooovvvv_anti" (EScale (-1 # 1) (EEins "ijklabcd->iljkadcb" [(EVar "Roooovvvv")]));
   (*L603*) SAug true "Roooovvvv_anti" (EScale (1 # 1) (EEins "ijklabcd->iljkadbc" [(EVar "Roooovvvv")]));
   (*L604*) SAug true "Roooovvvv_anti" (EScale (-1 # 1) (EEins "ijklabcd->iljkbacd" [(EVar "Roooovvvv")]));
   (*L605*) SAug true "Roooovvvv_anti" (EScale (1 # 1) (EEins "ijklabcd->iljkbadc" [(EVar "Roooovvvv")]));
   (*L606*) SAug true "Roooovvvv_anti" (EScale (1 # 1) (EEins "ijklabcd->iljkbcad" [(EVar "Roooovvvv")]));
   (*L607*) SAug true "Roooovvvv_anti" (EScale (-1 # 1) (EEins "ijklabcd->iljkbcda" [(EVar "Roooovvvv")]));
   (*L608*) SAug true "Roooovvvv_anti" (EScale (1 # 1) (EEins "ijklabcd->iljkbdca" [(EVar "Roooovvvv")]));
   (*L609*) SAug true "Roooovvvv_anti" (EScale (-1 # 1) (EEins "ijklabcd->iljkbdac" [(EVar "Roooovvvv")]));
   (*L610*) SAug true "Roooovvvv_anti" (EScale (-1 # 1) (EEins "ijklabcd->iljkcbad" [(EVar "Roooovvvv")]));
   (*L611*) SAug true "Roooovvvv_anti" (EScale (1 # 1) (EEins "ijklabcd->iljkcbda" [(EVar "Roooovvvv")]));
   (*L612*) SAug true "Roooovvvv_anti" (EScale (1 # 1) (EEins "ijklabcd->iljkcabd" [(EVar "Roooovvvv")]));
   (*L613*) SAug true "Roooovvvv_anti" (EScale (-1 # 1) (EEins "ijklabcd->iljkcadb" [(EVar "Roooovvvv")]));
   (*L614*) SAug true "Roooovvvv_anti" (EScale (1 # 1) (EEins "ijklabcd->iljkcdab" [(EVar "Roooovvvv")]));
   (*L615*) SAug true "Roooovvvv_anti" (EScale (-1 # 1) (EEins "ijklabcd->iljkcdba" [(EVar "Roooovvvv")]));
   (*L616*) SAug true "Roooovvvv_anti" (EScale (-1 # 1) (EEins "ijklabcd->iljkdbca" [(EVar "Roooovvvv")]));
   (*L617*) SAug true "Roooovvvv_anti" (EScale (1 # 1) (EEins "ijklabcd->iljkdbac" [(EVar "Roooovvvv")]));
   (*L618*) SAug true "Roooovvvv_anti" (EScale (1 # 1) (EEins "ijklabcd->iljkdcba" [(EVar "Roooovvvv")]));
   (*L619*) SAug true "Roooovvvv_anti" (EScale (-1 # 1) (EEins "ijklabcd->iljkdcab" [(EVar "Roooovvvv")]));
   (*L620*) SAug true "Roooovvvv_anti" (EScale (1 # 1) (EEins "ijklabcd->iljkdacb" [(EVar "Roooovvvv")]));
   (*L621*) SAug true "Roooovvvv_anti" (EScale (-1 # 1) (EEins "ijklabcd->iljkdabc" [(EVar "Roooovvvv")]));
   (*L622*) SAug true "Roooovvvv_anti" (EScale (-1 # 1) (EEins "ijklabcd->jiklabcd" [(EVar "Roooovvvv")]));
   (*L623*) SAug true "Roooovvvv_anti" (EScale (1 # 1) (EEins "ijklabcd->jiklabdc" [(EVar "Roooovvvv")]));
   (*L624*) SAug true "Roooovvvv_anti" (EScale (1 # 1) (EEins "ijklabcd->jiklacbd" [(EVar "Roooovvvv")]));
   (*L625*) SAug true "Roooovvvv_anti" (EScale (-1 # 1) (EEins "ijklabcd->jiklacdb" [(EVar "Roooovvvv")]));
   (*L626*) SAug true "Roooovvvv_anti" (EScale (1 # 1) (EEins "ijklabcd->jikladcb" [(EVar "Roooovvvv")]));
   (*L627*) SAug true "Roooovvvv_anti" (EScale (-1 # 1) (EEins "ijklabcd->jikladbc" [(EVar "Roooovvvv")]));
   (*L628*) SAug true "Roooovvvv_anti" (EScale (1 # 1) (EEins "ijklabcd->jiklbacd" [(EVar "Roooovvvv")]));
   (*L629*) SAug true "Roooovvvv_anti" (EScale (-1 # 1) (EEins "ijklabcd->jiklbadc" [(EVar "Roooovvvv")]));
   (*L630*) SAug true "Roooovvvv_anti" (EScale (-1 # 1) (EEins "ijklabcd->jiklbcad" [(EVar "Roooovvvv")]));
   (*L631*) SAug true "Roooovvvv_anti" (EScale (1 # 1) (EEins "ijklabcd->jiklbcda" [(EVar "Roooovvvv")]));
   (*L632*) SAug true "Roooovvvv_anti" (EScale (-1 # 1) (EEins "ijklabcd->jiklbdca" [(EVar "Roooovvvv")]));
   (*L633*) SAug true "Roooovvvv_anti" (EScale (1 # 1) (EEins "ijklabcd->jiklbdac" [(EVar "Roooovvvv")]));
   (*L634*) SAug true "Roooovvvv_anti" (EScale (1 # 1) (EEins "ijklabcd->jiklcbad" [(EVar "Roooovvvv")]));
   (*L635*) SAug true "Roooovvvv_anti" (EScale (-1 # 1) (EEins "ijklabcd->jiklcbda" [(EVar "Roooovvvv")]));
   (*L636*) SAug true "Roooovvvv_anti" (EScale (-1 # 1) (EEins "ijklabcd->jiklcabd" [(EVar "Roooovvvv")]));
   (*L637*) SAug true "Roooovvvv_anti" (EScale (1 # 1) (EEins "ijklabcd->jiklcadb" [(EVar "Roooovvvv")]));
   (*L638*) SAug true "Roooovvvv_anti" (EScale (-1 # 1) (EEins "ijklabcd->jiklcdab" [(EVar "Roooovvvv")]));
   (*L639*) SAug true "Roooovvvv_anti" (EScale (1 # 1) (EEins "ijklabcd->jiklcdba" [(EVar "Roooovvvv")]));
   (*L640*) SAug true "Roooovvvv_anti" (EScale (1 # 1) (EEins "ijklabcd->jikldbca" [(EVar "Roooovvvv")]));
   (*L641*) SAug true "Roooovvvv_anti" (EScale (-1 # 1) (EEins "ijklabcd->jikldbac" [(EVar "Roooovvvv")]));
   (*L642*) SAug true "Roooovvvv_anti" (EScale (-1 # 1) (EEins "ijklabcd->jikldcba" [(EVar "Roooovvvv")]));
   (*L643*) SAug true "Roooovvvv_anti" (EScale (1 # 1) (EEins "ijklabcd->jikldcab" [(EVar "Roooovvvv")]));
   (*L644*) SAug true "Roooovvvv_anti" (EScale (-1 # 1) (EEins "ijklabcd->jikldacb" [(EVar "Roooovvvv")]));
   (*L645*) SAug true "Roooovvvv_anti" (EScale (1 # 1) (EEins "ijklabcd->jikldabc" [(EVar "Roooovvvv")]));
   (*L646*) SAug true "Roooovvvv_anti" (EScale (1 # 1) (EEins "ijklabcd->jilkabcd" [(EVar "Roooovvvv")]));
   (*L647*) SAug true "Roooovvvv_anti" (EScale (-1 # 1) (EEins "ijklabcd->jilkabdc" [(EVar "Roooovvvv")]));
   (*L648*) SAug true "Roooovvvv_anti" (EScale (-1 # 1) (EEins "ijklabcd->jilkacbd" [(EVar "Roooovvvv")]));
   (*L649*) SAug true "Roooovvvv_anti" (EScale (1 # 1) (EEins "ijklabcd->jilkacdb" [(EVar "Roooovvvv")]));
   (*L650*) SAug true "Roooovvvv_anti" (EScale (-1 # 1) (EEins "ijklabcd->jilkadcb" [(EVar "Roooovvvv")]));
   (*L651*) SAug true "Roooovvvv_anti" (EScale (1 # 1) (EEins "ijklabcd->jilkadbc" [(EVar "Roooovvvv")]));
   (*L652*) SAug true "Roooovvvv_anti" (EScale (-1 # 1) (EEins "ijklabcd->jilkbacd" [(EVar "Roooovvvv")]));
   (*L653*) SAug true "Roooovvvv_anti" (EScale (1 # 1) (EEins "ijklabcd->jilkbadc" [(EVar "Roooovvvv")]));
   (*L654*) SAug true "Roooovvvv_anti" (EScale (1 # 1) (EEins "ijklabcd->jilkbcad" [(EVar "Roooovvvv")]));
   (*L655*) SAug true "Roooovvvv_anti" (EScale (-1 # 1) (EEins "ijklabcd->jilkbcda" [(EVar "Roooovvvv")]));
   (*L656*) SAug true "Roooovvvv_anti" (EScale (1 # 1) (EEins "ijklabcd->jilkbdca" [(EVar "Roooovvvv")]));
   (*L657*) SAug true "Roooovvvv_anti" (EScale (-1 # 1) (EEins "ijklabcd->jilkbdac" [(EVar "Roooovvvv")]));
   (*L658*) SAug true "Roooovvvv_anti" (EScale (-1 # 1) (EEins "ijklabcd->jilkcbad" [(EVar "Roooovvvv")]));
   (*L659*) SAug true "Roooovvvv_anti" (EScale (1 # 1) (EEins "ijklabcd->jilkcbda" [(EVar "Roooovvvv")]));
   (*L660*) SAug true "Roooovvvv_anti" (EScale (1 # 1) (EEins "ijklabcd->jilkcabd" [(EVar "Roooovvvv")]));
   (*L661*) SAug true "Roooovvvv_anti" (EScale (-1 # 1) (EEins "ijklabcd->jilkcadb" [(EVar "Roooovvvv")]));
   (*L662*) SAug true "Roooovvvv_anti" (EScale (1 # 1) (EEins "ijklabcd->jilkcdab" [(EVar "Roooovvvv")]));
   (*L663*) SAug true "Roooovvvv_anti" (EScale (-1 # 1) (EEins "ijklabcd->jilkcdba" [(EVar "Roooovvvv")]));
   (*L664*) SAug true "Roooovvvv_anti" (EScale (-1 # 1) (EEins "ijklabcd->jilkdbca" [(EVar "Roooovvvv")]));
   (*L665*) SAug true "Roooovvvv_anti" (EScale (1 # 1) (EEins "ijklabcd->jilkdbac" [(EVar "Roooovvvv")]));
   (*L666*) SAug true "Roooovvvv_anti" (EScale (1 # 1) (EEins "ijklabcd->jilkdcba" [(EVar "Roooovvvv")]));
   (*L667*) SAug true "Roooovvvv_anti" (EScale (-1 # 1) (EEins "ijklabcd->jilkdcab" [(EVar "Roooovvvv")]));
   (*L668*) SAug true "Roooovvvv_anti" (EScale (1 # 1) (EEins "ijklabcd->jilkdacb" [(EVar "Roooovvvv")]));
   (*L669*) SAug true "Roooovvvv_anti" (EScale (-1 # 1) (EEins "ijklabcd->jilkdabc" [(EVar "Roooovvvv")]));
   (*L670*) SAug true "Roooovvvv_anti" (EScale (1 # 1) (EEins "ijklabcd->jkilabcd" [(EVar "Roooovvvv")]));
   (*L671*) SAug true "Roooovvvv_anti" (EScale (-1 # 1) (EEins "ijklabcd->jkilabdc" [(EVar "Roooovvvv")]));
   (*L672*) SAug true "Roooovvvv_anti" (EScale (-1 # 1) (EEins "ijklabcd->jkilacbd" [(EVar "Roooovvvv")]));
   (*L673*) SAug true "Roooovvvv_anti" (EScale (1 # 1) (EEins "ijklabcd->jkilacdb" [(EVar "Roooovvvv")]));
   (*L674*) SAug true "Roooovvvv_anti" (EScale (-1 # 1) (EEins "ijklabcd->jkiladcb" [(EVar "Roooovvvv")]));
   (*L675*) SAug true "Roooovvvv_anti" (EScale (1 # 1) (EEins "ijklabcd->jkiladbc" [(EVar "Roooovvvv")]));
   (*L676*) SAug true "Roooovvvv_anti" (EScale (-1 # 1) (EEins "ijklabcd->jkilbacd" [(EVar "Roooovvvv")]));
   (*L677*) SAug true "Roooovvvv_anti" (EScale (1 # 1) (EEins "ijklabcd->jkilbadc" [(EVar "Roooovvvv")]));
   (*L678*) SAug true "Roooovvvv_anti" (EScale (1 # 1) (EEins "ijklabcd->jkilbcad" [(EVar "Roooovvvv")]));
   (*L679*) SAug true "Roooovvvv_anti" (EScale (-1 # 1) (EEins "ijklabcd->jkilbcda" [(EVar "Roooovvvv")]));
   (*L680*) SAug true "Roooovvvv_anti" (EScale (1 # 1) (EEins "ijklabcd->jkilbdca" [(EVar "Roooovvvv")]));
   (*L681*) SAug true "Roooovvvv_anti" (EScale (-1 # 1) (EEins "ijklabcd->jkilbdac" [(EVar "Roooovvvv")]));
   (*L682*) SAug true "Roooovvvv_anti" (EScale (-1 # 1) (EEins "ijklabcd->jkilcbad" [(EVar "Roooovvvv")]));
   (*L683*) SAug true "Roooovvvv_anti" (EScale (1 # 1) (EEins "ijklabcd->jkilcbda" [(EVar "Roooovvvv")]));
   (*L684*) SAug true "Roooovvvv_anti" (EScale (1 # 1) (EEins "ijklabcd->jkilcabd" [(EVar "Roooovvvv")]));
   (*L685*) SAug true "Roooovvvv_anti" (EScale (-1 # 1) (EEins "ijklabcd->jkilcadb" [(EVar "Roooovvvv")]));
   (*L686*) SAug true "Roooovvvv_anti" (EScale (1 # 1) (EEins "ijklabcd->jkilcdab" [(EVar "Roooovvvv")]));
   (*L687*) SAug true "Roooovvvv_anti" (EScale (-1 # 1) (EEins "ijklabcd->jkilcdba" [(EVar "Roooovvvv")]));
   (*L688*) SAug true "Roooovvvv_anti" (EScale (-1 # 1) (EEins "ijklabcd->jkildbca" [(EVar "Roooovvvv")]));
   (*L689*) SAug true "Roooovvvv_anti" (EScale (1 # 1) (EEins "ijklabcd->jkildbac" [(EVar "Roooovvvv")]));
   (*L690*) SAug true "Roooovvvv_anti" (EScale (1 # 1) (EEins "ijklabcd->jkildcba" [(EVar "Roooovvvv")]));
   (*L691*) SAug true "Roooovvvv_anti" (EScale (-1 # 1) (EEins "ijklabcd->jkildcab" [(EVar "Roooovvvv")]));
   (*L692*) SAug true "Roooovvvv_anti" (EScale (1 # 1) (EEins "ijklabcd->jkildacb" [(EVar "Roooovvvv")]));
   (*L693*) SAug true "Roooovvvv_anti" (EScale (-1 # 1) (EEins "ijklabcd->jkildabc" [(EVar "Roooovvvv")]));
   (*L694*) SAug true "Roooovvvv_anti" (EScale (-1 # 1) (EEins "ijklabcd->jkliabcd" [(EVar "Roooovvvv")]));
   (*L695*) SAug true "Roooovvvv_anti" (EScale (1 # 1) (EEins "ijklabcd->jkliabdc" [(EVar "Roooovvvv")]));
   (*L696*) SAug true "Roooovvvv_anti" (EScale (1 # 1) (EEins "ijklabcd->jkliacbd" [(EVar "Roooovvvv")]));
   (*L697*) SAug true "Roooovvvv_anti" (EScale (-1 # 1) (EEins "ijklabcd->jkliacdb" [(EVar "Roooovvvv")]));
   (*L698*) SAug true "Roooovvvv_anti" (EScale (1 # 1) (EEins "ijklabcd->jkliadcb" [(EVar "Roooovvvv")]));
   (*L699*) SAug true "Roooovvvv_anti" (EScale (-1 # 1) (EEins "ijklabcd->jkliadbc" [(EVar "Roooovvvv")]));
   (*L700*) SAug true "Roooovvvv_anti" (EScale (1 # 1) (EEins "ijklabcd->jklibacd" [(EVar "Roooovvvv")]));
   (*L701*) SAug true "Roooovvvv_anti" (EScale (-1 # 1) (EEins "ijklabcd->jklibadc" [(EVar "Roooovvvv")]));
   (*L702*) SAug true "Roooovvvv_anti" (EScale (-1 # 1) (EEins "ijklabcd->jklibcad" [(EVar "Roooovvvv")]));
   (*L703*) SAug true "Roooovvvv_anti" (EScale (1 # 1) (EEins "ijklabcd->jklibcda" [(EVar "Roooovvvv")]));
   (*L704*) SAug true "Roooovvvv_anti" (EScale (-1 # 1) (EEins "ijklabcd->jklibdca" [(EVar "Roooovvvv")]));
   (*L705*) SAug true "Roooovvvv_anti" (EScale (1 # 1) (EEins "ijklabcd->jklibdac" [(EVar "Roooovvvv")]));
   (*L706*) SAug true "Roooovvvv_anti" (EScale (1 # 1) (EEins "ijklabcd->jklicbad" [(EVar "Roooovvvv")]));
   (*L707*) SAug true "Roooovvvv_anti" (EScale (-1 # 1) (EEins "ijklabcd->jklicbda" [(EVar "Roooovvvv")]));
   (*L708*) SAug true "Roooovvvv_anti" (EScale (-1 # 1) (EEins "ijklabcd->jklicabd" [(EVar "Roooovvvv")]));
   (*L709*) SAug true "Roooovvvv_anti" (EScale (1 # 1) (EEins "ijklabcd->jklicadb" [(EVar "Roooovvvv")]));
   (*L710*) SAug true "Roooovvvv_anti" (EScale (-1 # 1) (EEins "ijklabcd->jklicdab" [(EVar "Roooovvvv")]));
   (*L711*) SAug true "Roooovvvv_anti" (EScale (1 # 1) (EEins "ijklabcd->jklicdba" [(EVar "Roooovvvv")]));
   (*L712*) SAug true "Roooovvvv_anti" (EScale (1 # 1) (EEins "ijklabcd->jklidbca" [(EVar "Roooovvvv")]));
   (*L713*) SAug true "Roooovvvv_anti" (EScale (-1 # 1) (EEins "ijklabcd->jklidbac" [(EVar "Roooovvvv")]));
   (*L714*) SAug true "Roooovvvv_anti" (EScale (-1 # 1) (EEins "ijklabcd->jklidcba" [(EVar "Roooovvvv")]));
   (*L715*) SAug true "Roooovvvv_anti" (EScale (1 # 1) (EEins "ijklabcd->jklidcab" [(EVar "Roooovvvv")]));
   (*L716*) SAug true "Roooovvvv_anti" (EScale (-1 # 1) (EEins "ijklabcd->jklidacb" [(EVar "Roooovvvv")]));
   (*L717*) SAug true "Roooovvvv_anti" (EScale (1 # 1) (EEins "ijklabcd->jklidabc" [(EVar "Roooovvvv")]));
   (*L718*) SAug true "Roooovvvv_anti" (EScale (1 # 1) (EEins "ijklabcd->jlkiabcd" [(EVar "Roooovvvv")]));
   (*L719*) SAug true "Roooovvvv_anti" (EScale (-1 # 1) (EEins "ijklabcd->jlkiabdc" [(EVar "Roooovvvv")]));
   (*L720*) SAug true "Roooovvvv_anti" (EScale (-1 # 1) (EEins "ijklabcd->jlkiacbd" [(EVar "Roooovvvv")]));
   (*L721*) SAug true "Roooovvvv_anti" (EScale (1 # 1) (EEins "ijklabcd->jlkiacdb" [(EVar "Roooovvvv")]));
   (*L722*) SAug true "Roooovvvv_anti" (EScale (-1 # 1) (EEins "ijklabcd->jlkiadcb" [(EVar "Roooovvvv")]));
   (*L723*) SAug true "Roooovvvv_anti" (EScale (1 # 1) (EEins "ijklabcd->jlkiadbc" [(EVar "Roooovvvv")]));
   (*L724*) SAug true "Roooovvvv_anti" (EScale (-1 # 1) (EEins "ijklabcd->jlkibacd" [(EVar "Roooovvvv")]));
   (*L725*) SAug true "Roooovvvv_anti" (EScale (1 # 1) (EEins "ijklabcd->jlkibadc" [(EVar "Roooovvvv")]));
   (*L726*) SAug true "Roooovvvv_anti" (EScale (1 # 1) (EEins "ijklabcd->jlkibcad" [(EVar "Roooovvvv")]));
   (*L727*) SAug true "Roooovvvv_anti" (EScale (-1 # 1) (EEins "ijklabcd->jlkibcda" [(EVar "Roooovvvv")]));
   (*L728*) SAug true "Roooovvvv_anti" (EScale (1 # 1) (EEins "ijklabcd->jlkibdca" [(EVar "Roooovvvv")]));
   (*L729*) SAug true "Roooovvvv_anti" (EScale (-1 # 1) (EEins "ijklabcd->jlkibdac" [(EVar "Roooovvvv")]));
   (*L730*) SAug true "Roooovvvv_anti" (EScale (-1 # 1) (EEins "ijklabcd->jlkicbad" [(EVar "Roooovvvv")]));
   (*L731*) SAug true "Roooovvvv_anti" (EScale (1 # 1) (EEins "ijklabcd->jlkicbda" [(EVar "Roooovvvv")]));
   (*L732*) SAug true "Roooovvvv_anti" (EScale (1 # 1) (EEins "ijklabcd->jlkicabd" [(EVar "Roooovvvv")]));
   (*L733*) SAug true "Roooovvvv_anti" (EScale (-1 # 1) (EEins "ijklabcd->jlkicadb" [(EVar "Roooovvvv")]));
   (*L734*) SAug true "Roooovvvv_anti" (EScale (1 # 1) (EEins "ijklabcd->jlkicdab" [(EVar "Roooovvvv")]));
   (*L735*) SAug true "Roooovvvv_anti" (EScale (-1 # 1) (EEins "ijklabcd->jlkicdba" [(EVar "Roooovvvv")]));
   (*L736*) SAug true "Roooovvvv_anti" (EScale (-1 # 1) (EEins "ijklabcd->jlkidbca" [(EVar "Roooovvvv")]));
   (*L737*) SAug true "Roooovvvv_anti" (EScale (1 # 1) (EEins "ijklabcd->jlkidbac" [(EVar "Roooovvvv")]));
   (*L738*) SAug true "Roooovvvv_anti" (EScale (1 # 1) (EEins "ijklabcd->jlkidcba" [(EVar "Roooovvvv")]));
   (*L739*) SAug true "Roooovvvv_anti" (EScale (-1 # 1) (EEins "ijklabcd->jlkidcab" [(EVar "Roooovvvv")]));
   (*L740*) SAug true "Roooovvvv_anti" (EScale (1 # 1) (EEins "ijklabcd->jlkidacb" [(EVar "Roooovvvv")]));
   (*L741*) SAug true "Roooovvvv_anti" (EScale (-1 # 1) (EEins "ijklabcd->jlkidabc" [(EVar "Roooovvvv")]));
   (*L742*) SAug true "Roooovvvv_anti" (EScale (-1 # 1) (EEins "ijklabcd->jlikabcd" [(EVar "Roooovvvv")]));
   (*L743*) SAug true "Roooovvvv_anti" (EScale (1 # 1) (EEins "ijklabcd->jlikabdc" [(EVar "Roooovvvv")]));
   (*L744*) SAug true "Roooovvvv_anti" (EScale (1 # 1) (EEins "ijklabcd->jlikacbd" [(EVar "Roooovvvv")]));
   (*L745*) SAug true "Roooovvvv_anti" (EScale (-1 # 1) (EEins "ijklabcd->jlikacdb" [(EVar "Roooovvvv")]));
   (*L746*) SAug true "Roooovvvv_anti" (EScale (1 # 1) (EEins "ijklabcd->jlikadcb" [(EVar "Roooovvvv")]));
   (*L747*) SAug true "Roooovvvv_anti" (EScale (-1 # 1) (EEins "ijklabcd->jlikadbc" [(EVar "Roooovvvv")]));
   (*L748*) SAug true "Roooovvvv_anti" (EScale (1 # 1) (EEins "ijklabcd->jlikbacd" [(EVar "Roooovvvv")]));
   (*L749*) SAug true "Roooovvvv_anti" (EScale (-1 # 1) (EEins "ijklabcd->jlikbadc" [(EVar "Roooovvvv")]));
   (*L750*) SAug true "Roooovvvv_anti" (EScale (-1 # 1) (EEins "ijklabcd->jlikbcad" [(EVar "Roooovvvv")]));
   (*L751*) SAug true "Roooovvvv_anti" (EScale (1 # 1) (EEins "ijklabcd->jlikbcda" [(EVar "Roooovvvv")]));
   (*L752*) SAug true "Roooovvvv_anti" (EScale (-1 # 1) (EEins "ijklabcd->jlikbdca" [(EVar "Roooovvvv")]));
   (*L753*) SAug true "Roooovvvv_anti" (EScale (1 # 1) (EEins "ijklabcd->jlikbdac" [(EVar "Roooovvvv")]));
   (*L754*) SAug true "Roooovvvv_anti" (EScale (1 # 1) (EEins "ijklabcd->jlikcbad" [(EVar "Roooovvvv")]));
   (*L755*) SAug true "Roooovvvv_anti" (EScale (-1 # 1) (EEins "ijklabcd->jlikcbda" [(EVar "Roooovvvv")]));
   (*L756*) SAug true "Roooovvvv_anti" (EScale (-1 # 1) (EEins "ijklabcd->jlikcabd" [(EVar "Roooovvvv")]));
   (*L757*) SAug true "Roooovvvv_anti" (EScale (1 # 1) (EEins "ijklabcd->jlikcadb" [(EVar "Roooovvvv")]));
   (*L758*) SAug true "Roooovvvv_anti" (EScale (-1 # 1) (EEins "ijklabcd->jlikcdab" [(EVar "Roooovvvv")]));
   (*L759*) SAug true "Roooovvvv_anti" (EScale (1 # 1) (EEins "ijklabcd->jlikcdba" [(EVar "Roooovvvv")]));
   (*L760*) SAug true "Roooovvvv_anti" (EScale (1 # 1) (EEins "ijklabcd->jlikdbca" [(EVar "Roooovvvv")]));
   (*L761*) SAug true "Roooovvvv_anti" (EScale (-1 # 1) (EEins "ijklabcd->jlikdbac" [(EVar "Roooovvvv")]));
   (*L762*) SAug true "Roooovvvv_anti" (EScale (-1 # 1) (EEins "ijklabcd->jlikdcba" [(EVar "Roooovvvv")]));
   (*L763*) SAug true "Roooovvvv_anti" (EScale (1 # 1) (EEins "ijklabcd->jlikdcab" [(EVar "Roooovvvv")]));
   (*L764*) SAug true "Roooovvvv_anti" (EScale (-1 # 1) (EEins "ijklabcd->jlikdacb" [(EVar "Roooovvvv")]));
   (*L765*) SAug true "Roooovvvv_anti" (EScale (1 # 1) (EEins "ijklabcd->jlikdabc" [(EVar "Roooovvvv")]));
   (*L766*) SAug true "Roooovvvv_anti" (EScale (-1 # 1) (EEins "ijklabcd->kjilabcd" [(EVar "Roooovvvv")]));
   (*L767*) SAug true "Roooovvvv_anti" (EScale (1 # 1) (EEins "ijklabcd->kjilabdc" [(EVar "Roooovvvv")]));
   (*L768*) SAug true "Roooovvvv_anti" (EScale (1 # 1) (EEins "ijklabcd->kjilacbd" [(EVar "Roooovvvv")]));
   (*L769*) SAug true "Roooovvvv_anti" (EScale (-1 # 1) (EEins "ijklabcd->kjilacdb" [(EVar "Roooovvvv")]));
   (*L770*) SAug true "Roooovvvv_anti" (EScale (1 # 1) (EEins "ijklabcd->kjiladcb" [(EVar "Roooovvvv")]));
   (*L771*) SAug true "Roooovvvv_anti" (EScale (-1 # 1) (EEins "ijklabcd->kjiladbc" [(EVar "Roooovvvv")]));
   (*L772*) SAug true "Roooovvvv_anti" (EScale (1 # 1) (EEins "ijklabcd->kjilbacd" [(EVar "Roooovvvv")]));
   (*L773*) SAug true "Roooovvvv_anti" (EScale (-1 # 1) (EEins "ijklabcd->kjilbadc" [(EVar "Roooovvvv")]));
   (*L774*) SAug true "Roooovvvv_anti" (EScale (-1 # 1) (EEins "ijklabcd->kjilbcad" [(EVar "Roooovvvv")]));
   (*L775*) SAug true "Roooovvvv_anti" (EScale (1 # 1) (EEins "ijklabcd->kjilbcda" [(EVar "Roooovvvv")]));
   (*L776*) SAug true "Roooovvvv_anti" (EScale (-1 # 1) (EEins "ijklabcd->kjilbdca" [(EVar "Roooovvvv")]));
   (*L777*) SAug true "Roooovvvv_anti" (EScale (1 # 1) (EEins "ijklabcd->kjilbdac" [(EVar "Roooovvvv")]));
   (*L778*) SAug true "Roooovvvv_anti" (EScale (1 # 1) (EEins "ijklabcd->kjilcbad" [(EVar "Roooovvvv")]));
   (*L779*) SAug true "Roooovvvv_anti" (EScale (-1 # 1) (EEins "ijklabcd->kjilcbda" [(EVar "Roooovvvv")]));
   (*L780*) SAug true "Roooovvvv_anti" (EScale (-1 # 1) (EEins "ijklabcd->kjilcabd" [(EVar "Roooovvvv")]));
   (*L781*) SAug true "Roooovvvv_anti" (EScale (1 # 1) (EEins "ijklabcd->kjilcadb" [(EVar "Roooovvvv")]));
   (*L782*) SAug true "Roooovvvv_anti" (EScale (-1 # 1) (EEins "ijklabcd->kjilcdab" [(EVar "Roooovvvv")]));
   (*L783*) SAug true "Roooovvvv_anti" (EScale (1 # 1) (EEins "ijklabcd->kjilcdba" [(EVar "Roooovvvv")]));
   (*L784*) SAug true "Roooovvvv_anti" (EScale (1 # 1) (EEins "ijklabcd->kjildbca" [(EVar "Roooovvvv")]));
   (*L785*) SAug true "Roooovvvv_anti" (EScale (-1 # 1) (EEins "ijklabcd->kjildbac" [(EVar "Roooovvvv")]));
   (*L786*) SAug true "Roooovvvv_anti" (EScale (-1 # 1) (EEins "ijklabcd->kjildcba" [(EVar "Roooovvvv")]));
   (*L787*) SAug true "Roooovvvv_anti" (EScale (1 # 1) (EEins "ijklabcd->kjildcab" [(EVar "Roooovvvv")]));
   (*L788*) SAug true "Roooovvvv_anti" (EScale (-1 # 1) (EEins "ijklabcd->kjildacb" [(EVar "Roooovvvv")]));
   (*L789*) SAug true "Roooovvvv_anti" (EScale (1 # 1) (EEins "ijklabcd->kjildabc" [(EVar "Roooovvvv")]));
   (*L790*) SAug true "Roooovvvv_anti" (EScale (1 # 1) (EEins "ijklabcd->kjliabcd" [(EVar "Roooovvvv")]));
   (*L791*) SAug true "Roooovvvv_anti" (EScale (-1 # 1) (EEins "ijklabcd->kjliabdc" [(EVar "Roooovvvv")]));
   (*L792*) SAug true "Roooovvvv_anti" (EScale (-1 # 1) (EEins "ijklabcd->kjliacbd" [(EVar "Roooovvvv")]));
   (*L793*) SAug true "Roooovvvv_anti" (EScale (1 # 1) (EEins "ijklabcd->kjliacdb" [(EVar "Roooovvvv")]));
   (*L794*) SAug true "Roooovvvv_anti" (EScale (-1 # 1) (EEins "ijklabcd->kjliadcb" [(EVar "Roooovvvv")]));
   (*L795*) SAug true "Roooovvvv_anti" (EScale (1 # 1) (EEins "ijklabcd->kjliadbc" [(EVar "Roooovvvv")]));
   (*L796*) SAug true "Roooovvvv_anti" (EScale (-1 # 1) (EEins "ijklabcd->kjlibacd" [(EVar "Roooovvvv")]));
   (*L797*) SAug true "Roooovvvv_anti" (EScale (1 # 1) (EEins "ijklabcd->kjlibadc" [(EVar "Roooovvvv")]));
   (*L798*) SAug true "Roooovvvv_anti" (EScale (1 # 1) (EEins "ijklabcd->kjlibcad" [(EVar "Roooovvvv")]));
   (*L799*) SAug true "Roooovvvv_anti" (EScale (-1 # 1) (EEins "ijklabcd->kjlibcda" [(EVar "Roooovvvv")]));
   (*L800*) SAug true "Roooovvvv_anti" (EScale (1 # 1) (EEins "ijklabcd->kjlibdca" [(EVar "Roooovvvv")]));
   (*L801*) SAug true "Roooovvvv_anti" (EScale (-1 # 1) (EEins "ijklabcd->kjlibdac" [(EVar "Roooovvvv")]));
   (*L802*) SAug true "Roooovvvv_anti" (EScale (-1 # 1) (EEins "ijklabcd->kjlicbad" [(EVar "Roooovvvv")]));
   (*L803*) SAug true "Roooovvvv_anti" (EScale (1 # 1) (EEins "ijklabcd->kjlicbda" [(EVar "Roooovvvv")]));
   (*L804*) SAug true "Roooovvvv_anti" (EScale (1 # 1) (EEins "ijklabcd->kjlicabd" [(EVar "Roooovvvv")]));
   (*L805*) SAug true "Roooovvvv_anti" (EScale (-1 # 1) (EEins "ijklabcd->kjlicadb" [(EVar "Roooovvvv")]));
   (*L806*) SAug true "Roooovvvv_anti" (EScale (1 # 1) (EEins "ijklabcd->kjlicdab" [(EVar "Roooovvvv")]));
   (*L807*) SAug true "Roooovvvv_anti" (EScale (-1 # 1) (EEins "ijklabcd->kjlicdba" [(EVar "Roooovvvv")]));
   (*L808*) SAug true "Roooovvvv_anti" (EScale (-1 # 1) (EEins "ijklabcd->kjlidbca" [(EVar "Roooovvvv")]));
   (*L809*) SAug true "Roooovvvv_anti" (EScale (1 # 1) (EEins "ijklabcd->kjlidbac" [(EVar "Roooovvvv")]));
   (*L810*) SAug true "Roooovvvv_anti" (EScale (1 # 1) (EEins "ijklabcd->kjlidcba" [(EVar "Roooovvvv")]));
   (*L811*) SAug true "Roooovvvv_anti" (EScale (-1 # 1) (EEins "ijklabcd->kjlidcab" [(EVar "Roooovvvv")]));
   (*L812*) SAug true "Roooovvvv_anti" (EScale (1 # 1) (EEins "ijklabcd->kjlidacb" [(EVar "Roooovvvv")]));
   (*L813*) SAug true "Roooovvvv_anti" (EScale (-1 # 1) (EEins "ijklabcd->kjlidabc" [(EVar "Roooovvvv")]));
   (*L814*) SAug true "Roooovvvv_anti" (EScale (1 # 1) (EEins "ijklabcd->kijlabcd" [(EVar "Roooovvvv")]));
   (*L815*) SAug true "Roooovvvv_anti" (EScale (-1 # 1) (EEins "ijklabcd->kijlabdc" [(EVar "Roooovvvv")]));
   (*L816*) SAug true "Roooovvvv_anti" (EScale (-1 # 1) (EEins "ijklabcd->kijlacbd" [(EVar "Roooovvvv")]));
   (*L817*) SAug true "Roooovvvv_anti" (EScale (1 # 1) (EEins "ijklabcd->kijlacdb" [(EVar "Roooovvvv")]));
   (*L818*) SAug true "Roooovvvv_anti" (EScale (-1 # 1) (EEins "ijklabcd->kijladcb" [(EVar "Roooovvvv")]));
   (*L819*) SAug true "Roooovvvv_anti" (EScale (1 # 1) (EEins "ijklabcd->kijladbc" [(EVar "Roooovvvv")]));
   (*L820*) SAug true "Roooovvvv_anti" (EScale (-1 # 1) (EEins "ijklabcd->kijlbacd" [(EVar "Roooovvvv")]));
   (*L821*) SAug true "Roooovvvv_anti" (EScale (1 # 1) (EEins "ijklabcd->kijlbadc" [(EVar "Roooovvvv")]));
   (*L822*) SAug true "Roooovvvv_anti" (EScale (1 # 1) (EEins "ijklabcd->kijlbcad" [(EVar "Roooovvvv")]));
   (*L823*) SAug true "Roooovvvv_anti" (EScale (-1 # 1) (EEins "ijklabcd->kijlbcda" [(EVar "Roooovvvv")]));
   (*L824*) SAug true "Roooovvvv_anti" (EScale (1 # 1) (EEins "ijklabcd->kijlbdca" [(EVar "Roooovvvv")]));
   (*L825*) SAug true "Roooovvvv_anti" (EScale (-1 # 1) (EEins "ijklabcd->kijlbdac" [(EVar "Roooovvvv")]));
   (*L826*) SAug true "Roooovvvv_anti" (EScale (-1 # 1) (EEins "ijklabcd->kijlcbad" [(EVar "Roooovvvv")]));
   (*L827*) SAug true "Roooovvvv_anti" (EScale (1 # 1) (EEins "ijklabcd->kijlcbda" [(EVar "Roooovvvv")]));
   (*L828*) SAug true "Roooovvvv_anti" (EScale (1 # 1) (EEins "ijklabcd->kijlcabd" [(EVar "Roooovvvv")]));
   (*L829*) SAug true "Roooovvvv_anti" (EScale (-1 # 1) (EEins "ijklabcd->kijlcadb" [(EVar "Roooovvvv")]));
   (*L830*) SAug true "Roooovvvv_anti" (EScale (1 # 1) (EEins "ijklabcd->kijlcdab" [(EVar "Roooovvvv")]));
   (*L831*) SAug true "Roooovvvv_anti" (EScale (-1 # 1) (EEins "ijklabcd->kijlcdba" [(EVar "Roooovvvv")]));
   (*L832*) SAug true "Roooovvvv_anti" (EScale (-1 # 1) (EEins "ijklabcd->kijldbca" [(EVar "Roooovvvv")]));
   (*L833*) SAug true "Roooovvvv_anti" (EScale (1 # 1) (EEins "ijklabcd->kijldbac" [(EVar "Roooovvvv")]));
   (*L834*) SAug true "Roooovvvv_anti" (EScale (1 # 1) (EEins "ijklabcd->kijldcba" [(EVar "Roooovvvv")]));
   (*L835*) SAug true "Roooovvvv_anti" (EScale (-1 # 1) (EEins "ijklabcd->kijldcab" [(EVar "Roooovvvv")]));
   (*L836*) SAug true "Roooovvvv_anti" (EScale (1 # 1) (EEins "ijklabcd->kijldacb" [(EVar "Roooovvvv")]));
   (*L837*) SAug true "Roooovvvv_anti" (EScale (-1 # 1) (EEins "ijklabcd->kijldabc" [(EVar "Roooovvvv")]));
   (*L838*) SAug true "Roooovvvv_anti" (EScale (-1 # 1) (EEins "ijklabcd->kiljabcd" [(EVar "Roooovvvv")]));
   (*L839*) SAug true "Roooovvvv_anti" (EScale (1 # 1) (EEins "ijklabcd->kiljabdc" [(EVar "Roooovvvv")]));
   (*L840*) SAug true "Roooovvvv_anti" (EScale (1 # 1) (EEins "ijklabcd->kiljacbd" [(EVar "Roooovvvv")]));
   (*L841*) SAug true "Roooovvvv_anti" (EScale (-1 # 1) (EEins "ijklabcd->kiljacdb" [(EVar "Roooovvvv")]));
   (*L842*) SAug true "Roooovvvv_anti" (EScale (1 # 1) (EEins "ijklabcd->kiljadcb" [(EVar "Roooovvvv")]));
   (*L843*) SAug true "Roooovvvv_anti" (EScale (-1 # 1) (EEins "ijklabcd->kiljadbc" [(EVar "Roooovvvv")]));
   (*L844*) SAug true "Roooovvvv_anti" (EScale (1 # 1) (EEins "ijklabcd->kiljbacd" [(EVar "Roooovvvv")]));
   (*L845*) SAug true "Roooovvvv_anti" (EScale (-1 # 1) (EEins "ijklabcd->kiljbadc" [(EVar "Roooovvvv")]));
   (*L846*) SAug true "Roooovvvv_anti" (EScale (-1 # 1) (EEins "ijklabcd->kiljbcad" [(EVar "Roooovvvv")]));
   (*L847*) SAug true "Roooovvvv_anti" (EScale (1 # 1) (EEins "ijklabcd->kiljbcda" [(EVar "Roooovvvv")]));
   (*L848*) SAug true "Roooovvvv_anti" (EScale (-1 # 1) (EEins "ijklabcd->kiljbdca" [(EVar "Roooovvvv")]));
   (*L849*) SAug true "Roooovvvv_anti" (EScale (1 # 1) (EEins "ijklabcd->kiljbdac" [(EVar "Roooovvvv")]));
   (*L850*) SAug true "Roooovvvv_anti" (EScale (1 # 1) (EEins "ijklabcd->kiljcbad" [(EVar "Roooovvvv")]));
   (*L851*) SAug true "Roooovvvv_anti" (EScale (-1 # 1) (EEins "ijklabcd->kiljcbda" [(EVar "Roooovvvv")]));
   (*L852*) SAug true "Roooovvvv_anti" (EScale (-1 # 1) (EEins "ijklabcd->kiljcabd" [(EVar "Roooovvvv")]));
   (*L853*) SAug true "Roooovvvv_anti" (EScale (1 # 1) (EEins "ijklabcd->kiljcadb" [(EVar "Roooovvvv")]));
   (*L854*) SAug true "Roooovvvv_anti" (EScale (-1 # 1) (EEins "ijklabcd->kiljcdab" [(EVar "Roooovvvv")]));
   (*L855*) SAug true "Roooovvvv_anti" (EScale (1 # 1) (EEins "ijklabcd->kiljcdba" [(EVar "Roooovvvv")]));
   (*L856*) SAug true "Roooovvvv_anti" (EScale (1 # 1) (EEins "ijklabcd->kiljdbca" [(EVar "Roooovvvv")]));
   (*L857*) SAug true "Roooovvvv_anti" (EScale (-1 # 1) (EEins "ijklabcd->kiljdbac" [(EVar "Roooovvvv")]));
   (*L858*) SAug true "Roooovvvv_anti" (EScale (-1 # 1) (EEins "ijklabcd->kiljdcba" [(EVar "Roooovvvv")]));
   (*L859*) SAug true "Roooovvvv_anti" (EScale (1 # 1) (EEins "ijklabcd->kiljdcab" [(EVar "Roooovvvv")]));
   (*L860*) SAug true "Roooovvvv_anti" (EScale (-1 # 1) (EEins "ijklabcd->kiljdacb" [(EVar "Roooovvvv")]));
   (*L861*) SAug true "Roooovvvv_anti" (EScale (1 # 1) (EEins "ijklabcd->kiljdabc" [(EVar "Roooovvvv")]));
   (*L862*) SAug true "Roooovvvv_anti" (EScale (1 # 1) (EEins "ijklabcd->klijabcd" [(EVar "Roooovvvv")]));
   (*L863*) SAug true "Roooovvvv_anti" (EScale (-1 # 1) (EEins "ijklabcd->klijabdc" [(EVar "Roooovvvv")]));
   (*L864*) SAug true "Roooovvvv_anti" (EScale (-1 # 1) (EEins "ijklabcd->klijacbd" [(EVar "Roooovvvv")]));
   (*L865*) SAug true "Roooovvvv_anti" (EScale (1 # 1) (EEins "ijklabcd->klijacdb" [(EVar "Roooovvvv")]));
   (*L866*) SAug true "Roooovvvv_anti" (EScale (-1 # 1) (EEins "ijklabcd->klijadcb" [(EVar "Roooovvvv")]));
   (*L867*) SAug true "Roooovvvv_anti" (EScale (1 # 1) (EEins "ijklabcd->klijadbc" [(EVar "Roooovvvv")]));
   (*L868*) SAug true "Roooovvvv_anti" (EScale (-1 # 1) (EEins "ijklabcd->klijbacd" [(EVar "Roooovvvv")]));
   (*L869*) SAug true "Roooovvvv_anti" (EScale (1 # 1) (EEins "ijklabcd->klijbadc" [(EVar "Roooovvvv")]));
   (*L870*) SAug true "Roooovvvv_anti" (EScale (1 # 1) (EEins "ijklabcd->klijbcad" [(EVar "Roooovvvv")]));
   (*L871*) SAug true "Roooovvvv_anti" (EScale (-1 # 1) (EEins "ijklabcd->klijbcda" [(EVar "Roooovvvv")]));
   (*L872*) SAug true "Roooovvvv_anti" (EScale (1 # 1) (EEins "ijklabcd->klijbdca" [(EVar "Roooovvvv")]));
   (*L873*) SAug true "Roooovvvv_anti" (EScale (-1 # 1) (EEins "ijklabcd->klijbdac" [(EVar "Roooovvvv")]));
   (*L874*) SAug true "Roooovvvv_anti" (EScale (-1 # 1) (EEins "ijklabcd->klijcbad" [(EVar "Roooovvvv")]));
   (*L875*) SAug true "Roooovvvv_anti" (EScale (1 # 1) (EEins "ijklabcd->klijcbda" [(EVar "Roooovvvv")]));
   (*L876*) SAug true "Roooovvvv_anti" (EScale (1 # 1) (EEins "ijklabcd->klijcabd" [(EVar "Roooovvvv")]));
   (*L877*) SAug true "Roooovvvv_anti" (EScale (-1 # 1) (EEins "ijklabcd->klijcadb" [(EVar "Roooovvvv")]));
   (*L878*) SAug true "Roooovvvv_anti" (EScale (1 # 1) (EEins "ijklabcd->klijcdab" [(EVar "Roooovvvv")]));
   (*L879*) SAug true "Roooovvvv_anti" (EScale (-1 # 1) (EEins "ijklabcd->klijcdba" [(EVar "Roooovvvv")]));
   (*L880*) SAug true "Roooovvvv_anti" (EScale (-1 # 1) (EEins "ijklabcd->klijdbca" [(EVar "Roooovvvv")]));
   (*L881*) SAug true "Roooovvvv_anti" (EScale (1 # 1) (EEins "ijklabcd->klijdbac" [(EVar "Roooovvvv")]));
   (*L882*) SAug true "Roooovvvv_anti" (EScale (1 # 1) (EEins "ijklabcd->klijdcba" [(EVar "Roooovvvv")]));
   (*L883*) SAug true "Roooovvvv_anti" (EScale (-1 # 1) (EEins "ijklabcd->klijdcab" [(EVar "Roooovvvv")]));
   (*L884*) SAug true "Roooovvvv_anti" (EScale (1 # 1) (EEins "ijklabcd->klijdacb" [(EVar "Roooovvvv")]));
   (*L885*) SAug true "Roooovvvv_anti" (EScale (-1 # 1) (EEins "ijklabcd->klijdabc" [(EVar "Roooovvvv")]));
   (*L886*) SAug true "Roooovvvv_anti" (EScale (-1 # 1) (EEins "ijklabcd->kljiabcd" [(EVar "Roooovvvv")]));
   (*L887*) SAug true "Roooovvvv_anti" (EScale (1 # 1) (EEins "ijklabcd->kljiabdc" [(EVar "Roooovvvv")]));
   (*L888*) SAug true "Roooovvvv_anti" (EScale (1 # 1) (EEins "ijklabcd->kljiacbd" [(EVar "Roooovvvv")]));
   (*L889*) SAug true "Roooovvvv_anti" (EScale (-1 # 1) (EEins "ijklabcd->kljiacdb" [(EVar "Roooovvvv")]));
   (*L890*) SAug true "Roooovvvv_anti" (EScale (1 # 1) (EEins "ijklabcd->kljiadcb" [(EVar "Roooovvvv")]));
   (*L891*) SAug true "Roooovvvv_anti" (EScale (-1 # 1) (EEins "ijklabcd->kljiadbc" [(EVar "Roooovvvv")]));
   (*L892*) SAug true "Roooovvvv_anti" (EScale (1 # 1) (EEins "ijklabcd->kljibacd" [(EVar "Roooovvvv")]));
   (*L893*) SAug true "Roooovvvv_anti" (EScale (-1 # 1) (EEins "ijklabcd->kljibadc" [(EVar "Roooovvvv")]));
   (*L894*) SAug true "Roooovvvv_anti" (EScale (-1 # 1) (EEins "ijklabcd->kljibcad" [(EVar "Roooovvvv")]));
   (*L895*) SAug true "Roooovvvv_anti" (EScale (1 # 1) (EEins "ijklabcd->kljibcda" [(EVar "Roooovvvv")]));
   (*L896*) SAug true "Roooovvvv_anti" (EScale (-1 # 1) (EEins "ijklabcd->kljibdca" [(EVar "Roooovvvv")]));
   (*L897*) SAug true "Roooovvvv_anti" (EScale (1 # 1) (EEins "ijklabcd->kljibdac" [(EVar "Roooovvvv")]));
   (*L898*) SAug true "Roooovvvv_anti" (EScale (1 # 1) (EEins "ijklabcd->kljicbad" [(EVar "Roooovvvv")]));
   (*L899*) SAug true "Roooovvvv_anti" (EScale (-1 # 1) (EEins "ijklabcd->kljicbda" [(EVar "Roooovvvv")]));
   (*L900*) SAug true "Roooovvvv_anti" (EScale (-1 # 1) (EEins "ijklabcd->kljicabd" [(EVar "Roooovvvv")]));
   (*L901*) SAug true "Roooovvvv_anti" (EScale (1 # 1) (EEins "ijklabcd->kljicadb" [(EVar "Roooovvvv")]));
   (*L902*) SAug true "Roooovvvv_anti" (EScale (-1 # 1) (EEins "ijklabcd->kljicdab" [(EVar "Roooovvvv")]));
   (*L903*) SAug true "Roooovvvv_anti" (EScale (1 # 1) (EEins "ijklabcd->kljicdba" [(EVar "Roooovvvv")]));
   (*L904*) SAug true "Roooovvvv_anti" (EScale (1 # 1) (EEins "ijklabcd->kljidbca" [(EVar "Roooovvvv")]));
   (*L905*) SAug true "Roooovvvv_anti" (EScale (-1 # 1) (EEins "ijklabcd->kljidbac" [(EVar "Roooovvvv")]));
   (*L906*) SAug true "Roooovvvv_anti" (EScale (-1 # 1) (EEins "ijklabcd->kljidcba" [(EVar "Roooovvvv")]));
   (*L907*) SAug true "Roooovvvv_anti" (EScale (1 # 1) (EEins "ijklabcd->kljidcab" [(EVar "Roooovvvv")]));
   (*L908*) SAug true "Roooovvvv_anti" (EScale (-1 # 1) (EEins "ijklabcd->kljidacb" [(EVar "Roooovvvv")]));
   (*L909*) SAug true "Roooovvvv_anti" (EScale (1 # 1) (EEins "ijklabcd->kljidabc" [(EVar "Roooovvvv")]));
   (*L910*) SAug true "Roooovvvv_anti" (EScale (-1 # 1) (EEins "ijklabcd->ljkiabcd" [(EVar "Roooovvvv")]));
   (*L911*) SAug true "Roooovvvv_anti" (EScale (1 # 1) (EEins "ijklabcd->ljkiabdc" [(EVar "Roooovvvv")]));
   (*L912*) SAug true "Roooovvvv_anti" (EScale (1 # 1) (EEins "ijklabcd->ljkiacbd" [(EVar "Roooovvvv")]));
   (*L913*) SAug true "Roooovvvv_anti" (EScale (-1 # 1) (EEins "ijklabcd->ljkiacdb" [(EVar "Roooovvvv")]));
   (*L914*) SAug true "Roooovvvv_anti" (EScale (1 # 1) (EEins "ijklabcd->ljkiadcb" [(EVar "Roooovvvv")]));
   (*L915*) SAug true "Roooovvvv_anti" (EScale (-1 # 1) (EEins "ijklabcd->ljkiadbc" [(EVar "Roooovvvv")]));
   (*L916*) SAug true "Roooovvvv_anti" (EScale (1 # 1) (EEins "ijklabcd->ljkibacd" [(EVar "Roooovvvv")]));
   (*L917*) SAug true "Roooovvvv_anti" (EScale (-1 # 1) (EEins "ijklabcd->ljkibadc" [(EVar "Roooovvvv")]));
   (*L918*) SAug true "Roooovvvv_anti" (EScale (-1 # 1) (EEins "ijklabcd->ljkibcad" [(EVar "Roooovvvv")]));
   (*L919*) SAug true "Roooovvvv_anti" (EScale (1 # 1) (EEins "ijklabcd->ljkibcda" [(EVar "Roooovvvv")]));
   (*L920*) SAug true "Roooovvvv_anti" (EScale (-1 # 1) (EEins "ijklabcd->ljkibdca" [(EVar "Roooovvvv")]));
   (*L921*) SAug true "Roooovvvv_anti" (EScale (1 # 1) (EEins "ijklabcd->ljkibdac" [(EVar "Roooovvvv")]));
   (*L922*) SAug true "Roooovvvv_anti" (EScale (1 # 1) (EEins "ijklabcd->ljkicbad" [(EVar "Roooovvvv")]));
   (*L923*) SAug true "Roooovvvv_anti" (EScale (-1 # 1) (EEins "ijklabcd->ljkicbda" [(EVar "Roooovvvv")]));
   (*L924*) SAug true "Roooovvvv_anti" (EScale (-1 # 1) (EEins "ijklabcd->ljkicabd" [(EVar "Roooovvvv")]));
   (*L925*) SAug true "Roooovvvv_anti" (EScale (1 # 1) (EEins "ijklabcd->ljkicadb" [(EVar "Roooovvvv")]));
   (*L926*) SAug true "Roooovvvv_anti" (EScale (-1 # 1) (EEins "ijklabcd->ljkicdab" [(EVar "Roooovvvv")]));
   (*L927*) SAug true "Roooovvvv_anti" (EScale (1 # 1) (EEins "ijklabcd->ljkicdba" [(EVar "Roooovvvv")]));
   (*L928*) SAug true "Roooovvvv_anti" (EScale (1 # 1) (EEins "ijklabcd->ljkidbca" [(EVar "Roooovvvv")]));
   (*L929*) SAug true "Roooovvvv_anti" (EScale (-1 # 1) (EEins "ijklabcd->ljkidbac" [(EVar "Roooovvvv")]));
   (*L930*) SAug true "Roooovvvv_anti" (EScale (-1 # 1) (EEins "ijklabcd->ljkidcba" [(EVar "Roooovvvv")]));
   (*L931*) SAug true "Roooovvvv_anti" (EScale (1 # 1) (EEins "ijklabcd->ljkidcab" [(EVar "Roooovvvv")]));
   (*L932*) SAug true "Roooovvvv_anti" (EScale (-1 # 1) (EEins "ijklabcd->ljkidacb" [(EVar "Roooovvvv")]));
   (*L933*) SAug true "Roooovvvv_anti" (EScale (1 # 1) (EEins "ijklabcd->ljkidabc" [(EVar "Roooovvvv")]));
   (*L934*) SAug true "Roooovvvv_anti" (EScale (1 # 1) (EEins "ijklabcd->ljikabcd" [(EVar "Roooovvvv")]));
   (*L935*) SAug true "Roooovvvv_anti" (EScale (-1 # 1) (EEins "ijklabcd->ljikabdc" [(EVar "Roooovvvv")]));
   (*L936*) SAug true "Roooovvvv_anti" (EScale (-1 # 1) (EEins "ijklabcd->ljikacbd" [(EVar "Roooovvvv")]));
   (*L937*) SAug true "Roooovvvv_anti" (EScale (1 # 1) (EEins "ijklabcd->ljikacdb" [(EVar "Roooovvvv")]));
   (*L938*) SAug true "Roooovvvv_anti" (EScale (-1 # 1) (EEins "ijklabcd->ljikadcb" [(EVar "Roooovvvv")]));
   (*L939*) SAug true "Roooovvvv_anti" (EScale (1 # 1) (EEins "ijklabcd->ljikadbc" [(EVar "Roooovvvv")]));
   (*L940*) SAug true "Roooovvvv_anti" (EScale (-1 # 1) (EEins "ijklabcd->ljikbacd" [(EVar "Roooovvvv")]));
   (*L941*) SAug true "Roooovvvv_anti" (EScale (1 # 1) (EEins "ijklabcd->ljikbadc" [(EVar "Roooovvvv")]));
   (*L942*) SAug true "Roooovvvv_anti" (EScale (1 # 1) (EEins "ijklabcd->ljikbcad" [(EVar "Roooovvvv")]));
   (*L943*) SAug true "Roooovvvv_anti" (EScale (-1 # 1) (EEins "ijklabcd->ljikbcda" [(EVar "Roooovvvv")]));
   (*L944*) SAug true "Roooovvvv_anti" (EScale (1 # 1) (EEins "ijklabcd->ljikbdca" [(EVar "Roooovvvv")]));
   (*L945*) SAug true "Roooovvvv_anti" (EScale (-1 # 1) (EEins "ijklabcd->ljikbdac" [(EVar "Roooovvvv")]));
   (*L946*) SAug true "Roooovvvv_anti" (EScale (-1 # 1) (EEins "ijklabcd->ljikcbad" [(EVar "Roooovvvv")]));
   (*L947*) SAug true "Roooovvvv_anti" (EScale (1 # 1) (EEins "ijklabcd->ljikcbda" [(EVar "Roooovvvv")]));
   (*L948*) SAug true "Roooovvvv_anti" (EScale (1 # 1) (EEins "ijklabcd->ljikcabd" [(EVar "Roooovvvv")]));
   (*L949*) SAug true "Roooovvvv_anti" (EScale (-1 # 1) (EEins "ijklabcd->ljikcadb" [(EVar "Roooovvvv")]));
   (*L950*) SAug true "Roooovvvv_anti" (EScale (1 # 1) (EEins "ijklabcd->ljikcdab" [(EVar "Roooovvvv")]));
   (*L951*) SAug true "Roooovvvv_anti" (EScale (-1 # 1) (EEins "ijklabcd->ljikcdba" [(EVar "Roooovvvv")]));
   (*L952*) SAug true "Roooovvvv_anti" (EScale (-1 # 1) (EEins "ijklabcd->ljikdbca" [(EVar "Roooovvvv")]));
   (*L953*) SAug true "Roooovvvv_anti" (EScale (1 # 1) (EEins "ijklabcd->ljikdbac" [(EVar "Roooovvvv")]));
   (*L954*) SAug true "Roooovvvv_anti" (EScale (1 # 1) (EEins "ijklabcd->ljikdcba" [(EVar "Roooovvvv")]));
   (*L955*) SAug true "Roooovvvv_anti" (EScale (-1 # 1) (EEins "ijklabcd->ljikdcab" [(EVar "Roooovvvv")]));
   (*L956*) SAug true "Roooovvvv_anti" (EScale (1 # 1) (EEins "ijklabcd->ljikdacb" [(EVar "Roooovvvv")]));
   (*L957*) SAug true "Roooovvvv_anti" (EScale (-1 # 1) (EEins "ijklabcd->ljikdabc" [(EVar "Roooovvvv")]));
   (*L958*) SAug true "Roooovvvv_anti" (EScale (1 # 1) (EEins "ijklabcd->lkjiabcd" [(EVar "Roooovvvv")]));
   (*L959*) SAug true "Roooovvvv_anti" (EScale (-1 # 1) (EEins "ijklabcd->lkjiabdc" [(EVar "Roooovvvv")]));
   (*L960*) SAug true "Roooovvvv_anti" (EScale (-1 # 1) (EEins "ijklabcd->lkjiacbd" [(EVar "Roooovvvv")]));
   (*L961*) SAug true "Roooovvvv_anti" (EScale (1 # 1) (EEins "ijklabcd->lkjiacdb" [(EVar "Roooovvvv")]));
   (*L962*) SAug true "Roooovvvv_anti" (EScale (-1 # 1) (EEins "ijklabcd->lkjiadcb" [(EVar "Roooovvvv")]));
   (*L963*) SAug true "Roooovvvv_anti" (EScale (1 # 1) (EEins "ijklabcd->lkjiadbc" [(EVar "Roooovvvv")]));
   (*L964*) SAug true "Roooovvvv_anti" (EScale (-1 # 1) (EEins "ijklabcd->lkjibacd" [(EVar "Roooovvvv")]));
   (*L965*) SAug true "Roooovvvv_anti" (EScale (1 # 1) (EEins "ijklabcd->lkjibadc" [(EVar "Roooovvvv")]));
   (*L966*) SAug true "Roooovvvv_anti" (EScale (1 # 1) (EEins "ijklabcd->lkjibcad" [(EVar "Roooovvvv")]));
   (*L967*) SAug true "Roooovvvv_anti" (EScale (-1 # 1) (EEins "ijklabcd->lkjibcda" [(EVar "Roooovvvv")]));
   (*L968*) SAug true "Roooovvvv_anti" (EScale (1 # 1) (EEins "ijklabcd->lkjibdca" [(EVar "Roooovvvv")]));
   (*L969*) SAug true "Roooovvvv_anti" (EScale (-1 # 1) (EEins "ijklabcd->lkjibdac" [(EVar "Roooovvvv")]));
   (*L970*) SAug true "Roooovvvv_anti" (EScale (-1 # 1) (EEins "ijklabcd->lkjicbad" [(EVar "Roooovvvv")]));
   (*L971*) SAug true "Roooovvvv_anti" (EScale (1 # 1) (EEins "ijklabcd->lkjicbda" [(EVar "Roooovvvv")]));
   (*L972*) SAug true "Roooovvvv_anti" (EScale (1 # 1) (EEins "ijklabcd->lkjicabd" [(EVar "Roooovvvv")]));
   (*L973*) SAug true "Roooovvvv_anti" (EScale (-1 # 1) (EEins "ijklabcd->lkjicadb" [(EVar "Roooovvvv")]));
   (*L974*) SAug true "Roooovvvv_anti" (EScale (1 # 1) (EEins "ijklabcd->lkjicdab" [(EVar "Roooovvvv")]));
   (*L975*) SAug true "Roooovvvv_anti" (EScale (-1 # 1) (EEins "ijklabcd->lkjicdba" [(EVar "Roooovvvv")]));
   (*L976*) SAug true "Roooovvvv_anti" (EScale (-1 # 1) (EEins "ijklabcd->lkjidbca" [(EVar "Roooovvvv")]));
   (*L977*) SAug true "Roooovvvv_anti" (EScale (1 # 1) (EEins "ijklabcd->lkjidbac" [(EVar "Roooovvvv")]));
   (*L978*) SAug true "Roooovvvv_anti" (EScale (1 # 1) (EEins "ijklabcd->lkjidcba" [(EVar "Roooovvvv")]));
   (*L979*) SAug true "Roooovvvv_anti" (EScale (-1 # 1) (EEins "ijklabcd->lkjidcab" [(EVar "Roooovvvv")]));
   (*L980*) SAug true "Roooovvvv_anti" (EScale (1 # 1) (EEins "ijklabcd->lkjidacb" [(EVar "Roooovvvv")]));
   (*L981*) SAug true "Roooovvvv_anti" (EScale (-1 # 1) (EEins "ijklabcd->lkjidabc" [(EVar "Roooovvvv")]));
   (*L982*) SAug true "Roooovvvv_anti" (EScale (-1 # 1) (EEins "ijklabcd->lkijabcd" [(EVar "Roooovvvv")]));
   (*L983*) SAug true "Roooovvvv_anti" (EScale (1 # 1) (EEins "ijklabcd->lkijabdc" [(EVar "Roooovvvv")]));
   (*L984*) SAug true "Roooovvvv_anti" (EScale (1 # 1) (EEins "ijklabcd->lkijacbd" [(EVar "Roooovvvv")]));
   (*L985*) SAug true "Roooovvvv_anti" (EScale (-1 # 1) (EEins "ijklabcd->lkijacdb" [(EVar "Roooovvvv")]));
   (*L986*) SAug true "Roooovvvv_anti" (EScale (1 # 1) (EEins "ijklabcd->lkijadcb" [(EVar "Roooovvvv")]));
   (*L987*) SAug true "Roooovvvv_anti" (EScale (-1 # 1) (EEins "ijklabcd->lkijadbc" [(EVar "Roooovvvv")]));
   (*L988*) SAug true "Roooovvvv_anti" (EScale (1 # 1) (EEins "ijklabcd->lkijbacd" [(EVar "Roooovvvv")]));
   (*L989*) SAug true "Roooovvvv_anti" (EScale (-1 # 1) (EEins "ijklabcd->lkijbadc" [(EVar "Roooovvvv")]));
   (*L990*) SAug true "Roooovvvv_anti" (EScale (-1 # 1) (EEins "ijklabcd->lkijbcad" [(EVar "Roooovvvv")]));
   (*L991*) SAug true "Roooovvvv_anti" (EScale (1 # 1) (EEins "ijklabcd->lkijbcda" [(EVar "Roooovvvv")]));
   (*L992*) SAug true "Roooovvvv_anti" (EScale (-1 # 1) (EEins "ijklabcd->lkijbdca" [(EVar "Roooovvvv")]));
   (*L993*) SAug true "Roooovvvv_anti" (EScale (1 # 1) (EEins "ijklabcd->lkijbdac" [(EVar "Roooovvvv")]));
   (*L994*) SAug true "Roooovvvv_anti" (EScale (1 # 1) (EEins "ijklabcd->lkijcbad" [(EVar "Roooovvvv")]));
   (*L995*) SAug true "Roooovvvv_anti" (EScale (-1 # 1) (EEins "ijklabcd->lkijcbda" [(EVar "Roooovvvv")]));
   (*L996*) SAug true "Roooovvvv_anti" (EScale (-1 # 1) (EEins "ijklabcd->lkijcabd" [(EVar "Roooovvvv")]));
   (*L997*) SAug true "Roooovvvv_anti" (EScale (1 # 1) (EEins "ijklabcd->lkijcadb" [(EVar "Roooovvvv")]));
   (*L998*) SAug true "Roooovvvv_anti" (EScale (-1 # 1) (EEins "ijklabcd->lkijcdab" [(EVar "Roooovvvv")]));
   (*L999*) SAug true "Roooovvvv_anti" (EScale (1 # 1) (EEins "ijklabcd->lkijcdba" [(EVar "Roooovvvv")]));
   (*L1000*) SAug true "Roooovvvv_anti" (EScale (1 # 1) (EEins "ijklabcd->lkijdbca" [(EVar "Roooovvvv")]));
   (*L1001*) SAug true "Roooovvvv_anti" (EScale (-1 # 1) (EEins "ijklabcd->lkijdbac" [(EVar "Roooovvvv")]));
   (*L1002*) SAug true "Roooovvvv_anti" (EScale (-1 # 1) (EEins "ijklabcd->lkijdcba" [(EVar "Roooovvvv")]));
   (*L1003*) SAug true "Roooovvvv_anti" (EScale (1 # 1) (EEins "ijklabcd->lkijdcab" [(EVar "Roooovvvv")]));
   (*L1004*) SAug true "Roooovvvv_anti" (EScale (-1 # 1) (EEins "ijklabcd->lkijdacb" [(EVar "Roooovvvv")]));
   (*L1005*) SAug true "Roooovvvv_anti" (EScale (1 # 1) (EEins "ijklabcd->lkijdabc" [(EVar "Roooovvvv")]));
   (*L1006*) SAug true "Roooovvvv_anti" (EScale (1 # 1) (EEins "ijklabcd->likjabcd" [(EVar "Roooovvvv")]));
   (*L1007*) SAug true "Roooovvvv_anti" (EScale (-1 # 1) (EEins "ijklabcd->likjabdc" [(EVar "Roooovvvv")]));
   (*L1008*) SAug true "Roooovvvv_anti" (EScale (-1 # 1) (EEins "ijklabcd->likjacbd" [(EVar "Roooovvvv")]));
   (*L1009*) SAug true "Roooovvvv_anti" (EScale (1 # 1) (EEins "ijklabcd->likjacdb" [(EVar "Roooovvvv")]));
   (*L1010*) SAug true "Roooovvvv_anti" (EScale (-1 # 1) (EEins "ijklabcd->likjadcb" [(EVar "Roooovvvv")]));
   (*L1011*) SAug true "Roooovvvv_anti" (EScale (1 # 1) (EEins "ijklabcd->likjadbc" [(EVar "Roooovvvv")]));
   (*L1012*) SAug true "Roooovvvv_anti" (EScale (-1 # 1) (EEins "ijklabcd->likjbacd" [(EVar "Roooovvvv")]));
   (*L1013*) SAug true "Roooovvvv_anti" (EScale (1 # 1) (EEins "ijklabcd->likjbadc" [(EVar "Roooovvvv")]));
   (*L1014*) SAug true "Roooovvvv_anti" (EScale (1 # 1) (EEins "ijklabcd->likjbcad" [(EVar "Roooovvvv")]));
   (*L1015*) SAug true "Roooovvvv_anti" (EScale (-1 # 1) (EEins "ijklabcd->likjbcda" [(EVar "Roooovvvv")]));
   (*L1016*) SAug true "Roooovvvv_anti" (EScale (1 # 1) (EEins "ijklabcd->likjbdca" [(EVar "Roooovvvv")]));
   (*L1017*) SAug true "Roooovvvv_anti" (EScale (-1 # 1) (EEins "ijklabcd->likjbdac" [(EVar "Roooovvvv")]));
   (*L1018*) SAug true "Roooovvvv_anti" (EScale (-1 # 1) (EEins "ijklabcd->likjcbad" [(EVar "Roooovvvv")]));
   (*L1019*) SAug true "Roooovvvv_anti" (EScale (1 # 1) (EEins "ijklabcd->likjcbda" [(EVar "Roooovvvv")]));
   (*L1020*) SAug true "Roooovvvv_anti" (EScale (1 # 1) (EEins "ijklabcd->likjcabd" [(EVar "Roooovvvv")]));
   (*L1021*) SAug true "Roooovvvv_anti" (EScale (-1 # 1) (EEins "ijklabcd->likjcadb" [(EVar "Roooovvvv")]));
   (*L1022*) SAug true "Roooovvvv_anti" (EScale (1 # 1) (EEins "ijklabcd->likjcdab" [(EVar "Roooovvvv")]));
   (*L1023*) SAug true "Roooovvvv_anti" (EScale (-1 # 1) (EEins "ijklabcd->likjcdba" [(EVar "Roooovvvv")]));
   (*L1024*) SAug true "Roooovvvv_anti" (EScale (-1 # 1) (EEins "ijklabcd->likjdbca" [(EVar "Roooovvvv")]));
   (*L1025*) SAug true "Roooovvvv_anti" (EScale (1 # 1) (EEins "ijklabcd->likjdbac" [(EVar "Roooovvvv")]));
   (*L1026*) SAug true "Roooovvvv_anti" (EScale (1 # 1) (EEins "ijklabcd->likjdcba" [(EVar "Roooovvvv")]));
   (*L1027*) SAug true "Roooovvvv_anti" (EScale (-1 # 1) (EEins "ijklabcd->likjdcab" [(EVar "Roooovvvv")]));
   (*L1028*) SAug true "Roooovvvv_anti" (EScale (1 # 1) (EEins "ijklabcd->likjdacb" [(EVar "Roooovvvv")]));
   (*L1029*) SAug true "Roooovvvv_anti" (EScale (-1 # 1) (EEins "ijklabcd->likjdabc" [(EVar "Roooovvvv")]));
   (*L1030*) SAug true "Roooovvvv_anti" (EScale (-1 # 1) (EEins "ijklabcd->lijkabcd" [(EVar "Roooovvvv")]));
   (*L1031*) SAug true "Roooovvvv_anti" (EScale (1 # 1) (EEins "ijklabcd->lijkabdc" [(EVar "Roooovvvv")]));
   (*L1032*) SAug true "Roooovvvv_anti" (EScale (1 # 1) (EEins "ijklabcd->lijkacbd" [(EVar "Roooovvvv")]));
   (*L1033*) SAug true "Roooovvvv_anti" (EScale (-1 # 1) (EEins "ijklabcd->lijkacdb" [(EVar "Roooovvvv")]));
   (*L1034*) SAug true "Roooovvvv_anti" (EScale (1 # 1) (EEins "ijklabcd->lijkadcb" [(EVar "Roooovvvv")]));
   (*L1035*) SAug true "Roooovvvv_anti" (EScale (-1 # 1) (EEins "ijklabcd->lijkadbc" [(EVar "Roooovvvv")]));
   (*L1036*) SAug true "Roooovvvv_anti" (EScale (1 # 1) (EEins "ijklabcd->lijkbacd" [(EVar "Roooovvvv")]));
   (*L1037*) SAug true "Roooovvvv_anti" (EScale (-1 # 1) (EEins "ijklabcd->lijkbadc" [(EVar "Roooovvvv")]));
   (*L1038*) SAug true "Roooovvvv_anti" (EScale (-1 # 1) (EEins "ijklabcd->lijkbcad" [(EVar "Roooovvvv")]));
   (*L1039*) SAug true "Roooovvvv_anti" (EScale (1 # 1) (EEins "ijklabcd->lijkbcda" [(EVar "Roooovvvv")]));
   (*L1040*) SAug true "Roooovvvv_anti" (EScale (-1 # 1) (EEins "ijklabcd->lijkbdca" [(EVar "Roooovvvv")]));
   (*L1041*) SAug true "Roooovvvv_anti" (EScale (1 # 1) (EEins "ijklabcd->lijkbdac" [(EVar "Roooovvvv")]));
   (*L1042*) SAug true "Roooovvvv_anti" (EScale (1 # 1) (EEins "ijklabcd->lijkcbad" [(EVar "Roooovvvv")]));
   (*L1043*) SAug true "Roooovvvv_anti" (EScale (-1 # 1) (EEins "ijklabcd->lijkcbda" [(EVar "Roooovvvv")]));
   (*L1044*) SAug true "Roooovvvv_anti" (EScale (-1 # 1) (EEins "ijklabcd->lijkcabd" [(EVar "Roooovvvv")]));
   (*L1045*) SAug true "Roooovvvv_anti" (EScale (1 # 1) (EEins "ijklabcd->lijkcadb" [(EVar "Roooovvvv")]));
   (*L1046*) SAug true "Roooovvvv_anti" (EScale (-1 # 1) (EEins "ijklabcd->lijkcdab" [(EVar "Roooovvvv")]));
   (*L1047*) SAug true "Roooovvvv_anti" (EScale (1 # 1) (EEins "ijklabcd->lijkcdba" [(EVar "Roooovvvv")]));
   (*L1048*) SAug true "Roooovvvv_anti" (EScale (1 # 1) (EEins "ijklabcd->lijkdbca" [(EVar "Roooovvvv")]));
   (*L1049*) SAug true "Roooovvvv_anti" (EScale (-1 # 1) (EEins "ijklabcd->lijkdbac" [(EVar "Roooovvvv")]));
   (*L1050*) SAug true "Roooovvvv_anti" (EScale (-1 # 1) (EEins "ijklabcd->lijkdcba" [(EVar "Roooovvvv")]));
   (*L1051*) SAug true "Roooovvvv_anti" (EScale (1 # 1) (EEins "ijklabcd->lijkdcab" [(EVar "Roooovvvv")]));
   (*L1052*) SAug true "Roooovvvv_anti" (EScale (-1 # 1) (EEins "ijklabcd->lijkdacb" [(EVar "Roooovvvv")]));
   (*L1053*) SAug true "Roooovvvv_anti" (EScale (1 # 1) (EEins "ijklabcd->lijkdabc" [(EVar "Roooovvvv")]))]
  (*L1054*) (EVar "Roooovvvv_anti").
