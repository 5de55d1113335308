(** Generated by tools/transcribe.py from /repo/UT2/fullCCenergy.py; do not edit. *)
From Coq Require Import String List QArith.
From Verif Require Import Interp.
Import ListNotations.
Open Scope string_scope.

(** /repo/UT2/fullCCenergy.py:165-226  def ccsd_energy_with_spin *)
Definition ccsd_energy_with_spin : fn := mkFn
  ["t1_aa"; "t1_bb"; "t2_aaaa"; "t2_bbbb"; "t2_abab"; "f_aa"; "f_bb"; "g_aaaa"; "g_bbbb"; "g_abab"; "oa"; "ob"; "va"; "vb"]
  [(*L169*) SAssign "o" (EVar "oa");
   (*L170*) SAssign "v" (EVar "va");
   (*L173*) SAssign "energy" (EScale (1 # 1) (EEins "ii" [(ESlice (EVar "f_aa") [SV "o"; SV "o"])]));
   (*L176*) SAug true "energy" (EScale (1 # 1) (EEins "ii" [(ESlice (EVar "f_bb") [SV "o"; SV "o"])]));
   (*L179*) SAug true "energy" (EScale (1 # 1) (EEins "ia,ai" [(ESlice (EVar "f_aa") [SV "o"; SV "v"]); (EVar "t1_aa")]));
   (*L182*) SAug true "energy" (EScale (1 # 1) (EEins "ia,ai" [(ESlice (EVar "f_bb") [SV "o"; SV "v"]); (EVar "t1_bb")]));
   (*L185*) SAug true "energy" (EScale (-1 # 2) (EEins "jiji" [(ESlice (EVar "g_aaaa") [SV "o"; SV "o"; SV "o"; SV "o"])]));
   (*L188*) SAug true "energy" (EScale (-1 # 2) (EEins "jiji" [(ESlice (EVar "g_abab") [SV "o"; SV "o"; SV "o"; SV "o"])]));
   (*L191*) SAug true "energy" (EScale (-1 # 2) (EEins "ijij" [(ESlice (EVar "g_abab") [SV "o"; SV "o"; SV "o"; SV "o"])]));
   (*L194*) SAug true "energy" (EScale (-1 # 2) (EEins "jiji" [(ESlice (EVar "g_bbbb") [SV "o"; SV "o"; SV "o"; SV "o"])]));
   (*L197*) SAug true "energy" (EScale (1 # 4) (EEins "jiab,abji" [(ESlice (EVar "g_aaaa") [SV "o"; SV "o"; SV "v"; SV "v"]); (EVar "t2_aaaa")]));
   (*L200*) SAug true "energy" (EScale (1 # 4) (EEins "jiab,abji" [(ESlice (EVar "g_abab") [SV "o"; SV "o"; SV "v"; SV "v"]); (EVar "t2_abab")]));
   (*L203*) SAug true "energy" (EScale (1 # 4) (EEins "ijab,abij" [(ESlice (EVar "g_abab") [SV "o"; SV "o"; SV "v"; SV "v"]); (EVar "t2_abab")]));
   (*L206*) SAug true "energy" (EScale (1 # 4) (EEins "jiba,baji" [(ESlice (EVar "g_abab") [SV "o"; SV "o"; SV "v"; SV "v"]); (EVar "t2_abab")]));
   (*L209*) SAug true "energy" (EScale (1 # 4) (EEins "ijba,baij" [(ESlice (EVar "g_abab") [SV "o"; SV "o"; SV "v"; SV "v"]); (EVar "t2_abab")]));
   (*L212*) SAug true "energy" (EScale (1 # 4) (EEins "jiab,abji" [(ESlice (EVar "g_bbbb") [SV "o"; SV "o"; SV "v"; SV "v"]); (EVar "t2_bbbb")]));
   (*L215*) SAug true "energy" (EScale (-1 # 2) (EEins "jiab,ai,bj" [(ESlice (EVar "g_aaaa") [SV "o"; SV "o"; SV "v"; SV "v"]); (EVar "t1_aa"); (EVar "t1_aa")]));
   (*L218*) SAug true "energy" (EScale (1 # 2) (EEins "ijab,ai,bj" [(ESlice (EVar "g_abab") [SV "o"; SV "o"; SV "v"; SV "v"]); (EVar "t1_aa"); (EVar "t1_bb")]));
   (*L221*) SAug true "energy" (EScale (1 # 2) (EEins "jiba,ai,bj" [(ESlice (EVar "g_abab") [SV "o"; SV "o"; SV "v"; SV "v"]); (EVar "t1_bb"); (EVar "t1_aa")]));
   (*L224*) SAug true "energy" (EScale (-1 # 2) (EEins "jiab,ai,bj" [(ESlice (EVar "g_bbbb") [SV "o"; SV "o"; SV "v"; SV "v"]); (EVar "t1_bb"); (EVar "t1_bb")]))]
  (*L226*) (EVar "energy").

(** /repo/UT2/fullCCenergy.py:230-342  def energy_pertQf *)
Definition energy_pertQf : fn := mkFn
  ["g_aaaa"; "g_abab"; "g_bbbb"; "t4_aaaaaaaa"; "t4_aaabaaab"; "t4_aabbaabb"; "t4_abbbabbb"; "t4_bbbbbbbb"; "l2_aaaa"; "l2_bbbb"; "l2_abab"; "o"; "v"]
  [(*L233*) SAssign "energy" (EScale (1 # 16) (EEins "lkcd,ijba,cdbaijlk" [(EVar "g_aaaa"); (EVar "l2_aaaa"); (ESlice (EVar "t4_aaaaaaaa") [SAll; SAll; SAll; SAll; SAll; SAll; SAll; SAll])]));
   (*L236*) SAug true "energy" (EScale (-1 # 16) (EEins "lkcd,ijba,cabdijlk" [(EVar "g_abab"); (EVar "l2_aaaa"); (ESlice (EVar "t4_aaabaaab") [SAll; SAll; SAll; SAll; SAll; SAll; SAll; SAll])]));
   (*L239*) SAug true "energy" (EScale (-1 # 16) (EEins "klcd,ijba,cabdijkl" [(EVar "g_abab"); (EVar "l2_aaaa"); (ESlice (EVar "t4_aaabaaab") [SAll; SAll; SAll; SAll; SAll; SAll; SAll; SAll])]));
   (*L242*) SAug true "energy" (EScale (1 # 16) (EEins "lkdc,ijba,adbcijlk" [(EVar "g_abab"); (EVar "l2_aaaa"); (ESlice (EVar "t4_aaabaaab") [SAll; SAll; SAll; SAll; SAll; SAll; SAll; SAll])]));
   (*L245*) SAug true "energy" (EScale (1 # 16) (EEins "kldc,ijba,adbcijkl" [(EVar "g_abab"); (EVar "l2_aaaa"); (ESlice (EVar "t4_aaabaaab") [SAll; SAll; SAll; SAll; SAll; SAll; SAll; SAll])]));
   (*L248*) SAug true "energy" (EScale (1 # 16) (EEins "lkcd,ijba,bacdijlk" [(EVar "g_bbbb"); (EVar "l2_aaaa"); (ESlice (EVar "t4_aabbaabb") [SAll; SAll; SAll; SAll; SAll; SAll; SAll; SAll])]));
   (*L251*) SAug true "energy" (EScale (-1 # 16) (EEins "lkcd,ijba,cdbaiklj" [(EVar "g_aaaa"); (EVar "l2_abab"); (ESlice (EVar "t4_aaabaaab") [SAll; SAll; SAll; SAll; SAll; SAll; SAll; SAll])]));
   (*L254*) SAug true "energy" (EScale (1 # 16) (EEins "lkcd,ijba,cbdailjk" [(EVar "g_abab"); (EVar "l2_abab"); (ESlice (EVar "t4_aabbaabb") [SAll; SAll; SAll; SAll; SAll; SAll; SAll; SAll])]));
   (*L257*) SAug true "energy" (EScale (-1 # 16) (EEins "klcd,ijba,cbdaiklj" [(EVar "g_abab"); (EVar "l2_abab"); (ESlice (EVar "t4_aabbaabb") [SAll; SAll; SAll; SAll; SAll; SAll; SAll; SAll])]));
   (*L260*) SAug true "energy" (EScale (-1 # 16) (EEins "lkdc,ijba,bdcailjk" [(EVar "g_abab"); (EVar "l2_abab"); (ESlice (EVar "t4_aabbaabb") [SAll; SAll; SAll; SAll; SAll; SAll; SAll; SAll])]));
   (*L263*) SAug true "energy" (EScale (1 # 16) (EEins "kldc,ijba,bdcaiklj" [(EVar "g_abab"); (EVar "l2_abab"); (ESlice (EVar "t4_aabbaabb") [SAll; SAll; SAll; SAll; SAll; SAll; SAll; SAll])]));
   (*L266*) SAug true "energy" (EScale (-1 # 16) (EEins "lkcd,ijba,bdcaijlk" [(EVar "g_bbbb"); (EVar "l2_abab"); (ESlice (EVar "t4_abbbabbb") [SAll; SAll; SAll; SAll; SAll; SAll; SAll; SAll])]));
   (*L269*) SAug true "energy" (EScale (-1 # 16) (EEins "lkcd,ijab,cdabiklj" [(EVar "g_aaaa"); (EVar "l2_abab"); (ESlice (EVar "t4_aaabaaab") [SAll; SAll; SAll; SAll; SAll; SAll; SAll; SAll])]));
   (*L272*) SAug true "energy" (EScale (-1 # 16) (EEins "lkcd,ijab,cabdiljk" [(EVar "g_abab"); (EVar "l2_abab"); (ESlice (EVar "t4_aabbaabb") [SAll; SAll; SAll; SAll; SAll; SAll; SAll; SAll])]));
   (*L275*) SAug true "energy" (EScale (1 # 16) (EEins "klcd,ijab,cabdiklj" [(EVar "g_abab"); (EVar "l2_abab"); (ESlice (EVar "t4_aabbaabb") [SAll; SAll; SAll; SAll; SAll; SAll; SAll; SAll])]));
   (*L278*) SAug true "energy" (EScale (1 # 16) (EEins "lkdc,ijab,adbciljk" [(EVar "g_abab"); (EVar "l2_abab"); (ESlice (EVar "t4_aabbaabb") [SAll; SAll; SAll; SAll; SAll; SAll; SAll; SAll])]));
   (*L281*) SAug true "energy" (EScale (-1 # 16) (EEins "kldc,ijab,adbciklj" [(EVar "g_abab"); (EVar "l2_abab"); (ESlice (EVar "t4_aabbaabb") [SAll; SAll; SAll; SAll; SAll; SAll; SAll; SAll])]));
   (*L284*) SAug true "energy" (EScale (1 # 16) (EEins "lkcd,ijab,adbcijlk" [(EVar "g_bbbb"); (EVar "l2_abab"); (ESlice (EVar "t4_abbbabbb") [SAll; SAll; SAll; SAll; SAll; SAll; SAll; SAll])]));
   (*L287*) SAug true "energy" (EScale (1 # 16) (EEins "lkcd,jiba,cdbakjli" [(EVar "g_aaaa"); (EVar "l2_abab"); (ESlice (EVar "t4_aaabaaab") [SAll; SAll; SAll; SAll; SAll; SAll; SAll; SAll])]));
   (*L290*) SAug true "energy" (EScale (-1 # 16) (EEins "lkcd,jiba,cbdaljik" [(EVar "g_abab"); (EVar "l2_abab"); (ESlice (EVar "t4_aabbaabb") [SAll; SAll; SAll; SAll; SAll; SAll; SAll; SAll])]));
   (*L293*) SAug true "energy" (EScale (1 # 16) (EEins "klcd,jiba,cbdakjli" [(EVar "g_abab"); (EVar "l2_abab"); (ESlice (EVar "t4_aabbaabb") [SAll; SAll; SAll; SAll; SAll; SAll; SAll; SAll])]));
   (*L296*) SAug true "energy" (EScale (1 # 16) (EEins "lkdc,jiba,bdcaljik" [(EVar "g_abab"); (EVar "l2_abab"); (ESlice (EVar "t4_aabbaabb") [SAll; SAll; SAll; SAll; SAll; SAll; SAll; SAll])]));
   (*L299*) SAug true "energy" (EScale (-1 # 16) (EEins "kldc,jiba,bdcakjli" [(EVar "g_abab"); (EVar "l2_abab"); (ESlice (EVar "t4_aabbaabb") [SAll; SAll; SAll; SAll; SAll; SAll; SAll; SAll])]));
   (*L302*) SAug true "energy" (EScale (-1 # 16) (EEins "lkcd,jiba,bdcajilk" [(EVar "g_bbbb"); (EVar "l2_abab"); (ESlice (EVar "t4_abbbabbb") [SAll; SAll; SAll; SAll; SAll; SAll; SAll; SAll])]));
   (*L305*) SAug true "energy" (EScale (1 # 16) (EEins "lkcd,jiab,cdabkjli" [(EVar "g_aaaa"); (EVar "l2_abab"); (ESlice (EVar "t4_aaabaaab") [SAll; SAll; SAll; SAll; SAll; SAll; SAll; SAll])]));
   (*L308*) SAug true "energy" (EScale (1 # 16) (EEins "lkcd,jiab,cabdljik" [(EVar "g_abab"); (EVar "l2_abab"); (ESlice (EVar "t4_aabbaabb") [SAll; SAll; SAll; SAll; SAll; SAll; SAll; SAll])]));
   (*L311*) SAug true "energy" (EScale (-1 # 16) (EEins "klcd,jiab,cabdkjli" [(EVar "g_abab"); (EVar "l2_abab"); (ESlice (EVar "t4_aabbaabb") [SAll; SAll; SAll; SAll; SAll; SAll; SAll; SAll])]));
   (*L314*) SAug true "energy" (EScale (-1 # 16) (EEins "lkdc,jiab,adbcljik" [(EVar "g_abab"); (EVar "l2_abab"); (ESlice (EVar "t4_aabbaabb") [SAll; SAll; SAll; SAll; SAll; SAll; SAll; SAll])]));
   (*L317*) SAug true "energy" (EScale (1 # 16) (EEins "kldc,jiab,adbckjli" [(EVar "g_abab"); (EVar "l2_abab"); (ESlice (EVar "t4_aabbaabb") [SAll; SAll; SAll; SAll; SAll; SAll; SAll; SAll])]));
   (*L320*) SAug true "energy" (EScale (1 # 16) (EEins "lkcd,jiab,adbcjilk" [(EVar "g_bbbb"); (EVar "l2_abab"); (ESlice (EVar "t4_abbbabbb") [SAll; SAll; SAll; SAll; SAll; SAll; SAll; SAll])]));
   (*L323*) SAug true "energy" (EScale (1 # 16) (EEins "lkcd,ijba,cdbalkij" [(EVar "g_aaaa"); (EVar "l2_bbbb"); (ESlice (EVar "t4_aabbaabb") [SAll; SAll; SAll; SAll; SAll; SAll; SAll; SAll])]));
   (*L326*) SAug true "energy" (EScale (-1 # 16) (EEins "lkcd,ijba,cdbaljik" [(EVar "g_abab"); (EVar "l2_bbbb"); (ESlice (EVar "t4_abbbabbb") [SAll; SAll; SAll; SAll; SAll; SAll; SAll; SAll])]));
   (*L329*) SAug true "energy" (EScale (1 # 16) (EEins "klcd,ijba,cdbakjli" [(EVar "g_abab"); (EVar "l2_bbbb"); (ESlice (EVar "t4_abbbabbb") [SAll; SAll; SAll; SAll; SAll; SAll; SAll; SAll])]));
   (*L332*) SAug true "energy" (EScale (-1 # 16) (EEins "lkdc,ijba,dcbaljik" [(EVar "g_abab"); (EVar "l2_bbbb"); (ESlice (EVar "t4_abbbabbb") [SAll; SAll; SAll; SAll; SAll; SAll; SAll; SAll])]));
   (*L335*) SAug true "energy" (EScale (1 # 16) (EEins "kldc,ijba,dcbakjli" [(EVar "g_abab"); (EVar "l2_bbbb"); (ESlice (EVar "t4_abbbabbb") [SAll; SAll; SAll; SAll; SAll; SAll; SAll; SAll])]));
   (*L338*) SAug true "energy" (EScale (1 # 16) (EEins "lkcd,ijba,cdbaijlk" [(EVar "g_bbbb"); (EVar "l2_bbbb"); (ESlice (EVar "t4_bbbbbbbb") [SAll; SAll; SAll; SAll; SAll; SAll; SAll; SAll])]))]
  (*L342*) (EVar "energy").

(** /repo/UT2/fullCCenergy.py:344-631  def ccsdtq_t4_aaaaaaaa_residual *)
Definition ccsdtq_t4_aaaaaaaa_residual : fn := mkFn
  ["t1_aa"; "t1_bb"; "t2_aaaa"; "t2_bbbb"; "t2_abab"; "t3_aaaaaa"; "t3_aabaab"; "t3_abbabb"; "t3_bbbbbb"; "t4_aaaaaaaa"; "t4_aaabaaab"; "t4_aabbaabb"; "t4_abbbabbb"; "t4_bbbbbbbb"; "f_aa"; "f_bb"; "g_aaaa"; "g_bbbb"; "g_abab"; "oa"; "ob"; "va"; "vb"]
  [(*L352*) SAssign "o" (EVar "oa");
   (*L353*) SAssign "v" (EVar "va");
   (*L356*) SAssign "contracted_intermediate" (EScale (-1 # 1) (EEins "nmkl,abjm,cdin->abcdijkl" [(ESlice (EVar "g_aaaa") [SV "o"; SV "o"; SV "o"; SV "o"]); (EVar "t2_aaaa"); (EVar "t2_aaaa")]));
   (*L357*) SAssign "quadruples_res" (EAdd (EAdd (EAdd (EScale (1 # 1) (EVar "contracted_intermediate")) (EScale (-1 # 1) (EEins "abcdijkl->abcdjikl" [(EVar "contracted_intermediate")]))) (EScale (-1 # 1) (EEins "abcdijkl->acbdijkl" [(EVar "contracted_intermediate")]))) (EScale (1 # 1) (EEins "abcdijkl->acbdjikl" [(EVar "contracted_intermediate")])));
   (*L360*) SAssign "contracted_intermediate" (EScale (-1 # 1) (EEins "nmkl,adjm,bcin->abcdijkl" [(ESlice (EVar "g_aaaa") [SV "o"; SV "o"; SV "o"; SV "o"]); (EVar "t2_aaaa"); (EVar "t2_aaaa")]));
   (*L361*) SAug true "quadruples_res" (EAdd (EScale (1 # 1) (EVar "contracted_intermediate")) (EScale (-1 # 1) (EEins "abcdijkl->abcdjikl" [(EVar "contracted_intermediate")])));
   (*L364*) SAssign "contracted_intermediate" (EScale (1 # 1) (EEins "nmjl,abkm,cdin->abcdijkl" [(ESlice (EVar "g_aaaa") [SV "o"; SV "o"; SV "o"; SV "o"]); (EVar "t2_aaaa"); (EVar "t2_aaaa")]));
   (*L365*) SAug true "quadruples_res" (EAdd (EAdd (EAdd (EScale (1 # 1) (EVar "contracted_intermediate")) (EScale (-1 # 1) (EEins "abcdijkl->abcdkjil" [(EVar "contracted_intermediate")]))) (EScale (-1 # 1) (EEins "abcdijkl->acbdijkl" [(EVar "contracted_intermediate")]))) (EScale (1 # 1) (EEins "abcdijkl->acbdkjil" [(EVar "contracted_intermediate")])));
   (*L368*) SAssign "contracted_intermediate" (EScale (1 # 1) (EEins "nmjl,adkm,bcin->abcdijkl" [(ESlice (EVar "g_aaaa") [SV "o"; SV "o"; SV "o"; SV "o"]); (EVar "t2_aaaa"); (EVar "t2_aaaa")]));
   (*L369*) SAug true "quadruples_res" (EAdd (EScale (1 # 1) (EVar "contracted_intermediate")) (EScale (-1 # 1) (EEins "abcdijkl->abcdkjil" [(EVar "contracted_intermediate")])));
   (*L372*) SAssign "contracted_intermediate" (EScale (-1 # 1) (EEins "nmil,abkm,cdjn->abcdijkl" [(ESlice (EVar "g_aaaa") [SV "o"; SV "o"; SV "o"; SV "o"]); (EVar "t2_aaaa"); (EVar "t2_aaaa")]));
   (*L373*) SAug true "quadruples_res" (EAdd (EAdd (EAdd (EScale (1 # 1) (EVar "contracted_intermediate")) (EScale (-1 # 1) (EEins "abcdijkl->abcdikjl" [(EVar "contracted_intermediate")]))) (EScale (-1 # 1) (EEins "abcdijkl->acbdijkl" [(EVar "contracted_intermediate")]))) (EScale (1 # 1) (EEins "abcdijkl->acbdikjl" [(EVar "contracted_intermediate")])));
   (*L376*) SAssign "contracted_intermediate" (EScale (-1 # 1) (EEins "nmil,adkm,bcjn->abcdijkl" [(ESlice (EVar "g_aaaa") [SV "o"; SV "o"; SV "o"; SV "o"]); (EVar "t2_aaaa"); (EVar "t2_aaaa")]));
   (*L377*) SAug true "quadruples_res" (EAdd (EScale (1 # 1) (EVar "contracted_intermediate")) (EScale (-1 # 1) (EEins "abcdijkl->abcdikjl" [(EVar "contracted_intermediate")])));
   (*L380*) SAssign "contracted_intermediate" (EScale (-1 # 1) (EEins "nmjk,ablm,cdin->abcdijkl" [(ESlice (EVar "g_aaaa") [SV "o"; SV "o"; SV "o"; SV "o"]); (EVar "t2_aaaa"); (EVar "t2_aaaa")]));
   (*L381*) SAug true "quadruples_res" (EAdd (EAdd (EAdd (EScale (1 # 1) (EVar "contracted_intermediate")) (EScale (-1 # 1) (EEins "abcdijkl->abcdljki" [(EVar "contracted_intermediate")]))) (EScale (-1 # 1) (EEins "abcdijkl->acbdijkl" [(EVar "contracted_intermediate")]))) (EScale (1 # 1) (EEins "abcdijkl->acbdljki" [(EVar "contracted_intermediate")])));
   (*L384*) SAssign "contracted_intermediate" (EScale (-1 # 1) (EEins "nmjk,adlm,bcin->abcdijkl" [(ESlice (EVar "g_aaaa") [SV "o"; SV "o"; SV "o"; SV "o"]); (EVar "t2_aaaa"); (EVar "t2_aaaa")]));
   (*L385*) SAug true "quadruples_res" (EAdd (EScale (1 # 1) (EVar "contracted_intermediate")) (EScale (-1 # 1) (EEins "abcdijkl->abcdljki" [(EVar "contracted_intermediate")])));
   (*L388*) SAssign "contracted_intermediate" (EScale (1 # 1) (EEins "nmik,ablm,cdjn->abcdijkl" [(ESlice (EVar "g_aaaa") [SV "o"; SV "o"; SV "o"; SV "o"]); (EVar "t2_aaaa"); (EVar "t2_aaaa")]));
   (*L389*) SAug true "quadruples_res" (EAdd (EAdd (EAdd (EScale (1 # 1) (EVar "contracted_intermediate")) (EScale (-1 # 1) (EEins "abcdijkl->abcdilkj" [(EVar "contracted_intermediate")]))) (EScale (-1 # 1) (EEins "abcdijkl->acbdijkl" [(EVar "contracted_intermediate")]))) (EScale (1 # 1) (EEins "abcdijkl->acbdilkj" [(EVar "contracted_intermediate")])));
   (*L392*) SAssign "contracted_intermediate" (EScale (1 # 1) (EEins "nmik,adlm,bcjn->abcdijkl" [(ESlice (EVar "g_aaaa") [SV "o"; SV "o"; SV "o"; SV "o"]); (EVar "t2_aaaa"); (EVar "t2_aaaa")]));
   (*L393*) SAug true "quadruples_res" (EAdd (EScale (1 # 1) (EVar "contracted_intermediate")) (EScale (-1 # 1) (EEins "abcdijkl->abcdilkj" [(EVar "contracted_intermediate")])));
   (*L396*) SAssign "contracted_intermediate" (EScale (-1 # 1) (EEins "nmij,ablm,cdkn->abcdijkl" [(ESlice (EVar "g_aaaa") [SV "o"; SV "o"; SV "o"; SV "o"]); (EVar "t2_aaaa"); (EVar "t2_aaaa")]));
   (*L397*) SAug true "quadruples_res" (EAdd (EAdd (EAdd (EScale (1 # 1) (EVar "contracted_intermediate")) (EScale (-1 # 1) (EEins "abcdijkl->abcdijlk" [(EVar "contracted_intermediate")]))) (EScale (-1 # 1) (EEins "abcdijkl->acbdijkl" [(EVar "contracted_intermediate")]))) (EScale (1 # 1) (EEins "abcdijkl->acbdijlk" [(EVar "contracted_intermediate")])));
   (*L400*) SAssign "contracted_intermediate" (EScale (-1 # 1) (EEins "nmij,adlm,bckn->abcdijkl" [(ESlice (EVar "g_aaaa") [SV "o"; SV "o"; SV "o"; SV "o"]); (EVar "t2_aaaa"); (EVar "t2_aaaa")]));
   (*L401*) SAug true "quadruples_res" (EAdd (EScale (1 # 1) (EVar "contracted_intermediate")) (EScale (-1 # 1) (EEins "abcdijkl->abcdijlk" [(EVar "contracted_intermediate")])));
   (*L404*) SAssign "contracted_intermediate" (EScale (1 # 1) (EEins "mael,ebjk,cdim->abcdijkl" [(ESlice (EVar "g_aaaa") [SV "o"; SV "v"; SV "v"; SV "o"]); (EVar "t2_aaaa"); (EVar "t2_aaaa")]));
   (*L405*) SAug true "quadruples_res" (EAdd (EAdd (EAdd (EScale (1 # 1) (EVar "contracted_intermediate")) (EScale (-1 # 1) (EEins "abcdijkl->abcdjikl" [(EVar "contracted_intermediate")]))) (EScale (-1 # 1) (EEins "abcdijkl->acbdijkl" [(EVar "contracted_intermediate")]))) (EScale (1 # 1) (EEins "abcdijkl->acbdjikl" [(EVar "contracted_intermediate")])));
   (*L408*) SAssign "contracted_intermediate" (EScale (1 # 1) (EEins "mael,ebij,cdkm->abcdijkl" [(ESlice (EVar "g_aaaa") [SV "o"; SV "v"; SV "v"; SV "o"]); (EVar "t2_aaaa"); (EVar "t2_aaaa")]));
   (*L409*) SAug true "quadruples_res" (EAdd (EAdd (EAdd (EScale (1 # 1) (EVar "contracted_intermediate")) (EScale (-1 # 1) (EEins "abcdijkl->abcdijlk" [(EVar "contracted_intermediate")]))) (EScale (-1 # 1) (EEins "abcdijkl->acbdijkl" [(EVar "contracted_intermediate")]))) (EScale (1 # 1) (EEins "abcdijkl->acbdijlk" [(EVar "contracted_intermediate")])));
   (*L412*) SAssign "contracted_intermediate" (EScale (1 # 1) (EEins "mael,edjk,bcim->abcdijkl" [(ESlice (EVar "g_aaaa") [SV "o"; SV "v"; SV "v"; SV "o"]); (EVar "t2_aaaa"); (EVar "t2_aaaa")]));
   (*L413*) SAug true "quadruples_res" (EAdd (EAdd (EAdd (EScale (1 # 1) (EVar "contracted_intermediate")) (EScale (-1 # 1) (EEins "abcdijkl->abcdjikl" [(EVar "contracted_intermediate")]))) (EScale (-1 # 1) (EEins "abcdijkl->bacdijkl" [(EVar "contracted_intermediate")]))) (EScale (1 # 1) (EEins "abcdijkl->bacdjikl" [(EVar "contracted_intermediate")])));
   (*L416*) SAssign "contracted_intermediate" (EScale (1 # 1) (EEins "mael,edij,bckm->abcdijkl" [(ESlice (EVar "g_aaaa") [SV "o"; SV "v"; SV "v"; SV "o"]); (EVar "t2_aaaa"); (EVar "t2_aaaa")]));
   (*L417*) SAug true "quadruples_res" (EAdd (EAdd (EAdd (EScale (1 # 1) (EVar "contracted_intermediate")) (EScale (-1 # 1) (EEins "abcdijkl->abcdijlk" [(EVar "contracted_intermediate")]))) (EScale (-1 # 1) (EEins "abcdijkl->bacdijkl" [(EVar "contracted_intermediate")]))) (EScale (1 # 1) (EEins "abcdijkl->bacdijlk" [(EVar "contracted_intermediate")])));
   (*L420*) SAssign "contracted_intermediate" (EScale (-1 # 1) (EEins "maek,ebjl,cdim->abcdijkl" [(ESlice (EVar "g_aaaa") [SV "o"; SV "v"; SV "v"; SV "o"]); (EVar "t2_aaaa"); (EVar "t2_aaaa")]));
   (*L421*) SAug true "quadruples_res" (EAdd (EAdd (EAdd (EScale (1 # 1) (EVar "contracted_intermediate")) (EScale (-1 # 1) (EEins "abcdijkl->abcdjikl" [(EVar "contracted_intermediate")]))) (EScale (-1 # 1) (EEins "abcdijkl->acbdijkl" [(EVar "contracted_intermediate")]))) (EScale (1 # 1) (EEins "abcdijkl->acbdjikl" [(EVar "contracted_intermediate")])));
   (*L424*) SAssign "contracted_intermediate" (EScale (-1 # 1) (EEins "maek,edjl,bcim->abcdijkl" [(ESlice (EVar "g_aaaa") [SV "o"; SV "v"; SV "v"; SV "o"]); (EVar "t2_aaaa"); (EVar "t2_aaaa")]));
   (*L425*) SAug true "quadruples_res" (EAdd (EAdd (EAdd (EScale (1 # 1) (EVar "contracted_intermediate")) (EScale (-1 # 1) (EEins "abcdijkl->abcdjikl" [(EVar "contracted_intermediate")]))) (EScale (-1 # 1) (EEins "abcdijkl->bacdijkl" [(EVar "contracted_intermediate")]))) (EScale (1 # 1) (EEins "abcdijkl->bacdjikl" [(EVar "contracted_intermediate")])));
   (*L428*) SAssign "contracted_intermediate" (EScale (1 # 1) (EEins "maej,ebkl,cdim->abcdijkl" [(ESlice (EVar "g_aaaa") [SV "o"; SV "v"; SV "v"; SV "o"]); (EVar "t2_aaaa"); (EVar "t2_aaaa")]));
   (*L429*) SAug true "quadruples_res" (EAdd (EAdd (EAdd (EScale (1 # 1) (EVar "contracted_intermediate")) (EScale (-1 # 1) (EEins "abcdijkl->abcdkjil" [(EVar "contracted_intermediate")]))) (EScale (-1 # 1) (EEins "abcdijkl->acbdijkl" [(EVar "contracted_intermediate")]))) (EScale (1 # 1) (EEins "abcdijkl->acbdkjil" [(EVar "contracted_intermediate")])));
   (*L432*) SAssign "contracted_intermediate" (EScale (1 # 1) (EEins "maej,ebik,cdlm->abcdijkl" [(ESlice (EVar "g_aaaa") [SV "o"; SV "v"; SV "v"; SV "o"]); (EVar "t2_aaaa"); (EVar "t2_aaaa")]));
   (*L433*) SAug true "quadruples_res" (EAdd (EAdd (EAdd (EScale (1 # 1) (EVar "contracted_intermediate")) (EScale (-1 # 1) (EEins "abcdijkl->abcdjikl" [(EVar "contracted_intermediate")]))) (EScale (-1 # 1) (EEins "abcdijkl->acbdijkl" [(EVar "contracted_intermediate")]))) (EScale (1 # 1) (EEins "abcdijkl->acbdjikl" [(EVar "contracted_intermediate")])));
   (*L436*) SAssign "contracted_intermediate" (EScale (1 # 1) (EEins "maej,edkl,bcim->abcdijkl" [(ESlice (EVar "g_aaaa") [SV "o"; SV "v"; SV "v"; SV "o"]); (EVar "t2_aaaa"); (EVar "t2_aaaa")]));
   (*L437*) SAug true "quadruples_res" (EAdd (EAdd (EAdd (EScale (1 # 1) (EVar "contracted_intermediate")) (EScale (-1 # 1) (EEins "abcdijkl->abcdkjil" [(EVar "contracted_intermediate")]))) (EScale (-1 # 1) (EEins "abcdijkl->bacdijkl" [(EVar "contracted_intermediate")]))) (EScale (1 # 1) (EEins "abcdijkl->bacdkjil" [(EVar "contracted_intermediate")])));
   (*L440*) SAssign "contracted_intermediate" (EScale (1 # 1) (EEins "maej,edik,bclm->abcdijkl" [(ESlice (EVar "g_aaaa") [SV "o"; SV "v"; SV "v"; SV "o"]); (EVar "t2_aaaa"); (EVar "t2_aaaa")]));
   (*L441*) SAug true "quadruples_res" (EAdd (EAdd (EAdd (EScale (1 # 1) (EVar "contracted_intermediate")) (EScale (-1 # 1) (EEins "abcdijkl->abcdjikl" [(EVar "contracted_intermediate")]))) (EScale (-1 # 1) (EEins "abcdijkl->bacdijkl" [(EVar "contracted_intermediate")]))) (EScale (1 # 1) (EEins "abcdijkl->bacdjikl" [(EVar "contracted_intermediate")])));
   (*L444*) SAssign "contracted_intermediate" (EScale (-1 # 1) (EEins "maei,ebkl,cdjm->abcdijkl" [(ESlice (EVar "g_aaaa") [SV "o"; SV "v"; SV "v"; SV "o"]); (EVar "t2_aaaa"); (EVar "t2_aaaa")]));
   (*L445*) SAug true "quadruples_res" (EAdd (EAdd (EAdd (EScale (1 # 1) (EVar "contracted_intermediate")) (EScale (-1 # 1) (EEins "abcdijkl->abcdikjl" [(EVar "contracted_intermediate")]))) (EScale (-1 # 1) (EEins "abcdijkl->acbdijkl" [(EVar "contracted_intermediate")]))) (EScale (1 # 1) (EEins "abcdijkl->acbdikjl" [(EVar "contracted_intermediate")])));
   (*L448*) SAssign "contracted_intermediate" (EScale (-1 # 1) (EEins "maei,edkl,bcjm->abcdijkl" [(ESlice (EVar "g_aaaa") [SV "o"; SV "v"; SV "v"; SV "o"]); (EVar "t2_aaaa"); (EVar "t2_aaaa")]));
   (*L449*) SAug true "quadruples_res" (EAdd (EAdd (EAdd (EScale (1 # 1) (EVar "contracted_intermediate")) (EScale (-1 # 1) (EEins "abcdijkl->abcdikjl" [(EVar "contracted_intermediate")]))) (EScale (-1 # 1) (EEins "abcdijkl->bacdijkl" [(EVar "contracted_intermediate")]))) (EScale (1 # 1) (EEins "abcdijkl->bacdikjl" [(EVar "contracted_intermediate")])));
   (*L452*) SAssign "contracted_intermediate" (EScale (-1 # 1) (EEins "mbel,eajk,cdim->abcdijkl" [(ESlice (EVar "g_aaaa") [SV "o"; SV "v"; SV "v"; SV "o"]); (EVar "t2_aaaa"); (EVar "t2_aaaa")]));
   (*L453*) SAug true "quadruples_res" (EAdd (EAdd (EAdd (EScale (1 # 1) (EVar "contracted_intermediate")) (EScale (-1 # 1) (EEins "abcdijkl->abcdjikl" [(EVar "contracted_intermediate")]))) (EScale (-1 # 1) (EEins "abcdijkl->cbadijkl" [(EVar "contracted_intermediate")]))) (EScale (1 # 1) (EEins "abcdijkl->cbadjikl" [(EVar "contracted_intermediate")])));
   (*L456*) SAssign "contracted_intermediate" (EScale (-1 # 1) (EEins "mbel,eaij,cdkm->abcdijkl" [(ESlice (EVar "g_aaaa") [SV "o"; SV "v"; SV "v"; SV "o"]); (EVar "t2_aaaa"); (EVar "t2_aaaa")]));
   (*L457*) SAug true "quadruples_res" (EAdd (EAdd (EAdd (EScale (1 # 1) (EVar "contracted_intermediate")) (EScale (-1 # 1) (EEins "abcdijkl->abcdijlk" [(EVar "contracted_intermediate")]))) (EScale (-1 # 1) (EEins "abcdijkl->cbadijkl" [(EVar "contracted_intermediate")]))) (EScale (1 # 1) (EEins "abcdijkl->cbadijlk" [(EVar "contracted_intermediate")])));
   (*L460*) SAssign "contracted_intermediate" (EScale (1 # 1) (EEins "mbek,eajl,cdim->abcdijkl" [(ESlice (EVar "g_aaaa") [SV "o"; SV "v"; SV "v"; SV "o"]); (EVar "t2_aaaa"); (EVar "t2_aaaa")]));
   (*L461*) SAug true "quadruples_res" (EAdd (EAdd (EAdd (EScale (1 # 1) (EVar "contracted_intermediate")) (EScale (-1 # 1) (EEins "abcdijkl->abcdjikl" [(EVar "contracted_intermediate")]))) (EScale (-1 # 1) (EEins "abcdijkl->cbadijkl" [(EVar "contracted_intermediate")]))) (EScale (1 # 1) (EEins "abcdijkl->cbadjikl" [(EVar "contracted_intermediate")])));
   (*L464*) SAssign "contracted_intermediate" (EScale (-1 # 1) (EEins "mbej,eakl,cdim->abcdijkl" [(ESlice (EVar "g_aaaa") [SV "o"; SV "v"; SV "v"; SV "o"]); (EVar "t2_aaaa"); (EVar "t2_aaaa")]));
   (*L465*) SAug true "quadruples_res" (EAdd (EAdd (EAdd (EScale (1 # 1) (EVar "contracted_intermediate")) (EScale (-1 # 1) (EEins "abcdijkl->abcdkjil" [(EVar "contracted_intermediate")]))) (EScale (-1 # 1) (EEins "abcdijkl->cbadijkl" [(EVar "contracted_intermediate")]))) (EScale (1 # 1) (EEins "abcdijkl->cbadkjil" [(EVar "contracted_intermediate")])));
   (*L468*) SAssign "contracted_intermediate" (EScale (-1 # 1) (EEins "mbej,eaik,cdlm->abcdijkl" [(ESlice (EVar "g_aaaa") [SV "o"; SV "v"; SV "v"; SV "o"]); (EVar "t2_aaaa"); (EVar "t2_aaaa")]));
   (*L469*) SAug true "quadruples_res" (EAdd (EAdd (EAdd (EScale (1 # 1) (EVar "contracted_intermediate")) (EScale (-1 # 1) (EEins "abcdijkl->abcdjikl" [(EVar "contracted_intermediate")]))) (EScale (-1 # 1) (EEins "abcdijkl->cbadijkl" [(EVar "contracted_intermediate")]))) (EScale (1 # 1) (EEins "abcdijkl->cbadjikl" [(EVar "contracted_intermediate")])));
   (*L472*) SAssign "contracted_intermediate" (EScale (1 # 1) (EEins "mbei,eakl,cdjm->abcdijkl" [(ESlice (EVar "g_aaaa") [SV "o"; SV "v"; SV "v"; SV "o"]); (EVar "t2_aaaa"); (EVar "t2_aaaa")]));
   (*L473*) SAug true "quadruples_res" (EAdd (EAdd (EAdd (EScale (1 # 1) (EVar "contracted_intermediate")) (EScale (-1 # 1) (EEins "abcdijkl->abcdikjl" [(EVar "contracted_intermediate")]))) (EScale (-1 # 1) (EEins "abcdijkl->cbadijkl" [(EVar "contracted_intermediate")]))) (EScale (1 # 1) (EEins "abcdijkl->cbadikjl" [(EVar "contracted_intermediate")])));
   (*L476*) SAssign "contracted_intermediate" (EScale (1 # 1) (EEins "mcel,eajk,bdim->abcdijkl" [(ESlice (EVar "g_aaaa") [SV "o"; SV "v"; SV "v"; SV "o"]); (EVar "t2_aaaa"); (EVar "t2_aaaa")]));
   (*L477*) SAug true "quadruples_res" (EAdd (EAdd (EAdd (EScale (1 # 1) (EVar "contracted_intermediate")) (EScale (-1 # 1) (EEins "abcdijkl->abcdjikl" [(EVar "contracted_intermediate")]))) (EScale (-1 # 1) (EEins "abcdijkl->bacdijkl" [(EVar "contracted_intermediate")]))) (EScale (1 # 1) (EEins "abcdijkl->bacdjikl" [(EVar "contracted_intermediate")])));
   (*L480*) SAssign "contracted_intermediate" (EScale (1 # 1) (EEins "mcel,eaij,bdkm->abcdijkl" [(ESlice (EVar "g_aaaa") [SV "o"; SV "v"; SV "v"; SV "o"]); (EVar "t2_aaaa"); (EVar "t2_aaaa")]));
   (*L481*) SAug true "quadruples_res" (EAdd (EAdd (EAdd (EScale (1 # 1) (EVar "contracted_intermediate")) (EScale (-1 # 1) (EEins "abcdijkl->abcdijlk" [(EVar "contracted_intermediate")]))) (EScale (-1 # 1) (EEins "abcdijkl->bacdijkl" [(EVar "contracted_intermediate")]))) (EScale (1 # 1) (EEins "abcdijkl->bacdijlk" [(EVar "contracted_intermediate")])));
   (*L484*) SAssign "contracted_intermediate" (EScale (1 # 1) (EEins "mcel,edjk,abim->abcdijkl" [(ESlice (EVar "g_aaaa") [SV "o"; SV "v"; SV "v"; SV "o"]); (EVar "t2_aaaa"); (EVar "t2_aaaa")]));
   (*L485*) SAug true "quadruples_res" (EAdd (EAdd (EAdd (EScale (1 # 1) (EVar "contracted_intermediate")) (EScale (-1 # 1) (EEins "abcdijkl->abcdjikl" [(EVar "contracted_intermediate")]))) (EScale (-1 # 1) (EEins "abcdijkl->abdcijkl" [(EVar "contracted_intermediate")]))) (EScale (1 # 1) (EEins "abcdijkl->abdcjikl" [(EVar "contracted_intermediate")])));
   (*L488*) SAssign "contracted_intermediate" (EScale (1 # 1) (EEins "mcel,edij,abkm->abcdijkl" [(ESlice (EVar "g_aaaa") [SV "o"; SV "v"; SV "v"; SV "o"]); (EVar "t2_aaaa"); (EVar "t2_aaaa")]));
   (*L489*) SAug true "quadruples_res" (EAdd (EAdd (EAdd (EScale (1 # 1) (EVar "contracted_intermediate")) (EScale (-1 # 1) (EEins "abcdijkl->abcdijlk" [(EVar "contracted_intermediate")]))) (EScale (-1 # 1) (EEins "abcdijkl->abdcijkl" [(EVar "contracted_intermediate")]))) (EScale (1 # 1) (EEins "abcdijkl->abdcijlk" [(EVar "contracted_intermediate")])));
   (*L492*) SAssign "contracted_intermediate" (EScale (-1 # 1) (EEins "mcek,eajl,bdim->abcdijkl" [(ESlice (EVar "g_aaaa") [SV "o"; SV "v"; SV "v"; SV "o"]); (EVar "t2_aaaa"); (EVar "t2_aaaa")]));
   (*L493*) SAug true "quadruples_res" (EAdd (EAdd (EAdd (EScale (1 # 1) (EVar "contracted_intermediate")) (EScale (-1 # 1) (EEins "abcdijkl->abcdjikl" [(EVar "contracted_intermediate")]))) (EScale (-1 # 1) (EEins "abcdijkl->bacdijkl" [(EVar "contracted_intermediate")]))) (EScale (1 # 1) (EEins "abcdijkl->bacdjikl" [(EVar "contracted_intermediate")])));
   (*L496*) SAssign "contracted_intermediate" (EScale (-1 # 1) (EEins "mcek,edjl,abim->abcdijkl" [(ESlice (EVar "g_aaaa") [SV "o"; SV "v"; SV "v"; SV "o"]); (EVar "t2_aaaa"); (EVar "t2_aaaa")]));
   (*L497*) SAug true "quadruples_res" (EAdd (EAdd (EAdd (EScale (1 # 1) (EVar "contracted_intermediate")) (EScale (-1 # 1) (EEins "abcdijkl->abcdjikl" [(EVar "contracted_intermediate")]))) (EScale (-1 # 1) (EEins "abcdijkl->abdcijkl" [(EVar "contracted_intermediate")]))) (EScale (1 # 1) (EEins "abcdijkl->abdcjikl" [(EVar "contracted_intermediate")])));
   (*L500*) SAssign "contracted_intermediate" (EScale (1 # 1) (EEins "mcej,eakl,bdim->abcdijkl" [(ESlice (EVar "g_aaaa") [SV "o"; SV "v"; SV "v"; SV "o"]); (EVar "t2_aaaa"); (EVar "t2_aaaa")]));
   (*L501*) SAug true "quadruples_res" (EAdd (EAdd (EAdd (EScale (1 # 1) (EVar "contracted_intermediate")) (EScale (-1 # 1) (EEins "abcdijkl->abcdkjil" [(EVar "contracted_intermediate")]))) (EScale (-1 # 1) (EEins "abcdijkl->bacdijkl" [(EVar "contracted_intermediate")]))) (EScale (1 # 1) (EEins "abcdijkl->bacdkjil" [(EVar "contracted_intermediate")])));
   (*L504*) SAssign "contracted_intermediate" (EScale (1 # 1) (EEins "mcej,eaik,bdlm->abcdijkl" [(ESlice (EVar "g_aaaa") [SV "o"; SV "v"; SV "v"; SV "o"]); (EVar "t2_aaaa"); (EVar "t2_aaaa")]));
   (*L505*) SAug true "quadruples_res" (EAdd (EAdd (EAdd (EScale (1 # 1) (EVar "contracted_intermediate")) (EScale (-1 # 1) (EEins "abcdijkl->abcdjikl" [(EVar "contracted_intermediate")]))) (EScale (-1 # 1) (EEins "abcdijkl->bacdijkl" [(EVar "contracted_intermediate")]))) (EScale (1 # 1) (EEins "abcdijkl->bacdjikl" [(EVar "contracted_intermediate")])));
   (*L508*) SAssign "contracted_intermediate" (EScale (1 # 1) (EEins "mcej,edkl,abim->abcdijkl" [(ESlice (EVar "g_aaaa") [SV "o"; SV "v"; SV "v"; SV "o"]); (EVar "t2_aaaa"); (EVar "t2_aaaa")]));
   (*L509*) SAug true "quadruples_res" (EAdd (EAdd (EAdd (EScale (1 # 1) (EVar "contracted_intermediate")) (EScale (-1 # 1) (EEins "abcdijkl->abcdkjil" [(EVar "contracted_intermediate")]))) (EScale (-1 # 1) (EEins "abcdijkl->abdcijkl" [(EVar "contracted_intermediate")]))) (EScale (1 # 1) (EEins "abcdijkl->abdckjil" [(EVar "contracted_intermediate")])));
   (*L512*) SAssign "contracted_intermediate" (EScale (1 # 1) (EEins "mcej,edik,ablm->abcdijkl" [(ESlice (EVar "g_aaaa") [SV "o"; SV "v"; SV "v"; SV "o"]); (EVar "t2_aaaa"); (EVar "t2_aaaa")]));
   (*L513*) SAug true "quadruples_res" (EAdd (EAdd (EAdd (EScale (1 # 1) (EVar "contracted_intermediate")) (EScale (-1 # 1) (EEins "abcdijkl->abcdjikl" [(EVar "contracted_intermediate")]))) (EScale (-1 # 1) (EEins "abcdijkl->abdcijkl" [(EVar "contracted_intermediate")]))) (EScale (1 # 1) (EEins "abcdijkl->abdcjikl" [(EVar "contracted_intermediate")])));
   (*L516*) SAssign "contracted_intermediate" (EScale (-1 # 1) (EEins "mcei,eakl,bdjm->abcdijkl" [(ESlice (EVar "g_aaaa") [SV "o"; SV "v"; SV "v"; SV "o"]); (EVar "t2_aaaa"); (EVar "t2_aaaa")]));
   (*L517*) SAug true "quadruples_res" (EAdd (EAdd (EAdd (EScale (1 # 1) (EVar "contracted_intermediate")) (EScale (-1 # 1) (EEins "abcdijkl->abcdikjl" [(EVar "contracted_intermediate")]))) (EScale (-1 # 1) (EEins "abcdijkl->bacdijkl" [(EVar "contracted_intermediate")]))) (EScale (1 # 1) (EEins "abcdijkl->bacdikjl" [(EVar "contracted_intermediate")])));
   (*L520*) SAssign "contracted_intermediate" (EScale (-1 # 1) (EEins "mcei,edkl,abjm->abcdijkl" [(ESlice (EVar "g_aaaa") [SV "o"; SV "v"; SV "v"; SV "o"]); (EVar "t2_aaaa"); (EVar "t2_aaaa")]));
   (*L521*) SAug true "quadruples_res" (EAdd (EAdd (EAdd (EScale (1 # 1) (EVar "contracted_intermediate")) (EScale (-1 # 1) (EEins "abcdijkl->abcdikjl" [(EVar "contracted_intermediate")]))) (EScale (-1 # 1) (EEins "abcdijkl->abdcijkl" [(EVar "contracted_intermediate")]))) (EScale (1 # 1) (EEins "abcdijkl->abdcikjl" [(EVar "contracted_intermediate")])));
   (*L524*) SAssign "contracted_intermediate" (EScale (-1 # 1) (EEins "mdel,eajk,bcim->abcdijkl" [(ESlice (EVar "g_aaaa") [SV "o"; SV "v"; SV "v"; SV "o"]); (EVar "t2_aaaa"); (EVar "t2_aaaa")]));
   (*L525*) SAug true "quadruples_res" (EAdd (EAdd (EAdd (EScale (1 # 1) (EVar "contracted_intermediate")) (EScale (-1 # 1) (EEins "abcdijkl->abcdjikl" [(EVar "contracted_intermediate")]))) (EScale (-1 # 1) (EEins "abcdijkl->bacdijkl" [(EVar "contracted_intermediate")]))) (EScale (1 # 1) (EEins "abcdijkl->bacdjikl" [(EVar "contracted_intermediate")])));
   (*L528*) SAssign "contracted_intermediate" (EScale (-1 # 1) (EEins "mdel,eaij,bckm->abcdijkl" [(ESlice (EVar "g_aaaa") [SV "o"; SV "v"; SV "v"; SV "o"]); (EVar "t2_aaaa"); (EVar "t2_aaaa")]));
   (*L529*) SAug true "quadruples_res" (EAdd (EAdd (EAdd (EScale (1 # 1) (EVar "contracted_intermediate")) (EScale (-1 # 1) (EEins "abcdijkl->abcdijlk" [(EVar "contracted_intermediate")]))) (EScale (-1 # 1) (EEins "abcdijkl->bacdijkl" [(EVar "contracted_intermediate")]))) (EScale (1 # 1) (EEins "abcdijkl->bacdijlk" [(EVar "contracted_intermediate")])));
   (*L532*) SAssign "contracted_intermediate" (EScale (1 # 1) (EEins "mdek,eajl,bcim->abcdijkl" [(ESlice (EVar "g_aaaa") [SV "o"; SV "v"; SV "v"; SV "o"]); (EVar "t2_aaaa"); (EVar "t2_aaaa")]));
   (*L533*) SAug true "quadruples_res" (EAdd (EAdd (EAdd (EScale (1 # 1) (EVar "contracted_intermediate")) (EScale (-1 # 1) (EEins "abcdijkl->abcdjikl" [(EVar "contracted_intermediate")]))) (EScale (-1 # 1) (EEins "abcdijkl->bacdijkl" [(EVar "contracted_intermediate")]))) (EScale (1 # 1) (EEins "abcdijkl->bacdjikl" [(EVar "contracted_intermediate")])));
   (*L536*) SAssign "contracted_intermediate" (EScale (-1 # 1) (EEins "mdej,eakl,bcim->abcdijkl" [(ESlice (EVar "g_aaaa") [SV "o"; SV "v"; SV "v"; SV "o"]); (EVar "t2_aaaa"); (EVar "t2_aaaa")]));
   (*L537*) SAug true "quadruples_res" (EAdd (EAdd (EAdd (EScale (1 # 1) (EVar "contracted_intermediate")) (EScale (-1 # 1) (EEins "abcdijkl->abcdkjil" [(EVar "contracted_intermediate")]))) (EScale (-1 # 1) (EEins "abcdijkl->bacdijkl" [(EVar "contracted_intermediate")]))) (EScale (1 # 1) (EEins "abcdijkl->bacdkjil" [(EVar "contracted_intermediate")])));
   (*L540*) SAssign "contracted_intermediate" (EScale (-1 # 1) (EEins "mdej,eaik,bclm->abcdijkl" [(ESlice (EVar "g_aaaa") [SV "o"; SV "v"; SV "v"; SV "o"]); (EVar "t2_aaaa"); (EVar "t2_aaaa")]));
   (*L541*) SAug true "quadruples_res" (EAdd (EAdd (EAdd (EScale (1 # 1) (EVar "contracted_intermediate")) (EScale (-1 # 1) (EEins "abcdijkl->abcdjikl" [(EVar "contracted_intermediate")]))) (EScale (-1 # 1) (EEins "abcdijkl->bacdijkl" [(EVar "contracted_intermediate")]))) (EScale (1 # 1) (EEins "abcdijkl->bacdjikl" [(EVar "contracted_intermediate")])));
   (*L544*) SAssign "contracted_intermediate" (EScale (1 # 1) (EEins "mdei,eakl,bcjm->abcdijkl" [(ESlice (EVar "g_aaaa") [SV "o"; SV "v"; SV "v"; SV "o"]); (EVar "t2_aaaa"); (EVar "t2_aaaa")]));
   (*L545*) SAug true "quadruples_res" (EAdd (EAdd (EAdd (EScale (1 # 1) (EVar "contracted_intermediate")) (EScale (-1 # 1) (EEins "abcdijkl->abcdikjl" [(EVar "contracted_intermediate")]))) (EScale (-1 # 1) (EEins "abcdijkl->bacdijkl" [(EVar "contracted_intermediate")]))) (EScale (1 # 1) (EEins "abcdijkl->bacdikjl" [(EVar "contracted_intermediate")])));
   (*L548*) SAssign "contracted_intermediate" (EScale (-1 # 1) (EEins "abef,eckl,fdij->abcdijkl" [(ESlice (EVar "g_aaaa") [SV "v"; SV "v"; SV "v"; SV "v"]); (EVar "t2_aaaa"); (EVar "t2_aaaa")]));
   (*L549*) SAug true "quadruples_res" (EAdd (EAdd (EAdd (EScale (1 # 1) (EVar "contracted_intermediate")) (EScale (-1 # 1) (EEins "abcdijkl->abcdikjl" [(EVar "contracted_intermediate")]))) (EScale (-1 # 1) (EEins "abcdijkl->acbdijkl" [(EVar "contracted_intermediate")]))) (EScale (1 # 1) (EEins "abcdijkl->acbdikjl" [(EVar "contracted_intermediate")])));
   (*L552*) SAssign "contracted_intermediate" (EScale (-1 # 1) (EEins "abef,ecil,fdjk->abcdijkl" [(ESlice (EVar "g_aaaa") [SV "v"; SV "v"; SV "v"; SV "v"]); (EVar "t2_aaaa"); (EVar "t2_aaaa")]));
   (*L553*) SAug true "quadruples_res" (EAdd (EAdd (EAdd (EScale (1 # 1) (EVar "contracted_intermediate")) (EScale (-1 # 1) (EEins "abcdijkl->abcdijlk" [(EVar "contracted_intermediate")]))) (EScale (-1 # 1) (EEins "abcdijkl->acbdijkl" [(EVar "contracted_intermediate")]))) (EScale (1 # 1) (EEins "abcdijkl->acbdijlk" [(EVar "contracted_intermediate")])));
   (*L556*) SAssign "contracted_intermediate" (EScale (-1 # 1) (EEins "abef,ecjk,fdil->abcdijkl" [(ESlice (EVar "g_aaaa") [SV "v"; SV "v"; SV "v"; SV "v"]); (EVar "t2_aaaa"); (EVar "t2_aaaa")]));
   (*L557*) SAug true "quadruples_res" (EAdd (EAdd (EAdd (EScale (1 # 1) (EVar "contracted_intermediate")) (EScale (-1 # 1) (EEins "abcdijkl->abcdkjil" [(EVar "contracted_intermediate")]))) (EScale (-1 # 1) (EEins "abcdijkl->acbdijkl" [(EVar "contracted_intermediate")]))) (EScale (1 # 1) (EEins "abcdijkl->acbdkjil" [(EVar "contracted_intermediate")])));
   (*L560*) SAssign "contracted_intermediate" (EScale (-1 # 1) (EEins "adef,ebkl,fcij->abcdijkl" [(ESlice (EVar "g_aaaa") [SV "v"; SV "v"; SV "v"; SV "v"]); (EVar "t2_aaaa"); (EVar "t2_aaaa")]));
   (*L561*) SAug true "quadruples_res" (EAdd (EAdd (EAdd (EScale (1 # 1) (EVar "contracted_intermediate")) (EScale (-1 # 1) (EEins "abcdijkl->abcdikjl" [(EVar "contracted_intermediate")]))) (EScale (-1 # 1) (EEins "abcdijkl->bacdijkl" [(EVar "contracted_intermediate")]))) (EScale (1 # 1) (EEins "abcdijkl->bacdikjl" [(EVar "contracted_intermediate")])));
   (*L564*) SAssign "contracted_intermediate" (EScale (-1 # 1) (EEins "adef,ebil,fcjk->abcdijkl" [(ESlice (EVar "g_aaaa") [SV "v"; SV "v"; SV "v"; SV "v"]); (EVar "t2_aaaa"); (EVar "t2_aaaa")]));
   (*L565*) SAug true "quadruples_res" (EAdd (EAdd (EAdd (EScale (1 # 1) (EVar "contracted_intermediate")) (EScale (-1 # 1) (EEins "abcdijkl->abcdijlk" [(EVar "contracted_intermediate")]))) (EScale (-1 # 1) (EEins "abcdijkl->bacdijkl" [(EVar "contracted_intermediate")]))) (EScale (1 # 1) (EEins "abcdijkl->bacdijlk" [(EVar "contracted_intermediate")])));
   (*L568*) SAssign "contracted_intermediate" (EScale (-1 # 1) (EEins "adef,ebjk,fcil->abcdijkl" [(ESlice (EVar "g_aaaa") [SV "v"; SV "v"; SV "v"; SV "v"]); (EVar "t2_aaaa"); (EVar "t2_aaaa")]));
   (*L569*) SAug true "quadruples_res" (EAdd (EAdd (EAdd (EScale (1 # 1) (EVar "contracted_intermediate")) (EScale (-1 # 1) (EEins "abcdijkl->abcdkjil" [(EVar "contracted_intermediate")]))) (EScale (-1 # 1) (EEins "abcdijkl->bacdijkl" [(EVar "contracted_intermediate")]))) (EScale (1 # 1) (EEins "abcdijkl->bacdkjil" [(EVar "contracted_intermediate")])));
   (*L572*) SAssign "contracted_intermediate" (EScale (-1 # 1) (EEins "bcef,eakl,fdij->abcdijkl" [(ESlice (EVar "g_aaaa") [SV "v"; SV "v"; SV "v"; SV "v"]); (EVar "t2_aaaa"); (EVar "t2_aaaa")]));
   (*L573*) SAug true "quadruples_res" (EAdd (EAdd (EAdd (EScale (1 # 1) (EVar "contracted_intermediate")) (EScale (-1 # 1) (EEins "abcdijkl->abcdikjl" [(EVar "contracted_intermediate")]))) (EScale (-1 # 1) (EEins "abcdijkl->adcbijkl" [(EVar "contracted_intermediate")]))) (EScale (1 # 1) (EEins "abcdijkl->adcbikjl" [(EVar "contracted_intermediate")])));
   (*L576*) SAssign "contracted_intermediate" (EScale (-1 # 1) (EEins "bcef,eail,fdjk->abcdijkl" [(ESlice (EVar "g_aaaa") [SV "v"; SV "v"; SV "v"; SV "v"]); (EVar "t2_aaaa"); (EVar "t2_aaaa")]));
   (*L577*) SAug true "quadruples_res" (EAdd (EAdd (EAdd (EScale (1 # 1) (EVar "contracted_intermediate")) (EScale (-1 # 1) (EEins "abcdijkl->abcdijlk" [(EVar "contracted_intermediate")]))) (EScale (-1 # 1) (EEins "abcdijkl->adcbijkl" [(EVar "contracted_intermediate")]))) (EScale (1 # 1) (EEins "abcdijkl->adcbijlk" [(EVar "contracted_intermediate")])));
   (*L580*) SAssign "contracted_intermediate" (EScale (-1 # 1) (EEins "bcef,eajk,fdil->abcdijkl" [(ESlice (EVar "g_aaaa") [SV "v"; SV "v"; SV "v"; SV "v"]); (EVar "t2_aaaa"); (EVar "t2_aaaa")]));
   (*L581*) SAug true "quadruples_res" (EAdd (EAdd (EAdd (EScale (1 # 1) (EVar "contracted_intermediate")) (EScale (-1 # 1) (EEins "abcdijkl->abcdkjil" [(EVar "contracted_intermediate")]))) (EScale (-1 # 1) (EEins "abcdijkl->adcbijkl" [(EVar "contracted_intermediate")]))) (EScale (1 # 1) (EEins "abcdijkl->adcbkjil" [(EVar "contracted_intermediate")])));
   (*L584*) SAssign "contracted_intermediate" (EScale (1 # 1) (EEins "makl,bcdijm->abcdijkl" [(ESlice (EVar "g_aaaa") [SV "o"; SV "v"; SV "o"; SV "o"]); (EVar "t3_aaaaaa")]));
   (*L585*) SAug true "quadruples_res" (EAdd (EAdd (EAdd (EScale (1 # 1) (EVar "contracted_intermediate")) (EScale (-1 # 1) (EEins "abcdijkl->abcdikjl" [(EVar "contracted_intermediate")]))) (EScale (-1 # 1) (EEins "abcdijkl->bacdijkl" [(EVar "contracted_intermediate")]))) (EScale (1 # 1) (EEins "abcdijkl->bacdikjl" [(EVar "contracted_intermediate")])));
   (*L588*) SAssign "contracted_intermediate" (EScale (1 # 1) (EEins "mail,bcdjkm->abcdijkl" [(ESlice (EVar "g_aaaa") [SV "o"; SV "v"; SV "o"; SV "o"]); (EVar "t3_aaaaaa")]));
   (*L589*) SAug true "quadruples_res" (EAdd (EAdd (EAdd (EScale (1 # 1) (EVar "contracted_intermediate")) (EScale (-1 # 1) (EEins "abcdijkl->abcdijlk" [(EVar "contracted_intermediate")]))) (EScale (-1 # 1) (EEins "abcdijkl->bacdijkl" [(EVar "contracted_intermediate")]))) (EScale (1 # 1) (EEins "abcdijkl->bacdijlk" [(EVar "contracted_intermediate")])));
   (*L592*) SAssign "contracted_intermediate" (EScale (1 # 1) (EEins "majk,bcdilm->abcdijkl" [(ESlice (EVar "g_aaaa") [SV "o"; SV "v"; SV "o"; SV "o"]); (EVar "t3_aaaaaa")]));
   (*L593*) SAug true "quadruples_res" (EAdd (EAdd (EAdd (EScale (1 # 1) (EVar "contracted_intermediate")) (EScale (-1 # 1) (EEins "abcdijkl->abcdkjil" [(EVar "contracted_intermediate")]))) (EScale (-1 # 1) (EEins "abcdijkl->bacdijkl" [(EVar "contracted_intermediate")]))) (EScale (1 # 1) (EEins "abcdijkl->bacdkjil" [(EVar "contracted_intermediate")])));
   (*L596*) SAssign "contracted_intermediate" (EScale (1 # 1) (EEins "mckl,abdijm->abcdijkl" [(ESlice (EVar "g_aaaa") [SV "o"; SV "v"; SV "o"; SV "o"]); (EVar "t3_aaaaaa")]));
   (*L597*) SAug true "quadruples_res" (EAdd (EAdd (EAdd (EScale (1 # 1) (EVar "contracted_intermediate")) (EScale (-1 # 1) (EEins "abcdijkl->abcdikjl" [(EVar "contracted_intermediate")]))) (EScale (-1 # 1) (EEins "abcdijkl->abdcijkl" [(EVar "contracted_intermediate")]))) (EScale (1 # 1) (EEins "abcdijkl->abdcikjl" [(EVar "contracted_intermediate")])));
   (*L600*) SAssign "contracted_intermediate" (EScale (1 # 1) (EEins "mcil,abdjkm->abcdijkl" [(ESlice (EVar "g_aaaa") [SV "o"; SV "v"; SV "o"; SV "o"]); (EVar "t3_aaaaaa")]));
   (*L601*) SAug true "quadruples_res" (EAdd (EAdd (EAdd (EScale (1 # 1) (EVar "contracted_intermediate")) (EScale (-1 # 1) (EEins "abcdijkl->abcdijlk" [(EVar "contracted_intermediate")]))) (EScale (-1 # 1) (EEins "abcdijkl->abdcijkl" [(EVar "contracted_intermediate")]))) (EScale (1 # 1) (EEins "abcdijkl->abdcijlk" [(EVar "contracted_intermediate")])));
   (*L604*) SAssign "contracted_intermediate" (EScale (1 # 1) (EEins "mcjk,abdilm->abcdijkl" [(ESlice (EVar "g_aaaa") [SV "o"; SV "v"; SV "o"; SV "o"]); (EVar "t3_aaaaaa")]));
   (*L605*) SAug true "quadruples_res" (EAdd (EAdd (EAdd (EScale (1 # 1) (EVar "contracted_intermediate")) (EScale (-1 # 1) (EEins "abcdijkl->abcdkjil" [(EVar "contracted_intermediate")]))) (EScale (-1 # 1) (EEins "abcdijkl->abdcijkl" [(EVar "contracted_intermediate")]))) (EScale (1 # 1) (EEins "abcdijkl->abdckjil" [(EVar "contracted_intermediate")])));
   (*L608*) SAssign "contracted_intermediate" (EScale (1 # 1) (EEins "abel,ecdijk->abcdijkl" [(ESlice (EVar "g_aaaa") [SV "v"; SV "v"; SV "v"; SV "o"]); (EVar "t3_aaaaaa")]));
   (*L609*) SAug true "quadruples_res" (EAdd (EAdd (EAdd (EScale (1 # 1) (EVar "contracted_intermediate")) (EScale (-1 # 1) (EEins "abcdijkl->abcdijlk" [(EVar "contracted_intermediate")]))) (EScale (-1 # 1) (EEins "abcdijkl->acbdijkl" [(EVar "contracted_intermediate")]))) (EScale (1 # 1) (EEins "abcdijkl->acbdijlk" [(EVar "contracted_intermediate")])));
   (*L612*) SAssign "contracted_intermediate" (EScale (1 # 1) (EEins "abej,ecdikl->abcdijkl" [(ESlice (EVar "g_aaaa") [SV "v"; SV "v"; SV "v"; SV "o"]); (EVar "t3_aaaaaa")]));
   (*L613*) SAug true "quadruples_res" (EAdd (EAdd (EAdd (EScale (1 # 1) (EVar "contracted_intermediate")) (EScale (-1 # 1) (EEins "abcdijkl->abcdjikl" [(EVar "contracted_intermediate")]))) (EScale (-1 # 1) (EEins "abcdijkl->acbdijkl" [(EVar "contracted_intermediate")]))) (EScale (1 # 1) (EEins "abcdijkl->acbdjikl" [(EVar "contracted_intermediate")])));
   (*L616*) SAssign "contracted_intermediate" (EScale (1 # 1) (EEins "adel,ebcijk->abcdijkl" [(ESlice (EVar "g_aaaa") [SV "v"; SV "v"; SV "v"; SV "o"]); (EVar "t3_aaaaaa")]));
   (*L617*) SAug true "quadruples_res" (EAdd (EAdd (EAdd (EScale (1 # 1) (EVar "contracted_intermediate")) (EScale (-1 # 1) (EEins "abcdijkl->abcdijlk" [(EVar "contracted_intermediate")]))) (EScale (-1 # 1) (EEins "abcdijkl->bacdijkl" [(EVar "contracted_intermediate")]))) (EScale (1 # 1) (EEins "abcdijkl->bacdijlk" [(EVar "contracted_intermediate")])));
   (*L620*) SAssign "contracted_intermediate" (EScale (1 # 1) (EEins "adej,ebcikl->abcdijkl" [(ESlice (EVar "g_aaaa") [SV "v"; SV "v"; SV "v"; SV "o"]); (EVar "t3_aaaaaa")]));
   (*L621*) SAug true "quadruples_res" (EAdd (EAdd (EAdd (EScale (1 # 1) (EVar "contracted_intermediate")) (EScale (-1 # 1) (EEins "abcdijkl->abcdjikl" [(EVar "contracted_intermediate")]))) (EScale (-1 # 1) (EEins "abcdijkl->bacdijkl" [(EVar "contracted_intermediate")]))) (EScale (1 # 1) (EEins "abcdijkl->bacdjikl" [(EVar "contracted_intermediate")])));
   (*L624*) SAssign "contracted_intermediate" (EScale (1 # 1) (EEins "bcel,eadijk->abcdijkl" [(ESlice (EVar "g_aaaa") [SV "v"; SV "v"; SV "v"; SV "o"]); (EVar "t3_aaaaaa")]));
   (*L625*) SAug true "quadruples_res" (EAdd (EAdd (EAdd (EScale (1 # 1) (EVar "contracted_intermediate")) (EScale (-1 # 1) (EEins "abcdijkl->abcdijlk" [(EVar "contracted_intermediate")]))) (EScale (-1 # 1) (EEins "abcdijkl->adcbijkl" [(EVar "contracted_intermediate")]))) (EScale (1 # 1) (EEins "abcdijkl->adcbijlk" [(EVar "contracted_intermediate")])));
   (*L628*) SAssign "contracted_intermediate" (EScale (1 # 1) (EEins "bcej,eadikl->abcdijkl" [(ESlice (EVar "g_aaaa") [SV "v"; SV "v"; SV "v"; SV "o"]); (EVar "t3_aaaaaa")]));
   (*L629*) SAug true "quadruples_res" (EAdd (EAdd (EAdd (EScale (1 # 1) (EVar "contracted_intermediate")) (EScale (-1 # 1) (EEins "abcdijkl->abcdjikl" [(EVar "contracted_intermediate")]))) (EScale (-1 # 1) (EEins "abcdijkl->adcbijkl" [(EVar "contracted_intermediate")]))) (EScale (1 # 1) (EEins "abcdijkl->adcbjikl" [(EVar "contracted_intermediate")])))]
  (*L631*) (EVar "quadruples_res").

(** /repo/UT2/fullCCenergy.py:634-956  def ccsdtq_t4_aaabaaab_residual *)
Definition ccsdtq_t4_aaabaaab_residual : fn := mkFn
  ["t1_aa"; "t1_bb"; "t2_aaaa"; "t2_bbbb"; "t2_abab"; "t3_aaaaaa"; "t3_aabaab"; "t3_abbabb"; "t3_bbbbbb"; "t4_aaaaaaaa"; "t4_aaabaaab"; "t4_aabbaabb"; "t4_abbbabbb"; "t4_bbbbbbbb"; "f_aa"; "f_bb"; "g_aaaa"; "g_bbbb"; "g_abab"; "oa"; "ob"; "va"; "vb"]
  [(*L642*) SAssign "o" (EVar "oa");
   (*L643*) SAssign "v" (EVar "va");
   (*L646*) SAssign "contracted_intermediate" (EScale (1 # 1) (EEins "mnkl,abjm,cdin->abcdijkl" [(ESlice (EVar "g_abab") [SV "o"; SV "o"; SV "o"; SV "o"]); (EVar "t2_aaaa"); (EVar "t2_abab")]));
   (*L647*) SAssign "quadruples_res" (EAdd (EAdd (EAdd (EScale (1 # 1) (EVar "contracted_intermediate")) (EScale (-1 # 1) (EEins "abcdijkl->abcdjikl" [(EVar "contracted_intermediate")]))) (EScale (-1 # 1) (EEins "abcdijkl->acbdijkl" [(EVar "contracted_intermediate")]))) (EScale (1 # 1) (EEins "abcdijkl->acbdjikl" [(EVar "contracted_intermediate")])));
   (*L650*) SAssign "contracted_intermediate" (EScale (-1 # 1) (EEins "nmkl,adjm,bcin->abcdijkl" [(ESlice (EVar "g_abab") [SV "o"; SV "o"; SV "o"; SV "o"]); (EVar "t2_abab"); (EVar "t2_aaaa")]));
   (*L651*) SAug true "quadruples_res" (EAdd (EScale (1 # 1) (EVar "contracted_intermediate")) (EScale (-1 # 1) (EEins "abcdijkl->abcdjikl" [(EVar "contracted_intermediate")])));
   (*L654*) SAssign "contracted_intermediate" (EScale (-1 # 1) (EEins "mnjl,abkm,cdin->abcdijkl" [(ESlice (EVar "g_abab") [SV "o"; SV "o"; SV "o"; SV "o"]); (EVar "t2_aaaa"); (EVar "t2_abab")]));
   (*L655*) SAug true "quadruples_res" (EAdd (EAdd (EAdd (EScale (1 # 1) (EVar "contracted_intermediate")) (EScale (-1 # 1) (EEins "abcdijkl->abcdkjil" [(EVar "contracted_intermediate")]))) (EScale (-1 # 1) (EEins "abcdijkl->acbdijkl" [(EVar "contracted_intermediate")]))) (EScale (1 # 1) (EEins "abcdijkl->acbdkjil" [(EVar "contracted_intermediate")])));
   (*L658*) SAssign "contracted_intermediate" (EScale (1 # 1) (EEins "nmjl,adkm,bcin->abcdijkl" [(ESlice (EVar "g_abab") [SV "o"; SV "o"; SV "o"; SV "o"]); (EVar "t2_abab"); (EVar "t2_aaaa")]));
   (*L659*) SAug true "quadruples_res" (EAdd (EScale (1 # 1) (EVar "contracted_intermediate")) (EScale (-1 # 1) (EEins "abcdijkl->abcdkjil" [(EVar "contracted_intermediate")])));
   (*L662*) SAssign "contracted_intermediate" (EScale (1 # 1) (EEins "mnil,abkm,cdjn->abcdijkl" [(ESlice (EVar "g_abab") [SV "o"; SV "o"; SV "o"; SV "o"]); (EVar "t2_aaaa"); (EVar "t2_abab")]));
   (*L663*) SAug true "quadruples_res" (EAdd (EAdd (EAdd (EScale (1 # 1) (EVar "contracted_intermediate")) (EScale (-1 # 1) (EEins "abcdijkl->abcdikjl" [(EVar "contracted_intermediate")]))) (EScale (-1 # 1) (EEins "abcdijkl->acbdijkl" [(EVar "contracted_intermediate")]))) (EScale (1 # 1) (EEins "abcdijkl->acbdikjl" [(EVar "contracted_intermediate")])));
   (*L666*) SAssign "contracted_intermediate" (EScale (-1 # 1) (EEins "nmil,adkm,bcjn->abcdijkl" [(ESlice (EVar "g_abab") [SV "o"; SV "o"; SV "o"; SV "o"]); (EVar "t2_abab"); (EVar "t2_aaaa")]));
   (*L667*) SAug true "quadruples_res" (EAdd (EScale (1 # 1) (EVar "contracted_intermediate")) (EScale (-1 # 1) (EEins "abcdijkl->abcdikjl" [(EVar "contracted_intermediate")])));
   (*L670*) SAssign "contracted_intermediate" (EScale (-1 # 1) (EEins "nmjk,abim,cdnl->abcdijkl" [(ESlice (EVar "g_aaaa") [SV "o"; SV "o"; SV "o"; SV "o"]); (EVar "t2_aaaa"); (EVar "t2_abab")]));
   (*L671*) SAug true "quadruples_res" (EAdd (EScale (1 # 1) (EVar "contracted_intermediate")) (EScale (-1 # 1) (EEins "abcdijkl->acbdijkl" [(EVar "contracted_intermediate")])));
   (*L674*) SAug true "quadruples_res" (EScale (1 # 1) (EEins "nmjk,adml,bcin->abcdijkl" [(ESlice (EVar "g_aaaa") [SV "o"; SV "o"; SV "o"; SV "o"]); (EVar "t2_abab"); (EVar "t2_aaaa")]));
   (*L677*) SAssign "contracted_intermediate" (EScale (1 # 1) (EEins "nmik,abjm,cdnl->abcdijkl" [(ESlice (EVar "g_aaaa") [SV "o"; SV "o"; SV "o"; SV "o"]); (EVar "t2_aaaa"); (EVar "t2_abab")]));
   (*L678*) SAug true "quadruples_res" (EAdd (EScale (1 # 1) (EVar "contracted_intermediate")) (EScale (-1 # 1) (EEins "abcdijkl->acbdijkl" [(EVar "contracted_intermediate")])));
   (*L681*) SAug true "quadruples_res" (EScale (-1 # 1) (EEins "nmik,adml,bcjn->abcdijkl" [(ESlice (EVar "g_aaaa") [SV "o"; SV "o"; SV "o"; SV "o"]); (EVar "t2_abab"); (EVar "t2_aaaa")]));
   (*L684*) SAssign "contracted_intermediate" (EScale (-1 # 1) (EEins "nmij,abkm,cdnl->abcdijkl" [(ESlice (EVar "g_aaaa") [SV "o"; SV "o"; SV "o"; SV "o"]); (EVar "t2_aaaa"); (EVar "t2_abab")]));
   (*L685*) SAug true "quadruples_res" (EAdd (EScale (1 # 1) (EVar "contracted_intermediate")) (EScale (-1 # 1) (EEins "abcdijkl->acbdijkl" [(EVar "contracted_intermediate")])));
   (*L688*) SAug true "quadruples_res" (EScale (1 # 1) (EEins "nmij,adml,bckn->abcdijkl" [(ESlice (EVar "g_aaaa") [SV "o"; SV "o"; SV "o"; SV "o"]); (EVar "t2_abab"); (EVar "t2_aaaa")]));
   (*L691*) SAssign "contracted_intermediate" (EScale (-1 # 1) (EEins "amel,ebjk,cdim->abcdijkl" [(ESlice (EVar "g_abab") [SV "v"; SV "o"; SV "v"; SV "o"]); (EVar "t2_aaaa"); (EVar "t2_abab")]));
   (*L692*) SAug true "quadruples_res" (EAdd (EAdd (EAdd (EScale (1 # 1) (EVar "contracted_intermediate")) (EScale (-1 # 1) (EEins "abcdijkl->abcdjikl" [(EVar "contracted_intermediate")]))) (EScale (-1 # 1) (EEins "abcdijkl->acbdijkl" [(EVar "contracted_intermediate")]))) (EScale (1 # 1) (EEins "abcdijkl->acbdjikl" [(EVar "contracted_intermediate")])));
   (*L695*) SAssign "contracted_intermediate" (EScale (-1 # 1) (EEins "amel,ebij,cdkm->abcdijkl" [(ESlice (EVar "g_abab") [SV "v"; SV "o"; SV "v"; SV "o"]); (EVar "t2_aaaa"); (EVar "t2_abab")]));
   (*L696*) SAug true "quadruples_res" (EAdd (EScale (1 # 1) (EVar "contracted_intermediate")) (EScale (-1 # 1) (EEins "abcdijkl->acbdijkl" [(EVar "contracted_intermediate")])));
   (*L699*) SAssign "contracted_intermediate" (EScale (1 # 1) (EEins "maek,ebij,cdml->abcdijkl" [(ESlice (EVar "g_aaaa") [SV "o"; SV "v"; SV "v"; SV "o"]); (EVar "t2_aaaa"); (EVar "t2_abab")]));
   (*L700*) SAug true "quadruples_res" (EAdd (EScale (1 # 1) (EVar "contracted_intermediate")) (EScale (-1 # 1) (EEins "abcdijkl->acbdijkl" [(EVar "contracted_intermediate")])));
   (*L703*) SAssign "contracted_intermediate" (EScale (1 # 1) (EEins "amke,bejl,cdim->abcdijkl" [(ESlice (EVar "g_abab") [SV "v"; SV "o"; SV "o"; SV "v"]); (EVar "t2_abab"); (EVar "t2_abab")]));
   (*L704*) SAug true "quadruples_res" (EAdd (EAdd (EAdd (EScale (1 # 1) (EVar "contracted_intermediate")) (EScale (-1 # 1) (EEins "abcdijkl->abcdjikl" [(EVar "contracted_intermediate")]))) (EScale (-1 # 1) (EEins "abcdijkl->acbdijkl" [(EVar "contracted_intermediate")]))) (EScale (1 # 1) (EEins "abcdijkl->acbdjikl" [(EVar "contracted_intermediate")])));
   (*L707*) SAssign "contracted_intermediate" (EScale (-1 # 1) (EEins "maek,edjl,bcim->abcdijkl" [(ESlice (EVar "g_aaaa") [SV "o"; SV "v"; SV "v"; SV "o"]); (EVar "t2_abab"); (EVar "t2_aaaa")]));
   (*L708*) SAug true "quadruples_res" (EAdd (EAdd (EAdd (EScale (1 # 1) (EVar "contracted_intermediate")) (EScale (-1 # 1) (EEins "abcdijkl->abcdjikl" [(EVar "contracted_intermediate")]))) (EScale (-1 # 1) (EEins "abcdijkl->bacdijkl" [(EVar "contracted_intermediate")]))) (EScale (1 # 1) (EEins "abcdijkl->bacdjikl" [(EVar "contracted_intermediate")])));
   (*L711*) SAssign "contracted_intermediate" (EScale (-1 # 1) (EEins "amje,bekl,cdim->abcdijkl" [(ESlice (EVar "g_abab") [SV "v"; SV "o"; SV "o"; SV "v"]); (EVar "t2_abab"); (EVar "t2_abab")]));
   (*L712*) SAug true "quadruples_res" (EAdd (EAdd (EAdd (EScale (1 # 1) (EVar "contracted_intermediate")) (EScale (-1 # 1) (EEins "abcdijkl->abcdkjil" [(EVar "contracted_intermediate")]))) (EScale (-1 # 1) (EEins "abcdijkl->acbdijkl" [(EVar "contracted_intermediate")]))) (EScale (1 # 1) (EEins "abcdijkl->acbdkjil" [(EVar "contracted_intermediate")])));
   (*L715*) SAssign "contracted_intermediate" (EScale (-1 # 1) (EEins "maej,ebik,cdml->abcdijkl" [(ESlice (EVar "g_aaaa") [SV "o"; SV "v"; SV "v"; SV "o"]); (EVar "t2_aaaa"); (EVar "t2_abab")]));
   (*L716*) SAug true "quadruples_res" (EAdd (EAdd (EAdd (EScale (1 # 1) (EVar "contracted_intermediate")) (EScale (-1 # 1) (EEins "abcdijkl->abcdjikl" [(EVar "contracted_intermediate")]))) (EScale (-1 # 1) (EEins "abcdijkl->acbdijkl" [(EVar "contracted_intermediate")]))) (EScale (1 # 1) (EEins "abcdijkl->acbdjikl" [(EVar "contracted_intermediate")])));
   (*L719*) SAssign "contracted_intermediate" (EScale (1 # 1) (EEins "maej,edkl,bcim->abcdijkl" [(ESlice (EVar "g_aaaa") [SV "o"; SV "v"; SV "v"; SV "o"]); (EVar "t2_abab"); (EVar "t2_aaaa")]));
   (*L720*) SAug true "quadruples_res" (EAdd (EAdd (EAdd (EScale (1 # 1) (EVar "contracted_intermediate")) (EScale (-1 # 1) (EEins "abcdijkl->abcdkjil" [(EVar "contracted_intermediate")]))) (EScale (-1 # 1) (EEins "abcdijkl->bacdijkl" [(EVar "contracted_intermediate")]))) (EScale (1 # 1) (EEins "abcdijkl->bacdkjil" [(EVar "contracted_intermediate")])));
   (*L723*) SAssign "contracted_intermediate" (EScale (1 # 1) (EEins "amie,bekl,cdjm->abcdijkl" [(ESlice (EVar "g_abab") [SV "v"; SV "o"; SV "o"; SV "v"]); (EVar "t2_abab"); (EVar "t2_abab")]));
   (*L724*) SAug true "quadruples_res" (EAdd (EAdd (EAdd (EScale (1 # 1) (EVar "contracted_intermediate")) (EScale (-1 # 1) (EEins "abcdijkl->abcdikjl" [(EVar "contracted_intermediate")]))) (EScale (-1 # 1) (EEins "abcdijkl->acbdijkl" [(EVar "contracted_intermediate")]))) (EScale (1 # 1) (EEins "abcdijkl->acbdikjl" [(EVar "contracted_intermediate")])));
   (*L727*) SAssign "contracted_intermediate" (EScale (-1 # 1) (EEins "maei,edkl,bcjm->abcdijkl" [(ESlice (EVar "g_aaaa") [SV "o"; SV "v"; SV "v"; SV "o"]); (EVar "t2_abab"); (EVar "t2_aaaa")]));
   (*L728*) SAug true "quadruples_res" (EAdd (EAdd (EAdd (EScale (1 # 1) (EVar "contracted_intermediate")) (EScale (-1 # 1) (EEins "abcdijkl->abcdikjl" [(EVar "contracted_intermediate")]))) (EScale (-1 # 1) (EEins "abcdijkl->bacdijkl" [(EVar "contracted_intermediate")]))) (EScale (1 # 1) (EEins "abcdijkl->bacdikjl" [(EVar "contracted_intermediate")])));
   (*L731*) SAssign "contracted_intermediate" (EScale (1 # 1) (EEins "bmel,eajk,cdim->abcdijkl" [(ESlice (EVar "g_abab") [SV "v"; SV "o"; SV "v"; SV "o"]); (EVar "t2_aaaa"); (EVar "t2_abab")]));
   (*L732*) SAug true "quadruples_res" (EAdd (EAdd (EAdd (EScale (1 # 1) (EVar "contracted_intermediate")) (EScale (-1 # 1) (EEins "abcdijkl->abcdjikl" [(EVar "contracted_intermediate")]))) (EScale (-1 # 1) (EEins "abcdijkl->cbadijkl" [(EVar "contracted_intermediate")]))) (EScale (1 # 1) (EEins "abcdijkl->cbadjikl" [(EVar "contracted_intermediate")])));
   (*L735*) SAssign "contracted_intermediate" (EScale (1 # 1) (EEins "bmel,eaij,cdkm->abcdijkl" [(ESlice (EVar "g_abab") [SV "v"; SV "o"; SV "v"; SV "o"]); (EVar "t2_aaaa"); (EVar "t2_abab")]));
   (*L736*) SAug true "quadruples_res" (EAdd (EScale (1 # 1) (EVar "contracted_intermediate")) (EScale (-1 # 1) (EEins "abcdijkl->cbadijkl" [(EVar "contracted_intermediate")])));
   (*L739*) SAssign "contracted_intermediate" (EScale (-1 # 1) (EEins "mbek,eaij,cdml->abcdijkl" [(ESlice (EVar "g_aaaa") [SV "o"; SV "v"; SV "v"; SV "o"]); (EVar "t2_aaaa"); (EVar "t2_abab")]));
   (*L740*) SAug true "quadruples_res" (EAdd (EScale (1 # 1) (EVar "contracted_intermediate")) (EScale (-1 # 1) (EEins "abcdijkl->cbadijkl" [(EVar "contracted_intermediate")])));
   (*L743*) SAssign "contracted_intermediate" (EScale (-1 # 1) (EEins "bmke,aejl,cdim->abcdijkl" [(ESlice (EVar "g_abab") [SV "v"; SV "o"; SV "o"; SV "v"]); (EVar "t2_abab"); (EVar "t2_abab")]));
   (*L744*) SAug true "quadruples_res" (EAdd (EAdd (EAdd (EScale (1 # 1) (EVar "contracted_intermediate")) (EScale (-1 # 1) (EEins "abcdijkl->abcdjikl" [(EVar "contracted_intermediate")]))) (EScale (-1 # 1) (EEins "abcdijkl->cbadijkl" [(EVar "contracted_intermediate")]))) (EScale (1 # 1) (EEins "abcdijkl->cbadjikl" [(EVar "contracted_intermediate")])));
   (*L747*) SAssign "contracted_intermediate" (EScale (1 # 1) (EEins "bmje,aekl,cdim->abcdijkl" [(ESlice (EVar "g_abab") [SV "v"; SV "o"; SV "o"; SV "v"]); (EVar "t2_abab"); (EVar "t2_abab")]));
   (*L748*) SAug true "quadruples_res" (EAdd (EAdd (EAdd (EScale (1 # 1) (EVar "contracted_intermediate")) (EScale (-1 # 1) (EEins "abcdijkl->abcdkjil" [(EVar "contracted_intermediate")]))) (EScale (-1 # 1) (EEins "abcdijkl->cbadijkl" [(EVar "contracted_intermediate")]))) (EScale (1 # 1) (EEins "abcdijkl->cbadkjil" [(EVar "contracted_intermediate")])));
   (*L751*) SAssign "contracted_intermediate" (EScale (1 # 1) (EEins "mbej,eaik,cdml->abcdijkl" [(ESlice (EVar "g_aaaa") [SV "o"; SV "v"; SV "v"; SV "o"]); (EVar "t2_aaaa"); (EVar "t2_abab")]));
   (*L752*) SAug true "quadruples_res" (EAdd (EAdd (EAdd (EScale (1 # 1) (EVar "contracted_intermediate")) (EScale (-1 # 1) (EEins "abcdijkl->abcdjikl" [(EVar "contracted_intermediate")]))) (EScale (-1 # 1) (EEins "abcdijkl->cbadijkl" [(EVar "contracted_intermediate")]))) (EScale (1 # 1) (EEins "abcdijkl->cbadjikl" [(EVar "contracted_intermediate")])));
   (*L755*) SAssign "contracted_intermediate" (EScale (-1 # 1) (EEins "bmie,aekl,cdjm->abcdijkl" [(ESlice (EVar "g_abab") [SV "v"; SV "o"; SV "o"; SV "v"]); (EVar "t2_abab"); (EVar "t2_abab")]));
   (*L756*) SAug true "quadruples_res" (EAdd (EAdd (EAdd (EScale (1 # 1) (EVar "contracted_intermediate")) (EScale (-1 # 1) (EEins "abcdijkl->abcdikjl" [(EVar "contracted_intermediate")]))) (EScale (-1 # 1) (EEins "abcdijkl->cbadijkl" [(EVar "contracted_intermediate")]))) (EScale (1 # 1) (EEins "abcdijkl->cbadikjl" [(EVar "contracted_intermediate")])));
   (*L759*) SAssign "contracted_intermediate" (EScale (-1 # 1) (EEins "cmel,eajk,bdim->abcdijkl" [(ESlice (EVar "g_abab") [SV "v"; SV "o"; SV "v"; SV "o"]); (EVar "t2_aaaa"); (EVar "t2_abab")]));
   (*L760*) SAug true "quadruples_res" (EAdd (EAdd (EAdd (EScale (1 # 1) (EVar "contracted_intermediate")) (EScale (-1 # 1) (EEins "abcdijkl->abcdjikl" [(EVar "contracted_intermediate")]))) (EScale (-1 # 1) (EEins "abcdijkl->bacdijkl" [(EVar "contracted_intermediate")]))) (EScale (1 # 1) (EEins "abcdijkl->bacdjikl" [(EVar "contracted_intermediate")])));
   (*L763*) SAssign "contracted_intermediate" (EScale (-1 # 1) (EEins "cmel,eaij,bdkm->abcdijkl" [(ESlice (EVar "g_abab") [SV "v"; SV "o"; SV "v"; SV "o"]); (EVar "t2_aaaa"); (EVar "t2_abab")]));
   (*L764*) SAug true "quadruples_res" (EAdd (EScale (1 # 1) (EVar "contracted_intermediate")) (EScale (-1 # 1) (EEins "abcdijkl->bacdijkl" [(EVar "contracted_intermediate")])));
   (*L767*) SAssign "contracted_intermediate" (EScale (1 # 1) (EEins "mcek,eaij,bdml->abcdijkl" [(ESlice (EVar "g_aaaa") [SV "o"; SV "v"; SV "v"; SV "o"]); (EVar "t2_aaaa"); (EVar "t2_abab")]));
   (*L768*) SAug true "quadruples_res" (EAdd (EScale (1 # 1) (EVar "contracted_intermediate")) (EScale (-1 # 1) (EEins "abcdijkl->bacdijkl" [(EVar "contracted_intermediate")])));
   (*L771*) SAssign "contracted_intermediate" (EScale (-1 # 1) (EEins "mdel,ecjk,abim->abcdijkl" [(ESlice (EVar "g_abab") [SV "o"; SV "v"; SV "v"; SV "o"]); (EVar "t2_aaaa"); (EVar "t2_aaaa")]));
   (*L772*) SAug true "quadruples_res" (EAdd (EScale (1 # 1) (EVar "contracted_intermediate")) (EScale (-1 # 1) (EEins "abcdijkl->abcdjikl" [(EVar "contracted_intermediate")])));
   (*L775*) SAug true "quadruples_res" (EScale (-1 # 1) (EEins "mdel,ecij,abkm->abcdijkl" [(ESlice (EVar "g_abab") [SV "o"; SV "v"; SV "v"; SV "o"]); (EVar "t2_aaaa"); (EVar "t2_aaaa")]));
   (*L778*) SAssign "contracted_intermediate" (EScale (1 # 1) (EEins "cmke,aejl,bdim->abcdijkl" [(ESlice (EVar "g_abab") [SV "v"; SV "o"; SV "o"; SV "v"]); (EVar "t2_abab"); (EVar "t2_abab")]));
   (*L779*) SAug true "quadruples_res" (EAdd (EAdd (EAdd (EScale (1 # 1) (EVar "contracted_intermediate")) (EScale (-1 # 1) (EEins "abcdijkl->abcdjikl" [(EVar "contracted_intermediate")]))) (EScale (-1 # 1) (EEins "abcdijkl->bacdijkl" [(EVar "contracted_intermediate")]))) (EScale (1 # 1) (EEins "abcdijkl->bacdjikl" [(EVar "contracted_intermediate")])));
   (*L782*) SAssign "contracted_intermediate" (EScale (-1 # 1) (EEins "mcek,edjl,abim->abcdijkl" [(ESlice (EVar "g_aaaa") [SV "o"; SV "v"; SV "v"; SV "o"]); (EVar "t2_abab"); (EVar "t2_aaaa")]));
   (*L783*) SAug true "quadruples_res" (EAdd (EScale (1 # 1) (EVar "contracted_intermediate")) (EScale (-1 # 1) (EEins "abcdijkl->abcdjikl" [(EVar "contracted_intermediate")])));
   (*L786*) SAssign "contracted_intermediate" (EScale (1 # 1) (EEins "mdke,cejl,abim->abcdijkl" [(ESlice (EVar "g_abab") [SV "o"; SV "v"; SV "o"; SV "v"]); (EVar "t2_abab"); (EVar "t2_aaaa")]));
   (*L787*) SAug true "quadruples_res" (EAdd (EScale (1 # 1) (EVar "contracted_intermediate")) (EScale (-1 # 1) (EEins "abcdijkl->abcdjikl" [(EVar "contracted_intermediate")])));
   (*L790*) SAssign "contracted_intermediate" (EScale (-1 # 1) (EEins "cmje,aekl,bdim->abcdijkl" [(ESlice (EVar "g_abab") [SV "v"; SV "o"; SV "o"; SV "v"]); (EVar "t2_abab"); (EVar "t2_abab")]));
   (*L791*) SAug true "quadruples_res" (EAdd (EAdd (EAdd (EScale (1 # 1) (EVar "contracted_intermediate")) (EScale (-1 # 1) (EEins "abcdijkl->abcdkjil" [(EVar "contracted_intermediate")]))) (EScale (-1 # 1) (EEins "abcdijkl->bacdijkl" [(EVar "contracted_intermediate")]))) (EScale (1 # 1) (EEins "abcdijkl->bacdkjil" [(EVar "contracted_intermediate")])));
   (*L794*) SAssign "contracted_intermediate" (EScale (-1 # 1) (EEins "mcej,eaik,bdml->abcdijkl" [(ESlice (EVar "g_aaaa") [SV "o"; SV "v"; SV "v"; SV "o"]); (EVar "t2_aaaa"); (EVar "t2_abab")]));
   (*L795*) SAug true "quadruples_res" (EAdd (EAdd (EAdd (EScale (1 # 1) (EVar "contracted_intermediate")) (EScale (-1 # 1) (EEins "abcdijkl->abcdjikl" [(EVar "contracted_intermediate")]))) (EScale (-1 # 1) (EEins "abcdijkl->bacdijkl" [(EVar "contracted_intermediate")]))) (EScale (1 # 1) (EEins "abcdijkl->bacdjikl" [(EVar "contracted_intermediate")])));
   (*L798*) SAssign "contracted_intermediate" (EScale (1 # 1) (EEins "mcej,edkl,abim->abcdijkl" [(ESlice (EVar "g_aaaa") [SV "o"; SV "v"; SV "v"; SV "o"]); (EVar "t2_abab"); (EVar "t2_aaaa")]));
   (*L799*) SAug true "quadruples_res" (EAdd (EScale (1 # 1) (EVar "contracted_intermediate")) (EScale (-1 # 1) (EEins "abcdijkl->abcdkjil" [(EVar "contracted_intermediate")])));
   (*L802*) SAssign "contracted_intermediate" (EScale (-1 # 1) (EEins "mdje,cekl,abim->abcdijkl" [(ESlice (EVar "g_abab") [SV "o"; SV "v"; SV "o"; SV "v"]); (EVar "t2_abab"); (EVar "t2_aaaa")]));
   (*L803*) SAug true "quadruples_res" (EAdd (EScale (1 # 1) (EVar "contracted_intermediate")) (EScale (-1 # 1) (EEins "abcdijkl->abcdkjil" [(EVar "contracted_intermediate")])));
   (*L806*) SAssign "contracted_intermediate" (EScale (1 # 1) (EEins "cmie,aekl,bdjm->abcdijkl" [(ESlice (EVar "g_abab") [SV "v"; SV "o"; SV "o"; SV "v"]); (EVar "t2_abab"); (EVar "t2_abab")]));
   (*L807*) SAug true "quadruples_res" (EAdd (EAdd (EAdd (EScale (1 # 1) (EVar "contracted_intermediate")) (EScale (-1 # 1) (EEins "abcdijkl->abcdikjl" [(EVar "contracted_intermediate")]))) (EScale (-1 # 1) (EEins "abcdijkl->bacdijkl" [(EVar "contracted_intermediate")]))) (EScale (1 # 1) (EEins "abcdijkl->bacdikjl" [(EVar "contracted_intermediate")])));
   (*L810*) SAssign "contracted_intermediate" (EScale (-1 # 1) (EEins "mcei,edkl,abjm->abcdijkl" [(ESlice (EVar "g_aaaa") [SV "o"; SV "v"; SV "v"; SV "o"]); (EVar "t2_abab"); (EVar "t2_aaaa")]));
   (*L811*) SAug true "quadruples_res" (EAdd (EScale (1 # 1) (EVar "contracted_intermediate")) (EScale (-1 # 1) (EEins "abcdijkl->abcdikjl" [(EVar "contracted_intermediate")])));
   (*L814*) SAssign "contracted_intermediate" (EScale (1 # 1) (EEins "mdie,cekl,abjm->abcdijkl" [(ESlice (EVar "g_abab") [SV "o"; SV "v"; SV "o"; SV "v"]); (EVar "t2_abab"); (EVar "t2_aaaa")]));
   (*L815*) SAug true "quadruples_res" (EAdd (EScale (1 # 1) (EVar "contracted_intermediate")) (EScale (-1 # 1) (EEins "abcdijkl->abcdikjl" [(EVar "contracted_intermediate")])));
   (*L818*) SAssign "contracted_intermediate" (EScale (-1 # 1) (EEins "mdel,eajk,bcim->abcdijkl" [(ESlice (EVar "g_abab") [SV "o"; SV "v"; SV "v"; SV "o"]); (EVar "t2_aaaa"); (EVar "t2_aaaa")]));
   (*L819*) SAug true "quadruples_res" (EAdd (EAdd (EAdd (EScale (1 # 1) (EVar "contracted_intermediate")) (EScale (-1 # 1) (EEins "abcdijkl->abcdjikl" [(EVar "contracted_intermediate")]))) (EScale (-1 # 1) (EEins "abcdijkl->bacdijkl" [(EVar "contracted_intermediate")]))) (EScale (1 # 1) (EEins "abcdijkl->bacdjikl" [(EVar "contracted_intermediate")])));
   (*L822*) SAssign "contracted_intermediate" (EScale (-1 # 1) (EEins "mdel,eaij,bckm->abcdijkl" [(ESlice (EVar "g_abab") [SV "o"; SV "v"; SV "v"; SV "o"]); (EVar "t2_aaaa"); (EVar "t2_aaaa")]));
   (*L823*) SAug true "quadruples_res" (EAdd (EScale (1 # 1) (EVar "contracted_intermediate")) (EScale (-1 # 1) (EEins "abcdijkl->bacdijkl" [(EVar "contracted_intermediate")])));
   (*L826*) SAssign "contracted_intermediate" (EScale (1 # 1) (EEins "mdke,aejl,bcim->abcdijkl" [(ESlice (EVar "g_abab") [SV "o"; SV "v"; SV "o"; SV "v"]); (EVar "t2_abab"); (EVar "t2_aaaa")]));
   (*L827*) SAug true "quadruples_res" (EAdd (EAdd (EAdd (EScale (1 # 1) (EVar "contracted_intermediate")) (EScale (-1 # 1) (EEins "abcdijkl->abcdjikl" [(EVar "contracted_intermediate")]))) (EScale (-1 # 1) (EEins "abcdijkl->bacdijkl" [(EVar "contracted_intermediate")]))) (EScale (1 # 1) (EEins "abcdijkl->bacdjikl" [(EVar "contracted_intermediate")])));
   (*L830*) SAssign "contracted_intermediate" (EScale (-1 # 1) (EEins "mdje,aekl,bcim->abcdijkl" [(ESlice (EVar "g_abab") [SV "o"; SV "v"; SV "o"; SV "v"]); (EVar "t2_abab"); (EVar "t2_aaaa")]));
   (*L831*) SAug true "quadruples_res" (EAdd (EAdd (EAdd (EScale (1 # 1) (EVar "contracted_intermediate")) (EScale (-1 # 1) (EEins "abcdijkl->abcdkjil" [(EVar "contracted_intermediate")]))) (EScale (-1 # 1) (EEins "abcdijkl->bacdijkl" [(EVar "contracted_intermediate")]))) (EScale (1 # 1) (EEins "abcdijkl->bacdkjil" [(EVar "contracted_intermediate")])));
   (*L834*) SAssign "contracted_intermediate" (EScale (1 # 1) (EEins "mdie,aekl,bcjm->abcdijkl" [(ESlice (EVar "g_abab") [SV "o"; SV "v"; SV "o"; SV "v"]); (EVar "t2_abab"); (EVar "t2_aaaa")]));
   (*L835*) SAug true "quadruples_res" (EAdd (EAdd (EAdd (EScale (1 # 1) (EVar "contracted_intermediate")) (EScale (-1 # 1) (EEins "abcdijkl->abcdikjl" [(EVar "contracted_intermediate")]))) (EScale (-1 # 1) (EEins "abcdijkl->bacdijkl" [(EVar "contracted_intermediate")]))) (EScale (1 # 1) (EEins "abcdijkl->bacdikjl" [(EVar "contracted_intermediate")])));
   (*L838*) SAssign "contracted_intermediate" (EScale (1 # 1) (EEins "abef,ecik,fdjl->abcdijkl" [(ESlice (EVar "g_aaaa") [SV "v"; SV "v"; SV "v"; SV "v"]); (EVar "t2_aaaa"); (EVar "t2_abab")]));
   (*L839*) SAug true "quadruples_res" (EAdd (EScale (1 # 1) (EVar "contracted_intermediate")) (EScale (-1 # 1) (EEins "abcdijkl->acbdijkl" [(EVar "contracted_intermediate")])));
   (*L842*) SAssign "contracted_intermediate" (EScale (-1 # 1) (EEins "abef,ecjk,fdil->abcdijkl" [(ESlice (EVar "g_aaaa") [SV "v"; SV "v"; SV "v"; SV "v"]); (EVar "t2_aaaa"); (EVar "t2_abab")]));
   (*L843*) SAug true "quadruples_res" (EAdd (EAdd (EAdd (EScale (1 # 1) (EVar "contracted_intermediate")) (EScale (-1 # 1) (EEins "abcdijkl->abcdkjil" [(EVar "contracted_intermediate")]))) (EScale (-1 # 1) (EEins "abcdijkl->acbdijkl" [(EVar "contracted_intermediate")]))) (EScale (1 # 1) (EEins "abcdijkl->acbdkjil" [(EVar "contracted_intermediate")])));
   (*L846*) SAssign "contracted_intermediate" (EScale (-1 # 1) (EEins "adfe,bekl,fcij->abcdijkl" [(ESlice (EVar "g_abab") [SV "v"; SV "v"; SV "v"; SV "v"]); (EVar "t2_abab"); (EVar "t2_aaaa")]));
   (*L847*) SAug true "quadruples_res" (EAdd (EAdd (EAdd (EScale (1 # 1) (EVar "contracted_intermediate")) (EScale (-1 # 1) (EEins "abcdijkl->abcdikjl" [(EVar "contracted_intermediate")]))) (EScale (-1 # 1) (EEins "abcdijkl->bacdijkl" [(EVar "contracted_intermediate")]))) (EScale (1 # 1) (EEins "abcdijkl->bacdikjl" [(EVar "contracted_intermediate")])));
   (*L850*) SAssign "contracted_intermediate" (EScale (-1 # 1) (EEins "adfe,beil,fcjk->abcdijkl" [(ESlice (EVar "g_abab") [SV "v"; SV "v"; SV "v"; SV "v"]); (EVar "t2_abab"); (EVar "t2_aaaa")]));
   (*L851*) SAug true "quadruples_res" (EAdd (EScale (1 # 1) (EVar "contracted_intermediate")) (EScale (-1 # 1) (EEins "abcdijkl->bacdijkl" [(EVar "contracted_intermediate")])));
   (*L854*) SAssign "contracted_intermediate" (EScale (-1 # 1) (EEins "adef,ebik,cfjl->abcdijkl" [(ESlice (EVar "g_abab") [SV "v"; SV "v"; SV "v"; SV "v"]); (EVar "t2_aaaa"); (EVar "t2_abab")]));
   (*L855*) SAug true "quadruples_res" (EAdd (EScale (1 # 1) (EVar "contracted_intermediate")) (EScale (-1 # 1) (EEins "abcdijkl->bacdijkl" [(EVar "contracted_intermediate")])));
   (*L858*) SAssign "contracted_intermediate" (EScale (1 # 1) (EEins "adef,ebjk,cfil->abcdijkl" [(ESlice (EVar "g_abab") [SV "v"; SV "v"; SV "v"; SV "v"]); (EVar "t2_aaaa"); (EVar "t2_abab")]));
   (*L859*) SAug true "quadruples_res" (EAdd (EAdd (EAdd (EScale (1 # 1) (EVar "contracted_intermediate")) (EScale (-1 # 1) (EEins "abcdijkl->abcdkjil" [(EVar "contracted_intermediate")]))) (EScale (-1 # 1) (EEins "abcdijkl->bacdijkl" [(EVar "contracted_intermediate")]))) (EScale (1 # 1) (EEins "abcdijkl->bacdkjil" [(EVar "contracted_intermediate")])));
   (*L862*) SAssign "contracted_intermediate" (EScale (-1 # 1) (EEins "cdfe,aekl,fbij->abcdijkl" [(ESlice (EVar "g_abab") [SV "v"; SV "v"; SV "v"; SV "v"]); (EVar "t2_abab"); (EVar "t2_aaaa")]));
   (*L863*) SAug true "quadruples_res" (EAdd (EScale (1 # 1) (EVar "contracted_intermediate")) (EScale (-1 # 1) (EEins "abcdijkl->abcdikjl" [(EVar "contracted_intermediate")])));
   (*L866*) SAug true "quadruples_res" (EScale (-1 # 1) (EEins "cdfe,aeil,fbjk->abcdijkl" [(ESlice (EVar "g_abab") [SV "v"; SV "v"; SV "v"; SV "v"]); (EVar "t2_abab"); (EVar "t2_aaaa")]));
   (*L869*) SAug true "quadruples_res" (EScale (1 # 1) (EEins "bcef,eaik,fdjl->abcdijkl" [(ESlice (EVar "g_aaaa") [SV "v"; SV "v"; SV "v"; SV "v"]); (EVar "t2_aaaa"); (EVar "t2_abab")]));
   (*L872*) SAug true "quadruples_res" (EScale (-1 # 1) (EEins "cdef,eaik,bfjl->abcdijkl" [(ESlice (EVar "g_abab") [SV "v"; SV "v"; SV "v"; SV "v"]); (EVar "t2_aaaa"); (EVar "t2_abab")]));
   (*L875*) SAssign "contracted_intermediate" (EScale (-1 # 1) (EEins "bcef,eajk,fdil->abcdijkl" [(ESlice (EVar "g_aaaa") [SV "v"; SV "v"; SV "v"; SV "v"]); (EVar "t2_aaaa"); (EVar "t2_abab")]));
   (*L876*) SAug true "quadruples_res" (EAdd (EScale (1 # 1) (EVar "contracted_intermediate")) (EScale (-1 # 1) (EEins "abcdijkl->abcdkjil" [(EVar "contracted_intermediate")])));
   (*L879*) SAssign "contracted_intermediate" (EScale (1 # 1) (EEins "cdef,eajk,bfil->abcdijkl" [(ESlice (EVar "g_abab") [SV "v"; SV "v"; SV "v"; SV "v"]); (EVar "t2_aaaa"); (EVar "t2_abab")]));
   (*L880*) SAug true "quadruples_res" (EAdd (EScale (1 # 1) (EVar "contracted_intermediate")) (EScale (-1 # 1) (EEins "abcdijkl->abcdkjil" [(EVar "contracted_intermediate")])));
   (*L883*) SAssign "contracted_intermediate" (EScale (-1 # 1) (EEins "amkl,bcdijm->abcdijkl" [(ESlice (EVar "g_abab") [SV "v"; SV "o"; SV "o"; SV "o"]); (EVar "t3_aabaab")]));
   (*L884*) SAug true "quadruples_res" (EAdd (EAdd (EAdd (EScale (1 # 1) (EVar "contracted_intermediate")) (EScale (-1 # 1) (EEins "abcdijkl->abcdikjl" [(EVar "contracted_intermediate")]))) (EScale (-1 # 1) (EEins "abcdijkl->bacdijkl" [(EVar "contracted_intermediate")]))) (EScale (1 # 1) (EEins "abcdijkl->bacdikjl" [(EVar "contracted_intermediate")])));
   (*L887*) SAssign "contracted_intermediate" (EScale (-1 # 1) (EEins "amil,bcdjkm->abcdijkl" [(ESlice (EVar "g_abab") [SV "v"; SV "o"; SV "o"; SV "o"]); (EVar "t3_aabaab")]));
   (*L888*) SAug true "quadruples_res" (EAdd (EScale (1 # 1) (EVar "contracted_intermediate")) (EScale (-1 # 1) (EEins "abcdijkl->bacdijkl" [(EVar "contracted_intermediate")])));
   (*L891*) SAssign "contracted_intermediate" (EScale (1 # 1) (EEins "maik,bcdjml->abcdijkl" [(ESlice (EVar "g_aaaa") [SV "o"; SV "v"; SV "o"; SV "o"]); (EVar "t3_aabaab")]));
   (*L892*) SAug true "quadruples_res" (EAdd (EScale (1 # 1) (EVar "contracted_intermediate")) (EScale (-1 # 1) (EEins "abcdijkl->bacdijkl" [(EVar "contracted_intermediate")])));
   (*L895*) SAssign "contracted_intermediate" (EScale (-1 # 1) (EEins "majk,bcdiml->abcdijkl" [(ESlice (EVar "g_aaaa") [SV "o"; SV "v"; SV "o"; SV "o"]); (EVar "t3_aabaab")]));
   (*L896*) SAug true "quadruples_res" (EAdd (EAdd (EAdd (EScale (1 # 1) (EVar "contracted_intermediate")) (EScale (-1 # 1) (EEins "abcdijkl->abcdkjil" [(EVar "contracted_intermediate")]))) (EScale (-1 # 1) (EEins "abcdijkl->bacdijkl" [(EVar "contracted_intermediate")]))) (EScale (1 # 1) (EEins "abcdijkl->bacdkjil" [(EVar "contracted_intermediate")])));
   (*L899*) SAssign "contracted_intermediate" (EScale (-1 # 1) (EEins "cmkl,abdijm->abcdijkl" [(ESlice (EVar "g_abab") [SV "v"; SV "o"; SV "o"; SV "o"]); (EVar "t3_aabaab")]));
   (*L900*) SAug true "quadruples_res" (EAdd (EScale (1 # 1) (EVar "contracted_intermediate")) (EScale (-1 # 1) (EEins "abcdijkl->abcdikjl" [(EVar "contracted_intermediate")])));
   (*L903*) SAssign "contracted_intermediate" (EScale (-1 # 1) (EEins "mdkl,abcijm->abcdijkl" [(ESlice (EVar "g_abab") [SV "o"; SV "v"; SV "o"; SV "o"]); (EVar "t3_aaaaaa")]));
   (*L904*) SAug true "quadruples_res" (EAdd (EScale (1 # 1) (EVar "contracted_intermediate")) (EScale (-1 # 1) (EEins "abcdijkl->abcdikjl" [(EVar "contracted_intermediate")])));
   (*L907*) SAug true "quadruples_res" (EScale (-1 # 1) (EEins "cmil,abdjkm->abcdijkl" [(ESlice (EVar "g_abab") [SV "v"; SV "o"; SV "o"; SV "o"]); (EVar "t3_aabaab")]));
   (*L910*) SAug true "quadruples_res" (EScale (-1 # 1) (EEins "mdil,abcjkm->abcdijkl" [(ESlice (EVar "g_abab") [SV "o"; SV "v"; SV "o"; SV "o"]); (EVar "t3_aaaaaa")]));
   (*L913*) SAug true "quadruples_res" (EScale (1 # 1) (EEins "mcik,abdjml->abcdijkl" [(ESlice (EVar "g_aaaa") [SV "o"; SV "v"; SV "o"; SV "o"]); (EVar "t3_aabaab")]));
   (*L916*) SAssign "contracted_intermediate" (EScale (-1 # 1) (EEins "mcjk,abdiml->abcdijkl" [(ESlice (EVar "g_aaaa") [SV "o"; SV "v"; SV "o"; SV "o"]); (EVar "t3_aabaab")]));
   (*L917*) SAug true "quadruples_res" (EAdd (EScale (1 # 1) (EVar "contracted_intermediate")) (EScale (-1 # 1) (EEins "abcdijkl->abcdkjil" [(EVar "contracted_intermediate")])));
   (*L920*) SAssign "contracted_intermediate" (EScale (-1 # 1) (EEins "abek,ecdijl->abcdijkl" [(ESlice (EVar "g_aaaa") [SV "v"; SV "v"; SV "v"; SV "o"]); (EVar "t3_aabaab")]));
   (*L921*) SAug true "quadruples_res" (EAdd (EScale (1 # 1) (EVar "contracted_intermediate")) (EScale (-1 # 1) (EEins "abcdijkl->acbdijkl" [(EVar "contracted_intermediate")])));
   (*L924*) SAssign "contracted_intermediate" (EScale (1 # 1) (EEins "abej,ecdikl->abcdijkl" [(ESlice (EVar "g_aaaa") [SV "v"; SV "v"; SV "v"; SV "o"]); (EVar "t3_aabaab")]));
   (*L925*) SAug true "quadruples_res" (EAdd (EAdd (EAdd (EScale (1 # 1) (EVar "contracted_intermediate")) (EScale (-1 # 1) (EEins "abcdijkl->abcdjikl" [(EVar "contracted_intermediate")]))) (EScale (-1 # 1) (EEins "abcdijkl->acbdijkl" [(EVar "contracted_intermediate")]))) (EScale (1 # 1) (EEins "abcdijkl->acbdjikl" [(EVar "contracted_intermediate")])));
   (*L928*) SAssign "contracted_intermediate" (EScale (1 # 1) (EEins "adel,ebcijk->abcdijkl" [(ESlice (EVar "g_abab") [SV "v"; SV "v"; SV "v"; SV "o"]); (EVar "t3_aaaaaa")]));
   (*L929*) SAug true "quadruples_res" (EAdd (EScale (1 # 1) (EVar "contracted_intermediate")) (EScale (-1 # 1) (EEins "abcdijkl->bacdijkl" [(EVar "contracted_intermediate")])));
   (*L932*) SAssign "contracted_intermediate" (EScale (-1 # 1) (EEins "adke,cbeijl->abcdijkl" [(ESlice (EVar "g_abab") [SV "v"; SV "v"; SV "o"; SV "v"]); (EVar "t3_aabaab")]));
   (*L933*) SAug true "quadruples_res" (EAdd (EScale (1 # 1) (EVar "contracted_intermediate")) (EScale (-1 # 1) (EEins "abcdijkl->bacdijkl" [(EVar "contracted_intermediate")])));
   (*L936*) SAssign "contracted_intermediate" (EScale (1 # 1) (EEins "adje,cbeikl->abcdijkl" [(ESlice (EVar "g_abab") [SV "v"; SV "v"; SV "o"; SV "v"]); (EVar "t3_aabaab")]));
   (*L937*) SAug true "quadruples_res" (EAdd (EAdd (EAdd (EScale (1 # 1) (EVar "contracted_intermediate")) (EScale (-1 # 1) (EEins "abcdijkl->abcdjikl" [(EVar "contracted_intermediate")]))) (EScale (-1 # 1) (EEins "abcdijkl->bacdijkl" [(EVar "contracted_intermediate")]))) (EScale (1 # 1) (EEins "abcdijkl->bacdjikl" [(EVar "contracted_intermediate")])));
   (*L940*) SAug true "quadruples_res" (EScale (1 # 1) (EEins "cdel,eabijk->abcdijkl" [(ESlice (EVar "g_abab") [SV "v"; SV "v"; SV "v"; SV "o"]); (EVar "t3_aaaaaa")]));
   (*L943*) SAug true "quadruples_res" (EScale (-1 # 1) (EEins "bcek,eadijl->abcdijkl" [(ESlice (EVar "g_aaaa") [SV "v"; SV "v"; SV "v"; SV "o"]); (EVar "t3_aabaab")]));
   (*L946*) SAug true "quadruples_res" (EScale (-1 # 1) (EEins "cdke,baeijl->abcdijkl" [(ESlice (EVar "g_abab") [SV "v"; SV "v"; SV "o"; SV "v"]); (EVar "t3_aabaab")]));
   (*L949*) SAssign "contracted_intermediate" (EScale (1 # 1) (EEins "bcej,eadikl->abcdijkl" [(ESlice (EVar "g_aaaa") [SV "v"; SV "v"; SV "v"; SV "o"]); (EVar "t3_aabaab")]));
   (*L950*) SAug true "quadruples_res" (EAdd (EScale (1 # 1) (EVar "contracted_intermediate")) (EScale (-1 # 1) (EEins "abcdijkl->abcdjikl" [(EVar "contracted_intermediate")])));
   (*L953*) SAssign "contracted_intermediate" (EScale (1 # 1) (EEins "cdje,baeikl->abcdijkl" [(ESlice (EVar "g_abab") [SV "v"; SV "v"; SV "o"; SV "v"]); (EVar "t3_aabaab")]));
   (*L954*) SAug true "quadruples_res" (EAdd (EScale (1 # 1) (EVar "contracted_intermediate")) (EScale (-1 # 1) (EEins "abcdijkl->abcdjikl" [(EVar "contracted_intermediate")])))]
  (*L956*) (EVar "quadruples_res").

(** /repo/UT2/fullCCenergy.py:959-1340  def ccsdtq_t4_aabbaabb_residual *)
Definition ccsdtq_t4_aabbaabb_residual : fn := mkFn
  ["t1_aa"; "t1_bb"; "t2_aaaa"; "t2_bbbb"; "t2_abab"; "t3_aaaaaa"; "t3_aabaab"; "t3_abbabb"; "t3_bbbbbb"; "t4_aaaaaaaa"; "t4_aaabaaab"; "t4_aabbaabb"; "t4_abbbabbb"; "t4_bbbbbbbb"; "f_aa"; "f_bb"; "g_aaaa"; "g_bbbb"; "g_abab"; "oa"; "ob"; "va"; "vb"]
  [(*L967*) SAssign "o" (EVar "oa");
   (*L968*) SAssign "v" (EVar "va");
   (*L971*) SAssign "contracted_intermediate" (EScale (1 # 1) (EEins "nmkl,acjm,bdin->abcdijkl" [(ESlice (EVar "g_bbbb") [SV "o"; SV "o"; SV "o"; SV "o"]); (EVar "t2_abab"); (EVar "t2_abab")]));
   (*L972*) SAssign "quadruples_res" (EAdd (EScale (1 # 1) (EVar "contracted_intermediate")) (EScale (-1 # 1) (EEins "abcdijkl->abcdjikl" [(EVar "contracted_intermediate")])));
   (*L975*) SAssign "contracted_intermediate" (EScale (-1 # 1) (EEins "nmkl,adjm,bcin->abcdijkl" [(ESlice (EVar "g_bbbb") [SV "o"; SV "o"; SV "o"; SV "o"]); (EVar "t2_abab"); (EVar "t2_abab")]));
   (*L976*) SAug true "quadruples_res" (EAdd (EScale (1 # 1) (EVar "contracted_intermediate")) (EScale (-1 # 1) (EEins "abcdijkl->abcdjikl" [(EVar "contracted_intermediate")])));
   (*L979*) SAug true "quadruples_res" (EScale (-1 # 1) (EEins "mnjl,acmk,bdin->abcdijkl" [(ESlice (EVar "g_abab") [SV "o"; SV "o"; SV "o"; SV "o"]); (EVar "t2_abab"); (EVar "t2_abab")]));
   (*L982*) SAug true "quadruples_res" (EScale (1 # 1) (EEins "mnjl,abim,cdkn->abcdijkl" [(ESlice (EVar "g_abab") [SV "o"; SV "o"; SV "o"; SV "o"]); (EVar "t2_aaaa"); (EVar "t2_bbbb")]));
   (*L985*) SAug true "quadruples_res" (EScale (-1 # 1) (EEins "nmjl,acim,bdnk->abcdijkl" [(ESlice (EVar "g_abab") [SV "o"; SV "o"; SV "o"; SV "o"]); (EVar "t2_abab"); (EVar "t2_abab")]));
   (*L988*) SAug true "quadruples_res" (EScale (1 # 1) (EEins "mnjl,admk,bcin->abcdijkl" [(ESlice (EVar "g_abab") [SV "o"; SV "o"; SV "o"; SV "o"]); (EVar "t2_abab"); (EVar "t2_abab")]));
   (*L991*) SAug true "quadruples_res" (EScale (1 # 1) (EEins "nmjl,adim,bcnk->abcdijkl" [(ESlice (EVar "g_abab") [SV "o"; SV "o"; SV "o"; SV "o"]); (EVar "t2_abab"); (EVar "t2_abab")]));
   (*L994*) SAug true "quadruples_res" (EScale (1 # 1) (EEins "mnil,acmk,bdjn->abcdijkl" [(ESlice (EVar "g_abab") [SV "o"; SV "o"; SV "o"; SV "o"]); (EVar "t2_abab"); (EVar "t2_abab")]));
   (*L997*) SAug true "quadruples_res" (EScale (-1 # 1) (EEins "mnil,abjm,cdkn->abcdijkl" [(ESlice (EVar "g_abab") [SV "o"; SV "o"; SV "o"; SV "o"]); (EVar "t2_aaaa"); (EVar "t2_bbbb")]));
   (*L1000*) SAug true "quadruples_res" (EScale (1 # 1) (EEins "nmil,acjm,bdnk->abcdijkl" [(ESlice (EVar "g_abab") [SV "o"; SV "o"; SV "o"; SV "o"]); (EVar "t2_abab"); (EVar "t2_abab")]));
   (*L1003*) SAug true "quadruples_res" (EScale (-1 # 1) (EEins "mnil,admk,bcjn->abcdijkl" [(ESlice (EVar "g_abab") [SV "o"; SV "o"; SV "o"; SV "o"]); (EVar "t2_abab"); (EVar "t2_abab")]));
   (*L1006*) SAug true "quadruples_res" (EScale (-1 # 1) (EEins "nmil,adjm,bcnk->abcdijkl" [(ESlice (EVar "g_abab") [SV "o"; SV "o"; SV "o"; SV "o"]); (EVar "t2_abab"); (EVar "t2_abab")]));
   (*L1009*) SAug true "quadruples_res" (EScale (1 # 1) (EEins "mnjk,acml,bdin->abcdijkl" [(ESlice (EVar "g_abab") [SV "o"; SV "o"; SV "o"; SV "o"]); (EVar "t2_abab"); (EVar "t2_abab")]));
   (*L1012*) SAug true "quadruples_res" (EScale (-1 # 1) (EEins "mnjk,abim,cdln->abcdijkl" [(ESlice (EVar "g_abab") [SV "o"; SV "o"; SV "o"; SV "o"]); (EVar "t2_aaaa"); (EVar "t2_bbbb")]));
   (*L1015*) SAug true "quadruples_res" (EScale (1 # 1) (EEins "nmjk,acim,bdnl->abcdijkl" [(ESlice (EVar "g_abab") [SV "o"; SV "o"; SV "o"; SV "o"]); (EVar "t2_abab"); (EVar "t2_abab")]));
   (*L1018*) SAug true "quadruples_res" (EScale (-1 # 1) (EEins "mnjk,adml,bcin->abcdijkl" [(ESlice (EVar "g_abab") [SV "o"; SV "o"; SV "o"; SV "o"]); (EVar "t2_abab"); (EVar "t2_abab")]));
   (*L1021*) SAug true "quadruples_res" (EScale (-1 # 1) (EEins "nmjk,adim,bcnl->abcdijkl" [(ESlice (EVar "g_abab") [SV "o"; SV "o"; SV "o"; SV "o"]); (EVar "t2_abab"); (EVar "t2_abab")]));
   (*L1024*) SAug true "quadruples_res" (EScale (-1 # 1) (EEins "mnik,acml,bdjn->abcdijkl" [(ESlice (EVar "g_abab") [SV "o"; SV "o"; SV "o"; SV "o"]); (EVar "t2_abab"); (EVar "t2_abab")]));
   (*L1027*) SAug true "quadruples_res" (EScale (1 # 1) (EEins "mnik,abjm,cdln->abcdijkl" [(ESlice (EVar "g_abab") [SV "o"; SV "o"; SV "o"; SV "o"]); (EVar "t2_aaaa"); (EVar "t2_bbbb")]));
   (*L1030*) SAug true "quadruples_res" (EScale (-1 # 1) (EEins "nmik,acjm,bdnl->abcdijkl" [(ESlice (EVar "g_abab") [SV "o"; SV "o"; SV "o"; SV "o"]); (EVar "t2_abab"); (EVar "t2_abab")]));
   (*L1033*) SAug true "quadruples_res" (EScale (1 # 1) (EEins "mnik,adml,bcjn->abcdijkl" [(ESlice (EVar "g_abab") [SV "o"; SV "o"; SV "o"; SV "o"]); (EVar "t2_abab"); (EVar "t2_abab")]));
   (*L1036*) SAug true "quadruples_res" (EScale (1 # 1) (EEins "nmik,adjm,bcnl->abcdijkl" [(ESlice (EVar "g_abab") [SV "o"; SV "o"; SV "o"; SV "o"]); (EVar "t2_abab"); (EVar "t2_abab")]));
   (*L1039*) SAssign "contracted_intermediate" (EScale (1 # 1) (EEins "nmij,acml,bdnk->abcdijkl" [(ESlice (EVar "g_aaaa") [SV "o"; SV "o"; SV "o"; SV "o"]); (EVar "t2_abab"); (EVar "t2_abab")]));
   (*L1040*) SAug true "quadruples_res" (EAdd (EScale (1 # 1) (EVar "contracted_intermediate")) (EScale (-1 # 1) (EEins "abcdijkl->abcdijlk" [(EVar "contracted_intermediate")])));
   (*L1043*) SAssign "contracted_intermediate" (EScale (-1 # 1) (EEins "nmij,adml,bcnk->abcdijkl" [(ESlice (EVar "g_aaaa") [SV "o"; SV "o"; SV "o"; SV "o"]); (EVar "t2_abab"); (EVar "t2_abab")]));
   (*L1044*) SAug true "quadruples_res" (EAdd (EScale (1 # 1) (EVar "contracted_intermediate")) (EScale (-1 # 1) (EEins "abcdijkl->abcdijlk" [(EVar "contracted_intermediate")])));
   (*L1047*) SAssign "contracted_intermediate" (EScale (1 # 1) (EEins "amel,ecjk,bdim->abcdijkl" [(ESlice (EVar "g_abab") [SV "v"; SV "o"; SV "v"; SV "o"]); (EVar "t2_abab"); (EVar "t2_abab")]));
   (*L1048*) SAug true "quadruples_res" (EAdd (EScale (1 # 1) (EVar "contracted_intermediate")) (EScale (-1 # 1) (EEins "abcdijkl->abcdjikl" [(EVar "contracted_intermediate")])));
   (*L1051*) SAssign "contracted_intermediate" (EScale (-1 # 1) (EEins "amel,ebij,cdkm->abcdijkl" [(ESlice (EVar "g_abab") [SV "v"; SV "o"; SV "v"; SV "o"]); (EVar "t2_aaaa"); (EVar "t2_bbbb")]));
   (*L1052*) SAug true "quadruples_res" (EAdd (EScale (1 # 1) (EVar "contracted_intermediate")) (EScale (-1 # 1) (EEins "abcdijkl->abcdijlk" [(EVar "contracted_intermediate")])));
   (*L1055*) SAssign "contracted_intermediate" (EScale (-1 # 1) (EEins "amel,edjk,bcim->abcdijkl" [(ESlice (EVar "g_abab") [SV "v"; SV "o"; SV "v"; SV "o"]); (EVar "t2_abab"); (EVar "t2_abab")]));
   (*L1056*) SAug true "quadruples_res" (EAdd (EAdd (EAdd (EScale (1 # 1) (EVar "contracted_intermediate")) (EScale (-1 # 1) (EEins "abcdijkl->abcdjikl" [(EVar "contracted_intermediate")]))) (EScale (-1 # 1) (EEins "abcdijkl->bacdijkl" [(EVar "contracted_intermediate")]))) (EScale (1 # 1) (EEins "abcdijkl->bacdjikl" [(EVar "contracted_intermediate")])));
   (*L1059*) SAssign "contracted_intermediate" (EScale (-1 # 1) (EEins "amek,ecjl,bdim->abcdijkl" [(ESlice (EVar "g_abab") [SV "v"; SV "o"; SV "v"; SV "o"]); (EVar "t2_abab"); (EVar "t2_abab")]));
   (*L1060*) SAug true "quadruples_res" (EAdd (EScale (1 # 1) (EVar "contracted_intermediate")) (EScale (-1 # 1) (EEins "abcdijkl->abcdjikl" [(EVar "contracted_intermediate")])));
   (*L1063*) SAssign "contracted_intermediate" (EScale (1 # 1) (EEins "amek,edjl,bcim->abcdijkl" [(ESlice (EVar "g_abab") [SV "v"; SV "o"; SV "v"; SV "o"]); (EVar "t2_abab"); (EVar "t2_abab")]));
   (*L1064*) SAug true "quadruples_res" (EAdd (EAdd (EAdd (EScale (1 # 1) (EVar "contracted_intermediate")) (EScale (-1 # 1) (EEins "abcdijkl->abcdjikl" [(EVar "contracted_intermediate")]))) (EScale (-1 # 1) (EEins "abcdijkl->bacdijkl" [(EVar "contracted_intermediate")]))) (EScale (1 # 1) (EEins "abcdijkl->bacdjikl" [(EVar "contracted_intermediate")])));
   (*L1067*) SAug true "quadruples_res" (EScale (-1 # 1) (EEins "amje,eckl,bdim->abcdijkl" [(ESlice (EVar "g_abab") [SV "v"; SV "o"; SV "o"; SV "v"]); (EVar "t2_bbbb"); (EVar "t2_abab")]));
   (*L1070*) SAug true "quadruples_res" (EScale (1 # 1) (EEins "amje,beil,cdkm->abcdijkl" [(ESlice (EVar "g_abab") [SV "v"; SV "o"; SV "o"; SV "v"]); (EVar "t2_abab"); (EVar "t2_bbbb")]));
   (*L1073*) SAug true "quadruples_res" (EScale (-1 # 1) (EEins "maej,ecil,bdmk->abcdijkl" [(ESlice (EVar "g_aaaa") [SV "o"; SV "v"; SV "v"; SV "o"]); (EVar "t2_abab"); (EVar "t2_abab")]));
   (*L1076*) SAssign "contracted_intermediate" (EScale (-1 # 1) (EEins "amje,beik,cdlm->abcdijkl" [(ESlice (EVar "g_abab") [SV "v"; SV "o"; SV "o"; SV "v"]); (EVar "t2_abab"); (EVar "t2_bbbb")]));
   (*L1077*) SAug true "quadruples_res" (EAdd (EScale (1 # 1) (EVar "contracted_intermediate")) (EScale (-1 # 1) (EEins "abcdijkl->abcdjikl" [(EVar "contracted_intermediate")])));
   (*L1080*) SAssign "contracted_intermediate" (EScale (1 # 1) (EEins "maej,ecik,bdml->abcdijkl" [(ESlice (EVar "g_aaaa") [SV "o"; SV "v"; SV "v"; SV "o"]); (EVar "t2_abab"); (EVar "t2_abab")]));
   (*L1081*) SAug true "quadruples_res" (EAdd (EScale (1 # 1) (EVar "contracted_intermediate")) (EScale (-1 # 1) (EEins "abcdijkl->abcdjikl" [(EVar "contracted_intermediate")])));
   (*L1084*) SAssign "contracted_intermediate" (EScale (1 # 1) (EEins "amje,edkl,bcim->abcdijkl" [(ESlice (EVar "g_abab") [SV "v"; SV "o"; SV "o"; SV "v"]); (EVar "t2_bbbb"); (EVar "t2_abab")]));
   (*L1085*) SAug true "quadruples_res" (EAdd (EScale (1 # 1) (EVar "contracted_intermediate")) (EScale (-1 # 1) (EEins "abcdijkl->bacdijkl" [(EVar "contracted_intermediate")])));
   (*L1088*) SAssign "contracted_intermediate" (EScale (1 # 1) (EEins "maej,edil,bcmk->abcdijkl" [(ESlice (EVar "g_aaaa") [SV "o"; SV "v"; SV "v"; SV "o"]); (EVar "t2_abab"); (EVar "t2_abab")]));
   (*L1089*) SAug true "quadruples_res" (EAdd (EScale (1 # 1) (EVar "contracted_intermediate")) (EScale (-1 # 1) (EEins "abcdijkl->bacdijkl" [(EVar "contracted_intermediate")])));
   (*L1092*) SAssign "contracted_intermediate" (EScale (-1 # 1) (EEins "maej,edik,bcml->abcdijkl" [(ESlice (EVar "g_aaaa") [SV "o"; SV "v"; SV "v"; SV "o"]); (EVar "t2_abab"); (EVar "t2_abab")]));
   (*L1093*) SAug true "quadruples_res" (EAdd (EAdd (EAdd (EScale (1 # 1) (EVar "contracted_intermediate")) (EScale (-1 # 1) (EEins "abcdijkl->abcdjikl" [(EVar "contracted_intermediate")]))) (EScale (-1 # 1) (EEins "abcdijkl->bacdijkl" [(EVar "contracted_intermediate")]))) (EScale (1 # 1) (EEins "abcdijkl->bacdjikl" [(EVar "contracted_intermediate")])));
   (*L1096*) SAug true "quadruples_res" (EScale (1 # 1) (EEins "amie,eckl,bdjm->abcdijkl" [(ESlice (EVar "g_abab") [SV "v"; SV "o"; SV "o"; SV "v"]); (EVar "t2_bbbb"); (EVar "t2_abab")]));
   (*L1099*) SAug true "quadruples_res" (EScale (-1 # 1) (EEins "amie,bejl,cdkm->abcdijkl" [(ESlice (EVar "g_abab") [SV "v"; SV "o"; SV "o"; SV "v"]); (EVar "t2_abab"); (EVar "t2_bbbb")]));
   (*L1102*) SAug true "quadruples_res" (EScale (1 # 1) (EEins "maei,ecjl,bdmk->abcdijkl" [(ESlice (EVar "g_aaaa") [SV "o"; SV "v"; SV "v"; SV "o"]); (EVar "t2_abab"); (EVar "t2_abab")]));
   (*L1105*) SAssign "contracted_intermediate" (EScale (-1 # 1) (EEins "amie,edkl,bcjm->abcdijkl" [(ESlice (EVar "g_abab") [SV "v"; SV "o"; SV "o"; SV "v"]); (EVar "t2_bbbb"); (EVar "t2_abab")]));
   (*L1106*) SAug true "quadruples_res" (EAdd (EScale (1 # 1) (EVar "contracted_intermediate")) (EScale (-1 # 1) (EEins "abcdijkl->bacdijkl" [(EVar "contracted_intermediate")])));
   (*L1109*) SAssign "contracted_intermediate" (EScale (-1 # 1) (EEins "maei,edjl,bcmk->abcdijkl" [(ESlice (EVar "g_aaaa") [SV "o"; SV "v"; SV "v"; SV "o"]); (EVar "t2_abab"); (EVar "t2_abab")]));
   (*L1110*) SAug true "quadruples_res" (EAdd (EScale (1 # 1) (EVar "contracted_intermediate")) (EScale (-1 # 1) (EEins "abcdijkl->bacdijkl" [(EVar "contracted_intermediate")])));
   (*L1113*) SAssign "contracted_intermediate" (EScale (-1 # 1) (EEins "bmel,ecjk,adim->abcdijkl" [(ESlice (EVar "g_abab") [SV "v"; SV "o"; SV "v"; SV "o"]); (EVar "t2_abab"); (EVar "t2_abab")]));
   (*L1114*) SAug true "quadruples_res" (EAdd (EScale (1 # 1) (EVar "contracted_intermediate")) (EScale (-1 # 1) (EEins "abcdijkl->abcdjikl" [(EVar "contracted_intermediate")])));
   (*L1117*) SAssign "contracted_intermediate" (EScale (1 # 1) (EEins "bmel,eaij,cdkm->abcdijkl" [(ESlice (EVar "g_abab") [SV "v"; SV "o"; SV "v"; SV "o"]); (EVar "t2_aaaa"); (EVar "t2_bbbb")]));
   (*L1118*) SAug true "quadruples_res" (EAdd (EScale (1 # 1) (EVar "contracted_intermediate")) (EScale (-1 # 1) (EEins "abcdijkl->abcdijlk" [(EVar "contracted_intermediate")])));
   (*L1121*) SAssign "contracted_intermediate" (EScale (1 # 1) (EEins "bmek,ecjl,adim->abcdijkl" [(ESlice (EVar "g_abab") [SV "v"; SV "o"; SV "v"; SV "o"]); (EVar "t2_abab"); (EVar "t2_abab")]));
   (*L1122*) SAug true "quadruples_res" (EAdd (EScale (1 # 1) (EVar "contracted_intermediate")) (EScale (-1 # 1) (EEins "abcdijkl->abcdjikl" [(EVar "contracted_intermediate")])));
   (*L1125*) SAug true "quadruples_res" (EScale (1 # 1) (EEins "bmje,eckl,adim->abcdijkl" [(ESlice (EVar "g_abab") [SV "v"; SV "o"; SV "o"; SV "v"]); (EVar "t2_bbbb"); (EVar "t2_abab")]));
   (*L1128*) SAug true "quadruples_res" (EScale (-1 # 1) (EEins "bmje,aeil,cdkm->abcdijkl" [(ESlice (EVar "g_abab") [SV "v"; SV "o"; SV "o"; SV "v"]); (EVar "t2_abab"); (EVar "t2_bbbb")]));
   (*L1131*) SAug true "quadruples_res" (EScale (1 # 1) (EEins "mbej,ecil,admk->abcdijkl" [(ESlice (EVar "g_aaaa") [SV "o"; SV "v"; SV "v"; SV "o"]); (EVar "t2_abab"); (EVar "t2_abab")]));
   (*L1134*) SAssign "contracted_intermediate" (EScale (1 # 1) (EEins "bmje,aeik,cdlm->abcdijkl" [(ESlice (EVar "g_abab") [SV "v"; SV "o"; SV "o"; SV "v"]); (EVar "t2_abab"); (EVar "t2_bbbb")]));
   (*L1135*) SAug true "quadruples_res" (EAdd (EScale (1 # 1) (EVar "contracted_intermediate")) (EScale (-1 # 1) (EEins "abcdijkl->abcdjikl" [(EVar "contracted_intermediate")])));
   (*L1138*) SAssign "contracted_intermediate" (EScale (-1 # 1) (EEins "mbej,ecik,adml->abcdijkl" [(ESlice (EVar "g_aaaa") [SV "o"; SV "v"; SV "v"; SV "o"]); (EVar "t2_abab"); (EVar "t2_abab")]));
   (*L1139*) SAug true "quadruples_res" (EAdd (EScale (1 # 1) (EVar "contracted_intermediate")) (EScale (-1 # 1) (EEins "abcdijkl->abcdjikl" [(EVar "contracted_intermediate")])));
   (*L1142*) SAug true "quadruples_res" (EScale (-1 # 1) (EEins "bmie,eckl,adjm->abcdijkl" [(ESlice (EVar "g_abab") [SV "v"; SV "o"; SV "o"; SV "v"]); (EVar "t2_bbbb"); (EVar "t2_abab")]));
   (*L1145*) SAug true "quadruples_res" (EScale (1 # 1) (EEins "bmie,aejl,cdkm->abcdijkl" [(ESlice (EVar "g_abab") [SV "v"; SV "o"; SV "o"; SV "v"]); (EVar "t2_abab"); (EVar "t2_bbbb")]));
   (*L1148*) SAug true "quadruples_res" (EScale (-1 # 1) (EEins "mbei,ecjl,admk->abcdijkl" [(ESlice (EVar "g_aaaa") [SV "o"; SV "v"; SV "v"; SV "o"]); (EVar "t2_abab"); (EVar "t2_abab")]));
   (*L1151*) SAssign "contracted_intermediate" (EScale (-1 # 1) (EEins "mcel,aejk,bdim->abcdijkl" [(ESlice (EVar "g_bbbb") [SV "o"; SV "v"; SV "v"; SV "o"]); (EVar "t2_abab"); (EVar "t2_abab")]));
   (*L1152*) SAug true "quadruples_res" (EAdd (EAdd (EAdd (EScale (1 # 1) (EVar "contracted_intermediate")) (EScale (-1 # 1) (EEins "abcdijkl->abcdjikl" [(EVar "contracted_intermediate")]))) (EScale (-1 # 1) (EEins "abcdijkl->bacdijkl" [(EVar "contracted_intermediate")]))) (EScale (1 # 1) (EEins "abcdijkl->bacdjikl" [(EVar "contracted_intermediate")])));
   (*L1155*) SAssign "contracted_intermediate" (EScale (-1 # 1) (EEins "mcel,eaij,bdmk->abcdijkl" [(ESlice (EVar "g_abab") [SV "o"; SV "v"; SV "v"; SV "o"]); (EVar "t2_aaaa"); (EVar "t2_abab")]));
   (*L1156*) SAug true "quadruples_res" (EAdd (EAdd (EAdd (EScale (1 # 1) (EVar "contracted_intermediate")) (EScale (-1 # 1) (EEins "abcdijkl->abcdijlk" [(EVar "contracted_intermediate")]))) (EScale (-1 # 1) (EEins "abcdijkl->bacdijkl" [(EVar "contracted_intermediate")]))) (EScale (1 # 1) (EEins "abcdijkl->bacdijlk" [(EVar "contracted_intermediate")])));
   (*L1159*) SAssign "contracted_intermediate" (EScale (1 # 1) (EEins "mcel,edjk,abim->abcdijkl" [(ESlice (EVar "g_abab") [SV "o"; SV "v"; SV "v"; SV "o"]); (EVar "t2_abab"); (EVar "t2_aaaa")]));
   (*L1160*) SAug true "quadruples_res" (EAdd (EAdd (EAdd (EScale (1 # 1) (EVar "contracted_intermediate")) (EScale (-1 # 1) (EEins "abcdijkl->abcdjikl" [(EVar "contracted_intermediate")]))) (EScale (-1 # 1) (EEins "abcdijkl->abdcijkl" [(EVar "contracted_intermediate")]))) (EScale (1 # 1) (EEins "abcdijkl->abdcjikl" [(EVar "contracted_intermediate")])));
   (*L1163*) SAssign "contracted_intermediate" (EScale (1 # 1) (EEins "mcek,aejl,bdim->abcdijkl" [(ESlice (EVar "g_bbbb") [SV "o"; SV "v"; SV "v"; SV "o"]); (EVar "t2_abab"); (EVar "t2_abab")]));
   (*L1164*) SAug true "quadruples_res" (EAdd (EAdd (EAdd (EScale (1 # 1) (EVar "contracted_intermediate")) (EScale (-1 # 1) (EEins "abcdijkl->abcdjikl" [(EVar "contracted_intermediate")]))) (EScale (-1 # 1) (EEins "abcdijkl->bacdijkl" [(EVar "contracted_intermediate")]))) (EScale (1 # 1) (EEins "abcdijkl->bacdjikl" [(EVar "contracted_intermediate")])));
   (*L1167*) SAssign "contracted_intermediate" (EScale (-1 # 1) (EEins "mcek,edjl,abim->abcdijkl" [(ESlice (EVar "g_abab") [SV "o"; SV "v"; SV "v"; SV "o"]); (EVar "t2_abab"); (EVar "t2_aaaa")]));
   (*L1168*) SAug true "quadruples_res" (EAdd (EAdd (EAdd (EScale (1 # 1) (EVar "contracted_intermediate")) (EScale (-1 # 1) (EEins "abcdijkl->abcdjikl" [(EVar "contracted_intermediate")]))) (EScale (-1 # 1) (EEins "abcdijkl->abdcijkl" [(EVar "contracted_intermediate")]))) (EScale (1 # 1) (EEins "abcdijkl->abdcjikl" [(EVar "contracted_intermediate")])));
   (*L1171*) SAssign "contracted_intermediate" (EScale (1 # 1) (EEins "mcje,aeil,bdmk->abcdijkl" [(ESlice (EVar "g_abab") [SV "o"; SV "v"; SV "o"; SV "v"]); (EVar "t2_abab"); (EVar "t2_abab")]));
   (*L1172*) SAug true "quadruples_res" (EAdd (EScale (1 # 1) (EVar "contracted_intermediate")) (EScale (-1 # 1) (EEins "abcdijkl->bacdijkl" [(EVar "contracted_intermediate")])));
   (*L1175*) SAssign "contracted_intermediate" (EScale (-1 # 1) (EEins "mcje,aeik,bdml->abcdijkl" [(ESlice (EVar "g_abab") [SV "o"; SV "v"; SV "o"; SV "v"]); (EVar "t2_abab"); (EVar "t2_abab")]));
   (*L1176*) SAug true "quadruples_res" (EAdd (EAdd (EAdd (EScale (1 # 1) (EVar "contracted_intermediate")) (EScale (-1 # 1) (EEins "abcdijkl->abcdjikl" [(EVar "contracted_intermediate")]))) (EScale (-1 # 1) (EEins "abcdijkl->bacdijkl" [(EVar "contracted_intermediate")]))) (EScale (1 # 1) (EEins "abcdijkl->bacdjikl" [(EVar "contracted_intermediate")])));
   (*L1179*) SAssign "contracted_intermediate" (EScale (-1 # 1) (EEins "mcje,edkl,abim->abcdijkl" [(ESlice (EVar "g_abab") [SV "o"; SV "v"; SV "o"; SV "v"]); (EVar "t2_bbbb"); (EVar "t2_aaaa")]));
   (*L1180*) SAug true "quadruples_res" (EAdd (EScale (1 # 1) (EVar "contracted_intermediate")) (EScale (-1 # 1) (EEins "abcdijkl->abdcijkl" [(EVar "contracted_intermediate")])));
   (*L1183*) SAssign "contracted_intermediate" (EScale (-1 # 1) (EEins "mcie,aejl,bdmk->abcdijkl" [(ESlice (EVar "g_abab") [SV "o"; SV "v"; SV "o"; SV "v"]); (EVar "t2_abab"); (EVar "t2_abab")]));
   (*L1184*) SAug true "quadruples_res" (EAdd (EScale (1 # 1) (EVar "contracted_intermediate")) (EScale (-1 # 1) (EEins "abcdijkl->bacdijkl" [(EVar "contracted_intermediate")])));
   (*L1187*) SAssign "contracted_intermediate" (EScale (1 # 1) (EEins "mcie,edkl,abjm->abcdijkl" [(ESlice (EVar "g_abab") [SV "o"; SV "v"; SV "o"; SV "v"]); (EVar "t2_bbbb"); (EVar "t2_aaaa")]));
   (*L1188*) SAug true "quadruples_res" (EAdd (EScale (1 # 1) (EVar "contracted_intermediate")) (EScale (-1 # 1) (EEins "abcdijkl->abdcijkl" [(EVar "contracted_intermediate")])));
   (*L1191*) SAssign "contracted_intermediate" (EScale (1 # 1) (EEins "mdel,aejk,bcim->abcdijkl" [(ESlice (EVar "g_bbbb") [SV "o"; SV "v"; SV "v"; SV "o"]); (EVar "t2_abab"); (EVar "t2_abab")]));
   (*L1192*) SAug true "quadruples_res" (EAdd (EAdd (EAdd (EScale (1 # 1) (EVar "contracted_intermediate")) (EScale (-1 # 1) (EEins "abcdijkl->abcdjikl" [(EVar "contracted_intermediate")]))) (EScale (-1 # 1) (EEins "abcdijkl->bacdijkl" [(EVar "contracted_intermediate")]))) (EScale (1 # 1) (EEins "abcdijkl->bacdjikl" [(EVar "contracted_intermediate")])));
   (*L1195*) SAssign "contracted_intermediate" (EScale (1 # 1) (EEins "mdel,eaij,bcmk->abcdijkl" [(ESlice (EVar "g_abab") [SV "o"; SV "v"; SV "v"; SV "o"]); (EVar "t2_aaaa"); (EVar "t2_abab")]));
   (*L1196*) SAug true "quadruples_res" (EAdd (EAdd (EAdd (EScale (1 # 1) (EVar "contracted_intermediate")) (EScale (-1 # 1) (EEins "abcdijkl->abcdijlk" [(EVar "contracted_intermediate")]))) (EScale (-1 # 1) (EEins "abcdijkl->bacdijkl" [(EVar "contracted_intermediate")]))) (EScale (1 # 1) (EEins "abcdijkl->bacdijlk" [(EVar "contracted_intermediate")])));
   (*L1199*) SAssign "contracted_intermediate" (EScale (-1 # 1) (EEins "mdek,aejl,bcim->abcdijkl" [(ESlice (EVar "g_bbbb") [SV "o"; SV "v"; SV "v"; SV "o"]); (EVar "t2_abab"); (EVar "t2_abab")]));
   (*L1200*) SAug true "quadruples_res" (EAdd (EAdd (EAdd (EScale (1 # 1) (EVar "contracted_intermediate")) (EScale (-1 # 1) (EEins "abcdijkl->abcdjikl" [(EVar "contracted_intermediate")]))) (EScale (-1 # 1) (EEins "abcdijkl->bacdijkl" [(EVar "contracted_intermediate")]))) (EScale (1 # 1) (EEins "abcdijkl->bacdjikl" [(EVar "contracted_intermediate")])));
   (*L1203*) SAssign "contracted_intermediate" (EScale (-1 # 1) (EEins "mdje,aeil,bcmk->abcdijkl" [(ESlice (EVar "g_abab") [SV "o"; SV "v"; SV "o"; SV "v"]); (EVar "t2_abab"); (EVar "t2_abab")]));
   (*L1204*) SAug true "quadruples_res" (EAdd (EScale (1 # 1) (EVar "contracted_intermediate")) (EScale (-1 # 1) (EEins "abcdijkl->bacdijkl" [(EVar "contracted_intermediate")])));
   (*L1207*) SAssign "contracted_intermediate" (EScale (1 # 1) (EEins "mdje,aeik,bcml->abcdijkl" [(ESlice (EVar "g_abab") [SV "o"; SV "v"; SV "o"; SV "v"]); (EVar "t2_abab"); (EVar "t2_abab")]));
   (*L1208*) SAug true "quadruples_res" (EAdd (EAdd (EAdd (EScale (1 # 1) (EVar "contracted_intermediate")) (EScale (-1 # 1) (EEins "abcdijkl->abcdjikl" [(EVar "contracted_intermediate")]))) (EScale (-1 # 1) (EEins "abcdijkl->bacdijkl" [(EVar "contracted_intermediate")]))) (EScale (1 # 1) (EEins "abcdijkl->bacdjikl" [(EVar "contracted_intermediate")])));
   (*L1211*) SAssign "contracted_intermediate" (EScale (1 # 1) (EEins "mdie,aejl,bcmk->abcdijkl" [(ESlice (EVar "g_abab") [SV "o"; SV "v"; SV "o"; SV "v"]); (EVar "t2_abab"); (EVar "t2_abab")]));
   (*L1212*) SAug true "quadruples_res" (EAdd (EScale (1 # 1) (EVar "contracted_intermediate")) (EScale (-1 # 1) (EEins "abcdijkl->bacdijkl" [(EVar "contracted_intermediate")])));
   (*L1215*) SAug true "quadruples_res" (EScale (1 # 1) (EEins "abef,ecjl,fdik->abcdijkl" [(ESlice (EVar "g_aaaa") [SV "v"; SV "v"; SV "v"; SV "v"]); (EVar "t2_abab"); (EVar "t2_abab")]));
   (*L1218*) SAug true "quadruples_res" (EScale (-1 # 1) (EEins "acfe,bejl,fdik->abcdijkl" [(ESlice (EVar "g_abab") [SV "v"; SV "v"; SV "v"; SV "v"]); (EVar "t2_abab"); (EVar "t2_abab")]));
   (*L1221*) SAssign "contracted_intermediate" (EScale (-1 # 1) (EEins "abef,ecil,fdjk->abcdijkl" [(ESlice (EVar "g_aaaa") [SV "v"; SV "v"; SV "v"; SV "v"]); (EVar "t2_abab"); (EVar "t2_abab")]));
   (*L1222*) SAug true "quadruples_res" (EAdd (EScale (1 # 1) (EVar "contracted_intermediate")) (EScale (-1 # 1) (EEins "abcdijkl->abcdijlk" [(EVar "contracted_intermediate")])));
   (*L1225*) SAssign "contracted_intermediate" (EScale (1 # 1) (EEins "acfe,beil,fdjk->abcdijkl" [(ESlice (EVar "g_abab") [SV "v"; SV "v"; SV "v"; SV "v"]); (EVar "t2_abab"); (EVar "t2_abab")]));
   (*L1226*) SAug true "quadruples_res" (EAdd (EScale (1 # 1) (EVar "contracted_intermediate")) (EScale (-1 # 1) (EEins "abcdijkl->abcdijlk" [(EVar "contracted_intermediate")])));
   (*L1229*) SAug true "quadruples_res" (EScale (-1 # 1) (EEins "abef,ecjk,fdil->abcdijkl" [(ESlice (EVar "g_aaaa") [SV "v"; SV "v"; SV "v"; SV "v"]); (EVar "t2_abab"); (EVar "t2_abab")]));
   (*L1232*) SAug true "quadruples_res" (EScale (1 # 1) (EEins "acfe,bejk,fdil->abcdijkl" [(ESlice (EVar "g_abab") [SV "v"; SV "v"; SV "v"; SV "v"]); (EVar "t2_abab"); (EVar "t2_abab")]));
   (*L1235*) SAug true "quadruples_res" (EScale (-1 # 1) (EEins "acef,ebji,fdkl->abcdijkl" [(ESlice (EVar "g_abab") [SV "v"; SV "v"; SV "v"; SV "v"]); (EVar "t2_aaaa"); (EVar "t2_bbbb")]));
   (*L1238*) SAssign "contracted_intermediate" (EScale (1 # 1) (EEins "adfe,bejl,fcik->abcdijkl" [(ESlice (EVar "g_abab") [SV "v"; SV "v"; SV "v"; SV "v"]); (EVar "t2_abab"); (EVar "t2_abab")]));
   (*L1239*) SAug true "quadruples_res" (EAdd (EScale (1 # 1) (EVar "contracted_intermediate")) (EScale (-1 # 1) (EEins "abcdijkl->bacdijkl" [(EVar "contracted_intermediate")])));
   (*L1242*) SAssign "contracted_intermediate" (EScale (-1 # 1) (EEins "adfe,beil,fcjk->abcdijkl" [(ESlice (EVar "g_abab") [SV "v"; SV "v"; SV "v"; SV "v"]); (EVar "t2_abab"); (EVar "t2_abab")]));
   (*L1243*) SAug true "quadruples_res" (EAdd (EAdd (EAdd (EScale (1 # 1) (EVar "contracted_intermediate")) (EScale (-1 # 1) (EEins "abcdijkl->abcdijlk" [(EVar "contracted_intermediate")]))) (EScale (-1 # 1) (EEins "abcdijkl->bacdijkl" [(EVar "contracted_intermediate")]))) (EScale (1 # 1) (EEins "abcdijkl->bacdijlk" [(EVar "contracted_intermediate")])));
   (*L1246*) SAssign "contracted_intermediate" (EScale (-1 # 1) (EEins "adfe,bejk,fcil->abcdijkl" [(ESlice (EVar "g_abab") [SV "v"; SV "v"; SV "v"; SV "v"]); (EVar "t2_abab"); (EVar "t2_abab")]));
   (*L1247*) SAug true "quadruples_res" (EAdd (EScale (1 # 1) (EVar "contracted_intermediate")) (EScale (-1 # 1) (EEins "abcdijkl->bacdijkl" [(EVar "contracted_intermediate")])));
   (*L1250*) SAssign "contracted_intermediate" (EScale (1 # 1) (EEins "adef,ebji,fckl->abcdijkl" [(ESlice (EVar "g_abab") [SV "v"; SV "v"; SV "v"; SV "v"]); (EVar "t2_aaaa"); (EVar "t2_bbbb")]));
   (*L1251*) SAug true "quadruples_res" (EAdd (EScale (1 # 1) (EVar "contracted_intermediate")) (EScale (-1 # 1) (EEins "abcdijkl->bacdijkl" [(EVar "contracted_intermediate")])));
   (*L1254*) SAug true "quadruples_res" (EScale (1 # 1) (EEins "bcfe,aejl,fdik->abcdijkl" [(ESlice (EVar "g_abab") [SV "v"; SV "v"; SV "v"; SV "v"]); (EVar "t2_abab"); (EVar "t2_abab")]));
   (*L1257*) SAug true "quadruples_res" (EScale (-1 # 1) (EEins "dcef,aejl,bfik->abcdijkl" [(ESlice (EVar "g_bbbb") [SV "v"; SV "v"; SV "v"; SV "v"]); (EVar "t2_abab"); (EVar "t2_abab")]));
   (*L1260*) SAssign "contracted_intermediate" (EScale (-1 # 1) (EEins "bcfe,aeil,fdjk->abcdijkl" [(ESlice (EVar "g_abab") [SV "v"; SV "v"; SV "v"; SV "v"]); (EVar "t2_abab"); (EVar "t2_abab")]));
   (*L1261*) SAug true "quadruples_res" (EAdd (EScale (1 # 1) (EVar "contracted_intermediate")) (EScale (-1 # 1) (EEins "abcdijkl->abcdijlk" [(EVar "contracted_intermediate")])));
   (*L1264*) SAssign "contracted_intermediate" (EScale (1 # 1) (EEins "dcef,aeil,bfjk->abcdijkl" [(ESlice (EVar "g_bbbb") [SV "v"; SV "v"; SV "v"; SV "v"]); (EVar "t2_abab"); (EVar "t2_abab")]));
   (*L1265*) SAug true "quadruples_res" (EAdd (EScale (1 # 1) (EVar "contracted_intermediate")) (EScale (-1 # 1) (EEins "abcdijkl->abcdijlk" [(EVar "contracted_intermediate")])));
   (*L1268*) SAug true "quadruples_res" (EScale (-1 # 1) (EEins "bcfe,aejk,fdil->abcdijkl" [(ESlice (EVar "g_abab") [SV "v"; SV "v"; SV "v"; SV "v"]); (EVar "t2_abab"); (EVar "t2_abab")]));
   (*L1271*) SAug true "quadruples_res" (EScale (1 # 1) (EEins "dcef,aejk,bfil->abcdijkl" [(ESlice (EVar "g_bbbb") [SV "v"; SV "v"; SV "v"; SV "v"]); (EVar "t2_abab"); (EVar "t2_abab")]));
   (*L1274*) SAug true "quadruples_res" (EScale (1 # 1) (EEins "bcef,eaji,fdkl->abcdijkl" [(ESlice (EVar "g_abab") [SV "v"; SV "v"; SV "v"; SV "v"]); (EVar "t2_aaaa"); (EVar "t2_bbbb")]));
   (*L1277*) SAssign "contracted_intermediate" (EScale (1 # 1) (EEins "amjl,bcdikm->abcdijkl" [(ESlice (EVar "g_abab") [SV "v"; SV "o"; SV "o"; SV "o"]); (EVar "t3_abbabb")]));
   (*L1278*) SAug true "quadruples_res" (EAdd (EScale (1 # 1) (EVar "contracted_intermediate")) (EScale (-1 # 1) (EEins "abcdijkl->bacdijkl" [(EVar "contracted_intermediate")])));
   (*L1281*) SAssign "contracted_intermediate" (EScale (-1 # 1) (EEins "amil,bcdjkm->abcdijkl" [(ESlice (EVar "g_abab") [SV "v"; SV "o"; SV "o"; SV "o"]); (EVar "t3_abbabb")]));
   (*L1282*) SAug true "quadruples_res" (EAdd (EAdd (EAdd (EScale (1 # 1) (EVar "contracted_intermediate")) (EScale (-1 # 1) (EEins "abcdijkl->abcdijlk" [(EVar "contracted_intermediate")]))) (EScale (-1 # 1) (EEins "abcdijkl->bacdijkl" [(EVar "contracted_intermediate")]))) (EScale (1 # 1) (EEins "abcdijkl->bacdijlk" [(EVar "contracted_intermediate")])));
   (*L1285*) SAssign "contracted_intermediate" (EScale (-1 # 1) (EEins "amjk,bcdilm->abcdijkl" [(ESlice (EVar "g_abab") [SV "v"; SV "o"; SV "o"; SV "o"]); (EVar "t3_abbabb")]));
   (*L1286*) SAug true "quadruples_res" (EAdd (EScale (1 # 1) (EVar "contracted_intermediate")) (EScale (-1 # 1) (EEins "abcdijkl->bacdijkl" [(EVar "contracted_intermediate")])));
   (*L1289*) SAssign "contracted_intermediate" (EScale (1 # 1) (EEins "maji,bcdmlk->abcdijkl" [(ESlice (EVar "g_aaaa") [SV "o"; SV "v"; SV "o"; SV "o"]); (EVar "t3_abbabb")]));
   (*L1290*) SAug true "quadruples_res" (EAdd (EScale (1 # 1) (EVar "contracted_intermediate")) (EScale (-1 # 1) (EEins "abcdijkl->bacdijkl" [(EVar "contracted_intermediate")])));
   (*L1293*) SAssign "contracted_intermediate" (EScale (1 # 1) (EEins "mckl,abdijm->abcdijkl" [(ESlice (EVar "g_bbbb") [SV "o"; SV "v"; SV "o"; SV "o"]); (EVar "t3_aabaab")]));
   (*L1294*) SAug true "quadruples_res" (EAdd (EScale (1 # 1) (EVar "contracted_intermediate")) (EScale (-1 # 1) (EEins "abcdijkl->abdcijkl" [(EVar "contracted_intermediate")])));
   (*L1297*) SAssign "contracted_intermediate" (EScale (1 # 1) (EEins "mcjl,abdimk->abcdijkl" [(ESlice (EVar "g_abab") [SV "o"; SV "v"; SV "o"; SV "o"]); (EVar "t3_aabaab")]));
   (*L1298*) SAug true "quadruples_res" (EAdd (EScale (1 # 1) (EVar "contracted_intermediate")) (EScale (-1 # 1) (EEins "abcdijkl->abdcijkl" [(EVar "contracted_intermediate")])));
   (*L1301*) SAssign "contracted_intermediate" (EScale (-1 # 1) (EEins "mcil,abdjmk->abcdijkl" [(ESlice (EVar "g_abab") [SV "o"; SV "v"; SV "o"; SV "o"]); (EVar "t3_aabaab")]));
   (*L1302*) SAug true "quadruples_res" (EAdd (EAdd (EAdd (EScale (1 # 1) (EVar "contracted_intermediate")) (EScale (-1 # 1) (EEins "abcdijkl->abcdijlk" [(EVar "contracted_intermediate")]))) (EScale (-1 # 1) (EEins "abcdijkl->abdcijkl" [(EVar "contracted_intermediate")]))) (EScale (1 # 1) (EEins "abcdijkl->abdcijlk" [(EVar "contracted_intermediate")])));
   (*L1305*) SAssign "contracted_intermediate" (EScale (-1 # 1) (EEins "mcjk,abdiml->abcdijkl" [(ESlice (EVar "g_abab") [SV "o"; SV "v"; SV "o"; SV "o"]); (EVar "t3_aabaab")]));
   (*L1306*) SAug true "quadruples_res" (EAdd (EScale (1 # 1) (EVar "contracted_intermediate")) (EScale (-1 # 1) (EEins "abcdijkl->abdcijkl" [(EVar "contracted_intermediate")])));
   (*L1309*) SAssign "contracted_intermediate" (EScale (-1 # 1) (EEins "acel,ebdijk->abcdijkl" [(ESlice (EVar "g_abab") [SV "v"; SV "v"; SV "v"; SV "o"]); (EVar "t3_aabaab")]));
   (*L1310*) SAug true "quadruples_res" (EAdd (EScale (1 # 1) (EVar "contracted_intermediate")) (EScale (-1 # 1) (EEins "abcdijkl->abcdijlk" [(EVar "contracted_intermediate")])));
   (*L1313*) SAssign "contracted_intermediate" (EScale (1 # 1) (EEins "abej,ecdikl->abcdijkl" [(ESlice (EVar "g_aaaa") [SV "v"; SV "v"; SV "v"; SV "o"]); (EVar "t3_abbabb")]));
   (*L1314*) SAug true "quadruples_res" (EAdd (EScale (1 # 1) (EVar "contracted_intermediate")) (EScale (-1 # 1) (EEins "abcdijkl->abcdjikl" [(EVar "contracted_intermediate")])));
   (*L1317*) SAssign "contracted_intermediate" (EScale (-1 # 1) (EEins "acje,bedikl->abcdijkl" [(ESlice (EVar "g_abab") [SV "v"; SV "v"; SV "o"; SV "v"]); (EVar "t3_abbabb")]));
   (*L1318*) SAug true "quadruples_res" (EAdd (EScale (1 # 1) (EVar "contracted_intermediate")) (EScale (-1 # 1) (EEins "abcdijkl->abcdjikl" [(EVar "contracted_intermediate")])));
   (*L1321*) SAssign "contracted_intermediate" (EScale (1 # 1) (EEins "adel,ebcijk->abcdijkl" [(ESlice (EVar "g_abab") [SV "v"; SV "v"; SV "v"; SV "o"]); (EVar "t3_aabaab")]));
   (*L1322*) SAug true "quadruples_res" (EAdd (EAdd (EAdd (EScale (1 # 1) (EVar "contracted_intermediate")) (EScale (-1 # 1) (EEins "abcdijkl->abcdijlk" [(EVar "contracted_intermediate")]))) (EScale (-1 # 1) (EEins "abcdijkl->bacdijkl" [(EVar "contracted_intermediate")]))) (EScale (1 # 1) (EEins "abcdijkl->bacdijlk" [(EVar "contracted_intermediate")])));
   (*L1325*) SAssign "contracted_intermediate" (EScale (1 # 1) (EEins "adje,becikl->abcdijkl" [(ESlice (EVar "g_abab") [SV "v"; SV "v"; SV "o"; SV "v"]); (EVar "t3_abbabb")]));
   (*L1326*) SAug true "quadruples_res" (EAdd (EAdd (EAdd (EScale (1 # 1) (EVar "contracted_intermediate")) (EScale (-1 # 1) (EEins "abcdijkl->abcdjikl" [(EVar "contracted_intermediate")]))) (EScale (-1 # 1) (EEins "abcdijkl->bacdijkl" [(EVar "contracted_intermediate")]))) (EScale (1 # 1) (EEins "abcdijkl->bacdjikl" [(EVar "contracted_intermediate")])));
   (*L1329*) SAssign "contracted_intermediate" (EScale (1 # 1) (EEins "bcel,eadijk->abcdijkl" [(ESlice (EVar "g_abab") [SV "v"; SV "v"; SV "v"; SV "o"]); (EVar "t3_aabaab")]));
   (*L1330*) SAug true "quadruples_res" (EAdd (EScale (1 # 1) (EVar "contracted_intermediate")) (EScale (-1 # 1) (EEins "abcdijkl->abcdijlk" [(EVar "contracted_intermediate")])));
   (*L1333*) SAssign "contracted_intermediate" (EScale (1 # 1) (EEins "dcel,baeijk->abcdijkl" [(ESlice (EVar "g_bbbb") [SV "v"; SV "v"; SV "v"; SV "o"]); (EVar "t3_aabaab")]));
   (*L1334*) SAug true "quadruples_res" (EAdd (EScale (1 # 1) (EVar "contracted_intermediate")) (EScale (-1 # 1) (EEins "abcdijkl->abcdijlk" [(EVar "contracted_intermediate")])));
   (*L1337*) SAssign "contracted_intermediate" (EScale (1 # 1) (EEins "bcje,aedikl->abcdijkl" [(ESlice (EVar "g_abab") [SV "v"; SV "v"; SV "o"; SV "v"]); (EVar "t3_abbabb")]));
   (*L1338*) SAug true "quadruples_res" (EAdd (EScale (1 # 1) (EVar "contracted_intermediate")) (EScale (-1 # 1) (EEins "abcdijkl->abcdjikl" [(EVar "contracted_intermediate")])))]
  (*L1340*) (EVar "quadruples_res").

(** /repo/UT2/fullCCenergy.py:1343-1785  def ccsdtq_t4_abbbabbb_residual *)
Definition ccsdtq_t4_abbbabbb_residual : fn := mkFn
  ["t1_aa"; "t1_bb"; "t2_aaaa"; "t2_bbbb"; "t2_abab"; "t3_aaaaaa"; "t3_aabaab"; "t3_abbabb"; "t3_bbbbbb"; "t4_aaaaaaaa"; "t4_aaabaaab"; "t4_aabbaabb"; "t4_abbbabbb"; "t4_bbbbbbbb"; "f_aa"; "f_bb"; "g_aaaa"; "g_bbbb"; "g_abab"; "oa"; "ob"; "va"; "vb"]
  [(*L1351*) SAssign "o" (EVar "oa");
   (*L1352*) SAssign "v" (EVar "va");
   (*L1355*) SAssign "contracted_intermediate" (EScale (1 # 1) (EEins "nmkl,abim,cdjn->abcdijkl" [(ESlice (EVar "g_bbbb") [SV "o"; SV "o"; SV "o"; SV "o"]); (EVar "t2_abab"); (EVar "t2_bbbb")]));
   (*L1356*) SAssign "quadruples_res" (EAdd (EScale (1 # 1) (EVar "contracted_intermediate")) (EScale (-1 # 1) (EEins "abcdijkl->acbdijkl" [(EVar "contracted_intermediate")])));
   (*L1359*) SAug true "quadruples_res" (EScale (1 # 1) (EEins "nmkl,adim,bcjn->abcdijkl" [(ESlice (EVar "g_bbbb") [SV "o"; SV "o"; SV "o"; SV "o"]); (EVar "t2_abab"); (EVar "t2_bbbb")]));
   (*L1362*) SAssign "contracted_intermediate" (EScale (-1 # 1) (EEins "nmjl,abim,cdkn->abcdijkl" [(ESlice (EVar "g_bbbb") [SV "o"; SV "o"; SV "o"; SV "o"]); (EVar "t2_abab"); (EVar "t2_bbbb")]));
   (*L1363*) SAug true "quadruples_res" (EAdd (EScale (1 # 1) (EVar "contracted_intermediate")) (EScale (-1 # 1) (EEins "abcdijkl->acbdijkl" [(EVar "contracted_intermediate")])));
   (*L1366*) SAug true "quadruples_res" (EScale (-1 # 1) (EEins "nmjl,adim,bckn->abcdijkl" [(ESlice (EVar "g_bbbb") [SV "o"; SV "o"; SV "o"; SV "o"]); (EVar "t2_abab"); (EVar "t2_bbbb")]));
   (*L1369*) SAssign "contracted_intermediate" (EScale (-1 # 1) (EEins "mnil,abmk,cdjn->abcdijkl" [(ESlice (EVar "g_abab") [SV "o"; SV "o"; SV "o"; SV "o"]); (EVar "t2_abab"); (EVar "t2_bbbb")]));
   (*L1370*) SAug true "quadruples_res" (EAdd (EAdd (EAdd (EScale (1 # 1) (EVar "contracted_intermediate")) (EScale (-1 # 1) (EEins "abcdijkl->abcdikjl" [(EVar "contracted_intermediate")]))) (EScale (-1 # 1) (EEins "abcdijkl->acbdijkl" [(EVar "contracted_intermediate")]))) (EScale (1 # 1) (EEins "abcdijkl->acbdikjl" [(EVar "contracted_intermediate")])));
   (*L1373*) SAssign "contracted_intermediate" (EScale (-1 # 1) (EEins "mnil,admk,bcjn->abcdijkl" [(ESlice (EVar "g_abab") [SV "o"; SV "o"; SV "o"; SV "o"]); (EVar "t2_abab"); (EVar "t2_bbbb")]));
   (*L1374*) SAug true "quadruples_res" (EAdd (EScale (1 # 1) (EVar "contracted_intermediate")) (EScale (-1 # 1) (EEins "abcdijkl->abcdikjl" [(EVar "contracted_intermediate")])));
   (*L1377*) SAssign "contracted_intermediate" (EScale (1 # 1) (EEins "nmjk,abim,cdln->abcdijkl" [(ESlice (EVar "g_bbbb") [SV "o"; SV "o"; SV "o"; SV "o"]); (EVar "t2_abab"); (EVar "t2_bbbb")]));
   (*L1378*) SAug true "quadruples_res" (EAdd (EScale (1 # 1) (EVar "contracted_intermediate")) (EScale (-1 # 1) (EEins "abcdijkl->acbdijkl" [(EVar "contracted_intermediate")])));
   (*L1381*) SAug true "quadruples_res" (EScale (1 # 1) (EEins "nmjk,adim,bcln->abcdijkl" [(ESlice (EVar "g_bbbb") [SV "o"; SV "o"; SV "o"; SV "o"]); (EVar "t2_abab"); (EVar "t2_bbbb")]));
   (*L1384*) SAssign "contracted_intermediate" (EScale (1 # 1) (EEins "mnik,abml,cdjn->abcdijkl" [(ESlice (EVar "g_abab") [SV "o"; SV "o"; SV "o"; SV "o"]); (EVar "t2_abab"); (EVar "t2_bbbb")]));
   (*L1385*) SAug true "quadruples_res" (EAdd (EAdd (EAdd (EScale (1 # 1) (EVar "contracted_intermediate")) (EScale (-1 # 1) (EEins "abcdijkl->abcdilkj" [(EVar "contracted_intermediate")]))) (EScale (-1 # 1) (EEins "abcdijkl->acbdijkl" [(EVar "contracted_intermediate")]))) (EScale (1 # 1) (EEins "abcdijkl->acbdilkj" [(EVar "contracted_intermediate")])));
   (*L1388*) SAssign "contracted_intermediate" (EScale (1 # 1) (EEins "mnik,adml,bcjn->abcdijkl" [(ESlice (EVar "g_abab") [SV "o"; SV "o"; SV "o"; SV "o"]); (EVar "t2_abab"); (EVar "t2_bbbb")]));
   (*L1389*) SAug true "quadruples_res" (EAdd (EScale (1 # 1) (EVar "contracted_intermediate")) (EScale (-1 # 1) (EEins "abcdijkl->abcdilkj" [(EVar "contracted_intermediate")])));
   (*L1392*) SAssign "contracted_intermediate" (EScale (-1 # 1) (EEins "mnij,abml,cdkn->abcdijkl" [(ESlice (EVar "g_abab") [SV "o"; SV "o"; SV "o"; SV "o"]); (EVar "t2_abab"); (EVar "t2_bbbb")]));
   (*L1393*) SAug true "quadruples_res" (EAdd (EAdd (EAdd (EScale (1 # 1) (EVar "contracted_intermediate")) (EScale (-1 # 1) (EEins "abcdijkl->abcdijlk" [(EVar "contracted_intermediate")]))) (EScale (-1 # 1) (EEins "abcdijkl->acbdijkl" [(EVar "contracted_intermediate")]))) (EScale (1 # 1) (EEins "abcdijkl->acbdijlk" [(EVar "contracted_intermediate")])));
   (*L1396*) SAssign "contracted_intermediate" (EScale (-1 # 1) (EEins "mnij,adml,bckn->abcdijkl" [(ESlice (EVar "g_abab") [SV "o"; SV "o"; SV "o"; SV "o"]); (EVar "t2_abab"); (EVar "t2_bbbb")]));
   (*L1397*) SAug true "quadruples_res" (EAdd (EScale (1 # 1) (EVar "contracted_intermediate")) (EScale (-1 # 1) (EEins "abcdijkl->abcdijlk" [(EVar "contracted_intermediate")])));
   (*L1400*) SAssign "contracted_intermediate" (EScale (1 # 1) (EEins "amel,ebik,cdjm->abcdijkl" [(ESlice (EVar "g_abab") [SV "v"; SV "o"; SV "v"; SV "o"]); (EVar "t2_abab"); (EVar "t2_bbbb")]));
   (*L1401*) SAug true "quadruples_res" (EAdd (EScale (1 # 1) (EVar "contracted_intermediate")) (EScale (-1 # 1) (EEins "abcdijkl->acbdijkl" [(EVar "contracted_intermediate")])));
   (*L1404*) SAssign "contracted_intermediate" (EScale (-1 # 1) (EEins "amel,ebij,cdkm->abcdijkl" [(ESlice (EVar "g_abab") [SV "v"; SV "o"; SV "v"; SV "o"]); (EVar "t2_abab"); (EVar "t2_bbbb")]));
   (*L1405*) SAug true "quadruples_res" (EAdd (EAdd (EAdd (EScale (1 # 1) (EVar "contracted_intermediate")) (EScale (-1 # 1) (EEins "abcdijkl->abcdijlk" [(EVar "contracted_intermediate")]))) (EScale (-1 # 1) (EEins "abcdijkl->acbdijkl" [(EVar "contracted_intermediate")]))) (EScale (1 # 1) (EEins "abcdijkl->acbdijlk" [(EVar "contracted_intermediate")])));
   (*L1408*) SAug true "quadruples_res" (EScale (-1 # 1) (EEins "mbel,edjk,acim->abcdijkl" [(ESlice (EVar "g_bbbb") [SV "o"; SV "v"; SV "v"; SV "o"]); (EVar "t2_bbbb"); (EVar "t2_abab")]));
   (*L1411*) SAug true "quadruples_res" (EScale (1 # 1) (EEins "amel,edik,bcjm->abcdijkl" [(ESlice (EVar "g_abab") [SV "v"; SV "o"; SV "v"; SV "o"]); (EVar "t2_abab"); (EVar "t2_bbbb")]));
   (*L1414*) SAug true "quadruples_res" (EScale (-1 # 1) (EEins "mbel,edik,acmj->abcdijkl" [(ESlice (EVar "g_abab") [SV "o"; SV "v"; SV "v"; SV "o"]); (EVar "t2_abab"); (EVar "t2_abab")]));
   (*L1417*) SAssign "contracted_intermediate" (EScale (-1 # 1) (EEins "amel,edij,bckm->abcdijkl" [(ESlice (EVar "g_abab") [SV "v"; SV "o"; SV "v"; SV "o"]); (EVar "t2_abab"); (EVar "t2_bbbb")]));
   (*L1418*) SAug true "quadruples_res" (EAdd (EScale (1 # 1) (EVar "contracted_intermediate")) (EScale (-1 # 1) (EEins "abcdijkl->abcdijlk" [(EVar "contracted_intermediate")])));
   (*L1421*) SAssign "contracted_intermediate" (EScale (1 # 1) (EEins "mbel,edij,acmk->abcdijkl" [(ESlice (EVar "g_abab") [SV "o"; SV "v"; SV "v"; SV "o"]); (EVar "t2_abab"); (EVar "t2_abab")]));
   (*L1422*) SAug true "quadruples_res" (EAdd (EScale (1 # 1) (EVar "contracted_intermediate")) (EScale (-1 # 1) (EEins "abcdijkl->abcdijlk" [(EVar "contracted_intermediate")])));
   (*L1425*) SAssign "contracted_intermediate" (EScale (-1 # 1) (EEins "amek,ebil,cdjm->abcdijkl" [(ESlice (EVar "g_abab") [SV "v"; SV "o"; SV "v"; SV "o"]); (EVar "t2_abab"); (EVar "t2_bbbb")]));
   (*L1426*) SAug true "quadruples_res" (EAdd (EScale (1 # 1) (EVar "contracted_intermediate")) (EScale (-1 # 1) (EEins "abcdijkl->acbdijkl" [(EVar "contracted_intermediate")])));
   (*L1429*) SAug true "quadruples_res" (EScale (1 # 1) (EEins "mbek,edjl,acim->abcdijkl" [(ESlice (EVar "g_bbbb") [SV "o"; SV "v"; SV "v"; SV "o"]); (EVar "t2_bbbb"); (EVar "t2_abab")]));
   (*L1432*) SAug true "quadruples_res" (EScale (-1 # 1) (EEins "amek,edil,bcjm->abcdijkl" [(ESlice (EVar "g_abab") [SV "v"; SV "o"; SV "v"; SV "o"]); (EVar "t2_abab"); (EVar "t2_bbbb")]));
   (*L1435*) SAug true "quadruples_res" (EScale (1 # 1) (EEins "mbek,edil,acmj->abcdijkl" [(ESlice (EVar "g_abab") [SV "o"; SV "v"; SV "v"; SV "o"]); (EVar "t2_abab"); (EVar "t2_abab")]));
   (*L1438*) SAssign "contracted_intermediate" (EScale (1 # 1) (EEins "amej,ebil,cdkm->abcdijkl" [(ESlice (EVar "g_abab") [SV "v"; SV "o"; SV "v"; SV "o"]); (EVar "t2_abab"); (EVar "t2_bbbb")]));
   (*L1439*) SAug true "quadruples_res" (EAdd (EScale (1 # 1) (EVar "contracted_intermediate")) (EScale (-1 # 1) (EEins "abcdijkl->acbdijkl" [(EVar "contracted_intermediate")])));
   (*L1442*) SAssign "contracted_intermediate" (EScale (-1 # 1) (EEins "amej,ebik,cdlm->abcdijkl" [(ESlice (EVar "g_abab") [SV "v"; SV "o"; SV "v"; SV "o"]); (EVar "t2_abab"); (EVar "t2_bbbb")]));
   (*L1443*) SAug true "quadruples_res" (EAdd (EScale (1 # 1) (EVar "contracted_intermediate")) (EScale (-1 # 1) (EEins "abcdijkl->acbdijkl" [(EVar "contracted_intermediate")])));
   (*L1446*) SAssign "contracted_intermediate" (EScale (-1 # 1) (EEins "amie,ebjk,cdlm->abcdijkl" [(ESlice (EVar "g_abab") [SV "v"; SV "o"; SV "o"; SV "v"]); (EVar "t2_bbbb"); (EVar "t2_bbbb")]));
   (*L1447*) SAug true "quadruples_res" (EAdd (EScale (1 # 1) (EVar "contracted_intermediate")) (EScale (-1 # 1) (EEins "abcdijkl->acbdijkl" [(EVar "contracted_intermediate")])));
   (*L1450*) SAug true "quadruples_res" (EScale (-1 # 1) (EEins "mbej,edkl,acim->abcdijkl" [(ESlice (EVar "g_bbbb") [SV "o"; SV "v"; SV "v"; SV "o"]); (EVar "t2_bbbb"); (EVar "t2_abab")]));
   (*L1453*) SAug true "quadruples_res" (EScale (1 # 1) (EEins "amej,edil,bckm->abcdijkl" [(ESlice (EVar "g_abab") [SV "v"; SV "o"; SV "v"; SV "o"]); (EVar "t2_abab"); (EVar "t2_bbbb")]));
   (*L1456*) SAug true "quadruples_res" (EScale (-1 # 1) (EEins "mbej,edil,acmk->abcdijkl" [(ESlice (EVar "g_abab") [SV "o"; SV "v"; SV "v"; SV "o"]); (EVar "t2_abab"); (EVar "t2_abab")]));
   (*L1459*) SAug true "quadruples_res" (EScale (-1 # 1) (EEins "amej,edik,bclm->abcdijkl" [(ESlice (EVar "g_abab") [SV "v"; SV "o"; SV "v"; SV "o"]); (EVar "t2_abab"); (EVar "t2_bbbb")]));
   (*L1462*) SAug true "quadruples_res" (EScale (1 # 1) (EEins "mbej,edik,acml->abcdijkl" [(ESlice (EVar "g_abab") [SV "o"; SV "v"; SV "v"; SV "o"]); (EVar "t2_abab"); (EVar "t2_abab")]));
   (*L1465*) SAug true "quadruples_res" (EScale (-1 # 1) (EEins "amie,edjk,bclm->abcdijkl" [(ESlice (EVar "g_abab") [SV "v"; SV "o"; SV "o"; SV "v"]); (EVar "t2_bbbb"); (EVar "t2_bbbb")]));
   (*L1468*) SAug true "quadruples_res" (EScale (1 # 1) (EEins "mbie,edjk,acml->abcdijkl" [(ESlice (EVar "g_abab") [SV "o"; SV "v"; SV "o"; SV "v"]); (EVar "t2_bbbb"); (EVar "t2_abab")]));
   (*L1471*) SAssign "contracted_intermediate" (EScale (-1 # 1) (EEins "amie,ebkl,cdjm->abcdijkl" [(ESlice (EVar "g_abab") [SV "v"; SV "o"; SV "o"; SV "v"]); (EVar "t2_bbbb"); (EVar "t2_bbbb")]));
   (*L1472*) SAug true "quadruples_res" (EAdd (EAdd (EAdd (EScale (1 # 1) (EVar "contracted_intermediate")) (EScale (-1 # 1) (EEins "abcdijkl->abcdikjl" [(EVar "contracted_intermediate")]))) (EScale (-1 # 1) (EEins "abcdijkl->acbdijkl" [(EVar "contracted_intermediate")]))) (EScale (1 # 1) (EEins "abcdijkl->acbdikjl" [(EVar "contracted_intermediate")])));
   (*L1475*) SAssign "contracted_intermediate" (EScale (-1 # 1) (EEins "amie,edkl,bcjm->abcdijkl" [(ESlice (EVar "g_abab") [SV "v"; SV "o"; SV "o"; SV "v"]); (EVar "t2_bbbb"); (EVar "t2_bbbb")]));
   (*L1476*) SAug true "quadruples_res" (EAdd (EScale (1 # 1) (EVar "contracted_intermediate")) (EScale (-1 # 1) (EEins "abcdijkl->abcdikjl" [(EVar "contracted_intermediate")])));
   (*L1479*) SAssign "contracted_intermediate" (EScale (1 # 1) (EEins "mbie,edkl,acmj->abcdijkl" [(ESlice (EVar "g_abab") [SV "o"; SV "v"; SV "o"; SV "v"]); (EVar "t2_bbbb"); (EVar "t2_abab")]));
   (*L1480*) SAug true "quadruples_res" (EAdd (EScale (1 # 1) (EVar "contracted_intermediate")) (EScale (-1 # 1) (EEins "abcdijkl->abcdikjl" [(EVar "contracted_intermediate")])));
   (*L1483*) SAug true "quadruples_res" (EScale (1 # 1) (EEins "mbel,ecjk,adim->abcdijkl" [(ESlice (EVar "g_bbbb") [SV "o"; SV "v"; SV "v"; SV "o"]); (EVar "t2_bbbb"); (EVar "t2_abab")]));
   (*L1486*) SAug true "quadruples_res" (EScale (-1 # 1) (EEins "mbel,aeik,cdjm->abcdijkl" [(ESlice (EVar "g_bbbb") [SV "o"; SV "v"; SV "v"; SV "o"]); (EVar "t2_abab"); (EVar "t2_bbbb")]));
   (*L1489*) SAug true "quadruples_res" (EScale (1 # 1) (EEins "mbel,ecik,admj->abcdijkl" [(ESlice (EVar "g_abab") [SV "o"; SV "v"; SV "v"; SV "o"]); (EVar "t2_abab"); (EVar "t2_abab")]));
   (*L1492*) SAssign "contracted_intermediate" (EScale (1 # 1) (EEins "mbel,aeij,cdkm->abcdijkl" [(ESlice (EVar "g_bbbb") [SV "o"; SV "v"; SV "v"; SV "o"]); (EVar "t2_abab"); (EVar "t2_bbbb")]));
   (*L1493*) SAug true "quadruples_res" (EAdd (EScale (1 # 1) (EVar "contracted_intermediate")) (EScale (-1 # 1) (EEins "abcdijkl->abcdijlk" [(EVar "contracted_intermediate")])));
   (*L1496*) SAssign "contracted_intermediate" (EScale (-1 # 1) (EEins "mbel,ecij,admk->abcdijkl" [(ESlice (EVar "g_abab") [SV "o"; SV "v"; SV "v"; SV "o"]); (EVar "t2_abab"); (EVar "t2_abab")]));
   (*L1497*) SAug true "quadruples_res" (EAdd (EScale (1 # 1) (EVar "contracted_intermediate")) (EScale (-1 # 1) (EEins "abcdijkl->abcdijlk" [(EVar "contracted_intermediate")])));
   (*L1500*) SAug true "quadruples_res" (EScale (-1 # 1) (EEins "mbek,ecjl,adim->abcdijkl" [(ESlice (EVar "g_bbbb") [SV "o"; SV "v"; SV "v"; SV "o"]); (EVar "t2_bbbb"); (EVar "t2_abab")]));
   (*L1503*) SAug true "quadruples_res" (EScale (1 # 1) (EEins "mbek,aeil,cdjm->abcdijkl" [(ESlice (EVar "g_bbbb") [SV "o"; SV "v"; SV "v"; SV "o"]); (EVar "t2_abab"); (EVar "t2_bbbb")]));
   (*L1506*) SAug true "quadruples_res" (EScale (-1 # 1) (EEins "mbek,ecil,admj->abcdijkl" [(ESlice (EVar "g_abab") [SV "o"; SV "v"; SV "v"; SV "o"]); (EVar "t2_abab"); (EVar "t2_abab")]));
   (*L1509*) SAug true "quadruples_res" (EScale (1 # 1) (EEins "mbej,eckl,adim->abcdijkl" [(ESlice (EVar "g_bbbb") [SV "o"; SV "v"; SV "v"; SV "o"]); (EVar "t2_bbbb"); (EVar "t2_abab")]));
   (*L1512*) SAug true "quadruples_res" (EScale (-1 # 1) (EEins "mbej,aeil,cdkm->abcdijkl" [(ESlice (EVar "g_bbbb") [SV "o"; SV "v"; SV "v"; SV "o"]); (EVar "t2_abab"); (EVar "t2_bbbb")]));
   (*L1515*) SAug true "quadruples_res" (EScale (1 # 1) (EEins "mbej,ecil,admk->abcdijkl" [(ESlice (EVar "g_abab") [SV "o"; SV "v"; SV "v"; SV "o"]); (EVar "t2_abab"); (EVar "t2_abab")]));
   (*L1518*) SAug true "quadruples_res" (EScale (1 # 1) (EEins "mbej,aeik,cdlm->abcdijkl" [(ESlice (EVar "g_bbbb") [SV "o"; SV "v"; SV "v"; SV "o"]); (EVar "t2_abab"); (EVar "t2_bbbb")]));
   (*L1521*) SAug true "quadruples_res" (EScale (-1 # 1) (EEins "mbej,ecik,adml->abcdijkl" [(ESlice (EVar "g_abab") [SV "o"; SV "v"; SV "v"; SV "o"]); (EVar "t2_abab"); (EVar "t2_abab")]));
   (*L1524*) SAug true "quadruples_res" (EScale (-1 # 1) (EEins "mbie,ecjk,adml->abcdijkl" [(ESlice (EVar "g_abab") [SV "o"; SV "v"; SV "o"; SV "v"]); (EVar "t2_bbbb"); (EVar "t2_abab")]));
   (*L1527*) SAssign "contracted_intermediate" (EScale (-1 # 1) (EEins "mbie,eckl,admj->abcdijkl" [(ESlice (EVar "g_abab") [SV "o"; SV "v"; SV "o"; SV "v"]); (EVar "t2_bbbb"); (EVar "t2_abab")]));
   (*L1528*) SAug true "quadruples_res" (EAdd (EScale (1 # 1) (EVar "contracted_intermediate")) (EScale (-1 # 1) (EEins "abcdijkl->abcdikjl" [(EVar "contracted_intermediate")])));
   (*L1531*) SAug true "quadruples_res" (EScale (-1 # 1) (EEins "mcel,ebjk,adim->abcdijkl" [(ESlice (EVar "g_bbbb") [SV "o"; SV "v"; SV "v"; SV "o"]); (EVar "t2_bbbb"); (EVar "t2_abab")]));
   (*L1534*) SAug true "quadruples_res" (EScale (1 # 1) (EEins "mcel,aeik,bdjm->abcdijkl" [(ESlice (EVar "g_bbbb") [SV "o"; SV "v"; SV "v"; SV "o"]); (EVar "t2_abab"); (EVar "t2_bbbb")]));
   (*L1537*) SAug true "quadruples_res" (EScale (-1 # 1) (EEins "mcel,ebik,admj->abcdijkl" [(ESlice (EVar "g_abab") [SV "o"; SV "v"; SV "v"; SV "o"]); (EVar "t2_abab"); (EVar "t2_abab")]));
   (*L1540*) SAssign "contracted_intermediate" (EScale (-1 # 1) (EEins "mcel,aeij,bdkm->abcdijkl" [(ESlice (EVar "g_bbbb") [SV "o"; SV "v"; SV "v"; SV "o"]); (EVar "t2_abab"); (EVar "t2_bbbb")]));
   (*L1541*) SAug true "quadruples_res" (EAdd (EScale (1 # 1) (EVar "contracted_intermediate")) (EScale (-1 # 1) (EEins "abcdijkl->abcdijlk" [(EVar "contracted_intermediate")])));
   (*L1544*) SAssign "contracted_intermediate" (EScale (1 # 1) (EEins "mcel,ebij,admk->abcdijkl" [(ESlice (EVar "g_abab") [SV "o"; SV "v"; SV "v"; SV "o"]); (EVar "t2_abab"); (EVar "t2_abab")]));
   (*L1545*) SAug true "quadruples_res" (EAdd (EScale (1 # 1) (EVar "contracted_intermediate")) (EScale (-1 # 1) (EEins "abcdijkl->abcdijlk" [(EVar "contracted_intermediate")])));
   (*L1548*) SAssign "contracted_intermediate" (EScale (1 # 1) (EEins "mcel,edjk,abim->abcdijkl" [(ESlice (EVar "g_bbbb") [SV "o"; SV "v"; SV "v"; SV "o"]); (EVar "t2_bbbb"); (EVar "t2_abab")]));
   (*L1549*) SAug true "quadruples_res" (EAdd (EScale (1 # 1) (EVar "contracted_intermediate")) (EScale (-1 # 1) (EEins "abcdijkl->abdcijkl" [(EVar "contracted_intermediate")])));
   (*L1552*) SAssign "contracted_intermediate" (EScale (1 # 1) (EEins "mcel,edik,abmj->abcdijkl" [(ESlice (EVar "g_abab") [SV "o"; SV "v"; SV "v"; SV "o"]); (EVar "t2_abab"); (EVar "t2_abab")]));
   (*L1553*) SAug true "quadruples_res" (EAdd (EScale (1 # 1) (EVar "contracted_intermediate")) (EScale (-1 # 1) (EEins "abcdijkl->abdcijkl" [(EVar "contracted_intermediate")])));
   (*L1556*) SAssign "contracted_intermediate" (EScale (-1 # 1) (EEins "mcel,edij,abmk->abcdijkl" [(ESlice (EVar "g_abab") [SV "o"; SV "v"; SV "v"; SV "o"]); (EVar "t2_abab"); (EVar "t2_abab")]));
   (*L1557*) SAug true "quadruples_res" (EAdd (EAdd (EAdd (EScale (1 # 1) (EVar "contracted_intermediate")) (EScale (-1 # 1) (EEins "abcdijkl->abcdijlk" [(EVar "contracted_intermediate")]))) (EScale (-1 # 1) (EEins "abcdijkl->abdcijkl" [(EVar "contracted_intermediate")]))) (EScale (1 # 1) (EEins "abcdijkl->abdcijlk" [(EVar "contracted_intermediate")])));
   (*L1560*) SAug true "quadruples_res" (EScale (1 # 1) (EEins "mcek,ebjl,adim->abcdijkl" [(ESlice (EVar "g_bbbb") [SV "o"; SV "v"; SV "v"; SV "o"]); (EVar "t2_bbbb"); (EVar "t2_abab")]));
   (*L1563*) SAug true "quadruples_res" (EScale (-1 # 1) (EEins "mcek,aeil,bdjm->abcdijkl" [(ESlice (EVar "g_bbbb") [SV "o"; SV "v"; SV "v"; SV "o"]); (EVar "t2_abab"); (EVar "t2_bbbb")]));
   (*L1566*) SAug true "quadruples_res" (EScale (1 # 1) (EEins "mcek,ebil,admj->abcdijkl" [(ESlice (EVar "g_abab") [SV "o"; SV "v"; SV "v"; SV "o"]); (EVar "t2_abab"); (EVar "t2_abab")]));
   (*L1569*) SAssign "contracted_intermediate" (EScale (-1 # 1) (EEins "mcek,edjl,abim->abcdijkl" [(ESlice (EVar "g_bbbb") [SV "o"; SV "v"; SV "v"; SV "o"]); (EVar "t2_bbbb"); (EVar "t2_abab")]));
   (*L1570*) SAug true "quadruples_res" (EAdd (EScale (1 # 1) (EVar "contracted_intermediate")) (EScale (-1 # 1) (EEins "abcdijkl->abdcijkl" [(EVar "contracted_intermediate")])));
   (*L1573*) SAssign "contracted_intermediate" (EScale (-1 # 1) (EEins "mcek,edil,abmj->abcdijkl" [(ESlice (EVar "g_abab") [SV "o"; SV "v"; SV "v"; SV "o"]); (EVar "t2_abab"); (EVar "t2_abab")]));
   (*L1574*) SAug true "quadruples_res" (EAdd (EScale (1 # 1) (EVar "contracted_intermediate")) (EScale (-1 # 1) (EEins "abcdijkl->abdcijkl" [(EVar "contracted_intermediate")])));
   (*L1577*) SAug true "quadruples_res" (EScale (-1 # 1) (EEins "mcej,ebkl,adim->abcdijkl" [(ESlice (EVar "g_bbbb") [SV "o"; SV "v"; SV "v"; SV "o"]); (EVar "t2_bbbb"); (EVar "t2_abab")]));
   (*L1580*) SAug true "quadruples_res" (EScale (1 # 1) (EEins "mcej,aeil,bdkm->abcdijkl" [(ESlice (EVar "g_bbbb") [SV "o"; SV "v"; SV "v"; SV "o"]); (EVar "t2_abab"); (EVar "t2_bbbb")]));
   (*L1583*) SAug true "quadruples_res" (EScale (-1 # 1) (EEins "mcej,ebil,admk->abcdijkl" [(ESlice (EVar "g_abab") [SV "o"; SV "v"; SV "v"; SV "o"]); (EVar "t2_abab"); (EVar "t2_abab")]));
   (*L1586*) SAug true "quadruples_res" (EScale (-1 # 1) (EEins "mcej,aeik,bdlm->abcdijkl" [(ESlice (EVar "g_bbbb") [SV "o"; SV "v"; SV "v"; SV "o"]); (EVar "t2_abab"); (EVar "t2_bbbb")]));
   (*L1589*) SAug true "quadruples_res" (EScale (1 # 1) (EEins "mcej,ebik,adml->abcdijkl" [(ESlice (EVar "g_abab") [SV "o"; SV "v"; SV "v"; SV "o"]); (EVar "t2_abab"); (EVar "t2_abab")]));
   (*L1592*) SAug true "quadruples_res" (EScale (1 # 1) (EEins "mcie,ebjk,adml->abcdijkl" [(ESlice (EVar "g_abab") [SV "o"; SV "v"; SV "o"; SV "v"]); (EVar "t2_bbbb"); (EVar "t2_abab")]));
   (*L1595*) SAssign "contracted_intermediate" (EScale (1 # 1) (EEins "mcej,edkl,abim->abcdijkl" [(ESlice (EVar "g_bbbb") [SV "o"; SV "v"; SV "v"; SV "o"]); (EVar "t2_bbbb"); (EVar "t2_abab")]));
   (*L1596*) SAug true "quadruples_res" (EAdd (EScale (1 # 1) (EVar "contracted_intermediate")) (EScale (-1 # 1) (EEins "abcdijkl->abdcijkl" [(EVar "contracted_intermediate")])));
   (*L1599*) SAssign "contracted_intermediate" (EScale (1 # 1) (EEins "mcej,edil,abmk->abcdijkl" [(ESlice (EVar "g_abab") [SV "o"; SV "v"; SV "v"; SV "o"]); (EVar "t2_abab"); (EVar "t2_abab")]));
   (*L1600*) SAug true "quadruples_res" (EAdd (EScale (1 # 1) (EVar "contracted_intermediate")) (EScale (-1 # 1) (EEins "abcdijkl->abdcijkl" [(EVar "contracted_intermediate")])));
   (*L1603*) SAssign "contracted_intermediate" (EScale (-1 # 1) (EEins "mcej,edik,abml->abcdijkl" [(ESlice (EVar "g_abab") [SV "o"; SV "v"; SV "v"; SV "o"]); (EVar "t2_abab"); (EVar "t2_abab")]));
   (*L1604*) SAug true "quadruples_res" (EAdd (EScale (1 # 1) (EVar "contracted_intermediate")) (EScale (-1 # 1) (EEins "abcdijkl->abdcijkl" [(EVar "contracted_intermediate")])));
   (*L1607*) SAssign "contracted_intermediate" (EScale (-1 # 1) (EEins "mcie,edjk,abml->abcdijkl" [(ESlice (EVar "g_abab") [SV "o"; SV "v"; SV "o"; SV "v"]); (EVar "t2_bbbb"); (EVar "t2_abab")]));
   (*L1608*) SAug true "quadruples_res" (EAdd (EScale (1 # 1) (EVar "contracted_intermediate")) (EScale (-1 # 1) (EEins "abcdijkl->abdcijkl" [(EVar "contracted_intermediate")])));
   (*L1611*) SAssign "contracted_intermediate" (EScale (1 # 1) (EEins "mcie,ebkl,admj->abcdijkl" [(ESlice (EVar "g_abab") [SV "o"; SV "v"; SV "o"; SV "v"]); (EVar "t2_bbbb"); (EVar "t2_abab")]));
   (*L1612*) SAug true "quadruples_res" (EAdd (EScale (1 # 1) (EVar "contracted_intermediate")) (EScale (-1 # 1) (EEins "abcdijkl->abcdikjl" [(EVar "contracted_intermediate")])));
   (*L1615*) SAssign "contracted_intermediate" (EScale (-1 # 1) (EEins "mcie,edkl,abmj->abcdijkl" [(ESlice (EVar "g_abab") [SV "o"; SV "v"; SV "o"; SV "v"]); (EVar "t2_bbbb"); (EVar "t2_abab")]));
   (*L1616*) SAug true "quadruples_res" (EAdd (EAdd (EAdd (EScale (1 # 1) (EVar "contracted_intermediate")) (EScale (-1 # 1) (EEins "abcdijkl->abcdikjl" [(EVar "contracted_intermediate")]))) (EScale (-1 # 1) (EEins "abcdijkl->abdcijkl" [(EVar "contracted_intermediate")]))) (EScale (1 # 1) (EEins "abcdijkl->abdcikjl" [(EVar "contracted_intermediate")])));
   (*L1619*) SAug true "quadruples_res" (EScale (1 # 1) (EEins "mdel,ebjk,acim->abcdijkl" [(ESlice (EVar "g_bbbb") [SV "o"; SV "v"; SV "v"; SV "o"]); (EVar "t2_bbbb"); (EVar "t2_abab")]));
   (*L1622*) SAug true "quadruples_res" (EScale (-1 # 1) (EEins "mdel,aeik,bcjm->abcdijkl" [(ESlice (EVar "g_bbbb") [SV "o"; SV "v"; SV "v"; SV "o"]); (EVar "t2_abab"); (EVar "t2_bbbb")]));
   (*L1625*) SAug true "quadruples_res" (EScale (1 # 1) (EEins "mdel,ebik,acmj->abcdijkl" [(ESlice (EVar "g_abab") [SV "o"; SV "v"; SV "v"; SV "o"]); (EVar "t2_abab"); (EVar "t2_abab")]));
   (*L1628*) SAssign "contracted_intermediate" (EScale (1 # 1) (EEins "mdel,aeij,bckm->abcdijkl" [(ESlice (EVar "g_bbbb") [SV "o"; SV "v"; SV "v"; SV "o"]); (EVar "t2_abab"); (EVar "t2_bbbb")]));
   (*L1629*) SAug true "quadruples_res" (EAdd (EScale (1 # 1) (EVar "contracted_intermediate")) (EScale (-1 # 1) (EEins "abcdijkl->abcdijlk" [(EVar "contracted_intermediate")])));
   (*L1632*) SAssign "contracted_intermediate" (EScale (-1 # 1) (EEins "mdel,ebij,acmk->abcdijkl" [(ESlice (EVar "g_abab") [SV "o"; SV "v"; SV "v"; SV "o"]); (EVar "t2_abab"); (EVar "t2_abab")]));
   (*L1633*) SAug true "quadruples_res" (EAdd (EScale (1 # 1) (EVar "contracted_intermediate")) (EScale (-1 # 1) (EEins "abcdijkl->abcdijlk" [(EVar "contracted_intermediate")])));
   (*L1636*) SAug true "quadruples_res" (EScale (-1 # 1) (EEins "mdek,ebjl,acim->abcdijkl" [(ESlice (EVar "g_bbbb") [SV "o"; SV "v"; SV "v"; SV "o"]); (EVar "t2_bbbb"); (EVar "t2_abab")]));
   (*L1639*) SAug true "quadruples_res" (EScale (1 # 1) (EEins "mdek,aeil,bcjm->abcdijkl" [(ESlice (EVar "g_bbbb") [SV "o"; SV "v"; SV "v"; SV "o"]); (EVar "t2_abab"); (EVar "t2_bbbb")]));
   (*L1642*) SAug true "quadruples_res" (EScale (-1 # 1) (EEins "mdek,ebil,acmj->abcdijkl" [(ESlice (EVar "g_abab") [SV "o"; SV "v"; SV "v"; SV "o"]); (EVar "t2_abab"); (EVar "t2_abab")]));
   (*L1645*) SAug true "quadruples_res" (EScale (1 # 1) (EEins "mdej,ebkl,acim->abcdijkl" [(ESlice (EVar "g_bbbb") [SV "o"; SV "v"; SV "v"; SV "o"]); (EVar "t2_bbbb"); (EVar "t2_abab")]));
   (*L1648*) SAug true "quadruples_res" (EScale (-1 # 1) (EEins "mdej,aeil,bckm->abcdijkl" [(ESlice (EVar "g_bbbb") [SV "o"; SV "v"; SV "v"; SV "o"]); (EVar "t2_abab"); (EVar "t2_bbbb")]));
   (*L1651*) SAug true "quadruples_res" (EScale (1 # 1) (EEins "mdej,ebil,acmk->abcdijkl" [(ESlice (EVar "g_abab") [SV "o"; SV "v"; SV "v"; SV "o"]); (EVar "t2_abab"); (EVar "t2_abab")]));
   (*L1654*) SAug true "quadruples_res" (EScale (1 # 1) (EEins "mdej,aeik,bclm->abcdijkl" [(ESlice (EVar "g_bbbb") [SV "o"; SV "v"; SV "v"; SV "o"]); (EVar "t2_abab"); (EVar "t2_bbbb")]));
   (*L1657*) SAug true "quadruples_res" (EScale (-1 # 1) (EEins "mdej,ebik,acml->abcdijkl" [(ESlice (EVar "g_abab") [SV "o"; SV "v"; SV "v"; SV "o"]); (EVar "t2_abab"); (EVar "t2_abab")]));
   (*L1660*) SAug true "quadruples_res" (EScale (-1 # 1) (EEins "mdie,ebjk,acml->abcdijkl" [(ESlice (EVar "g_abab") [SV "o"; SV "v"; SV "o"; SV "v"]); (EVar "t2_bbbb"); (EVar "t2_abab")]));
   (*L1663*) SAssign "contracted_intermediate" (EScale (-1 # 1) (EEins "mdie,ebkl,acmj->abcdijkl" [(ESlice (EVar "g_abab") [SV "o"; SV "v"; SV "o"; SV "v"]); (EVar "t2_bbbb"); (EVar "t2_abab")]));
   (*L1664*) SAug true "quadruples_res" (EAdd (EScale (1 # 1) (EVar "contracted_intermediate")) (EScale (-1 # 1) (EEins "abcdijkl->abcdikjl" [(EVar "contracted_intermediate")])));
   (*L1667*) SAssign "contracted_intermediate" (EScale (1 # 1) (EEins "abfe,eckl,fdij->abcdijkl" [(ESlice (EVar "g_abab") [SV "v"; SV "v"; SV "v"; SV "v"]); (EVar "t2_bbbb"); (EVar "t2_abab")]));
   (*L1668*) SAug true "quadruples_res" (EAdd (EAdd (EAdd (EScale (1 # 1) (EVar "contracted_intermediate")) (EScale (-1 # 1) (EEins "abcdijkl->abcdikjl" [(EVar "contracted_intermediate")]))) (EScale (-1 # 1) (EEins "abcdijkl->acbdijkl" [(EVar "contracted_intermediate")]))) (EScale (1 # 1) (EEins "abcdijkl->acbdikjl" [(EVar "contracted_intermediate")])));
   (*L1671*) SAssign "contracted_intermediate" (EScale (-1 # 1) (EEins "abef,ecil,fdjk->abcdijkl" [(ESlice (EVar "g_abab") [SV "v"; SV "v"; SV "v"; SV "v"]); (EVar "t2_abab"); (EVar "t2_bbbb")]));
   (*L1672*) SAug true "quadruples_res" (EAdd (EAdd (EAdd (EScale (1 # 1) (EVar "contracted_intermediate")) (EScale (-1 # 1) (EEins "abcdijkl->abcdijlk" [(EVar "contracted_intermediate")]))) (EScale (-1 # 1) (EEins "abcdijkl->acbdijkl" [(EVar "contracted_intermediate")]))) (EScale (1 # 1) (EEins "abcdijkl->acbdijlk" [(EVar "contracted_intermediate")])));
   (*L1675*) SAssign "contracted_intermediate" (EScale (1 # 1) (EEins "abfe,ecjk,fdil->abcdijkl" [(ESlice (EVar "g_abab") [SV "v"; SV "v"; SV "v"; SV "v"]); (EVar "t2_bbbb"); (EVar "t2_abab")]));
   (*L1676*) SAug true "quadruples_res" (EAdd (EScale (1 # 1) (EVar "contracted_intermediate")) (EScale (-1 # 1) (EEins "abcdijkl->acbdijkl" [(EVar "contracted_intermediate")])));
   (*L1679*) SAssign "contracted_intermediate" (EScale (-1 # 1) (EEins "abef,ecij,fdkl->abcdijkl" [(ESlice (EVar "g_abab") [SV "v"; SV "v"; SV "v"; SV "v"]); (EVar "t2_abab"); (EVar "t2_bbbb")]));
   (*L1680*) SAug true "quadruples_res" (EAdd (EScale (1 # 1) (EVar "contracted_intermediate")) (EScale (-1 # 1) (EEins "abcdijkl->acbdijkl" [(EVar "contracted_intermediate")])));
   (*L1683*) SAssign "contracted_intermediate" (EScale (1 # 1) (EEins "adfe,ebkl,fcij->abcdijkl" [(ESlice (EVar "g_abab") [SV "v"; SV "v"; SV "v"; SV "v"]); (EVar "t2_bbbb"); (EVar "t2_abab")]));
   (*L1684*) SAug true "quadruples_res" (EAdd (EScale (1 # 1) (EVar "contracted_intermediate")) (EScale (-1 # 1) (EEins "abcdijkl->abcdikjl" [(EVar "contracted_intermediate")])));
   (*L1687*) SAssign "contracted_intermediate" (EScale (-1 # 1) (EEins "adef,ebil,fcjk->abcdijkl" [(ESlice (EVar "g_abab") [SV "v"; SV "v"; SV "v"; SV "v"]); (EVar "t2_abab"); (EVar "t2_bbbb")]));
   (*L1688*) SAug true "quadruples_res" (EAdd (EScale (1 # 1) (EVar "contracted_intermediate")) (EScale (-1 # 1) (EEins "abcdijkl->abcdijlk" [(EVar "contracted_intermediate")])));
   (*L1691*) SAssign "contracted_intermediate" (EScale (-1 # 1) (EEins "bdef,aeil,fcjk->abcdijkl" [(ESlice (EVar "g_bbbb") [SV "v"; SV "v"; SV "v"; SV "v"]); (EVar "t2_abab"); (EVar "t2_bbbb")]));
   (*L1692*) SAug true "quadruples_res" (EAdd (EScale (1 # 1) (EVar "contracted_intermediate")) (EScale (-1 # 1) (EEins "abcdijkl->abcdijlk" [(EVar "contracted_intermediate")])));
   (*L1695*) SAug true "quadruples_res" (EScale (1 # 1) (EEins "adfe,ebjk,fcil->abcdijkl" [(ESlice (EVar "g_abab") [SV "v"; SV "v"; SV "v"; SV "v"]); (EVar "t2_bbbb"); (EVar "t2_abab")]));
   (*L1698*) SAug true "quadruples_res" (EScale (-1 # 1) (EEins "adef,ebij,fckl->abcdijkl" [(ESlice (EVar "g_abab") [SV "v"; SV "v"; SV "v"; SV "v"]); (EVar "t2_abab"); (EVar "t2_bbbb")]));
   (*L1701*) SAug true "quadruples_res" (EScale (-1 # 1) (EEins "bdef,aeij,fckl->abcdijkl" [(ESlice (EVar "g_bbbb") [SV "v"; SV "v"; SV "v"; SV "v"]); (EVar "t2_abab"); (EVar "t2_bbbb")]));
   (*L1704*) SAssign "contracted_intermediate" (EScale (1 # 1) (EEins "bcef,aeil,fdjk->abcdijkl" [(ESlice (EVar "g_bbbb") [SV "v"; SV "v"; SV "v"; SV "v"]); (EVar "t2_abab"); (EVar "t2_bbbb")]));
   (*L1705*) SAug true "quadruples_res" (EAdd (EAdd (EAdd (EScale (1 # 1) (EVar "contracted_intermediate")) (EScale (-1 # 1) (EEins "abcdijkl->abcdijlk" [(EVar "contracted_intermediate")]))) (EScale (-1 # 1) (EEins "abcdijkl->adcbijkl" [(EVar "contracted_intermediate")]))) (EScale (1 # 1) (EEins "abcdijkl->adcbijlk" [(EVar "contracted_intermediate")])));
   (*L1708*) SAssign "contracted_intermediate" (EScale (1 # 1) (EEins "bcef,aeij,fdkl->abcdijkl" [(ESlice (EVar "g_bbbb") [SV "v"; SV "v"; SV "v"; SV "v"]); (EVar "t2_abab"); (EVar "t2_bbbb")]));
   (*L1709*) SAug true "quadruples_res" (EAdd (EScale (1 # 1) (EVar "contracted_intermediate")) (EScale (-1 # 1) (EEins "abcdijkl->adcbijkl" [(EVar "contracted_intermediate")])));
   (*L1712*) SAssign "contracted_intermediate" (EScale (-1 # 1) (EEins "mbkl,acdijm->abcdijkl" [(ESlice (EVar "g_bbbb") [SV "o"; SV "v"; SV "o"; SV "o"]); (EVar "t3_abbabb")]));
   (*L1713*) SAug true "quadruples_res" (EAdd (EScale (1 # 1) (EVar "contracted_intermediate")) (EScale (-1 # 1) (EEins "abcdijkl->abcdikjl" [(EVar "contracted_intermediate")])));
   (*L1716*) SAssign "contracted_intermediate" (EScale (-1 # 1) (EEins "amil,bcdjkm->abcdijkl" [(ESlice (EVar "g_abab") [SV "v"; SV "o"; SV "o"; SV "o"]); (EVar "t3_bbbbbb")]));
   (*L1717*) SAug true "quadruples_res" (EAdd (EScale (1 # 1) (EVar "contracted_intermediate")) (EScale (-1 # 1) (EEins "abcdijkl->abcdijlk" [(EVar "contracted_intermediate")])));
   (*L1720*) SAssign "contracted_intermediate" (EScale (1 # 1) (EEins "mbil,acdmkj->abcdijkl" [(ESlice (EVar "g_abab") [SV "o"; SV "v"; SV "o"; SV "o"]); (EVar "t3_abbabb")]));
   (*L1721*) SAug true "quadruples_res" (EAdd (EScale (1 # 1) (EVar "contracted_intermediate")) (EScale (-1 # 1) (EEins "abcdijkl->abcdijlk" [(EVar "contracted_intermediate")])));
   (*L1724*) SAug true "quadruples_res" (EScale (-1 # 1) (EEins "mbjk,acdilm->abcdijkl" [(ESlice (EVar "g_bbbb") [SV "o"; SV "v"; SV "o"; SV "o"]); (EVar "t3_abbabb")]));
   (*L1727*) SAug true "quadruples_res" (EScale (-1 # 1) (EEins "amij,bcdklm->abcdijkl" [(ESlice (EVar "g_abab") [SV "v"; SV "o"; SV "o"; SV "o"]); (EVar "t3_bbbbbb")]));
   (*L1730*) SAug true "quadruples_res" (EScale (1 # 1) (EEins "mbij,acdmlk->abcdijkl" [(ESlice (EVar "g_abab") [SV "o"; SV "v"; SV "o"; SV "o"]); (EVar "t3_abbabb")]));
   (*L1733*) SAssign "contracted_intermediate" (EScale (1 # 1) (EEins "mckl,abdijm->abcdijkl" [(ESlice (EVar "g_bbbb") [SV "o"; SV "v"; SV "o"; SV "o"]); (EVar "t3_abbabb")]));
   (*L1734*) SAug true "quadruples_res" (EAdd (EAdd (EAdd (EScale (1 # 1) (EVar "contracted_intermediate")) (EScale (-1 # 1) (EEins "abcdijkl->abcdikjl" [(EVar "contracted_intermediate")]))) (EScale (-1 # 1) (EEins "abcdijkl->abdcijkl" [(EVar "contracted_intermediate")]))) (EScale (1 # 1) (EEins "abcdijkl->abdcikjl" [(EVar "contracted_intermediate")])));
   (*L1737*) SAssign "contracted_intermediate" (EScale (-1 # 1) (EEins "mcil,abdmkj->abcdijkl" [(ESlice (EVar "g_abab") [SV "o"; SV "v"; SV "o"; SV "o"]); (EVar "t3_abbabb")]));
   (*L1738*) SAug true "quadruples_res" (EAdd (EAdd (EAdd (EScale (1 # 1) (EVar "contracted_intermediate")) (EScale (-1 # 1) (EEins "abcdijkl->abcdijlk" [(EVar "contracted_intermediate")]))) (EScale (-1 # 1) (EEins "abcdijkl->abdcijkl" [(EVar "contracted_intermediate")]))) (EScale (1 # 1) (EEins "abcdijkl->abdcijlk" [(EVar "contracted_intermediate")])));
   (*L1741*) SAssign "contracted_intermediate" (EScale (1 # 1) (EEins "mcjk,abdilm->abcdijkl" [(ESlice (EVar "g_bbbb") [SV "o"; SV "v"; SV "o"; SV "o"]); (EVar "t3_abbabb")]));
   (*L1742*) SAug true "quadruples_res" (EAdd (EScale (1 # 1) (EVar "contracted_intermediate")) (EScale (-1 # 1) (EEins "abcdijkl->abdcijkl" [(EVar "contracted_intermediate")])));
   (*L1745*) SAssign "contracted_intermediate" (EScale (-1 # 1) (EEins "mcij,abdmlk->abcdijkl" [(ESlice (EVar "g_abab") [SV "o"; SV "v"; SV "o"; SV "o"]); (EVar "t3_abbabb")]));
   (*L1746*) SAug true "quadruples_res" (EAdd (EScale (1 # 1) (EVar "contracted_intermediate")) (EScale (-1 # 1) (EEins "abcdijkl->abdcijkl" [(EVar "contracted_intermediate")])));
   (*L1749*) SAssign "contracted_intermediate" (EScale (1 # 1) (EEins "abel,ecdijk->abcdijkl" [(ESlice (EVar "g_abab") [SV "v"; SV "v"; SV "v"; SV "o"]); (EVar "t3_abbabb")]));
   (*L1750*) SAug true "quadruples_res" (EAdd (EAdd (EAdd (EScale (1 # 1) (EVar "contracted_intermediate")) (EScale (-1 # 1) (EEins "abcdijkl->abcdijlk" [(EVar "contracted_intermediate")]))) (EScale (-1 # 1) (EEins "abcdijkl->acbdijkl" [(EVar "contracted_intermediate")]))) (EScale (1 # 1) (EEins "abcdijkl->acbdijlk" [(EVar "contracted_intermediate")])));
   (*L1753*) SAssign "contracted_intermediate" (EScale (1 # 1) (EEins "abej,ecdikl->abcdijkl" [(ESlice (EVar "g_abab") [SV "v"; SV "v"; SV "v"; SV "o"]); (EVar "t3_abbabb")]));
   (*L1754*) SAug true "quadruples_res" (EAdd (EScale (1 # 1) (EVar "contracted_intermediate")) (EScale (-1 # 1) (EEins "abcdijkl->acbdijkl" [(EVar "contracted_intermediate")])));
   (*L1757*) SAssign "contracted_intermediate" (EScale (1 # 1) (EEins "abie,ecdjkl->abcdijkl" [(ESlice (EVar "g_abab") [SV "v"; SV "v"; SV "o"; SV "v"]); (EVar "t3_bbbbbb")]));
   (*L1758*) SAug true "quadruples_res" (EAdd (EScale (1 # 1) (EVar "contracted_intermediate")) (EScale (-1 # 1) (EEins "abcdijkl->acbdijkl" [(EVar "contracted_intermediate")])));
   (*L1761*) SAssign "contracted_intermediate" (EScale (1 # 1) (EEins "adel,ebcijk->abcdijkl" [(ESlice (EVar "g_abab") [SV "v"; SV "v"; SV "v"; SV "o"]); (EVar "t3_abbabb")]));
   (*L1762*) SAug true "quadruples_res" (EAdd (EScale (1 # 1) (EVar "contracted_intermediate")) (EScale (-1 # 1) (EEins "abcdijkl->abcdijlk" [(EVar "contracted_intermediate")])));
   (*L1765*) SAssign "contracted_intermediate" (EScale (1 # 1) (EEins "bdel,aecijk->abcdijkl" [(ESlice (EVar "g_bbbb") [SV "v"; SV "v"; SV "v"; SV "o"]); (EVar "t3_abbabb")]));
   (*L1766*) SAug true "quadruples_res" (EAdd (EScale (1 # 1) (EVar "contracted_intermediate")) (EScale (-1 # 1) (EEins "abcdijkl->abcdijlk" [(EVar "contracted_intermediate")])));
   (*L1769*) SAug true "quadruples_res" (EScale (1 # 1) (EEins "adej,ebcikl->abcdijkl" [(ESlice (EVar "g_abab") [SV "v"; SV "v"; SV "v"; SV "o"]); (EVar "t3_abbabb")]));
   (*L1772*) SAug true "quadruples_res" (EScale (1 # 1) (EEins "bdej,aecikl->abcdijkl" [(ESlice (EVar "g_bbbb") [SV "v"; SV "v"; SV "v"; SV "o"]); (EVar "t3_abbabb")]));
   (*L1775*) SAug true "quadruples_res" (EScale (1 # 1) (EEins "adie,ebcjkl->abcdijkl" [(ESlice (EVar "g_abab") [SV "v"; SV "v"; SV "o"; SV "v"]); (EVar "t3_bbbbbb")]));
   (*L1778*) SAssign "contracted_intermediate" (EScale (-1 # 1) (EEins "bcel,aedijk->abcdijkl" [(ESlice (EVar "g_bbbb") [SV "v"; SV "v"; SV "v"; SV "o"]); (EVar "t3_abbabb")]));
   (*L1779*) SAug true "quadruples_res" (EAdd (EAdd (EAdd (EScale (1 # 1) (EVar "contracted_intermediate")) (EScale (-1 # 1) (EEins "abcdijkl->abcdijlk" [(EVar "contracted_intermediate")]))) (EScale (-1 # 1) (EEins "abcdijkl->adcbijkl" [(EVar "contracted_intermediate")]))) (EScale (1 # 1) (EEins "abcdijkl->adcbijlk" [(EVar "contracted_intermediate")])));
   (*L1782*) SAssign "contracted_intermediate" (EScale (-1 # 1) (EEins "bcej,aedikl->abcdijkl" [(ESlice (EVar "g_bbbb") [SV "v"; SV "v"; SV "v"; SV "o"]); (EVar "t3_abbabb")]));
   (*L1783*) SAug true "quadruples_res" (EAdd (EScale (1 # 1) (EVar "contracted_intermediate")) (EScale (-1 # 1) (EEins "abcdijkl->adcbijkl" [(EVar "contracted_intermediate")])))]
  (*L1785*) (EVar "quadruples_res").

(** /repo/UT2/fullCCenergy.py:1788-2075  def ccsdtq_t4_bbbbbbbb_residual *)
Definition ccsdtq_t4_bbbbbbbb_residual : fn := mkFn
  ["t1_aa"; "t1_bb"; "t2_aaaa"; "t2_bbbb"; "t2_abab"; "t3_aaaaaa"; "t3_aabaab"; "t3_abbabb"; "t3_bbbbbb"; "t4_aaaaaaaa"; "t4_aaabaaab"; "t4_aabbaabb"; "t4_abbbabbb"; "t4_bbbbbbbb"; "f_aa"; "f_bb"; "g_aaaa"; "g_bbbb"; "g_abab"; "oa"; "ob"; "va"; "vb"]
  [(*L1796*) SAssign "o" (EVar "oa");
   (*L1797*) SAssign "v" (EVar "va");
   (*L1800*) SAssign "contracted_intermediate" (EScale (-1 # 1) (EEins "nmkl,abjm,cdin->abcdijkl" [(ESlice (EVar "g_bbbb") [SV "o"; SV "o"; SV "o"; SV "o"]); (EVar "t2_bbbb"); (EVar "t2_bbbb")]));
   (*L1801*) SAssign "quadruples_res" (EAdd (EAdd (EAdd (EScale (1 # 1) (EVar "contracted_intermediate")) (EScale (-1 # 1) (EEins "abcdijkl->abcdjikl" [(EVar "contracted_intermediate")]))) (EScale (-1 # 1) (EEins "abcdijkl->acbdijkl" [(EVar "contracted_intermediate")]))) (EScale (1 # 1) (EEins "abcdijkl->acbdjikl" [(EVar "contracted_intermediate")])));
   (*L1804*) SAssign "contracted_intermediate" (EScale (-1 # 1) (EEins "nmkl,adjm,bcin->abcdijkl" [(ESlice (EVar "g_bbbb") [SV "o"; SV "o"; SV "o"; SV "o"]); (EVar "t2_bbbb"); (EVar "t2_bbbb")]));
   (*L1805*) SAug true "quadruples_res" (EAdd (EScale (1 # 1) (EVar "contracted_intermediate")) (EScale (-1 # 1) (EEins "abcdijkl->abcdjikl" [(EVar "contracted_intermediate")])));
   (*L1808*) SAssign "contracted_intermediate" (EScale (1 # 1) (EEins "nmjl,abkm,cdin->abcdijkl" [(ESlice (EVar "g_bbbb") [SV "o"; SV "o"; SV "o"; SV "o"]); (EVar "t2_bbbb"); (EVar "t2_bbbb")]));
   (*L1809*) SAug true "quadruples_res" (EAdd (EAdd (EAdd (EScale (1 # 1) (EVar "contracted_intermediate")) (EScale (-1 # 1) (EEins "abcdijkl->abcdkjil" [(EVar "contracted_intermediate")]))) (EScale (-1 # 1) (EEins "abcdijkl->acbdijkl" [(EVar "contracted_intermediate")]))) (EScale (1 # 1) (EEins "abcdijkl->acbdkjil" [(EVar "contracted_intermediate")])));
   (*L1812*) SAssign "contracted_intermediate" (EScale (1 # 1) (EEins "nmjl,adkm,bcin->abcdijkl" [(ESlice (EVar "g_bbbb") [SV "o"; SV "o"; SV "o"; SV "o"]); (EVar "t2_bbbb"); (EVar "t2_bbbb")]));
   (*L1813*) SAug true "quadruples_res" (EAdd (EScale (1 # 1) (EVar "contracted_intermediate")) (EScale (-1 # 1) (EEins "abcdijkl->abcdkjil" [(EVar "contracted_intermediate")])));
   (*L1816*) SAssign "contracted_intermediate" (EScale (-1 # 1) (EEins "nmil,abkm,cdjn->abcdijkl" [(ESlice (EVar "g_bbbb") [SV "o"; SV "o"; SV "o"; SV "o"]); (EVar "t2_bbbb"); (EVar "t2_bbbb")]));
   (*L1817*) SAug true "quadruples_res" (EAdd (EAdd (EAdd (EScale (1 # 1) (EVar "contracted_intermediate")) (EScale (-1 # 1) (EEins "abcdijkl->abcdikjl" [(EVar "contracted_intermediate")]))) (EScale (-1 # 1) (EEins "abcdijkl->acbdijkl" [(EVar "contracted_intermediate")]))) (EScale (1 # 1) (EEins "abcdijkl->acbdikjl" [(EVar "contracted_intermediate")])));
   (*L1820*) SAssign "contracted_intermediate" (EScale (-1 # 1) (EEins "nmil,adkm,bcjn->abcdijkl" [(ESlice (EVar "g_bbbb") [SV "o"; SV "o"; SV "o"; SV "o"]); (EVar "t2_bbbb"); (EVar "t2_bbbb")]));
   (*L1821*) SAug true "quadruples_res" (EAdd (EScale (1 # 1) (EVar "contracted_intermediate")) (EScale (-1 # 1) (EEins "abcdijkl->abcdikjl" [(EVar "contracted_intermediate")])));
   (*L1824*) SAssign "contracted_intermediate" (EScale (-1 # 1) (EEins "nmjk,ablm,cdin->abcdijkl" [(ESlice (EVar "g_bbbb") [SV "o"; SV "o"; SV "o"; SV "o"]); (EVar "t2_bbbb"); (EVar "t2_bbbb")]));
   (*L1825*) SAug true "quadruples_res" (EAdd (EAdd (EAdd (EScale (1 # 1) (EVar "contracted_intermediate")) (EScale (-1 # 1) (EEins "abcdijkl->abcdljki" [(EVar "contracted_intermediate")]))) (EScale (-1 # 1) (EEins "abcdijkl->acbdijkl" [(EVar "contracted_intermediate")]))) (EScale (1 # 1) (EEins "abcdijkl->acbdljki" [(EVar "contracted_intermediate")])));
   (*L1828*) SAssign "contracted_intermediate" (EScale (-1 # 1) (EEins "nmjk,adlm,bcin->abcdijkl" [(ESlice (EVar "g_bbbb") [SV "o"; SV "o"; SV "o"; SV "o"]); (EVar "t2_bbbb"); (EVar "t2_bbbb")]));
   (*L1829*) SAug true "quadruples_res" (EAdd (EScale (1 # 1) (EVar "contracted_intermediate")) (EScale (-1 # 1) (EEins "abcdijkl->abcdljki" [(EVar "contracted_intermediate")])));
   (*L1832*) SAssign "contracted_intermediate" (EScale (1 # 1) (EEins "nmik,ablm,cdjn->abcdijkl" [(ESlice (EVar "g_bbbb") [SV "o"; SV "o"; SV "o"; SV "o"]); (EVar "t2_bbbb"); (EVar "t2_bbbb")]));
   (*L1833*) SAug true "quadruples_res" (EAdd (EAdd (EAdd (EScale (1 # 1) (EVar "contracted_intermediate")) (EScale (-1 # 1) (EEins "abcdijkl->abcdilkj" [(EVar "contracted_intermediate")]))) (EScale (-1 # 1) (EEins "abcdijkl->acbdijkl" [(EVar "contracted_intermediate")]))) (EScale (1 # 1) (EEins "abcdijkl->acbdilkj" [(EVar "contracted_intermediate")])));
   (*L1836*) SAssign "contracted_intermediate" (EScale (1 # 1) (EEins "nmik,adlm,bcjn->abcdijkl" [(ESlice (EVar "g_bbbb") [SV "o"; SV "o"; SV "o"; SV "o"]); (EVar "t2_bbbb"); (EVar "t2_bbbb")]));
   (*L1837*) SAug true "quadruples_res" (EAdd (EScale (1 # 1) (EVar "contracted_intermediate")) (EScale (-1 # 1) (EEins "abcdijkl->abcdilkj" [(EVar "contracted_intermediate")])));
   (*L1840*) SAssign "contracted_intermediate" (EScale (-1 # 1) (EEins "nmij,ablm,cdkn->abcdijkl" [(ESlice (EVar "g_bbbb") [SV "o"; SV "o"; SV "o"; SV "o"]); (EVar "t2_bbbb"); (EVar "t2_bbbb")]));
   (*L1841*) SAug true "quadruples_res" (EAdd (EAdd (EAdd (EScale (1 # 1) (EVar "contracted_intermediate")) (EScale (-1 # 1) (EEins "abcdijkl->abcdijlk" [(EVar "contracted_intermediate")]))) (EScale (-1 # 1) (EEins "abcdijkl->acbdijkl" [(EVar "contracted_intermediate")]))) (EScale (1 # 1) (EEins "abcdijkl->acbdijlk" [(EVar "contracted_intermediate")])));
   (*L1844*) SAssign "contracted_intermediate" (EScale (-1 # 1) (EEins "nmij,adlm,bckn->abcdijkl" [(ESlice (EVar "g_bbbb") [SV "o"; SV "o"; SV "o"; SV "o"]); (EVar "t2_bbbb"); (EVar "t2_bbbb")]));
   (*L1845*) SAug true "quadruples_res" (EAdd (EScale (1 # 1) (EVar "contracted_intermediate")) (EScale (-1 # 1) (EEins "abcdijkl->abcdijlk" [(EVar "contracted_intermediate")])));
   (*L1848*) SAssign "contracted_intermediate" (EScale (1 # 1) (EEins "mael,ebjk,cdim->abcdijkl" [(ESlice (EVar "g_bbbb") [SV "o"; SV "v"; SV "v"; SV "o"]); (EVar "t2_bbbb"); (EVar "t2_bbbb")]));
   (*L1849*) SAug true "quadruples_res" (EAdd (EAdd (EAdd (EScale (1 # 1) (EVar "contracted_intermediate")) (EScale (-1 # 1) (EEins "abcdijkl->abcdjikl" [(EVar "contracted_intermediate")]))) (EScale (-1 # 1) (EEins "abcdijkl->acbdijkl" [(EVar "contracted_intermediate")]))) (EScale (1 # 1) (EEins "abcdijkl->acbdjikl" [(EVar "contracted_intermediate")])));
   (*L1852*) SAssign "contracted_intermediate" (EScale (1 # 1) (EEins "mael,ebij,cdkm->abcdijkl" [(ESlice (EVar "g_bbbb") [SV "o"; SV "v"; SV "v"; SV "o"]); (EVar "t2_bbbb"); (EVar "t2_bbbb")]));
   (*L1853*) SAug true "quadruples_res" (EAdd (EAdd (EAdd (EScale (1 # 1) (EVar "contracted_intermediate")) (EScale (-1 # 1) (EEins "abcdijkl->abcdijlk" [(EVar "contracted_intermediate")]))) (EScale (-1 # 1) (EEins "abcdijkl->acbdijkl" [(EVar "contracted_intermediate")]))) (EScale (1 # 1) (EEins "abcdijkl->acbdijlk" [(EVar "contracted_intermediate")])));
   (*L1856*) SAssign "contracted_intermediate" (EScale (1 # 1) (EEins "mael,edjk,bcim->abcdijkl" [(ESlice (EVar "g_bbbb") [SV "o"; SV "v"; SV "v"; SV "o"]); (EVar "t2_bbbb"); (EVar "t2_bbbb")]));
   (*L1857*) SAug true "quadruples_res" (EAdd (EAdd (EAdd (EScale (1 # 1) (EVar "contracted_intermediate")) (EScale (-1 # 1) (EEins "abcdijkl->abcdjikl" [(EVar "contracted_intermediate")]))) (EScale (-1 # 1) (EEins "abcdijkl->bacdijkl" [(EVar "contracted_intermediate")]))) (EScale (1 # 1) (EEins "abcdijkl->bacdjikl" [(EVar "contracted_intermediate")])));
   (*L1860*) SAssign "contracted_intermediate" (EScale (1 # 1) (EEins "mael,edij,bckm->abcdijkl" [(ESlice (EVar "g_bbbb") [SV "o"; SV "v"; SV "v"; SV "o"]); (EVar "t2_bbbb"); (EVar "t2_bbbb")]));
   (*L1861*) SAug true "quadruples_res" (EAdd (EAdd (EAdd (EScale (1 # 1) (EVar "contracted_intermediate")) (EScale (-1 # 1) (EEins "abcdijkl->abcdijlk" [(EVar "contracted_intermediate")]))) (EScale (-1 # 1) (EEins "abcdijkl->bacdijkl" [(EVar "contracted_intermediate")]))) (EScale (1 # 1) (EEins "abcdijkl->bacdijlk" [(EVar "contracted_intermediate")])));
   (*L1864*) SAssign "contracted_intermediate" (EScale (-1 # 1) (EEins "maek,ebjl,cdim->abcdijkl" [(ESlice (EVar "g_bbbb") [SV "o"; SV "v"; SV "v"; SV "o"]); (EVar "t2_bbbb"); (EVar "t2_bbbb")]));
   (*L1865*) SAug true "quadruples_res" (EAdd (EAdd (EAdd (EScale (1 # 1) (EVar "contracted_intermediate")) (EScale (-1 # 1) (EEins "abcdijkl->abcdjikl" [(EVar "contracted_intermediate")]))) (EScale (-1 # 1) (EEins "abcdijkl->acbdijkl" [(EVar "contracted_intermediate")]))) (EScale (1 # 1) (EEins "abcdijkl->acbdjikl" [(EVar "contracted_intermediate")])));
   (*L1868*) SAssign "contracted_intermediate" (EScale (-1 # 1) (EEins "maek,edjl,bcim->abcdijkl" [(ESlice (EVar "g_bbbb") [SV "o"; SV "v"; SV "v"; SV "o"]); (EVar "t2_bbbb"); (EVar "t2_bbbb")]));
   (*L1869*) SAug true "quadruples_res" (EAdd (EAdd (EAdd (EScale (1 # 1) (EVar "contracted_intermediate")) (EScale (-1 # 1) (EEins "abcdijkl->abcdjikl" [(EVar "contracted_intermediate")]))) (EScale (-1 # 1) (EEins "abcdijkl->bacdijkl" [(EVar "contracted_intermediate")]))) (EScale (1 # 1) (EEins "abcdijkl->bacdjikl" [(EVar "contracted_intermediate")])));
   (*L1872*) SAssign "contracted_intermediate" (EScale (1 # 1) (EEins "maej,ebkl,cdim->abcdijkl" [(ESlice (EVar "g_bbbb") [SV "o"; SV "v"; SV "v"; SV "o"]); (EVar "t2_bbbb"); (EVar "t2_bbbb")]));
   (*L1873*) SAug true "quadruples_res" (EAdd (EAdd (EAdd (EScale (1 # 1) (EVar "contracted_intermediate")) (EScale (-1 # 1) (EEins "abcdijkl->abcdkjil" [(EVar "contracted_intermediate")]))) (EScale (-1 # 1) (EEins "abcdijkl->acbdijkl" [(EVar "contracted_intermediate")]))) (EScale (1 # 1) (EEins "abcdijkl->acbdkjil" [(EVar "contracted_intermediate")])));
   (*L1876*) SAssign "contracted_intermediate" (EScale (1 # 1) (EEins "maej,ebik,cdlm->abcdijkl" [(ESlice (EVar "g_bbbb") [SV "o"; SV "v"; SV "v"; SV "o"]); (EVar "t2_bbbb"); (EVar "t2_bbbb")]));
   (*L1877*) SAug true "quadruples_res" (EAdd (EAdd (EAdd (EScale (1 # 1) (EVar "contracted_intermediate")) (EScale (-1 # 1) (EEins "abcdijkl->abcdjikl" [(EVar "contracted_intermediate")]))) (EScale (-1 # 1) (EEins "abcdijkl->acbdijkl" [(EVar "contracted_intermediate")]))) (EScale (1 # 1) (EEins "abcdijkl->acbdjikl" [(EVar "contracted_intermediate")])));
   (*L1880*) SAssign "contracted_intermediate" (EScale (1 # 1) (EEins "maej,edkl,bcim->abcdijkl" [(ESlice (EVar "g_bbbb") [SV "o"; SV "v"; SV "v"; SV "o"]); (EVar "t2_bbbb"); (EVar "t2_bbbb")]));
   (*L1881*) SAug true "quadruples_res" (EAdd (EAdd (EAdd (EScale (1 # 1) (EVar "contracted_intermediate")) (EScale (-1 # 1) (EEins "abcdijkl->abcdkjil" [(EVar "contracted_intermediate")]))) (EScale (-1 # 1) (EEins "abcdijkl->bacdijkl" [(EVar "contracted_intermediate")]))) (EScale (1 # 1) (EEins "abcdijkl->bacdkjil" [(EVar "contracted_intermediate")])));
   (*L1884*) SAssign "contracted_intermediate" (EScale (1 # 1) (EEins "maej,edik,bclm->abcdijkl" [(ESlice (EVar "g_bbbb") [SV "o"; SV "v"; SV "v"; SV "o"]); (EVar "t2_bbbb"); (EVar "t2_bbbb")]));
   (*L1885*) SAug true "quadruples_res" (EAdd (EAdd (EAdd (EScale (1 # 1) (EVar "contracted_intermediate")) (EScale (-1 # 1) (EEins "abcdijkl->abcdjikl" [(EVar "contracted_intermediate")]))) (EScale (-1 # 1) (EEins "abcdijkl->bacdijkl" [(EVar "contracted_intermediate")]))) (EScale (1 # 1) (EEins "abcdijkl->bacdjikl" [(EVar "contracted_intermediate")])));
   (*L1888*) SAssign "contracted_intermediate" (EScale (-1 # 1) (EEins "maei,ebkl,cdjm->abcdijkl" [(ESlice (EVar "g_bbbb") [SV "o"; SV "v"; SV "v"; SV "o"]); (EVar "t2_bbbb"); (EVar "t2_bbbb")]));
   (*L1889*) SAug true "quadruples_res" (EAdd (EAdd (EAdd (EScale (1 # 1) (EVar "contracted_intermediate")) (EScale (-1 # 1) (EEins "abcdijkl->abcdikjl" [(EVar "contracted_intermediate")]))) (EScale (-1 # 1) (EEins "abcdijkl->acbdijkl" [(EVar "contracted_intermediate")]))) (EScale (1 # 1) (EEins "abcdijkl->acbdikjl" [(EVar "contracted_intermediate")])));
   (*L1892*) SAssign "contracted_intermediate" (EScale (-1 # 1) (EEins "maei,edkl,bcjm->abcdijkl" [(ESlice (EVar "g_bbbb") [SV "o"; SV "v"; SV "v"; SV "o"]); (EVar "t2_bbbb"); (EVar "t2_bbbb")]));
   (*L1893*) SAug true "quadruples_res" (EAdd (EAdd (EAdd (EScale (1 # 1) (EVar "contracted_intermediate")) (EScale (-1 # 1) (EEins "abcdijkl->abcdikjl" [(EVar "contracted_intermediate")]))) (EScale (-1 # 1) (EEins "abcdijkl->bacdijkl" [(EVar "contracted_intermediate")]))) (EScale (1 # 1) (EEins "abcdijkl->bacdikjl" [(EVar "contracted_intermediate")])));
   (*L1896*) SAssign "contracted_intermediate" (EScale (-1 # 1) (EEins "mbel,eajk,cdim->abcdijkl" [(ESlice (EVar "g_bbbb") [SV "o"; SV "v"; SV "v"; SV "o"]); (EVar "t2_bbbb"); (EVar "t2_bbbb")]));
   (*L1897*) SAug true "quadruples_res" (EAdd (EAdd (EAdd (EScale (1 # 1) (EVar "contracted_intermediate")) (EScale (-1 # 1) (EEins "abcdijkl->abcdjikl" [(EVar "contracted_intermediate")]))) (EScale (-1 # 1) (EEins "abcdijkl->cbadijkl" [(EVar "contracted_intermediate")]))) (EScale (1 # 1) (EEins "abcdijkl->cbadjikl" [(EVar "contracted_intermediate")])));
   (*L1900*) SAssign "contracted_intermediate" (EScale (-1 # 1) (EEins "mbel,eaij,cdkm->abcdijkl" [(ESlice (EVar "g_bbbb") [SV "o"; SV "v"; SV "v"; SV "o"]); (EVar "t2_bbbb"); (EVar "t2_bbbb")]));
   (*L1901*) SAug true "quadruples_res" (EAdd (EAdd (EAdd (EScale (1 # 1) (EVar "contracted_intermediate")) (EScale (-1 # 1) (EEins "abcdijkl->abcdijlk" [(EVar "contracted_intermediate")]))) (EScale (-1 # 1) (EEins "abcdijkl->cbadijkl" [(EVar "contracted_intermediate")]))) (EScale (1 # 1) (EEins "abcdijkl->cbadijlk" [(EVar "contracted_intermediate")])));
   (*L1904*) SAssign "contracted_intermediate" (EScale (1 # 1) (EEins "mbek,eajl,cdim->abcdijkl" [(ESlice (EVar "g_bbbb") [SV "o"; SV "v"; SV "v"; SV "o"]); (EVar "t2_bbbb"); (EVar "t2_bbbb")]));
   (*L1905*) SAug true "quadruples_res" (EAdd (EAdd (EAdd (EScale (1 # 1) (EVar "contracted_intermediate")) (EScale (-1 # 1) (EEins "abcdijkl->abcdjikl" [(EVar "contracted_intermediate")]))) (EScale (-1 # 1) (EEins "abcdijkl->cbadijkl" [(EVar "contracted_intermediate")]))) (EScale (1 # 1) (EEins "abcdijkl->cbadjikl" [(EVar "contracted_intermediate")])));
   (*L1908*) SAssign "contracted_intermediate" (EScale (-1 # 1) (EEins "mbej,eakl,cdim->abcdijkl" [(ESlice (EVar "g_bbbb") [SV "o"; SV "v"; SV "v"; SV "o"]); (EVar "t2_bbbb"); (EVar "t2_bbbb")]));
   (*L1909*) SAug true "quadruples_res" (EAdd (EAdd (EAdd (EScale (1 # 1) (EVar "contracted_intermediate")) (EScale (-1 # 1) (EEins "abcdijkl->abcdkjil" [(EVar "contracted_intermediate")]))) (EScale (-1 # 1) (EEins "abcdijkl->cbadijkl" [(EVar "contracted_intermediate")]))) (EScale (1 # 1) (EEins "abcdijkl->cbadkjil" [(EVar "contracted_intermediate")])));
   (*L1912*) SAssign "contracted_intermediate" (EScale (-1 # 1) (EEins "mbej,eaik,cdlm->abcdijkl" [(ESlice (EVar "g_bbbb") [SV "o"; SV "v"; SV "v"; SV "o"]); (EVar "t2_bbbb"); (EVar "t2_bbbb")]));
   (*L1913*) SAug true "quadruples_res" (EAdd (EAdd (EAdd (EScale (1 # 1) (EVar "contracted_intermediate")) (EScale (-1 # 1) (EEins "abcdijkl->abcdjikl" [(EVar "contracted_intermediate")]))) (EScale (-1 # 1) (EEins "abcdijkl->cbadijkl" [(EVar "contracted_intermediate")]))) (EScale (1 # 1) (EEins "abcdijkl->cbadjikl" [(EVar "contracted_intermediate")])));
   (*L1916*) SAssign "contracted_intermediate" (EScale (1 # 1) (EEins "mbei,eakl,cdjm->abcdijkl" [(ESlice (EVar "g_bbbb") [SV "o"; SV "v"; SV "v"; SV "o"]); (EVar "t2_bbbb"); (EVar "t2_bbbb")]));
   (*L1917*) SAug true "quadruples_res" (EAdd (EAdd (EAdd (EScale (1 # 1) (EVar "contracted_intermediate")) (EScale (-1 # 1) (EEins "abcdijkl->abcdikjl" [(EVar "contracted_intermediate")]))) (EScale (-1 # 1) (EEins "abcdijkl->cbadijkl" [(EVar "contracted_intermediate")]))) (EScale (1 # 1) (EEins "abcdijkl->cbadikjl" [(EVar "contracted_intermediate")])));
   (*L1920*) SAssign "contracted_intermediate" (EScale (1 # 1) (EEins "mcel,eajk,bdim->abcdijkl" [(ESlice (EVar "g_bbbb") [SV "o"; SV "v"; SV "v"; SV "o"]); (EVar "t2_bbbb"); (EVar "t2_bbbb")]));
   (*L1921*) SAug true "quadruples_res" (EAdd (EAdd (EAdd (EScale (1 # 1) (EVar "contracted_intermediate")) (EScale (-1 # 1) (EEins "abcdijkl->abcdjikl" [(EVar "contracted_intermediate")]))) (EScale (-1 # 1) (EEins "abcdijkl->bacdijkl" [(EVar "contracted_intermediate")]))) (EScale (1 # 1) (EEins "abcdijkl->bacdjikl" [(EVar "contracted_intermediate")])));
   (*L1924*) SAssign "contracted_intermediate" (EScale (1 # 1) (EEins "mcel,eaij,bdkm->abcdijkl" [(ESlice (EVar "g_bbbb") [SV "o"; SV "v"; SV "v"; SV "o"]); (EVar "t2_bbbb"); (EVar "t2_bbbb")]));
   (*L1925*) SAug true "quadruples_res" (EAdd (EAdd (EAdd (EScale (1 # 1) (EVar "contracted_intermediate")) (EScale (-1 # 1) (EEins "abcdijkl->abcdijlk" [(EVar "contracted_intermediate")]))) (EScale (-1 # 1) (EEins "abcdijkl->bacdijkl" [(EVar "contracted_intermediate")]))) (EScale (1 # 1) (EEins "abcdijkl->bacdijlk" [(EVar "contracted_intermediate")])));
   (*L1928*) SAssign "contracted_intermediate" (EScale (1 # 1) (EEins "mcel,edjk,abim->abcdijkl" [(ESlice (EVar "g_bbbb") [SV "o"; SV "v"; SV "v"; SV "o"]); (EVar "t2_bbbb"); (EVar "t2_bbbb")]));
   (*L1929*) SAug true "quadruples_res" (EAdd (EAdd (EAdd (EScale (1 # 1) (EVar "contracted_intermediate")) (EScale (-1 # 1) (EEins "abcdijkl->abcdjikl" [(EVar "contracted_intermediate")]))) (EScale (-1 # 1) (EEins "abcdijkl->abdcijkl" [(EVar "contracted_intermediate")]))) (EScale (1 # 1) (EEins "abcdijkl->abdcjikl" [(EVar "contracted_intermediate")])));
   (*L1932*) SAssign "contracted_intermediate" (EScale (1 # 1) (EEins "mcel,edij,abkm->abcdijkl" [(ESlice (EVar "g_bbbb") [SV "o"; SV "v"; SV "v"; SV "o"]); (EVar "t2_bbbb"); (EVar "t2_bbbb")]));
   (*L1933*) SAug true "quadruples_res" (EAdd (EAdd (EAdd (EScale (1 # 1) (EVar "contracted_intermediate")) (EScale (-1 # 1) (EEins "abcdijkl->abcdijlk" [(EVar "contracted_intermediate")]))) (EScale (-1 # 1) (EEins "abcdijkl->abdcijkl" [(EVar "contracted_intermediate")]))) (EScale (1 # 1) (EEins "abcdijkl->abdcijlk" [(EVar "contracted_intermediate")])));
   (*L1936*) SAssign "contracted_intermediate" (EScale (-1 # 1) (EEins "mcek,eajl,bdim->abcdijkl" [(ESlice (EVar "g_bbbb") [SV "o"; SV "v"; SV "v"; SV "o"]); (EVar "t2_bbbb"); (EVar "t2_bbbb")]));
   (*L1937*) SAug true "quadruples_res" (EAdd (EAdd (EAdd (EScale (1 # 1) (EVar "contracted_intermediate")) (EScale (-1 # 1) (EEins "abcdijkl->abcdjikl" [(EVar "contracted_intermediate")]))) (EScale (-1 # 1) (EEins "abcdijkl->bacdijkl" [(EVar "contracted_intermediate")]))) (EScale (1 # 1) (EEins "abcdijkl->bacdjikl" [(EVar "contracted_intermediate")])));
   (*L1940*) SAssign "contracted_intermediate" (EScale (-1 # 1) (EEins "mcek,edjl,abim->abcdijkl" [(ESlice (EVar "g_bbbb") [SV "o"; SV "v"; SV "v"; SV "o"]); (EVar "t2_bbbb"); (EVar "t2_bbbb")]));
   (*L1941*) SAug true "quadruples_res" (EAdd (EAdd (EAdd (EScale (1 # 1) (EVar "contracted_intermediate")) (EScale (-1 # 1) (EEins "abcdijkl->abcdjikl" [(EVar "contracted_intermediate")]))) (EScale (-1 # 1) (EEins "abcdijkl->abdcijkl" [(EVar "contracted_intermediate")]))) (EScale (1 # 1) (EEins "abcdijkl->abdcjikl" [(EVar "contracted_intermediate")])));
   (*L1944*) SAssign "contracted_intermediate" (EScale (1 # 1) (EEins "mcej,eakl,bdim->abcdijkl" [(ESlice (EVar "g_bbbb") [SV "o"; SV "v"; SV "v"; SV "o"]); (EVar "t2_bbbb"); (EVar "t2_bbbb")]));
   (*L1945*) SAug true "quadruples_res" (EAdd (EAdd (EAdd (EScale (1 # 1) (EVar "contracted_intermediate")) (EScale (-1 # 1) (EEins "abcdijkl->abcdkjil" [(EVar "contracted_intermediate")]))) (EScale (-1 # 1) (EEins "abcdijkl->bacdijkl" [(EVar "contracted_intermediate")]))) (EScale (1 # 1) (EEins "abcdijkl->bacdkjil" [(EVar "contracted_intermediate")])));
   (*L1948*) SAssign "contracted_intermediate" (EScale (1 # 1) (EEins "mcej,eaik,bdlm->abcdijkl" [(ESlice (EVar "g_bbbb") [SV "o"; SV "v"; SV "v"; SV "o"]); (EVar "t2_bbbb"); (EVar "t2_bbbb")]));
   (*L1949*) SAug true "quadruples_res" (EAdd (EAdd (EAdd (EScale (1 # 1) (EVar "contracted_intermediate")) (EScale (-1 # 1) (EEins "abcdijkl->abcdjikl" [(EVar "contracted_intermediate")]))) (EScale (-1 # 1) (EEins "abcdijkl->bacdijkl" [(EVar "contracted_intermediate")]))) (EScale (1 # 1) (EEins "abcdijkl->bacdjikl" [(EVar "contracted_intermediate")])));
   (*L1952*) SAssign "contracted_intermediate" (EScale (1 # 1) (EEins "mcej,edkl,abim->abcdijkl" [(ESlice (EVar "g_bbbb") [SV "o"; SV "v"; SV "v"; SV "o"]); (EVar "t2_bbbb"); (EVar "t2_bbbb")]));
   (*L1953*) SAug true "quadruples_res" (EAdd (EAdd (EAdd (EScale (1 # 1) (EVar "contracted_intermediate")) (EScale (-1 # 1) (EEins "abcdijkl->abcdkjil" [(EVar "contracted_intermediate")]))) (EScale (-1 # 1) (EEins "abcdijkl->abdcijkl" [(EVar "contracted_intermediate")]))) (EScale (1 # 1) (EEins "abcdijkl->abdckjil" [(EVar "contracted_intermediate")])));
   (*L1956*) SAssign "contracted_intermediate" (EScale (1 # 1) (EEins "mcej,edik,ablm->abcdijkl" [(ESlice (EVar "g_bbbb") [SV "o"; SV "v"; SV "v"; SV "o"]); (EVar "t2_bbbb"); (EVar "t2_bbbb")]));
   (*L1957*) SAug true "quadruples_res" (EAdd (EAdd (EAdd (EScale (1 # 1) (EVar "contracted_intermediate")) (EScale (-1 # 1) (EEins "abcdijkl->abcdjikl" [(EVar "contracted_intermediate")]))) (EScale (-1 # 1) (EEins "abcdijkl->abdcijkl" [(EVar "contracted_intermediate")]))) (EScale (1 # 1) (EEins "abcdijkl->abdcjikl" [(EVar "contracted_intermediate")])));
   (*L1960*) SAssign "contracted_intermediate" (EScale (-1 # 1) (EEins "mcei,eakl,bdjm->abcdijkl" [(ESlice (EVar "g_bbbb") [SV "o"; SV "v"; SV "v"; SV "o"]); (EVar "t2_bbbb"); (EVar "t2_bbbb")]));
   (*L1961*) SAug true "quadruples_res" (EAdd (EAdd (EAdd (EScale (1 # 1) (EVar "contracted_intermediate")) (EScale (-1 # 1) (EEins "abcdijkl->abcdikjl" [(EVar "contracted_intermediate")]))) (EScale (-1 # 1) (EEins "abcdijkl->bacdijkl" [(EVar "contracted_intermediate")]))) (EScale (1 # 1) (EEins "abcdijkl->bacdikjl" [(EVar "contracted_intermediate")])));
   (*L1964*) SAssign "contracted_intermediate" (EScale (-1 # 1) (EEins "mcei,edkl,abjm->abcdijkl" [(ESlice (EVar "g_bbbb") [SV "o"; SV "v"; SV "v"; SV "o"]); (EVar "t2_bbbb"); (EVar "t2_bbbb")]));
   (*L1965*) SAug true "quadruples_res" (EAdd (EAdd (EAdd (EScale (1 # 1) (EVar "contracted_intermediate")) (EScale (-1 # 1) (EEins "abcdijkl->abcdikjl" [(EVar "contracted_intermediate")]))) (EScale (-1 # 1) (EEins "abcdijkl->abdcijkl" [(EVar "contracted_intermediate")]))) (EScale (1 # 1) (EEins "abcdijkl->abdcikjl" [(EVar "contracted_intermediate")])));
   (*L1968*) SAssign "contracted_intermediate" (EScale (-1 # 1) (EEins "mdel,eajk,bcim->abcdijkl" [(ESlice (EVar "g_bbbb") [SV "o"; SV "v"; SV "v"; SV "o"]); (EVar "t2_bbbb"); (EVar "t2_bbbb")]));
   (*L1969*) SAug true "quadruples_res" (EAdd (EAdd (EAdd (EScale (1 # 1) (EVar "contracted_intermediate")) (EScale (-1 # 1) (EEins "abcdijkl->abcdjikl" [(EVar "contracted_intermediate")]))) (EScale (-1 # 1) (EEins "abcdijkl->bacdijkl" [(EVar "contracted_intermediate")]))) (EScale (1 # 1) (EEins "abcdijkl->bacdjikl" [(EVar "contracted_intermediate")])));
   (*L1972*) SAssign "contracted_intermediate" (EScale (-1 # 1) (EEins "mdel,eaij,bckm->abcdijkl" [(ESlice (EVar "g_bbbb") [SV "o"; SV "v"; SV "v"; SV "o"]); (EVar "t2_bbbb"); (EVar "t2_bbbb")]));
   (*L1973*) SAug true "quadruples_res" (EAdd (EAdd (EAdd (EScale (1 # 1) (EVar "contracted_intermediate")) (EScale (-1 # 1) (EEins "abcdijkl->abcdijlk" [(EVar "contracted_intermediate")]))) (EScale (-1 # 1) (EEins "abcdijkl->bacdijkl" [(EVar "contracted_intermediate")]))) (EScale (1 # 1) (EEins "abcdijkl->bacdijlk" [(EVar "contracted_intermediate")])));
   (*L1976*) SAssign "contracted_intermediate" (EScale (1 # 1) (EEins "mdek,eajl,bcim->abcdijkl" [(ESlice (EVar "g_bbbb") [SV "o"; SV "v"; SV "v"; SV "o"]); (EVar "t2_bbbb"); (EVar "t2_bbbb")]));
   (*L1977*) SAug true "quadruples_res" (EAdd (EAdd (EAdd (EScale (1 # 1) (EVar "contracted_intermediate")) (EScale (-1 # 1) (EEins "abcdijkl->abcdjikl" [(EVar "contracted_intermediate")]))) (EScale (-1 # 1) (EEins "abcdijkl->bacdijkl" [(EVar "contracted_intermediate")]))) (EScale (1 # 1) (EEins "abcdijkl->bacdjikl" [(EVar "contracted_intermediate")])));
   (*L1980*) SAssign "contracted_intermediate" (EScale (-1 # 1) (EEins "mdej,eakl,bcim->abcdijkl" [(ESlice (EVar "g_bbbb") [SV "o"; SV "v"; SV "v"; SV "o"]); (EVar "t2_bbbb"); (EVar "t2_bbbb")]));
   (*L1981*) SAug true "quadruples_res" (EAdd (EAdd (EAdd (EScale (1 # 1) (EVar "contracted_intermediate")) (EScale (-1 # 1) (EEins "abcdijkl->abcdkjil" [(EVar "contracted_intermediate")]))) (EScale (-1 # 1) (EEins "abcdijkl->bacdijkl" [(EVar "contracted_intermediate")]))) (EScale (1 # 1) (EEins "abcdijkl->bacdkjil" [(EVar "contracted_intermediate")])));
   (*L1984*) SAssign "contracted_intermediate" (EScale (-1 # 1) (EEins "mdej,eaik,bclm->abcdijkl" [(ESlice (EVar "g_bbbb") [SV "o"; SV "v"; SV "v"; SV "o"]); (EVar "t2_bbbb"); (EVar "t2_bbbb")]));
   (*L1985*) SAug true "quadruples_res" (EAdd (EAdd (EAdd (EScale (1 # 1) (EVar "contracted_intermediate")) (EScale (-1 # 1) (EEins "abcdijkl->abcdjikl" [(EVar "contracted_intermediate")]))) (EScale (-1 # 1) (EEins "abcdijkl->bacdijkl" [(EVar "contracted_intermediate")]))) (EScale (1 # 1) (EEins "abcdijkl->bacdjikl" [(EVar "contracted_intermediate")])));
   (*L1988*) SAssign "contracted_intermediate" (EScale (1 # 1) (EEins "mdei,eakl,bcjm->abcdijkl" [(ESlice (EVar "g_bbbb") [SV "o"; SV "v"; SV "v"; SV "o"]); (EVar "t2_bbbb"); (EVar "t2_bbbb")]));
   (*L1989*) SAug true "quadruples_res" (EAdd (EAdd (EAdd (EScale (1 # 1) (EVar "contracted_intermediate")) (EScale (-1 # 1) (EEins "abcdijkl->abcdikjl" [(EVar "contracted_intermediate")]))) (EScale (-1 # 1) (EEins "abcdijkl->bacdijkl" [(EVar "contracted_intermediate")]))) (EScale (1 # 1) (EEins "abcdijkl->bacdikjl" [(EVar "contracted_intermediate")])));
   (*L1992*) SAssign "contracted_intermediate" (EScale (-1 # 1) (EEins "abef,eckl,fdij->abcdijkl" [(ESlice (EVar "g_bbbb") [SV "v"; SV "v"; SV "v"; SV "v"]); (EVar "t2_bbbb"); (EVar "t2_bbbb")]));
   (*L1993*) SAug true "quadruples_res" (EAdd (EAdd (EAdd (EScale (1 # 1) (EVar "contracted_intermediate")) (EScale (-1 # 1) (EEins "abcdijkl->abcdikjl" [(EVar "contracted_intermediate")]))) (EScale (-1 # 1) (EEins "abcdijkl->acbdijkl" [(EVar "contracted_intermediate")]))) (EScale (1 # 1) (EEins "abcdijkl->acbdikjl" [(EVar "contracted_intermediate")])));
   (*L1996*) SAssign "contracted_intermediate" (EScale (-1 # 1) (EEins "abef,ecil,fdjk->abcdijkl" [(ESlice (EVar "g_bbbb") [SV "v"; SV "v"; SV "v"; SV "v"]); (EVar "t2_bbbb"); (EVar "t2_bbbb")]));
   (*L1997*) SAug true "quadruples_res" (EAdd (EAdd (EAdd (EScale (1 # 1) (EVar "contracted_intermediate")) (EScale (-1 # 1) (EEins "abcdijkl->abcdijlk" [(EVar "contracted_intermediate")]))) (EScale (-1 # 1) (EEins "abcdijkl->acbdijkl" [(EVar "contracted_intermediate")]))) (EScale (1 # 1) (EEins "abcdijkl->acbdijlk" [(EVar "contracted_intermediate")])));
   (*L2000*) SAssign "contracted_intermediate" (EScale (-1 # 1) (EEins "abef,ecjk,fdil->abcdijkl" [(ESlice (EVar "g_bbbb") [SV "v"; SV "v"; SV "v"; SV "v"]); (EVar "t2_bbbb"); (EVar "t2_bbbb")]));
   (*L2001*) SAug true "quadruples_res" (EAdd (EAdd (EAdd (EScale (1 # 1) (EVar "contracted_intermediate")) (EScale (-1 # 1) (EEins "abcdijkl->abcdkjil" [(EVar "contracted_intermediate")]))) (EScale (-1 # 1) (EEins "abcdijkl->acbdijkl" [(EVar "contracted_intermediate")]))) (EScale (1 # 1) (EEins "abcdijkl->acbdkjil" [(EVar "contracted_intermediate")])));
   (*L2004*) SAssign "contracted_intermediate" (EScale (-1 # 1) (EEins "adef,ebkl,fcij->abcdijkl" [(ESlice (EVar "g_bbbb") [SV "v"; SV "v"; SV "v"; SV "v"]); (EVar "t2_bbbb"); (EVar "t2_bbbb")]));
   (*L2005*) SAug true "quadruples_res" (EAdd (EAdd (EAdd (EScale (1 # 1) (EVar "contracted_intermediate")) (EScale (-1 # 1) (EEins "abcdijkl->abcdikjl" [(EVar "contracted_intermediate")]))) (EScale (-1 # 1) (EEins "abcdijkl->bacdijkl" [(EVar "contracted_intermediate")]))) (EScale (1 # 1) (EEins "abcdijkl->bacdikjl" [(EVar "contracted_intermediate")])));
   (*L2008*) SAssign "contracted_intermediate" (EScale (-1 # 1) (EEins "adef,ebil,fcjk->abcdijkl" [(ESlice (EVar "g_bbbb") [SV "v"; SV "v"; SV "v"; SV "v"]); (EVar "t2_bbbb"); (EVar "t2_bbbb")]));
   (*L2009*) SAug true "quadruples_res" (EAdd (EAdd (EAdd (EScale (1 # 1) (EVar "contracted_intermediate")) (EScale (-1 # 1) (EEins "abcdijkl->abcdijlk" [(EVar "contracted_intermediate")]))) (EScale (-1 # 1) (EEins "abcdijkl->bacdijkl" [(EVar "contracted_intermediate")]))) (EScale (1 # 1) (EEins "abcdijkl->bacdijlk" [(EVar "contracted_intermediate")])));
   (*L2012*) SAssign "contracted_intermediate" (EScale (-1 # 1) (EEins "adef,ebjk,fcil->abcdijkl" [(ESlice (EVar "g_bbbb") [SV "v"; SV "v"; SV "v"; SV "v"]); (EVar "t2_bbbb"); (EVar "t2_bbbb")]));
   (*L2013*) SAug true "quadruples_res" (EAdd (EAdd (EAdd (EScale (1 # 1) (EVar "contracted_intermediate")) (EScale (-1 # 1) (EEins "abcdijkl->abcdkjil" [(EVar "contracted_intermediate")]))) (EScale (-1 # 1) (EEins "abcdijkl->bacdijkl" [(EVar "contracted_intermediate")]))) (EScale (1 # 1) (EEins "abcdijkl->bacdkjil" [(EVar "contracted_intermediate")])));
   (*L2016*) SAssign "contracted_intermediate" (EScale (-1 # 1) (EEins "bcef,eakl,fdij->abcdijkl" [(ESlice (EVar "g_bbbb") [SV "v"; SV "v"; SV "v"; SV "v"]); (EVar "t2_bbbb"); (EVar "t2_bbbb")]));
   (*L2017*) SAug true "quadruples_res" (EAdd (EAdd (EAdd (EScale (1 # 1) (EVar "contracted_intermediate")) (EScale (-1 # 1) (EEins "abcdijkl->abcdikjl" [(EVar "contracted_intermediate")]))) (EScale (-1 # 1) (EEins "abcdijkl->adcbijkl" [(EVar "contracted_intermediate")]))) (EScale (1 # 1) (EEins "abcdijkl->adcbikjl" [(EVar "contracted_intermediate")])));
   (*L2020*) SAssign "contracted_intermediate" (EScale (-1 # 1) (EEins "bcef,eail,fdjk->abcdijkl" [(ESlice (EVar "g_bbbb") [SV "v"; SV "v"; SV "v"; SV "v"]); (EVar "t2_bbbb"); (EVar "t2_bbbb")]));
   (*L2021*) SAug true "quadruples_res" (EAdd (EAdd (EAdd (EScale (1 # 1) (EVar "contracted_intermediate")) (EScale (-1 # 1) (EEins "abcdijkl->abcdijlk" [(EVar "contracted_intermediate")]))) (EScale (-1 # 1) (EEins "abcdijkl->adcbijkl" [(EVar "contracted_intermediate")]))) (EScale (1 # 1) (EEins "abcdijkl->adcbijlk" [(EVar "contracted_intermediate")])));
   (*L2024*) SAssign "contracted_intermediate" (EScale (-1 # 1) (EEins "bcef,eajk,fdil->abcdijkl" [(ESlice (EVar "g_bbbb") [SV "v"; SV "v"; SV "v"; SV "v"]); (EVar "t2_bbbb"); (EVar "t2_bbbb")]));
   (*L2025*) SAug true "quadruples_res" (EAdd (EAdd (EAdd (EScale (1 # 1) (EVar "contracted_intermediate")) (EScale (-1 # 1) (EEins "abcdijkl->abcdkjil" [(EVar "contracted_intermediate")]))) (EScale (-1 # 1) (EEins "abcdijkl->adcbijkl" [(EVar "contracted_intermediate")]))) (EScale (1 # 1) (EEins "abcdijkl->adcbkjil" [(EVar "contracted_intermediate")])));
   (*L2028*) SAssign "contracted_intermediate" (EScale (1 # 1) (EEins "makl,bcdijm->abcdijkl" [(ESlice (EVar "g_bbbb") [SV "o"; SV "v"; SV "o"; SV "o"]); (EVar "t3_bbbbbb")]));
   (*L2029*) SAug true "quadruples_res" (EAdd (EAdd (EAdd (EScale (1 # 1) (EVar "contracted_intermediate")) (EScale (-1 # 1) (EEins "abcdijkl->abcdikjl" [(EVar "contracted_intermediate")]))) (EScale (-1 # 1) (EEins "abcdijkl->bacdijkl" [(EVar "contracted_intermediate")]))) (EScale (1 # 1) (EEins "abcdijkl->bacdikjl" [(EVar "contracted_intermediate")])));
   (*L2032*) SAssign "contracted_intermediate" (EScale (1 # 1) (EEins "mail,bcdjkm->abcdijkl" [(ESlice (EVar "g_bbbb") [SV "o"; SV "v"; SV "o"; SV "o"]); (EVar "t3_bbbbbb")]));
   (*L2033*) SAug true "quadruples_res" (EAdd (EAdd (EAdd (EScale (1 # 1) (EVar "contracted_intermediate")) (EScale (-1 # 1) (EEins "abcdijkl->abcdijlk" [(EVar "contracted_intermediate")]))) (EScale (-1 # 1) (EEins "abcdijkl->bacdijkl" [(EVar "contracted_intermediate")]))) (EScale (1 # 1) (EEins "abcdijkl->bacdijlk" [(EVar "contracted_intermediate")])));
   (*L2036*) SAssign "contracted_intermediate" (EScale (1 # 1) (EEins "majk,bcdilm->abcdijkl" [(ESlice (EVar "g_bbbb") [SV "o"; SV "v"; SV "o"; SV "o"]); (EVar "t3_bbbbbb")]));
   (*L2037*) SAug true "quadruples_res" (EAdd (EAdd (EAdd (EScale (1 # 1) (EVar "contracted_intermediate")) (EScale (-1 # 1) (EEins "abcdijkl->abcdkjil" [(EVar "contracted_intermediate")]))) (EScale (-1 # 1) (EEins "abcdijkl->bacdijkl" [(EVar "contracted_intermediate")]))) (EScale (1 # 1) (EEins "abcdijkl->bacdkjil" [(EVar "contracted_intermediate")])));
   (*L2040*) SAssign "contracted_intermediate" (EScale (1 # 1) (EEins "mckl,abdijm->abcdijkl" [(ESlice (EVar "g_bbbb") [SV "o"; SV "v"; SV "o"; SV "o"]); (EVar "t3_bbbbbb")]));
   (*L2041*) SAug true "quadruples_res" (EAdd (EAdd (EAdd (EScale (1 # 1) (EVar "contracted_intermediate")) (EScale (-1 # 1) (EEins "abcdijkl->abcdikjl" [(EVar "contracted_intermediate")]))) (EScale (-1 # 1) (EEins "abcdijkl->abdcijkl" [(EVar "contracted_intermediate")]))) (EScale (1 # 1) (EEins "abcdijkl->abdcikjl" [(EVar "contracted_intermediate")])));
   (*L2044*) SAssign "contracted_intermediate" (EScale (1 # 1) (EEins "mcil,abdjkm->abcdijkl" [(ESlice (EVar "g_bbbb") [SV "o"; SV "v"; SV "o"; SV "o"]); (EVar "t3_bbbbbb")]));
   (*L2045*) SAug true "quadruples_res" (EAdd (EAdd (EAdd (EScale (1 # 1) (EVar "contracted_intermediate")) (EScale (-1 # 1) (EEins "abcdijkl->abcdijlk" [(EVar "contracted_intermediate")]))) (EScale (-1 # 1) (EEins "abcdijkl->abdcijkl" [(EVar "contracted_intermediate")]))) (EScale (1 # 1) (EEins "abcdijkl->abdcijlk" [(EVar "contracted_intermediate")])));
   (*L2048*) SAssign "contracted_intermediate" (EScale (1 # 1) (EEins "mcjk,abdilm->abcdijkl" [(ESlice (EVar "g_bbbb") [SV "o"; SV "v"; SV "o"; SV "o"]); (EVar "t3_bbbbbb")]));
   (*L2049*) SAug true "quadruples_res" (EAdd (EAdd (EAdd (EScale (1 # 1) (EVar "contracted_intermediate")) (EScale (-1 # 1) (EEins "abcdijkl->abcdkjil" [(EVar "contracted_intermediate")]))) (EScale (-1 # 1) (EEins "abcdijkl->abdcijkl" [(EVar "contracted_intermediate")]))) (EScale (1 # 1) (EEins "abcdijkl->abdckjil" [(EVar "contracted_intermediate")])));
   (*L2052*) SAssign "contracted_intermediate" (EScale (1 # 1) (EEins "abel,ecdijk->abcdijkl" [(ESlice (EVar "g_bbbb") [SV "v"; SV "v"; SV "v"; SV "o"]); (EVar "t3_bbbbbb")]));
   (*L2053*) SAug true "quadruples_res" (EAdd (EAdd (EAdd (EScale (1 # 1) (EVar "contracted_intermediate")) (EScale (-1 # 1) (EEins "abcdijkl->abcdijlk" [(EVar "contracted_intermediate")]))) (EScale (-1 # 1) (EEins "abcdijkl->acbdijkl" [(EVar "contracted_intermediate")]))) (EScale (1 # 1) (EEins "abcdijkl->acbdijlk" [(EVar "contracted_intermediate")])));
   (*L2056*) SAssign "contracted_intermediate" (EScale (1 # 1) (EEins "abej,ecdikl->abcdijkl" [(ESlice (EVar "g_bbbb") [SV "v"; SV "v"; SV "v"; SV "o"]); (EVar "t3_bbbbbb")]));
   (*L2057*) SAug true "quadruples_res" (EAdd (EAdd (EAdd (EScale (1 # 1) (EVar "contracted_intermediate")) (EScale (-1 # 1) (EEins "abcdijkl->abcdjikl" [(EVar "contracted_intermediate")]))) (EScale (-1 # 1) (EEins "abcdijkl->acbdijkl" [(EVar "contracted_intermediate")]))) (EScale (1 # 1) (EEins "abcdijkl->acbdjikl" [(EVar "contracted_intermediate")])));
   (*L2060*) SAssign "contracted_intermediate" (EScale (1 # 1) (EEins "adel,ebcijk->abcdijkl" [(ESlice (EVar "g_bbbb") [SV "v"; SV "v"; SV "v"; SV "o"]); (EVar "t3_bbbbbb")]));
   (*L2061*) SAug true "quadruples_res" (EAdd (EAdd (EAdd (EScale (1 # 1) (EVar "contracted_intermediate")) (EScale (-1 # 1) (EEins "abcdijkl->abcdijlk" [(EVar "contracted_intermediate")]))) (EScale (-1 # 1) (EEins "abcdijkl->bacdijkl" [(EVar "contracted_intermediate")]))) (EScale (1 # 1) (EEins "abcdijkl->bacdijlk" [(EVar "contracted_intermediate")])));
   (*L2064*) SAssign "contracted_intermediate" (EScale (1 # 1) (EEins "adej,ebcikl->abcdijkl" [(ESlice (EVar "g_bbbb") [SV "v"; SV "v"; SV "v"; SV "o"]); (EVar "t3_bbbbbb")]));
   (*L2065*) SAug true "quadruples_res" (EAdd (EAdd (EAdd (EScale (1 # 1) (EVar "contracted_intermediate")) (EScale (-1 # 1) (EEins "abcdijkl->abcdjikl" [(EVar "contracted_intermediate")]))) (EScale (-1 # 1) (EEins "abcdijkl->bacdijkl" [(EVar "contracted_intermediate")]))) (EScale (1 # 1) (EEins "abcdijkl->bacdjikl" [(EVar "contracted_intermediate")])));
   (*L2068*) SAssign "contracted_intermediate" (EScale (1 # 1) (EEins "bcel,eadijk->abcdijkl" [(ESlice (EVar "g_bbbb") [SV "v"; SV "v"; SV "v"; SV "o"]); (EVar "t3_bbbbbb")]));
   (*L2069*) SAug true "quadruples_res" (EAdd (EAdd (EAdd (EScale (1 # 1) (EVar "contracted_intermediate")) (EScale (-1 # 1) (EEins "abcdijkl->abcdijlk" [(EVar "contracted_intermediate")]))) (EScale (-1 # 1) (EEins "abcdijkl->adcbijkl" [(EVar "contracted_intermediate")]))) (EScale (1 # 1) (EEins "abcdijkl->adcbijlk" [(EVar "contracted_intermediate")])));
   (*L2072*) SAssign "contracted_intermediate" (EScale (1 # 1) (EEins "bcej,eadikl->abcdijkl" [(ESlice (EVar "g_bbbb") [SV "v"; SV "v"; SV "v"; SV "o"]); (EVar "t3_bbbbbb")]));
   (*L2073*) SAug true "quadruples_res" (EAdd (EAdd (EAdd (EScale (1 # 1) (EVar "contracted_intermediate")) (EScale (-1 # 1) (EEins "abcdijkl->abcdjikl" [(EVar "contracted_intermediate")]))) (EScale (-1 # 1) (EEins "abcdijkl->adcbijkl" [(EVar "contracted_intermediate")]))) (EScale (1 # 1) (EEins "abcdijkl->adcbjikl" [(EVar "contracted_intermediate")])))]
  (*L2075*) (EVar "quadruples_res").

(** /repo/UT2/fullCCenergy.py:2078-2569  def ccsdtqT2cubed_t4_aaaaaaaa_residual *)
Definition ccsdtqT2cubed_t4_aaaaaaaa_residual : fn := mkFn
  ["t1_aa"; "t1_bb"; "t2_aaaa"; "t2_bbbb"; "t2_abab"; "t3_aaaaaa"; "t3_aabaab"; "t3_abbabb"; "t3_bbbbbb"; "t4_aaaaaaaa"; "t4_aaabaaab"; "t4_aabbaabb"; "t4_abbbabbb"; "t4_bbbbbbbb"; "f_aa"; "f_bb"; "g_aaaa"; "g_bbbb"; "g_abab"; "oa"; "ob"; "va"; "vb"]
  [(*L2086*) SAssign "o" (EVar "oa");
   (*L2087*) SAssign "v" (EVar "va");
   (*L2090*) SAssign "contracted_intermediate" (EScale (-1 # 2) (EEins "nmef,efkl,abjm,cdin->abcdijkl" [(ESlice (EVar "g_aaaa") [SV "o"; SV "o"; SV "v"; SV "v"]); (EVar "t2_aaaa"); (EVar "t2_aaaa"); (EVar "t2_aaaa")]));
   (*L2091*) SAssign "quadruples_res" (EAdd (EAdd (EAdd (EScale (1 # 1) (EVar "contracted_intermediate")) (EScale (-1 # 1) (EEins "abcdijkl->abcdjikl" [(EVar "contracted_intermediate")]))) (EScale (-1 # 1) (EEins "abcdijkl->acbdijkl" [(EVar "contracted_intermediate")]))) (EScale (1 # 1) (EEins "abcdijkl->acbdjikl" [(EVar "contracted_intermediate")])));
   (*L2094*) SAssign "contracted_intermediate" (EScale (-1 # 2) (EEins "nmef,efkl,adjm,bcin->abcdijkl" [(ESlice (EVar "g_aaaa") [SV "o"; SV "o"; SV "v"; SV "v"]); (EVar "t2_aaaa"); (EVar "t2_aaaa"); (EVar "t2_aaaa")]));
   (*L2095*) SAug true "quadruples_res" (EAdd (EScale (1 # 1) (EVar "contracted_intermediate")) (EScale (-1 # 1) (EEins "abcdijkl->abcdjikl" [(EVar "contracted_intermediate")])));
   (*L2098*) SAssign "contracted_intermediate" (EScale (1 # 2) (EEins "nmef,efjl,abkm,cdin->abcdijkl" [(ESlice (EVar "g_aaaa") [SV "o"; SV "o"; SV "v"; SV "v"]); (EVar "t2_aaaa"); (EVar "t2_aaaa"); (EVar "t2_aaaa")]));
   (*L2099*) SAug true "quadruples_res" (EAdd (EAdd (EAdd (EScale (1 # 1) (EVar "contracted_intermediate")) (EScale (-1 # 1) (EEins "abcdijkl->abcdkjil" [(EVar "contracted_intermediate")]))) (EScale (-1 # 1) (EEins "abcdijkl->acbdijkl" [(EVar "contracted_intermediate")]))) (EScale (1 # 1) (EEins "abcdijkl->acbdkjil" [(EVar "contracted_intermediate")])));
   (*L2102*) SAssign "contracted_intermediate" (EScale (1 # 2) (EEins "nmef,efjl,adkm,bcin->abcdijkl" [(ESlice (EVar "g_aaaa") [SV "o"; SV "o"; SV "v"; SV "v"]); (EVar "t2_aaaa"); (EVar "t2_aaaa"); (EVar "t2_aaaa")]));
   (*L2103*) SAug true "quadruples_res" (EAdd (EScale (1 # 1) (EVar "contracted_intermediate")) (EScale (-1 # 1) (EEins "abcdijkl->abcdkjil" [(EVar "contracted_intermediate")])));
   (*L2106*) SAssign "contracted_intermediate" (EScale (-1 # 2) (EEins "nmef,efil,abkm,cdjn->abcdijkl" [(ESlice (EVar "g_aaaa") [SV "o"; SV "o"; SV "v"; SV "v"]); (EVar "t2_aaaa"); (EVar "t2_aaaa"); (EVar "t2_aaaa")]));
   (*L2107*) SAug true "quadruples_res" (EAdd (EAdd (EAdd (EScale (1 # 1) (EVar "contracted_intermediate")) (EScale (-1 # 1) (EEins "abcdijkl->abcdikjl" [(EVar "contracted_intermediate")]))) (EScale (-1 # 1) (EEins "abcdijkl->acbdijkl" [(EVar "contracted_intermediate")]))) (EScale (1 # 1) (EEins "abcdijkl->acbdikjl" [(EVar "contracted_intermediate")])));
   (*L2110*) SAssign "contracted_intermediate" (EScale (-1 # 2) (EEins "nmef,efil,adkm,bcjn->abcdijkl" [(ESlice (EVar "g_aaaa") [SV "o"; SV "o"; SV "v"; SV "v"]); (EVar "t2_aaaa"); (EVar "t2_aaaa"); (EVar "t2_aaaa")]));
   (*L2111*) SAug true "quadruples_res" (EAdd (EScale (1 # 1) (EVar "contracted_intermediate")) (EScale (-1 # 1) (EEins "abcdijkl->abcdikjl" [(EVar "contracted_intermediate")])));
   (*L2114*) SAssign "contracted_intermediate" (EScale (-1 # 2) (EEins "nmef,efjk,ablm,cdin->abcdijkl" [(ESlice (EVar "g_aaaa") [SV "o"; SV "o"; SV "v"; SV "v"]); (EVar "t2_aaaa"); (EVar "t2_aaaa"); (EVar "t2_aaaa")]));
   (*L2115*) SAug true "quadruples_res" (EAdd (EAdd (EAdd (EScale (1 # 1) (EVar "contracted_intermediate")) (EScale (-1 # 1) (EEins "abcdijkl->abcdljki" [(EVar "contracted_intermediate")]))) (EScale (-1 # 1) (EEins "abcdijkl->acbdijkl" [(EVar "contracted_intermediate")]))) (EScale (1 # 1) (EEins "abcdijkl->acbdljki" [(EVar "contracted_intermediate")])));
   (*L2118*) SAssign "contracted_intermediate" (EScale (-1 # 2) (EEins "nmef,efjk,adlm,bcin->abcdijkl" [(ESlice (EVar "g_aaaa") [SV "o"; SV "o"; SV "v"; SV "v"]); (EVar "t2_aaaa"); (EVar "t2_aaaa"); (EVar "t2_aaaa")]));
   (*L2119*) SAug true "quadruples_res" (EAdd (EScale (1 # 1) (EVar "contracted_intermediate")) (EScale (-1 # 1) (EEins "abcdijkl->abcdljki" [(EVar "contracted_intermediate")])));
   (*L2122*) SAssign "contracted_intermediate" (EScale (1 # 2) (EEins "nmef,efik,ablm,cdjn->abcdijkl" [(ESlice (EVar "g_aaaa") [SV "o"; SV "o"; SV "v"; SV "v"]); (EVar "t2_aaaa"); (EVar "t2_aaaa"); (EVar "t2_aaaa")]));
   (*L2123*) SAug true "quadruples_res" (EAdd (EAdd (EAdd (EScale (1 # 1) (EVar "contracted_intermediate")) (EScale (-1 # 1) (EEins "abcdijkl->abcdilkj" [(EVar "contracted_intermediate")]))) (EScale (-1 # 1) (EEins "abcdijkl->acbdijkl" [(EVar "contracted_intermediate")]))) (EScale (1 # 1) (EEins "abcdijkl->acbdilkj" [(EVar "contracted_intermediate")])));
   (*L2126*) SAssign "contracted_intermediate" (EScale (1 # 2) (EEins "nmef,efik,adlm,bcjn->abcdijkl" [(ESlice (EVar "g_aaaa") [SV "o"; SV "o"; SV "v"; SV "v"]); (EVar "t2_aaaa"); (EVar "t2_aaaa"); (EVar "t2_aaaa")]));
   (*L2127*) SAug true "quadruples_res" (EAdd (EScale (1 # 1) (EVar "contracted_intermediate")) (EScale (-1 # 1) (EEins "abcdijkl->abcdilkj" [(EVar "contracted_intermediate")])));
   (*L2130*) SAssign "contracted_intermediate" (EScale (-1 # 2) (EEins "nmef,efij,ablm,cdkn->abcdijkl" [(ESlice (EVar "g_aaaa") [SV "o"; SV "o"; SV "v"; SV "v"]); (EVar "t2_aaaa"); (EVar "t2_aaaa"); (EVar "t2_aaaa")]));
   (*L2131*) SAug true "quadruples_res" (EAdd (EAdd (EAdd (EScale (1 # 1) (EVar "contracted_intermediate")) (EScale (-1 # 1) (EEins "abcdijkl->abcdijlk" [(EVar "contracted_intermediate")]))) (EScale (-1 # 1) (EEins "abcdijkl->acbdijkl" [(EVar "contracted_intermediate")]))) (EScale (1 # 1) (EEins "abcdijkl->acbdijlk" [(EVar "contracted_intermediate")])));
   (*L2134*) SAssign "contracted_intermediate" (EScale (-1 # 2) (EEins "nmef,efij,adlm,bckn->abcdijkl" [(ESlice (EVar "g_aaaa") [SV "o"; SV "o"; SV "v"; SV "v"]); (EVar "t2_aaaa"); (EVar "t2_aaaa"); (EVar "t2_aaaa")]));
   (*L2135*) SAug true "quadruples_res" (EAdd (EScale (1 # 1) (EVar "contracted_intermediate")) (EScale (-1 # 1) (EEins "abcdijkl->abcdijlk" [(EVar "contracted_intermediate")])));
   (*L2138*) SAssign "contracted_intermediate" (EScale (1 # 1) (EEins "nmef,ealm,fbjk,cdin->abcdijkl" [(ESlice (EVar "g_aaaa") [SV "o"; SV "o"; SV "v"; SV "v"]); (EVar "t2_aaaa"); (EVar "t2_aaaa"); (EVar "t2_aaaa")]));
   (*L2139*) SAug true "quadruples_res" (EAdd (EAdd (EAdd (EScale (1 # 1) (EVar "contracted_intermediate")) (EScale (-1 # 1) (EEins "abcdijkl->abcdjikl" [(EVar "contracted_intermediate")]))) (EScale (-1 # 1) (EEins "abcdijkl->acbdijkl" [(EVar "contracted_intermediate")]))) (EScale (1 # 1) (EEins "abcdijkl->acbdjikl" [(EVar "contracted_intermediate")])));
   (*L2142*) SAssign "contracted_intermediate" (EScale (1 # 1) (EEins "nmfe,aelm,fbjk,cdin->abcdijkl" [(ESlice (EVar "g_abab") [SV "o"; SV "o"; SV "v"; SV "v"]); (EVar "t2_abab"); (EVar "t2_aaaa"); (EVar "t2_aaaa")]));
   (*L2143*) SAug true "quadruples_res" (EAdd (EAdd (EAdd (EScale (1 # 1) (EVar "contracted_intermediate")) (EScale (-1 # 1) (EEins "abcdijkl->abcdjikl" [(EVar "contracted_intermediate")]))) (EScale (-1 # 1) (EEins "abcdijkl->acbdijkl" [(EVar "contracted_intermediate")]))) (EScale (1 # 1) (EEins "abcdijkl->acbdjikl" [(EVar "contracted_intermediate")])));
   (*L2146*) SAssign "contracted_intermediate" (EScale (1 # 1) (EEins "nmef,ealm,fbij,cdkn->abcdijkl" [(ESlice (EVar "g_aaaa") [SV "o"; SV "o"; SV "v"; SV "v"]); (EVar "t2_aaaa"); (EVar "t2_aaaa"); (EVar "t2_aaaa")]));
   (*L2147*) SAug true "quadruples_res" (EAdd (EAdd (EAdd (EScale (1 # 1) (EVar "contracted_intermediate")) (EScale (-1 # 1) (EEins "abcdijkl->abcdijlk" [(EVar "contracted_intermediate")]))) (EScale (-1 # 1) (EEins "abcdijkl->acbdijkl" [(EVar "contracted_intermediate")]))) (EScale (1 # 1) (EEins "abcdijkl->acbdijlk" [(EVar "contracted_intermediate")])));
   (*L2150*) SAssign "contracted_intermediate" (EScale (1 # 1) (EEins "nmfe,aelm,fbij,cdkn->abcdijkl" [(ESlice (EVar "g_abab") [SV "o"; SV "o"; SV "v"; SV "v"]); (EVar "t2_abab"); (EVar "t2_aaaa"); (EVar "t2_aaaa")]));
   (*L2151*) SAug true "quadruples_res" (EAdd (EAdd (EAdd (EScale (1 # 1) (EVar "contracted_intermediate")) (EScale (-1 # 1) (EEins "abcdijkl->abcdijlk" [(EVar "contracted_intermediate")]))) (EScale (-1 # 1) (EEins "abcdijkl->acbdijkl" [(EVar "contracted_intermediate")]))) (EScale (1 # 1) (EEins "abcdijkl->acbdijlk" [(EVar "contracted_intermediate")])));
   (*L2154*) SAssign "contracted_intermediate" (EScale (1 # 1) (EEins "nmef,ealm,fdjk,bcin->abcdijkl" [(ESlice (EVar "g_aaaa") [SV "o"; SV "o"; SV "v"; SV "v"]); (EVar "t2_aaaa"); (EVar "t2_aaaa"); (EVar "t2_aaaa")]));
   (*L2155*) SAug true "quadruples_res" (EAdd (EAdd (EAdd (EScale (1 # 1) (EVar "contracted_intermediate")) (EScale (-1 # 1) (EEins "abcdijkl->abcdjikl" [(EVar "contracted_intermediate")]))) (EScale (-1 # 1) (EEins "abcdijkl->bacdijkl" [(EVar "contracted_intermediate")]))) (EScale (1 # 1) (EEins "abcdijkl->bacdjikl" [(EVar "contracted_intermediate")])));
   (*L2158*) SAssign "contracted_intermediate" (EScale (1 # 1) (EEins "nmfe,aelm,fdjk,bcin->abcdijkl" [(ESlice (EVar "g_abab") [SV "o"; SV "o"; SV "v"; SV "v"]); (EVar "t2_abab"); (EVar "t2_aaaa"); (EVar "t2_aaaa")]));
   (*L2159*) SAug true "quadruples_res" (EAdd (EAdd (EAdd (EScale (1 # 1) (EVar "contracted_intermediate")) (EScale (-1 # 1) (EEins "abcdijkl->abcdjikl" [(EVar "contracted_intermediate")]))) (EScale (-1 # 1) (EEins "abcdijkl->bacdijkl" [(EVar "contracted_intermediate")]))) (EScale (1 # 1) (EEins "abcdijkl->bacdjikl" [(EVar "contracted_intermediate")])));
   (*L2162*) SAssign "contracted_intermediate" (EScale (1 # 1) (EEins "nmef,ealm,fdij,bckn->abcdijkl" [(ESlice (EVar "g_aaaa") [SV "o"; SV "o"; SV "v"; SV "v"]); (EVar "t2_aaaa"); (EVar "t2_aaaa"); (EVar "t2_aaaa")]));
   (*L2163*) SAug true "quadruples_res" (EAdd (EAdd (EAdd (EScale (1 # 1) (EVar "contracted_intermediate")) (EScale (-1 # 1) (EEins "abcdijkl->abcdijlk" [(EVar "contracted_intermediate")]))) (EScale (-1 # 1) (EEins "abcdijkl->bacdijkl" [(EVar "contracted_intermediate")]))) (EScale (1 # 1) (EEins "abcdijkl->bacdijlk" [(EVar "contracted_intermediate")])));
   (*L2166*) SAssign "contracted_intermediate" (EScale (1 # 1) (EEins "nmfe,aelm,fdij,bckn->abcdijkl" [(ESlice (EVar "g_abab") [SV "o"; SV "o"; SV "v"; SV "v"]); (EVar "t2_abab"); (EVar "t2_aaaa"); (EVar "t2_aaaa")]));
   (*L2167*) SAug true "quadruples_res" (EAdd (EAdd (EAdd (EScale (1 # 1) (EVar "contracted_intermediate")) (EScale (-1 # 1) (EEins "abcdijkl->abcdijlk" [(EVar "contracted_intermediate")]))) (EScale (-1 # 1) (EEins "abcdijkl->bacdijkl" [(EVar "contracted_intermediate")]))) (EScale (1 # 1) (EEins "abcdijkl->bacdijlk" [(EVar "contracted_intermediate")])));
   (*L2170*) SAssign "contracted_intermediate" (EScale (-1 # 1) (EEins "nmef,eakm,fbjl,cdin->abcdijkl" [(ESlice (EVar "g_aaaa") [SV "o"; SV "o"; SV "v"; SV "v"]); (EVar "t2_aaaa"); (EVar "t2_aaaa"); (EVar "t2_aaaa")]));
   (*L2171*) SAug true "quadruples_res" (EAdd (EAdd (EAdd (EScale (1 # 1) (EVar "contracted_intermediate")) (EScale (-1 # 1) (EEins "abcdijkl->abcdjikl" [(EVar "contracted_intermediate")]))) (EScale (-1 # 1) (EEins "abcdijkl->acbdijkl" [(EVar "contracted_intermediate")]))) (EScale (1 # 1) (EEins "abcdijkl->acbdjikl" [(EVar "contracted_intermediate")])));
   (*L2174*) SAssign "contracted_intermediate" (EScale (-1 # 1) (EEins "nmfe,aekm,fbjl,cdin->abcdijkl" [(ESlice (EVar "g_abab") [SV "o"; SV "o"; SV "v"; SV "v"]); (EVar "t2_abab"); (EVar "t2_aaaa"); (EVar "t2_aaaa")]));
   (*L2175*) SAug true "quadruples_res" (EAdd (EAdd (EAdd (EScale (1 # 1) (EVar "contracted_intermediate")) (EScale (-1 # 1) (EEins "abcdijkl->abcdjikl" [(EVar "contracted_intermediate")]))) (EScale (-1 # 1) (EEins "abcdijkl->acbdijkl" [(EVar "contracted_intermediate")]))) (EScale (1 # 1) (EEins "abcdijkl->acbdjikl" [(EVar "contracted_intermediate")])));
   (*L2178*) SAssign "contracted_intermediate" (EScale (-1 # 1) (EEins "nmef,eakm,fdjl,bcin->abcdijkl" [(ESlice (EVar "g_aaaa") [SV "o"; SV "o"; SV "v"; SV "v"]); (EVar "t2_aaaa"); (EVar "t2_aaaa"); (EVar "t2_aaaa")]));
   (*L2179*) SAug true "quadruples_res" (EAdd (EAdd (EAdd (EScale (1 # 1) (EVar "contracted_intermediate")) (EScale (-1 # 1) (EEins "abcdijkl->abcdjikl" [(EVar "contracted_intermediate")]))) (EScale (-1 # 1) (EEins "abcdijkl->bacdijkl" [(EVar "contracted_intermediate")]))) (EScale (1 # 1) (EEins "abcdijkl->bacdjikl" [(EVar "contracted_intermediate")])));
   (*L2182*) SAssign "contracted_intermediate" (EScale (-1 # 1) (EEins "nmfe,aekm,fdjl,bcin->abcdijkl" [(ESlice (EVar "g_abab") [SV "o"; SV "o"; SV "v"; SV "v"]); (EVar "t2_abab"); (EVar "t2_aaaa"); (EVar "t2_aaaa")]));
   (*L2183*) SAug true "quadruples_res" (EAdd (EAdd (EAdd (EScale (1 # 1) (EVar "contracted_intermediate")) (EScale (-1 # 1) (EEins "abcdijkl->abcdjikl" [(EVar "contracted_intermediate")]))) (EScale (-1 # 1) (EEins "abcdijkl->bacdijkl" [(EVar "contracted_intermediate")]))) (EScale (1 # 1) (EEins "abcdijkl->bacdjikl" [(EVar "contracted_intermediate")])));
   (*L2186*) SAssign "contracted_intermediate" (EScale (1 # 1) (EEins "nmef,eajm,fbkl,cdin->abcdijkl" [(ESlice (EVar "g_aaaa") [SV "o"; SV "o"; SV "v"; SV "v"]); (EVar "t2_aaaa"); (EVar "t2_aaaa"); (EVar "t2_aaaa")]));
   (*L2187*) SAug true "quadruples_res" (EAdd (EAdd (EAdd (EScale (1 # 1) (EVar "contracted_intermediate")) (EScale (-1 # 1) (EEins "abcdijkl->abcdkjil" [(EVar "contracted_intermediate")]))) (EScale (-1 # 1) (EEins "abcdijkl->acbdijkl" [(EVar "contracted_intermediate")]))) (EScale (1 # 1) (EEins "abcdijkl->acbdkjil" [(EVar "contracted_intermediate")])));
   (*L2190*) SAssign "contracted_intermediate" (EScale (1 # 1) (EEins "nmfe,aejm,fbkl,cdin->abcdijkl" [(ESlice (EVar "g_abab") [SV "o"; SV "o"; SV "v"; SV "v"]); (EVar "t2_abab"); (EVar "t2_aaaa"); (EVar "t2_aaaa")]));
   (*L2191*) SAug true "quadruples_res" (EAdd (EAdd (EAdd (EScale (1 # 1) (EVar "contracted_intermediate")) (EScale (-1 # 1) (EEins "abcdijkl->abcdkjil" [(EVar "contracted_intermediate")]))) (EScale (-1 # 1) (EEins "abcdijkl->acbdijkl" [(EVar "contracted_intermediate")]))) (EScale (1 # 1) (EEins "abcdijkl->acbdkjil" [(EVar "contracted_intermediate")])));
   (*L2194*) SAssign "contracted_intermediate" (EScale (1 # 1) (EEins "nmef,eajm,fbik,cdln->abcdijkl" [(ESlice (EVar "g_aaaa") [SV "o"; SV "o"; SV "v"; SV "v"]); (EVar "t2_aaaa"); (EVar "t2_aaaa"); (EVar "t2_aaaa")]));
   (*L2195*) SAug true "quadruples_res" (EAdd (EAdd (EAdd (EScale (1 # 1) (EVar "contracted_intermediate")) (EScale (-1 # 1) (EEins "abcdijkl->abcdjikl" [(EVar "contracted_intermediate")]))) (EScale (-1 # 1) (EEins "abcdijkl->acbdijkl" [(EVar "contracted_intermediate")]))) (EScale (1 # 1) (EEins "abcdijkl->acbdjikl" [(EVar "contracted_intermediate")])));
   (*L2198*) SAssign "contracted_intermediate" (EScale (1 # 1) (EEins "nmfe,aejm,fbik,cdln->abcdijkl" [(ESlice (EVar "g_abab") [SV "o"; SV "o"; SV "v"; SV "v"]); (EVar "t2_abab"); (EVar "t2_aaaa"); (EVar "t2_aaaa")]));
   (*L2199*) SAug true "quadruples_res" (EAdd (EAdd (EAdd (EScale (1 # 1) (EVar "contracted_intermediate")) (EScale (-1 # 1) (EEins "abcdijkl->abcdjikl" [(EVar "contracted_intermediate")]))) (EScale (-1 # 1) (EEins "abcdijkl->acbdijkl" [(EVar "contracted_intermediate")]))) (EScale (1 # 1) (EEins "abcdijkl->acbdjikl" [(EVar "contracted_intermediate")])));
   (*L2202*) SAssign "contracted_intermediate" (EScale (1 # 1) (EEins "nmef,eajm,fdkl,bcin->abcdijkl" [(ESlice (EVar "g_aaaa") [SV "o"; SV "o"; SV "v"; SV "v"]); (EVar "t2_aaaa"); (EVar "t2_aaaa"); (EVar "t2_aaaa")]));
   (*L2203*) SAug true "quadruples_res" (EAdd (EAdd (EAdd (EScale (1 # 1) (EVar "contracted_intermediate")) (EScale (-1 # 1) (EEins "abcdijkl->abcdkjil" [(EVar "contracted_intermediate")]))) (EScale (-1 # 1) (EEins "abcdijkl->bacdijkl" [(EVar "contracted_intermediate")]))) (EScale (1 # 1) (EEins "abcdijkl->bacdkjil" [(EVar "contracted_intermediate")])));
   (*L2206*) SAssign "contracted_intermediate" (EScale (1 # 1) (EEins "nmfe,aejm,fdkl,bcin->abcdijkl" [(ESlice (EVar "g_abab") [SV "o"; SV "o"; SV "v"; SV "v"]); (EVar "t2_abab"); (EVar "t2_aaaa"); (EVar "t2_aaaa")]));
   (*L2207*) SAug true "quadruples_res" (EAdd (EAdd (EAdd (EScale (1 # 1) (EVar "contracted_intermediate")) (EScale (-1 # 1) (EEins "abcdijkl->abcdkjil" [(EVar "contracted_intermediate")]))) (EScale (-1 # 1) (EEins "abcdijkl->bacdijkl" [(EVar "contracted_intermediate")]))) (EScale (1 # 1) (EEins "abcdijkl->bacdkjil" [(EVar "contracted_intermediate")])));
   (*L2210*) SAssign "contracted_intermediate" (EScale (1 # 1) (EEins "nmef,eajm,fdik,bcln->abcdijkl" [(ESlice (EVar "g_aaaa") [SV "o"; SV "o"; SV "v"; SV "v"]); (EVar "t2_aaaa"); (EVar "t2_aaaa"); (EVar "t2_aaaa")]));
   (*L2211*) SAug true "quadruples_res" (EAdd (EAdd (EAdd (EScale (1 # 1) (EVar "contracted_intermediate")) (EScale (-1 # 1) (EEins "abcdijkl->abcdjikl" [(EVar "contracted_intermediate")]))) (EScale (-1 # 1) (EEins "abcdijkl->bacdijkl" [(EVar "contracted_intermediate")]))) (EScale (1 # 1) (EEins "abcdijkl->bacdjikl" [(EVar "contracted_intermediate")])));
   (*L2214*) SAssign "contracted_intermediate" (EScale (1 # 1) (EEins "nmfe,aejm,fdik,bcln->abcdijkl" [(ESlice (EVar "g_abab") [SV "o"; SV "o"; SV "v"; SV "v"]); (EVar "t2_abab"); (EVar "t2_aaaa"); (EVar "t2_aaaa")]));
   (*L2215*) SAug true "quadruples_res" (EAdd (EAdd (EAdd (EScale (1 # 1) (EVar "contracted_intermediate")) (EScale (-1 # 1) (EEins "abcdijkl->abcdjikl" [(EVar "contracted_intermediate")]))) (EScale (-1 # 1) (EEins "abcdijkl->bacdijkl" [(EVar "contracted_intermediate")]))) (EScale (1 # 1) (EEins "abcdijkl->bacdjikl" [(EVar "contracted_intermediate")])));
   (*L2218*) SAssign "contracted_intermediate" (EScale (-1 # 1) (EEins "nmef,eaim,fbkl,cdjn->abcdijkl" [(ESlice (EVar "g_aaaa") [SV "o"; SV "o"; SV "v"; SV "v"]); (EVar "t2_aaaa"); (EVar "t2_aaaa"); (EVar "t2_aaaa")]));
   (*L2219*) SAug true "quadruples_res" (EAdd (EAdd (EAdd (EScale (1 # 1) (EVar "contracted_intermediate")) (EScale (-1 # 1) (EEins "abcdijkl->abcdikjl" [(EVar "contracted_intermediate")]))) (EScale (-1 # 1) (EEins "abcdijkl->acbdijkl" [(EVar "contracted_intermediate")]))) (EScale (1 # 1) (EEins "abcdijkl->acbdikjl" [(EVar "contracted_intermediate")])));
   (*L2222*) SAssign "contracted_intermediate" (EScale (-1 # 1) (EEins "nmfe,aeim,fbkl,cdjn->abcdijkl" [(ESlice (EVar "g_abab") [SV "o"; SV "o"; SV "v"; SV "v"]); (EVar "t2_abab"); (EVar "t2_aaaa"); (EVar "t2_aaaa")]));
   (*L2223*) SAug true "quadruples_res" (EAdd (EAdd (EAdd (EScale (1 # 1) (EVar "contracted_intermediate")) (EScale (-1 # 1) (EEins "abcdijkl->abcdikjl" [(EVar "contracted_intermediate")]))) (EScale (-1 # 1) (EEins "abcdijkl->acbdijkl" [(EVar "contracted_intermediate")]))) (EScale (1 # 1) (EEins "abcdijkl->acbdikjl" [(EVar "contracted_intermediate")])));
   (*L2226*) SAssign "contracted_intermediate" (EScale (-1 # 1) (EEins "nmef,eaim,fdkl,bcjn->abcdijkl" [(ESlice (EVar "g_aaaa") [SV "o"; SV "o"; SV "v"; SV "v"]); (EVar "t2_aaaa"); (EVar "t2_aaaa"); (EVar "t2_aaaa")]));
   (*L2227*) SAug true "quadruples_res" (EAdd (EAdd (EAdd (EScale (1 # 1) (EVar "contracted_intermediate")) (EScale (-1 # 1) (EEins "abcdijkl->abcdikjl" [(EVar "contracted_intermediate")]))) (EScale (-1 # 1) (EEins "abcdijkl->bacdijkl" [(EVar "contracted_intermediate")]))) (EScale (1 # 1) (EEins "abcdijkl->bacdikjl" [(EVar "contracted_intermediate")])));
   (*L2230*) SAssign "contracted_intermediate" (EScale (-1 # 1) (EEins "nmfe,aeim,fdkl,bcjn->abcdijkl" [(ESlice (EVar "g_abab") [SV "o"; SV "o"; SV "v"; SV "v"]); (EVar "t2_abab"); (EVar "t2_aaaa"); (EVar "t2_aaaa")]));
   (*L2231*) SAug true "quadruples_res" (EAdd (EAdd (EAdd (EScale (1 # 1) (EVar "contracted_intermediate")) (EScale (-1 # 1) (EEins "abcdijkl->abcdikjl" [(EVar "contracted_intermediate")]))) (EScale (-1 # 1) (EEins "abcdijkl->bacdijkl" [(EVar "contracted_intermediate")]))) (EScale (1 # 1) (EEins "abcdijkl->bacdikjl" [(EVar "contracted_intermediate")])));
   (*L2234*) SAssign "contracted_intermediate" (EScale (1 # 1) (EEins "nmef,eakl,fbjm,cdin->abcdijkl" [(ESlice (EVar "g_aaaa") [SV "o"; SV "o"; SV "v"; SV "v"]); (EVar "t2_aaaa"); (EVar "t2_aaaa"); (EVar "t2_aaaa")]));
   (*L2235*) SAug true "quadruples_res" (EAdd (EAdd (EAdd (EScale (1 # 1) (EVar "contracted_intermediate")) (EScale (-1 # 1) (EEins "abcdijkl->abcdjikl" [(EVar "contracted_intermediate")]))) (EScale (-1 # 1) (EEins "abcdijkl->acbdijkl" [(EVar "contracted_intermediate")]))) (EScale (1 # 1) (EEins "abcdijkl->acbdjikl" [(EVar "contracted_intermediate")])));
   (*L2238*) SAssign "contracted_intermediate" (EScale (-1 # 1) (EEins "nmef,eakl,bfjm,cdin->abcdijkl" [(ESlice (EVar "g_abab") [SV "o"; SV "o"; SV "v"; SV "v"]); (EVar "t2_aaaa"); (EVar "t2_abab"); (EVar "t2_aaaa")]));
   (*L2239*) SAug true "quadruples_res" (EAdd (EAdd (EAdd (EScale (1 # 1) (EVar "contracted_intermediate")) (EScale (-1 # 1) (EEins "abcdijkl->abcdjikl" [(EVar "contracted_intermediate")]))) (EScale (-1 # 1) (EEins "abcdijkl->acbdijkl" [(EVar "contracted_intermediate")]))) (EScale (1 # 1) (EEins "abcdijkl->acbdjikl" [(EVar "contracted_intermediate")])));
   (*L2242*) SAssign "contracted_intermediate" (EScale (-1 # 2) (EEins "nmef,eakl,fbij,cdnm->abcdijkl" [(ESlice (EVar "g_aaaa") [SV "o"; SV "o"; SV "v"; SV "v"]); (EVar "t2_aaaa"); (EVar "t2_aaaa"); (EVar "t2_aaaa")]));
   (*L2243*) SAug true "quadruples_res" (EAdd (EAdd (EAdd (EScale (1 # 1) (EVar "contracted_intermediate")) (EScale (-1 # 1) (EEins "abcdijkl->abcdikjl" [(EVar "contracted_intermediate")]))) (EScale (-1 # 1) (EEins "abcdijkl->acbdijkl" [(EVar "contracted_intermediate")]))) (EScale (1 # 1) (EEins "abcdijkl->acbdikjl" [(EVar "contracted_intermediate")])));
   (*L2246*) SAssign "contracted_intermediate" (EScale (1 # 1) (EEins "nmef,eakl,fdjm,bcin->abcdijkl" [(ESlice (EVar "g_aaaa") [SV "o"; SV "o"; SV "v"; SV "v"]); (EVar "t2_aaaa"); (EVar "t2_aaaa"); (EVar "t2_aaaa")]));
   (*L2247*) SAug true "quadruples_res" (EAdd (EAdd (EAdd (EScale (1 # 1) (EVar "contracted_intermediate")) (EScale (-1 # 1) (EEins "abcdijkl->abcdjikl" [(EVar "contracted_intermediate")]))) (EScale (-1 # 1) (EEins "abcdijkl->bacdijkl" [(EVar "contracted_intermediate")]))) (EScale (1 # 1) (EEins "abcdijkl->bacdjikl" [(EVar "contracted_intermediate")])));
   (*L2250*) SAssign "contracted_intermediate" (EScale (-1 # 1) (EEins "nmef,eakl,dfjm,bcin->abcdijkl" [(ESlice (EVar "g_abab") [SV "o"; SV "o"; SV "v"; SV "v"]); (EVar "t2_aaaa"); (EVar "t2_abab"); (EVar "t2_aaaa")]));
   (*L2251*) SAug true "quadruples_res" (EAdd (EAdd (EAdd (EScale (1 # 1) (EVar "contracted_intermediate")) (EScale (-1 # 1) (EEins "abcdijkl->abcdjikl" [(EVar "contracted_intermediate")]))) (EScale (-1 # 1) (EEins "abcdijkl->bacdijkl" [(EVar "contracted_intermediate")]))) (EScale (1 # 1) (EEins "abcdijkl->bacdjikl" [(EVar "contracted_intermediate")])));
   (*L2254*) SAssign "contracted_intermediate" (EScale (-1 # 2) (EEins "nmef,eakl,fdij,bcnm->abcdijkl" [(ESlice (EVar "g_aaaa") [SV "o"; SV "o"; SV "v"; SV "v"]); (EVar "t2_aaaa"); (EVar "t2_aaaa"); (EVar "t2_aaaa")]));
   (*L2255*) SAug true "quadruples_res" (EAdd (EAdd (EAdd (EScale (1 # 1) (EVar "contracted_intermediate")) (EScale (-1 # 1) (EEins "abcdijkl->abcdikjl" [(EVar "contracted_intermediate")]))) (EScale (-1 # 1) (EEins "abcdijkl->bacdijkl" [(EVar "contracted_intermediate")]))) (EScale (1 # 1) (EEins "abcdijkl->bacdikjl" [(EVar "contracted_intermediate")])));
   (*L2258*) SAssign "contracted_intermediate" (EScale (-1 # 1) (EEins "nmef,eajl,fbkm,cdin->abcdijkl" [(ESlice (EVar "g_aaaa") [SV "o"; SV "o"; SV "v"; SV "v"]); (EVar "t2_aaaa"); (EVar "t2_aaaa"); (EVar "t2_aaaa")]));
   (*L2259*) SAug true "quadruples_res" (EAdd (EAdd (EAdd (EScale (1 # 1) (EVar "contracted_intermediate")) (EScale (-1 # 1) (EEins "abcdijkl->abcdkjil" [(EVar "contracted_intermediate")]))) (EScale (-1 # 1) (EEins "abcdijkl->acbdijkl" [(EVar "contracted_intermediate")]))) (EScale (1 # 1) (EEins "abcdijkl->acbdkjil" [(EVar "contracted_intermediate")])));
   (*L2262*) SAssign "contracted_intermediate" (EScale (1 # 1) (EEins "nmef,eajl,bfkm,cdin->abcdijkl" [(ESlice (EVar "g_abab") [SV "o"; SV "o"; SV "v"; SV "v"]); (EVar "t2_aaaa"); (EVar "t2_abab"); (EVar "t2_aaaa")]));
   (*L2263*) SAug true "quadruples_res" (EAdd (EAdd (EAdd (EScale (1 # 1) (EVar "contracted_intermediate")) (EScale (-1 # 1) (EEins "abcdijkl->abcdkjil" [(EVar "contracted_intermediate")]))) (EScale (-1 # 1) (EEins "abcdijkl->acbdijkl" [(EVar "contracted_intermediate")]))) (EScale (1 # 1) (EEins "abcdijkl->acbdkjil" [(EVar "contracted_intermediate")])));
   (*L2266*) SAssign "contracted_intermediate" (EScale (-1 # 1) (EEins "nmef,eajl,fdkm,bcin->abcdijkl" [(ESlice (EVar "g_aaaa") [SV "o"; SV "o"; SV "v"; SV "v"]); (EVar "t2_aaaa"); (EVar "t2_aaaa"); (EVar "t2_aaaa")]));
   (*L2267*) SAug true "quadruples_res" (EAdd (EAdd (EAdd (EScale (1 # 1) (EVar "contracted_intermediate")) (EScale (-1 # 1) (EEins "abcdijkl->abcdkjil" [(EVar "contracted_intermediate")]))) (EScale (-1 # 1) (EEins "abcdijkl->bacdijkl" [(EVar "contracted_intermediate")]))) (EScale (1 # 1) (EEins "abcdijkl->bacdkjil" [(EVar "contracted_intermediate")])));
   (*L2270*) SAssign "contracted_intermediate" (EScale (1 # 1) (EEins "nmef,eajl,dfkm,bcin->abcdijkl" [(ESlice (EVar "g_abab") [SV "o"; SV "o"; SV "v"; SV "v"]); (EVar "t2_aaaa"); (EVar "t2_abab"); (EVar "t2_aaaa")]));
   (*L2271*) SAug true "quadruples_res" (EAdd (EAdd (EAdd (EScale (1 # 1) (EVar "contracted_intermediate")) (EScale (-1 # 1) (EEins "abcdijkl->abcdkjil" [(EVar "contracted_intermediate")]))) (EScale (-1 # 1) (EEins "abcdijkl->bacdijkl" [(EVar "contracted_intermediate")]))) (EScale (1 # 1) (EEins "abcdijkl->bacdkjil" [(EVar "contracted_intermediate")])));
   (*L2274*) SAssign "contracted_intermediate" (EScale (1 # 1) (EEins "nmef,eail,fbkm,cdjn->abcdijkl" [(ESlice (EVar "g_aaaa") [SV "o"; SV "o"; SV "v"; SV "v"]); (EVar "t2_aaaa"); (EVar "t2_aaaa"); (EVar "t2_aaaa")]));
   (*L2275*) SAug true "quadruples_res" (EAdd (EAdd (EAdd (EScale (1 # 1) (EVar "contracted_intermediate")) (EScale (-1 # 1) (EEins "abcdijkl->abcdikjl" [(EVar "contracted_intermediate")]))) (EScale (-1 # 1) (EEins "abcdijkl->acbdijkl" [(EVar "contracted_intermediate")]))) (EScale (1 # 1) (EEins "abcdijkl->acbdikjl" [(EVar "contracted_intermediate")])));
   (*L2278*) SAssign "contracted_intermediate" (EScale (-1 # 1) (EEins "nmef,eail,bfkm,cdjn->abcdijkl" [(ESlice (EVar "g_abab") [SV "o"; SV "o"; SV "v"; SV "v"]); (EVar "t2_aaaa"); (EVar "t2_abab"); (EVar "t2_aaaa")]));
   (*L2279*) SAug true "quadruples_res" (EAdd (EAdd (EAdd (EScale (1 # 1) (EVar "contracted_intermediate")) (EScale (-1 # 1) (EEins "abcdijkl->abcdikjl" [(EVar "contracted_intermediate")]))) (EScale (-1 # 1) (EEins "abcdijkl->acbdijkl" [(EVar "contracted_intermediate")]))) (EScale (1 # 1) (EEins "abcdijkl->acbdikjl" [(EVar "contracted_intermediate")])));
   (*L2282*) SAssign "contracted_intermediate" (EScale (-1 # 2) (EEins "nmef,eail,fbjk,cdnm->abcdijkl" [(ESlice (EVar "g_aaaa") [SV "o"; SV "o"; SV "v"; SV "v"]); (EVar "t2_aaaa"); (EVar "t2_aaaa"); (EVar "t2_aaaa")]));
   (*L2283*) SAug true "quadruples_res" (EAdd (EAdd (EAdd (EScale (1 # 1) (EVar "contracted_intermediate")) (EScale (-1 # 1) (EEins "abcdijkl->abcdijlk" [(EVar "contracted_intermediate")]))) (EScale (-1 # 1) (EEins "abcdijkl->acbdijkl" [(EVar "contracted_intermediate")]))) (EScale (1 # 1) (EEins "abcdijkl->acbdijlk" [(EVar "contracted_intermediate")])));
   (*L2286*) SAssign "contracted_intermediate" (EScale (1 # 1) (EEins "nmef,eail,fdkm,bcjn->abcdijkl" [(ESlice (EVar "g_aaaa") [SV "o"; SV "o"; SV "v"; SV "v"]); (EVar "t2_aaaa"); (EVar "t2_aaaa"); (EVar "t2_aaaa")]));
   (*L2287*) SAug true "quadruples_res" (EAdd (EAdd (EAdd (EScale (1 # 1) (EVar "contracted_intermediate")) (EScale (-1 # 1) (EEins "abcdijkl->abcdikjl" [(EVar "contracted_intermediate")]))) (EScale (-1 # 1) (EEins "abcdijkl->bacdijkl" [(EVar "contracted_intermediate")]))) (EScale (1 # 1) (EEins "abcdijkl->bacdikjl" [(EVar "contracted_intermediate")])));
   (*L2290*) SAssign "contracted_intermediate" (EScale (-1 # 1) (EEins "nmef,eail,dfkm,bcjn->abcdijkl" [(ESlice (EVar "g_abab") [SV "o"; SV "o"; SV "v"; SV "v"]); (EVar "t2_aaaa"); (EVar "t2_abab"); (EVar "t2_aaaa")]));
   (*L2291*) SAug true "quadruples_res" (EAdd (EAdd (EAdd (EScale (1 # 1) (EVar "contracted_intermediate")) (EScale (-1 # 1) (EEins "abcdijkl->abcdikjl" [(EVar "contracted_intermediate")]))) (EScale (-1 # 1) (EEins "abcdijkl->bacdijkl" [(EVar "contracted_intermediate")]))) (EScale (1 # 1) (EEins "abcdijkl->bacdikjl" [(EVar "contracted_intermediate")])));
   (*L2294*) SAssign "contracted_intermediate" (EScale (-1 # 2) (EEins "nmef,eail,fdjk,bcnm->abcdijkl" [(ESlice (EVar "g_aaaa") [SV "o"; SV "o"; SV "v"; SV "v"]); (EVar "t2_aaaa"); (EVar "t2_aaaa"); (EVar "t2_aaaa")]));
   (*L2295*) SAug true "quadruples_res" (EAdd (EAdd (EAdd (EScale (1 # 1) (EVar "contracted_intermediate")) (EScale (-1 # 1) (EEins "abcdijkl->abcdijlk" [(EVar "contracted_intermediate")]))) (EScale (-1 # 1) (EEins "abcdijkl->bacdijkl" [(EVar "contracted_intermediate")]))) (EScale (1 # 1) (EEins "abcdijkl->bacdijlk" [(EVar "contracted_intermediate")])));
   (*L2298*) SAssign "contracted_intermediate" (EScale (1 # 1) (EEins "nmef,eajk,fblm,cdin->abcdijkl" [(ESlice (EVar "g_aaaa") [SV "o"; SV "o"; SV "v"; SV "v"]); (EVar "t2_aaaa"); (EVar "t2_aaaa"); (EVar "t2_aaaa")]));
   (*L2299*) SAug true "quadruples_res" (EAdd (EAdd (EAdd (EScale (1 # 1) (EVar "contracted_intermediate")) (EScale (-1 # 1) (EEins "abcdijkl->abcdljki" [(EVar "contracted_intermediate")]))) (EScale (-1 # 1) (EEins "abcdijkl->acbdijkl" [(EVar "contracted_intermediate")]))) (EScale (1 # 1) (EEins "abcdijkl->acbdljki" [(EVar "contracted_intermediate")])));
   (*L2302*) SAssign "contracted_intermediate" (EScale (-1 # 1) (EEins "nmef,eajk,bflm,cdin->abcdijkl" [(ESlice (EVar "g_abab") [SV "o"; SV "o"; SV "v"; SV "v"]); (EVar "t2_aaaa"); (EVar "t2_abab"); (EVar "t2_aaaa")]));
   (*L2303*) SAug true "quadruples_res" (EAdd (EAdd (EAdd (EScale (1 # 1) (EVar "contracted_intermediate")) (EScale (-1 # 1) (EEins "abcdijkl->abcdljki" [(EVar "contracted_intermediate")]))) (EScale (-1 # 1) (EEins "abcdijkl->acbdijkl" [(EVar "contracted_intermediate")]))) (EScale (1 # 1) (EEins "abcdijkl->acbdljki" [(EVar "contracted_intermediate")])));
   (*L2306*) SAssign "contracted_intermediate" (EScale (-1 # 2) (EEins "nmef,eajk,fbil,cdnm->abcdijkl" [(ESlice (EVar "g_aaaa") [SV "o"; SV "o"; SV "v"; SV "v"]); (EVar "t2_aaaa"); (EVar "t2_aaaa"); (EVar "t2_aaaa")]));
   (*L2307*) SAug true "quadruples_res" (EAdd (EAdd (EAdd (EScale (1 # 1) (EVar "contracted_intermediate")) (EScale (-1 # 1) (EEins "abcdijkl->abcdkjil" [(EVar "contracted_intermediate")]))) (EScale (-1 # 1) (EEins "abcdijkl->acbdijkl" [(EVar "contracted_intermediate")]))) (EScale (1 # 1) (EEins "abcdijkl->acbdkjil" [(EVar "contracted_intermediate")])));
   (*L2310*) SAssign "contracted_intermediate" (EScale (1 # 1) (EEins "nmef,eajk,fdlm,bcin->abcdijkl" [(ESlice (EVar "g_aaaa") [SV "o"; SV "o"; SV "v"; SV "v"]); (EVar "t2_aaaa"); (EVar "t2_aaaa"); (EVar "t2_aaaa")]));
   (*L2311*) SAug true "quadruples_res" (EAdd (EAdd (EAdd (EScale (1 # 1) (EVar "contracted_intermediate")) (EScale (-1 # 1) (EEins "abcdijkl->abcdljki" [(EVar "contracted_intermediate")]))) (EScale (-1 # 1) (EEins "abcdijkl->bacdijkl" [(EVar "contracted_intermediate")]))) (EScale (1 # 1) (EEins "abcdijkl->bacdljki" [(EVar "contracted_intermediate")])));
   (*L2314*) SAssign "contracted_intermediate" (EScale (-1 # 1) (EEins "nmef,eajk,dflm,bcin->abcdijkl" [(ESlice (EVar "g_abab") [SV "o"; SV "o"; SV "v"; SV "v"]); (EVar "t2_aaaa"); (EVar "t2_abab"); (EVar "t2_aaaa")]));
   (*L2315*) SAug true "quadruples_res" (EAdd (EAdd (EAdd (EScale (1 # 1) (EVar "contracted_intermediate")) (EScale (-1 # 1) (EEins "abcdijkl->abcdljki" [(EVar "contracted_intermediate")]))) (EScale (-1 # 1) (EEins "abcdijkl->bacdijkl" [(EVar "contracted_intermediate")]))) (EScale (1 # 1) (EEins "abcdijkl->bacdljki" [(EVar "contracted_intermediate")])));
   (*L2318*) SAssign "contracted_intermediate" (EScale (-1 # 2) (EEins "nmef,eajk,fdil,bcnm->abcdijkl" [(ESlice (EVar "g_aaaa") [SV "o"; SV "o"; SV "v"; SV "v"]); (EVar "t2_aaaa"); (EVar "t2_aaaa"); (EVar "t2_aaaa")]));
   (*L2319*) SAug true "quadruples_res" (EAdd (EAdd (EAdd (EScale (1 # 1) (EVar "contracted_intermediate")) (EScale (-1 # 1) (EEins "abcdijkl->abcdkjil" [(EVar "contracted_intermediate")]))) (EScale (-1 # 1) (EEins "abcdijkl->bacdijkl" [(EVar "contracted_intermediate")]))) (EScale (1 # 1) (EEins "abcdijkl->bacdkjil" [(EVar "contracted_intermediate")])));
   (*L2322*) SAssign "contracted_intermediate" (EScale (-1 # 1) (EEins "nmef,eaik,fblm,cdjn->abcdijkl" [(ESlice (EVar "g_aaaa") [SV "o"; SV "o"; SV "v"; SV "v"]); (EVar "t2_aaaa"); (EVar "t2_aaaa"); (EVar "t2_aaaa")]));
   (*L2323*) SAug true "quadruples_res" (EAdd (EAdd (EAdd (EScale (1 # 1) (EVar "contracted_intermediate")) (EScale (-1 # 1) (EEins "abcdijkl->abcdilkj" [(EVar "contracted_intermediate")]))) (EScale (-1 # 1) (EEins "abcdijkl->acbdijkl" [(EVar "contracted_intermediate")]))) (EScale (1 # 1) (EEins "abcdijkl->acbdilkj" [(EVar "contracted_intermediate")])));
   (*L2326*) SAssign "contracted_intermediate" (EScale (1 # 1) (EEins "nmef,eaik,bflm,cdjn->abcdijkl" [(ESlice (EVar "g_abab") [SV "o"; SV "o"; SV "v"; SV "v"]); (EVar "t2_aaaa"); (EVar "t2_abab"); (EVar "t2_aaaa")]));
   (*L2327*) SAug true "quadruples_res" (EAdd (EAdd (EAdd (EScale (1 # 1) (EVar "contracted_intermediate")) (EScale (-1 # 1) (EEins "abcdijkl->abcdilkj" [(EVar "contracted_intermediate")]))) (EScale (-1 # 1) (EEins "abcdijkl->acbdijkl" [(EVar "contracted_intermediate")]))) (EScale (1 # 1) (EEins "abcdijkl->acbdilkj" [(EVar "contracted_intermediate")])));
   (*L2330*) SAssign "contracted_intermediate" (EScale (-1 # 1) (EEins "nmef,eaik,fdlm,bcjn->abcdijkl" [(ESlice (EVar "g_aaaa") [SV "o"; SV "o"; SV "v"; SV "v"]); (EVar "t2_aaaa"); (EVar "t2_aaaa"); (EVar "t2_aaaa")]));
   (*L2331*) SAug true "quadruples_res" (EAdd (EAdd (EAdd (EScale (1 # 1) (EVar "contracted_intermediate")) (EScale (-1 # 1) (EEins "abcdijkl->abcdilkj" [(EVar "contracted_intermediate")]))) (EScale (-1 # 1) (EEins "abcdijkl->bacdijkl" [(EVar "contracted_intermediate")]))) (EScale (1 # 1) (EEins "abcdijkl->bacdilkj" [(EVar "contracted_intermediate")])));
   (*L2334*) SAssign "contracted_intermediate" (EScale (1 # 1) (EEins "nmef,eaik,dflm,bcjn->abcdijkl" [(ESlice (EVar "g_abab") [SV "o"; SV "o"; SV "v"; SV "v"]); (EVar "t2_aaaa"); (EVar "t2_abab"); (EVar "t2_aaaa")]));
   (*L2335*) SAug true "quadruples_res" (EAdd (EAdd (EAdd (EScale (1 # 1) (EVar "contracted_intermediate")) (EScale (-1 # 1) (EEins "abcdijkl->abcdilkj" [(EVar "contracted_intermediate")]))) (EScale (-1 # 1) (EEins "abcdijkl->bacdijkl" [(EVar "contracted_intermediate")]))) (EScale (1 # 1) (EEins "abcdijkl->bacdilkj" [(EVar "contracted_intermediate")])));
   (*L2338*) SAssign "contracted_intermediate" (EScale (1 # 1) (EEins "nmef,eaij,fblm,cdkn->abcdijkl" [(ESlice (EVar "g_aaaa") [SV "o"; SV "o"; SV "v"; SV "v"]); (EVar "t2_aaaa"); (EVar "t2_aaaa"); (EVar "t2_aaaa")]));
   (*L2339*) SAug true "quadruples_res" (EAdd (EAdd (EAdd (EScale (1 # 1) (EVar "contracted_intermediate")) (EScale (-1 # 1) (EEins "abcdijkl->abcdijlk" [(EVar "contracted_intermediate")]))) (EScale (-1 # 1) (EEins "abcdijkl->acbdijkl" [(EVar "contracted_intermediate")]))) (EScale (1 # 1) (EEins "abcdijkl->acbdijlk" [(EVar "contracted_intermediate")])));
   (*L2342*) SAssign "contracted_intermediate" (EScale (-1 # 1) (EEins "nmef,eaij,bflm,cdkn->abcdijkl" [(ESlice (EVar "g_abab") [SV "o"; SV "o"; SV "v"; SV "v"]); (EVar "t2_aaaa"); (EVar "t2_abab"); (EVar "t2_aaaa")]));
   (*L2343*) SAug true "quadruples_res" (EAdd (EAdd (EAdd (EScale (1 # 1) (EVar "contracted_intermediate")) (EScale (-1 # 1) (EEins "abcdijkl->abcdijlk" [(EVar "contracted_intermediate")]))) (EScale (-1 # 1) (EEins "abcdijkl->acbdijkl" [(EVar "contracted_intermediate")]))) (EScale (1 # 1) (EEins "abcdijkl->acbdijlk" [(EVar "contracted_intermediate")])));
   (*L2346*) SAssign "contracted_intermediate" (EScale (1 # 1) (EEins "nmef,eaij,fdlm,bckn->abcdijkl" [(ESlice (EVar "g_aaaa") [SV "o"; SV "o"; SV "v"; SV "v"]); (EVar "t2_aaaa"); (EVar "t2_aaaa"); (EVar "t2_aaaa")]));
   (*L2347*) SAug true "quadruples_res" (EAdd (EAdd (EAdd (EScale (1 # 1) (EVar "contracted_intermediate")) (EScale (-1 # 1) (EEins "abcdijkl->abcdijlk" [(EVar "contracted_intermediate")]))) (EScale (-1 # 1) (EEins "abcdijkl->bacdijkl" [(EVar "contracted_intermediate")]))) (EScale (1 # 1) (EEins "abcdijkl->bacdijlk" [(EVar "contracted_intermediate")])));
   (*L2350*) SAssign "contracted_intermediate" (EScale (-1 # 1) (EEins "nmef,eaij,dflm,bckn->abcdijkl" [(ESlice (EVar "g_abab") [SV "o"; SV "o"; SV "v"; SV "v"]); (EVar "t2_aaaa"); (EVar "t2_abab"); (EVar "t2_aaaa")]));
   (*L2351*) SAug true "quadruples_res" (EAdd (EAdd (EAdd (EScale (1 # 1) (EVar "contracted_intermediate")) (EScale (-1 # 1) (EEins "abcdijkl->abcdijlk" [(EVar "contracted_intermediate")]))) (EScale (-1 # 1) (EEins "abcdijkl->bacdijkl" [(EVar "contracted_intermediate")]))) (EScale (1 # 1) (EEins "abcdijkl->bacdijlk" [(EVar "contracted_intermediate")])));
   (*L2354*) SAssign "contracted_intermediate" (EScale (1 # 1) (EEins "nmef,eblm,fcjk,adin->abcdijkl" [(ESlice (EVar "g_aaaa") [SV "o"; SV "o"; SV "v"; SV "v"]); (EVar "t2_aaaa"); (EVar "t2_aaaa"); (EVar "t2_aaaa")]));
   (*L2355*) SAug true "quadruples_res" (EAdd (EScale (1 # 1) (EVar "contracted_intermediate")) (EScale (-1 # 1) (EEins "abcdijkl->abcdjikl" [(EVar "contracted_intermediate")])));
   (*L2358*) SAssign "contracted_intermediate" (EScale (1 # 1) (EEins "nmfe,belm,fcjk,adin->abcdijkl" [(ESlice (EVar "g_abab") [SV "o"; SV "o"; SV "v"; SV "v"]); (EVar "t2_abab"); (EVar "t2_aaaa"); (EVar "t2_aaaa")]));
   (*L2359*) SAug true "quadruples_res" (EAdd (EScale (1 # 1) (EVar "contracted_intermediate")) (EScale (-1 # 1) (EEins "abcdijkl->abcdjikl" [(EVar "contracted_intermediate")])));
   (*L2362*) SAssign "contracted_intermediate" (EScale (1 # 1) (EEins "nmef,eblm,fcij,adkn->abcdijkl" [(ESlice (EVar "g_aaaa") [SV "o"; SV "o"; SV "v"; SV "v"]); (EVar "t2_aaaa"); (EVar "t2_aaaa"); (EVar "t2_aaaa")]));
   (*L2363*) SAug true "quadruples_res" (EAdd (EScale (1 # 1) (EVar "contracted_intermediate")) (EScale (-1 # 1) (EEins "abcdijkl->abcdijlk" [(EVar "contracted_intermediate")])));
   (*L2366*) SAssign "contracted_intermediate" (EScale (1 # 1) (EEins "nmfe,belm,fcij,adkn->abcdijkl" [(ESlice (EVar "g_abab") [SV "o"; SV "o"; SV "v"; SV "v"]); (EVar "t2_abab"); (EVar "t2_aaaa"); (EVar "t2_aaaa")]));
   (*L2367*) SAug true "quadruples_res" (EAdd (EScale (1 # 1) (EVar "contracted_intermediate")) (EScale (-1 # 1) (EEins "abcdijkl->abcdijlk" [(EVar "contracted_intermediate")])));
   (*L2370*) SAssign "contracted_intermediate" (EScale (-1 # 1) (EEins "nmef,ebkm,fcjl,adin->abcdijkl" [(ESlice (EVar "g_aaaa") [SV "o"; SV "o"; SV "v"; SV "v"]); (EVar "t2_aaaa"); (EVar "t2_aaaa"); (EVar "t2_aaaa")]));
   (*L2371*) SAug true "quadruples_res" (EAdd (EScale (1 # 1) (EVar "contracted_intermediate")) (EScale (-1 # 1) (EEins "abcdijkl->abcdjikl" [(EVar "contracted_intermediate")])));
   (*L2374*) SAssign "contracted_intermediate" (EScale (-1 # 1) (EEins "nmfe,bekm,fcjl,adin->abcdijkl" [(ESlice (EVar "g_abab") [SV "o"; SV "o"; SV "v"; SV "v"]); (EVar "t2_abab"); (EVar "t2_aaaa"); (EVar "t2_aaaa")]));
   (*L2375*) SAug true "quadruples_res" (EAdd (EScale (1 # 1) (EVar "contracted_intermediate")) (EScale (-1 # 1) (EEins "abcdijkl->abcdjikl" [(EVar "contracted_intermediate")])));
   (*L2378*) SAssign "contracted_intermediate" (EScale (1 # 1) (EEins "nmef,ebjm,fckl,adin->abcdijkl" [(ESlice (EVar "g_aaaa") [SV "o"; SV "o"; SV "v"; SV "v"]); (EVar "t2_aaaa"); (EVar "t2_aaaa"); (EVar "t2_aaaa")]));
   (*L2379*) SAug true "quadruples_res" (EAdd (EScale (1 # 1) (EVar "contracted_intermediate")) (EScale (-1 # 1) (EEins "abcdijkl->abcdkjil" [(EVar "contracted_intermediate")])));
   (*L2382*) SAssign "contracted_intermediate" (EScale (1 # 1) (EEins "nmfe,bejm,fckl,adin->abcdijkl" [(ESlice (EVar "g_abab") [SV "o"; SV "o"; SV "v"; SV "v"]); (EVar "t2_abab"); (EVar "t2_aaaa"); (EVar "t2_aaaa")]));
   (*L2383*) SAug true "quadruples_res" (EAdd (EScale (1 # 1) (EVar "contracted_intermediate")) (EScale (-1 # 1) (EEins "abcdijkl->abcdkjil" [(EVar "contracted_intermediate")])));
   (*L2386*) SAssign "contracted_intermediate" (EScale (1 # 1) (EEins "nmef,ebjm,fcik,adln->abcdijkl" [(ESlice (EVar "g_aaaa") [SV "o"; SV "o"; SV "v"; SV "v"]); (EVar "t2_aaaa"); (EVar "t2_aaaa"); (EVar "t2_aaaa")]));
   (*L2387*) SAug true "quadruples_res" (EAdd (EScale (1 # 1) (EVar "contracted_intermediate")) (EScale (-1 # 1) (EEins "abcdijkl->abcdjikl" [(EVar "contracted_intermediate")])));
   (*L2390*) SAssign "contracted_intermediate" (EScale (1 # 1) (EEins "nmfe,bejm,fcik,adln->abcdijkl" [(ESlice (EVar "g_abab") [SV "o"; SV "o"; SV "v"; SV "v"]); (EVar "t2_abab"); (EVar "t2_aaaa"); (EVar "t2_aaaa")]));
   (*L2391*) SAug true "quadruples_res" (EAdd (EScale (1 # 1) (EVar "contracted_intermediate")) (EScale (-1 # 1) (EEins "abcdijkl->abcdjikl" [(EVar "contracted_intermediate")])));
   (*L2394*) SAssign "contracted_intermediate" (EScale (-1 # 1) (EEins "nmef,ebim,fckl,adjn->abcdijkl" [(ESlice (EVar "g_aaaa") [SV "o"; SV "o"; SV "v"; SV "v"]); (EVar "t2_aaaa"); (EVar "t2_aaaa"); (EVar "t2_aaaa")]));
   (*L2395*) SAug true "quadruples_res" (EAdd (EScale (1 # 1) (EVar "contracted_intermediate")) (EScale (-1 # 1) (EEins "abcdijkl->abcdikjl" [(EVar "contracted_intermediate")])));
   (*L2398*) SAssign "contracted_intermediate" (EScale (-1 # 1) (EEins "nmfe,beim,fckl,adjn->abcdijkl" [(ESlice (EVar "g_abab") [SV "o"; SV "o"; SV "v"; SV "v"]); (EVar "t2_abab"); (EVar "t2_aaaa"); (EVar "t2_aaaa")]));
   (*L2399*) SAug true "quadruples_res" (EAdd (EScale (1 # 1) (EVar "contracted_intermediate")) (EScale (-1 # 1) (EEins "abcdijkl->abcdikjl" [(EVar "contracted_intermediate")])));
   (*L2402*) SAssign "contracted_intermediate" (EScale (1 # 1) (EEins "nmef,ebkl,fcjm,adin->abcdijkl" [(ESlice (EVar "g_aaaa") [SV "o"; SV "o"; SV "v"; SV "v"]); (EVar "t2_aaaa"); (EVar "t2_aaaa"); (EVar "t2_aaaa")]));
   (*L2403*) SAug true "quadruples_res" (EAdd (EScale (1 # 1) (EVar "contracted_intermediate")) (EScale (-1 # 1) (EEins "abcdijkl->abcdjikl" [(EVar "contracted_intermediate")])));
   (*L2406*) SAssign "contracted_intermediate" (EScale (-1 # 1) (EEins "nmef,ebkl,cfjm,adin->abcdijkl" [(ESlice (EVar "g_abab") [SV "o"; SV "o"; SV "v"; SV "v"]); (EVar "t2_aaaa"); (EVar "t2_abab"); (EVar "t2_aaaa")]));
   (*L2407*) SAug true "quadruples_res" (EAdd (EScale (1 # 1) (EVar "contracted_intermediate")) (EScale (-1 # 1) (EEins "abcdijkl->abcdjikl" [(EVar "contracted_intermediate")])));
   (*L2410*) SAssign "contracted_intermediate" (EScale (-1 # 2) (EEins "nmef,ebkl,fcij,adnm->abcdijkl" [(ESlice (EVar "g_aaaa") [SV "o"; SV "o"; SV "v"; SV "v"]); (EVar "t2_aaaa"); (EVar "t2_aaaa"); (EVar "t2_aaaa")]));
   (*L2411*) SAug true "quadruples_res" (EAdd (EScale (1 # 1) (EVar "contracted_intermediate")) (EScale (-1 # 1) (EEins "abcdijkl->abcdikjl" [(EVar "contracted_intermediate")])));
   (*L2414*) SAssign "contracted_intermediate" (EScale (-1 # 1) (EEins "nmef,ebjl,fckm,adin->abcdijkl" [(ESlice (EVar "g_aaaa") [SV "o"; SV "o"; SV "v"; SV "v"]); (EVar "t2_aaaa"); (EVar "t2_aaaa"); (EVar "t2_aaaa")]));
   (*L2415*) SAug true "quadruples_res" (EAdd (EScale (1 # 1) (EVar "contracted_intermediate")) (EScale (-1 # 1) (EEins "abcdijkl->abcdkjil" [(EVar "contracted_intermediate")])));
   (*L2418*) SAssign "contracted_intermediate" (EScale (1 # 1) (EEins "nmef,ebjl,cfkm,adin->abcdijkl" [(ESlice (EVar "g_abab") [SV "o"; SV "o"; SV "v"; SV "v"]); (EVar "t2_aaaa"); (EVar "t2_abab"); (EVar "t2_aaaa")]));
   (*L2419*) SAug true "quadruples_res" (EAdd (EScale (1 # 1) (EVar "contracted_intermediate")) (EScale (-1 # 1) (EEins "abcdijkl->abcdkjil" [(EVar "contracted_intermediate")])));
   (*L2422*) SAssign "contracted_intermediate" (EScale (1 # 1) (EEins "nmef,ebil,fckm,adjn->abcdijkl" [(ESlice (EVar "g_aaaa") [SV "o"; SV "o"; SV "v"; SV "v"]); (EVar "t2_aaaa"); (EVar "t2_aaaa"); (EVar "t2_aaaa")]));
   (*L2423*) SAug true "quadruples_res" (EAdd (EScale (1 # 1) (EVar "contracted_intermediate")) (EScale (-1 # 1) (EEins "abcdijkl->abcdikjl" [(EVar "contracted_intermediate")])));
   (*L2426*) SAssign "contracted_intermediate" (EScale (-1 # 1) (EEins "nmef,ebil,cfkm,adjn->abcdijkl" [(ESlice (EVar "g_abab") [SV "o"; SV "o"; SV "v"; SV "v"]); (EVar "t2_aaaa"); (EVar "t2_abab"); (EVar "t2_aaaa")]));
   (*L2427*) SAug true "quadruples_res" (EAdd (EScale (1 # 1) (EVar "contracted_intermediate")) (EScale (-1 # 1) (EEins "abcdijkl->abcdikjl" [(EVar "contracted_intermediate")])));
   (*L2430*) SAssign "contracted_intermediate" (EScale (-1 # 2) (EEins "nmef,ebil,fcjk,adnm->abcdijkl" [(ESlice (EVar "g_aaaa") [SV "o"; SV "o"; SV "v"; SV "v"]); (EVar "t2_aaaa"); (EVar "t2_aaaa"); (EVar "t2_aaaa")]));
   (*L2431*) SAug true "quadruples_res" (EAdd (EScale (1 # 1) (EVar "contracted_intermediate")) (EScale (-1 # 1) (EEins "abcdijkl->abcdijlk" [(EVar "contracted_intermediate")])));
   (*L2434*) SAssign "contracted_intermediate" (EScale (1 # 1) (EEins "nmef,ebjk,fclm,adin->abcdijkl" [(ESlice (EVar "g_aaaa") [SV "o"; SV "o"; SV "v"; SV "v"]); (EVar "t2_aaaa"); (EVar "t2_aaaa"); (EVar "t2_aaaa")]));
   (*L2435*) SAug true "quadruples_res" (EAdd (EScale (1 # 1) (EVar "contracted_intermediate")) (EScale (-1 # 1) (EEins "abcdijkl->abcdljki" [(EVar "contracted_intermediate")])));
   (*L2438*) SAssign "contracted_intermediate" (EScale (-1 # 1) (EEins "nmef,ebjk,cflm,adin->abcdijkl" [(ESlice (EVar "g_abab") [SV "o"; SV "o"; SV "v"; SV "v"]); (EVar "t2_aaaa"); (EVar "t2_abab"); (EVar "t2_aaaa")]));
   (*L2439*) SAug true "quadruples_res" (EAdd (EScale (1 # 1) (EVar "contracted_intermediate")) (EScale (-1 # 1) (EEins "abcdijkl->abcdljki" [(EVar "contracted_intermediate")])));
   (*L2442*) SAssign "contracted_intermediate" (EScale (-1 # 2) (EEins "nmef,ebjk,fcil,adnm->abcdijkl" [(ESlice (EVar "g_aaaa") [SV "o"; SV "o"; SV "v"; SV "v"]); (EVar "t2_aaaa"); (EVar "t2_aaaa"); (EVar "t2_aaaa")]));
   (*L2443*) SAug true "quadruples_res" (EAdd (EScale (1 # 1) (EVar "contracted_intermediate")) (EScale (-1 # 1) (EEins "abcdijkl->abcdkjil" [(EVar "contracted_intermediate")])));
   (*L2446*) SAssign "contracted_intermediate" (EScale (-1 # 1) (EEins "nmef,ebik,fclm,adjn->abcdijkl" [(ESlice (EVar "g_aaaa") [SV "o"; SV "o"; SV "v"; SV "v"]); (EVar "t2_aaaa"); (EVar "t2_aaaa"); (EVar "t2_aaaa")]));
   (*L2447*) SAug true "quadruples_res" (EAdd (EScale (1 # 1) (EVar "contracted_intermediate")) (EScale (-1 # 1) (EEins "abcdijkl->abcdilkj" [(EVar "contracted_intermediate")])));
   (*L2450*) SAssign "contracted_intermediate" (EScale (1 # 1) (EEins "nmef,ebik,cflm,adjn->abcdijkl" [(ESlice (EVar "g_abab") [SV "o"; SV "o"; SV "v"; SV "v"]); (EVar "t2_aaaa"); (EVar "t2_abab"); (EVar "t2_aaaa")]));
   (*L2451*) SAug true "quadruples_res" (EAdd (EScale (1 # 1) (EVar "contracted_intermediate")) (EScale (-1 # 1) (EEins "abcdijkl->abcdilkj" [(EVar "contracted_intermediate")])));
   (*L2454*) SAssign "contracted_intermediate" (EScale (1 # 1) (EEins "nmef,ebij,fclm,adkn->abcdijkl" [(ESlice (EVar "g_aaaa") [SV "o"; SV "o"; SV "v"; SV "v"]); (EVar "t2_aaaa"); (EVar "t2_aaaa"); (EVar "t2_aaaa")]));
   (*L2455*) SAug true "quadruples_res" (EAdd (EScale (1 # 1) (EVar "contracted_intermediate")) (EScale (-1 # 1) (EEins "abcdijkl->abcdijlk" [(EVar "contracted_intermediate")])));
   (*L2458*) SAssign "contracted_intermediate" (EScale (-1 # 1) (EEins "nmef,ebij,cflm,adkn->abcdijkl" [(ESlice (EVar "g_abab") [SV "o"; SV "o"; SV "v"; SV "v"]); (EVar "t2_aaaa"); (EVar "t2_abab"); (EVar "t2_aaaa")]));
   (*L2459*) SAug true "quadruples_res" (EAdd (EScale (1 # 1) (EVar "contracted_intermediate")) (EScale (-1 # 1) (EEins "abcdijkl->abcdijlk" [(EVar "contracted_intermediate")])));
   (*L2462*) SAssign "contracted_intermediate" (EScale (1 # 1) (EEins "nmef,eclm,fdjk,abin->abcdijkl" [(ESlice (EVar "g_aaaa") [SV "o"; SV "o"; SV "v"; SV "v"]); (EVar "t2_aaaa"); (EVar "t2_aaaa"); (EVar "t2_aaaa")]));
   (*L2463*) SAug true "quadruples_res" (EAdd (EScale (1 # 1) (EVar "contracted_intermediate")) (EScale (-1 # 1) (EEins "abcdijkl->abcdjikl" [(EVar "contracted_intermediate")])));
   (*L2466*) SAssign "contracted_intermediate" (EScale (1 # 1) (EEins "nmfe,celm,fdjk,abin->abcdijkl" [(ESlice (EVar "g_abab") [SV "o"; SV "o"; SV "v"; SV "v"]); (EVar "t2_abab"); (EVar "t2_aaaa"); (EVar "t2_aaaa")]));
   (*L2467*) SAug true "quadruples_res" (EAdd (EScale (1 # 1) (EVar "contracted_intermediate")) (EScale (-1 # 1) (EEins "abcdijkl->abcdjikl" [(EVar "contracted_intermediate")])));
   (*L2470*) SAssign "contracted_intermediate" (EScale (1 # 1) (EEins "nmef,eclm,fdij,abkn->abcdijkl" [(ESlice (EVar "g_aaaa") [SV "o"; SV "o"; SV "v"; SV "v"]); (EVar "t2_aaaa"); (EVar "t2_aaaa"); (EVar "t2_aaaa")]));
   (*L2471*) SAug true "quadruples_res" (EAdd (EScale (1 # 1) (EVar "contracted_intermediate")) (EScale (-1 # 1) (EEins "abcdijkl->abcdijlk" [(EVar "contracted_intermediate")])));
   (*L2474*) SAssign "contracted_intermediate" (EScale (1 # 1) (EEins "nmfe,celm,fdij,abkn->abcdijkl" [(ESlice (EVar "g_abab") [SV "o"; SV "o"; SV "v"; SV "v"]); (EVar "t2_abab"); (EVar "t2_aaaa"); (EVar "t2_aaaa")]));
   (*L2475*) SAug true "quadruples_res" (EAdd (EScale (1 # 1) (EVar "contracted_intermediate")) (EScale (-1 # 1) (EEins "abcdijkl->abcdijlk" [(EVar "contracted_intermediate")])));
   (*L2478*) SAssign "contracted_intermediate" (EScale (-1 # 1) (EEins "nmef,eckm,fdjl,abin->abcdijkl" [(ESlice (EVar "g_aaaa") [SV "o"; SV "o"; SV "v"; SV "v"]); (EVar "t2_aaaa"); (EVar "t2_aaaa"); (EVar "t2_aaaa")]));
   (*L2479*) SAug true "quadruples_res" (EAdd (EScale (1 # 1) (EVar "contracted_intermediate")) (EScale (-1 # 1) (EEins "abcdijkl->abcdjikl" [(EVar "contracted_intermediate")])));
   (*L2482*) SAssign "contracted_intermediate" (EScale (-1 # 1) (EEins "nmfe,cekm,fdjl,abin->abcdijkl" [(ESlice (EVar "g_abab") [SV "o"; SV "o"; SV "v"; SV "v"]); (EVar "t2_abab"); (EVar "t2_aaaa"); (EVar "t2_aaaa")]));
   (*L2483*) SAug true "quadruples_res" (EAdd (EScale (1 # 1) (EVar "contracted_intermediate")) (EScale (-1 # 1) (EEins "abcdijkl->abcdjikl" [(EVar "contracted_intermediate")])));
   (*L2486*) SAssign "contracted_intermediate" (EScale (1 # 1) (EEins "nmef,ecjm,fdkl,abin->abcdijkl" [(ESlice (EVar "g_aaaa") [SV "o"; SV "o"; SV "v"; SV "v"]); (EVar "t2_aaaa"); (EVar "t2_aaaa"); (EVar "t2_aaaa")]));
   (*L2487*) SAug true "quadruples_res" (EAdd (EScale (1 # 1) (EVar "contracted_intermediate")) (EScale (-1 # 1) (EEins "abcdijkl->abcdkjil" [(EVar "contracted_intermediate")])));
   (*L2490*) SAssign "contracted_intermediate" (EScale (1 # 1) (EEins "nmfe,cejm,fdkl,abin->abcdijkl" [(ESlice (EVar "g_abab") [SV "o"; SV "o"; SV "v"; SV "v"]); (EVar "t2_abab"); (EVar "t2_aaaa"); (EVar "t2_aaaa")]));
   (*L2491*) SAug true "quadruples_res" (EAdd (EScale (1 # 1) (EVar "contracted_intermediate")) (EScale (-1 # 1) (EEins "abcdijkl->abcdkjil" [(EVar "contracted_intermediate")])));
   (*L2494*) SAssign "contracted_intermediate" (EScale (1 # 1) (EEins "nmef,ecjm,fdik,abln->abcdijkl" [(ESlice (EVar "g_aaaa") [SV "o"; SV "o"; SV "v"; SV "v"]); (EVar "t2_aaaa"); (EVar "t2_aaaa"); (EVar "t2_aaaa")]));
   (*L2495*) SAug true "quadruples_res" (EAdd (EScale (1 # 1) (EVar "contracted_intermediate")) (EScale (-1 # 1) (EEins "abcdijkl->abcdjikl" [(EVar "contracted_intermediate")])));
   (*L2498*) SAssign "contracted_intermediate" (EScale (1 # 1) (EEins "nmfe,cejm,fdik,abln->abcdijkl" [(ESlice (EVar "g_abab") [SV "o"; SV "o"; SV "v"; SV "v"]); (EVar "t2_abab"); (EVar "t2_aaaa"); (EVar "t2_aaaa")]));
   (*L2499*) SAug true "quadruples_res" (EAdd (EScale (1 # 1) (EVar "contracted_intermediate")) (EScale (-1 # 1) (EEins "abcdijkl->abcdjikl" [(EVar "contracted_intermediate")])));
   (*L2502*) SAssign "contracted_intermediate" (EScale (-1 # 1) (EEins "nmef,ecim,fdkl,abjn->abcdijkl" [(ESlice (EVar "g_aaaa") [SV "o"; SV "o"; SV "v"; SV "v"]); (EVar "t2_aaaa"); (EVar "t2_aaaa"); (EVar "t2_aaaa")]));
   (*L2503*) SAug true "quadruples_res" (EAdd (EScale (1 # 1) (EVar "contracted_intermediate")) (EScale (-1 # 1) (EEins "abcdijkl->abcdikjl" [(EVar "contracted_intermediate")])));
   (*L2506*) SAssign "contracted_intermediate" (EScale (-1 # 1) (EEins "nmfe,ceim,fdkl,abjn->abcdijkl" [(ESlice (EVar "g_abab") [SV "o"; SV "o"; SV "v"; SV "v"]); (EVar "t2_abab"); (EVar "t2_aaaa"); (EVar "t2_aaaa")]));
   (*L2507*) SAug true "quadruples_res" (EAdd (EScale (1 # 1) (EVar "contracted_intermediate")) (EScale (-1 # 1) (EEins "abcdijkl->abcdikjl" [(EVar "contracted_intermediate")])));
   (*L2510*) SAssign "contracted_intermediate" (EScale (1 # 1) (EEins "nmef,eckl,fdjm,abin->abcdijkl" [(ESlice (EVar "g_aaaa") [SV "o"; SV "o"; SV "v"; SV "v"]); (EVar "t2_aaaa"); (EVar "t2_aaaa"); (EVar "t2_aaaa")]));
   (*L2511*) SAug true "quadruples_res" (EAdd (EScale (1 # 1) (EVar "contracted_intermediate")) (EScale (-1 # 1) (EEins "abcdijkl->abcdjikl" [(EVar "contracted_intermediate")])));
   (*L2514*) SAssign "contracted_intermediate" (EScale (-1 # 1) (EEins "nmef,eckl,dfjm,abin->abcdijkl" [(ESlice (EVar "g_abab") [SV "o"; SV "o"; SV "v"; SV "v"]); (EVar "t2_aaaa"); (EVar "t2_abab"); (EVar "t2_aaaa")]));
   (*L2515*) SAug true "quadruples_res" (EAdd (EScale (1 # 1) (EVar "contracted_intermediate")) (EScale (-1 # 1) (EEins "abcdijkl->abcdjikl" [(EVar "contracted_intermediate")])));
   (*L2518*) SAssign "contracted_intermediate" (EScale (-1 # 2) (EEins "nmef,eckl,fdij,abnm->abcdijkl" [(ESlice (EVar "g_aaaa") [SV "o"; SV "o"; SV "v"; SV "v"]); (EVar "t2_aaaa"); (EVar "t2_aaaa"); (EVar "t2_aaaa")]));
   (*L2519*) SAug true "quadruples_res" (EAdd (EScale (1 # 1) (EVar "contracted_intermediate")) (EScale (-1 # 1) (EEins "abcdijkl->abcdikjl" [(EVar "contracted_intermediate")])));
   (*L2522*) SAssign "contracted_intermediate" (EScale (-1 # 1) (EEins "nmef,ecjl,fdkm,abin->abcdijkl" [(ESlice (EVar "g_aaaa") [SV "o"; SV "o"; SV "v"; SV "v"]); (EVar "t2_aaaa"); (EVar "t2_aaaa"); (EVar "t2_aaaa")]));
   (*L2523*) SAug true "quadruples_res" (EAdd (EScale (1 # 1) (EVar "contracted_intermediate")) (EScale (-1 # 1) (EEins "abcdijkl->abcdkjil" [(EVar "contracted_intermediate")])));
   (*L2526*) SAssign "contracted_intermediate" (EScale (1 # 1) (EEins "nmef,ecjl,dfkm,abin->abcdijkl" [(ESlice (EVar "g_abab") [SV "o"; SV "o"; SV "v"; SV "v"]); (EVar "t2_aaaa"); (EVar "t2_abab"); (EVar "t2_aaaa")]));
   (*L2527*) SAug true "quadruples_res" (EAdd (EScale (1 # 1) (EVar "contracted_intermediate")) (EScale (-1 # 1) (EEins "abcdijkl->abcdkjil" [(EVar "contracted_intermediate")])));
   (*L2530*) SAssign "contracted_intermediate" (EScale (1 # 1) (EEins "nmef,ecil,fdkm,abjn->abcdijkl" [(ESlice (EVar "g_aaaa") [SV "o"; SV "o"; SV "v"; SV "v"]); (EVar "t2_aaaa"); (EVar "t2_aaaa"); (EVar "t2_aaaa")]));
   (*L2531*) SAug true "quadruples_res" (EAdd (EScale (1 # 1) (EVar "contracted_intermediate")) (EScale (-1 # 1) (EEins "abcdijkl->abcdikjl" [(EVar "contracted_intermediate")])));
   (*L2534*) SAssign "contracted_intermediate" (EScale (-1 # 1) (EEins "nmef,ecil,dfkm,abjn->abcdijkl" [(ESlice (EVar "g_abab") [SV "o"; SV "o"; SV "v"; SV "v"]); (EVar "t2_aaaa"); (EVar "t2_abab"); (EVar "t2_aaaa")]));
   (*L2535*) SAug true "quadruples_res" (EAdd (EScale (1 # 1) (EVar "contracted_intermediate")) (EScale (-1 # 1) (EEins "abcdijkl->abcdikjl" [(EVar "contracted_intermediate")])));
   (*L2538*) SAssign "contracted_intermediate" (EScale (-1 # 2) (EEins "nmef,ecil,fdjk,abnm->abcdijkl" [(ESlice (EVar "g_aaaa") [SV "o"; SV "o"; SV "v"; SV "v"]); (EVar "t2_aaaa"); (EVar "t2_aaaa"); (EVar "t2_aaaa")]));
   (*L2539*) SAug true "quadruples_res" (EAdd (EScale (1 # 1) (EVar "contracted_intermediate")) (EScale (-1 # 1) (EEins "abcdijkl->abcdijlk" [(EVar "contracted_intermediate")])));
   (*L2542*) SAssign "contracted_intermediate" (EScale (1 # 1) (EEins "nmef,ecjk,fdlm,abin->abcdijkl" [(ESlice (EVar "g_aaaa") [SV "o"; SV "o"; SV "v"; SV "v"]); (EVar "t2_aaaa"); (EVar "t2_aaaa"); (EVar "t2_aaaa")]));
   (*L2543*) SAug true "quadruples_res" (EAdd (EScale (1 # 1) (EVar "contracted_intermediate")) (EScale (-1 # 1) (EEins "abcdijkl->abcdljki" [(EVar "contracted_intermediate")])));
   (*L2546*) SAssign "contracted_intermediate" (EScale (-1 # 1) (EEins "nmef,ecjk,dflm,abin->abcdijkl" [(ESlice (EVar "g_abab") [SV "o"; SV "o"; SV "v"; SV "v"]); (EVar "t2_aaaa"); (EVar "t2_abab"); (EVar "t2_aaaa")]));
   (*L2547*) SAug true "quadruples_res" (EAdd (EScale (1 # 1) (EVar "contracted_intermediate")) (EScale (-1 # 1) (EEins "abcdijkl->abcdljki" [(EVar "contracted_intermediate")])));
   (*L2550*) SAssign "contracted_intermediate" (EScale (-1 # 2) (EEins "nmef,ecjk,fdil,abnm->abcdijkl" [(ESlice (EVar "g_aaaa") [SV "o"; SV "o"; SV "v"; SV "v"]); (EVar "t2_aaaa"); (EVar "t2_aaaa"); (EVar "t2_aaaa")]));
   (*L2551*) SAug true "quadruples_res" (EAdd (EScale (1 # 1) (EVar "contracted_intermediate")) (EScale (-1 # 1) (EEins "abcdijkl->abcdkjil" [(EVar "contracted_intermediate")])));
   (*L2554*) SAssign "contracted_intermediate" (EScale (-1 # 1) (EEins "nmef,ecik,fdlm,abjn->abcdijkl" [(ESlice (EVar "g_aaaa") [SV "o"; SV "o"; SV "v"; SV "v"]); (EVar "t2_aaaa"); (EVar "t2_aaaa"); (EVar "t2_aaaa")]));
   (*L2555*) SAug true "quadruples_res" (EAdd (EScale (1 # 1) (EVar "contracted_intermediate")) (EScale (-1 # 1) (EEins "abcdijkl->abcdilkj" [(EVar "contracted_intermediate")])));
   (*L2558*) SAssign "contracted_intermediate" (EScale (1 # 1) (EEins "nmef,ecik,dflm,abjn->abcdijkl" [(ESlice (EVar "g_abab") [SV "o"; SV "o"; SV "v"; SV "v"]); (EVar "t2_aaaa"); (EVar "t2_abab"); (EVar "t2_aaaa")]));
   (*L2559*) SAug true "quadruples_res" (EAdd (EScale (1 # 1) (EVar "contracted_intermediate")) (EScale (-1 # 1) (EEins "abcdijkl->abcdilkj" [(EVar "contracted_intermediate")])));
   (*L2562*) SAssign "contracted_intermediate" (EScale (1 # 1) (EEins "nmef,ecij,fdlm,abkn->abcdijkl" [(ESlice (EVar "g_aaaa") [SV "o"; SV "o"; SV "v"; SV "v"]); (EVar "t2_aaaa"); (EVar "t2_aaaa"); (EVar "t2_aaaa")]));
   (*L2563*) SAug true "quadruples_res" (EAdd (EScale (1 # 1) (EVar "contracted_intermediate")) (EScale (-1 # 1) (EEins "abcdijkl->abcdijlk" [(EVar "contracted_intermediate")])));
   (*L2566*) SAssign "contracted_intermediate" (EScale (-1 # 1) (EEins "nmef,ecij,dflm,abkn->abcdijkl" [(ESlice (EVar "g_abab") [SV "o"; SV "o"; SV "v"; SV "v"]); (EVar "t2_aaaa"); (EVar "t2_abab"); (EVar "t2_aaaa")]));
   (*L2567*) SAug true "quadruples_res" (EAdd (EScale (1 # 1) (EVar "contracted_intermediate")) (EScale (-1 # 1) (EEins "abcdijkl->abcdijlk" [(EVar "contracted_intermediate")])))]
  (*L2569*) (EVar "quadruples_res").

(** /repo/UT2/fullCCenergy.py:2572-3045  def ccsdtqT2cubed_t4_aaabaaab_residual *)
Definition ccsdtqT2cubed_t4_aaabaaab_residual : fn := mkFn
  ["t1_aa"; "t1_bb"; "t2_aaaa"; "t2_bbbb"; "t2_abab"; "t3_aaaaaa"; "t3_aabaab"; "t3_abbabb"; "t3_bbbbbb"; "t4_aaaaaaaa"; "t4_aaabaaab"; "t4_aabbaabb"; "t4_abbbabbb"; "t4_bbbbbbbb"; "f_aa"; "f_bb"; "g_aaaa"; "g_bbbb"; "g_abab"; "oa"; "ob"; "va"; "vb"]
  [(*L2580*) SAssign "o" (EVar "oa");
   (*L2581*) SAssign "v" (EVar "va");
   (*L2584*) SAssign "contracted_intermediate" (EScale (1 # 2) (EEins "mnef,efkl,abjm,cdin->abcdijkl" [(ESlice (EVar "g_abab") [SV "o"; SV "o"; SV "v"; SV "v"]); (EVar "t2_abab"); (EVar "t2_aaaa"); (EVar "t2_abab")]));
   (*L2585*) SAssign "quadruples_res" (EAdd (EAdd (EAdd (EScale (1 # 1) (EVar "contracted_intermediate")) (EScale (-1 # 1) (EEins "abcdijkl->abcdjikl" [(EVar "contracted_intermediate")]))) (EScale (-1 # 1) (EEins "abcdijkl->acbdijkl" [(EVar "contracted_intermediate")]))) (EScale (1 # 1) (EEins "abcdijkl->acbdjikl" [(EVar "contracted_intermediate")])));
   (*L2588*) SAssign "contracted_intermediate" (EScale (1 # 2) (EEins "mnfe,fekl,abjm,cdin->abcdijkl" [(ESlice (EVar "g_abab") [SV "o"; SV "o"; SV "v"; SV "v"]); (EVar "t2_abab"); (EVar "t2_aaaa"); (EVar "t2_abab")]));
   (*L2589*) SAug true "quadruples_res" (EAdd (EAdd (EAdd (EScale (1 # 1) (EVar "contracted_intermediate")) (EScale (-1 # 1) (EEins "abcdijkl->abcdjikl" [(EVar "contracted_intermediate")]))) (EScale (-1 # 1) (EEins "abcdijkl->acbdijkl" [(EVar "contracted_intermediate")]))) (EScale (1 # 1) (EEins "abcdijkl->acbdjikl" [(EVar "contracted_intermediate")])));
   (*L2592*) SAssign "contracted_intermediate" (EScale (-1 # 2) (EEins "nmef,efkl,adjm,bcin->abcdijkl" [(ESlice (EVar "g_abab") [SV "o"; SV "o"; SV "v"; SV "v"]); (EVar "t2_abab"); (EVar "t2_abab"); (EVar "t2_aaaa")]));
   (*L2593*) SAug true "quadruples_res" (EAdd (EScale (1 # 1) (EVar "contracted_intermediate")) (EScale (-1 # 1) (EEins "abcdijkl->abcdjikl" [(EVar "contracted_intermediate")])));
   (*L2596*) SAssign "contracted_intermediate" (EScale (-1 # 2) (EEins "nmfe,fekl,adjm,bcin->abcdijkl" [(ESlice (EVar "g_abab") [SV "o"; SV "o"; SV "v"; SV "v"]); (EVar "t2_abab"); (EVar "t2_abab"); (EVar "t2_aaaa")]));
   (*L2597*) SAug true "quadruples_res" (EAdd (EScale (1 # 1) (EVar "contracted_intermediate")) (EScale (-1 # 1) (EEins "abcdijkl->abcdjikl" [(EVar "contracted_intermediate")])));
   (*L2600*) SAssign "contracted_intermediate" (EScale (-1 # 2) (EEins "mnef,efjl,abkm,cdin->abcdijkl" [(ESlice (EVar "g_abab") [SV "o"; SV "o"; SV "v"; SV "v"]); (EVar "t2_abab"); (EVar "t2_aaaa"); (EVar "t2_abab")]));
   (*L2601*) SAug true "quadruples_res" (EAdd (EAdd (EAdd (EScale (1 # 1) (EVar "contracted_intermediate")) (EScale (-1 # 1) (EEins "abcdijkl->abcdkjil" [(EVar "contracted_intermediate")]))) (EScale (-1 # 1) (EEins "abcdijkl->acbdijkl" [(EVar "contracted_intermediate")]))) (EScale (1 # 1) (EEins "abcdijkl->acbdkjil" [(EVar "contracted_intermediate")])));
   (*L2604*) SAssign "contracted_intermediate" (EScale (-1 # 2) (EEins "mnfe,fejl,abkm,cdin->abcdijkl" [(ESlice (EVar "g_abab") [SV "o"; SV "o"; SV "v"; SV "v"]); (EVar "t2_abab"); (EVar "t2_aaaa"); (EVar "t2_abab")]));
   (*L2605*) SAug true "quadruples_res" (EAdd (EAdd (EAdd (EScale (1 # 1) (EVar "contracted_intermediate")) (EScale (-1 # 1) (EEins "abcdijkl->abcdkjil" [(EVar "contracted_intermediate")]))) (EScale (-1 # 1) (EEins "abcdijkl->acbdijkl" [(EVar "contracted_intermediate")]))) (EScale (1 # 1) (EEins "abcdijkl->acbdkjil" [(EVar "contracted_intermediate")])));
   (*L2608*) SAssign "contracted_intermediate" (EScale (1 # 2) (EEins "nmef,efjl,adkm,bcin->abcdijkl" [(ESlice (EVar "g_abab") [SV "o"; SV "o"; SV "v"; SV "v"]); (EVar "t2_abab"); (EVar "t2_abab"); (EVar "t2_aaaa")]));
   (*L2609*) SAug true "quadruples_res" (EAdd (EScale (1 # 1) (EVar "contracted_intermediate")) (EScale (-1 # 1) (EEins "abcdijkl->abcdkjil" [(EVar "contracted_intermediate")])));
   (*L2612*) SAssign "contracted_intermediate" (EScale (1 # 2) (EEins "nmfe,fejl,adkm,bcin->abcdijkl" [(ESlice (EVar "g_abab") [SV "o"; SV "o"; SV "v"; SV "v"]); (EVar "t2_abab"); (EVar "t2_abab"); (EVar "t2_aaaa")]));
   (*L2613*) SAug true "quadruples_res" (EAdd (EScale (1 # 1) (EVar "contracted_intermediate")) (EScale (-1 # 1) (EEins "abcdijkl->abcdkjil" [(EVar "contracted_intermediate")])));
   (*L2616*) SAssign "contracted_intermediate" (EScale (1 # 2) (EEins "mnef,efil,abkm,cdjn->abcdijkl" [(ESlice (EVar "g_abab") [SV "o"; SV "o"; SV "v"; SV "v"]); (EVar "t2_abab"); (EVar "t2_aaaa"); (EVar "t2_abab")]));
   (*L2617*) SAug true "quadruples_res" (EAdd (EAdd (EAdd (EScale (1 # 1) (EVar "contracted_intermediate")) (EScale (-1 # 1) (EEins "abcdijkl->abcdikjl" [(EVar "contracted_intermediate")]))) (EScale (-1 # 1) (EEins "abcdijkl->acbdijkl" [(EVar "contracted_intermediate")]))) (EScale (1 # 1) (EEins "abcdijkl->acbdikjl" [(EVar "contracted_intermediate")])));
   (*L2620*) SAssign "contracted_intermediate" (EScale (1 # 2) (EEins "mnfe,feil,abkm,cdjn->abcdijkl" [(ESlice (EVar "g_abab") [SV "o"; SV "o"; SV "v"; SV "v"]); (EVar "t2_abab"); (EVar "t2_aaaa"); (EVar "t2_abab")]));
   (*L2621*) SAug true "quadruples_res" (EAdd (EAdd (EAdd (EScale (1 # 1) (EVar "contracted_intermediate")) (EScale (-1 # 1) (EEins "abcdijkl->abcdikjl" [(EVar "contracted_intermediate")]))) (EScale (-1 # 1) (EEins "abcdijkl->acbdijkl" [(EVar "contracted_intermediate")]))) (EScale (1 # 1) (EEins "abcdijkl->acbdikjl" [(EVar "contracted_intermediate")])));
   (*L2624*) SAssign "contracted_intermediate" (EScale (-1 # 2) (EEins "nmef,efil,adkm,bcjn->abcdijkl" [(ESlice (EVar "g_abab") [SV "o"; SV "o"; SV "v"; SV "v"]); (EVar "t2_abab"); (EVar "t2_abab"); (EVar "t2_aaaa")]));
   (*L2625*) SAug true "quadruples_res" (EAdd (EScale (1 # 1) (EVar "contracted_intermediate")) (EScale (-1 # 1) (EEins "abcdijkl->abcdikjl" [(EVar "contracted_intermediate")])));
   (*L2628*) SAssign "contracted_intermediate" (EScale (-1 # 2) (EEins "nmfe,feil,adkm,bcjn->abcdijkl" [(ESlice (EVar "g_abab") [SV "o"; SV "o"; SV "v"; SV "v"]); (EVar "t2_abab"); (EVar "t2_abab"); (EVar "t2_aaaa")]));
   (*L2629*) SAug true "quadruples_res" (EAdd (EScale (1 # 1) (EVar "contracted_intermediate")) (EScale (-1 # 1) (EEins "abcdijkl->abcdikjl" [(EVar "contracted_intermediate")])));
   (*L2632*) SAssign "contracted_intermediate" (EScale (-1 # 2) (EEins "nmef,efjk,abim,cdnl->abcdijkl" [(ESlice (EVar "g_aaaa") [SV "o"; SV "o"; SV "v"; SV "v"]); (EVar "t2_aaaa"); (EVar "t2_aaaa"); (EVar "t2_abab")]));
   (*L2633*) SAug true "quadruples_res" (EAdd (EScale (1 # 1) (EVar "contracted_intermediate")) (EScale (-1 # 1) (EEins "abcdijkl->acbdijkl" [(EVar "contracted_intermediate")])));
   (*L2636*) SAug true "quadruples_res" (EScale (1 # 2) (EEins "nmef,efjk,adml,bcin->abcdijkl" [(ESlice (EVar "g_aaaa") [SV "o"; SV "o"; SV "v"; SV "v"]); (EVar "t2_aaaa"); (EVar "t2_abab"); (EVar "t2_aaaa")]));
   (*L2639*) SAssign "contracted_intermediate" (EScale (1 # 2) (EEins "nmef,efik,abjm,cdnl->abcdijkl" [(ESlice (EVar "g_aaaa") [SV "o"; SV "o"; SV "v"; SV "v"]); (EVar "t2_aaaa"); (EVar "t2_aaaa"); (EVar "t2_abab")]));
   (*L2640*) SAug true "quadruples_res" (EAdd (EScale (1 # 1) (EVar "contracted_intermediate")) (EScale (-1 # 1) (EEins "abcdijkl->acbdijkl" [(EVar "contracted_intermediate")])));
   (*L2643*) SAug true "quadruples_res" (EScale (-1 # 2) (EEins "nmef,efik,adml,bcjn->abcdijkl" [(ESlice (EVar "g_aaaa") [SV "o"; SV "o"; SV "v"; SV "v"]); (EVar "t2_aaaa"); (EVar "t2_abab"); (EVar "t2_aaaa")]));
   (*L2646*) SAssign "contracted_intermediate" (EScale (-1 # 2) (EEins "nmef,efij,abkm,cdnl->abcdijkl" [(ESlice (EVar "g_aaaa") [SV "o"; SV "o"; SV "v"; SV "v"]); (EVar "t2_aaaa"); (EVar "t2_aaaa"); (EVar "t2_abab")]));
   (*L2647*) SAug true "quadruples_res" (EAdd (EScale (1 # 1) (EVar "contracted_intermediate")) (EScale (-1 # 1) (EEins "abcdijkl->acbdijkl" [(EVar "contracted_intermediate")])));
   (*L2650*) SAug true "quadruples_res" (EScale (1 # 2) (EEins "nmef,efij,adml,bckn->abcdijkl" [(ESlice (EVar "g_aaaa") [SV "o"; SV "o"; SV "v"; SV "v"]); (EVar "t2_aaaa"); (EVar "t2_abab"); (EVar "t2_aaaa")]));
   (*L2653*) SAssign "contracted_intermediate" (EScale (1 # 1) (EEins "mnfe,aeml,fbjk,cdin->abcdijkl" [(ESlice (EVar "g_abab") [SV "o"; SV "o"; SV "v"; SV "v"]); (EVar "t2_abab"); (EVar "t2_aaaa"); (EVar "t2_abab")]));
   (*L2654*) SAug true "quadruples_res" (EAdd (EAdd (EAdd (EScale (1 # 1) (EVar "contracted_intermediate")) (EScale (-1 # 1) (EEins "abcdijkl->abcdjikl" [(EVar "contracted_intermediate")]))) (EScale (-1 # 1) (EEins "abcdijkl->acbdijkl" [(EVar "contracted_intermediate")]))) (EScale (1 # 1) (EEins "abcdijkl->acbdjikl" [(EVar "contracted_intermediate")])));
   (*L2657*) SAssign "contracted_intermediate" (EScale (1 # 1) (EEins "mnfe,aeml,fbij,cdkn->abcdijkl" [(ESlice (EVar "g_abab") [SV "o"; SV "o"; SV "v"; SV "v"]); (EVar "t2_abab"); (EVar "t2_aaaa"); (EVar "t2_abab")]));
   (*L2658*) SAug true "quadruples_res" (EAdd (EScale (1 # 1) (EVar "contracted_intermediate")) (EScale (-1 # 1) (EEins "abcdijkl->acbdijkl" [(EVar "contracted_intermediate")])));
   (*L2661*) SAssign "contracted_intermediate" (EScale (1 # 1) (EEins "nmef,eakm,fbij,cdnl->abcdijkl" [(ESlice (EVar "g_aaaa") [SV "o"; SV "o"; SV "v"; SV "v"]); (EVar "t2_aaaa"); (EVar "t2_aaaa"); (EVar "t2_abab")]));
   (*L2662*) SAug true "quadruples_res" (EAdd (EScale (1 # 1) (EVar "contracted_intermediate")) (EScale (-1 # 1) (EEins "abcdijkl->acbdijkl" [(EVar "contracted_intermediate")])));
   (*L2665*) SAssign "contracted_intermediate" (EScale (1 # 1) (EEins "nmfe,aekm,fbij,cdnl->abcdijkl" [(ESlice (EVar "g_abab") [SV "o"; SV "o"; SV "v"; SV "v"]); (EVar "t2_abab"); (EVar "t2_aaaa"); (EVar "t2_abab")]));
   (*L2666*) SAug true "quadruples_res" (EAdd (EScale (1 # 1) (EVar "contracted_intermediate")) (EScale (-1 # 1) (EEins "abcdijkl->acbdijkl" [(EVar "contracted_intermediate")])));
   (*L2669*) SAssign "contracted_intermediate" (EScale (-1 # 1) (EEins "mnef,eakm,bfjl,cdin->abcdijkl" [(ESlice (EVar "g_abab") [SV "o"; SV "o"; SV "v"; SV "v"]); (EVar "t2_aaaa"); (EVar "t2_abab"); (EVar "t2_abab")]));
   (*L2670*) SAug true "quadruples_res" (EAdd (EAdd (EAdd (EScale (1 # 1) (EVar "contracted_intermediate")) (EScale (-1 # 1) (EEins "abcdijkl->abcdjikl" [(EVar "contracted_intermediate")]))) (EScale (-1 # 1) (EEins "abcdijkl->acbdijkl" [(EVar "contracted_intermediate")]))) (EScale (1 # 1) (EEins "abcdijkl->acbdjikl" [(EVar "contracted_intermediate")])));
   (*L2673*) SAssign "contracted_intermediate" (EScale (-1 # 1) (EEins "nmef,aekm,bfjl,cdin->abcdijkl" [(ESlice (EVar "g_bbbb") [SV "o"; SV "o"; SV "v"; SV "v"]); (EVar "t2_abab"); (EVar "t2_abab"); (EVar "t2_abab")]));
   (*L2674*) SAug true "quadruples_res" (EAdd (EAdd (EAdd (EScale (1 # 1) (EVar "contracted_intermediate")) (EScale (-1 # 1) (EEins "abcdijkl->abcdjikl" [(EVar "contracted_intermediate")]))) (EScale (-1 # 1) (EEins "abcdijkl->acbdijkl" [(EVar "contracted_intermediate")]))) (EScale (1 # 1) (EEins "abcdijkl->acbdjikl" [(EVar "contracted_intermediate")])));
   (*L2677*) SAssign "contracted_intermediate" (EScale (-1 # 1) (EEins "nmef,eakm,fdjl,bcin->abcdijkl" [(ESlice (EVar "g_aaaa") [SV "o"; SV "o"; SV "v"; SV "v"]); (EVar "t2_aaaa"); (EVar "t2_abab"); (EVar "t2_aaaa")]));
   (*L2678*) SAug true "quadruples_res" (EAdd (EAdd (EAdd (EScale (1 # 1) (EVar "contracted_intermediate")) (EScale (-1 # 1) (EEins "abcdijkl->abcdjikl" [(EVar "contracted_intermediate")]))) (EScale (-1 # 1) (EEins "abcdijkl->bacdijkl" [(EVar "contracted_intermediate")]))) (EScale (1 # 1) (EEins "abcdijkl->bacdjikl" [(EVar "contracted_intermediate")])));
   (*L2681*) SAssign "contracted_intermediate" (EScale (-1 # 1) (EEins "nmfe,aekm,fdjl,bcin->abcdijkl" [(ESlice (EVar "g_abab") [SV "o"; SV "o"; SV "v"; SV "v"]); (EVar "t2_abab"); (EVar "t2_abab"); (EVar "t2_aaaa")]));
   (*L2682*) SAug true "quadruples_res" (EAdd (EAdd (EAdd (EScale (1 # 1) (EVar "contracted_intermediate")) (EScale (-1 # 1) (EEins "abcdijkl->abcdjikl" [(EVar "contracted_intermediate")]))) (EScale (-1 # 1) (EEins "abcdijkl->bacdijkl" [(EVar "contracted_intermediate")]))) (EScale (1 # 1) (EEins "abcdijkl->bacdjikl" [(EVar "contracted_intermediate")])));
   (*L2685*) SAssign "contracted_intermediate" (EScale (1 # 1) (EEins "mnef,eajm,bfkl,cdin->abcdijkl" [(ESlice (EVar "g_abab") [SV "o"; SV "o"; SV "v"; SV "v"]); (EVar "t2_aaaa"); (EVar "t2_abab"); (EVar "t2_abab")]));
   (*L2686*) SAug true "quadruples_res" (EAdd (EAdd (EAdd (EScale (1 # 1) (EVar "contracted_intermediate")) (EScale (-1 # 1) (EEins "abcdijkl->abcdkjil" [(EVar "contracted_intermediate")]))) (EScale (-1 # 1) (EEins "abcdijkl->acbdijkl" [(EVar "contracted_intermediate")]))) (EScale (1 # 1) (EEins "abcdijkl->acbdkjil" [(EVar "contracted_intermediate")])));
   (*L2689*) SAssign "contracted_intermediate" (EScale (1 # 1) (EEins "nmef,aejm,bfkl,cdin->abcdijkl" [(ESlice (EVar "g_bbbb") [SV "o"; SV "o"; SV "v"; SV "v"]); (EVar "t2_abab"); (EVar "t2_abab"); (EVar "t2_abab")]));
   (*L2690*) SAug true "quadruples_res" (EAdd (EAdd (EAdd (EScale (1 # 1) (EVar "contracted_intermediate")) (EScale (-1 # 1) (EEins "abcdijkl->abcdkjil" [(EVar "contracted_intermediate")]))) (EScale (-1 # 1) (EEins "abcdijkl->acbdijkl" [(EVar "contracted_intermediate")]))) (EScale (1 # 1) (EEins "abcdijkl->acbdkjil" [(EVar "contracted_intermediate")])));
   (*L2693*) SAssign "contracted_intermediate" (EScale (-1 # 1) (EEins "nmef,eajm,fbik,cdnl->abcdijkl" [(ESlice (EVar "g_aaaa") [SV "o"; SV "o"; SV "v"; SV "v"]); (EVar "t2_aaaa"); (EVar "t2_aaaa"); (EVar "t2_abab")]));
   (*L2694*) SAug true "quadruples_res" (EAdd (EAdd (EAdd (EScale (1 # 1) (EVar "contracted_intermediate")) (EScale (-1 # 1) (EEins "abcdijkl->abcdjikl" [(EVar "contracted_intermediate")]))) (EScale (-1 # 1) (EEins "abcdijkl->acbdijkl" [(EVar "contracted_intermediate")]))) (EScale (1 # 1) (EEins "abcdijkl->acbdjikl" [(EVar "contracted_intermediate")])));
   (*L2697*) SAssign "contracted_intermediate" (EScale (-1 # 1) (EEins "nmfe,aejm,fbik,cdnl->abcdijkl" [(ESlice (EVar "g_abab") [SV "o"; SV "o"; SV "v"; SV "v"]); (EVar "t2_abab"); (EVar "t2_aaaa"); (EVar "t2_abab")]));
   (*L2698*) SAug true "quadruples_res" (EAdd (EAdd (EAdd (EScale (1 # 1) (EVar "contracted_intermediate")) (EScale (-1 # 1) (EEins "abcdijkl->abcdjikl" [(EVar "contracted_intermediate")]))) (EScale (-1 # 1) (EEins "abcdijkl->acbdijkl" [(EVar "contracted_intermediate")]))) (EScale (1 # 1) (EEins "abcdijkl->acbdjikl" [(EVar "contracted_intermediate")])));
   (*L2701*) SAssign "contracted_intermediate" (EScale (1 # 1) (EEins "nmef,eajm,fdkl,bcin->abcdijkl" [(ESlice (EVar "g_aaaa") [SV "o"; SV "o"; SV "v"; SV "v"]); (EVar "t2_aaaa"); (EVar "t2_abab"); (EVar "t2_aaaa")]));
   (*L2702*) SAug true "quadruples_res" (EAdd (EAdd (EAdd (EScale (1 # 1) (EVar "contracted_intermediate")) (EScale (-1 # 1) (EEins "abcdijkl->abcdkjil" [(EVar "contracted_intermediate")]))) (EScale (-1 # 1) (EEins "abcdijkl->bacdijkl" [(EVar "contracted_intermediate")]))) (EScale (1 # 1) (EEins "abcdijkl->bacdkjil" [(EVar "contracted_intermediate")])));
   (*L2705*) SAssign "contracted_intermediate" (EScale (1 # 1) (EEins "nmfe,aejm,fdkl,bcin->abcdijkl" [(ESlice (EVar "g_abab") [SV "o"; SV "o"; SV "v"; SV "v"]); (EVar "t2_abab"); (EVar "t2_abab"); (EVar "t2_aaaa")]));
   (*L2706*) SAug true "quadruples_res" (EAdd (EAdd (EAdd (EScale (1 # 1) (EVar "contracted_intermediate")) (EScale (-1 # 1) (EEins "abcdijkl->abcdkjil" [(EVar "contracted_intermediate")]))) (EScale (-1 # 1) (EEins "abcdijkl->bacdijkl" [(EVar "contracted_intermediate")]))) (EScale (1 # 1) (EEins "abcdijkl->bacdkjil" [(EVar "contracted_intermediate")])));
   (*L2709*) SAssign "contracted_intermediate" (EScale (-1 # 1) (EEins "mnef,eaim,bfkl,cdjn->abcdijkl" [(ESlice (EVar "g_abab") [SV "o"; SV "o"; SV "v"; SV "v"]); (EVar "t2_aaaa"); (EVar "t2_abab"); (EVar "t2_abab")]));
   (*L2710*) SAug true "quadruples_res" (EAdd (EAdd (EAdd (EScale (1 # 1) (EVar "contracted_intermediate")) (EScale (-1 # 1) (EEins "abcdijkl->abcdikjl" [(EVar "contracted_intermediate")]))) (EScale (-1 # 1) (EEins "abcdijkl->acbdijkl" [(EVar "contracted_intermediate")]))) (EScale (1 # 1) (EEins "abcdijkl->acbdikjl" [(EVar "contracted_intermediate")])));
   (*L2713*) SAssign "contracted_intermediate" (EScale (-1 # 1) (EEins "nmef,aeim,bfkl,cdjn->abcdijkl" [(ESlice (EVar "g_bbbb") [SV "o"; SV "o"; SV "v"; SV "v"]); (EVar "t2_abab"); (EVar "t2_abab"); (EVar "t2_abab")]));
   (*L2714*) SAug true "quadruples_res" (EAdd (EAdd (EAdd (EScale (1 # 1) (EVar "contracted_intermediate")) (EScale (-1 # 1) (EEins "abcdijkl->abcdikjl" [(EVar "contracted_intermediate")]))) (EScale (-1 # 1) (EEins "abcdijkl->acbdijkl" [(EVar "contracted_intermediate")]))) (EScale (1 # 1) (EEins "abcdijkl->acbdikjl" [(EVar "contracted_intermediate")])));
   (*L2717*) SAssign "contracted_intermediate" (EScale (-1 # 1) (EEins "nmef,eaim,fdkl,bcjn->abcdijkl" [(ESlice (EVar "g_aaaa") [SV "o"; SV "o"; SV "v"; SV "v"]); (EVar "t2_aaaa"); (EVar "t2_abab"); (EVar "t2_aaaa")]));
   (*L2718*) SAug true "quadruples_res" (EAdd (EAdd (EAdd (EScale (1 # 1) (EVar "contracted_intermediate")) (EScale (-1 # 1) (EEins "abcdijkl->abcdikjl" [(EVar "contracted_intermediate")]))) (EScale (-1 # 1) (EEins "abcdijkl->bacdijkl" [(EVar "contracted_intermediate")]))) (EScale (1 # 1) (EEins "abcdijkl->bacdikjl" [(EVar "contracted_intermediate")])));
   (*L2721*) SAssign "contracted_intermediate" (EScale (-1 # 1) (EEins "nmfe,aeim,fdkl,bcjn->abcdijkl" [(ESlice (EVar "g_abab") [SV "o"; SV "o"; SV "v"; SV "v"]); (EVar "t2_abab"); (EVar "t2_abab"); (EVar "t2_aaaa")]));
   (*L2722*) SAug true "quadruples_res" (EAdd (EAdd (EAdd (EScale (1 # 1) (EVar "contracted_intermediate")) (EScale (-1 # 1) (EEins "abcdijkl->abcdikjl" [(EVar "contracted_intermediate")]))) (EScale (-1 # 1) (EEins "abcdijkl->bacdijkl" [(EVar "contracted_intermediate")]))) (EScale (1 # 1) (EEins "abcdijkl->bacdikjl" [(EVar "contracted_intermediate")])));
   (*L2725*) SAssign "contracted_intermediate" (EScale (-1 # 1) (EEins "mnfe,aekl,fbjm,cdin->abcdijkl" [(ESlice (EVar "g_abab") [SV "o"; SV "o"; SV "v"; SV "v"]); (EVar "t2_abab"); (EVar "t2_aaaa"); (EVar "t2_abab")]));
   (*L2726*) SAug true "quadruples_res" (EAdd (EAdd (EAdd (EScale (1 # 1) (EVar "contracted_intermediate")) (EScale (-1 # 1) (EEins "abcdijkl->abcdjikl" [(EVar "contracted_intermediate")]))) (EScale (-1 # 1) (EEins "abcdijkl->acbdijkl" [(EVar "contracted_intermediate")]))) (EScale (1 # 1) (EEins "abcdijkl->acbdjikl" [(EVar "contracted_intermediate")])));
   (*L2729*) SAssign "contracted_intermediate" (EScale (1 # 1) (EEins "nmef,aekl,bfjm,cdin->abcdijkl" [(ESlice (EVar "g_bbbb") [SV "o"; SV "o"; SV "v"; SV "v"]); (EVar "t2_abab"); (EVar "t2_abab"); (EVar "t2_abab")]));
   (*L2730*) SAug true "quadruples_res" (EAdd (EAdd (EAdd (EScale (1 # 1) (EVar "contracted_intermediate")) (EScale (-1 # 1) (EEins "abcdijkl->abcdjikl" [(EVar "contracted_intermediate")]))) (EScale (-1 # 1) (EEins "abcdijkl->acbdijkl" [(EVar "contracted_intermediate")]))) (EScale (1 # 1) (EEins "abcdijkl->acbdjikl" [(EVar "contracted_intermediate")])));
   (*L2733*) SAssign "contracted_intermediate" (EScale (-1 # 2) (EEins "nmfe,aekl,fbij,cdnm->abcdijkl" [(ESlice (EVar "g_abab") [SV "o"; SV "o"; SV "v"; SV "v"]); (EVar "t2_abab"); (EVar "t2_aaaa"); (EVar "t2_abab")]));
   (*L2734*) SAug true "quadruples_res" (EAdd (EAdd (EAdd (EScale (1 # 1) (EVar "contracted_intermediate")) (EScale (-1 # 1) (EEins "abcdijkl->abcdikjl" [(EVar "contracted_intermediate")]))) (EScale (-1 # 1) (EEins "abcdijkl->acbdijkl" [(EVar "contracted_intermediate")]))) (EScale (1 # 1) (EEins "abcdijkl->acbdikjl" [(EVar "contracted_intermediate")])));
   (*L2737*) SAssign "contracted_intermediate" (EScale (-1 # 2) (EEins "mnfe,aekl,fbij,cdmn->abcdijkl" [(ESlice (EVar "g_abab") [SV "o"; SV "o"; SV "v"; SV "v"]); (EVar "t2_abab"); (EVar "t2_aaaa"); (EVar "t2_abab")]));
   (*L2738*) SAug true "quadruples_res" (EAdd (EAdd (EAdd (EScale (1 # 1) (EVar "contracted_intermediate")) (EScale (-1 # 1) (EEins "abcdijkl->abcdikjl" [(EVar "contracted_intermediate")]))) (EScale (-1 # 1) (EEins "abcdijkl->acbdijkl" [(EVar "contracted_intermediate")]))) (EScale (1 # 1) (EEins "abcdijkl->acbdikjl" [(EVar "contracted_intermediate")])));
   (*L2741*) SAssign "contracted_intermediate" (EScale (1 # 1) (EEins "nmfe,aekl,fdjm,bcin->abcdijkl" [(ESlice (EVar "g_abab") [SV "o"; SV "o"; SV "v"; SV "v"]); (EVar "t2_abab"); (EVar "t2_abab"); (EVar "t2_aaaa")]));
   (*L2742*) SAug true "quadruples_res" (EAdd (EAdd (EAdd (EScale (1 # 1) (EVar "contracted_intermediate")) (EScale (-1 # 1) (EEins "abcdijkl->abcdjikl" [(EVar "contracted_intermediate")]))) (EScale (-1 # 1) (EEins "abcdijkl->bacdijkl" [(EVar "contracted_intermediate")]))) (EScale (1 # 1) (EEins "abcdijkl->bacdjikl" [(EVar "contracted_intermediate")])));
   (*L2745*) SAssign "contracted_intermediate" (EScale (1 # 1) (EEins "mnfe,aejl,fbkm,cdin->abcdijkl" [(ESlice (EVar "g_abab") [SV "o"; SV "o"; SV "v"; SV "v"]); (EVar "t2_abab"); (EVar "t2_aaaa"); (EVar "t2_abab")]));
   (*L2746*) SAug true "quadruples_res" (EAdd (EAdd (EAdd (EScale (1 # 1) (EVar "contracted_intermediate")) (EScale (-1 # 1) (EEins "abcdijkl->abcdkjil" [(EVar "contracted_intermediate")]))) (EScale (-1 # 1) (EEins "abcdijkl->acbdijkl" [(EVar "contracted_intermediate")]))) (EScale (1 # 1) (EEins "abcdijkl->acbdkjil" [(EVar "contracted_intermediate")])));
   (*L2749*) SAssign "contracted_intermediate" (EScale (-1 # 1) (EEins "nmef,aejl,bfkm,cdin->abcdijkl" [(ESlice (EVar "g_bbbb") [SV "o"; SV "o"; SV "v"; SV "v"]); (EVar "t2_abab"); (EVar "t2_abab"); (EVar "t2_abab")]));
   (*L2750*) SAug true "quadruples_res" (EAdd (EAdd (EAdd (EScale (1 # 1) (EVar "contracted_intermediate")) (EScale (-1 # 1) (EEins "abcdijkl->abcdkjil" [(EVar "contracted_intermediate")]))) (EScale (-1 # 1) (EEins "abcdijkl->acbdijkl" [(EVar "contracted_intermediate")]))) (EScale (1 # 1) (EEins "abcdijkl->acbdkjil" [(EVar "contracted_intermediate")])));
   (*L2753*) SAssign "contracted_intermediate" (EScale (-1 # 1) (EEins "nmfe,aejl,fdkm,bcin->abcdijkl" [(ESlice (EVar "g_abab") [SV "o"; SV "o"; SV "v"; SV "v"]); (EVar "t2_abab"); (EVar "t2_abab"); (EVar "t2_aaaa")]));
   (*L2754*) SAug true "quadruples_res" (EAdd (EAdd (EAdd (EScale (1 # 1) (EVar "contracted_intermediate")) (EScale (-1 # 1) (EEins "abcdijkl->abcdkjil" [(EVar "contracted_intermediate")]))) (EScale (-1 # 1) (EEins "abcdijkl->bacdijkl" [(EVar "contracted_intermediate")]))) (EScale (1 # 1) (EEins "abcdijkl->bacdkjil" [(EVar "contracted_intermediate")])));
   (*L2757*) SAssign "contracted_intermediate" (EScale (-1 # 1) (EEins "mnfe,aeil,fbkm,cdjn->abcdijkl" [(ESlice (EVar "g_abab") [SV "o"; SV "o"; SV "v"; SV "v"]); (EVar "t2_abab"); (EVar "t2_aaaa"); (EVar "t2_abab")]));
   (*L2758*) SAug true "quadruples_res" (EAdd (EAdd (EAdd (EScale (1 # 1) (EVar "contracted_intermediate")) (EScale (-1 # 1) (EEins "abcdijkl->abcdikjl" [(EVar "contracted_intermediate")]))) (EScale (-1 # 1) (EEins "abcdijkl->acbdijkl" [(EVar "contracted_intermediate")]))) (EScale (1 # 1) (EEins "abcdijkl->acbdikjl" [(EVar "contracted_intermediate")])));
   (*L2761*) SAssign "contracted_intermediate" (EScale (1 # 1) (EEins "nmef,aeil,bfkm,cdjn->abcdijkl" [(ESlice (EVar "g_bbbb") [SV "o"; SV "o"; SV "v"; SV "v"]); (EVar "t2_abab"); (EVar "t2_abab"); (EVar "t2_abab")]));
   (*L2762*) SAug true "quadruples_res" (EAdd (EAdd (EAdd (EScale (1 # 1) (EVar "contracted_intermediate")) (EScale (-1 # 1) (EEins "abcdijkl->abcdikjl" [(EVar "contracted_intermediate")]))) (EScale (-1 # 1) (EEins "abcdijkl->acbdijkl" [(EVar "contracted_intermediate")]))) (EScale (1 # 1) (EEins "abcdijkl->acbdikjl" [(EVar "contracted_intermediate")])));
   (*L2765*) SAssign "contracted_intermediate" (EScale (-1 # 2) (EEins "nmfe,aeil,fbjk,cdnm->abcdijkl" [(ESlice (EVar "g_abab") [SV "o"; SV "o"; SV "v"; SV "v"]); (EVar "t2_abab"); (EVar "t2_aaaa"); (EVar "t2_abab")]));
   (*L2766*) SAug true "quadruples_res" (EAdd (EScale (1 # 1) (EVar "contracted_intermediate")) (EScale (-1 # 1) (EEins "abcdijkl->acbdijkl" [(EVar "contracted_intermediate")])));
   (*L2769*) SAssign "contracted_intermediate" (EScale (-1 # 2) (EEins "mnfe,aeil,fbjk,cdmn->abcdijkl" [(ESlice (EVar "g_abab") [SV "o"; SV "o"; SV "v"; SV "v"]); (EVar "t2_abab"); (EVar "t2_aaaa"); (EVar "t2_abab")]));
   (*L2770*) SAug true "quadruples_res" (EAdd (EScale (1 # 1) (EVar "contracted_intermediate")) (EScale (-1 # 1) (EEins "abcdijkl->acbdijkl" [(EVar "contracted_intermediate")])));
   (*L2773*) SAssign "contracted_intermediate" (EScale (-1 # 2) (EEins "nmef,eaik,bfjl,cdnm->abcdijkl" [(ESlice (EVar "g_abab") [SV "o"; SV "o"; SV "v"; SV "v"]); (EVar "t2_aaaa"); (EVar "t2_abab"); (EVar "t2_abab")]));
   (*L2774*) SAug true "quadruples_res" (EAdd (EScale (1 # 1) (EVar "contracted_intermediate")) (EScale (-1 # 1) (EEins "abcdijkl->acbdijkl" [(EVar "contracted_intermediate")])));
   (*L2777*) SAssign "contracted_intermediate" (EScale (-1 # 2) (EEins "mnef,eaik,bfjl,cdmn->abcdijkl" [(ESlice (EVar "g_abab") [SV "o"; SV "o"; SV "v"; SV "v"]); (EVar "t2_aaaa"); (EVar "t2_abab"); (EVar "t2_abab")]));
   (*L2778*) SAug true "quadruples_res" (EAdd (EScale (1 # 1) (EVar "contracted_intermediate")) (EScale (-1 # 1) (EEins "abcdijkl->acbdijkl" [(EVar "contracted_intermediate")])));
   (*L2781*) SAssign "contracted_intermediate" (EScale (1 # 1) (EEins "nmfe,aeil,fdkm,bcjn->abcdijkl" [(ESlice (EVar "g_abab") [SV "o"; SV "o"; SV "v"; SV "v"]); (EVar "t2_abab"); (EVar "t2_abab"); (EVar "t2_aaaa")]));
   (*L2782*) SAug true "quadruples_res" (EAdd (EAdd (EAdd (EScale (1 # 1) (EVar "contracted_intermediate")) (EScale (-1 # 1) (EEins "abcdijkl->abcdikjl" [(EVar "contracted_intermediate")]))) (EScale (-1 # 1) (EEins "abcdijkl->bacdijkl" [(EVar "contracted_intermediate")]))) (EScale (1 # 1) (EEins "abcdijkl->bacdikjl" [(EVar "contracted_intermediate")])));
   (*L2785*) SAssign "contracted_intermediate" (EScale (1 # 2) (EEins "nmef,eaik,fdjl,bcnm->abcdijkl" [(ESlice (EVar "g_aaaa") [SV "o"; SV "o"; SV "v"; SV "v"]); (EVar "t2_aaaa"); (EVar "t2_abab"); (EVar "t2_aaaa")]));
   (*L2786*) SAug true "quadruples_res" (EAdd (EScale (1 # 1) (EVar "contracted_intermediate")) (EScale (-1 # 1) (EEins "abcdijkl->bacdijkl" [(EVar "contracted_intermediate")])));
   (*L2789*) SAssign "contracted_intermediate" (EScale (-1 # 1) (EEins "mnef,eajk,bfml,cdin->abcdijkl" [(ESlice (EVar "g_abab") [SV "o"; SV "o"; SV "v"; SV "v"]); (EVar "t2_aaaa"); (EVar "t2_abab"); (EVar "t2_abab")]));
   (*L2790*) SAug true "quadruples_res" (EAdd (EScale (1 # 1) (EVar "contracted_intermediate")) (EScale (-1 # 1) (EEins "abcdijkl->acbdijkl" [(EVar "contracted_intermediate")])));
   (*L2793*) SAssign "contracted_intermediate" (EScale (1 # 1) (EEins "nmef,eajk,fbim,cdnl->abcdijkl" [(ESlice (EVar "g_aaaa") [SV "o"; SV "o"; SV "v"; SV "v"]); (EVar "t2_aaaa"); (EVar "t2_aaaa"); (EVar "t2_abab")]));
   (*L2794*) SAug true "quadruples_res" (EAdd (EScale (1 # 1) (EVar "contracted_intermediate")) (EScale (-1 # 1) (EEins "abcdijkl->acbdijkl" [(EVar "contracted_intermediate")])));
   (*L2797*) SAssign "contracted_intermediate" (EScale (-1 # 1) (EEins "nmef,eajk,bfim,cdnl->abcdijkl" [(ESlice (EVar "g_abab") [SV "o"; SV "o"; SV "v"; SV "v"]); (EVar "t2_aaaa"); (EVar "t2_abab"); (EVar "t2_abab")]));
   (*L2798*) SAug true "quadruples_res" (EAdd (EScale (1 # 1) (EVar "contracted_intermediate")) (EScale (-1 # 1) (EEins "abcdijkl->acbdijkl" [(EVar "contracted_intermediate")])));
   (*L2801*) SAssign "contracted_intermediate" (EScale (1 # 2) (EEins "nmef,eajk,bfil,cdnm->abcdijkl" [(ESlice (EVar "g_abab") [SV "o"; SV "o"; SV "v"; SV "v"]); (EVar "t2_aaaa"); (EVar "t2_abab"); (EVar "t2_abab")]));
   (*L2802*) SAug true "quadruples_res" (EAdd (EAdd (EAdd (EScale (1 # 1) (EVar "contracted_intermediate")) (EScale (-1 # 1) (EEins "abcdijkl->abcdkjil" [(EVar "contracted_intermediate")]))) (EScale (-1 # 1) (EEins "abcdijkl->acbdijkl" [(EVar "contracted_intermediate")]))) (EScale (1 # 1) (EEins "abcdijkl->acbdkjil" [(EVar "contracted_intermediate")])));
   (*L2805*) SAssign "contracted_intermediate" (EScale (1 # 2) (EEins "mnef,eajk,bfil,cdmn->abcdijkl" [(ESlice (EVar "g_abab") [SV "o"; SV "o"; SV "v"; SV "v"]); (EVar "t2_aaaa"); (EVar "t2_abab"); (EVar "t2_abab")]));
   (*L2806*) SAug true "quadruples_res" (EAdd (EAdd (EAdd (EScale (1 # 1) (EVar "contracted_intermediate")) (EScale (-1 # 1) (EEins "abcdijkl->abcdkjil" [(EVar "contracted_intermediate")]))) (EScale (-1 # 1) (EEins "abcdijkl->acbdijkl" [(EVar "contracted_intermediate")]))) (EScale (1 # 1) (EEins "abcdijkl->acbdkjil" [(EVar "contracted_intermediate")])));
   (*L2809*) SAssign "contracted_intermediate" (EScale (-1 # 1) (EEins "nmef,eajk,fdml,bcin->abcdijkl" [(ESlice (EVar "g_aaaa") [SV "o"; SV "o"; SV "v"; SV "v"]); (EVar "t2_aaaa"); (EVar "t2_abab"); (EVar "t2_aaaa")]));
   (*L2810*) SAug true "quadruples_res" (EAdd (EScale (1 # 1) (EVar "contracted_intermediate")) (EScale (-1 # 1) (EEins "abcdijkl->bacdijkl" [(EVar "contracted_intermediate")])));
   (*L2813*) SAssign "contracted_intermediate" (EScale (1 # 1) (EEins "nmef,eajk,fdlm,bcin->abcdijkl" [(ESlice (EVar "g_abab") [SV "o"; SV "o"; SV "v"; SV "v"]); (EVar "t2_aaaa"); (EVar "t2_bbbb"); (EVar "t2_aaaa")]));
   (*L2814*) SAug true "quadruples_res" (EAdd (EScale (1 # 1) (EVar "contracted_intermediate")) (EScale (-1 # 1) (EEins "abcdijkl->bacdijkl" [(EVar "contracted_intermediate")])));
   (*L2817*) SAssign "contracted_intermediate" (EScale (-1 # 2) (EEins "nmef,eajk,fdil,bcnm->abcdijkl" [(ESlice (EVar "g_aaaa") [SV "o"; SV "o"; SV "v"; SV "v"]); (EVar "t2_aaaa"); (EVar "t2_abab"); (EVar "t2_aaaa")]));
   (*L2818*) SAug true "quadruples_res" (EAdd (EAdd (EAdd (EScale (1 # 1) (EVar "contracted_intermediate")) (EScale (-1 # 1) (EEins "abcdijkl->abcdkjil" [(EVar "contracted_intermediate")]))) (EScale (-1 # 1) (EEins "abcdijkl->bacdijkl" [(EVar "contracted_intermediate")]))) (EScale (1 # 1) (EEins "abcdijkl->bacdkjil" [(EVar "contracted_intermediate")])));
   (*L2821*) SAssign "contracted_intermediate" (EScale (1 # 1) (EEins "mnef,eaik,bfml,cdjn->abcdijkl" [(ESlice (EVar "g_abab") [SV "o"; SV "o"; SV "v"; SV "v"]); (EVar "t2_aaaa"); (EVar "t2_abab"); (EVar "t2_abab")]));
   (*L2822*) SAug true "quadruples_res" (EAdd (EScale (1 # 1) (EVar "contracted_intermediate")) (EScale (-1 # 1) (EEins "abcdijkl->acbdijkl" [(EVar "contracted_intermediate")])));
   (*L2825*) SAssign "contracted_intermediate" (EScale (-1 # 1) (EEins "nmef,eaik,fbjm,cdnl->abcdijkl" [(ESlice (EVar "g_aaaa") [SV "o"; SV "o"; SV "v"; SV "v"]); (EVar "t2_aaaa"); (EVar "t2_aaaa"); (EVar "t2_abab")]));
   (*L2826*) SAug true "quadruples_res" (EAdd (EScale (1 # 1) (EVar "contracted_intermediate")) (EScale (-1 # 1) (EEins "abcdijkl->acbdijkl" [(EVar "contracted_intermediate")])));
   (*L2829*) SAssign "contracted_intermediate" (EScale (1 # 1) (EEins "nmef,eaik,bfjm,cdnl->abcdijkl" [(ESlice (EVar "g_abab") [SV "o"; SV "o"; SV "v"; SV "v"]); (EVar "t2_aaaa"); (EVar "t2_abab"); (EVar "t2_abab")]));
   (*L2830*) SAug true "quadruples_res" (EAdd (EScale (1 # 1) (EVar "contracted_intermediate")) (EScale (-1 # 1) (EEins "abcdijkl->acbdijkl" [(EVar "contracted_intermediate")])));
   (*L2833*) SAssign "contracted_intermediate" (EScale (1 # 1) (EEins "nmef,eaik,fdml,bcjn->abcdijkl" [(ESlice (EVar "g_aaaa") [SV "o"; SV "o"; SV "v"; SV "v"]); (EVar "t2_aaaa"); (EVar "t2_abab"); (EVar "t2_aaaa")]));
   (*L2834*) SAug true "quadruples_res" (EAdd (EScale (1 # 1) (EVar "contracted_intermediate")) (EScale (-1 # 1) (EEins "abcdijkl->bacdijkl" [(EVar "contracted_intermediate")])));
   (*L2837*) SAssign "contracted_intermediate" (EScale (-1 # 1) (EEins "nmef,eaik,fdlm,bcjn->abcdijkl" [(ESlice (EVar "g_abab") [SV "o"; SV "o"; SV "v"; SV "v"]); (EVar "t2_aaaa"); (EVar "t2_bbbb"); (EVar "t2_aaaa")]));
   (*L2838*) SAug true "quadruples_res" (EAdd (EScale (1 # 1) (EVar "contracted_intermediate")) (EScale (-1 # 1) (EEins "abcdijkl->bacdijkl" [(EVar "contracted_intermediate")])));
   (*L2841*) SAssign "contracted_intermediate" (EScale (-1 # 1) (EEins "mnef,eaij,bfml,cdkn->abcdijkl" [(ESlice (EVar "g_abab") [SV "o"; SV "o"; SV "v"; SV "v"]); (EVar "t2_aaaa"); (EVar "t2_abab"); (EVar "t2_abab")]));
   (*L2842*) SAug true "quadruples_res" (EAdd (EScale (1 # 1) (EVar "contracted_intermediate")) (EScale (-1 # 1) (EEins "abcdijkl->acbdijkl" [(EVar "contracted_intermediate")])));
   (*L2845*) SAssign "contracted_intermediate" (EScale (1 # 1) (EEins "nmef,eaij,fbkm,cdnl->abcdijkl" [(ESlice (EVar "g_aaaa") [SV "o"; SV "o"; SV "v"; SV "v"]); (EVar "t2_aaaa"); (EVar "t2_aaaa"); (EVar "t2_abab")]));
   (*L2846*) SAug true "quadruples_res" (EAdd (EScale (1 # 1) (EVar "contracted_intermediate")) (EScale (-1 # 1) (EEins "abcdijkl->acbdijkl" [(EVar "contracted_intermediate")])));
   (*L2849*) SAssign "contracted_intermediate" (EScale (-1 # 1) (EEins "nmef,eaij,bfkm,cdnl->abcdijkl" [(ESlice (EVar "g_abab") [SV "o"; SV "o"; SV "v"; SV "v"]); (EVar "t2_aaaa"); (EVar "t2_abab"); (EVar "t2_abab")]));
   (*L2850*) SAug true "quadruples_res" (EAdd (EScale (1 # 1) (EVar "contracted_intermediate")) (EScale (-1 # 1) (EEins "abcdijkl->acbdijkl" [(EVar "contracted_intermediate")])));
   (*L2853*) SAssign "contracted_intermediate" (EScale (-1 # 1) (EEins "nmef,eaij,fdml,bckn->abcdijkl" [(ESlice (EVar "g_aaaa") [SV "o"; SV "o"; SV "v"; SV "v"]); (EVar "t2_aaaa"); (EVar "t2_abab"); (EVar "t2_aaaa")]));
   (*L2854*) SAug true "quadruples_res" (EAdd (EScale (1 # 1) (EVar "contracted_intermediate")) (EScale (-1 # 1) (EEins "abcdijkl->bacdijkl" [(EVar "contracted_intermediate")])));
   (*L2857*) SAssign "contracted_intermediate" (EScale (1 # 1) (EEins "nmef,eaij,fdlm,bckn->abcdijkl" [(ESlice (EVar "g_abab") [SV "o"; SV "o"; SV "v"; SV "v"]); (EVar "t2_aaaa"); (EVar "t2_bbbb"); (EVar "t2_aaaa")]));
   (*L2858*) SAug true "quadruples_res" (EAdd (EScale (1 # 1) (EVar "contracted_intermediate")) (EScale (-1 # 1) (EEins "abcdijkl->bacdijkl" [(EVar "contracted_intermediate")])));
   (*L2861*) SAssign "contracted_intermediate" (EScale (1 # 1) (EEins "mnfe,beml,fcjk,adin->abcdijkl" [(ESlice (EVar "g_abab") [SV "o"; SV "o"; SV "v"; SV "v"]); (EVar "t2_abab"); (EVar "t2_aaaa"); (EVar "t2_abab")]));
   (*L2862*) SAug true "quadruples_res" (EAdd (EScale (1 # 1) (EVar "contracted_intermediate")) (EScale (-1 # 1) (EEins "abcdijkl->abcdjikl" [(EVar "contracted_intermediate")])));
   (*L2865*) SAug true "quadruples_res" (EScale (1 # 1) (EEins "mnfe,beml,fcij,adkn->abcdijkl" [(ESlice (EVar "g_abab") [SV "o"; SV "o"; SV "v"; SV "v"]); (EVar "t2_abab"); (EVar "t2_aaaa"); (EVar "t2_abab")]));
   (*L2868*) SAug true "quadruples_res" (EScale (1 # 1) (EEins "nmef,ebkm,fcij,adnl->abcdijkl" [(ESlice (EVar "g_aaaa") [SV "o"; SV "o"; SV "v"; SV "v"]); (EVar "t2_aaaa"); (EVar "t2_aaaa"); (EVar "t2_abab")]));
   (*L2871*) SAug true "quadruples_res" (EScale (1 # 1) (EEins "nmfe,bekm,fcij,adnl->abcdijkl" [(ESlice (EVar "g_abab") [SV "o"; SV "o"; SV "v"; SV "v"]); (EVar "t2_abab"); (EVar "t2_aaaa"); (EVar "t2_abab")]));
   (*L2874*) SAssign "contracted_intermediate" (EScale (-1 # 1) (EEins "mnef,ebkm,cfjl,adin->abcdijkl" [(ESlice (EVar "g_abab") [SV "o"; SV "o"; SV "v"; SV "v"]); (EVar "t2_aaaa"); (EVar "t2_abab"); (EVar "t2_abab")]));
   (*L2875*) SAug true "quadruples_res" (EAdd (EScale (1 # 1) (EVar "contracted_intermediate")) (EScale (-1 # 1) (EEins "abcdijkl->abcdjikl" [(EVar "contracted_intermediate")])));
   (*L2878*) SAssign "contracted_intermediate" (EScale (-1 # 1) (EEins "nmef,bekm,cfjl,adin->abcdijkl" [(ESlice (EVar "g_bbbb") [SV "o"; SV "o"; SV "v"; SV "v"]); (EVar "t2_abab"); (EVar "t2_abab"); (EVar "t2_abab")]));
   (*L2879*) SAug true "quadruples_res" (EAdd (EScale (1 # 1) (EVar "contracted_intermediate")) (EScale (-1 # 1) (EEins "abcdijkl->abcdjikl" [(EVar "contracted_intermediate")])));
   (*L2882*) SAssign "contracted_intermediate" (EScale (1 # 1) (EEins "mnef,ebjm,cfkl,adin->abcdijkl" [(ESlice (EVar "g_abab") [SV "o"; SV "o"; SV "v"; SV "v"]); (EVar "t2_aaaa"); (EVar "t2_abab"); (EVar "t2_abab")]));
   (*L2883*) SAug true "quadruples_res" (EAdd (EScale (1 # 1) (EVar "contracted_intermediate")) (EScale (-1 # 1) (EEins "abcdijkl->abcdkjil" [(EVar "contracted_intermediate")])));
   (*L2886*) SAssign "contracted_intermediate" (EScale (1 # 1) (EEins "nmef,bejm,cfkl,adin->abcdijkl" [(ESlice (EVar "g_bbbb") [SV "o"; SV "o"; SV "v"; SV "v"]); (EVar "t2_abab"); (EVar "t2_abab"); (EVar "t2_abab")]));
   (*L2887*) SAug true "quadruples_res" (EAdd (EScale (1 # 1) (EVar "contracted_intermediate")) (EScale (-1 # 1) (EEins "abcdijkl->abcdkjil" [(EVar "contracted_intermediate")])));
   (*L2890*) SAssign "contracted_intermediate" (EScale (-1 # 1) (EEins "nmef,ebjm,fcik,adnl->abcdijkl" [(ESlice (EVar "g_aaaa") [SV "o"; SV "o"; SV "v"; SV "v"]); (EVar "t2_aaaa"); (EVar "t2_aaaa"); (EVar "t2_abab")]));
   (*L2891*) SAug true "quadruples_res" (EAdd (EScale (1 # 1) (EVar "contracted_intermediate")) (EScale (-1 # 1) (EEins "abcdijkl->abcdjikl" [(EVar "contracted_intermediate")])));
   (*L2894*) SAssign "contracted_intermediate" (EScale (-1 # 1) (EEins "nmfe,bejm,fcik,adnl->abcdijkl" [(ESlice (EVar "g_abab") [SV "o"; SV "o"; SV "v"; SV "v"]); (EVar "t2_abab"); (EVar "t2_aaaa"); (EVar "t2_abab")]));
   (*L2895*) SAug true "quadruples_res" (EAdd (EScale (1 # 1) (EVar "contracted_intermediate")) (EScale (-1 # 1) (EEins "abcdijkl->abcdjikl" [(EVar "contracted_intermediate")])));
   (*L2898*) SAssign "contracted_intermediate" (EScale (-1 # 1) (EEins "mnef,ebim,cfkl,adjn->abcdijkl" [(ESlice (EVar "g_abab") [SV "o"; SV "o"; SV "v"; SV "v"]); (EVar "t2_aaaa"); (EVar "t2_abab"); (EVar "t2_abab")]));
   (*L2899*) SAug true "quadruples_res" (EAdd (EScale (1 # 1) (EVar "contracted_intermediate")) (EScale (-1 # 1) (EEins "abcdijkl->abcdikjl" [(EVar "contracted_intermediate")])));
   (*L2902*) SAssign "contracted_intermediate" (EScale (-1 # 1) (EEins "nmef,beim,cfkl,adjn->abcdijkl" [(ESlice (EVar "g_bbbb") [SV "o"; SV "o"; SV "v"; SV "v"]); (EVar "t2_abab"); (EVar "t2_abab"); (EVar "t2_abab")]));
   (*L2903*) SAug true "quadruples_res" (EAdd (EScale (1 # 1) (EVar "contracted_intermediate")) (EScale (-1 # 1) (EEins "abcdijkl->abcdikjl" [(EVar "contracted_intermediate")])));
   (*L2906*) SAssign "contracted_intermediate" (EScale (-1 # 1) (EEins "mnfe,bekl,fcjm,adin->abcdijkl" [(ESlice (EVar "g_abab") [SV "o"; SV "o"; SV "v"; SV "v"]); (EVar "t2_abab"); (EVar "t2_aaaa"); (EVar "t2_abab")]));
   (*L2907*) SAug true "quadruples_res" (EAdd (EScale (1 # 1) (EVar "contracted_intermediate")) (EScale (-1 # 1) (EEins "abcdijkl->abcdjikl" [(EVar "contracted_intermediate")])));
   (*L2910*) SAssign "contracted_intermediate" (EScale (1 # 1) (EEins "nmef,bekl,cfjm,adin->abcdijkl" [(ESlice (EVar "g_bbbb") [SV "o"; SV "o"; SV "v"; SV "v"]); (EVar "t2_abab"); (EVar "t2_abab"); (EVar "t2_abab")]));
   (*L2911*) SAug true "quadruples_res" (EAdd (EScale (1 # 1) (EVar "contracted_intermediate")) (EScale (-1 # 1) (EEins "abcdijkl->abcdjikl" [(EVar "contracted_intermediate")])));
   (*L2914*) SAssign "contracted_intermediate" (EScale (-1 # 2) (EEins "nmfe,bekl,fcij,adnm->abcdijkl" [(ESlice (EVar "g_abab") [SV "o"; SV "o"; SV "v"; SV "v"]); (EVar "t2_abab"); (EVar "t2_aaaa"); (EVar "t2_abab")]));
   (*L2915*) SAug true "quadruples_res" (EAdd (EScale (1 # 1) (EVar "contracted_intermediate")) (EScale (-1 # 1) (EEins "abcdijkl->abcdikjl" [(EVar "contracted_intermediate")])));
   (*L2918*) SAssign "contracted_intermediate" (EScale (-1 # 2) (EEins "mnfe,bekl,fcij,admn->abcdijkl" [(ESlice (EVar "g_abab") [SV "o"; SV "o"; SV "v"; SV "v"]); (EVar "t2_abab"); (EVar "t2_aaaa"); (EVar "t2_abab")]));
   (*L2919*) SAug true "quadruples_res" (EAdd (EScale (1 # 1) (EVar "contracted_intermediate")) (EScale (-1 # 1) (EEins "abcdijkl->abcdikjl" [(EVar "contracted_intermediate")])));
   (*L2922*) SAssign "contracted_intermediate" (EScale (1 # 1) (EEins "mnfe,bejl,fckm,adin->abcdijkl" [(ESlice (EVar "g_abab") [SV "o"; SV "o"; SV "v"; SV "v"]); (EVar "t2_abab"); (EVar "t2_aaaa"); (EVar "t2_abab")]));
   (*L2923*) SAug true "quadruples_res" (EAdd (EScale (1 # 1) (EVar "contracted_intermediate")) (EScale (-1 # 1) (EEins "abcdijkl->abcdkjil" [(EVar "contracted_intermediate")])));
   (*L2926*) SAssign "contracted_intermediate" (EScale (-1 # 1) (EEins "nmef,bejl,cfkm,adin->abcdijkl" [(ESlice (EVar "g_bbbb") [SV "o"; SV "o"; SV "v"; SV "v"]); (EVar "t2_abab"); (EVar "t2_abab"); (EVar "t2_abab")]));
   (*L2927*) SAug true "quadruples_res" (EAdd (EScale (1 # 1) (EVar "contracted_intermediate")) (EScale (-1 # 1) (EEins "abcdijkl->abcdkjil" [(EVar "contracted_intermediate")])));
   (*L2930*) SAssign "contracted_intermediate" (EScale (-1 # 1) (EEins "mnfe,beil,fckm,adjn->abcdijkl" [(ESlice (EVar "g_abab") [SV "o"; SV "o"; SV "v"; SV "v"]); (EVar "t2_abab"); (EVar "t2_aaaa"); (EVar "t2_abab")]));
   (*L2931*) SAug true "quadruples_res" (EAdd (EScale (1 # 1) (EVar "contracted_intermediate")) (EScale (-1 # 1) (EEins "abcdijkl->abcdikjl" [(EVar "contracted_intermediate")])));
   (*L2934*) SAssign "contracted_intermediate" (EScale (1 # 1) (EEins "nmef,beil,cfkm,adjn->abcdijkl" [(ESlice (EVar "g_bbbb") [SV "o"; SV "o"; SV "v"; SV "v"]); (EVar "t2_abab"); (EVar "t2_abab"); (EVar "t2_abab")]));
   (*L2935*) SAug true "quadruples_res" (EAdd (EScale (1 # 1) (EVar "contracted_intermediate")) (EScale (-1 # 1) (EEins "abcdijkl->abcdikjl" [(EVar "contracted_intermediate")])));
   (*L2938*) SAug true "quadruples_res" (EScale (-1 # 2) (EEins "nmfe,beil,fcjk,adnm->abcdijkl" [(ESlice (EVar "g_abab") [SV "o"; SV "o"; SV "v"; SV "v"]); (EVar "t2_abab"); (EVar "t2_aaaa"); (EVar "t2_abab")]));
   (*L2941*) SAug true "quadruples_res" (EScale (-1 # 2) (EEins "mnfe,beil,fcjk,admn->abcdijkl" [(ESlice (EVar "g_abab") [SV "o"; SV "o"; SV "v"; SV "v"]); (EVar "t2_abab"); (EVar "t2_aaaa"); (EVar "t2_abab")]));
   (*L2944*) SAug true "quadruples_res" (EScale (-1 # 2) (EEins "nmef,ebik,cfjl,adnm->abcdijkl" [(ESlice (EVar "g_abab") [SV "o"; SV "o"; SV "v"; SV "v"]); (EVar "t2_aaaa"); (EVar "t2_abab"); (EVar "t2_abab")]));
   (*L2947*) SAug true "quadruples_res" (EScale (-1 # 2) (EEins "mnef,ebik,cfjl,admn->abcdijkl" [(ESlice (EVar "g_abab") [SV "o"; SV "o"; SV "v"; SV "v"]); (EVar "t2_aaaa"); (EVar "t2_abab"); (EVar "t2_abab")]));
   (*L2950*) SAug true "quadruples_res" (EScale (-1 # 1) (EEins "mnef,ebjk,cfml,adin->abcdijkl" [(ESlice (EVar "g_abab") [SV "o"; SV "o"; SV "v"; SV "v"]); (EVar "t2_aaaa"); (EVar "t2_abab"); (EVar "t2_abab")]));
   (*L2953*) SAug true "quadruples_res" (EScale (1 # 1) (EEins "nmef,ebjk,fcim,adnl->abcdijkl" [(ESlice (EVar "g_aaaa") [SV "o"; SV "o"; SV "v"; SV "v"]); (EVar "t2_aaaa"); (EVar "t2_aaaa"); (EVar "t2_abab")]));
   (*L2956*) SAug true "quadruples_res" (EScale (-1 # 1) (EEins "nmef,ebjk,cfim,adnl->abcdijkl" [(ESlice (EVar "g_abab") [SV "o"; SV "o"; SV "v"; SV "v"]); (EVar "t2_aaaa"); (EVar "t2_abab"); (EVar "t2_abab")]));
   (*L2959*) SAssign "contracted_intermediate" (EScale (1 # 2) (EEins "nmef,ebjk,cfil,adnm->abcdijkl" [(ESlice (EVar "g_abab") [SV "o"; SV "o"; SV "v"; SV "v"]); (EVar "t2_aaaa"); (EVar "t2_abab"); (EVar "t2_abab")]));
   (*L2960*) SAug true "quadruples_res" (EAdd (EScale (1 # 1) (EVar "contracted_intermediate")) (EScale (-1 # 1) (EEins "abcdijkl->abcdkjil" [(EVar "contracted_intermediate")])));
   (*L2963*) SAssign "contracted_intermediate" (EScale (1 # 2) (EEins "mnef,ebjk,cfil,admn->abcdijkl" [(ESlice (EVar "g_abab") [SV "o"; SV "o"; SV "v"; SV "v"]); (EVar "t2_aaaa"); (EVar "t2_abab"); (EVar "t2_abab")]));
   (*L2964*) SAug true "quadruples_res" (EAdd (EScale (1 # 1) (EVar "contracted_intermediate")) (EScale (-1 # 1) (EEins "abcdijkl->abcdkjil" [(EVar "contracted_intermediate")])));
   (*L2967*) SAug true "quadruples_res" (EScale (1 # 1) (EEins "mnef,ebik,cfml,adjn->abcdijkl" [(ESlice (EVar "g_abab") [SV "o"; SV "o"; SV "v"; SV "v"]); (EVar "t2_aaaa"); (EVar "t2_abab"); (EVar "t2_abab")]));
   (*L2970*) SAug true "quadruples_res" (EScale (-1 # 1) (EEins "nmef,ebik,fcjm,adnl->abcdijkl" [(ESlice (EVar "g_aaaa") [SV "o"; SV "o"; SV "v"; SV "v"]); (EVar "t2_aaaa"); (EVar "t2_aaaa"); (EVar "t2_abab")]));
   (*L2973*) SAug true "quadruples_res" (EScale (1 # 1) (EEins "nmef,ebik,cfjm,adnl->abcdijkl" [(ESlice (EVar "g_abab") [SV "o"; SV "o"; SV "v"; SV "v"]); (EVar "t2_aaaa"); (EVar "t2_abab"); (EVar "t2_abab")]));
   (*L2976*) SAug true "quadruples_res" (EScale (-1 # 1) (EEins "mnef,ebij,cfml,adkn->abcdijkl" [(ESlice (EVar "g_abab") [SV "o"; SV "o"; SV "v"; SV "v"]); (EVar "t2_aaaa"); (EVar "t2_abab"); (EVar "t2_abab")]));
   (*L2979*) SAug true "quadruples_res" (EScale (1 # 1) (EEins "nmef,ebij,fckm,adnl->abcdijkl" [(ESlice (EVar "g_aaaa") [SV "o"; SV "o"; SV "v"; SV "v"]); (EVar "t2_aaaa"); (EVar "t2_aaaa"); (EVar "t2_abab")]));
   (*L2982*) SAug true "quadruples_res" (EScale (-1 # 1) (EEins "nmef,ebij,cfkm,adnl->abcdijkl" [(ESlice (EVar "g_abab") [SV "o"; SV "o"; SV "v"; SV "v"]); (EVar "t2_aaaa"); (EVar "t2_abab"); (EVar "t2_abab")]));
   (*L2985*) SAssign "contracted_intermediate" (EScale (-1 # 1) (EEins "nmef,eckm,fdjl,abin->abcdijkl" [(ESlice (EVar "g_aaaa") [SV "o"; SV "o"; SV "v"; SV "v"]); (EVar "t2_aaaa"); (EVar "t2_abab"); (EVar "t2_aaaa")]));
   (*L2986*) SAug true "quadruples_res" (EAdd (EScale (1 # 1) (EVar "contracted_intermediate")) (EScale (-1 # 1) (EEins "abcdijkl->abcdjikl" [(EVar "contracted_intermediate")])));
   (*L2989*) SAssign "contracted_intermediate" (EScale (-1 # 1) (EEins "nmfe,cekm,fdjl,abin->abcdijkl" [(ESlice (EVar "g_abab") [SV "o"; SV "o"; SV "v"; SV "v"]); (EVar "t2_abab"); (EVar "t2_abab"); (EVar "t2_aaaa")]));
   (*L2990*) SAug true "quadruples_res" (EAdd (EScale (1 # 1) (EVar "contracted_intermediate")) (EScale (-1 # 1) (EEins "abcdijkl->abcdjikl" [(EVar "contracted_intermediate")])));
   (*L2993*) SAssign "contracted_intermediate" (EScale (1 # 1) (EEins "nmef,ecjm,fdkl,abin->abcdijkl" [(ESlice (EVar "g_aaaa") [SV "o"; SV "o"; SV "v"; SV "v"]); (EVar "t2_aaaa"); (EVar "t2_abab"); (EVar "t2_aaaa")]));
   (*L2994*) SAug true "quadruples_res" (EAdd (EScale (1 # 1) (EVar "contracted_intermediate")) (EScale (-1 # 1) (EEins "abcdijkl->abcdkjil" [(EVar "contracted_intermediate")])));
   (*L2997*) SAssign "contracted_intermediate" (EScale (1 # 1) (EEins "nmfe,cejm,fdkl,abin->abcdijkl" [(ESlice (EVar "g_abab") [SV "o"; SV "o"; SV "v"; SV "v"]); (EVar "t2_abab"); (EVar "t2_abab"); (EVar "t2_aaaa")]));
   (*L2998*) SAug true "quadruples_res" (EAdd (EScale (1 # 1) (EVar "contracted_intermediate")) (EScale (-1 # 1) (EEins "abcdijkl->abcdkjil" [(EVar "contracted_intermediate")])));
   (*L3001*) SAssign "contracted_intermediate" (EScale (-1 # 1) (EEins "nmef,ecim,fdkl,abjn->abcdijkl" [(ESlice (EVar "g_aaaa") [SV "o"; SV "o"; SV "v"; SV "v"]); (EVar "t2_aaaa"); (EVar "t2_abab"); (EVar "t2_aaaa")]));
   (*L3002*) SAug true "quadruples_res" (EAdd (EScale (1 # 1) (EVar "contracted_intermediate")) (EScale (-1 # 1) (EEins "abcdijkl->abcdikjl" [(EVar "contracted_intermediate")])));
   (*L3005*) SAssign "contracted_intermediate" (EScale (-1 # 1) (EEins "nmfe,ceim,fdkl,abjn->abcdijkl" [(ESlice (EVar "g_abab") [SV "o"; SV "o"; SV "v"; SV "v"]); (EVar "t2_abab"); (EVar "t2_abab"); (EVar "t2_aaaa")]));
   (*L3006*) SAug true "quadruples_res" (EAdd (EScale (1 # 1) (EVar "contracted_intermediate")) (EScale (-1 # 1) (EEins "abcdijkl->abcdikjl" [(EVar "contracted_intermediate")])));
   (*L3009*) SAssign "contracted_intermediate" (EScale (1 # 1) (EEins "nmfe,cekl,fdjm,abin->abcdijkl" [(ESlice (EVar "g_abab") [SV "o"; SV "o"; SV "v"; SV "v"]); (EVar "t2_abab"); (EVar "t2_abab"); (EVar "t2_aaaa")]));
   (*L3010*) SAug true "quadruples_res" (EAdd (EScale (1 # 1) (EVar "contracted_intermediate")) (EScale (-1 # 1) (EEins "abcdijkl->abcdjikl" [(EVar "contracted_intermediate")])));
   (*L3013*) SAssign "contracted_intermediate" (EScale (-1 # 1) (EEins "nmfe,cejl,fdkm,abin->abcdijkl" [(ESlice (EVar "g_abab") [SV "o"; SV "o"; SV "v"; SV "v"]); (EVar "t2_abab"); (EVar "t2_abab"); (EVar "t2_aaaa")]));
   (*L3014*) SAug true "quadruples_res" (EAdd (EScale (1 # 1) (EVar "contracted_intermediate")) (EScale (-1 # 1) (EEins "abcdijkl->abcdkjil" [(EVar "contracted_intermediate")])));
   (*L3017*) SAssign "contracted_intermediate" (EScale (1 # 1) (EEins "nmfe,ceil,fdkm,abjn->abcdijkl" [(ESlice (EVar "g_abab") [SV "o"; SV "o"; SV "v"; SV "v"]); (EVar "t2_abab"); (EVar "t2_abab"); (EVar "t2_aaaa")]));
   (*L3018*) SAug true "quadruples_res" (EAdd (EScale (1 # 1) (EVar "contracted_intermediate")) (EScale (-1 # 1) (EEins "abcdijkl->abcdikjl" [(EVar "contracted_intermediate")])));
   (*L3021*) SAug true "quadruples_res" (EScale (1 # 2) (EEins "nmef,ecik,fdjl,abnm->abcdijkl" [(ESlice (EVar "g_aaaa") [SV "o"; SV "o"; SV "v"; SV "v"]); (EVar "t2_aaaa"); (EVar "t2_abab"); (EVar "t2_aaaa")]));
   (*L3024*) SAug true "quadruples_res" (EScale (-1 # 1) (EEins "nmef,ecjk,fdml,abin->abcdijkl" [(ESlice (EVar "g_aaaa") [SV "o"; SV "o"; SV "v"; SV "v"]); (EVar "t2_aaaa"); (EVar "t2_abab"); (EVar "t2_aaaa")]));
   (*L3027*) SAug true "quadruples_res" (EScale (1 # 1) (EEins "nmef,ecjk,fdlm,abin->abcdijkl" [(ESlice (EVar "g_abab") [SV "o"; SV "o"; SV "v"; SV "v"]); (EVar "t2_aaaa"); (EVar "t2_bbbb"); (EVar "t2_aaaa")]));
   (*L3030*) SAssign "contracted_intermediate" (EScale (-1 # 2) (EEins "nmef,ecjk,fdil,abnm->abcdijkl" [(ESlice (EVar "g_aaaa") [SV "o"; SV "o"; SV "v"; SV "v"]); (EVar "t2_aaaa"); (EVar "t2_abab"); (EVar "t2_aaaa")]));
   (*L3031*) SAug true "quadruples_res" (EAdd (EScale (1 # 1) (EVar "contracted_intermediate")) (EScale (-1 # 1) (EEins "abcdijkl->abcdkjil" [(EVar "contracted_intermediate")])));
   (*L3034*) SAug true "quadruples_res" (EScale (1 # 1) (EEins "nmef,ecik,fdml,abjn->abcdijkl" [(ESlice (EVar "g_aaaa") [SV "o"; SV "o"; SV "v"; SV "v"]); (EVar "t2_aaaa"); (EVar "t2_abab"); (EVar "t2_aaaa")]));
   (*L3037*) SAug true "quadruples_res" (EScale (-1 # 1) (EEins "nmef,ecik,fdlm,abjn->abcdijkl" [(ESlice (EVar "g_abab") [SV "o"; SV "o"; SV "v"; SV "v"]); (EVar "t2_aaaa"); (EVar "t2_bbbb"); (EVar "t2_aaaa")]));
   (*L3040*) SAug true "quadruples_res" (EScale (-1 # 1) (EEins "nmef,ecij,fdml,abkn->abcdijkl" [(ESlice (EVar "g_aaaa") [SV "o"; SV "o"; SV "v"; SV "v"]); (EVar "t2_aaaa"); (EVar "t2_abab"); (EVar "t2_aaaa")]));
   (*L3043*) SAug true "quadruples_res" (EScale (1 # 1) (EEins "nmef,ecij,fdlm,abkn->abcdijkl" [(ESlice (EVar "g_abab") [SV "o"; SV "o"; SV "v"; SV "v"]); (EVar "t2_aaaa"); (EVar "t2_bbbb"); (EVar "t2_aaaa")]))]
  (*L3045*) (EVar "quadruples_res").

(** /repo/UT2/fullCCenergy.py:3048-3673  def ccsdtqT2cubed_t4_aabbaabb_residual *)
Definition ccsdtqT2cubed_t4_aabbaabb_residual : fn := mkFn
  ["t1_aa"; "t1_bb"; "t2_aaaa"; "t2_bbbb"; "t2_abab"; "t3_aaaaaa"; "t3_aabaab"; "t3_abbabb"; "t3_bbbbbb"; "t4_aaaaaaaa"; "t4_aaabaaab"; "t4_aabbaabb"; "t4_abbbabbb"; "t4_bbbbbbbb"; "f_aa"; "f_bb"; "g_aaaa"; "g_bbbb"; "g_abab"; "oa"; "ob"; "va"; "vb"]
  [(*L3056*) SAssign "o" (EVar "oa");
   (*L3057*) SAssign "v" (EVar "va");
   (*L3060*) SAssign "contracted_intermediate" (EScale (1 # 2) (EEins "nmef,efkl,acjm,bdin->abcdijkl" [(ESlice (EVar "g_bbbb") [SV "o"; SV "o"; SV "v"; SV "v"]); (EVar "t2_bbbb"); (EVar "t2_abab"); (EVar "t2_abab")]));
   (*L3061*) SAssign "quadruples_res" (EAdd (EScale (1 # 1) (EVar "contracted_intermediate")) (EScale (-1 # 1) (EEins "abcdijkl->abcdjikl" [(EVar "contracted_intermediate")])));
   (*L3064*) SAssign "contracted_intermediate" (EScale (-1 # 2) (EEins "nmef,efkl,adjm,bcin->abcdijkl" [(ESlice (EVar "g_bbbb") [SV "o"; SV "o"; SV "v"; SV "v"]); (EVar "t2_bbbb"); (EVar "t2_abab"); (EVar "t2_abab")]));
   (*L3065*) SAug true "quadruples_res" (EAdd (EScale (1 # 1) (EVar "contracted_intermediate")) (EScale (-1 # 1) (EEins "abcdijkl->abcdjikl" [(EVar "contracted_intermediate")])));
   (*L3068*) SAug true "quadruples_res" (EScale (-1 # 2) (EEins "mnef,efjl,acmk,bdin->abcdijkl" [(ESlice (EVar "g_abab") [SV "o"; SV "o"; SV "v"; SV "v"]); (EVar "t2_abab"); (EVar "t2_abab"); (EVar "t2_abab")]));
   (*L3071*) SAug true "quadruples_res" (EScale (-1 # 2) (EEins "mnfe,fejl,acmk,bdin->abcdijkl" [(ESlice (EVar "g_abab") [SV "o"; SV "o"; SV "v"; SV "v"]); (EVar "t2_abab"); (EVar "t2_abab"); (EVar "t2_abab")]));
   (*L3074*) SAug true "quadruples_res" (EScale (1 # 2) (EEins "mnef,efjl,abim,cdkn->abcdijkl" [(ESlice (EVar "g_abab") [SV "o"; SV "o"; SV "v"; SV "v"]); (EVar "t2_abab"); (EVar "t2_aaaa"); (EVar "t2_bbbb")]));
   (*L3077*) SAug true "quadruples_res" (EScale (1 # 2) (EEins "mnfe,fejl,abim,cdkn->abcdijkl" [(ESlice (EVar "g_abab") [SV "o"; SV "o"; SV "v"; SV "v"]); (EVar "t2_abab"); (EVar "t2_aaaa"); (EVar "t2_bbbb")]));
   (*L3080*) SAug true "quadruples_res" (EScale (-1 # 2) (EEins "nmef,efjl,acim,bdnk->abcdijkl" [(ESlice (EVar "g_abab") [SV "o"; SV "o"; SV "v"; SV "v"]); (EVar "t2_abab"); (EVar "t2_abab"); (EVar "t2_abab")]));
   (*L3083*) SAug true "quadruples_res" (EScale (-1 # 2) (EEins "nmfe,fejl,acim,bdnk->abcdijkl" [(ESlice (EVar "g_abab") [SV "o"; SV "o"; SV "v"; SV "v"]); (EVar "t2_abab"); (EVar "t2_abab"); (EVar "t2_abab")]));
   (*L3086*) SAug true "quadruples_res" (EScale (1 # 2) (EEins "mnef,efjl,admk,bcin->abcdijkl" [(ESlice (EVar "g_abab") [SV "o"; SV "o"; SV "v"; SV "v"]); (EVar "t2_abab"); (EVar "t2_abab"); (EVar "t2_abab")]));
   (*L3089*) SAug true "quadruples_res" (EScale (1 # 2) (EEins "mnfe,fejl,admk,bcin->abcdijkl" [(ESlice (EVar "g_abab") [SV "o"; SV "o"; SV "v"; SV "v"]); (EVar "t2_abab"); (EVar "t2_abab"); (EVar "t2_abab")]));
   (*L3092*) SAug true "quadruples_res" (EScale (1 # 2) (EEins "nmef,efjl,adim,bcnk->abcdijkl" [(ESlice (EVar "g_abab") [SV "o"; SV "o"; SV "v"; SV "v"]); (EVar "t2_abab"); (EVar "t2_abab"); (EVar "t2_abab")]));
   (*L3095*) SAug true "quadruples_res" (EScale (1 # 2) (EEins "nmfe,fejl,adim,bcnk->abcdijkl" [(ESlice (EVar "g_abab") [SV "o"; SV "o"; SV "v"; SV "v"]); (EVar "t2_abab"); (EVar "t2_abab"); (EVar "t2_abab")]));
   (*L3098*) SAug true "quadruples_res" (EScale (1 # 2) (EEins "mnef,efil,acmk,bdjn->abcdijkl" [(ESlice (EVar "g_abab") [SV "o"; SV "o"; SV "v"; SV "v"]); (EVar "t2_abab"); (EVar "t2_abab"); (EVar "t2_abab")]));
   (*L3101*) SAug true "quadruples_res" (EScale (1 # 2) (EEins "mnfe,feil,acmk,bdjn->abcdijkl" [(ESlice (EVar "g_abab") [SV "o"; SV "o"; SV "v"; SV "v"]); (EVar "t2_abab"); (EVar "t2_abab"); (EVar "t2_abab")]));
   (*L3104*) SAug true "quadruples_res" (EScale (-1 # 2) (EEins "mnef,efil,abjm,cdkn->abcdijkl" [(ESlice (EVar "g_abab") [SV "o"; SV "o"; SV "v"; SV "v"]); (EVar "t2_abab"); (EVar "t2_aaaa"); (EVar "t2_bbbb")]));
   (*L3107*) SAug true "quadruples_res" (EScale (-1 # 2) (EEins "mnfe,feil,abjm,cdkn->abcdijkl" [(ESlice (EVar "g_abab") [SV "o"; SV "o"; SV "v"; SV "v"]); (EVar "t2_abab"); (EVar "t2_aaaa"); (EVar "t2_bbbb")]));
   (*L3110*) SAug true "quadruples_res" (EScale (1 # 2) (EEins "nmef,efil,acjm,bdnk->abcdijkl" [(ESlice (EVar "g_abab") [SV "o"; SV "o"; SV "v"; SV "v"]); (EVar "t2_abab"); (EVar "t2_abab"); (EVar "t2_abab")]));
   (*L3113*) SAug true "quadruples_res" (EScale (1 # 2) (EEins "nmfe,feil,acjm,bdnk->abcdijkl" [(ESlice (EVar "g_abab") [SV "o"; SV "o"; SV "v"; SV "v"]); (EVar "t2_abab"); (EVar "t2_abab"); (EVar "t2_abab")]));
   (*L3116*) SAug true "quadruples_res" (EScale (-1 # 2) (EEins "mnef,efil,admk,bcjn->abcdijkl" [(ESlice (EVar "g_abab") [SV "o"; SV "o"; SV "v"; SV "v"]); (EVar "t2_abab"); (EVar "t2_abab"); (EVar "t2_abab")]));
   (*L3119*) SAug true "quadruples_res" (EScale (-1 # 2) (EEins "mnfe,feil,admk,bcjn->abcdijkl" [(ESlice (EVar "g_abab") [SV "o"; SV "o"; SV "v"; SV "v"]); (EVar "t2_abab"); (EVar "t2_abab"); (EVar "t2_abab")]));
   (*L3122*) SAug true "quadruples_res" (EScale (-1 # 2) (EEins "nmef,efil,adjm,bcnk->abcdijkl" [(ESlice (EVar "g_abab") [SV "o"; SV "o"; SV "v"; SV "v"]); (EVar "t2_abab"); (EVar "t2_abab"); (EVar "t2_abab")]));
   (*L3125*) SAug true "quadruples_res" (EScale (-1 # 2) (EEins "nmfe,feil,adjm,bcnk->abcdijkl" [(ESlice (EVar "g_abab") [SV "o"; SV "o"; SV "v"; SV "v"]); (EVar "t2_abab"); (EVar "t2_abab"); (EVar "t2_abab")]));
   (*L3128*) SAug true "quadruples_res" (EScale (1 # 2) (EEins "mnef,efjk,acml,bdin->abcdijkl" [(ESlice (EVar "g_abab") [SV "o"; SV "o"; SV "v"; SV "v"]); (EVar "t2_abab"); (EVar "t2_abab"); (EVar "t2_abab")]));
   (*L3131*) SAug true "quadruples_res" (EScale (1 # 2) (EEins "mnfe,fejk,acml,bdin->abcdijkl" [(ESlice (EVar "g_abab") [SV "o"; SV "o"; SV "v"; SV "v"]); (EVar "t2_abab"); (EVar "t2_abab"); (EVar "t2_abab")]));
   (*L3134*) SAug true "quadruples_res" (EScale (-1 # 2) (EEins "mnef,efjk,abim,cdln->abcdijkl" [(ESlice (EVar "g_abab") [SV "o"; SV "o"; SV "v"; SV "v"]); (EVar "t2_abab"); (EVar "t2_aaaa"); (EVar "t2_bbbb")]));
   (*L3137*) SAug true "quadruples_res" (EScale (-1 # 2) (EEins "mnfe,fejk,abim,cdln->abcdijkl" [(ESlice (EVar "g_abab") [SV "o"; SV "o"; SV "v"; SV "v"]); (EVar "t2_abab"); (EVar "t2_aaaa"); (EVar "t2_bbbb")]));
   (*L3140*) SAug true "quadruples_res" (EScale (1 # 2) (EEins "nmef,efjk,acim,bdnl->abcdijkl" [(ESlice (EVar "g_abab") [SV "o"; SV "o"; SV "v"; SV "v"]); (EVar "t2_abab"); (EVar "t2_abab"); (EVar "t2_abab")]));
   (*L3143*) SAug true "quadruples_res" (EScale (1 # 2) (EEins "nmfe,fejk,acim,bdnl->abcdijkl" [(ESlice (EVar "g_abab") [SV "o"; SV "o"; SV "v"; SV "v"]); (EVar "t2_abab"); (EVar "t2_abab"); (EVar "t2_abab")]));
   (*L3146*) SAug true "quadruples_res" (EScale (-1 # 2) (EEins "mnef,efjk,adml,bcin->abcdijkl" [(ESlice (EVar "g_abab") [SV "o"; SV "o"; SV "v"; SV "v"]); (EVar "t2_abab"); (EVar "t2_abab"); (EVar "t2_abab")]));
   (*L3149*) SAug true "quadruples_res" (EScale (-1 # 2) (EEins "mnfe,fejk,adml,bcin->abcdijkl" [(ESlice (EVar "g_abab") [SV "o"; SV "o"; SV "v"; SV "v"]); (EVar "t2_abab"); (EVar "t2_abab"); (EVar "t2_abab")]));
   (*L3152*) SAug true "quadruples_res" (EScale (-1 # 2) (EEins "nmef,efjk,adim,bcnl->abcdijkl" [(ESlice (EVar "g_abab") [SV "o"; SV "o"; SV "v"; SV "v"]); (EVar "t2_abab"); (EVar "t2_abab"); (EVar "t2_abab")]));
   (*L3155*) SAug true "quadruples_res" (EScale (-1 # 2) (EEins "nmfe,fejk,adim,bcnl->abcdijkl" [(ESlice (EVar "g_abab") [SV "o"; SV "o"; SV "v"; SV "v"]); (EVar "t2_abab"); (EVar "t2_abab"); (EVar "t2_abab")]));
   (*L3158*) SAug true "quadruples_res" (EScale (-1 # 2) (EEins "mnef,efik,acml,bdjn->abcdijkl" [(ESlice (EVar "g_abab") [SV "o"; SV "o"; SV "v"; SV "v"]); (EVar "t2_abab"); (EVar "t2_abab"); (EVar "t2_abab")]));
   (*L3161*) SAug true "quadruples_res" (EScale (-1 # 2) (EEins "mnfe,feik,acml,bdjn->abcdijkl" [(ESlice (EVar "g_abab") [SV "o"; SV "o"; SV "v"; SV "v"]); (EVar "t2_abab"); (EVar "t2_abab"); (EVar "t2_abab")]));
   (*L3164*) SAug true "quadruples_res" (EScale (1 # 2) (EEins "mnef,efik,abjm,cdln->abcdijkl" [(ESlice (EVar "g_abab") [SV "o"; SV "o"; SV "v"; SV "v"]); (EVar "t2_abab"); (EVar "t2_aaaa"); (EVar "t2_bbbb")]));
   (*L3167*) SAug true "quadruples_res" (EScale (1 # 2) (EEins "mnfe,feik,abjm,cdln->abcdijkl" [(ESlice (EVar "g_abab") [SV "o"; SV "o"; SV "v"; SV "v"]); (EVar "t2_abab"); (EVar "t2_aaaa"); (EVar "t2_bbbb")]));
   (*L3170*) SAug true "quadruples_res" (EScale (-1 # 2) (EEins "nmef,efik,acjm,bdnl->abcdijkl" [(ESlice (EVar "g_abab") [SV "o"; SV "o"; SV "v"; SV "v"]); (EVar "t2_abab"); (EVar "t2_abab"); (EVar "t2_abab")]));
   (*L3173*) SAug true "quadruples_res" (EScale (-1 # 2) (EEins "nmfe,feik,acjm,bdnl->abcdijkl" [(ESlice (EVar "g_abab") [SV "o"; SV "o"; SV "v"; SV "v"]); (EVar "t2_abab"); (EVar "t2_abab"); (EVar "t2_abab")]));
   (*L3176*) SAug true "quadruples_res" (EScale (1 # 2) (EEins "mnef,efik,adml,bcjn->abcdijkl" [(ESlice (EVar "g_abab") [SV "o"; SV "o"; SV "v"; SV "v"]); (EVar "t2_abab"); (EVar "t2_abab"); (EVar "t2_abab")]));
   (*L3179*) SAug true "quadruples_res" (EScale (1 # 2) (EEins "mnfe,feik,adml,bcjn->abcdijkl" [(ESlice (EVar "g_abab") [SV "o"; SV "o"; SV "v"; SV "v"]); (EVar "t2_abab"); (EVar "t2_abab"); (EVar "t2_abab")]));
   (*L3182*) SAug true "quadruples_res" (EScale (1 # 2) (EEins "nmef,efik,adjm,bcnl->abcdijkl" [(ESlice (EVar "g_abab") [SV "o"; SV "o"; SV "v"; SV "v"]); (EVar "t2_abab"); (EVar "t2_abab"); (EVar "t2_abab")]));
   (*L3185*) SAug true "quadruples_res" (EScale (1 # 2) (EEins "nmfe,feik,adjm,bcnl->abcdijkl" [(ESlice (EVar "g_abab") [SV "o"; SV "o"; SV "v"; SV "v"]); (EVar "t2_abab"); (EVar "t2_abab"); (EVar "t2_abab")]));
   (*L3188*) SAssign "contracted_intermediate" (EScale (1 # 2) (EEins "nmef,efij,acml,bdnk->abcdijkl" [(ESlice (EVar "g_aaaa") [SV "o"; SV "o"; SV "v"; SV "v"]); (EVar "t2_aaaa"); (EVar "t2_abab"); (EVar "t2_abab")]));
   (*L3189*) SAug true "quadruples_res" (EAdd (EScale (1 # 1) (EVar "contracted_intermediate")) (EScale (-1 # 1) (EEins "abcdijkl->abcdijlk" [(EVar "contracted_intermediate")])));
   (*L3192*) SAssign "contracted_intermediate" (EScale (-1 # 2) (EEins "nmef,efij,adml,bcnk->abcdijkl" [(ESlice (EVar "g_aaaa") [SV "o"; SV "o"; SV "v"; SV "v"]); (EVar "t2_aaaa"); (EVar "t2_abab"); (EVar "t2_abab")]));
   (*L3193*) SAug true "quadruples_res" (EAdd (EScale (1 # 1) (EVar "contracted_intermediate")) (EScale (-1 # 1) (EEins "abcdijkl->abcdijlk" [(EVar "contracted_intermediate")])));
   (*L3196*) SAssign "contracted_intermediate" (EScale (-1 # 1) (EEins "mnfe,aeml,fcjk,bdin->abcdijkl" [(ESlice (EVar "g_abab") [SV "o"; SV "o"; SV "v"; SV "v"]); (EVar "t2_abab"); (EVar "t2_abab"); (EVar "t2_abab")]));
   (*L3197*) SAug true "quadruples_res" (EAdd (EScale (1 # 1) (EVar "contracted_intermediate")) (EScale (-1 # 1) (EEins "abcdijkl->abcdjikl" [(EVar "contracted_intermediate")])));
   (*L3200*) SAssign "contracted_intermediate" (EScale (1 # 1) (EEins "mnfe,aeml,fbij,cdkn->abcdijkl" [(ESlice (EVar "g_abab") [SV "o"; SV "o"; SV "v"; SV "v"]); (EVar "t2_abab"); (EVar "t2_aaaa"); (EVar "t2_bbbb")]));
   (*L3201*) SAug true "quadruples_res" (EAdd (EScale (1 # 1) (EVar "contracted_intermediate")) (EScale (-1 # 1) (EEins "abcdijkl->abcdijlk" [(EVar "contracted_intermediate")])));
   (*L3204*) SAssign "contracted_intermediate" (EScale (1 # 1) (EEins "mnfe,aeml,fdjk,bcin->abcdijkl" [(ESlice (EVar "g_abab") [SV "o"; SV "o"; SV "v"; SV "v"]); (EVar "t2_abab"); (EVar "t2_abab"); (EVar "t2_abab")]));
   (*L3205*) SAug true "quadruples_res" (EAdd (EAdd (EAdd (EScale (1 # 1) (EVar "contracted_intermediate")) (EScale (-1 # 1) (EEins "abcdijkl->abcdjikl" [(EVar "contracted_intermediate")]))) (EScale (-1 # 1) (EEins "abcdijkl->bacdijkl" [(EVar "contracted_intermediate")]))) (EScale (1 # 1) (EEins "abcdijkl->bacdjikl" [(EVar "contracted_intermediate")])));
   (*L3208*) SAssign "contracted_intermediate" (EScale (1 # 1) (EEins "mnfe,aemk,fcjl,bdin->abcdijkl" [(ESlice (EVar "g_abab") [SV "o"; SV "o"; SV "v"; SV "v"]); (EVar "t2_abab"); (EVar "t2_abab"); (EVar "t2_abab")]));
   (*L3209*) SAug true "quadruples_res" (EAdd (EScale (1 # 1) (EVar "contracted_intermediate")) (EScale (-1 # 1) (EEins "abcdijkl->abcdjikl" [(EVar "contracted_intermediate")])));
   (*L3212*) SAssign "contracted_intermediate" (EScale (-1 # 1) (EEins "mnfe,aemk,fdjl,bcin->abcdijkl" [(ESlice (EVar "g_abab") [SV "o"; SV "o"; SV "v"; SV "v"]); (EVar "t2_abab"); (EVar "t2_abab"); (EVar "t2_abab")]));
   (*L3213*) SAug true "quadruples_res" (EAdd (EAdd (EAdd (EScale (1 # 1) (EVar "contracted_intermediate")) (EScale (-1 # 1) (EEins "abcdijkl->abcdjikl" [(EVar "contracted_intermediate")]))) (EScale (-1 # 1) (EEins "abcdijkl->bacdijkl" [(EVar "contracted_intermediate")]))) (EScale (1 # 1) (EEins "abcdijkl->bacdjikl" [(EVar "contracted_intermediate")])));
   (*L3216*) SAug true "quadruples_res" (EScale (1 # 1) (EEins "mnef,eajm,fckl,bdin->abcdijkl" [(ESlice (EVar "g_abab") [SV "o"; SV "o"; SV "v"; SV "v"]); (EVar "t2_aaaa"); (EVar "t2_bbbb"); (EVar "t2_abab")]));
   (*L3219*) SAug true "quadruples_res" (EScale (1 # 1) (EEins "nmef,aejm,fckl,bdin->abcdijkl" [(ESlice (EVar "g_bbbb") [SV "o"; SV "o"; SV "v"; SV "v"]); (EVar "t2_abab"); (EVar "t2_bbbb"); (EVar "t2_abab")]));
   (*L3222*) SAug true "quadruples_res" (EScale (-1 # 1) (EEins "mnef,eajm,bfil,cdkn->abcdijkl" [(ESlice (EVar "g_abab") [SV "o"; SV "o"; SV "v"; SV "v"]); (EVar "t2_aaaa"); (EVar "t2_abab"); (EVar "t2_bbbb")]));
   (*L3225*) SAug true "quadruples_res" (EScale (-1 # 1) (EEins "nmef,aejm,bfil,cdkn->abcdijkl" [(ESlice (EVar "g_bbbb") [SV "o"; SV "o"; SV "v"; SV "v"]); (EVar "t2_abab"); (EVar "t2_abab"); (EVar "t2_bbbb")]));
   (*L3228*) SAug true "quadruples_res" (EScale (-1 # 1) (EEins "nmef,eajm,fcil,bdnk->abcdijkl" [(ESlice (EVar "g_aaaa") [SV "o"; SV "o"; SV "v"; SV "v"]); (EVar "t2_aaaa"); (EVar "t2_abab"); (EVar "t2_abab")]));
   (*L3231*) SAug true "quadruples_res" (EScale (-1 # 1) (EEins "nmfe,aejm,fcil,bdnk->abcdijkl" [(ESlice (EVar "g_abab") [SV "o"; SV "o"; SV "v"; SV "v"]); (EVar "t2_abab"); (EVar "t2_abab"); (EVar "t2_abab")]));
   (*L3234*) SAssign "contracted_intermediate" (EScale (1 # 1) (EEins "mnef,eajm,bfik,cdln->abcdijkl" [(ESlice (EVar "g_abab") [SV "o"; SV "o"; SV "v"; SV "v"]); (EVar "t2_aaaa"); (EVar "t2_abab"); (EVar "t2_bbbb")]));
   (*L3235*) SAug true "quadruples_res" (EAdd (EScale (1 # 1) (EVar "contracted_intermediate")) (EScale (-1 # 1) (EEins "abcdijkl->abcdjikl" [(EVar "contracted_intermediate")])));
   (*L3238*) SAssign "contracted_intermediate" (EScale (1 # 1) (EEins "nmef,aejm,bfik,cdln->abcdijkl" [(ESlice (EVar "g_bbbb") [SV "o"; SV "o"; SV "v"; SV "v"]); (EVar "t2_abab"); (EVar "t2_abab"); (EVar "t2_bbbb")]));
   (*L3239*) SAug true "quadruples_res" (EAdd (EScale (1 # 1) (EVar "contracted_intermediate")) (EScale (-1 # 1) (EEins "abcdijkl->abcdjikl" [(EVar "contracted_intermediate")])));
   (*L3242*) SAssign "contracted_intermediate" (EScale (1 # 1) (EEins "nmef,eajm,fcik,bdnl->abcdijkl" [(ESlice (EVar "g_aaaa") [SV "o"; SV "o"; SV "v"; SV "v"]); (EVar "t2_aaaa"); (EVar "t2_abab"); (EVar "t2_abab")]));
   (*L3243*) SAug true "quadruples_res" (EAdd (EScale (1 # 1) (EVar "contracted_intermediate")) (EScale (-1 # 1) (EEins "abcdijkl->abcdjikl" [(EVar "contracted_intermediate")])));
   (*L3246*) SAssign "contracted_intermediate" (EScale (1 # 1) (EEins "nmfe,aejm,fcik,bdnl->abcdijkl" [(ESlice (EVar "g_abab") [SV "o"; SV "o"; SV "v"; SV "v"]); (EVar "t2_abab"); (EVar "t2_abab"); (EVar "t2_abab")]));
   (*L3247*) SAug true "quadruples_res" (EAdd (EScale (1 # 1) (EVar "contracted_intermediate")) (EScale (-1 # 1) (EEins "abcdijkl->abcdjikl" [(EVar "contracted_intermediate")])));
   (*L3250*) SAssign "contracted_intermediate" (EScale (-1 # 1) (EEins "mnef,eajm,fdkl,bcin->abcdijkl" [(ESlice (EVar "g_abab") [SV "o"; SV "o"; SV "v"; SV "v"]); (EVar "t2_aaaa"); (EVar "t2_bbbb"); (EVar "t2_abab")]));
   (*L3251*) SAug true "quadruples_res" (EAdd (EScale (1 # 1) (EVar "contracted_intermediate")) (EScale (-1 # 1) (EEins "abcdijkl->bacdijkl" [(EVar "contracted_intermediate")])));
   (*L3254*) SAssign "contracted_intermediate" (EScale (-1 # 1) (EEins "nmef,aejm,fdkl,bcin->abcdijkl" [(ESlice (EVar "g_bbbb") [SV "o"; SV "o"; SV "v"; SV "v"]); (EVar "t2_abab"); (EVar "t2_bbbb"); (EVar "t2_abab")]));
   (*L3255*) SAug true "quadruples_res" (EAdd (EScale (1 # 1) (EVar "contracted_intermediate")) (EScale (-1 # 1) (EEins "abcdijkl->bacdijkl" [(EVar "contracted_intermediate")])));
   (*L3258*) SAssign "contracted_intermediate" (EScale (1 # 1) (EEins "nmef,eajm,fdil,bcnk->abcdijkl" [(ESlice (EVar "g_aaaa") [SV "o"; SV "o"; SV "v"; SV "v"]); (EVar "t2_aaaa"); (EVar "t2_abab"); (EVar "t2_abab")]));
   (*L3259*) SAug true "quadruples_res" (EAdd (EScale (1 # 1) (EVar "contracted_intermediate")) (EScale (-1 # 1) (EEins "abcdijkl->bacdijkl" [(EVar "contracted_intermediate")])));
   (*L3262*) SAssign "contracted_intermediate" (EScale (1 # 1) (EEins "nmfe,aejm,fdil,bcnk->abcdijkl" [(ESlice (EVar "g_abab") [SV "o"; SV "o"; SV "v"; SV "v"]); (EVar "t2_abab"); (EVar "t2_abab"); (EVar "t2_abab")]));
   (*L3263*) SAug true "quadruples_res" (EAdd (EScale (1 # 1) (EVar "contracted_intermediate")) (EScale (-1 # 1) (EEins "abcdijkl->bacdijkl" [(EVar "contracted_intermediate")])));
   (*L3266*) SAssign "contracted_intermediate" (EScale (-1 # 1) (EEins "nmef,eajm,fdik,bcnl->abcdijkl" [(ESlice (EVar "g_aaaa") [SV "o"; SV "o"; SV "v"; SV "v"]); (EVar "t2_aaaa"); (EVar "t2_abab"); (EVar "t2_abab")]));
   (*L3267*) SAug true "quadruples_res" (EAdd (EAdd (EAdd (EScale (1 # 1) (EVar "contracted_intermediate")) (EScale (-1 # 1) (EEins "abcdijkl->abcdjikl" [(EVar "contracted_intermediate")]))) (EScale (-1 # 1) (EEins "abcdijkl->bacdijkl" [(EVar "contracted_intermediate")]))) (EScale (1 # 1) (EEins "abcdijkl->bacdjikl" [(EVar "contracted_intermediate")])));
   (*L3270*) SAssign "contracted_intermediate" (EScale (-1 # 1) (EEins "nmfe,aejm,fdik,bcnl->abcdijkl" [(ESlice (EVar "g_abab") [SV "o"; SV "o"; SV "v"; SV "v"]); (EVar "t2_abab"); (EVar "t2_abab"); (EVar "t2_abab")]));
   (*L3271*) SAug true "quadruples_res" (EAdd (EAdd (EAdd (EScale (1 # 1) (EVar "contracted_intermediate")) (EScale (-1 # 1) (EEins "abcdijkl->abcdjikl" [(EVar "contracted_intermediate")]))) (EScale (-1 # 1) (EEins "abcdijkl->bacdijkl" [(EVar "contracted_intermediate")]))) (EScale (1 # 1) (EEins "abcdijkl->bacdjikl" [(EVar "contracted_intermediate")])));
   (*L3274*) SAug true "quadruples_res" (EScale (-1 # 1) (EEins "mnef,eaim,fckl,bdjn->abcdijkl" [(ESlice (EVar "g_abab") [SV "o"; SV "o"; SV "v"; SV "v"]); (EVar "t2_aaaa"); (EVar "t2_bbbb"); (EVar "t2_abab")]));
   (*L3277*) SAug true "quadruples_res" (EScale (-1 # 1) (EEins "nmef,aeim,fckl,bdjn->abcdijkl" [(ESlice (EVar "g_bbbb") [SV "o"; SV "o"; SV "v"; SV "v"]); (EVar "t2_abab"); (EVar "t2_bbbb"); (EVar "t2_abab")]));
   (*L3280*) SAug true "quadruples_res" (EScale (1 # 1) (EEins "mnef,eaim,bfjl,cdkn->abcdijkl" [(ESlice (EVar "g_abab") [SV "o"; SV "o"; SV "v"; SV "v"]); (EVar "t2_aaaa"); (EVar "t2_abab"); (EVar "t2_bbbb")]));
   (*L3283*) SAug true "quadruples_res" (EScale (1 # 1) (EEins "nmef,aeim,bfjl,cdkn->abcdijkl" [(ESlice (EVar "g_bbbb") [SV "o"; SV "o"; SV "v"; SV "v"]); (EVar "t2_abab"); (EVar "t2_abab"); (EVar "t2_bbbb")]));
   (*L3286*) SAug true "quadruples_res" (EScale (1 # 1) (EEins "nmef,eaim,fcjl,bdnk->abcdijkl" [(ESlice (EVar "g_aaaa") [SV "o"; SV "o"; SV "v"; SV "v"]); (EVar "t2_aaaa"); (EVar "t2_abab"); (EVar "t2_abab")]));
   (*L3289*) SAug true "quadruples_res" (EScale (1 # 1) (EEins "nmfe,aeim,fcjl,bdnk->abcdijkl" [(ESlice (EVar "g_abab") [SV "o"; SV "o"; SV "v"; SV "v"]); (EVar "t2_abab"); (EVar "t2_abab"); (EVar "t2_abab")]));
   (*L3292*) SAssign "contracted_intermediate" (EScale (1 # 1) (EEins "mnef,eaim,fdkl,bcjn->abcdijkl" [(ESlice (EVar "g_abab") [SV "o"; SV "o"; SV "v"; SV "v"]); (EVar "t2_aaaa"); (EVar "t2_bbbb"); (EVar "t2_abab")]));
   (*L3293*) SAug true "quadruples_res" (EAdd (EScale (1 # 1) (EVar "contracted_intermediate")) (EScale (-1 # 1) (EEins "abcdijkl->bacdijkl" [(EVar "contracted_intermediate")])));
   (*L3296*) SAssign "contracted_intermediate" (EScale (1 # 1) (EEins "nmef,aeim,fdkl,bcjn->abcdijkl" [(ESlice (EVar "g_bbbb") [SV "o"; SV "o"; SV "v"; SV "v"]); (EVar "t2_abab"); (EVar "t2_bbbb"); (EVar "t2_abab")]));
   (*L3297*) SAug true "quadruples_res" (EAdd (EScale (1 # 1) (EVar "contracted_intermediate")) (EScale (-1 # 1) (EEins "abcdijkl->bacdijkl" [(EVar "contracted_intermediate")])));
   (*L3300*) SAssign "contracted_intermediate" (EScale (-1 # 1) (EEins "nmef,eaim,fdjl,bcnk->abcdijkl" [(ESlice (EVar "g_aaaa") [SV "o"; SV "o"; SV "v"; SV "v"]); (EVar "t2_aaaa"); (EVar "t2_abab"); (EVar "t2_abab")]));
   (*L3301*) SAug true "quadruples_res" (EAdd (EScale (1 # 1) (EVar "contracted_intermediate")) (EScale (-1 # 1) (EEins "abcdijkl->bacdijkl" [(EVar "contracted_intermediate")])));
   (*L3304*) SAssign "contracted_intermediate" (EScale (-1 # 1) (EEins "nmfe,aeim,fdjl,bcnk->abcdijkl" [(ESlice (EVar "g_abab") [SV "o"; SV "o"; SV "v"; SV "v"]); (EVar "t2_abab"); (EVar "t2_abab"); (EVar "t2_abab")]));
   (*L3305*) SAug true "quadruples_res" (EAdd (EScale (1 # 1) (EVar "contracted_intermediate")) (EScale (-1 # 1) (EEins "abcdijkl->bacdijkl" [(EVar "contracted_intermediate")])));
   (*L3308*) SAug true "quadruples_res" (EScale (1 # 2) (EEins "nmef,aejl,bfik,cdnm->abcdijkl" [(ESlice (EVar "g_bbbb") [SV "o"; SV "o"; SV "v"; SV "v"]); (EVar "t2_abab"); (EVar "t2_abab"); (EVar "t2_bbbb")]));
   (*L3311*) SAug true "quadruples_res" (EScale (-1 # 2) (EEins "nmfe,aejl,fcik,bdnm->abcdijkl" [(ESlice (EVar "g_abab") [SV "o"; SV "o"; SV "v"; SV "v"]); (EVar "t2_abab"); (EVar "t2_abab"); (EVar "t2_abab")]));
   (*L3314*) SAug true "quadruples_res" (EScale (-1 # 2) (EEins "mnfe,aejl,fcik,bdmn->abcdijkl" [(ESlice (EVar "g_abab") [SV "o"; SV "o"; SV "v"; SV "v"]); (EVar "t2_abab"); (EVar "t2_abab"); (EVar "t2_abab")]));
   (*L3317*) SAssign "contracted_intermediate" (EScale (1 # 2) (EEins "nmfe,aejl,fdik,bcnm->abcdijkl" [(ESlice (EVar "g_abab") [SV "o"; SV "o"; SV "v"; SV "v"]); (EVar "t2_abab"); (EVar "t2_abab"); (EVar "t2_abab")]));
   (*L3318*) SAug true "quadruples_res" (EAdd (EScale (1 # 1) (EVar "contracted_intermediate")) (EScale (-1 # 1) (EEins "abcdijkl->bacdijkl" [(EVar "contracted_intermediate")])));
   (*L3321*) SAssign "contracted_intermediate" (EScale (1 # 2) (EEins "mnfe,aejl,fdik,bcmn->abcdijkl" [(ESlice (EVar "g_abab") [SV "o"; SV "o"; SV "v"; SV "v"]); (EVar "t2_abab"); (EVar "t2_abab"); (EVar "t2_abab")]));
   (*L3322*) SAug true "quadruples_res" (EAdd (EScale (1 # 1) (EVar "contracted_intermediate")) (EScale (-1 # 1) (EEins "abcdijkl->bacdijkl" [(EVar "contracted_intermediate")])));
   (*L3325*) SAug true "quadruples_res" (EScale (1 # 1) (EEins "mnfe,aejl,fcmk,bdin->abcdijkl" [(ESlice (EVar "g_abab") [SV "o"; SV "o"; SV "v"; SV "v"]); (EVar "t2_abab"); (EVar "t2_abab"); (EVar "t2_abab")]));
   (*L3328*) SAug true "quadruples_res" (EScale (-1 # 1) (EEins "nmef,aejl,fckm,bdin->abcdijkl" [(ESlice (EVar "g_bbbb") [SV "o"; SV "o"; SV "v"; SV "v"]); (EVar "t2_abab"); (EVar "t2_bbbb"); (EVar "t2_abab")]));
   (*L3331*) SAug true "quadruples_res" (EScale (-1 # 1) (EEins "mnfe,aejl,fbim,cdkn->abcdijkl" [(ESlice (EVar "g_abab") [SV "o"; SV "o"; SV "v"; SV "v"]); (EVar "t2_abab"); (EVar "t2_aaaa"); (EVar "t2_bbbb")]));
   (*L3334*) SAug true "quadruples_res" (EScale (1 # 1) (EEins "nmef,aejl,bfim,cdkn->abcdijkl" [(ESlice (EVar "g_bbbb") [SV "o"; SV "o"; SV "v"; SV "v"]); (EVar "t2_abab"); (EVar "t2_abab"); (EVar "t2_bbbb")]));
   (*L3337*) SAug true "quadruples_res" (EScale (1 # 1) (EEins "nmfe,aejl,fcim,bdnk->abcdijkl" [(ESlice (EVar "g_abab") [SV "o"; SV "o"; SV "v"; SV "v"]); (EVar "t2_abab"); (EVar "t2_abab"); (EVar "t2_abab")]));
   (*L3340*) SAssign "contracted_intermediate" (EScale (-1 # 1) (EEins "mnfe,aejl,fdmk,bcin->abcdijkl" [(ESlice (EVar "g_abab") [SV "o"; SV "o"; SV "v"; SV "v"]); (EVar "t2_abab"); (EVar "t2_abab"); (EVar "t2_abab")]));
   (*L3341*) SAug true "quadruples_res" (EAdd (EScale (1 # 1) (EVar "contracted_intermediate")) (EScale (-1 # 1) (EEins "abcdijkl->bacdijkl" [(EVar "contracted_intermediate")])));
   (*L3344*) SAssign "contracted_intermediate" (EScale (1 # 1) (EEins "nmef,aejl,fdkm,bcin->abcdijkl" [(ESlice (EVar "g_bbbb") [SV "o"; SV "o"; SV "v"; SV "v"]); (EVar "t2_abab"); (EVar "t2_bbbb"); (EVar "t2_abab")]));
   (*L3345*) SAug true "quadruples_res" (EAdd (EScale (1 # 1) (EVar "contracted_intermediate")) (EScale (-1 # 1) (EEins "abcdijkl->bacdijkl" [(EVar "contracted_intermediate")])));
   (*L3348*) SAssign "contracted_intermediate" (EScale (-1 # 1) (EEins "nmfe,aejl,fdim,bcnk->abcdijkl" [(ESlice (EVar "g_abab") [SV "o"; SV "o"; SV "v"; SV "v"]); (EVar "t2_abab"); (EVar "t2_abab"); (EVar "t2_abab")]));
   (*L3349*) SAug true "quadruples_res" (EAdd (EScale (1 # 1) (EVar "contracted_intermediate")) (EScale (-1 # 1) (EEins "abcdijkl->bacdijkl" [(EVar "contracted_intermediate")])));
   (*L3352*) SAug true "quadruples_res" (EScale (-1 # 1) (EEins "mnfe,aeil,fcmk,bdjn->abcdijkl" [(ESlice (EVar "g_abab") [SV "o"; SV "o"; SV "v"; SV "v"]); (EVar "t2_abab"); (EVar "t2_abab"); (EVar "t2_abab")]));
   (*L3355*) SAug true "quadruples_res" (EScale (1 # 1) (EEins "nmef,aeil,fckm,bdjn->abcdijkl" [(ESlice (EVar "g_bbbb") [SV "o"; SV "o"; SV "v"; SV "v"]); (EVar "t2_abab"); (EVar "t2_bbbb"); (EVar "t2_abab")]));
   (*L3358*) SAug true "quadruples_res" (EScale (1 # 1) (EEins "mnfe,aeil,fbjm,cdkn->abcdijkl" [(ESlice (EVar "g_abab") [SV "o"; SV "o"; SV "v"; SV "v"]); (EVar "t2_abab"); (EVar "t2_aaaa"); (EVar "t2_bbbb")]));
   (*L3361*) SAug true "quadruples_res" (EScale (-1 # 1) (EEins "nmef,aeil,bfjm,cdkn->abcdijkl" [(ESlice (EVar "g_bbbb") [SV "o"; SV "o"; SV "v"; SV "v"]); (EVar "t2_abab"); (EVar "t2_abab"); (EVar "t2_bbbb")]));
   (*L3364*) SAug true "quadruples_res" (EScale (-1 # 1) (EEins "nmfe,aeil,fcjm,bdnk->abcdijkl" [(ESlice (EVar "g_abab") [SV "o"; SV "o"; SV "v"; SV "v"]); (EVar "t2_abab"); (EVar "t2_abab"); (EVar "t2_abab")]));
   (*L3367*) SAssign "contracted_intermediate" (EScale (-1 # 2) (EEins "nmef,aeil,bfjk,cdnm->abcdijkl" [(ESlice (EVar "g_bbbb") [SV "o"; SV "o"; SV "v"; SV "v"]); (EVar "t2_abab"); (EVar "t2_abab"); (EVar "t2_bbbb")]));
   (*L3368*) SAug true "quadruples_res" (EAdd (EScale (1 # 1) (EVar "contracted_intermediate")) (EScale (-1 # 1) (EEins "abcdijkl->abcdijlk" [(EVar "contracted_intermediate")])));
   (*L3371*) SAssign "contracted_intermediate" (EScale (1 # 2) (EEins "nmfe,aeil,fcjk,bdnm->abcdijkl" [(ESlice (EVar "g_abab") [SV "o"; SV "o"; SV "v"; SV "v"]); (EVar "t2_abab"); (EVar "t2_abab"); (EVar "t2_abab")]));
   (*L3372*) SAug true "quadruples_res" (EAdd (EScale (1 # 1) (EVar "contracted_intermediate")) (EScale (-1 # 1) (EEins "abcdijkl->abcdijlk" [(EVar "contracted_intermediate")])));
   (*L3375*) SAssign "contracted_intermediate" (EScale (1 # 2) (EEins "mnfe,aeil,fcjk,bdmn->abcdijkl" [(ESlice (EVar "g_abab") [SV "o"; SV "o"; SV "v"; SV "v"]); (EVar "t2_abab"); (EVar "t2_abab"); (EVar "t2_abab")]));
   (*L3376*) SAug true "quadruples_res" (EAdd (EScale (1 # 1) (EVar "contracted_intermediate")) (EScale (-1 # 1) (EEins "abcdijkl->abcdijlk" [(EVar "contracted_intermediate")])));
   (*L3379*) SAssign "contracted_intermediate" (EScale (1 # 1) (EEins "mnfe,aeil,fdmk,bcjn->abcdijkl" [(ESlice (EVar "g_abab") [SV "o"; SV "o"; SV "v"; SV "v"]); (EVar "t2_abab"); (EVar "t2_abab"); (EVar "t2_abab")]));
   (*L3380*) SAug true "quadruples_res" (EAdd (EScale (1 # 1) (EVar "contracted_intermediate")) (EScale (-1 # 1) (EEins "abcdijkl->bacdijkl" [(EVar "contracted_intermediate")])));
   (*L3383*) SAssign "contracted_intermediate" (EScale (-1 # 1) (EEins "nmef,aeil,fdkm,bcjn->abcdijkl" [(ESlice (EVar "g_bbbb") [SV "o"; SV "o"; SV "v"; SV "v"]); (EVar "t2_abab"); (EVar "t2_bbbb"); (EVar "t2_abab")]));
   (*L3384*) SAug true "quadruples_res" (EAdd (EScale (1 # 1) (EVar "contracted_intermediate")) (EScale (-1 # 1) (EEins "abcdijkl->bacdijkl" [(EVar "contracted_intermediate")])));
   (*L3387*) SAssign "contracted_intermediate" (EScale (1 # 1) (EEins "nmfe,aeil,fdjm,bcnk->abcdijkl" [(ESlice (EVar "g_abab") [SV "o"; SV "o"; SV "v"; SV "v"]); (EVar "t2_abab"); (EVar "t2_abab"); (EVar "t2_abab")]));
   (*L3388*) SAug true "quadruples_res" (EAdd (EScale (1 # 1) (EVar "contracted_intermediate")) (EScale (-1 # 1) (EEins "abcdijkl->bacdijkl" [(EVar "contracted_intermediate")])));
   (*L3391*) SAssign "contracted_intermediate" (EScale (-1 # 2) (EEins "nmfe,aeil,fdjk,bcnm->abcdijkl" [(ESlice (EVar "g_abab") [SV "o"; SV "o"; SV "v"; SV "v"]); (EVar "t2_abab"); (EVar "t2_abab"); (EVar "t2_abab")]));
   (*L3392*) SAug true "quadruples_res" (EAdd (EAdd (EAdd (EScale (1 # 1) (EVar "contracted_intermediate")) (EScale (-1 # 1) (EEins "abcdijkl->abcdijlk" [(EVar "contracted_intermediate")]))) (EScale (-1 # 1) (EEins "abcdijkl->bacdijkl" [(EVar "contracted_intermediate")]))) (EScale (1 # 1) (EEins "abcdijkl->bacdijlk" [(EVar "contracted_intermediate")])));
   (*L3395*) SAssign "contracted_intermediate" (EScale (-1 # 2) (EEins "mnfe,aeil,fdjk,bcmn->abcdijkl" [(ESlice (EVar "g_abab") [SV "o"; SV "o"; SV "v"; SV "v"]); (EVar "t2_abab"); (EVar "t2_abab"); (EVar "t2_abab")]));
   (*L3396*) SAug true "quadruples_res" (EAdd (EAdd (EAdd (EScale (1 # 1) (EVar "contracted_intermediate")) (EScale (-1 # 1) (EEins "abcdijkl->abcdijlk" [(EVar "contracted_intermediate")]))) (EScale (-1 # 1) (EEins "abcdijkl->bacdijkl" [(EVar "contracted_intermediate")]))) (EScale (1 # 1) (EEins "abcdijkl->bacdijlk" [(EVar "contracted_intermediate")])));
   (*L3399*) SAug true "quadruples_res" (EScale (-1 # 1) (EEins "mnfe,aejk,fcml,bdin->abcdijkl" [(ESlice (EVar "g_abab") [SV "o"; SV "o"; SV "v"; SV "v"]); (EVar "t2_abab"); (EVar "t2_abab"); (EVar "t2_abab")]));
   (*L3402*) SAug true "quadruples_res" (EScale (1 # 1) (EEins "nmef,aejk,fclm,bdin->abcdijkl" [(ESlice (EVar "g_bbbb") [SV "o"; SV "o"; SV "v"; SV "v"]); (EVar "t2_abab"); (EVar "t2_bbbb"); (EVar "t2_abab")]));
   (*L3405*) SAug true "quadruples_res" (EScale (1 # 1) (EEins "mnfe,aejk,fbim,cdln->abcdijkl" [(ESlice (EVar "g_abab") [SV "o"; SV "o"; SV "v"; SV "v"]); (EVar "t2_abab"); (EVar "t2_aaaa"); (EVar "t2_bbbb")]));
   (*L3408*) SAug true "quadruples_res" (EScale (-1 # 1) (EEins "nmef,aejk,bfim,cdln->abcdijkl" [(ESlice (EVar "g_bbbb") [SV "o"; SV "o"; SV "v"; SV "v"]); (EVar "t2_abab"); (EVar "t2_abab"); (EVar "t2_bbbb")]));
   (*L3411*) SAug true "quadruples_res" (EScale (-1 # 1) (EEins "nmfe,aejk,fcim,bdnl->abcdijkl" [(ESlice (EVar "g_abab") [SV "o"; SV "o"; SV "v"; SV "v"]); (EVar "t2_abab"); (EVar "t2_abab"); (EVar "t2_abab")]));
   (*L3414*) SAug true "quadruples_res" (EScale (-1 # 2) (EEins "nmef,aejk,bfil,cdnm->abcdijkl" [(ESlice (EVar "g_bbbb") [SV "o"; SV "o"; SV "v"; SV "v"]); (EVar "t2_abab"); (EVar "t2_abab"); (EVar "t2_bbbb")]));
   (*L3417*) SAug true "quadruples_res" (EScale (1 # 2) (EEins "nmfe,aejk,fcil,bdnm->abcdijkl" [(ESlice (EVar "g_abab") [SV "o"; SV "o"; SV "v"; SV "v"]); (EVar "t2_abab"); (EVar "t2_abab"); (EVar "t2_abab")]));
   (*L3420*) SAug true "quadruples_res" (EScale (1 # 2) (EEins "mnfe,aejk,fcil,bdmn->abcdijkl" [(ESlice (EVar "g_abab") [SV "o"; SV "o"; SV "v"; SV "v"]); (EVar "t2_abab"); (EVar "t2_abab"); (EVar "t2_abab")]));
   (*L3423*) SAug true "quadruples_res" (EScale (-1 # 2) (EEins "nmef,eaji,fckl,bdnm->abcdijkl" [(ESlice (EVar "g_abab") [SV "o"; SV "o"; SV "v"; SV "v"]); (EVar "t2_aaaa"); (EVar "t2_bbbb"); (EVar "t2_abab")]));
   (*L3426*) SAug true "quadruples_res" (EScale (-1 # 2) (EEins "mnef,eaji,fckl,bdmn->abcdijkl" [(ESlice (EVar "g_abab") [SV "o"; SV "o"; SV "v"; SV "v"]); (EVar "t2_aaaa"); (EVar "t2_bbbb"); (EVar "t2_abab")]));
   (*L3429*) SAssign "contracted_intermediate" (EScale (1 # 1) (EEins "mnfe,aejk,fdml,bcin->abcdijkl" [(ESlice (EVar "g_abab") [SV "o"; SV "o"; SV "v"; SV "v"]); (EVar "t2_abab"); (EVar "t2_abab"); (EVar "t2_abab")]));
   (*L3430*) SAug true "quadruples_res" (EAdd (EScale (1 # 1) (EVar "contracted_intermediate")) (EScale (-1 # 1) (EEins "abcdijkl->bacdijkl" [(EVar "contracted_intermediate")])));
   (*L3433*) SAssign "contracted_intermediate" (EScale (-1 # 1) (EEins "nmef,aejk,fdlm,bcin->abcdijkl" [(ESlice (EVar "g_bbbb") [SV "o"; SV "o"; SV "v"; SV "v"]); (EVar "t2_abab"); (EVar "t2_bbbb"); (EVar "t2_abab")]));
   (*L3434*) SAug true "quadruples_res" (EAdd (EScale (1 # 1) (EVar "contracted_intermediate")) (EScale (-1 # 1) (EEins "abcdijkl->bacdijkl" [(EVar "contracted_intermediate")])));
   (*L3437*) SAssign "contracted_intermediate" (EScale (1 # 1) (EEins "nmfe,aejk,fdim,bcnl->abcdijkl" [(ESlice (EVar "g_abab") [SV "o"; SV "o"; SV "v"; SV "v"]); (EVar "t2_abab"); (EVar "t2_abab"); (EVar "t2_abab")]));
   (*L3438*) SAug true "quadruples_res" (EAdd (EScale (1 # 1) (EVar "contracted_intermediate")) (EScale (-1 # 1) (EEins "abcdijkl->bacdijkl" [(EVar "contracted_intermediate")])));
   (*L3441*) SAssign "contracted_intermediate" (EScale (-1 # 2) (EEins "nmfe,aejk,fdil,bcnm->abcdijkl" [(ESlice (EVar "g_abab") [SV "o"; SV "o"; SV "v"; SV "v"]); (EVar "t2_abab"); (EVar "t2_abab"); (EVar "t2_abab")]));
   (*L3442*) SAug true "quadruples_res" (EAdd (EScale (1 # 1) (EVar "contracted_intermediate")) (EScale (-1 # 1) (EEins "abcdijkl->bacdijkl" [(EVar "contracted_intermediate")])));
   (*L3445*) SAssign "contracted_intermediate" (EScale (-1 # 2) (EEins "mnfe,aejk,fdil,bcmn->abcdijkl" [(ESlice (EVar "g_abab") [SV "o"; SV "o"; SV "v"; SV "v"]); (EVar "t2_abab"); (EVar "t2_abab"); (EVar "t2_abab")]));
   (*L3446*) SAug true "quadruples_res" (EAdd (EScale (1 # 1) (EVar "contracted_intermediate")) (EScale (-1 # 1) (EEins "abcdijkl->bacdijkl" [(EVar "contracted_intermediate")])));
   (*L3449*) SAssign "contracted_intermediate" (EScale (1 # 2) (EEins "nmef,eaji,fdkl,bcnm->abcdijkl" [(ESlice (EVar "g_abab") [SV "o"; SV "o"; SV "v"; SV "v"]); (EVar "t2_aaaa"); (EVar "t2_bbbb"); (EVar "t2_abab")]));
   (*L3450*) SAug true "quadruples_res" (EAdd (EScale (1 # 1) (EVar "contracted_intermediate")) (EScale (-1 # 1) (EEins "abcdijkl->bacdijkl" [(EVar "contracted_intermediate")])));
   (*L3453*) SAssign "contracted_intermediate" (EScale (1 # 2) (EEins "mnef,eaji,fdkl,bcmn->abcdijkl" [(ESlice (EVar "g_abab") [SV "o"; SV "o"; SV "v"; SV "v"]); (EVar "t2_aaaa"); (EVar "t2_bbbb"); (EVar "t2_abab")]));
   (*L3454*) SAug true "quadruples_res" (EAdd (EScale (1 # 1) (EVar "contracted_intermediate")) (EScale (-1 # 1) (EEins "abcdijkl->bacdijkl" [(EVar "contracted_intermediate")])));
   (*L3457*) SAug true "quadruples_res" (EScale (1 # 1) (EEins "mnfe,aeik,fcml,bdjn->abcdijkl" [(ESlice (EVar "g_abab") [SV "o"; SV "o"; SV "v"; SV "v"]); (EVar "t2_abab"); (EVar "t2_abab"); (EVar "t2_abab")]));
   (*L3460*) SAug true "quadruples_res" (EScale (-1 # 1) (EEins "nmef,aeik,fclm,bdjn->abcdijkl" [(ESlice (EVar "g_bbbb") [SV "o"; SV "o"; SV "v"; SV "v"]); (EVar "t2_abab"); (EVar "t2_bbbb"); (EVar "t2_abab")]));
   (*L3463*) SAug true "quadruples_res" (EScale (-1 # 1) (EEins "mnfe,aeik,fbjm,cdln->abcdijkl" [(ESlice (EVar "g_abab") [SV "o"; SV "o"; SV "v"; SV "v"]); (EVar "t2_abab"); (EVar "t2_aaaa"); (EVar "t2_bbbb")]));
   (*L3466*) SAug true "quadruples_res" (EScale (1 # 1) (EEins "nmef,aeik,bfjm,cdln->abcdijkl" [(ESlice (EVar "g_bbbb") [SV "o"; SV "o"; SV "v"; SV "v"]); (EVar "t2_abab"); (EVar "t2_abab"); (EVar "t2_bbbb")]));
   (*L3469*) SAug true "quadruples_res" (EScale (1 # 1) (EEins "nmfe,aeik,fcjm,bdnl->abcdijkl" [(ESlice (EVar "g_abab") [SV "o"; SV "o"; SV "v"; SV "v"]); (EVar "t2_abab"); (EVar "t2_abab"); (EVar "t2_abab")]));
   (*L3472*) SAssign "contracted_intermediate" (EScale (-1 # 1) (EEins "mnfe,aeik,fdml,bcjn->abcdijkl" [(ESlice (EVar "g_abab") [SV "o"; SV "o"; SV "v"; SV "v"]); (EVar "t2_abab"); (EVar "t2_abab"); (EVar "t2_abab")]));
   (*L3473*) SAug true "quadruples_res" (EAdd (EScale (1 # 1) (EVar "contracted_intermediate")) (EScale (-1 # 1) (EEins "abcdijkl->bacdijkl" [(EVar "contracted_intermediate")])));
   (*L3476*) SAssign "contracted_intermediate" (EScale (1 # 1) (EEins "nmef,aeik,fdlm,bcjn->abcdijkl" [(ESlice (EVar "g_bbbb") [SV "o"; SV "o"; SV "v"; SV "v"]); (EVar "t2_abab"); (EVar "t2_bbbb"); (EVar "t2_abab")]));
   (*L3477*) SAug true "quadruples_res" (EAdd (EScale (1 # 1) (EVar "contracted_intermediate")) (EScale (-1 # 1) (EEins "abcdijkl->bacdijkl" [(EVar "contracted_intermediate")])));
   (*L3480*) SAssign "contracted_intermediate" (EScale (-1 # 1) (EEins "nmfe,aeik,fdjm,bcnl->abcdijkl" [(ESlice (EVar "g_abab") [SV "o"; SV "o"; SV "v"; SV "v"]); (EVar "t2_abab"); (EVar "t2_abab"); (EVar "t2_abab")]));
   (*L3481*) SAug true "quadruples_res" (EAdd (EScale (1 # 1) (EVar "contracted_intermediate")) (EScale (-1 # 1) (EEins "abcdijkl->bacdijkl" [(EVar "contracted_intermediate")])));
   (*L3484*) SAssign "contracted_intermediate" (EScale (-1 # 1) (EEins "mnef,eaij,bfml,cdkn->abcdijkl" [(ESlice (EVar "g_abab") [SV "o"; SV "o"; SV "v"; SV "v"]); (EVar "t2_aaaa"); (EVar "t2_abab"); (EVar "t2_bbbb")]));
   (*L3485*) SAug true "quadruples_res" (EAdd (EScale (1 # 1) (EVar "contracted_intermediate")) (EScale (-1 # 1) (EEins "abcdijkl->abcdijlk" [(EVar "contracted_intermediate")])));
   (*L3488*) SAssign "contracted_intermediate" (EScale (-1 # 1) (EEins "nmef,eaij,fcml,bdnk->abcdijkl" [(ESlice (EVar "g_aaaa") [SV "o"; SV "o"; SV "v"; SV "v"]); (EVar "t2_aaaa"); (EVar "t2_abab"); (EVar "t2_abab")]));
   (*L3489*) SAug true "quadruples_res" (EAdd (EScale (1 # 1) (EVar "contracted_intermediate")) (EScale (-1 # 1) (EEins "abcdijkl->abcdijlk" [(EVar "contracted_intermediate")])));
   (*L3492*) SAssign "contracted_intermediate" (EScale (1 # 1) (EEins "nmef,eaij,fclm,bdnk->abcdijkl" [(ESlice (EVar "g_abab") [SV "o"; SV "o"; SV "v"; SV "v"]); (EVar "t2_aaaa"); (EVar "t2_bbbb"); (EVar "t2_abab")]));
   (*L3493*) SAug true "quadruples_res" (EAdd (EScale (1 # 1) (EVar "contracted_intermediate")) (EScale (-1 # 1) (EEins "abcdijkl->abcdijlk" [(EVar "contracted_intermediate")])));
   (*L3496*) SAssign "contracted_intermediate" (EScale (1 # 1) (EEins "nmef,eaij,fdml,bcnk->abcdijkl" [(ESlice (EVar "g_aaaa") [SV "o"; SV "o"; SV "v"; SV "v"]); (EVar "t2_aaaa"); (EVar "t2_abab"); (EVar "t2_abab")]));
   (*L3497*) SAug true "quadruples_res" (EAdd (EAdd (EAdd (EScale (1 # 1) (EVar "contracted_intermediate")) (EScale (-1 # 1) (EEins "abcdijkl->abcdijlk" [(EVar "contracted_intermediate")]))) (EScale (-1 # 1) (EEins "abcdijkl->bacdijkl" [(EVar "contracted_intermediate")]))) (EScale (1 # 1) (EEins "abcdijkl->bacdijlk" [(EVar "contracted_intermediate")])));
   (*L3500*) SAssign "contracted_intermediate" (EScale (-1 # 1) (EEins "nmef,eaij,fdlm,bcnk->abcdijkl" [(ESlice (EVar "g_abab") [SV "o"; SV "o"; SV "v"; SV "v"]); (EVar "t2_aaaa"); (EVar "t2_bbbb"); (EVar "t2_abab")]));
   (*L3501*) SAug true "quadruples_res" (EAdd (EAdd (EAdd (EScale (1 # 1) (EVar "contracted_intermediate")) (EScale (-1 # 1) (EEins "abcdijkl->abcdijlk" [(EVar "contracted_intermediate")]))) (EScale (-1 # 1) (EEins "abcdijkl->bacdijkl" [(EVar "contracted_intermediate")]))) (EScale (1 # 1) (EEins "abcdijkl->bacdijlk" [(EVar "contracted_intermediate")])));
   (*L3504*) SAssign "contracted_intermediate" (EScale (1 # 1) (EEins "mnfe,beml,fcjk,adin->abcdijkl" [(ESlice (EVar "g_abab") [SV "o"; SV "o"; SV "v"; SV "v"]); (EVar "t2_abab"); (EVar "t2_abab"); (EVar "t2_abab")]));
   (*L3505*) SAug true "quadruples_res" (EAdd (EScale (1 # 1) (EVar "contracted_intermediate")) (EScale (-1 # 1) (EEins "abcdijkl->abcdjikl" [(EVar "contracted_intermediate")])));
   (*L3508*) SAssign "contracted_intermediate" (EScale (-1 # 1) (EEins "mnfe,bemk,fcjl,adin->abcdijkl" [(ESlice (EVar "g_abab") [SV "o"; SV "o"; SV "v"; SV "v"]); (EVar "t2_abab"); (EVar "t2_abab"); (EVar "t2_abab")]));
   (*L3509*) SAug true "quadruples_res" (EAdd (EScale (1 # 1) (EVar "contracted_intermediate")) (EScale (-1 # 1) (EEins "abcdijkl->abcdjikl" [(EVar "contracted_intermediate")])));
   (*L3512*) SAug true "quadruples_res" (EScale (-1 # 1) (EEins "mnef,ebjm,fckl,adin->abcdijkl" [(ESlice (EVar "g_abab") [SV "o"; SV "o"; SV "v"; SV "v"]); (EVar "t2_aaaa"); (EVar "t2_bbbb"); (EVar "t2_abab")]));
   (*L3515*) SAug true "quadruples_res" (EScale (-1 # 1) (EEins "nmef,bejm,fckl,adin->abcdijkl" [(ESlice (EVar "g_bbbb") [SV "o"; SV "o"; SV "v"; SV "v"]); (EVar "t2_abab"); (EVar "t2_bbbb"); (EVar "t2_abab")]));
   (*L3518*) SAug true "quadruples_res" (EScale (1 # 1) (EEins "nmef,ebjm,fcil,adnk->abcdijkl" [(ESlice (EVar "g_aaaa") [SV "o"; SV "o"; SV "v"; SV "v"]); (EVar "t2_aaaa"); (EVar "t2_abab"); (EVar "t2_abab")]));
   (*L3521*) SAug true "quadruples_res" (EScale (1 # 1) (EEins "nmfe,bejm,fcil,adnk->abcdijkl" [(ESlice (EVar "g_abab") [SV "o"; SV "o"; SV "v"; SV "v"]); (EVar "t2_abab"); (EVar "t2_abab"); (EVar "t2_abab")]));
   (*L3524*) SAssign "contracted_intermediate" (EScale (-1 # 1) (EEins "nmef,ebjm,fcik,adnl->abcdijkl" [(ESlice (EVar "g_aaaa") [SV "o"; SV "o"; SV "v"; SV "v"]); (EVar "t2_aaaa"); (EVar "t2_abab"); (EVar "t2_abab")]));
   (*L3525*) SAug true "quadruples_res" (EAdd (EScale (1 # 1) (EVar "contracted_intermediate")) (EScale (-1 # 1) (EEins "abcdijkl->abcdjikl" [(EVar "contracted_intermediate")])));
   (*L3528*) SAssign "contracted_intermediate" (EScale (-1 # 1) (EEins "nmfe,bejm,fcik,adnl->abcdijkl" [(ESlice (EVar "g_abab") [SV "o"; SV "o"; SV "v"; SV "v"]); (EVar "t2_abab"); (EVar "t2_abab"); (EVar "t2_abab")]));
   (*L3529*) SAug true "quadruples_res" (EAdd (EScale (1 # 1) (EVar "contracted_intermediate")) (EScale (-1 # 1) (EEins "abcdijkl->abcdjikl" [(EVar "contracted_intermediate")])));
   (*L3532*) SAug true "quadruples_res" (EScale (1 # 1) (EEins "mnef,ebim,fckl,adjn->abcdijkl" [(ESlice (EVar "g_abab") [SV "o"; SV "o"; SV "v"; SV "v"]); (EVar "t2_aaaa"); (EVar "t2_bbbb"); (EVar "t2_abab")]));
   (*L3535*) SAug true "quadruples_res" (EScale (1 # 1) (EEins "nmef,beim,fckl,adjn->abcdijkl" [(ESlice (EVar "g_bbbb") [SV "o"; SV "o"; SV "v"; SV "v"]); (EVar "t2_abab"); (EVar "t2_bbbb"); (EVar "t2_abab")]));
   (*L3538*) SAug true "quadruples_res" (EScale (-1 # 1) (EEins "nmef,ebim,fcjl,adnk->abcdijkl" [(ESlice (EVar "g_aaaa") [SV "o"; SV "o"; SV "v"; SV "v"]); (EVar "t2_aaaa"); (EVar "t2_abab"); (EVar "t2_abab")]));
   (*L3541*) SAug true "quadruples_res" (EScale (-1 # 1) (EEins "nmfe,beim,fcjl,adnk->abcdijkl" [(ESlice (EVar "g_abab") [SV "o"; SV "o"; SV "v"; SV "v"]); (EVar "t2_abab"); (EVar "t2_abab"); (EVar "t2_abab")]));
   (*L3544*) SAug true "quadruples_res" (EScale (1 # 2) (EEins "nmfe,bejl,fcik,adnm->abcdijkl" [(ESlice (EVar "g_abab") [SV "o"; SV "o"; SV "v"; SV "v"]); (EVar "t2_abab"); (EVar "t2_abab"); (EVar "t2_abab")]));
   (*L3547*) SAug true "quadruples_res" (EScale (1 # 2) (EEins "mnfe,bejl,fcik,admn->abcdijkl" [(ESlice (EVar "g_abab") [SV "o"; SV "o"; SV "v"; SV "v"]); (EVar "t2_abab"); (EVar "t2_abab"); (EVar "t2_abab")]));
   (*L3550*) SAug true "quadruples_res" (EScale (-1 # 1) (EEins "mnfe,bejl,fcmk,adin->abcdijkl" [(ESlice (EVar "g_abab") [SV "o"; SV "o"; SV "v"; SV "v"]); (EVar "t2_abab"); (EVar "t2_abab"); (EVar "t2_abab")]));
   (*L3553*) SAug true "quadruples_res" (EScale (1 # 1) (EEins "nmef,bejl,fckm,adin->abcdijkl" [(ESlice (EVar "g_bbbb") [SV "o"; SV "o"; SV "v"; SV "v"]); (EVar "t2_abab"); (EVar "t2_bbbb"); (EVar "t2_abab")]));
   (*L3556*) SAug true "quadruples_res" (EScale (-1 # 1) (EEins "nmfe,bejl,fcim,adnk->abcdijkl" [(ESlice (EVar "g_abab") [SV "o"; SV "o"; SV "v"; SV "v"]); (EVar "t2_abab"); (EVar "t2_abab"); (EVar "t2_abab")]));
   (*L3559*) SAug true "quadruples_res" (EScale (1 # 1) (EEins "mnfe,beil,fcmk,adjn->abcdijkl" [(ESlice (EVar "g_abab") [SV "o"; SV "o"; SV "v"; SV "v"]); (EVar "t2_abab"); (EVar "t2_abab"); (EVar "t2_abab")]));
   (*L3562*) SAug true "quadruples_res" (EScale (-1 # 1) (EEins "nmef,beil,fckm,adjn->abcdijkl" [(ESlice (EVar "g_bbbb") [SV "o"; SV "o"; SV "v"; SV "v"]); (EVar "t2_abab"); (EVar "t2_bbbb"); (EVar "t2_abab")]));
   (*L3565*) SAug true "quadruples_res" (EScale (1 # 1) (EEins "nmfe,beil,fcjm,adnk->abcdijkl" [(ESlice (EVar "g_abab") [SV "o"; SV "o"; SV "v"; SV "v"]); (EVar "t2_abab"); (EVar "t2_abab"); (EVar "t2_abab")]));
   (*L3568*) SAssign "contracted_intermediate" (EScale (-1 # 2) (EEins "nmfe,beil,fcjk,adnm->abcdijkl" [(ESlice (EVar "g_abab") [SV "o"; SV "o"; SV "v"; SV "v"]); (EVar "t2_abab"); (EVar "t2_abab"); (EVar "t2_abab")]));
   (*L3569*) SAug true "quadruples_res" (EAdd (EScale (1 # 1) (EVar "contracted_intermediate")) (EScale (-1 # 1) (EEins "abcdijkl->abcdijlk" [(EVar "contracted_intermediate")])));
   (*L3572*) SAssign "contracted_intermediate" (EScale (-1 # 2) (EEins "mnfe,beil,fcjk,admn->abcdijkl" [(ESlice (EVar "g_abab") [SV "o"; SV "o"; SV "v"; SV "v"]); (EVar "t2_abab"); (EVar "t2_abab"); (EVar "t2_abab")]));
   (*L3573*) SAug true "quadruples_res" (EAdd (EScale (1 # 1) (EVar "contracted_intermediate")) (EScale (-1 # 1) (EEins "abcdijkl->abcdijlk" [(EVar "contracted_intermediate")])));
   (*L3576*) SAug true "quadruples_res" (EScale (1 # 1) (EEins "mnfe,bejk,fcml,adin->abcdijkl" [(ESlice (EVar "g_abab") [SV "o"; SV "o"; SV "v"; SV "v"]); (EVar "t2_abab"); (EVar "t2_abab"); (EVar "t2_abab")]));
   (*L3579*) SAug true "quadruples_res" (EScale (-1 # 1) (EEins "nmef,bejk,fclm,adin->abcdijkl" [(ESlice (EVar "g_bbbb") [SV "o"; SV "o"; SV "v"; SV "v"]); (EVar "t2_abab"); (EVar "t2_bbbb"); (EVar "t2_abab")]));
   (*L3582*) SAug true "quadruples_res" (EScale (1 # 1) (EEins "nmfe,bejk,fcim,adnl->abcdijkl" [(ESlice (EVar "g_abab") [SV "o"; SV "o"; SV "v"; SV "v"]); (EVar "t2_abab"); (EVar "t2_abab"); (EVar "t2_abab")]));
   (*L3585*) SAug true "quadruples_res" (EScale (-1 # 2) (EEins "nmfe,bejk,fcil,adnm->abcdijkl" [(ESlice (EVar "g_abab") [SV "o"; SV "o"; SV "v"; SV "v"]); (EVar "t2_abab"); (EVar "t2_abab"); (EVar "t2_abab")]));
   (*L3588*) SAug true "quadruples_res" (EScale (-1 # 2) (EEins "mnfe,bejk,fcil,admn->abcdijkl" [(ESlice (EVar "g_abab") [SV "o"; SV "o"; SV "v"; SV "v"]); (EVar "t2_abab"); (EVar "t2_abab"); (EVar "t2_abab")]));
   (*L3591*) SAug true "quadruples_res" (EScale (1 # 2) (EEins "nmef,ebji,fckl,adnm->abcdijkl" [(ESlice (EVar "g_abab") [SV "o"; SV "o"; SV "v"; SV "v"]); (EVar "t2_aaaa"); (EVar "t2_bbbb"); (EVar "t2_abab")]));
   (*L3594*) SAug true "quadruples_res" (EScale (1 # 2) (EEins "mnef,ebji,fckl,admn->abcdijkl" [(ESlice (EVar "g_abab") [SV "o"; SV "o"; SV "v"; SV "v"]); (EVar "t2_aaaa"); (EVar "t2_bbbb"); (EVar "t2_abab")]));
   (*L3597*) SAug true "quadruples_res" (EScale (-1 # 1) (EEins "mnfe,beik,fcml,adjn->abcdijkl" [(ESlice (EVar "g_abab") [SV "o"; SV "o"; SV "v"; SV "v"]); (EVar "t2_abab"); (EVar "t2_abab"); (EVar "t2_abab")]));
   (*L3600*) SAug true "quadruples_res" (EScale (1 # 1) (EEins "nmef,beik,fclm,adjn->abcdijkl" [(ESlice (EVar "g_bbbb") [SV "o"; SV "o"; SV "v"; SV "v"]); (EVar "t2_abab"); (EVar "t2_bbbb"); (EVar "t2_abab")]));
   (*L3603*) SAug true "quadruples_res" (EScale (-1 # 1) (EEins "nmfe,beik,fcjm,adnl->abcdijkl" [(ESlice (EVar "g_abab") [SV "o"; SV "o"; SV "v"; SV "v"]); (EVar "t2_abab"); (EVar "t2_abab"); (EVar "t2_abab")]));
   (*L3606*) SAssign "contracted_intermediate" (EScale (1 # 1) (EEins "nmef,ebij,fcml,adnk->abcdijkl" [(ESlice (EVar "g_aaaa") [SV "o"; SV "o"; SV "v"; SV "v"]); (EVar "t2_aaaa"); (EVar "t2_abab"); (EVar "t2_abab")]));
   (*L3607*) SAug true "quadruples_res" (EAdd (EScale (1 # 1) (EVar "contracted_intermediate")) (EScale (-1 # 1) (EEins "abcdijkl->abcdijlk" [(EVar "contracted_intermediate")])));
   (*L3610*) SAssign "contracted_intermediate" (EScale (-1 # 1) (EEins "nmef,ebij,fclm,adnk->abcdijkl" [(ESlice (EVar "g_abab") [SV "o"; SV "o"; SV "v"; SV "v"]); (EVar "t2_aaaa"); (EVar "t2_bbbb"); (EVar "t2_abab")]));
   (*L3611*) SAug true "quadruples_res" (EAdd (EScale (1 # 1) (EVar "contracted_intermediate")) (EScale (-1 # 1) (EEins "abcdijkl->abcdijlk" [(EVar "contracted_intermediate")])));
   (*L3614*) SAssign "contracted_intermediate" (EScale (-1 # 1) (EEins "nmef,ecml,fdjk,abin->abcdijkl" [(ESlice (EVar "g_aaaa") [SV "o"; SV "o"; SV "v"; SV "v"]); (EVar "t2_abab"); (EVar "t2_abab"); (EVar "t2_aaaa")]));
   (*L3615*) SAug true "quadruples_res" (EAdd (EScale (1 # 1) (EVar "contracted_intermediate")) (EScale (-1 # 1) (EEins "abcdijkl->abcdjikl" [(EVar "contracted_intermediate")])));
   (*L3618*) SAssign "contracted_intermediate" (EScale (-1 # 1) (EEins "nmfe,eclm,fdjk,abin->abcdijkl" [(ESlice (EVar "g_abab") [SV "o"; SV "o"; SV "v"; SV "v"]); (EVar "t2_bbbb"); (EVar "t2_abab"); (EVar "t2_aaaa")]));
   (*L3619*) SAug true "quadruples_res" (EAdd (EScale (1 # 1) (EVar "contracted_intermediate")) (EScale (-1 # 1) (EEins "abcdijkl->abcdjikl" [(EVar "contracted_intermediate")])));
   (*L3622*) SAssign "contracted_intermediate" (EScale (1 # 1) (EEins "nmef,ecmk,fdjl,abin->abcdijkl" [(ESlice (EVar "g_aaaa") [SV "o"; SV "o"; SV "v"; SV "v"]); (EVar "t2_abab"); (EVar "t2_abab"); (EVar "t2_aaaa")]));
   (*L3623*) SAug true "quadruples_res" (EAdd (EScale (1 # 1) (EVar "contracted_intermediate")) (EScale (-1 # 1) (EEins "abcdijkl->abcdjikl" [(EVar "contracted_intermediate")])));
   (*L3626*) SAssign "contracted_intermediate" (EScale (1 # 1) (EEins "nmfe,eckm,fdjl,abin->abcdijkl" [(ESlice (EVar "g_abab") [SV "o"; SV "o"; SV "v"; SV "v"]); (EVar "t2_bbbb"); (EVar "t2_abab"); (EVar "t2_aaaa")]));
   (*L3627*) SAug true "quadruples_res" (EAdd (EScale (1 # 1) (EVar "contracted_intermediate")) (EScale (-1 # 1) (EEins "abcdijkl->abcdjikl" [(EVar "contracted_intermediate")])));
   (*L3630*) SAug true "quadruples_res" (EScale (1 # 1) (EEins "nmef,ecjm,fdkl,abin->abcdijkl" [(ESlice (EVar "g_abab") [SV "o"; SV "o"; SV "v"; SV "v"]); (EVar "t2_abab"); (EVar "t2_bbbb"); (EVar "t2_aaaa")]));
   (*L3633*) SAug true "quadruples_res" (EScale (-1 # 1) (EEins "nmef,ecim,fdkl,abjn->abcdijkl" [(ESlice (EVar "g_abab") [SV "o"; SV "o"; SV "v"; SV "v"]); (EVar "t2_abab"); (EVar "t2_bbbb"); (EVar "t2_aaaa")]));
   (*L3636*) SAssign "contracted_intermediate" (EScale (-1 # 1) (EEins "nmfe,eckl,fdjm,abin->abcdijkl" [(ESlice (EVar "g_abab") [SV "o"; SV "o"; SV "v"; SV "v"]); (EVar "t2_bbbb"); (EVar "t2_abab"); (EVar "t2_aaaa")]));
   (*L3637*) SAug true "quadruples_res" (EAdd (EScale (1 # 1) (EVar "contracted_intermediate")) (EScale (-1 # 1) (EEins "abcdijkl->abcdjikl" [(EVar "contracted_intermediate")])));
   (*L3640*) SAug true "quadruples_res" (EScale (1 # 2) (EEins "nmef,ecjl,fdik,abnm->abcdijkl" [(ESlice (EVar "g_aaaa") [SV "o"; SV "o"; SV "v"; SV "v"]); (EVar "t2_abab"); (EVar "t2_abab"); (EVar "t2_aaaa")]));
   (*L3643*) SAug true "quadruples_res" (EScale (1 # 1) (EEins "nmef,ecjl,fdmk,abin->abcdijkl" [(ESlice (EVar "g_aaaa") [SV "o"; SV "o"; SV "v"; SV "v"]); (EVar "t2_abab"); (EVar "t2_abab"); (EVar "t2_aaaa")]));
   (*L3646*) SAug true "quadruples_res" (EScale (-1 # 1) (EEins "nmef,ecjl,fdkm,abin->abcdijkl" [(ESlice (EVar "g_abab") [SV "o"; SV "o"; SV "v"; SV "v"]); (EVar "t2_abab"); (EVar "t2_bbbb"); (EVar "t2_aaaa")]));
   (*L3649*) SAug true "quadruples_res" (EScale (-1 # 1) (EEins "nmef,ecil,fdmk,abjn->abcdijkl" [(ESlice (EVar "g_aaaa") [SV "o"; SV "o"; SV "v"; SV "v"]); (EVar "t2_abab"); (EVar "t2_abab"); (EVar "t2_aaaa")]));
   (*L3652*) SAug true "quadruples_res" (EScale (1 # 1) (EEins "nmef,ecil,fdkm,abjn->abcdijkl" [(ESlice (EVar "g_abab") [SV "o"; SV "o"; SV "v"; SV "v"]); (EVar "t2_abab"); (EVar "t2_bbbb"); (EVar "t2_aaaa")]));
   (*L3655*) SAssign "contracted_intermediate" (EScale (-1 # 2) (EEins "nmef,ecil,fdjk,abnm->abcdijkl" [(ESlice (EVar "g_aaaa") [SV "o"; SV "o"; SV "v"; SV "v"]); (EVar "t2_abab"); (EVar "t2_abab"); (EVar "t2_aaaa")]));
   (*L3656*) SAug true "quadruples_res" (EAdd (EScale (1 # 1) (EVar "contracted_intermediate")) (EScale (-1 # 1) (EEins "abcdijkl->abcdijlk" [(EVar "contracted_intermediate")])));
   (*L3659*) SAug true "quadruples_res" (EScale (-1 # 1) (EEins "nmef,ecjk,fdml,abin->abcdijkl" [(ESlice (EVar "g_aaaa") [SV "o"; SV "o"; SV "v"; SV "v"]); (EVar "t2_abab"); (EVar "t2_abab"); (EVar "t2_aaaa")]));
   (*L3662*) SAug true "quadruples_res" (EScale (1 # 1) (EEins "nmef,ecjk,fdlm,abin->abcdijkl" [(ESlice (EVar "g_abab") [SV "o"; SV "o"; SV "v"; SV "v"]); (EVar "t2_abab"); (EVar "t2_bbbb"); (EVar "t2_aaaa")]));
   (*L3665*) SAug true "quadruples_res" (EScale (-1 # 2) (EEins "nmef,ecjk,fdil,abnm->abcdijkl" [(ESlice (EVar "g_aaaa") [SV "o"; SV "o"; SV "v"; SV "v"]); (EVar "t2_abab"); (EVar "t2_abab"); (EVar "t2_aaaa")]));
   (*L3668*) SAug true "quadruples_res" (EScale (1 # 1) (EEins "nmef,ecik,fdml,abjn->abcdijkl" [(ESlice (EVar "g_aaaa") [SV "o"; SV "o"; SV "v"; SV "v"]); (EVar "t2_abab"); (EVar "t2_abab"); (EVar "t2_aaaa")]));
   (*L3671*) SAug true "quadruples_res" (EScale (-1 # 1) (EEins "nmef,ecik,fdlm,abjn->abcdijkl" [(ESlice (EVar "g_abab") [SV "o"; SV "o"; SV "v"; SV "v"]); (EVar "t2_abab"); (EVar "t2_bbbb"); (EVar "t2_aaaa")]))]
  (*L3673*) (EVar "quadruples_res").

(** /repo/UT2/fullCCenergy.py:3676-4293  def ccsdtqT2cubed_t4_abbbabbb_residual *)
Definition ccsdtqT2cubed_t4_abbbabbb_residual : fn := mkFn
  ["t1_aa"; "t1_bb"; "t2_aaaa"; "t2_bbbb"; "t2_abab"; "t3_aaaaaa"; "t3_aabaab"; "t3_abbabb"; "t3_bbbbbb"; "t4_aaaaaaaa"; "t4_aaabaaab"; "t4_aabbaabb"; "t4_abbbabbb"; "t4_bbbbbbbb"; "f_aa"; "f_bb"; "g_aaaa"; "g_bbbb"; "g_abab"; "oa"; "ob"; "va"; "vb"]
  [(*L3684*) SAssign "o" (EVar "oa");
   (*L3685*) SAssign "v" (EVar "va");
   (*L3688*) SAssign "contracted_intermediate" (EScale (1 # 2) (EEins "nmef,efkl,abim,cdjn->abcdijkl" [(ESlice (EVar "g_bbbb") [SV "o"; SV "o"; SV "v"; SV "v"]); (EVar "t2_bbbb"); (EVar "t2_abab"); (EVar "t2_bbbb")]));
   (*L3689*) SAssign "quadruples_res" (EAdd (EScale (1 # 1) (EVar "contracted_intermediate")) (EScale (-1 # 1) (EEins "abcdijkl->acbdijkl" [(EVar "contracted_intermediate")])));
   (*L3692*) SAug true "quadruples_res" (EScale (1 # 2) (EEins "nmef,efkl,adim,bcjn->abcdijkl" [(ESlice (EVar "g_bbbb") [SV "o"; SV "o"; SV "v"; SV "v"]); (EVar "t2_bbbb"); (EVar "t2_abab"); (EVar "t2_bbbb")]));
   (*L3695*) SAssign "contracted_intermediate" (EScale (-1 # 2) (EEins "nmef,efjl,abim,cdkn->abcdijkl" [(ESlice (EVar "g_bbbb") [SV "o"; SV "o"; SV "v"; SV "v"]); (EVar "t2_bbbb"); (EVar "t2_abab"); (EVar "t2_bbbb")]));
   (*L3696*) SAug true "quadruples_res" (EAdd (EScale (1 # 1) (EVar "contracted_intermediate")) (EScale (-1 # 1) (EEins "abcdijkl->acbdijkl" [(EVar "contracted_intermediate")])));
   (*L3699*) SAug true "quadruples_res" (EScale (-1 # 2) (EEins "nmef,efjl,adim,bckn->abcdijkl" [(ESlice (EVar "g_bbbb") [SV "o"; SV "o"; SV "v"; SV "v"]); (EVar "t2_bbbb"); (EVar "t2_abab"); (EVar "t2_bbbb")]));
   (*L3702*) SAssign "contracted_intermediate" (EScale (-1 # 2) (EEins "mnef,efil,abmk,cdjn->abcdijkl" [(ESlice (EVar "g_abab") [SV "o"; SV "o"; SV "v"; SV "v"]); (EVar "t2_abab"); (EVar "t2_abab"); (EVar "t2_bbbb")]));
   (*L3703*) SAug true "quadruples_res" (EAdd (EAdd (EAdd (EScale (1 # 1) (EVar "contracted_intermediate")) (EScale (-1 # 1) (EEins "abcdijkl->abcdikjl" [(EVar "contracted_intermediate")]))) (EScale (-1 # 1) (EEins "abcdijkl->acbdijkl" [(EVar "contracted_intermediate")]))) (EScale (1 # 1) (EEins "abcdijkl->acbdikjl" [(EVar "contracted_intermediate")])));
   (*L3706*) SAssign "contracted_intermediate" (EScale (-1 # 2) (EEins "mnfe,feil,abmk,cdjn->abcdijkl" [(ESlice (EVar "g_abab") [SV "o"; SV "o"; SV "v"; SV "v"]); (EVar "t2_abab"); (EVar "t2_abab"); (EVar "t2_bbbb")]));
   (*L3707*) SAug true "quadruples_res" (EAdd (EAdd (EAdd (EScale (1 # 1) (EVar "contracted_intermediate")) (EScale (-1 # 1) (EEins "abcdijkl->abcdikjl" [(EVar "contracted_intermediate")]))) (EScale (-1 # 1) (EEins "abcdijkl->acbdijkl" [(EVar "contracted_intermediate")]))) (EScale (1 # 1) (EEins "abcdijkl->acbdikjl" [(EVar "contracted_intermediate")])));
   (*L3710*) SAssign "contracted_intermediate" (EScale (-1 # 2) (EEins "mnef,efil,admk,bcjn->abcdijkl" [(ESlice (EVar "g_abab") [SV "o"; SV "o"; SV "v"; SV "v"]); (EVar "t2_abab"); (EVar "t2_abab"); (EVar "t2_bbbb")]));
   (*L3711*) SAug true "quadruples_res" (EAdd (EScale (1 # 1) (EVar "contracted_intermediate")) (EScale (-1 # 1) (EEins "abcdijkl->abcdikjl" [(EVar "contracted_intermediate")])));
   (*L3714*) SAssign "contracted_intermediate" (EScale (-1 # 2) (EEins "mnfe,feil,admk,bcjn->abcdijkl" [(ESlice (EVar "g_abab") [SV "o"; SV "o"; SV "v"; SV "v"]); (EVar "t2_abab"); (EVar "t2_abab"); (EVar "t2_bbbb")]));
   (*L3715*) SAug true "quadruples_res" (EAdd (EScale (1 # 1) (EVar "contracted_intermediate")) (EScale (-1 # 1) (EEins "abcdijkl->abcdikjl" [(EVar "contracted_intermediate")])));
   (*L3718*) SAssign "contracted_intermediate" (EScale (1 # 2) (EEins "nmef,efjk,abim,cdln->abcdijkl" [(ESlice (EVar "g_bbbb") [SV "o"; SV "o"; SV "v"; SV "v"]); (EVar "t2_bbbb"); (EVar "t2_abab"); (EVar "t2_bbbb")]));
   (*L3719*) SAug true "quadruples_res" (EAdd (EScale (1 # 1) (EVar "contracted_intermediate")) (EScale (-1 # 1) (EEins "abcdijkl->acbdijkl" [(EVar "contracted_intermediate")])));
   (*L3722*) SAug true "quadruples_res" (EScale (1 # 2) (EEins "nmef,efjk,adim,bcln->abcdijkl" [(ESlice (EVar "g_bbbb") [SV "o"; SV "o"; SV "v"; SV "v"]); (EVar "t2_bbbb"); (EVar "t2_abab"); (EVar "t2_bbbb")]));
   (*L3725*) SAssign "contracted_intermediate" (EScale (1 # 2) (EEins "mnef,efik,abml,cdjn->abcdijkl" [(ESlice (EVar "g_abab") [SV "o"; SV "o"; SV "v"; SV "v"]); (EVar "t2_abab"); (EVar "t2_abab"); (EVar "t2_bbbb")]));
   (*L3726*) SAug true "quadruples_res" (EAdd (EAdd (EAdd (EScale (1 # 1) (EVar "contracted_intermediate")) (EScale (-1 # 1) (EEins "abcdijkl->abcdilkj" [(EVar "contracted_intermediate")]))) (EScale (-1 # 1) (EEins "abcdijkl->acbdijkl" [(EVar "contracted_intermediate")]))) (EScale (1 # 1) (EEins "abcdijkl->acbdilkj" [(EVar "contracted_intermediate")])));
   (*L3729*) SAssign "contracted_intermediate" (EScale (1 # 2) (EEins "mnfe,feik,abml,cdjn->abcdijkl" [(ESlice (EVar "g_abab") [SV "o"; SV "o"; SV "v"; SV "v"]); (EVar "t2_abab"); (EVar "t2_abab"); (EVar "t2_bbbb")]));
   (*L3730*) SAug true "quadruples_res" (EAdd (EAdd (EAdd (EScale (1 # 1) (EVar "contracted_intermediate")) (EScale (-1 # 1) (EEins "abcdijkl->abcdilkj" [(EVar "contracted_intermediate")]))) (EScale (-1 # 1) (EEins "abcdijkl->acbdijkl" [(EVar "contracted_intermediate")]))) (EScale (1 # 1) (EEins "abcdijkl->acbdilkj" [(EVar "contracted_intermediate")])));
   (*L3733*) SAssign "contracted_intermediate" (EScale (1 # 2) (EEins "mnef,efik,adml,bcjn->abcdijkl" [(ESlice (EVar "g_abab") [SV "o"; SV "o"; SV "v"; SV "v"]); (EVar "t2_abab"); (EVar "t2_abab"); (EVar "t2_bbbb")]));
   (*L3734*) SAug true "quadruples_res" (EAdd (EScale (1 # 1) (EVar "contracted_intermediate")) (EScale (-1 # 1) (EEins "abcdijkl->abcdilkj" [(EVar "contracted_intermediate")])));
   (*L3737*) SAssign "contracted_intermediate" (EScale (1 # 2) (EEins "mnfe,feik,adml,bcjn->abcdijkl" [(ESlice (EVar "g_abab") [SV "o"; SV "o"; SV "v"; SV "v"]); (EVar "t2_abab"); (EVar "t2_abab"); (EVar "t2_bbbb")]));
   (*L3738*) SAug true "quadruples_res" (EAdd (EScale (1 # 1) (EVar "contracted_intermediate")) (EScale (-1 # 1) (EEins "abcdijkl->abcdilkj" [(EVar "contracted_intermediate")])));
   (*L3741*) SAssign "contracted_intermediate" (EScale (-1 # 2) (EEins "mnef,efij,abml,cdkn->abcdijkl" [(ESlice (EVar "g_abab") [SV "o"; SV "o"; SV "v"; SV "v"]); (EVar "t2_abab"); (EVar "t2_abab"); (EVar "t2_bbbb")]));
   (*L3742*) SAug true "quadruples_res" (EAdd (EAdd (EAdd (EScale (1 # 1) (EVar "contracted_intermediate")) (EScale (-1 # 1) (EEins "abcdijkl->abcdijlk" [(EVar "contracted_intermediate")]))) (EScale (-1 # 1) (EEins "abcdijkl->acbdijkl" [(EVar "contracted_intermediate")]))) (EScale (1 # 1) (EEins "abcdijkl->acbdijlk" [(EVar "contracted_intermediate")])));
   (*L3745*) SAssign "contracted_intermediate" (EScale (-1 # 2) (EEins "mnfe,feij,abml,cdkn->abcdijkl" [(ESlice (EVar "g_abab") [SV "o"; SV "o"; SV "v"; SV "v"]); (EVar "t2_abab"); (EVar "t2_abab"); (EVar "t2_bbbb")]));
   (*L3746*) SAug true "quadruples_res" (EAdd (EAdd (EAdd (EScale (1 # 1) (EVar "contracted_intermediate")) (EScale (-1 # 1) (EEins "abcdijkl->abcdijlk" [(EVar "contracted_intermediate")]))) (EScale (-1 # 1) (EEins "abcdijkl->acbdijkl" [(EVar "contracted_intermediate")]))) (EScale (1 # 1) (EEins "abcdijkl->acbdijlk" [(EVar "contracted_intermediate")])));
   (*L3749*) SAssign "contracted_intermediate" (EScale (-1 # 2) (EEins "mnef,efij,adml,bckn->abcdijkl" [(ESlice (EVar "g_abab") [SV "o"; SV "o"; SV "v"; SV "v"]); (EVar "t2_abab"); (EVar "t2_abab"); (EVar "t2_bbbb")]));
   (*L3750*) SAug true "quadruples_res" (EAdd (EScale (1 # 1) (EVar "contracted_intermediate")) (EScale (-1 # 1) (EEins "abcdijkl->abcdijlk" [(EVar "contracted_intermediate")])));
   (*L3753*) SAssign "contracted_intermediate" (EScale (-1 # 2) (EEins "mnfe,feij,adml,bckn->abcdijkl" [(ESlice (EVar "g_abab") [SV "o"; SV "o"; SV "v"; SV "v"]); (EVar "t2_abab"); (EVar "t2_abab"); (EVar "t2_bbbb")]));
   (*L3754*) SAug true "quadruples_res" (EAdd (EScale (1 # 1) (EVar "contracted_intermediate")) (EScale (-1 # 1) (EEins "abcdijkl->abcdijlk" [(EVar "contracted_intermediate")])));
   (*L3757*) SAssign "contracted_intermediate" (EScale (-1 # 1) (EEins "mnfe,aeml,fbik,cdjn->abcdijkl" [(ESlice (EVar "g_abab") [SV "o"; SV "o"; SV "v"; SV "v"]); (EVar "t2_abab"); (EVar "t2_abab"); (EVar "t2_bbbb")]));
   (*L3758*) SAug true "quadruples_res" (EAdd (EScale (1 # 1) (EVar "contracted_intermediate")) (EScale (-1 # 1) (EEins "abcdijkl->acbdijkl" [(EVar "contracted_intermediate")])));
   (*L3761*) SAssign "contracted_intermediate" (EScale (1 # 1) (EEins "mnfe,aeml,fbij,cdkn->abcdijkl" [(ESlice (EVar "g_abab") [SV "o"; SV "o"; SV "v"; SV "v"]); (EVar "t2_abab"); (EVar "t2_abab"); (EVar "t2_bbbb")]));
   (*L3762*) SAug true "quadruples_res" (EAdd (EAdd (EAdd (EScale (1 # 1) (EVar "contracted_intermediate")) (EScale (-1 # 1) (EEins "abcdijkl->abcdijlk" [(EVar "contracted_intermediate")]))) (EScale (-1 # 1) (EEins "abcdijkl->acbdijkl" [(EVar "contracted_intermediate")]))) (EScale (1 # 1) (EEins "abcdijkl->acbdijlk" [(EVar "contracted_intermediate")])));
   (*L3765*) SAug true "quadruples_res" (EScale (-1 # 1) (EEins "mnef,ebml,fdjk,acin->abcdijkl" [(ESlice (EVar "g_abab") [SV "o"; SV "o"; SV "v"; SV "v"]); (EVar "t2_abab"); (EVar "t2_bbbb"); (EVar "t2_abab")]));
   (*L3768*) SAug true "quadruples_res" (EScale (-1 # 1) (EEins "nmef,eblm,fdjk,acin->abcdijkl" [(ESlice (EVar "g_bbbb") [SV "o"; SV "o"; SV "v"; SV "v"]); (EVar "t2_bbbb"); (EVar "t2_bbbb"); (EVar "t2_abab")]));
   (*L3771*) SAug true "quadruples_res" (EScale (-1 # 1) (EEins "mnfe,aeml,fdik,bcjn->abcdijkl" [(ESlice (EVar "g_abab") [SV "o"; SV "o"; SV "v"; SV "v"]); (EVar "t2_abab"); (EVar "t2_abab"); (EVar "t2_bbbb")]));
   (*L3774*) SAug true "quadruples_res" (EScale (1 # 1) (EEins "nmef,ebml,fdik,acnj->abcdijkl" [(ESlice (EVar "g_aaaa") [SV "o"; SV "o"; SV "v"; SV "v"]); (EVar "t2_abab"); (EVar "t2_abab"); (EVar "t2_abab")]));
   (*L3777*) SAug true "quadruples_res" (EScale (1 # 1) (EEins "nmfe,eblm,fdik,acnj->abcdijkl" [(ESlice (EVar "g_abab") [SV "o"; SV "o"; SV "v"; SV "v"]); (EVar "t2_bbbb"); (EVar "t2_abab"); (EVar "t2_abab")]));
   (*L3780*) SAssign "contracted_intermediate" (EScale (1 # 1) (EEins "mnfe,aeml,fdij,bckn->abcdijkl" [(ESlice (EVar "g_abab") [SV "o"; SV "o"; SV "v"; SV "v"]); (EVar "t2_abab"); (EVar "t2_abab"); (EVar "t2_bbbb")]));
   (*L3781*) SAug true "quadruples_res" (EAdd (EScale (1 # 1) (EVar "contracted_intermediate")) (EScale (-1 # 1) (EEins "abcdijkl->abcdijlk" [(EVar "contracted_intermediate")])));
   (*L3784*) SAssign "contracted_intermediate" (EScale (-1 # 1) (EEins "nmef,ebml,fdij,acnk->abcdijkl" [(ESlice (EVar "g_aaaa") [SV "o"; SV "o"; SV "v"; SV "v"]); (EVar "t2_abab"); (EVar "t2_abab"); (EVar "t2_abab")]));
   (*L3785*) SAug true "quadruples_res" (EAdd (EScale (1 # 1) (EVar "contracted_intermediate")) (EScale (-1 # 1) (EEins "abcdijkl->abcdijlk" [(EVar "contracted_intermediate")])));
   (*L3788*) SAssign "contracted_intermediate" (EScale (-1 # 1) (EEins "nmfe,eblm,fdij,acnk->abcdijkl" [(ESlice (EVar "g_abab") [SV "o"; SV "o"; SV "v"; SV "v"]); (EVar "t2_bbbb"); (EVar "t2_abab"); (EVar "t2_abab")]));
   (*L3789*) SAug true "quadruples_res" (EAdd (EScale (1 # 1) (EVar "contracted_intermediate")) (EScale (-1 # 1) (EEins "abcdijkl->abcdijlk" [(EVar "contracted_intermediate")])));
   (*L3792*) SAssign "contracted_intermediate" (EScale (1 # 1) (EEins "mnfe,aemk,fbil,cdjn->abcdijkl" [(ESlice (EVar "g_abab") [SV "o"; SV "o"; SV "v"; SV "v"]); (EVar "t2_abab"); (EVar "t2_abab"); (EVar "t2_bbbb")]));
   (*L3793*) SAug true "quadruples_res" (EAdd (EScale (1 # 1) (EVar "contracted_intermediate")) (EScale (-1 # 1) (EEins "abcdijkl->acbdijkl" [(EVar "contracted_intermediate")])));
   (*L3796*) SAug true "quadruples_res" (EScale (1 # 1) (EEins "mnef,ebmk,fdjl,acin->abcdijkl" [(ESlice (EVar "g_abab") [SV "o"; SV "o"; SV "v"; SV "v"]); (EVar "t2_abab"); (EVar "t2_bbbb"); (EVar "t2_abab")]));
   (*L3799*) SAug true "quadruples_res" (EScale (1 # 1) (EEins "nmef,ebkm,fdjl,acin->abcdijkl" [(ESlice (EVar "g_bbbb") [SV "o"; SV "o"; SV "v"; SV "v"]); (EVar "t2_bbbb"); (EVar "t2_bbbb"); (EVar "t2_abab")]));
   (*L3802*) SAug true "quadruples_res" (EScale (1 # 1) (EEins "mnfe,aemk,fdil,bcjn->abcdijkl" [(ESlice (EVar "g_abab") [SV "o"; SV "o"; SV "v"; SV "v"]); (EVar "t2_abab"); (EVar "t2_abab"); (EVar "t2_bbbb")]));
   (*L3805*) SAug true "quadruples_res" (EScale (-1 # 1) (EEins "nmef,ebmk,fdil,acnj->abcdijkl" [(ESlice (EVar "g_aaaa") [SV "o"; SV "o"; SV "v"; SV "v"]); (EVar "t2_abab"); (EVar "t2_abab"); (EVar "t2_abab")]));
   (*L3808*) SAug true "quadruples_res" (EScale (-1 # 1) (EEins "nmfe,ebkm,fdil,acnj->abcdijkl" [(ESlice (EVar "g_abab") [SV "o"; SV "o"; SV "v"; SV "v"]); (EVar "t2_bbbb"); (EVar "t2_abab"); (EVar "t2_abab")]));
   (*L3811*) SAssign "contracted_intermediate" (EScale (-1 # 1) (EEins "mnfe,aemj,fbil,cdkn->abcdijkl" [(ESlice (EVar "g_abab") [SV "o"; SV "o"; SV "v"; SV "v"]); (EVar "t2_abab"); (EVar "t2_abab"); (EVar "t2_bbbb")]));
   (*L3812*) SAug true "quadruples_res" (EAdd (EScale (1 # 1) (EVar "contracted_intermediate")) (EScale (-1 # 1) (EEins "abcdijkl->acbdijkl" [(EVar "contracted_intermediate")])));
   (*L3815*) SAssign "contracted_intermediate" (EScale (1 # 1) (EEins "mnfe,aemj,fbik,cdln->abcdijkl" [(ESlice (EVar "g_abab") [SV "o"; SV "o"; SV "v"; SV "v"]); (EVar "t2_abab"); (EVar "t2_abab"); (EVar "t2_bbbb")]));
   (*L3816*) SAug true "quadruples_res" (EAdd (EScale (1 # 1) (EVar "contracted_intermediate")) (EScale (-1 # 1) (EEins "abcdijkl->acbdijkl" [(EVar "contracted_intermediate")])));
   (*L3819*) SAssign "contracted_intermediate" (EScale (1 # 1) (EEins "mnef,eaim,fbjk,cdln->abcdijkl" [(ESlice (EVar "g_abab") [SV "o"; SV "o"; SV "v"; SV "v"]); (EVar "t2_aaaa"); (EVar "t2_bbbb"); (EVar "t2_bbbb")]));
   (*L3820*) SAug true "quadruples_res" (EAdd (EScale (1 # 1) (EVar "contracted_intermediate")) (EScale (-1 # 1) (EEins "abcdijkl->acbdijkl" [(EVar "contracted_intermediate")])));
   (*L3823*) SAssign "contracted_intermediate" (EScale (1 # 1) (EEins "nmef,aeim,fbjk,cdln->abcdijkl" [(ESlice (EVar "g_bbbb") [SV "o"; SV "o"; SV "v"; SV "v"]); (EVar "t2_abab"); (EVar "t2_bbbb"); (EVar "t2_bbbb")]));
   (*L3824*) SAug true "quadruples_res" (EAdd (EScale (1 # 1) (EVar "contracted_intermediate")) (EScale (-1 # 1) (EEins "abcdijkl->acbdijkl" [(EVar "contracted_intermediate")])));
   (*L3827*) SAug true "quadruples_res" (EScale (-1 # 1) (EEins "mnef,ebmj,fdkl,acin->abcdijkl" [(ESlice (EVar "g_abab") [SV "o"; SV "o"; SV "v"; SV "v"]); (EVar "t2_abab"); (EVar "t2_bbbb"); (EVar "t2_abab")]));
   (*L3830*) SAug true "quadruples_res" (EScale (-1 # 1) (EEins "nmef,ebjm,fdkl,acin->abcdijkl" [(ESlice (EVar "g_bbbb") [SV "o"; SV "o"; SV "v"; SV "v"]); (EVar "t2_bbbb"); (EVar "t2_bbbb"); (EVar "t2_abab")]));
   (*L3833*) SAug true "quadruples_res" (EScale (-1 # 1) (EEins "mnfe,aemj,fdil,bckn->abcdijkl" [(ESlice (EVar "g_abab") [SV "o"; SV "o"; SV "v"; SV "v"]); (EVar "t2_abab"); (EVar "t2_abab"); (EVar "t2_bbbb")]));
   (*L3836*) SAug true "quadruples_res" (EScale (1 # 1) (EEins "nmef,ebmj,fdil,acnk->abcdijkl" [(ESlice (EVar "g_aaaa") [SV "o"; SV "o"; SV "v"; SV "v"]); (EVar "t2_abab"); (EVar "t2_abab"); (EVar "t2_abab")]));
   (*L3839*) SAug true "quadruples_res" (EScale (1 # 1) (EEins "nmfe,ebjm,fdil,acnk->abcdijkl" [(ESlice (EVar "g_abab") [SV "o"; SV "o"; SV "v"; SV "v"]); (EVar "t2_bbbb"); (EVar "t2_abab"); (EVar "t2_abab")]));
   (*L3842*) SAug true "quadruples_res" (EScale (1 # 1) (EEins "mnfe,aemj,fdik,bcln->abcdijkl" [(ESlice (EVar "g_abab") [SV "o"; SV "o"; SV "v"; SV "v"]); (EVar "t2_abab"); (EVar "t2_abab"); (EVar "t2_bbbb")]));
   (*L3845*) SAug true "quadruples_res" (EScale (-1 # 1) (EEins "nmef,ebmj,fdik,acnl->abcdijkl" [(ESlice (EVar "g_aaaa") [SV "o"; SV "o"; SV "v"; SV "v"]); (EVar "t2_abab"); (EVar "t2_abab"); (EVar "t2_abab")]));
   (*L3848*) SAug true "quadruples_res" (EScale (-1 # 1) (EEins "nmfe,ebjm,fdik,acnl->abcdijkl" [(ESlice (EVar "g_abab") [SV "o"; SV "o"; SV "v"; SV "v"]); (EVar "t2_bbbb"); (EVar "t2_abab"); (EVar "t2_abab")]));
   (*L3851*) SAug true "quadruples_res" (EScale (1 # 1) (EEins "mnef,eaim,fdjk,bcln->abcdijkl" [(ESlice (EVar "g_abab") [SV "o"; SV "o"; SV "v"; SV "v"]); (EVar "t2_aaaa"); (EVar "t2_bbbb"); (EVar "t2_bbbb")]));
   (*L3854*) SAug true "quadruples_res" (EScale (1 # 1) (EEins "nmef,aeim,fdjk,bcln->abcdijkl" [(ESlice (EVar "g_bbbb") [SV "o"; SV "o"; SV "v"; SV "v"]); (EVar "t2_abab"); (EVar "t2_bbbb"); (EVar "t2_bbbb")]));
   (*L3857*) SAug true "quadruples_res" (EScale (-1 # 1) (EEins "nmef,ebim,fdjk,acnl->abcdijkl" [(ESlice (EVar "g_abab") [SV "o"; SV "o"; SV "v"; SV "v"]); (EVar "t2_abab"); (EVar "t2_bbbb"); (EVar "t2_abab")]));
   (*L3860*) SAssign "contracted_intermediate" (EScale (1 # 1) (EEins "mnef,eaim,fbkl,cdjn->abcdijkl" [(ESlice (EVar "g_abab") [SV "o"; SV "o"; SV "v"; SV "v"]); (EVar "t2_aaaa"); (EVar "t2_bbbb"); (EVar "t2_bbbb")]));
   (*L3861*) SAug true "quadruples_res" (EAdd (EAdd (EAdd (EScale (1 # 1) (EVar "contracted_intermediate")) (EScale (-1 # 1) (EEins "abcdijkl->abcdikjl" [(EVar "contracted_intermediate")]))) (EScale (-1 # 1) (EEins "abcdijkl->acbdijkl" [(EVar "contracted_intermediate")]))) (EScale (1 # 1) (EEins "abcdijkl->acbdikjl" [(EVar "contracted_intermediate")])));
   (*L3864*) SAssign "contracted_intermediate" (EScale (1 # 1) (EEins "nmef,aeim,fbkl,cdjn->abcdijkl" [(ESlice (EVar "g_bbbb") [SV "o"; SV "o"; SV "v"; SV "v"]); (EVar "t2_abab"); (EVar "t2_bbbb"); (EVar "t2_bbbb")]));
   (*L3865*) SAug true "quadruples_res" (EAdd (EAdd (EAdd (EScale (1 # 1) (EVar "contracted_intermediate")) (EScale (-1 # 1) (EEins "abcdijkl->abcdikjl" [(EVar "contracted_intermediate")]))) (EScale (-1 # 1) (EEins "abcdijkl->acbdijkl" [(EVar "contracted_intermediate")]))) (EScale (1 # 1) (EEins "abcdijkl->acbdikjl" [(EVar "contracted_intermediate")])));
   (*L3868*) SAssign "contracted_intermediate" (EScale (1 # 1) (EEins "mnef,eaim,fdkl,bcjn->abcdijkl" [(ESlice (EVar "g_abab") [SV "o"; SV "o"; SV "v"; SV "v"]); (EVar "t2_aaaa"); (EVar "t2_bbbb"); (EVar "t2_bbbb")]));
   (*L3869*) SAug true "quadruples_res" (EAdd (EScale (1 # 1) (EVar "contracted_intermediate")) (EScale (-1 # 1) (EEins "abcdijkl->abcdikjl" [(EVar "contracted_intermediate")])));
   (*L3872*) SAssign "contracted_intermediate" (EScale (1 # 1) (EEins "nmef,aeim,fdkl,bcjn->abcdijkl" [(ESlice (EVar "g_bbbb") [SV "o"; SV "o"; SV "v"; SV "v"]); (EVar "t2_abab"); (EVar "t2_bbbb"); (EVar "t2_bbbb")]));
   (*L3873*) SAug true "quadruples_res" (EAdd (EScale (1 # 1) (EVar "contracted_intermediate")) (EScale (-1 # 1) (EEins "abcdijkl->abcdikjl" [(EVar "contracted_intermediate")])));
   (*L3876*) SAssign "contracted_intermediate" (EScale (-1 # 1) (EEins "nmef,ebim,fdkl,acnj->abcdijkl" [(ESlice (EVar "g_abab") [SV "o"; SV "o"; SV "v"; SV "v"]); (EVar "t2_abab"); (EVar "t2_bbbb"); (EVar "t2_abab")]));
   (*L3877*) SAug true "quadruples_res" (EAdd (EScale (1 # 1) (EVar "contracted_intermediate")) (EScale (-1 # 1) (EEins "abcdijkl->abcdikjl" [(EVar "contracted_intermediate")])));
   (*L3880*) SAug true "quadruples_res" (EScale (1 # 1) (EEins "mnfe,ebkl,fdmj,acin->abcdijkl" [(ESlice (EVar "g_abab") [SV "o"; SV "o"; SV "v"; SV "v"]); (EVar "t2_bbbb"); (EVar "t2_abab"); (EVar "t2_abab")]));
   (*L3883*) SAug true "quadruples_res" (EScale (-1 # 1) (EEins "nmef,ebkl,fdjm,acin->abcdijkl" [(ESlice (EVar "g_bbbb") [SV "o"; SV "o"; SV "v"; SV "v"]); (EVar "t2_bbbb"); (EVar "t2_bbbb"); (EVar "t2_abab")]));
   (*L3886*) SAug true "quadruples_res" (EScale (1 # 1) (EEins "nmfe,ebkl,fdim,acnj->abcdijkl" [(ESlice (EVar "g_abab") [SV "o"; SV "o"; SV "v"; SV "v"]); (EVar "t2_bbbb"); (EVar "t2_abab"); (EVar "t2_abab")]));
   (*L3889*) SAssign "contracted_intermediate" (EScale (-1 # 2) (EEins "nmfe,ebkl,fdij,acnm->abcdijkl" [(ESlice (EVar "g_abab") [SV "o"; SV "o"; SV "v"; SV "v"]); (EVar "t2_bbbb"); (EVar "t2_abab"); (EVar "t2_abab")]));
   (*L3890*) SAug true "quadruples_res" (EAdd (EScale (1 # 1) (EVar "contracted_intermediate")) (EScale (-1 # 1) (EEins "abcdijkl->abcdikjl" [(EVar "contracted_intermediate")])));
   (*L3893*) SAssign "contracted_intermediate" (EScale (-1 # 2) (EEins "mnfe,ebkl,fdij,acmn->abcdijkl" [(ESlice (EVar "g_abab") [SV "o"; SV "o"; SV "v"; SV "v"]); (EVar "t2_bbbb"); (EVar "t2_abab"); (EVar "t2_abab")]));
   (*L3894*) SAug true "quadruples_res" (EAdd (EScale (1 # 1) (EVar "contracted_intermediate")) (EScale (-1 # 1) (EEins "abcdijkl->abcdikjl" [(EVar "contracted_intermediate")])));
   (*L3897*) SAug true "quadruples_res" (EScale (-1 # 1) (EEins "mnfe,ebjl,fdmk,acin->abcdijkl" [(ESlice (EVar "g_abab") [SV "o"; SV "o"; SV "v"; SV "v"]); (EVar "t2_bbbb"); (EVar "t2_abab"); (EVar "t2_abab")]));
   (*L3900*) SAug true "quadruples_res" (EScale (1 # 1) (EEins "nmef,ebjl,fdkm,acin->abcdijkl" [(ESlice (EVar "g_bbbb") [SV "o"; SV "o"; SV "v"; SV "v"]); (EVar "t2_bbbb"); (EVar "t2_bbbb"); (EVar "t2_abab")]));
   (*L3903*) SAug true "quadruples_res" (EScale (-1 # 1) (EEins "nmfe,ebjl,fdim,acnk->abcdijkl" [(ESlice (EVar "g_abab") [SV "o"; SV "o"; SV "v"; SV "v"]); (EVar "t2_bbbb"); (EVar "t2_abab"); (EVar "t2_abab")]));
   (*L3906*) SAssign "contracted_intermediate" (EScale (1 # 1) (EEins "mnfe,aeil,fbmk,cdjn->abcdijkl" [(ESlice (EVar "g_abab") [SV "o"; SV "o"; SV "v"; SV "v"]); (EVar "t2_abab"); (EVar "t2_abab"); (EVar "t2_bbbb")]));
   (*L3907*) SAug true "quadruples_res" (EAdd (EAdd (EAdd (EScale (1 # 1) (EVar "contracted_intermediate")) (EScale (-1 # 1) (EEins "abcdijkl->abcdikjl" [(EVar "contracted_intermediate")]))) (EScale (-1 # 1) (EEins "abcdijkl->acbdijkl" [(EVar "contracted_intermediate")]))) (EScale (1 # 1) (EEins "abcdijkl->acbdikjl" [(EVar "contracted_intermediate")])));
   (*L3910*) SAssign "contracted_intermediate" (EScale (-1 # 1) (EEins "nmef,aeil,fbkm,cdjn->abcdijkl" [(ESlice (EVar "g_bbbb") [SV "o"; SV "o"; SV "v"; SV "v"]); (EVar "t2_abab"); (EVar "t2_bbbb"); (EVar "t2_bbbb")]));
   (*L3911*) SAug true "quadruples_res" (EAdd (EAdd (EAdd (EScale (1 # 1) (EVar "contracted_intermediate")) (EScale (-1 # 1) (EEins "abcdijkl->abcdikjl" [(EVar "contracted_intermediate")]))) (EScale (-1 # 1) (EEins "abcdijkl->acbdijkl" [(EVar "contracted_intermediate")]))) (EScale (1 # 1) (EEins "abcdijkl->acbdikjl" [(EVar "contracted_intermediate")])));
   (*L3914*) SAssign "contracted_intermediate" (EScale (1 # 2) (EEins "nmef,aeil,fbjk,cdnm->abcdijkl" [(ESlice (EVar "g_bbbb") [SV "o"; SV "o"; SV "v"; SV "v"]); (EVar "t2_abab"); (EVar "t2_bbbb"); (EVar "t2_bbbb")]));
   (*L3915*) SAug true "quadruples_res" (EAdd (EAdd (EAdd (EScale (1 # 1) (EVar "contracted_intermediate")) (EScale (-1 # 1) (EEins "abcdijkl->abcdijlk" [(EVar "contracted_intermediate")]))) (EScale (-1 # 1) (EEins "abcdijkl->acbdijkl" [(EVar "contracted_intermediate")]))) (EScale (1 # 1) (EEins "abcdijkl->acbdijlk" [(EVar "contracted_intermediate")])));
   (*L3918*) SAssign "contracted_intermediate" (EScale (1 # 1) (EEins "mnfe,aeil,fdmk,bcjn->abcdijkl" [(ESlice (EVar "g_abab") [SV "o"; SV "o"; SV "v"; SV "v"]); (EVar "t2_abab"); (EVar "t2_abab"); (EVar "t2_bbbb")]));
   (*L3919*) SAug true "quadruples_res" (EAdd (EScale (1 # 1) (EVar "contracted_intermediate")) (EScale (-1 # 1) (EEins "abcdijkl->abcdikjl" [(EVar "contracted_intermediate")])));
   (*L3922*) SAssign "contracted_intermediate" (EScale (-1 # 1) (EEins "nmef,aeil,fdkm,bcjn->abcdijkl" [(ESlice (EVar "g_bbbb") [SV "o"; SV "o"; SV "v"; SV "v"]); (EVar "t2_abab"); (EVar "t2_bbbb"); (EVar "t2_bbbb")]));
   (*L3923*) SAug true "quadruples_res" (EAdd (EScale (1 # 1) (EVar "contracted_intermediate")) (EScale (-1 # 1) (EEins "abcdijkl->abcdikjl" [(EVar "contracted_intermediate")])));
   (*L3926*) SAssign "contracted_intermediate" (EScale (-1 # 1) (EEins "nmef,ebil,fdmk,acnj->abcdijkl" [(ESlice (EVar "g_aaaa") [SV "o"; SV "o"; SV "v"; SV "v"]); (EVar "t2_abab"); (EVar "t2_abab"); (EVar "t2_abab")]));
   (*L3927*) SAug true "quadruples_res" (EAdd (EScale (1 # 1) (EVar "contracted_intermediate")) (EScale (-1 # 1) (EEins "abcdijkl->abcdikjl" [(EVar "contracted_intermediate")])));
   (*L3930*) SAssign "contracted_intermediate" (EScale (1 # 1) (EEins "nmef,ebil,fdkm,acnj->abcdijkl" [(ESlice (EVar "g_abab") [SV "o"; SV "o"; SV "v"; SV "v"]); (EVar "t2_abab"); (EVar "t2_bbbb"); (EVar "t2_abab")]));
   (*L3931*) SAug true "quadruples_res" (EAdd (EScale (1 # 1) (EVar "contracted_intermediate")) (EScale (-1 # 1) (EEins "abcdijkl->abcdikjl" [(EVar "contracted_intermediate")])));
   (*L3934*) SAssign "contracted_intermediate" (EScale (1 # 2) (EEins "nmef,aeil,fdjk,bcnm->abcdijkl" [(ESlice (EVar "g_bbbb") [SV "o"; SV "o"; SV "v"; SV "v"]); (EVar "t2_abab"); (EVar "t2_bbbb"); (EVar "t2_bbbb")]));
   (*L3935*) SAug true "quadruples_res" (EAdd (EScale (1 # 1) (EVar "contracted_intermediate")) (EScale (-1 # 1) (EEins "abcdijkl->abcdijlk" [(EVar "contracted_intermediate")])));
   (*L3938*) SAssign "contracted_intermediate" (EScale (1 # 2) (EEins "nmef,ebil,fdjk,acnm->abcdijkl" [(ESlice (EVar "g_abab") [SV "o"; SV "o"; SV "v"; SV "v"]); (EVar "t2_abab"); (EVar "t2_bbbb"); (EVar "t2_abab")]));
   (*L3939*) SAug true "quadruples_res" (EAdd (EScale (1 # 1) (EVar "contracted_intermediate")) (EScale (-1 # 1) (EEins "abcdijkl->abcdijlk" [(EVar "contracted_intermediate")])));
   (*L3942*) SAssign "contracted_intermediate" (EScale (1 # 2) (EEins "mnef,ebil,fdjk,acmn->abcdijkl" [(ESlice (EVar "g_abab") [SV "o"; SV "o"; SV "v"; SV "v"]); (EVar "t2_abab"); (EVar "t2_bbbb"); (EVar "t2_abab")]));
   (*L3943*) SAug true "quadruples_res" (EAdd (EScale (1 # 1) (EVar "contracted_intermediate")) (EScale (-1 # 1) (EEins "abcdijkl->abcdijlk" [(EVar "contracted_intermediate")])));
   (*L3946*) SAssign "contracted_intermediate" (EScale (1 # 2) (EEins "nmef,aeij,fbkl,cdnm->abcdijkl" [(ESlice (EVar "g_bbbb") [SV "o"; SV "o"; SV "v"; SV "v"]); (EVar "t2_abab"); (EVar "t2_bbbb"); (EVar "t2_bbbb")]));
   (*L3947*) SAug true "quadruples_res" (EAdd (EScale (1 # 1) (EVar "contracted_intermediate")) (EScale (-1 # 1) (EEins "abcdijkl->acbdijkl" [(EVar "contracted_intermediate")])));
   (*L3950*) SAug true "quadruples_res" (EScale (1 # 1) (EEins "mnfe,ebjk,fdml,acin->abcdijkl" [(ESlice (EVar "g_abab") [SV "o"; SV "o"; SV "v"; SV "v"]); (EVar "t2_bbbb"); (EVar "t2_abab"); (EVar "t2_abab")]));
   (*L3953*) SAug true "quadruples_res" (EScale (-1 # 1) (EEins "nmef,ebjk,fdlm,acin->abcdijkl" [(ESlice (EVar "g_bbbb") [SV "o"; SV "o"; SV "v"; SV "v"]); (EVar "t2_bbbb"); (EVar "t2_bbbb"); (EVar "t2_abab")]));
   (*L3956*) SAug true "quadruples_res" (EScale (1 # 1) (EEins "nmfe,ebjk,fdim,acnl->abcdijkl" [(ESlice (EVar "g_abab") [SV "o"; SV "o"; SV "v"; SV "v"]); (EVar "t2_bbbb"); (EVar "t2_abab"); (EVar "t2_abab")]));
   (*L3959*) SAug true "quadruples_res" (EScale (-1 # 2) (EEins "nmfe,ebjk,fdil,acnm->abcdijkl" [(ESlice (EVar "g_abab") [SV "o"; SV "o"; SV "v"; SV "v"]); (EVar "t2_bbbb"); (EVar "t2_abab"); (EVar "t2_abab")]));
   (*L3962*) SAug true "quadruples_res" (EScale (-1 # 2) (EEins "mnfe,ebjk,fdil,acmn->abcdijkl" [(ESlice (EVar "g_abab") [SV "o"; SV "o"; SV "v"; SV "v"]); (EVar "t2_bbbb"); (EVar "t2_abab"); (EVar "t2_abab")]));
   (*L3965*) SAug true "quadruples_res" (EScale (1 # 2) (EEins "nmef,aeij,fdkl,bcnm->abcdijkl" [(ESlice (EVar "g_bbbb") [SV "o"; SV "o"; SV "v"; SV "v"]); (EVar "t2_abab"); (EVar "t2_bbbb"); (EVar "t2_bbbb")]));
   (*L3968*) SAug true "quadruples_res" (EScale (1 # 2) (EEins "nmef,ebij,fdkl,acnm->abcdijkl" [(ESlice (EVar "g_abab") [SV "o"; SV "o"; SV "v"; SV "v"]); (EVar "t2_abab"); (EVar "t2_bbbb"); (EVar "t2_abab")]));
   (*L3971*) SAug true "quadruples_res" (EScale (1 # 2) (EEins "mnef,ebij,fdkl,acmn->abcdijkl" [(ESlice (EVar "g_abab") [SV "o"; SV "o"; SV "v"; SV "v"]); (EVar "t2_abab"); (EVar "t2_bbbb"); (EVar "t2_abab")]));
   (*L3974*) SAssign "contracted_intermediate" (EScale (-1 # 1) (EEins "mnfe,aeik,fbml,cdjn->abcdijkl" [(ESlice (EVar "g_abab") [SV "o"; SV "o"; SV "v"; SV "v"]); (EVar "t2_abab"); (EVar "t2_abab"); (EVar "t2_bbbb")]));
   (*L3975*) SAug true "quadruples_res" (EAdd (EAdd (EAdd (EScale (1 # 1) (EVar "contracted_intermediate")) (EScale (-1 # 1) (EEins "abcdijkl->abcdilkj" [(EVar "contracted_intermediate")]))) (EScale (-1 # 1) (EEins "abcdijkl->acbdijkl" [(EVar "contracted_intermediate")]))) (EScale (1 # 1) (EEins "abcdijkl->acbdilkj" [(EVar "contracted_intermediate")])));
   (*L3978*) SAssign "contracted_intermediate" (EScale (1 # 1) (EEins "nmef,aeik,fblm,cdjn->abcdijkl" [(ESlice (EVar "g_bbbb") [SV "o"; SV "o"; SV "v"; SV "v"]); (EVar "t2_abab"); (EVar "t2_bbbb"); (EVar "t2_bbbb")]));
   (*L3979*) SAug true "quadruples_res" (EAdd (EAdd (EAdd (EScale (1 # 1) (EVar "contracted_intermediate")) (EScale (-1 # 1) (EEins "abcdijkl->abcdilkj" [(EVar "contracted_intermediate")]))) (EScale (-1 # 1) (EEins "abcdijkl->acbdijkl" [(EVar "contracted_intermediate")]))) (EScale (1 # 1) (EEins "abcdijkl->acbdilkj" [(EVar "contracted_intermediate")])));
   (*L3982*) SAssign "contracted_intermediate" (EScale (-1 # 1) (EEins "mnfe,aeik,fdml,bcjn->abcdijkl" [(ESlice (EVar "g_abab") [SV "o"; SV "o"; SV "v"; SV "v"]); (EVar "t2_abab"); (EVar "t2_abab"); (EVar "t2_bbbb")]));
   (*L3983*) SAug true "quadruples_res" (EAdd (EScale (1 # 1) (EVar "contracted_intermediate")) (EScale (-1 # 1) (EEins "abcdijkl->abcdilkj" [(EVar "contracted_intermediate")])));
   (*L3986*) SAssign "contracted_intermediate" (EScale (1 # 1) (EEins "nmef,aeik,fdlm,bcjn->abcdijkl" [(ESlice (EVar "g_bbbb") [SV "o"; SV "o"; SV "v"; SV "v"]); (EVar "t2_abab"); (EVar "t2_bbbb"); (EVar "t2_bbbb")]));
   (*L3987*) SAug true "quadruples_res" (EAdd (EScale (1 # 1) (EVar "contracted_intermediate")) (EScale (-1 # 1) (EEins "abcdijkl->abcdilkj" [(EVar "contracted_intermediate")])));
   (*L3990*) SAssign "contracted_intermediate" (EScale (1 # 1) (EEins "nmef,ebik,fdml,acnj->abcdijkl" [(ESlice (EVar "g_aaaa") [SV "o"; SV "o"; SV "v"; SV "v"]); (EVar "t2_abab"); (EVar "t2_abab"); (EVar "t2_abab")]));
   (*L3991*) SAug true "quadruples_res" (EAdd (EScale (1 # 1) (EVar "contracted_intermediate")) (EScale (-1 # 1) (EEins "abcdijkl->abcdilkj" [(EVar "contracted_intermediate")])));
   (*L3994*) SAssign "contracted_intermediate" (EScale (-1 # 1) (EEins "nmef,ebik,fdlm,acnj->abcdijkl" [(ESlice (EVar "g_abab") [SV "o"; SV "o"; SV "v"; SV "v"]); (EVar "t2_abab"); (EVar "t2_bbbb"); (EVar "t2_abab")]));
   (*L3995*) SAug true "quadruples_res" (EAdd (EScale (1 # 1) (EVar "contracted_intermediate")) (EScale (-1 # 1) (EEins "abcdijkl->abcdilkj" [(EVar "contracted_intermediate")])));
   (*L3998*) SAssign "contracted_intermediate" (EScale (1 # 1) (EEins "mnfe,aeij,fbml,cdkn->abcdijkl" [(ESlice (EVar "g_abab") [SV "o"; SV "o"; SV "v"; SV "v"]); (EVar "t2_abab"); (EVar "t2_abab"); (EVar "t2_bbbb")]));
   (*L3999*) SAug true "quadruples_res" (EAdd (EAdd (EAdd (EScale (1 # 1) (EVar "contracted_intermediate")) (EScale (-1 # 1) (EEins "abcdijkl->abcdijlk" [(EVar "contracted_intermediate")]))) (EScale (-1 # 1) (EEins "abcdijkl->acbdijkl" [(EVar "contracted_intermediate")]))) (EScale (1 # 1) (EEins "abcdijkl->acbdijlk" [(EVar "contracted_intermediate")])));
   (*L4002*) SAssign "contracted_intermediate" (EScale (-1 # 1) (EEins "nmef,aeij,fblm,cdkn->abcdijkl" [(ESlice (EVar "g_bbbb") [SV "o"; SV "o"; SV "v"; SV "v"]); (EVar "t2_abab"); (EVar "t2_bbbb"); (EVar "t2_bbbb")]));
   (*L4003*) SAug true "quadruples_res" (EAdd (EAdd (EAdd (EScale (1 # 1) (EVar "contracted_intermediate")) (EScale (-1 # 1) (EEins "abcdijkl->abcdijlk" [(EVar "contracted_intermediate")]))) (EScale (-1 # 1) (EEins "abcdijkl->acbdijkl" [(EVar "contracted_intermediate")]))) (EScale (1 # 1) (EEins "abcdijkl->acbdijlk" [(EVar "contracted_intermediate")])));
   (*L4006*) SAssign "contracted_intermediate" (EScale (1 # 1) (EEins "mnfe,aeij,fdml,bckn->abcdijkl" [(ESlice (EVar "g_abab") [SV "o"; SV "o"; SV "v"; SV "v"]); (EVar "t2_abab"); (EVar "t2_abab"); (EVar "t2_bbbb")]));
   (*L4007*) SAug true "quadruples_res" (EAdd (EScale (1 # 1) (EVar "contracted_intermediate")) (EScale (-1 # 1) (EEins "abcdijkl->abcdijlk" [(EVar "contracted_intermediate")])));
   (*L4010*) SAssign "contracted_intermediate" (EScale (-1 # 1) (EEins "nmef,aeij,fdlm,bckn->abcdijkl" [(ESlice (EVar "g_bbbb") [SV "o"; SV "o"; SV "v"; SV "v"]); (EVar "t2_abab"); (EVar "t2_bbbb"); (EVar "t2_bbbb")]));
   (*L4011*) SAug true "quadruples_res" (EAdd (EScale (1 # 1) (EVar "contracted_intermediate")) (EScale (-1 # 1) (EEins "abcdijkl->abcdijlk" [(EVar "contracted_intermediate")])));
   (*L4014*) SAssign "contracted_intermediate" (EScale (-1 # 1) (EEins "nmef,ebij,fdml,acnk->abcdijkl" [(ESlice (EVar "g_aaaa") [SV "o"; SV "o"; SV "v"; SV "v"]); (EVar "t2_abab"); (EVar "t2_abab"); (EVar "t2_abab")]));
   (*L4015*) SAug true "quadruples_res" (EAdd (EScale (1 # 1) (EVar "contracted_intermediate")) (EScale (-1 # 1) (EEins "abcdijkl->abcdijlk" [(EVar "contracted_intermediate")])));
   (*L4018*) SAssign "contracted_intermediate" (EScale (1 # 1) (EEins "nmef,ebij,fdlm,acnk->abcdijkl" [(ESlice (EVar "g_abab") [SV "o"; SV "o"; SV "v"; SV "v"]); (EVar "t2_abab"); (EVar "t2_bbbb"); (EVar "t2_abab")]));
   (*L4019*) SAug true "quadruples_res" (EAdd (EScale (1 # 1) (EVar "contracted_intermediate")) (EScale (-1 # 1) (EEins "abcdijkl->abcdijlk" [(EVar "contracted_intermediate")])));
   (*L4022*) SAug true "quadruples_res" (EScale (1 # 1) (EEins "mnef,ebml,fcjk,adin->abcdijkl" [(ESlice (EVar "g_abab") [SV "o"; SV "o"; SV "v"; SV "v"]); (EVar "t2_abab"); (EVar "t2_bbbb"); (EVar "t2_abab")]));
   (*L4025*) SAug true "quadruples_res" (EScale (1 # 1) (EEins "nmef,eblm,fcjk,adin->abcdijkl" [(ESlice (EVar "g_bbbb") [SV "o"; SV "o"; SV "v"; SV "v"]); (EVar "t2_bbbb"); (EVar "t2_bbbb"); (EVar "t2_abab")]));
   (*L4028*) SAug true "quadruples_res" (EScale (-1 # 1) (EEins "nmef,ebml,fcik,adnj->abcdijkl" [(ESlice (EVar "g_aaaa") [SV "o"; SV "o"; SV "v"; SV "v"]); (EVar "t2_abab"); (EVar "t2_abab"); (EVar "t2_abab")]));
   (*L4031*) SAug true "quadruples_res" (EScale (-1 # 1) (EEins "nmfe,eblm,fcik,adnj->abcdijkl" [(ESlice (EVar "g_abab") [SV "o"; SV "o"; SV "v"; SV "v"]); (EVar "t2_bbbb"); (EVar "t2_abab"); (EVar "t2_abab")]));
   (*L4034*) SAssign "contracted_intermediate" (EScale (1 # 1) (EEins "nmef,ebml,fcij,adnk->abcdijkl" [(ESlice (EVar "g_aaaa") [SV "o"; SV "o"; SV "v"; SV "v"]); (EVar "t2_abab"); (EVar "t2_abab"); (EVar "t2_abab")]));
   (*L4035*) SAug true "quadruples_res" (EAdd (EScale (1 # 1) (EVar "contracted_intermediate")) (EScale (-1 # 1) (EEins "abcdijkl->abcdijlk" [(EVar "contracted_intermediate")])));
   (*L4038*) SAssign "contracted_intermediate" (EScale (1 # 1) (EEins "nmfe,eblm,fcij,adnk->abcdijkl" [(ESlice (EVar "g_abab") [SV "o"; SV "o"; SV "v"; SV "v"]); (EVar "t2_bbbb"); (EVar "t2_abab"); (EVar "t2_abab")]));
   (*L4039*) SAug true "quadruples_res" (EAdd (EScale (1 # 1) (EVar "contracted_intermediate")) (EScale (-1 # 1) (EEins "abcdijkl->abcdijlk" [(EVar "contracted_intermediate")])));
   (*L4042*) SAug true "quadruples_res" (EScale (-1 # 1) (EEins "mnef,ebmk,fcjl,adin->abcdijkl" [(ESlice (EVar "g_abab") [SV "o"; SV "o"; SV "v"; SV "v"]); (EVar "t2_abab"); (EVar "t2_bbbb"); (EVar "t2_abab")]));
   (*L4045*) SAug true "quadruples_res" (EScale (-1 # 1) (EEins "nmef,ebkm,fcjl,adin->abcdijkl" [(ESlice (EVar "g_bbbb") [SV "o"; SV "o"; SV "v"; SV "v"]); (EVar "t2_bbbb"); (EVar "t2_bbbb"); (EVar "t2_abab")]));
   (*L4048*) SAug true "quadruples_res" (EScale (1 # 1) (EEins "nmef,ebmk,fcil,adnj->abcdijkl" [(ESlice (EVar "g_aaaa") [SV "o"; SV "o"; SV "v"; SV "v"]); (EVar "t2_abab"); (EVar "t2_abab"); (EVar "t2_abab")]));
   (*L4051*) SAug true "quadruples_res" (EScale (1 # 1) (EEins "nmfe,ebkm,fcil,adnj->abcdijkl" [(ESlice (EVar "g_abab") [SV "o"; SV "o"; SV "v"; SV "v"]); (EVar "t2_bbbb"); (EVar "t2_abab"); (EVar "t2_abab")]));
   (*L4054*) SAug true "quadruples_res" (EScale (1 # 1) (EEins "mnef,ebmj,fckl,adin->abcdijkl" [(ESlice (EVar "g_abab") [SV "o"; SV "o"; SV "v"; SV "v"]); (EVar "t2_abab"); (EVar "t2_bbbb"); (EVar "t2_abab")]));
   (*L4057*) SAug true "quadruples_res" (EScale (1 # 1) (EEins "nmef,ebjm,fckl,adin->abcdijkl" [(ESlice (EVar "g_bbbb") [SV "o"; SV "o"; SV "v"; SV "v"]); (EVar "t2_bbbb"); (EVar "t2_bbbb"); (EVar "t2_abab")]));
   (*L4060*) SAug true "quadruples_res" (EScale (-1 # 1) (EEins "nmef,ebmj,fcil,adnk->abcdijkl" [(ESlice (EVar "g_aaaa") [SV "o"; SV "o"; SV "v"; SV "v"]); (EVar "t2_abab"); (EVar "t2_abab"); (EVar "t2_abab")]));
   (*L4063*) SAug true "quadruples_res" (EScale (-1 # 1) (EEins "nmfe,ebjm,fcil,adnk->abcdijkl" [(ESlice (EVar "g_abab") [SV "o"; SV "o"; SV "v"; SV "v"]); (EVar "t2_bbbb"); (EVar "t2_abab"); (EVar "t2_abab")]));
   (*L4066*) SAug true "quadruples_res" (EScale (1 # 1) (EEins "nmef,ebmj,fcik,adnl->abcdijkl" [(ESlice (EVar "g_aaaa") [SV "o"; SV "o"; SV "v"; SV "v"]); (EVar "t2_abab"); (EVar "t2_abab"); (EVar "t2_abab")]));
   (*L4069*) SAug true "quadruples_res" (EScale (1 # 1) (EEins "nmfe,ebjm,fcik,adnl->abcdijkl" [(ESlice (EVar "g_abab") [SV "o"; SV "o"; SV "v"; SV "v"]); (EVar "t2_bbbb"); (EVar "t2_abab"); (EVar "t2_abab")]));
   (*L4072*) SAug true "quadruples_res" (EScale (1 # 1) (EEins "nmef,ebim,fcjk,adnl->abcdijkl" [(ESlice (EVar "g_abab") [SV "o"; SV "o"; SV "v"; SV "v"]); (EVar "t2_abab"); (EVar "t2_bbbb"); (EVar "t2_abab")]));
   (*L4075*) SAssign "contracted_intermediate" (EScale (1 # 1) (EEins "nmef,ebim,fckl,adnj->abcdijkl" [(ESlice (EVar "g_abab") [SV "o"; SV "o"; SV "v"; SV "v"]); (EVar "t2_abab"); (EVar "t2_bbbb"); (EVar "t2_abab")]));
   (*L4076*) SAug true "quadruples_res" (EAdd (EScale (1 # 1) (EVar "contracted_intermediate")) (EScale (-1 # 1) (EEins "abcdijkl->abcdikjl" [(EVar "contracted_intermediate")])));
   (*L4079*) SAug true "quadruples_res" (EScale (-1 # 1) (EEins "mnfe,ebkl,fcmj,adin->abcdijkl" [(ESlice (EVar "g_abab") [SV "o"; SV "o"; SV "v"; SV "v"]); (EVar "t2_bbbb"); (EVar "t2_abab"); (EVar "t2_abab")]));
   (*L4082*) SAug true "quadruples_res" (EScale (1 # 1) (EEins "nmef,ebkl,fcjm,adin->abcdijkl" [(ESlice (EVar "g_bbbb") [SV "o"; SV "o"; SV "v"; SV "v"]); (EVar "t2_bbbb"); (EVar "t2_bbbb"); (EVar "t2_abab")]));
   (*L4085*) SAug true "quadruples_res" (EScale (-1 # 1) (EEins "nmfe,ebkl,fcim,adnj->abcdijkl" [(ESlice (EVar "g_abab") [SV "o"; SV "o"; SV "v"; SV "v"]); (EVar "t2_bbbb"); (EVar "t2_abab"); (EVar "t2_abab")]));
   (*L4088*) SAssign "contracted_intermediate" (EScale (1 # 2) (EEins "nmfe,ebkl,fcij,adnm->abcdijkl" [(ESlice (EVar "g_abab") [SV "o"; SV "o"; SV "v"; SV "v"]); (EVar "t2_bbbb"); (EVar "t2_abab"); (EVar "t2_abab")]));
   (*L4089*) SAug true "quadruples_res" (EAdd (EScale (1 # 1) (EVar "contracted_intermediate")) (EScale (-1 # 1) (EEins "abcdijkl->abcdikjl" [(EVar "contracted_intermediate")])));
   (*L4092*) SAssign "contracted_intermediate" (EScale (1 # 2) (EEins "mnfe,ebkl,fcij,admn->abcdijkl" [(ESlice (EVar "g_abab") [SV "o"; SV "o"; SV "v"; SV "v"]); (EVar "t2_bbbb"); (EVar "t2_abab"); (EVar "t2_abab")]));
   (*L4093*) SAug true "quadruples_res" (EAdd (EScale (1 # 1) (EVar "contracted_intermediate")) (EScale (-1 # 1) (EEins "abcdijkl->abcdikjl" [(EVar "contracted_intermediate")])));
   (*L4096*) SAug true "quadruples_res" (EScale (1 # 1) (EEins "mnfe,ebjl,fcmk,adin->abcdijkl" [(ESlice (EVar "g_abab") [SV "o"; SV "o"; SV "v"; SV "v"]); (EVar "t2_bbbb"); (EVar "t2_abab"); (EVar "t2_abab")]));
   (*L4099*) SAug true "quadruples_res" (EScale (-1 # 1) (EEins "nmef,ebjl,fckm,adin->abcdijkl" [(ESlice (EVar "g_bbbb") [SV "o"; SV "o"; SV "v"; SV "v"]); (EVar "t2_bbbb"); (EVar "t2_bbbb"); (EVar "t2_abab")]));
   (*L4102*) SAug true "quadruples_res" (EScale (1 # 1) (EEins "nmfe,ebjl,fcim,adnk->abcdijkl" [(ESlice (EVar "g_abab") [SV "o"; SV "o"; SV "v"; SV "v"]); (EVar "t2_bbbb"); (EVar "t2_abab"); (EVar "t2_abab")]));
   (*L4105*) SAssign "contracted_intermediate" (EScale (1 # 1) (EEins "nmef,ebil,fcmk,adnj->abcdijkl" [(ESlice (EVar "g_aaaa") [SV "o"; SV "o"; SV "v"; SV "v"]); (EVar "t2_abab"); (EVar "t2_abab"); (EVar "t2_abab")]));
   (*L4106*) SAug true "quadruples_res" (EAdd (EScale (1 # 1) (EVar "contracted_intermediate")) (EScale (-1 # 1) (EEins "abcdijkl->abcdikjl" [(EVar "contracted_intermediate")])));
   (*L4109*) SAssign "contracted_intermediate" (EScale (-1 # 1) (EEins "nmef,ebil,fckm,adnj->abcdijkl" [(ESlice (EVar "g_abab") [SV "o"; SV "o"; SV "v"; SV "v"]); (EVar "t2_abab"); (EVar "t2_bbbb"); (EVar "t2_abab")]));
   (*L4110*) SAug true "quadruples_res" (EAdd (EScale (1 # 1) (EVar "contracted_intermediate")) (EScale (-1 # 1) (EEins "abcdijkl->abcdikjl" [(EVar "contracted_intermediate")])));
   (*L4113*) SAssign "contracted_intermediate" (EScale (-1 # 2) (EEins "nmef,ebil,fcjk,adnm->abcdijkl" [(ESlice (EVar "g_abab") [SV "o"; SV "o"; SV "v"; SV "v"]); (EVar "t2_abab"); (EVar "t2_bbbb"); (EVar "t2_abab")]));
   (*L4114*) SAug true "quadruples_res" (EAdd (EScale (1 # 1) (EVar "contracted_intermediate")) (EScale (-1 # 1) (EEins "abcdijkl->abcdijlk" [(EVar "contracted_intermediate")])));
   (*L4117*) SAssign "contracted_intermediate" (EScale (-1 # 2) (EEins "mnef,ebil,fcjk,admn->abcdijkl" [(ESlice (EVar "g_abab") [SV "o"; SV "o"; SV "v"; SV "v"]); (EVar "t2_abab"); (EVar "t2_bbbb"); (EVar "t2_abab")]));
   (*L4118*) SAug true "quadruples_res" (EAdd (EScale (1 # 1) (EVar "contracted_intermediate")) (EScale (-1 # 1) (EEins "abcdijkl->abcdijlk" [(EVar "contracted_intermediate")])));
   (*L4121*) SAug true "quadruples_res" (EScale (-1 # 1) (EEins "mnfe,ebjk,fcml,adin->abcdijkl" [(ESlice (EVar "g_abab") [SV "o"; SV "o"; SV "v"; SV "v"]); (EVar "t2_bbbb"); (EVar "t2_abab"); (EVar "t2_abab")]));
   (*L4124*) SAug true "quadruples_res" (EScale (1 # 1) (EEins "nmef,ebjk,fclm,adin->abcdijkl" [(ESlice (EVar "g_bbbb") [SV "o"; SV "o"; SV "v"; SV "v"]); (EVar "t2_bbbb"); (EVar "t2_bbbb"); (EVar "t2_abab")]));
   (*L4127*) SAug true "quadruples_res" (EScale (-1 # 1) (EEins "nmfe,ebjk,fcim,adnl->abcdijkl" [(ESlice (EVar "g_abab") [SV "o"; SV "o"; SV "v"; SV "v"]); (EVar "t2_bbbb"); (EVar "t2_abab"); (EVar "t2_abab")]));
   (*L4130*) SAug true "quadruples_res" (EScale (1 # 2) (EEins "nmfe,ebjk,fcil,adnm->abcdijkl" [(ESlice (EVar "g_abab") [SV "o"; SV "o"; SV "v"; SV "v"]); (EVar "t2_bbbb"); (EVar "t2_abab"); (EVar "t2_abab")]));
   (*L4133*) SAug true "quadruples_res" (EScale (1 # 2) (EEins "mnfe,ebjk,fcil,admn->abcdijkl" [(ESlice (EVar "g_abab") [SV "o"; SV "o"; SV "v"; SV "v"]); (EVar "t2_bbbb"); (EVar "t2_abab"); (EVar "t2_abab")]));
   (*L4136*) SAug true "quadruples_res" (EScale (-1 # 2) (EEins "nmef,ebij,fckl,adnm->abcdijkl" [(ESlice (EVar "g_abab") [SV "o"; SV "o"; SV "v"; SV "v"]); (EVar "t2_abab"); (EVar "t2_bbbb"); (EVar "t2_abab")]));
   (*L4139*) SAug true "quadruples_res" (EScale (-1 # 2) (EEins "mnef,ebij,fckl,admn->abcdijkl" [(ESlice (EVar "g_abab") [SV "o"; SV "o"; SV "v"; SV "v"]); (EVar "t2_abab"); (EVar "t2_bbbb"); (EVar "t2_abab")]));
   (*L4142*) SAssign "contracted_intermediate" (EScale (-1 # 1) (EEins "nmef,ebik,fcml,adnj->abcdijkl" [(ESlice (EVar "g_aaaa") [SV "o"; SV "o"; SV "v"; SV "v"]); (EVar "t2_abab"); (EVar "t2_abab"); (EVar "t2_abab")]));
   (*L4143*) SAug true "quadruples_res" (EAdd (EScale (1 # 1) (EVar "contracted_intermediate")) (EScale (-1 # 1) (EEins "abcdijkl->abcdilkj" [(EVar "contracted_intermediate")])));
   (*L4146*) SAssign "contracted_intermediate" (EScale (1 # 1) (EEins "nmef,ebik,fclm,adnj->abcdijkl" [(ESlice (EVar "g_abab") [SV "o"; SV "o"; SV "v"; SV "v"]); (EVar "t2_abab"); (EVar "t2_bbbb"); (EVar "t2_abab")]));
   (*L4147*) SAug true "quadruples_res" (EAdd (EScale (1 # 1) (EVar "contracted_intermediate")) (EScale (-1 # 1) (EEins "abcdijkl->abcdilkj" [(EVar "contracted_intermediate")])));
   (*L4150*) SAssign "contracted_intermediate" (EScale (1 # 1) (EEins "nmef,ebij,fcml,adnk->abcdijkl" [(ESlice (EVar "g_aaaa") [SV "o"; SV "o"; SV "v"; SV "v"]); (EVar "t2_abab"); (EVar "t2_abab"); (EVar "t2_abab")]));
   (*L4151*) SAug true "quadruples_res" (EAdd (EScale (1 # 1) (EVar "contracted_intermediate")) (EScale (-1 # 1) (EEins "abcdijkl->abcdijlk" [(EVar "contracted_intermediate")])));
   (*L4154*) SAssign "contracted_intermediate" (EScale (-1 # 1) (EEins "nmef,ebij,fclm,adnk->abcdijkl" [(ESlice (EVar "g_abab") [SV "o"; SV "o"; SV "v"; SV "v"]); (EVar "t2_abab"); (EVar "t2_bbbb"); (EVar "t2_abab")]));
   (*L4155*) SAug true "quadruples_res" (EAdd (EScale (1 # 1) (EVar "contracted_intermediate")) (EScale (-1 # 1) (EEins "abcdijkl->abcdijlk" [(EVar "contracted_intermediate")])));
   (*L4158*) SAug true "quadruples_res" (EScale (1 # 1) (EEins "mnef,ecml,fdjk,abin->abcdijkl" [(ESlice (EVar "g_abab") [SV "o"; SV "o"; SV "v"; SV "v"]); (EVar "t2_abab"); (EVar "t2_bbbb"); (EVar "t2_abab")]));
   (*L4161*) SAug true "quadruples_res" (EScale (1 # 1) (EEins "nmef,eclm,fdjk,abin->abcdijkl" [(ESlice (EVar "g_bbbb") [SV "o"; SV "o"; SV "v"; SV "v"]); (EVar "t2_bbbb"); (EVar "t2_bbbb"); (EVar "t2_abab")]));
   (*L4164*) SAug true "quadruples_res" (EScale (-1 # 1) (EEins "nmef,ecml,fdik,abnj->abcdijkl" [(ESlice (EVar "g_aaaa") [SV "o"; SV "o"; SV "v"; SV "v"]); (EVar "t2_abab"); (EVar "t2_abab"); (EVar "t2_abab")]));
   (*L4167*) SAug true "quadruples_res" (EScale (-1 # 1) (EEins "nmfe,eclm,fdik,abnj->abcdijkl" [(ESlice (EVar "g_abab") [SV "o"; SV "o"; SV "v"; SV "v"]); (EVar "t2_bbbb"); (EVar "t2_abab"); (EVar "t2_abab")]));
   (*L4170*) SAssign "contracted_intermediate" (EScale (1 # 1) (EEins "nmef,ecml,fdij,abnk->abcdijkl" [(ESlice (EVar "g_aaaa") [SV "o"; SV "o"; SV "v"; SV "v"]); (EVar "t2_abab"); (EVar "t2_abab"); (EVar "t2_abab")]));
   (*L4171*) SAug true "quadruples_res" (EAdd (EScale (1 # 1) (EVar "contracted_intermediate")) (EScale (-1 # 1) (EEins "abcdijkl->abcdijlk" [(EVar "contracted_intermediate")])));
   (*L4174*) SAssign "contracted_intermediate" (EScale (1 # 1) (EEins "nmfe,eclm,fdij,abnk->abcdijkl" [(ESlice (EVar "g_abab") [SV "o"; SV "o"; SV "v"; SV "v"]); (EVar "t2_bbbb"); (EVar "t2_abab"); (EVar "t2_abab")]));
   (*L4175*) SAug true "quadruples_res" (EAdd (EScale (1 # 1) (EVar "contracted_intermediate")) (EScale (-1 # 1) (EEins "abcdijkl->abcdijlk" [(EVar "contracted_intermediate")])));
   (*L4178*) SAug true "quadruples_res" (EScale (-1 # 1) (EEins "mnef,ecmk,fdjl,abin->abcdijkl" [(ESlice (EVar "g_abab") [SV "o"; SV "o"; SV "v"; SV "v"]); (EVar "t2_abab"); (EVar "t2_bbbb"); (EVar "t2_abab")]));
   (*L4181*) SAug true "quadruples_res" (EScale (-1 # 1) (EEins "nmef,eckm,fdjl,abin->abcdijkl" [(ESlice (EVar "g_bbbb") [SV "o"; SV "o"; SV "v"; SV "v"]); (EVar "t2_bbbb"); (EVar "t2_bbbb"); (EVar "t2_abab")]));
   (*L4184*) SAug true "quadruples_res" (EScale (1 # 1) (EEins "nmef,ecmk,fdil,abnj->abcdijkl" [(ESlice (EVar "g_aaaa") [SV "o"; SV "o"; SV "v"; SV "v"]); (EVar "t2_abab"); (EVar "t2_abab"); (EVar "t2_abab")]));
   (*L4187*) SAug true "quadruples_res" (EScale (1 # 1) (EEins "nmfe,eckm,fdil,abnj->abcdijkl" [(ESlice (EVar "g_abab") [SV "o"; SV "o"; SV "v"; SV "v"]); (EVar "t2_bbbb"); (EVar "t2_abab"); (EVar "t2_abab")]));
   (*L4190*) SAug true "quadruples_res" (EScale (1 # 1) (EEins "mnef,ecmj,fdkl,abin->abcdijkl" [(ESlice (EVar "g_abab") [SV "o"; SV "o"; SV "v"; SV "v"]); (EVar "t2_abab"); (EVar "t2_bbbb"); (EVar "t2_abab")]));
   (*L4193*) SAug true "quadruples_res" (EScale (1 # 1) (EEins "nmef,ecjm,fdkl,abin->abcdijkl" [(ESlice (EVar "g_bbbb") [SV "o"; SV "o"; SV "v"; SV "v"]); (EVar "t2_bbbb"); (EVar "t2_bbbb"); (EVar "t2_abab")]));
   (*L4196*) SAug true "quadruples_res" (EScale (-1 # 1) (EEins "nmef,ecmj,fdil,abnk->abcdijkl" [(ESlice (EVar "g_aaaa") [SV "o"; SV "o"; SV "v"; SV "v"]); (EVar "t2_abab"); (EVar "t2_abab"); (EVar "t2_abab")]));
   (*L4199*) SAug true "quadruples_res" (EScale (-1 # 1) (EEins "nmfe,ecjm,fdil,abnk->abcdijkl" [(ESlice (EVar "g_abab") [SV "o"; SV "o"; SV "v"; SV "v"]); (EVar "t2_bbbb"); (EVar "t2_abab"); (EVar "t2_abab")]));
   (*L4202*) SAug true "quadruples_res" (EScale (1 # 1) (EEins "nmef,ecmj,fdik,abnl->abcdijkl" [(ESlice (EVar "g_aaaa") [SV "o"; SV "o"; SV "v"; SV "v"]); (EVar "t2_abab"); (EVar "t2_abab"); (EVar "t2_abab")]));
   (*L4205*) SAug true "quadruples_res" (EScale (1 # 1) (EEins "nmfe,ecjm,fdik,abnl->abcdijkl" [(ESlice (EVar "g_abab") [SV "o"; SV "o"; SV "v"; SV "v"]); (EVar "t2_bbbb"); (EVar "t2_abab"); (EVar "t2_abab")]));
   (*L4208*) SAug true "quadruples_res" (EScale (1 # 1) (EEins "nmef,ecim,fdjk,abnl->abcdijkl" [(ESlice (EVar "g_abab") [SV "o"; SV "o"; SV "v"; SV "v"]); (EVar "t2_abab"); (EVar "t2_bbbb"); (EVar "t2_abab")]));
   (*L4211*) SAssign "contracted_intermediate" (EScale (1 # 1) (EEins "nmef,ecim,fdkl,abnj->abcdijkl" [(ESlice (EVar "g_abab") [SV "o"; SV "o"; SV "v"; SV "v"]); (EVar "t2_abab"); (EVar "t2_bbbb"); (EVar "t2_abab")]));
   (*L4212*) SAug true "quadruples_res" (EAdd (EScale (1 # 1) (EVar "contracted_intermediate")) (EScale (-1 # 1) (EEins "abcdijkl->abcdikjl" [(EVar "contracted_intermediate")])));
   (*L4215*) SAug true "quadruples_res" (EScale (-1 # 1) (EEins "mnfe,eckl,fdmj,abin->abcdijkl" [(ESlice (EVar "g_abab") [SV "o"; SV "o"; SV "v"; SV "v"]); (EVar "t2_bbbb"); (EVar "t2_abab"); (EVar "t2_abab")]));
   (*L4218*) SAug true "quadruples_res" (EScale (1 # 1) (EEins "nmef,eckl,fdjm,abin->abcdijkl" [(ESlice (EVar "g_bbbb") [SV "o"; SV "o"; SV "v"; SV "v"]); (EVar "t2_bbbb"); (EVar "t2_bbbb"); (EVar "t2_abab")]));
   (*L4221*) SAug true "quadruples_res" (EScale (-1 # 1) (EEins "nmfe,eckl,fdim,abnj->abcdijkl" [(ESlice (EVar "g_abab") [SV "o"; SV "o"; SV "v"; SV "v"]); (EVar "t2_bbbb"); (EVar "t2_abab"); (EVar "t2_abab")]));
   (*L4224*) SAssign "contracted_intermediate" (EScale (1 # 2) (EEins "nmfe,eckl,fdij,abnm->abcdijkl" [(ESlice (EVar "g_abab") [SV "o"; SV "o"; SV "v"; SV "v"]); (EVar "t2_bbbb"); (EVar "t2_abab"); (EVar "t2_abab")]));
   (*L4225*) SAug true "quadruples_res" (EAdd (EScale (1 # 1) (EVar "contracted_intermediate")) (EScale (-1 # 1) (EEins "abcdijkl->abcdikjl" [(EVar "contracted_intermediate")])));
   (*L4228*) SAssign "contracted_intermediate" (EScale (1 # 2) (EEins "mnfe,eckl,fdij,abmn->abcdijkl" [(ESlice (EVar "g_abab") [SV "o"; SV "o"; SV "v"; SV "v"]); (EVar "t2_bbbb"); (EVar "t2_abab"); (EVar "t2_abab")]));
   (*L4229*) SAug true "quadruples_res" (EAdd (EScale (1 # 1) (EVar "contracted_intermediate")) (EScale (-1 # 1) (EEins "abcdijkl->abcdikjl" [(EVar "contracted_intermediate")])));
   (*L4232*) SAug true "quadruples_res" (EScale (1 # 1) (EEins "mnfe,ecjl,fdmk,abin->abcdijkl" [(ESlice (EVar "g_abab") [SV "o"; SV "o"; SV "v"; SV "v"]); (EVar "t2_bbbb"); (EVar "t2_abab"); (EVar "t2_abab")]));
   (*L4235*) SAug true "quadruples_res" (EScale (-1 # 1) (EEins "nmef,ecjl,fdkm,abin->abcdijkl" [(ESlice (EVar "g_bbbb") [SV "o"; SV "o"; SV "v"; SV "v"]); (EVar "t2_bbbb"); (EVar "t2_bbbb"); (EVar "t2_abab")]));
   (*L4238*) SAug true "quadruples_res" (EScale (1 # 1) (EEins "nmfe,ecjl,fdim,abnk->abcdijkl" [(ESlice (EVar "g_abab") [SV "o"; SV "o"; SV "v"; SV "v"]); (EVar "t2_bbbb"); (EVar "t2_abab"); (EVar "t2_abab")]));
   (*L4241*) SAssign "contracted_intermediate" (EScale (1 # 1) (EEins "nmef,ecil,fdmk,abnj->abcdijkl" [(ESlice (EVar "g_aaaa") [SV "o"; SV "o"; SV "v"; SV "v"]); (EVar "t2_abab"); (EVar "t2_abab"); (EVar "t2_abab")]));
   (*L4242*) SAug true "quadruples_res" (EAdd (EScale (1 # 1) (EVar "contracted_intermediate")) (EScale (-1 # 1) (EEins "abcdijkl->abcdikjl" [(EVar "contracted_intermediate")])));
   (*L4245*) SAssign "contracted_intermediate" (EScale (-1 # 1) (EEins "nmef,ecil,fdkm,abnj->abcdijkl" [(ESlice (EVar "g_abab") [SV "o"; SV "o"; SV "v"; SV "v"]); (EVar "t2_abab"); (EVar "t2_bbbb"); (EVar "t2_abab")]));
   (*L4246*) SAug true "quadruples_res" (EAdd (EScale (1 # 1) (EVar "contracted_intermediate")) (EScale (-1 # 1) (EEins "abcdijkl->abcdikjl" [(EVar "contracted_intermediate")])));
   (*L4249*) SAssign "contracted_intermediate" (EScale (-1 # 2) (EEins "nmef,ecil,fdjk,abnm->abcdijkl" [(ESlice (EVar "g_abab") [SV "o"; SV "o"; SV "v"; SV "v"]); (EVar "t2_abab"); (EVar "t2_bbbb"); (EVar "t2_abab")]));
   (*L4250*) SAug true "quadruples_res" (EAdd (EScale (1 # 1) (EVar "contracted_intermediate")) (EScale (-1 # 1) (EEins "abcdijkl->abcdijlk" [(EVar "contracted_intermediate")])));
   (*L4253*) SAssign "contracted_intermediate" (EScale (-1 # 2) (EEins "mnef,ecil,fdjk,abmn->abcdijkl" [(ESlice (EVar "g_abab") [SV "o"; SV "o"; SV "v"; SV "v"]); (EVar "t2_abab"); (EVar "t2_bbbb"); (EVar "t2_abab")]));
   (*L4254*) SAug true "quadruples_res" (EAdd (EScale (1 # 1) (EVar "contracted_intermediate")) (EScale (-1 # 1) (EEins "abcdijkl->abcdijlk" [(EVar "contracted_intermediate")])));
   (*L4257*) SAug true "quadruples_res" (EScale (-1 # 1) (EEins "mnfe,ecjk,fdml,abin->abcdijkl" [(ESlice (EVar "g_abab") [SV "o"; SV "o"; SV "v"; SV "v"]); (EVar "t2_bbbb"); (EVar "t2_abab"); (EVar "t2_abab")]));
   (*L4260*) SAug true "quadruples_res" (EScale (1 # 1) (EEins "nmef,ecjk,fdlm,abin->abcdijkl" [(ESlice (EVar "g_bbbb") [SV "o"; SV "o"; SV "v"; SV "v"]); (EVar "t2_bbbb"); (EVar "t2_bbbb"); (EVar "t2_abab")]));
   (*L4263*) SAug true "quadruples_res" (EScale (-1 # 1) (EEins "nmfe,ecjk,fdim,abnl->abcdijkl" [(ESlice (EVar "g_abab") [SV "o"; SV "o"; SV "v"; SV "v"]); (EVar "t2_bbbb"); (EVar "t2_abab"); (EVar "t2_abab")]));
   (*L4266*) SAug true "quadruples_res" (EScale (1 # 2) (EEins "nmfe,ecjk,fdil,abnm->abcdijkl" [(ESlice (EVar "g_abab") [SV "o"; SV "o"; SV "v"; SV "v"]); (EVar "t2_bbbb"); (EVar "t2_abab"); (EVar "t2_abab")]));
   (*L4269*) SAug true "quadruples_res" (EScale (1 # 2) (EEins "mnfe,ecjk,fdil,abmn->abcdijkl" [(ESlice (EVar "g_abab") [SV "o"; SV "o"; SV "v"; SV "v"]); (EVar "t2_bbbb"); (EVar "t2_abab"); (EVar "t2_abab")]));
   (*L4272*) SAug true "quadruples_res" (EScale (-1 # 2) (EEins "nmef,ecij,fdkl,abnm->abcdijkl" [(ESlice (EVar "g_abab") [SV "o"; SV "o"; SV "v"; SV "v"]); (EVar "t2_abab"); (EVar "t2_bbbb"); (EVar "t2_abab")]));
   (*L4275*) SAug true "quadruples_res" (EScale (-1 # 2) (EEins "mnef,ecij,fdkl,abmn->abcdijkl" [(ESlice (EVar "g_abab") [SV "o"; SV "o"; SV "v"; SV "v"]); (EVar "t2_abab"); (EVar "t2_bbbb"); (EVar "t2_abab")]));
   (*L4278*) SAssign "contracted_intermediate" (EScale (-1 # 1) (EEins "nmef,ecik,fdml,abnj->abcdijkl" [(ESlice (EVar "g_aaaa") [SV "o"; SV "o"; SV "v"; SV "v"]); (EVar "t2_abab"); (EVar "t2_abab"); (EVar "t2_abab")]));
   (*L4279*) SAug true "quadruples_res" (EAdd (EScale (1 # 1) (EVar "contracted_intermediate")) (EScale (-1 # 1) (EEins "abcdijkl->abcdilkj" [(EVar "contracted_intermediate")])));
   (*L4282*) SAssign "contracted_intermediate" (EScale (1 # 1) (EEins "nmef,ecik,fdlm,abnj->abcdijkl" [(ESlice (EVar "g_abab") [SV "o"; SV "o"; SV "v"; SV "v"]); (EVar "t2_abab"); (EVar "t2_bbbb"); (EVar "t2_abab")]));
   (*L4283*) SAug true "quadruples_res" (EAdd (EScale (1 # 1) (EVar "contracted_intermediate")) (EScale (-1 # 1) (EEins "abcdijkl->abcdilkj" [(EVar "contracted_intermediate")])));
   (*L4286*) SAssign "contracted_intermediate" (EScale (1 # 1) (EEins "nmef,ecij,fdml,abnk->abcdijkl" [(ESlice (EVar "g_aaaa") [SV "o"; SV "o"; SV "v"; SV "v"]); (EVar "t2_abab"); (EVar "t2_abab"); (EVar "t2_abab")]));
   (*L4287*) SAug true "quadruples_res" (EAdd (EScale (1 # 1) (EVar "contracted_intermediate")) (EScale (-1 # 1) (EEins "abcdijkl->abcdijlk" [(EVar "contracted_intermediate")])));
   (*L4290*) SAssign "contracted_intermediate" (EScale (-1 # 1) (EEins "nmef,ecij,fdlm,abnk->abcdijkl" [(ESlice (EVar "g_abab") [SV "o"; SV "o"; SV "v"; SV "v"]); (EVar "t2_abab"); (EVar "t2_bbbb"); (EVar "t2_abab")]));
   (*L4291*) SAug true "quadruples_res" (EAdd (EScale (1 # 1) (EVar "contracted_intermediate")) (EScale (-1 # 1) (EEins "abcdijkl->abcdijlk" [(EVar "contracted_intermediate")])))]
  (*L4293*) (EVar "quadruples_res").

(** /repo/UT2/fullCCenergy.py:4296-4787  def ccsdtqT2cubed_t4_bbbbbbbb_residual *)
Definition ccsdtqT2cubed_t4_bbbbbbbb_residual : fn := mkFn
  ["t1_aa"; "t1_bb"; "t2_aaaa"; "t2_bbbb"; "t2_abab"; "t3_aaaaaa"; "t3_aabaab"; "t3_abbabb"; "t3_bbbbbb"; "t4_aaaaaaaa"; "t4_aaabaaab"; "t4_aabbaabb"; "t4_abbbabbb"; "t4_bbbbbbbb"; "f_aa"; "f_bb"; "g_aaaa"; "g_bbbb"; "g_abab"; "oa"; "ob"; "va"; "vb"]
  [(*L4304*) SAssign "o" (EVar "oa");
   (*L4305*) SAssign "v" (EVar "va");
   (*L4308*) SAssign "contracted_intermediate" (EScale (-1 # 2) (EEins "nmef,efkl,abjm,cdin->abcdijkl" [(ESlice (EVar "g_bbbb") [SV "o"; SV "o"; SV "v"; SV "v"]); (EVar "t2_bbbb"); (EVar "t2_bbbb"); (EVar "t2_bbbb")]));
   (*L4309*) SAssign "quadruples_res" (EAdd (EAdd (EAdd (EScale (1 # 1) (EVar "contracted_intermediate")) (EScale (-1 # 1) (EEins "abcdijkl->abcdjikl" [(EVar "contracted_intermediate")]))) (EScale (-1 # 1) (EEins "abcdijkl->acbdijkl" [(EVar "contracted_intermediate")]))) (EScale (1 # 1) (EEins "abcdijkl->acbdjikl" [(EVar "contracted_intermediate")])));
   (*L4312*) SAssign "contracted_intermediate" (EScale (-1 # 2) (EEins "nmef,efkl,adjm,bcin->abcdijkl" [(ESlice (EVar "g_bbbb") [SV "o"; SV "o"; SV "v"; SV "v"]); (EVar "t2_bbbb"); (EVar "t2_bbbb"); (EVar "t2_bbbb")]));
   (*L4313*) SAug true "quadruples_res" (EAdd (EScale (1 # 1) (EVar "contracted_intermediate")) (EScale (-1 # 1) (EEins "abcdijkl->abcdjikl" [(EVar "contracted_intermediate")])));
   (*L4316*) SAssign "contracted_intermediate" (EScale (1 # 2) (EEins "nmef,efjl,abkm,cdin->abcdijkl" [(ESlice (EVar "g_bbbb") [SV "o"; SV "o"; SV "v"; SV "v"]); (EVar "t2_bbbb"); (EVar "t2_bbbb"); (EVar "t2_bbbb")]));
   (*L4317*) SAug true "quadruples_res" (EAdd (EAdd (EAdd (EScale (1 # 1) (EVar "contracted_intermediate")) (EScale (-1 # 1) (EEins "abcdijkl->abcdkjil" [(EVar "contracted_intermediate")]))) (EScale (-1 # 1) (EEins "abcdijkl->acbdijkl" [(EVar "contracted_intermediate")]))) (EScale (1 # 1) (EEins "abcdijkl->acbdkjil" [(EVar "contracted_intermediate")])));
   (*L4320*) SAssign "contracted_intermediate" (EScale (1 # 2) (EEins "nmef,efjl,adkm,bcin->abcdijkl" [(ESlice (EVar "g_bbbb") [SV "o"; SV "o"; SV "v"; SV "v"]); (EVar "t2_bbbb"); (EVar "t2_bbbb"); (EVar "t2_bbbb")]));
   (*L4321*) SAug true "quadruples_res" (EAdd (EScale (1 # 1) (EVar "contracted_intermediate")) (EScale (-1 # 1) (EEins "abcdijkl->abcdkjil" [(EVar "contracted_intermediate")])));
   (*L4324*) SAssign "contracted_intermediate" (EScale (-1 # 2) (EEins "nmef,efil,abkm,cdjn->abcdijkl" [(ESlice (EVar "g_bbbb") [SV "o"; SV "o"; SV "v"; SV "v"]); (EVar "t2_bbbb"); (EVar "t2_bbbb"); (EVar "t2_bbbb")]));
   (*L4325*) SAug true "quadruples_res" (EAdd (EAdd (EAdd (EScale (1 # 1) (EVar "contracted_intermediate")) (EScale (-1 # 1) (EEins "abcdijkl->abcdikjl" [(EVar "contracted_intermediate")]))) (EScale (-1 # 1) (EEins "abcdijkl->acbdijkl" [(EVar "contracted_intermediate")]))) (EScale (1 # 1) (EEins "abcdijkl->acbdikjl" [(EVar "contracted_intermediate")])));
   (*L4328*) SAssign "contracted_intermediate" (EScale (-1 # 2) (EEins "nmef,efil,adkm,bcjn->abcdijkl" [(ESlice (EVar "g_bbbb") [SV "o"; SV "o"; SV "v"; SV "v"]); (EVar "t2_bbbb"); (EVar "t2_bbbb"); (EVar "t2_bbbb")]));
   (*L4329*) SAug true "quadruples_res" (EAdd (EScale (1 # 1) (EVar "contracted_intermediate")) (EScale (-1 # 1) (EEins "abcdijkl->abcdikjl" [(EVar "contracted_intermediate")])));
   (*L4332*) SAssign "contracted_intermediate" (EScale (-1 # 2) (EEins "nmef,efjk,ablm,cdin->abcdijkl" [(ESlice (EVar "g_bbbb") [SV "o"; SV "o"; SV "v"; SV "v"]); (EVar "t2_bbbb"); (EVar "t2_bbbb"); (EVar "t2_bbbb")]));
   (*L4333*) SAug true "quadruples_res" (EAdd (EAdd (EAdd (EScale (1 # 1) (EVar "contracted_intermediate")) (EScale (-1 # 1) (EEins "abcdijkl->abcdljki" [(EVar "contracted_intermediate")]))) (EScale (-1 # 1) (EEins "abcdijkl->acbdijkl" [(EVar "contracted_intermediate")]))) (EScale (1 # 1) (EEins "abcdijkl->acbdljki" [(EVar "contracted_intermediate")])));
   (*L4336*) SAssign "contracted_intermediate" (EScale (-1 # 2) (EEins "nmef,efjk,adlm,bcin->abcdijkl" [(ESlice (EVar "g_bbbb") [SV "o"; SV "o"; SV "v"; SV "v"]); (EVar "t2_bbbb"); (EVar "t2_bbbb"); (EVar "t2_bbbb")]));
   (*L4337*) SAug true "quadruples_res" (EAdd (EScale (1 # 1) (EVar "contracted_intermediate")) (EScale (-1 # 1) (EEins "abcdijkl->abcdljki" [(EVar "contracted_intermediate")])));
   (*L4340*) SAssign "contracted_intermediate" (EScale (1 # 2) (EEins "nmef,efik,ablm,cdjn->abcdijkl" [(ESlice (EVar "g_bbbb") [SV "o"; SV "o"; SV "v"; SV "v"]); (EVar "t2_bbbb"); (EVar "t2_bbbb"); (EVar "t2_bbbb")]));
   (*L4341*) SAug true "quadruples_res" (EAdd (EAdd (EAdd (EScale (1 # 1) (EVar "contracted_intermediate")) (EScale (-1 # 1) (EEins "abcdijkl->abcdilkj" [(EVar "contracted_intermediate")]))) (EScale (-1 # 1) (EEins "abcdijkl->acbdijkl" [(EVar "contracted_intermediate")]))) (EScale (1 # 1) (EEins "abcdijkl->acbdilkj" [(EVar "contracted_intermediate")])));
   (*L4344*) SAssign "contracted_intermediate" (EScale (1 # 2) (EEins "nmef,efik,adlm,bcjn->abcdijkl" [(ESlice (EVar "g_bbbb") [SV "o"; SV "o"; SV "v"; SV "v"]); (EVar "t2_bbbb"); (EVar "t2_bbbb"); (EVar "t2_bbbb")]));
   (*L4345*) SAug true "quadruples_res" (EAdd (EScale (1 # 1) (EVar "contracted_intermediate")) (EScale (-1 # 1) (EEins "abcdijkl->abcdilkj" [(EVar "contracted_intermediate")])));
   (*L4348*) SAssign "contracted_intermediate" (EScale (-1 # 2) (EEins "nmef,efij,ablm,cdkn->abcdijkl" [(ESlice (EVar "g_bbbb") [SV "o"; SV "o"; SV "v"; SV "v"]); (EVar "t2_bbbb"); (EVar "t2_bbbb"); (EVar "t2_bbbb")]));
   (*L4349*) SAug true "quadruples_res" (EAdd (EAdd (EAdd (EScale (1 # 1) (EVar "contracted_intermediate")) (EScale (-1 # 1) (EEins "abcdijkl->abcdijlk" [(EVar "contracted_intermediate")]))) (EScale (-1 # 1) (EEins "abcdijkl->acbdijkl" [(EVar "contracted_intermediate")]))) (EScale (1 # 1) (EEins "abcdijkl->acbdijlk" [(EVar "contracted_intermediate")])));
   (*L4352*) SAssign "contracted_intermediate" (EScale (-1 # 2) (EEins "nmef,efij,adlm,bckn->abcdijkl" [(ESlice (EVar "g_bbbb") [SV "o"; SV "o"; SV "v"; SV "v"]); (EVar "t2_bbbb"); (EVar "t2_bbbb"); (EVar "t2_bbbb")]));
   (*L4353*) SAug true "quadruples_res" (EAdd (EScale (1 # 1) (EVar "contracted_intermediate")) (EScale (-1 # 1) (EEins "abcdijkl->abcdijlk" [(EVar "contracted_intermediate")])));
   (*L4356*) SAssign "contracted_intermediate" (EScale (1 # 1) (EEins "mnef,eaml,fbjk,cdin->abcdijkl" [(ESlice (EVar "g_abab") [SV "o"; SV "o"; SV "v"; SV "v"]); (EVar "t2_abab"); (EVar "t2_bbbb"); (EVar "t2_bbbb")]));
   (*L4357*) SAug true "quadruples_res" (EAdd (EAdd (EAdd (EScale (1 # 1) (EVar "contracted_intermediate")) (EScale (-1 # 1) (EEins "abcdijkl->abcdjikl" [(EVar "contracted_intermediate")]))) (EScale (-1 # 1) (EEins "abcdijkl->acbdijkl" [(EVar "contracted_intermediate")]))) (EScale (1 # 1) (EEins "abcdijkl->acbdjikl" [(EVar "contracted_intermediate")])));
   (*L4360*) SAssign "contracted_intermediate" (EScale (1 # 1) (EEins "nmef,ealm,fbjk,cdin->abcdijkl" [(ESlice (EVar "g_bbbb") [SV "o"; SV "o"; SV "v"; SV "v"]); (EVar "t2_bbbb"); (EVar "t2_bbbb"); (EVar "t2_bbbb")]));
   (*L4361*) SAug true "quadruples_res" (EAdd (EAdd (EAdd (EScale (1 # 1) (EVar "contracted_intermediate")) (EScale (-1 # 1) (EEins "abcdijkl->abcdjikl" [(EVar "contracted_intermediate")]))) (EScale (-1 # 1) (EEins "abcdijkl->acbdijkl" [(EVar "contracted_intermediate")]))) (EScale (1 # 1) (EEins "abcdijkl->acbdjikl" [(EVar "contracted_intermediate")])));
   (*L4364*) SAssign "contracted_intermediate" (EScale (1 # 1) (EEins "mnef,eaml,fbij,cdkn->abcdijkl" [(ESlice (EVar "g_abab") [SV "o"; SV "o"; SV "v"; SV "v"]); (EVar "t2_abab"); (EVar "t2_bbbb"); (EVar "t2_bbbb")]));
   (*L4365*) SAug true "quadruples_res" (EAdd (EAdd (EAdd (EScale (1 # 1) (EVar "contracted_intermediate")) (EScale (-1 # 1) (EEins "abcdijkl->abcdijlk" [(EVar "contracted_intermediate")]))) (EScale (-1 # 1) (EEins "abcdijkl->acbdijkl" [(EVar "contracted_intermediate")]))) (EScale (1 # 1) (EEins "abcdijkl->acbdijlk" [(EVar "contracted_intermediate")])));
   (*L4368*) SAssign "contracted_intermediate" (EScale (1 # 1) (EEins "nmef,ealm,fbij,cdkn->abcdijkl" [(ESlice (EVar "g_bbbb") [SV "o"; SV "o"; SV "v"; SV "v"]); (EVar "t2_bbbb"); (EVar "t2_bbbb"); (EVar "t2_bbbb")]));
   (*L4369*) SAug true "quadruples_res" (EAdd (EAdd (EAdd (EScale (1 # 1) (EVar "contracted_intermediate")) (EScale (-1 # 1) (EEins "abcdijkl->abcdijlk" [(EVar "contracted_intermediate")]))) (EScale (-1 # 1) (EEins "abcdijkl->acbdijkl" [(EVar "contracted_intermediate")]))) (EScale (1 # 1) (EEins "abcdijkl->acbdijlk" [(EVar "contracted_intermediate")])));
   (*L4372*) SAssign "contracted_intermediate" (EScale (1 # 1) (EEins "mnef,eaml,fdjk,bcin->abcdijkl" [(ESlice (EVar "g_abab") [SV "o"; SV "o"; SV "v"; SV "v"]); (EVar "t2_abab"); (EVar "t2_bbbb"); (EVar "t2_bbbb")]));
   (*L4373*) SAug true "quadruples_res" (EAdd (EAdd (EAdd (EScale (1 # 1) (EVar "contracted_intermediate")) (EScale (-1 # 1) (EEins "abcdijkl->abcdjikl" [(EVar "contracted_intermediate")]))) (EScale (-1 # 1) (EEins "abcdijkl->bacdijkl" [(EVar "contracted_intermediate")]))) (EScale (1 # 1) (EEins "abcdijkl->bacdjikl" [(EVar "contracted_intermediate")])));
   (*L4376*) SAssign "contracted_intermediate" (EScale (1 # 1) (EEins "nmef,ealm,fdjk,bcin->abcdijkl" [(ESlice (EVar "g_bbbb") [SV "o"; SV "o"; SV "v"; SV "v"]); (EVar "t2_bbbb"); (EVar "t2_bbbb"); (EVar "t2_bbbb")]));
   (*L4377*) SAug true "quadruples_res" (EAdd (EAdd (EAdd (EScale (1 # 1) (EVar "contracted_intermediate")) (EScale (-1 # 1) (EEins "abcdijkl->abcdjikl" [(EVar "contracted_intermediate")]))) (EScale (-1 # 1) (EEins "abcdijkl->bacdijkl" [(EVar "contracted_intermediate")]))) (EScale (1 # 1) (EEins "abcdijkl->bacdjikl" [(EVar "contracted_intermediate")])));
   (*L4380*) SAssign "contracted_intermediate" (EScale (1 # 1) (EEins "mnef,eaml,fdij,bckn->abcdijkl" [(ESlice (EVar "g_abab") [SV "o"; SV "o"; SV "v"; SV "v"]); (EVar "t2_abab"); (EVar "t2_bbbb"); (EVar "t2_bbbb")]));
   (*L4381*) SAug true "quadruples_res" (EAdd (EAdd (EAdd (EScale (1 # 1) (EVar "contracted_intermediate")) (EScale (-1 # 1) (EEins "abcdijkl->abcdijlk" [(EVar "contracted_intermediate")]))) (EScale (-1 # 1) (EEins "abcdijkl->bacdijkl" [(EVar "contracted_intermediate")]))) (EScale (1 # 1) (EEins "abcdijkl->bacdijlk" [(EVar "contracted_intermediate")])));
   (*L4384*) SAssign "contracted_intermediate" (EScale (1 # 1) (EEins "nmef,ealm,fdij,bckn->abcdijkl" [(ESlice (EVar "g_bbbb") [SV "o"; SV "o"; SV "v"; SV "v"]); (EVar "t2_bbbb"); (EVar "t2_bbbb"); (EVar "t2_bbbb")]));
   (*L4385*) SAug true "quadruples_res" (EAdd (EAdd (EAdd (EScale (1 # 1) (EVar "contracted_intermediate")) (EScale (-1 # 1) (EEins "abcdijkl->abcdijlk" [(EVar "contracted_intermediate")]))) (EScale (-1 # 1) (EEins "abcdijkl->bacdijkl" [(EVar "contracted_intermediate")]))) (EScale (1 # 1) (EEins "abcdijkl->bacdijlk" [(EVar "contracted_intermediate")])));
   (*L4388*) SAssign "contracted_intermediate" (EScale (-1 # 1) (EEins "mnef,eamk,fbjl,cdin->abcdijkl" [(ESlice (EVar "g_abab") [SV "o"; SV "o"; SV "v"; SV "v"]); (EVar "t2_abab"); (EVar "t2_bbbb"); (EVar "t2_bbbb")]));
   (*L4389*) SAug true "quadruples_res" (EAdd (EAdd (EAdd (EScale (1 # 1) (EVar "contracted_intermediate")) (EScale (-1 # 1) (EEins "abcdijkl->abcdjikl" [(EVar "contracted_intermediate")]))) (EScale (-1 # 1) (EEins "abcdijkl->acbdijkl" [(EVar "contracted_intermediate")]))) (EScale (1 # 1) (EEins "abcdijkl->acbdjikl" [(EVar "contracted_intermediate")])));
   (*L4392*) SAssign "contracted_intermediate" (EScale (-1 # 1) (EEins "nmef,eakm,fbjl,cdin->abcdijkl" [(ESlice (EVar "g_bbbb") [SV "o"; SV "o"; SV "v"; SV "v"]); (EVar "t2_bbbb"); (EVar "t2_bbbb"); (EVar "t2_bbbb")]));
   (*L4393*) SAug true "quadruples_res" (EAdd (EAdd (EAdd (EScale (1 # 1) (EVar "contracted_intermediate")) (EScale (-1 # 1) (EEins "abcdijkl->abcdjikl" [(EVar "contracted_intermediate")]))) (EScale (-1 # 1) (EEins "abcdijkl->acbdijkl" [(EVar "contracted_intermediate")]))) (EScale (1 # 1) (EEins "abcdijkl->acbdjikl" [(EVar "contracted_intermediate")])));
   (*L4396*) SAssign "contracted_intermediate" (EScale (-1 # 1) (EEins "mnef,eamk,fdjl,bcin->abcdijkl" [(ESlice (EVar "g_abab") [SV "o"; SV "o"; SV "v"; SV "v"]); (EVar "t2_abab"); (EVar "t2_bbbb"); (EVar "t2_bbbb")]));
   (*L4397*) SAug true "quadruples_res" (EAdd (EAdd (EAdd (EScale (1 # 1) (EVar "contracted_intermediate")) (EScale (-1 # 1) (EEins "abcdijkl->abcdjikl" [(EVar "contracted_intermediate")]))) (EScale (-1 # 1) (EEins "abcdijkl->bacdijkl" [(EVar "contracted_intermediate")]))) (EScale (1 # 1) (EEins "abcdijkl->bacdjikl" [(EVar "contracted_intermediate")])));
   (*L4400*) SAssign "contracted_intermediate" (EScale (-1 # 1) (EEins "nmef,eakm,fdjl,bcin->abcdijkl" [(ESlice (EVar "g_bbbb") [SV "o"; SV "o"; SV "v"; SV "v"]); (EVar "t2_bbbb"); (EVar "t2_bbbb"); (EVar "t2_bbbb")]));
   (*L4401*) SAug true "quadruples_res" (EAdd (EAdd (EAdd (EScale (1 # 1) (EVar "contracted_intermediate")) (EScale (-1 # 1) (EEins "abcdijkl->abcdjikl" [(EVar "contracted_intermediate")]))) (EScale (-1 # 1) (EEins "abcdijkl->bacdijkl" [(EVar "contracted_intermediate")]))) (EScale (1 # 1) (EEins "abcdijkl->bacdjikl" [(EVar "contracted_intermediate")])));
   (*L4404*) SAssign "contracted_intermediate" (EScale (1 # 1) (EEins "mnef,eamj,fbkl,cdin->abcdijkl" [(ESlice (EVar "g_abab") [SV "o"; SV "o"; SV "v"; SV "v"]); (EVar "t2_abab"); (EVar "t2_bbbb"); (EVar "t2_bbbb")]));
   (*L4405*) SAug true "quadruples_res" (EAdd (EAdd (EAdd (EScale (1 # 1) (EVar "contracted_intermediate")) (EScale (-1 # 1) (EEins "abcdijkl->abcdkjil" [(EVar "contracted_intermediate")]))) (EScale (-1 # 1) (EEins "abcdijkl->acbdijkl" [(EVar "contracted_intermediate")]))) (EScale (1 # 1) (EEins "abcdijkl->acbdkjil" [(EVar "contracted_intermediate")])));
   (*L4408*) SAssign "contracted_intermediate" (EScale (1 # 1) (EEins "nmef,eajm,fbkl,cdin->abcdijkl" [(ESlice (EVar "g_bbbb") [SV "o"; SV "o"; SV "v"; SV "v"]); (EVar "t2_bbbb"); (EVar "t2_bbbb"); (EVar "t2_bbbb")]));
   (*L4409*) SAug true "quadruples_res" (EAdd (EAdd (EAdd (EScale (1 # 1) (EVar "contracted_intermediate")) (EScale (-1 # 1) (EEins "abcdijkl->abcdkjil" [(EVar "contracted_intermediate")]))) (EScale (-1 # 1) (EEins "abcdijkl->acbdijkl" [(EVar "contracted_intermediate")]))) (EScale (1 # 1) (EEins "abcdijkl->acbdkjil" [(EVar "contracted_intermediate")])));
   (*L4412*) SAssign "contracted_intermediate" (EScale (1 # 1) (EEins "mnef,eamj,fbik,cdln->abcdijkl" [(ESlice (EVar "g_abab") [SV "o"; SV "o"; SV "v"; SV "v"]); (EVar "t2_abab"); (EVar "t2_bbbb"); (EVar "t2_bbbb")]));
   (*L4413*) SAug true "quadruples_res" (EAdd (EAdd (EAdd (EScale (1 # 1) (EVar "contracted_intermediate")) (EScale (-1 # 1) (EEins "abcdijkl->abcdjikl" [(EVar "contracted_intermediate")]))) (EScale (-1 # 1) (EEins "abcdijkl->acbdijkl" [(EVar "contracted_intermediate")]))) (EScale (1 # 1) (EEins "abcdijkl->acbdjikl" [(EVar "contracted_intermediate")])));
   (*L4416*) SAssign "contracted_intermediate" (EScale (1 # 1) (EEins "nmef,eajm,fbik,cdln->abcdijkl" [(ESlice (EVar "g_bbbb") [SV "o"; SV "o"; SV "v"; SV "v"]); (EVar "t2_bbbb"); (EVar "t2_bbbb"); (EVar "t2_bbbb")]));
   (*L4417*) SAug true "quadruples_res" (EAdd (EAdd (EAdd (EScale (1 # 1) (EVar "contracted_intermediate")) (EScale (-1 # 1) (EEins "abcdijkl->abcdjikl" [(EVar "contracted_intermediate")]))) (EScale (-1 # 1) (EEins "abcdijkl->acbdijkl" [(EVar "contracted_intermediate")]))) (EScale (1 # 1) (EEins "abcdijkl->acbdjikl" [(EVar "contracted_intermediate")])));
   (*L4420*) SAssign "contracted_intermediate" (EScale (1 # 1) (EEins "mnef,eamj,fdkl,bcin->abcdijkl" [(ESlice (EVar "g_abab") [SV "o"; SV "o"; SV "v"; SV "v"]); (EVar "t2_abab"); (EVar "t2_bbbb"); (EVar "t2_bbbb")]));
   (*L4421*) SAug true "quadruples_res" (EAdd (EAdd (EAdd (EScale (1 # 1) (EVar "contracted_intermediate")) (EScale (-1 # 1) (EEins "abcdijkl->abcdkjil" [(EVar "contracted_intermediate")]))) (EScale (-1 # 1) (EEins "abcdijkl->bacdijkl" [(EVar "contracted_intermediate")]))) (EScale (1 # 1) (EEins "abcdijkl->bacdkjil" [(EVar "contracted_intermediate")])));
   (*L4424*) SAssign "contracted_intermediate" (EScale (1 # 1) (EEins "nmef,eajm,fdkl,bcin->abcdijkl" [(ESlice (EVar "g_bbbb") [SV "o"; SV "o"; SV "v"; SV "v"]); (EVar "t2_bbbb"); (EVar "t2_bbbb"); (EVar "t2_bbbb")]));
   (*L4425*) SAug true "quadruples_res" (EAdd (EAdd (EAdd (EScale (1 # 1) (EVar "contracted_intermediate")) (EScale (-1 # 1) (EEins "abcdijkl->abcdkjil" [(EVar "contracted_intermediate")]))) (EScale (-1 # 1) (EEins "abcdijkl->bacdijkl" [(EVar "contracted_intermediate")]))) (EScale (1 # 1) (EEins "abcdijkl->bacdkjil" [(EVar "contracted_intermediate")])));
   (*L4428*) SAssign "contracted_intermediate" (EScale (1 # 1) (EEins "mnef,eamj,fdik,bcln->abcdijkl" [(ESlice (EVar "g_abab") [SV "o"; SV "o"; SV "v"; SV "v"]); (EVar "t2_abab"); (EVar "t2_bbbb"); (EVar "t2_bbbb")]));
   (*L4429*) SAug true "quadruples_res" (EAdd (EAdd (EAdd (EScale (1 # 1) (EVar "contracted_intermediate")) (EScale (-1 # 1) (EEins "abcdijkl->abcdjikl" [(EVar "contracted_intermediate")]))) (EScale (-1 # 1) (EEins "abcdijkl->bacdijkl" [(EVar "contracted_intermediate")]))) (EScale (1 # 1) (EEins "abcdijkl->bacdjikl" [(EVar "contracted_intermediate")])));
   (*L4432*) SAssign "contracted_intermediate" (EScale (1 # 1) (EEins "nmef,eajm,fdik,bcln->abcdijkl" [(ESlice (EVar "g_bbbb") [SV "o"; SV "o"; SV "v"; SV "v"]); (EVar "t2_bbbb"); (EVar "t2_bbbb"); (EVar "t2_bbbb")]));
   (*L4433*) SAug true "quadruples_res" (EAdd (EAdd (EAdd (EScale (1 # 1) (EVar "contracted_intermediate")) (EScale (-1 # 1) (EEins "abcdijkl->abcdjikl" [(EVar "contracted_intermediate")]))) (EScale (-1 # 1) (EEins "abcdijkl->bacdijkl" [(EVar "contracted_intermediate")]))) (EScale (1 # 1) (EEins "abcdijkl->bacdjikl" [(EVar "contracted_intermediate")])));
   (*L4436*) SAssign "contracted_intermediate" (EScale (-1 # 1) (EEins "mnef,eami,fbkl,cdjn->abcdijkl" [(ESlice (EVar "g_abab") [SV "o"; SV "o"; SV "v"; SV "v"]); (EVar "t2_abab"); (EVar "t2_bbbb"); (EVar "t2_bbbb")]));
   (*L4437*) SAug true "quadruples_res" (EAdd (EAdd (EAdd (EScale (1 # 1) (EVar "contracted_intermediate")) (EScale (-1 # 1) (EEins "abcdijkl->abcdikjl" [(EVar "contracted_intermediate")]))) (EScale (-1 # 1) (EEins "abcdijkl->acbdijkl" [(EVar "contracted_intermediate")]))) (EScale (1 # 1) (EEins "abcdijkl->acbdikjl" [(EVar "contracted_intermediate")])));
   (*L4440*) SAssign "contracted_intermediate" (EScale (-1 # 1) (EEins "nmef,eaim,fbkl,cdjn->abcdijkl" [(ESlice (EVar "g_bbbb") [SV "o"; SV "o"; SV "v"; SV "v"]); (EVar "t2_bbbb"); (EVar "t2_bbbb"); (EVar "t2_bbbb")]));
   (*L4441*) SAug true "quadruples_res" (EAdd (EAdd (EAdd (EScale (1 # 1) (EVar "contracted_intermediate")) (EScale (-1 # 1) (EEins "abcdijkl->abcdikjl" [(EVar "contracted_intermediate")]))) (EScale (-1 # 1) (EEins "abcdijkl->acbdijkl" [(EVar "contracted_intermediate")]))) (EScale (1 # 1) (EEins "abcdijkl->acbdikjl" [(EVar "contracted_intermediate")])));
   (*L4444*) SAssign "contracted_intermediate" (EScale (-1 # 1) (EEins "mnef,eami,fdkl,bcjn->abcdijkl" [(ESlice (EVar "g_abab") [SV "o"; SV "o"; SV "v"; SV "v"]); (EVar "t2_abab"); (EVar "t2_bbbb"); (EVar "t2_bbbb")]));
   (*L4445*) SAug true "quadruples_res" (EAdd (EAdd (EAdd (EScale (1 # 1) (EVar "contracted_intermediate")) (EScale (-1 # 1) (EEins "abcdijkl->abcdikjl" [(EVar "contracted_intermediate")]))) (EScale (-1 # 1) (EEins "abcdijkl->bacdijkl" [(EVar "contracted_intermediate")]))) (EScale (1 # 1) (EEins "abcdijkl->bacdikjl" [(EVar "contracted_intermediate")])));
   (*L4448*) SAssign "contracted_intermediate" (EScale (-1 # 1) (EEins "nmef,eaim,fdkl,bcjn->abcdijkl" [(ESlice (EVar "g_bbbb") [SV "o"; SV "o"; SV "v"; SV "v"]); (EVar "t2_bbbb"); (EVar "t2_bbbb"); (EVar "t2_bbbb")]));
   (*L4449*) SAug true "quadruples_res" (EAdd (EAdd (EAdd (EScale (1 # 1) (EVar "contracted_intermediate")) (EScale (-1 # 1) (EEins "abcdijkl->abcdikjl" [(EVar "contracted_intermediate")]))) (EScale (-1 # 1) (EEins "abcdijkl->bacdijkl" [(EVar "contracted_intermediate")]))) (EScale (1 # 1) (EEins "abcdijkl->bacdikjl" [(EVar "contracted_intermediate")])));
   (*L4452*) SAssign "contracted_intermediate" (EScale (-1 # 1) (EEins "mnfe,eakl,fbmj,cdin->abcdijkl" [(ESlice (EVar "g_abab") [SV "o"; SV "o"; SV "v"; SV "v"]); (EVar "t2_bbbb"); (EVar "t2_abab"); (EVar "t2_bbbb")]));
   (*L4453*) SAug true "quadruples_res" (EAdd (EAdd (EAdd (EScale (1 # 1) (EVar "contracted_intermediate")) (EScale (-1 # 1) (EEins "abcdijkl->abcdjikl" [(EVar "contracted_intermediate")]))) (EScale (-1 # 1) (EEins "abcdijkl->acbdijkl" [(EVar "contracted_intermediate")]))) (EScale (1 # 1) (EEins "abcdijkl->acbdjikl" [(EVar "contracted_intermediate")])));
   (*L4456*) SAssign "contracted_intermediate" (EScale (1 # 1) (EEins "nmef,eakl,fbjm,cdin->abcdijkl" [(ESlice (EVar "g_bbbb") [SV "o"; SV "o"; SV "v"; SV "v"]); (EVar "t2_bbbb"); (EVar "t2_bbbb"); (EVar "t2_bbbb")]));
   (*L4457*) SAug true "quadruples_res" (EAdd (EAdd (EAdd (EScale (1 # 1) (EVar "contracted_intermediate")) (EScale (-1 # 1) (EEins "abcdijkl->abcdjikl" [(EVar "contracted_intermediate")]))) (EScale (-1 # 1) (EEins "abcdijkl->acbdijkl" [(EVar "contracted_intermediate")]))) (EScale (1 # 1) (EEins "abcdijkl->acbdjikl" [(EVar "contracted_intermediate")])));
   (*L4460*) SAssign "contracted_intermediate" (EScale (-1 # 2) (EEins "nmef,eakl,fbij,cdnm->abcdijkl" [(ESlice (EVar "g_bbbb") [SV "o"; SV "o"; SV "v"; SV "v"]); (EVar "t2_bbbb"); (EVar "t2_bbbb"); (EVar "t2_bbbb")]));
   (*L4461*) SAug true "quadruples_res" (EAdd (EAdd (EAdd (EScale (1 # 1) (EVar "contracted_intermediate")) (EScale (-1 # 1) (EEins "abcdijkl->abcdikjl" [(EVar "contracted_intermediate")]))) (EScale (-1 # 1) (EEins "abcdijkl->acbdijkl" [(EVar "contracted_intermediate")]))) (EScale (1 # 1) (EEins "abcdijkl->acbdikjl" [(EVar "contracted_intermediate")])));
   (*L4464*) SAssign "contracted_intermediate" (EScale (-1 # 1) (EEins "mnfe,eakl,fdmj,bcin->abcdijkl" [(ESlice (EVar "g_abab") [SV "o"; SV "o"; SV "v"; SV "v"]); (EVar "t2_bbbb"); (EVar "t2_abab"); (EVar "t2_bbbb")]));
   (*L4465*) SAug true "quadruples_res" (EAdd (EAdd (EAdd (EScale (1 # 1) (EVar "contracted_intermediate")) (EScale (-1 # 1) (EEins "abcdijkl->abcdjikl" [(EVar "contracted_intermediate")]))) (EScale (-1 # 1) (EEins "abcdijkl->bacdijkl" [(EVar "contracted_intermediate")]))) (EScale (1 # 1) (EEins "abcdijkl->bacdjikl" [(EVar "contracted_intermediate")])));
   (*L4468*) SAssign "contracted_intermediate" (EScale (1 # 1) (EEins "nmef,eakl,fdjm,bcin->abcdijkl" [(ESlice (EVar "g_bbbb") [SV "o"; SV "o"; SV "v"; SV "v"]); (EVar "t2_bbbb"); (EVar "t2_bbbb"); (EVar "t2_bbbb")]));
   (*L4469*) SAug true "quadruples_res" (EAdd (EAdd (EAdd (EScale (1 # 1) (EVar "contracted_intermediate")) (EScale (-1 # 1) (EEins "abcdijkl->abcdjikl" [(EVar "contracted_intermediate")]))) (EScale (-1 # 1) (EEins "abcdijkl->bacdijkl" [(EVar "contracted_intermediate")]))) (EScale (1 # 1) (EEins "abcdijkl->bacdjikl" [(EVar "contracted_intermediate")])));
   (*L4472*) SAssign "contracted_intermediate" (EScale (-1 # 2) (EEins "nmef,eakl,fdij,bcnm->abcdijkl" [(ESlice (EVar "g_bbbb") [SV "o"; SV "o"; SV "v"; SV "v"]); (EVar "t2_bbbb"); (EVar "t2_bbbb"); (EVar "t2_bbbb")]));
   (*L4473*) SAug true "quadruples_res" (EAdd (EAdd (EAdd (EScale (1 # 1) (EVar "contracted_intermediate")) (EScale (-1 # 1) (EEins "abcdijkl->abcdikjl" [(EVar "contracted_intermediate")]))) (EScale (-1 # 1) (EEins "abcdijkl->bacdijkl" [(EVar "contracted_intermediate")]))) (EScale (1 # 1) (EEins "abcdijkl->bacdikjl" [(EVar "contracted_intermediate")])));
   (*L4476*) SAssign "contracted_intermediate" (EScale (1 # 1) (EEins "mnfe,eajl,fbmk,cdin->abcdijkl" [(ESlice (EVar "g_abab") [SV "o"; SV "o"; SV "v"; SV "v"]); (EVar "t2_bbbb"); (EVar "t2_abab"); (EVar "t2_bbbb")]));
   (*L4477*) SAug true "quadruples_res" (EAdd (EAdd (EAdd (EScale (1 # 1) (EVar "contracted_intermediate")) (EScale (-1 # 1) (EEins "abcdijkl->abcdkjil" [(EVar "contracted_intermediate")]))) (EScale (-1 # 1) (EEins "abcdijkl->acbdijkl" [(EVar "contracted_intermediate")]))) (EScale (1 # 1) (EEins "abcdijkl->acbdkjil" [(EVar "contracted_intermediate")])));
   (*L4480*) SAssign "contracted_intermediate" (EScale (-1 # 1) (EEins "nmef,eajl,fbkm,cdin->abcdijkl" [(ESlice (EVar "g_bbbb") [SV "o"; SV "o"; SV "v"; SV "v"]); (EVar "t2_bbbb"); (EVar "t2_bbbb"); (EVar "t2_bbbb")]));
   (*L4481*) SAug true "quadruples_res" (EAdd (EAdd (EAdd (EScale (1 # 1) (EVar "contracted_intermediate")) (EScale (-1 # 1) (EEins "abcdijkl->abcdkjil" [(EVar "contracted_intermediate")]))) (EScale (-1 # 1) (EEins "abcdijkl->acbdijkl" [(EVar "contracted_intermediate")]))) (EScale (1 # 1) (EEins "abcdijkl->acbdkjil" [(EVar "contracted_intermediate")])));
   (*L4484*) SAssign "contracted_intermediate" (EScale (1 # 1) (EEins "mnfe,eajl,fdmk,bcin->abcdijkl" [(ESlice (EVar "g_abab") [SV "o"; SV "o"; SV "v"; SV "v"]); (EVar "t2_bbbb"); (EVar "t2_abab"); (EVar "t2_bbbb")]));
   (*L4485*) SAug true "quadruples_res" (EAdd (EAdd (EAdd (EScale (1 # 1) (EVar "contracted_intermediate")) (EScale (-1 # 1) (EEins "abcdijkl->abcdkjil" [(EVar "contracted_intermediate")]))) (EScale (-1 # 1) (EEins "abcdijkl->bacdijkl" [(EVar "contracted_intermediate")]))) (EScale (1 # 1) (EEins "abcdijkl->bacdkjil" [(EVar "contracted_intermediate")])));
   (*L4488*) SAssign "contracted_intermediate" (EScale (-1 # 1) (EEins "nmef,eajl,fdkm,bcin->abcdijkl" [(ESlice (EVar "g_bbbb") [SV "o"; SV "o"; SV "v"; SV "v"]); (EVar "t2_bbbb"); (EVar "t2_bbbb"); (EVar "t2_bbbb")]));
   (*L4489*) SAug true "quadruples_res" (EAdd (EAdd (EAdd (EScale (1 # 1) (EVar "contracted_intermediate")) (EScale (-1 # 1) (EEins "abcdijkl->abcdkjil" [(EVar "contracted_intermediate")]))) (EScale (-1 # 1) (EEins "abcdijkl->bacdijkl" [(EVar "contracted_intermediate")]))) (EScale (1 # 1) (EEins "abcdijkl->bacdkjil" [(EVar "contracted_intermediate")])));
   (*L4492*) SAssign "contracted_intermediate" (EScale (-1 # 1) (EEins "mnfe,eail,fbmk,cdjn->abcdijkl" [(ESlice (EVar "g_abab") [SV "o"; SV "o"; SV "v"; SV "v"]); (EVar "t2_bbbb"); (EVar "t2_abab"); (EVar "t2_bbbb")]));
   (*L4493*) SAug true "quadruples_res" (EAdd (EAdd (EAdd (EScale (1 # 1) (EVar "contracted_intermediate")) (EScale (-1 # 1) (EEins "abcdijkl->abcdikjl" [(EVar "contracted_intermediate")]))) (EScale (-1 # 1) (EEins "abcdijkl->acbdijkl" [(EVar "contracted_intermediate")]))) (EScale (1 # 1) (EEins "abcdijkl->acbdikjl" [(EVar "contracted_intermediate")])));
   (*L4496*) SAssign "contracted_intermediate" (EScale (1 # 1) (EEins "nmef,eail,fbkm,cdjn->abcdijkl" [(ESlice (EVar "g_bbbb") [SV "o"; SV "o"; SV "v"; SV "v"]); (EVar "t2_bbbb"); (EVar "t2_bbbb"); (EVar "t2_bbbb")]));
   (*L4497*) SAug true "quadruples_res" (EAdd (EAdd (EAdd (EScale (1 # 1) (EVar "contracted_intermediate")) (EScale (-1 # 1) (EEins "abcdijkl->abcdikjl" [(EVar "contracted_intermediate")]))) (EScale (-1 # 1) (EEins "abcdijkl->acbdijkl" [(EVar "contracted_intermediate")]))) (EScale (1 # 1) (EEins "abcdijkl->acbdikjl" [(EVar "contracted_intermediate")])));
   (*L4500*) SAssign "contracted_intermediate" (EScale (-1 # 2) (EEins "nmef,eail,fbjk,cdnm->abcdijkl" [(ESlice (EVar "g_bbbb") [SV "o"; SV "o"; SV "v"; SV "v"]); (EVar "t2_bbbb"); (EVar "t2_bbbb"); (EVar "t2_bbbb")]));
   (*L4501*) SAug true "quadruples_res" (EAdd (EAdd (EAdd (EScale (1 # 1) (EVar "contracted_intermediate")) (EScale (-1 # 1) (EEins "abcdijkl->abcdijlk" [(EVar "contracted_intermediate")]))) (EScale (-1 # 1) (EEins "abcdijkl->acbdijkl" [(EVar "contracted_intermediate")]))) (EScale (1 # 1) (EEins "abcdijkl->acbdijlk" [(EVar "contracted_intermediate")])));
   (*L4504*) SAssign "contracted_intermediate" (EScale (-1 # 1) (EEins "mnfe,eail,fdmk,bcjn->abcdijkl" [(ESlice (EVar "g_abab") [SV "o"; SV "o"; SV "v"; SV "v"]); (EVar "t2_bbbb"); (EVar "t2_abab"); (EVar "t2_bbbb")]));
   (*L4505*) SAug true "quadruples_res" (EAdd (EAdd (EAdd (EScale (1 # 1) (EVar "contracted_intermediate")) (EScale (-1 # 1) (EEins "abcdijkl->abcdikjl" [(EVar "contracted_intermediate")]))) (EScale (-1 # 1) (EEins "abcdijkl->bacdijkl" [(EVar "contracted_intermediate")]))) (EScale (1 # 1) (EEins "abcdijkl->bacdikjl" [(EVar "contracted_intermediate")])));
   (*L4508*) SAssign "contracted_intermediate" (EScale (1 # 1) (EEins "nmef,eail,fdkm,bcjn->abcdijkl" [(ESlice (EVar "g_bbbb") [SV "o"; SV "o"; SV "v"; SV "v"]); (EVar "t2_bbbb"); (EVar "t2_bbbb"); (EVar "t2_bbbb")]));
   (*L4509*) SAug true "quadruples_res" (EAdd (EAdd (EAdd (EScale (1 # 1) (EVar "contracted_intermediate")) (EScale (-1 # 1) (EEins "abcdijkl->abcdikjl" [(EVar "contracted_intermediate")]))) (EScale (-1 # 1) (EEins "abcdijkl->bacdijkl" [(EVar "contracted_intermediate")]))) (EScale (1 # 1) (EEins "abcdijkl->bacdikjl" [(EVar "contracted_intermediate")])));
   (*L4512*) SAssign "contracted_intermediate" (EScale (-1 # 2) (EEins "nmef,eail,fdjk,bcnm->abcdijkl" [(ESlice (EVar "g_bbbb") [SV "o"; SV "o"; SV "v"; SV "v"]); (EVar "t2_bbbb"); (EVar "t2_bbbb"); (EVar "t2_bbbb")]));
   (*L4513*) SAug true "quadruples_res" (EAdd (EAdd (EAdd (EScale (1 # 1) (EVar "contracted_intermediate")) (EScale (-1 # 1) (EEins "abcdijkl->abcdijlk" [(EVar "contracted_intermediate")]))) (EScale (-1 # 1) (EEins "abcdijkl->bacdijkl" [(EVar "contracted_intermediate")]))) (EScale (1 # 1) (EEins "abcdijkl->bacdijlk" [(EVar "contracted_intermediate")])));
   (*L4516*) SAssign "contracted_intermediate" (EScale (-1 # 1) (EEins "mnfe,eajk,fbml,cdin->abcdijkl" [(ESlice (EVar "g_abab") [SV "o"; SV "o"; SV "v"; SV "v"]); (EVar "t2_bbbb"); (EVar "t2_abab"); (EVar "t2_bbbb")]));
   (*L4517*) SAug true "quadruples_res" (EAdd (EAdd (EAdd (EScale (1 # 1) (EVar "contracted_intermediate")) (EScale (-1 # 1) (EEins "abcdijkl->abcdljki" [(EVar "contracted_intermediate")]))) (EScale (-1 # 1) (EEins "abcdijkl->acbdijkl" [(EVar "contracted_intermediate")]))) (EScale (1 # 1) (EEins "abcdijkl->acbdljki" [(EVar "contracted_intermediate")])));
   (*L4520*) SAssign "contracted_intermediate" (EScale (1 # 1) (EEins "nmef,eajk,fblm,cdin->abcdijkl" [(ESlice (EVar "g_bbbb") [SV "o"; SV "o"; SV "v"; SV "v"]); (EVar "t2_bbbb"); (EVar "t2_bbbb"); (EVar "t2_bbbb")]));
   (*L4521*) SAug true "quadruples_res" (EAdd (EAdd (EAdd (EScale (1 # 1) (EVar "contracted_intermediate")) (EScale (-1 # 1) (EEins "abcdijkl->abcdljki" [(EVar "contracted_intermediate")]))) (EScale (-1 # 1) (EEins "abcdijkl->acbdijkl" [(EVar "contracted_intermediate")]))) (EScale (1 # 1) (EEins "abcdijkl->acbdljki" [(EVar "contracted_intermediate")])));
   (*L4524*) SAssign "contracted_intermediate" (EScale (-1 # 2) (EEins "nmef,eajk,fbil,cdnm->abcdijkl" [(ESlice (EVar "g_bbbb") [SV "o"; SV "o"; SV "v"; SV "v"]); (EVar "t2_bbbb"); (EVar "t2_bbbb"); (EVar "t2_bbbb")]));
   (*L4525*) SAug true "quadruples_res" (EAdd (EAdd (EAdd (EScale (1 # 1) (EVar "contracted_intermediate")) (EScale (-1 # 1) (EEins "abcdijkl->abcdkjil" [(EVar "contracted_intermediate")]))) (EScale (-1 # 1) (EEins "abcdijkl->acbdijkl" [(EVar "contracted_intermediate")]))) (EScale (1 # 1) (EEins "abcdijkl->acbdkjil" [(EVar "contracted_intermediate")])));
   (*L4528*) SAssign "contracted_intermediate" (EScale (-1 # 1) (EEins "mnfe,eajk,fdml,bcin->abcdijkl" [(ESlice (EVar "g_abab") [SV "o"; SV "o"; SV "v"; SV "v"]); (EVar "t2_bbbb"); (EVar "t2_abab"); (EVar "t2_bbbb")]));
   (*L4529*) SAug true "quadruples_res" (EAdd (EAdd (EAdd (EScale (1 # 1) (EVar "contracted_intermediate")) (EScale (-1 # 1) (EEins "abcdijkl->abcdljki" [(EVar "contracted_intermediate")]))) (EScale (-1 # 1) (EEins "abcdijkl->bacdijkl" [(EVar "contracted_intermediate")]))) (EScale (1 # 1) (EEins "abcdijkl->bacdljki" [(EVar "contracted_intermediate")])));
   (*L4532*) SAssign "contracted_intermediate" (EScale (1 # 1) (EEins "nmef,eajk,fdlm,bcin->abcdijkl" [(ESlice (EVar "g_bbbb") [SV "o"; SV "o"; SV "v"; SV "v"]); (EVar "t2_bbbb"); (EVar "t2_bbbb"); (EVar "t2_bbbb")]));
   (*L4533*) SAug true "quadruples_res" (EAdd (EAdd (EAdd (EScale (1 # 1) (EVar "contracted_intermediate")) (EScale (-1 # 1) (EEins "abcdijkl->abcdljki" [(EVar "contracted_intermediate")]))) (EScale (-1 # 1) (EEins "abcdijkl->bacdijkl" [(EVar "contracted_intermediate")]))) (EScale (1 # 1) (EEins "abcdijkl->bacdljki" [(EVar "contracted_intermediate")])));
   (*L4536*) SAssign "contracted_intermediate" (EScale (-1 # 2) (EEins "nmef,eajk,fdil,bcnm->abcdijkl" [(ESlice (EVar "g_bbbb") [SV "o"; SV "o"; SV "v"; SV "v"]); (EVar "t2_bbbb"); (EVar "t2_bbbb"); (EVar "t2_bbbb")]));
   (*L4537*) SAug true "quadruples_res" (EAdd (EAdd (EAdd (EScale (1 # 1) (EVar "contracted_intermediate")) (EScale (-1 # 1) (EEins "abcdijkl->abcdkjil" [(EVar "contracted_intermediate")]))) (EScale (-1 # 1) (EEins "abcdijkl->bacdijkl" [(EVar "contracted_intermediate")]))) (EScale (1 # 1) (EEins "abcdijkl->bacdkjil" [(EVar "contracted_intermediate")])));
   (*L4540*) SAssign "contracted_intermediate" (EScale (1 # 1) (EEins "mnfe,eaik,fbml,cdjn->abcdijkl" [(ESlice (EVar "g_abab") [SV "o"; SV "o"; SV "v"; SV "v"]); (EVar "t2_bbbb"); (EVar "t2_abab"); (EVar "t2_bbbb")]));
   (*L4541*) SAug true "quadruples_res" (EAdd (EAdd (EAdd (EScale (1 # 1) (EVar "contracted_intermediate")) (EScale (-1 # 1) (EEins "abcdijkl->abcdilkj" [(EVar "contracted_intermediate")]))) (EScale (-1 # 1) (EEins "abcdijkl->acbdijkl" [(EVar "contracted_intermediate")]))) (EScale (1 # 1) (EEins "abcdijkl->acbdilkj" [(EVar "contracted_intermediate")])));
   (*L4544*) SAssign "contracted_intermediate" (EScale (-1 # 1) (EEins "nmef,eaik,fblm,cdjn->abcdijkl" [(ESlice (EVar "g_bbbb") [SV "o"; SV "o"; SV "v"; SV "v"]); (EVar "t2_bbbb"); (EVar "t2_bbbb"); (EVar "t2_bbbb")]));
   (*L4545*) SAug true "quadruples_res" (EAdd (EAdd (EAdd (EScale (1 # 1) (EVar "contracted_intermediate")) (EScale (-1 # 1) (EEins "abcdijkl->abcdilkj" [(EVar "contracted_intermediate")]))) (EScale (-1 # 1) (EEins "abcdijkl->acbdijkl" [(EVar "contracted_intermediate")]))) (EScale (1 # 1) (EEins "abcdijkl->acbdilkj" [(EVar "contracted_intermediate")])));
   (*L4548*) SAssign "contracted_intermediate" (EScale (1 # 1) (EEins "mnfe,eaik,fdml,bcjn->abcdijkl" [(ESlice (EVar "g_abab") [SV "o"; SV "o"; SV "v"; SV "v"]); (EVar "t2_bbbb"); (EVar "t2_abab"); (EVar "t2_bbbb")]));
   (*L4549*) SAug true "quadruples_res" (EAdd (EAdd (EAdd (EScale (1 # 1) (EVar "contracted_intermediate")) (EScale (-1 # 1) (EEins "abcdijkl->abcdilkj" [(EVar "contracted_intermediate")]))) (EScale (-1 # 1) (EEins "abcdijkl->bacdijkl" [(EVar "contracted_intermediate")]))) (EScale (1 # 1) (EEins "abcdijkl->bacdilkj" [(EVar "contracted_intermediate")])));
   (*L4552*) SAssign "contracted_intermediate" (EScale (-1 # 1) (EEins "nmef,eaik,fdlm,bcjn->abcdijkl" [(ESlice (EVar "g_bbbb") [SV "o"; SV "o"; SV "v"; SV "v"]); (EVar "t2_bbbb"); (EVar "t2_bbbb"); (EVar "t2_bbbb")]));
   (*L4553*) SAug true "quadruples_res" (EAdd (EAdd (EAdd (EScale (1 # 1) (EVar "contracted_intermediate")) (EScale (-1 # 1) (EEins "abcdijkl->abcdilkj" [(EVar "contracted_intermediate")]))) (EScale (-1 # 1) (EEins "abcdijkl->bacdijkl" [(EVar "contracted_intermediate")]))) (EScale (1 # 1) (EEins "abcdijkl->bacdilkj" [(EVar "contracted_intermediate")])));
   (*L4556*) SAssign "contracted_intermediate" (EScale (-1 # 1) (EEins "mnfe,eaij,fbml,cdkn->abcdijkl" [(ESlice (EVar "g_abab") [SV "o"; SV "o"; SV "v"; SV "v"]); (EVar "t2_bbbb"); (EVar "t2_abab"); (EVar "t2_bbbb")]));
   (*L4557*) SAug true "quadruples_res" (EAdd (EAdd (EAdd (EScale (1 # 1) (EVar "contracted_intermediate")) (EScale (-1 # 1) (EEins "abcdijkl->abcdijlk" [(EVar "contracted_intermediate")]))) (EScale (-1 # 1) (EEins "abcdijkl->acbdijkl" [(EVar "contracted_intermediate")]))) (EScale (1 # 1) (EEins "abcdijkl->acbdijlk" [(EVar "contracted_intermediate")])));
   (*L4560*) SAssign "contracted_intermediate" (EScale (1 # 1) (EEins "nmef,eaij,fblm,cdkn->abcdijkl" [(ESlice (EVar "g_bbbb") [SV "o"; SV "o"; SV "v"; SV "v"]); (EVar "t2_bbbb"); (EVar "t2_bbbb"); (EVar "t2_bbbb")]));
   (*L4561*) SAug true "quadruples_res" (EAdd (EAdd (EAdd (EScale (1 # 1) (EVar "contracted_intermediate")) (EScale (-1 # 1) (EEins "abcdijkl->abcdijlk" [(EVar "contracted_intermediate")]))) (EScale (-1 # 1) (EEins "abcdijkl->acbdijkl" [(EVar "contracted_intermediate")]))) (EScale (1 # 1) (EEins "abcdijkl->acbdijlk" [(EVar "contracted_intermediate")])));
   (*L4564*) SAssign "contracted_intermediate" (EScale (-1 # 1) (EEins "mnfe,eaij,fdml,bckn->abcdijkl" [(ESlice (EVar "g_abab") [SV "o"; SV "o"; SV "v"; SV "v"]); (EVar "t2_bbbb"); (EVar "t2_abab"); (EVar "t2_bbbb")]));
   (*L4565*) SAug true "quadruples_res" (EAdd (EAdd (EAdd (EScale (1 # 1) (EVar "contracted_intermediate")) (EScale (-1 # 1) (EEins "abcdijkl->abcdijlk" [(EVar "contracted_intermediate")]))) (EScale (-1 # 1) (EEins "abcdijkl->bacdijkl" [(EVar "contracted_intermediate")]))) (EScale (1 # 1) (EEins "abcdijkl->bacdijlk" [(EVar "contracted_intermediate")])));
   (*L4568*) SAssign "contracted_intermediate" (EScale (1 # 1) (EEins "nmef,eaij,fdlm,bckn->abcdijkl" [(ESlice (EVar "g_bbbb") [SV "o"; SV "o"; SV "v"; SV "v"]); (EVar "t2_bbbb"); (EVar "t2_bbbb"); (EVar "t2_bbbb")]));
   (*L4569*) SAug true "quadruples_res" (EAdd (EAdd (EAdd (EScale (1 # 1) (EVar "contracted_intermediate")) (EScale (-1 # 1) (EEins "abcdijkl->abcdijlk" [(EVar "contracted_intermediate")]))) (EScale (-1 # 1) (EEins "abcdijkl->bacdijkl" [(EVar "contracted_intermediate")]))) (EScale (1 # 1) (EEins "abcdijkl->bacdijlk" [(EVar "contracted_intermediate")])));
   (*L4572*) SAssign "contracted_intermediate" (EScale (1 # 1) (EEins "mnef,ebml,fcjk,adin->abcdijkl" [(ESlice (EVar "g_abab") [SV "o"; SV "o"; SV "v"; SV "v"]); (EVar "t2_abab"); (EVar "t2_bbbb"); (EVar "t2_bbbb")]));
   (*L4573*) SAug true "quadruples_res" (EAdd (EScale (1 # 1) (EVar "contracted_intermediate")) (EScale (-1 # 1) (EEins "abcdijkl->abcdjikl" [(EVar "contracted_intermediate")])));
   (*L4576*) SAssign "contracted_intermediate" (EScale (1 # 1) (EEins "nmef,eblm,fcjk,adin->abcdijkl" [(ESlice (EVar "g_bbbb") [SV "o"; SV "o"; SV "v"; SV "v"]); (EVar "t2_bbbb"); (EVar "t2_bbbb"); (EVar "t2_bbbb")]));
   (*L4577*) SAug true "quadruples_res" (EAdd (EScale (1 # 1) (EVar "contracted_intermediate")) (EScale (-1 # 1) (EEins "abcdijkl->abcdjikl" [(EVar "contracted_intermediate")])));
   (*L4580*) SAssign "contracted_intermediate" (EScale (1 # 1) (EEins "mnef,ebml,fcij,adkn->abcdijkl" [(ESlice (EVar "g_abab") [SV "o"; SV "o"; SV "v"; SV "v"]); (EVar "t2_abab"); (EVar "t2_bbbb"); (EVar "t2_bbbb")]));
   (*L4581*) SAug true "quadruples_res" (EAdd (EScale (1 # 1) (EVar "contracted_intermediate")) (EScale (-1 # 1) (EEins "abcdijkl->abcdijlk" [(EVar "contracted_intermediate")])));
   (*L4584*) SAssign "contracted_intermediate" (EScale (1 # 1) (EEins "nmef,eblm,fcij,adkn->abcdijkl" [(ESlice (EVar "g_bbbb") [SV "o"; SV "o"; SV "v"; SV "v"]); (EVar "t2_bbbb"); (EVar "t2_bbbb"); (EVar "t2_bbbb")]));
   (*L4585*) SAug true "quadruples_res" (EAdd (EScale (1 # 1) (EVar "contracted_intermediate")) (EScale (-1 # 1) (EEins "abcdijkl->abcdijlk" [(EVar "contracted_intermediate")])));
   (*L4588*) SAssign "contracted_intermediate" (EScale (-1 # 1) (EEins "mnef,ebmk,fcjl,adin->abcdijkl" [(ESlice (EVar "g_abab") [SV "o"; SV "o"; SV "v"; SV "v"]); (EVar "t2_abab"); (EVar "t2_bbbb"); (EVar "t2_bbbb")]));
   (*L4589*) SAug true "quadruples_res" (EAdd (EScale (1 # 1) (EVar "contracted_intermediate")) (EScale (-1 # 1) (EEins "abcdijkl->abcdjikl" [(EVar "contracted_intermediate")])));
   (*L4592*) SAssign "contracted_intermediate" (EScale (-1 # 1) (EEins "nmef,ebkm,fcjl,adin->abcdijkl" [(ESlice (EVar "g_bbbb") [SV "o"; SV "o"; SV "v"; SV "v"]); (EVar "t2_bbbb"); (EVar "t2_bbbb"); (EVar "t2_bbbb")]));
   (*L4593*) SAug true "quadruples_res" (EAdd (EScale (1 # 1) (EVar "contracted_intermediate")) (EScale (-1 # 1) (EEins "abcdijkl->abcdjikl" [(EVar "contracted_intermediate")])));
   (*L4596*) SAssign "contracted_intermediate" (EScale (1 # 1) (EEins "mnef,ebmj,fckl,adin->abcdijkl" [(ESlice (EVar "g_abab") [SV "o"; SV "o"; SV "v"; SV "v"]); (EVar "t2_abab"); (EVar "t2_bbbb"); (EVar "t2_bbbb")]));
   (*L4597*) SAug true "quadruples_res" (EAdd (EScale (1 # 1) (EVar "contracted_intermediate")) (EScale (-1 # 1) (EEins "abcdijkl->abcdkjil" [(EVar "contracted_intermediate")])));
   (*L4600*) SAssign "contracted_intermediate" (EScale (1 # 1) (EEins "nmef,ebjm,fckl,adin->abcdijkl" [(ESlice (EVar "g_bbbb") [SV "o"; SV "o"; SV "v"; SV "v"]); (EVar "t2_bbbb"); (EVar "t2_bbbb"); (EVar "t2_bbbb")]));
   (*L4601*) SAug true "quadruples_res" (EAdd (EScale (1 # 1) (EVar "contracted_intermediate")) (EScale (-1 # 1) (EEins "abcdijkl->abcdkjil" [(EVar "contracted_intermediate")])));
   (*L4604*) SAssign "contracted_intermediate" (EScale (1 # 1) (EEins "mnef,ebmj,fcik,adln->abcdijkl" [(ESlice (EVar "g_abab") [SV "o"; SV "o"; SV "v"; SV "v"]); (EVar "t2_abab"); (EVar "t2_bbbb"); (EVar "t2_bbbb")]));
   (*L4605*) SAug true "quadruples_res" (EAdd (EScale (1 # 1) (EVar "contracted_intermediate")) (EScale (-1 # 1) (EEins "abcdijkl->abcdjikl" [(EVar "contracted_intermediate")])));
   (*L4608*) SAssign "contracted_intermediate" (EScale (1 # 1) (EEins "nmef,ebjm,fcik,adln->abcdijkl" [(ESlice (EVar "g_bbbb") [SV "o"; SV "o"; SV "v"; SV "v"]); (EVar "t2_bbbb"); (EVar "t2_bbbb"); (EVar "t2_bbbb")]));
   (*L4609*) SAug true "quadruples_res" (EAdd (EScale (1 # 1) (EVar "contracted_intermediate")) (EScale (-1 # 1) (EEins "abcdijkl->abcdjikl" [(EVar "contracted_intermediate")])));
   (*L4612*) SAssign "contracted_intermediate" (EScale (-1 # 1) (EEins "mnef,ebmi,fckl,adjn->abcdijkl" [(ESlice (EVar "g_abab") [SV "o"; SV "o"; SV "v"; SV "v"]); (EVar "t2_abab"); (EVar "t2_bbbb"); (EVar "t2_bbbb")]));
   (*L4613*) SAug true "quadruples_res" (EAdd (EScale (1 # 1) (EVar "contracted_intermediate")) (EScale (-1 # 1) (EEins "abcdijkl->abcdikjl" [(EVar "contracted_intermediate")])));
   (*L4616*) SAssign "contracted_intermediate" (EScale (-1 # 1) (EEins "nmef,ebim,fckl,adjn->abcdijkl" [(ESlice (EVar "g_bbbb") [SV "o"; SV "o"; SV "v"; SV "v"]); (EVar "t2_bbbb"); (EVar "t2_bbbb"); (EVar "t2_bbbb")]));
   (*L4617*) SAug true "quadruples_res" (EAdd (EScale (1 # 1) (EVar "contracted_intermediate")) (EScale (-1 # 1) (EEins "abcdijkl->abcdikjl" [(EVar "contracted_intermediate")])));
   (*L4620*) SAssign "contracted_intermediate" (EScale (-1 # 1) (EEins "mnfe,ebkl,fcmj,adin->abcdijkl" [(ESlice (EVar "g_abab") [SV "o"; SV "o"; SV "v"; SV "v"]); (EVar "t2_bbbb"); (EVar "t2_abab"); (EVar "t2_bbbb")]));
   (*L4621*) SAug true "quadruples_res" (EAdd (EScale (1 # 1) (EVar "contracted_intermediate")) (EScale (-1 # 1) (EEins "abcdijkl->abcdjikl" [(EVar "contracted_intermediate")])));
   (*L4624*) SAssign "contracted_intermediate" (EScale (1 # 1) (EEins "nmef,ebkl,fcjm,adin->abcdijkl" [(ESlice (EVar "g_bbbb") [SV "o"; SV "o"; SV "v"; SV "v"]); (EVar "t2_bbbb"); (EVar "t2_bbbb"); (EVar "t2_bbbb")]));
   (*L4625*) SAug true "quadruples_res" (EAdd (EScale (1 # 1) (EVar "contracted_intermediate")) (EScale (-1 # 1) (EEins "abcdijkl->abcdjikl" [(EVar "contracted_intermediate")])));
   (*L4628*) SAssign "contracted_intermediate" (EScale (-1 # 2) (EEins "nmef,ebkl,fcij,adnm->abcdijkl" [(ESlice (EVar "g_bbbb") [SV "o"; SV "o"; SV "v"; SV "v"]); (EVar "t2_bbbb"); (EVar "t2_bbbb"); (EVar "t2_bbbb")]));
   (*L4629*) SAug true "quadruples_res" (EAdd (EScale (1 # 1) (EVar "contracted_intermediate")) (EScale (-1 # 1) (EEins "abcdijkl->abcdikjl" [(EVar "contracted_intermediate")])));
   (*L4632*) SAssign "contracted_intermediate" (EScale (1 # 1) (EEins "mnfe,ebjl,fcmk,adin->abcdijkl" [(ESlice (EVar "g_abab") [SV "o"; SV "o"; SV "v"; SV "v"]); (EVar "t2_bbbb"); (EVar "t2_abab"); (EVar "t2_bbbb")]));
   (*L4633*) SAug true "quadruples_res" (EAdd (EScale (1 # 1) (EVar "contracted_intermediate")) (EScale (-1 # 1) (EEins "abcdijkl->abcdkjil" [(EVar "contracted_intermediate")])));
   (*L4636*) SAssign "contracted_intermediate" (EScale (-1 # 1) (EEins "nmef,ebjl,fckm,adin->abcdijkl" [(ESlice (EVar "g_bbbb") [SV "o"; SV "o"; SV "v"; SV "v"]); (EVar "t2_bbbb"); (EVar "t2_bbbb"); (EVar "t2_bbbb")]));
   (*L4637*) SAug true "quadruples_res" (EAdd (EScale (1 # 1) (EVar "contracted_intermediate")) (EScale (-1 # 1) (EEins "abcdijkl->abcdkjil" [(EVar "contracted_intermediate")])));
   (*L4640*) SAssign "contracted_intermediate" (EScale (-1 # 1) (EEins "mnfe,ebil,fcmk,adjn->abcdijkl" [(ESlice (EVar "g_abab") [SV "o"; SV "o"; SV "v"; SV "v"]); (EVar "t2_bbbb"); (EVar "t2_abab"); (EVar "t2_bbbb")]));
   (*L4641*) SAug true "quadruples_res" (EAdd (EScale (1 # 1) (EVar "contracted_intermediate")) (EScale (-1 # 1) (EEins "abcdijkl->abcdikjl" [(EVar "contracted_intermediate")])));
   (*L4644*) SAssign "contracted_intermediate" (EScale (1 # 1) (EEins "nmef,ebil,fckm,adjn->abcdijkl" [(ESlice (EVar "g_bbbb") [SV "o"; SV "o"; SV "v"; SV "v"]); (EVar "t2_bbbb"); (EVar "t2_bbbb"); (EVar "t2_bbbb")]));
   (*L4645*) SAug true "quadruples_res" (EAdd (EScale (1 # 1) (EVar "contracted_intermediate")) (EScale (-1 # 1) (EEins "abcdijkl->abcdikjl" [(EVar "contracted_intermediate")])));
   (*L4648*) SAssign "contracted_intermediate" (EScale (-1 # 2) (EEins "nmef,ebil,fcjk,adnm->abcdijkl" [(ESlice (EVar "g_bbbb") [SV "o"; SV "o"; SV "v"; SV "v"]); (EVar "t2_bbbb"); (EVar "t2_bbbb"); (EVar "t2_bbbb")]));
   (*L4649*) SAug true "quadruples_res" (EAdd (EScale (1 # 1) (EVar "contracted_intermediate")) (EScale (-1 # 1) (EEins "abcdijkl->abcdijlk" [(EVar "contracted_intermediate")])));
   (*L4652*) SAssign "contracted_intermediate" (EScale (-1 # 1) (EEins "mnfe,ebjk,fcml,adin->abcdijkl" [(ESlice (EVar "g_abab") [SV "o"; SV "o"; SV "v"; SV "v"]); (EVar "t2_bbbb"); (EVar "t2_abab"); (EVar "t2_bbbb")]));
   (*L4653*) SAug true "quadruples_res" (EAdd (EScale (1 # 1) (EVar "contracted_intermediate")) (EScale (-1 # 1) (EEins "abcdijkl->abcdljki" [(EVar "contracted_intermediate")])));
   (*L4656*) SAssign "contracted_intermediate" (EScale (1 # 1) (EEins "nmef,ebjk,fclm,adin->abcdijkl" [(ESlice (EVar "g_bbbb") [SV "o"; SV "o"; SV "v"; SV "v"]); (EVar "t2_bbbb"); (EVar "t2_bbbb"); (EVar "t2_bbbb")]));
   (*L4657*) SAug true "quadruples_res" (EAdd (EScale (1 # 1) (EVar "contracted_intermediate")) (EScale (-1 # 1) (EEins "abcdijkl->abcdljki" [(EVar "contracted_intermediate")])));
   (*L4660*) SAssign "contracted_intermediate" (EScale (-1 # 2) (EEins "nmef,ebjk,fcil,adnm->abcdijkl" [(ESlice (EVar "g_bbbb") [SV "o"; SV "o"; SV "v"; SV "v"]); (EVar "t2_bbbb"); (EVar "t2_bbbb"); (EVar "t2_bbbb")]));
   (*L4661*) SAug true "quadruples_res" (EAdd (EScale (1 # 1) (EVar "contracted_intermediate")) (EScale (-1 # 1) (EEins "abcdijkl->abcdkjil" [(EVar "contracted_intermediate")])));
   (*L4664*) SAssign "contracted_intermediate" (EScale (1 # 1) (EEins "mnfe,ebik,fcml,adjn->abcdijkl" [(ESlice (EVar "g_abab") [SV "o"; SV "o"; SV "v"; SV "v"]); (EVar "t2_bbbb"); (EVar "t2_abab"); (EVar "t2_bbbb")]));
   (*L4665*) SAug true "quadruples_res" (EAdd (EScale (1 # 1) (EVar "contracted_intermediate")) (EScale (-1 # 1) (EEins "abcdijkl->abcdilkj" [(EVar "contracted_intermediate")])));
   (*L4668*) SAssign "contracted_intermediate" (EScale (-1 # 1) (EEins "nmef,ebik,fclm,adjn->abcdijkl" [(ESlice (EVar "g_bbbb") [SV "o"; SV "o"; SV "v"; SV "v"]); (EVar "t2_bbbb"); (EVar "t2_bbbb"); (EVar "t2_bbbb")]));
   (*L4669*) SAug true "quadruples_res" (EAdd (EScale (1 # 1) (EVar "contracted_intermediate")) (EScale (-1 # 1) (EEins "abcdijkl->abcdilkj" [(EVar "contracted_intermediate")])));
   (*L4672*) SAssign "contracted_intermediate" (EScale (-1 # 1) (EEins "mnfe,ebij,fcml,adkn->abcdijkl" [(ESlice (EVar "g_abab") [SV "o"; SV "o"; SV "v"; SV "v"]); (EVar "t2_bbbb"); (EVar "t2_abab"); (EVar "t2_bbbb")]));
   (*L4673*) SAug true "quadruples_res" (EAdd (EScale (1 # 1) (EVar "contracted_intermediate")) (EScale (-1 # 1) (EEins "abcdijkl->abcdijlk" [(EVar "contracted_intermediate")])));
   (*L4676*) SAssign "contracted_intermediate" (EScale (1 # 1) (EEins "nmef,ebij,fclm,adkn->abcdijkl" [(ESlice (EVar "g_bbbb") [SV "o"; SV "o"; SV "v"; SV "v"]); (EVar "t2_bbbb"); (EVar "t2_bbbb"); (EVar "t2_bbbb")]));
   (*L4677*) SAug true "quadruples_res" (EAdd (EScale (1 # 1) (EVar "contracted_intermediate")) (EScale (-1 # 1) (EEins "abcdijkl->abcdijlk" [(EVar "contracted_intermediate")])));
   (*L4680*) SAssign "contracted_intermediate" (EScale (1 # 1) (EEins "mnef,ecml,fdjk,abin->abcdijkl" [(ESlice (EVar "g_abab") [SV "o"; SV "o"; SV "v"; SV "v"]); (EVar "t2_abab"); (EVar "t2_bbbb"); (EVar "t2_bbbb")]));
   (*L4681*) SAug true "quadruples_res" (EAdd (EScale (1 # 1) (EVar "contracted_intermediate")) (EScale (-1 # 1) (EEins "abcdijkl->abcdjikl" [(EVar "contracted_intermediate")])));
   (*L4684*) SAssign "contracted_intermediate" (EScale (1 # 1) (EEins "nmef,eclm,fdjk,abin->abcdijkl" [(ESlice (EVar "g_bbbb") [SV "o"; SV "o"; SV "v"; SV "v"]); (EVar "t2_bbbb"); (EVar "t2_bbbb"); (EVar "t2_bbbb")]));
   (*L4685*) SAug true "quadruples_res" (EAdd (EScale (1 # 1) (EVar "contracted_intermediate")) (EScale (-1 # 1) (EEins "abcdijkl->abcdjikl" [(EVar "contracted_intermediate")])));
   (*L4688*) SAssign "contracted_intermediate" (EScale (1 # 1) (EEins "mnef,ecml,fdij,abkn->abcdijkl" [(ESlice (EVar "g_abab") [SV "o"; SV "o"; SV "v"; SV "v"]); (EVar "t2_abab"); (EVar "t2_bbbb"); (EVar "t2_bbbb")]));
   (*L4689*) SAug true "quadruples_res" (EAdd (EScale (1 # 1) (EVar "contracted_intermediate")) (EScale (-1 # 1) (EEins "abcdijkl->abcdijlk" [(EVar "contracted_intermediate")])));
   (*L4692*) SAssign "contracted_intermediate" (EScale (1 # 1) (EEins "nmef,eclm,fdij,abkn->abcdijkl" [(ESlice (EVar "g_bbbb") [SV "o"; SV "o"; SV "v"; SV "v"]); (EVar "t2_bbbb"); (EVar "t2_bbbb"); (EVar "t2_bbbb")]));
   (*L4693*) SAug true "quadruples_res" (EAdd (EScale (1 # 1) (EVar "contracted_intermediate")) (EScale (-1 # 1) (EEins "abcdijkl->abcdijlk" [(EVar "contracted_intermediate")])));
   (*L4696*) SAssign "contracted_intermediate" (EScale (-1 # 1) (EEins "mnef,ecmk,fdjl,abin->abcdijkl" [(ESlice (EVar "g_abab") [SV "o"; SV "o"; SV "v"; SV "v"]); (EVar "t2_abab"); (EVar "t2_bbbb"); (EVar "t2_bbbb")]));
   (*L4697*) SAug true "quadruples_res" (EAdd (EScale (1 # 1) (EVar "contracted_intermediate")) (EScale (-1 # 1) (EEins "abcdijkl->abcdjikl" [(EVar "contracted_intermediate")])));
   (*L4700*) SAssign "contracted_intermediate" (EScale (-1 # 1) (EEins "nmef,eckm,fdjl,abin->abcdijkl" [(ESlice (EVar "g_bbbb") [SV "o"; SV "o"; SV "v"; SV "v"]); (EVar "t2_bbbb"); (EVar "t2_bbbb"); (EVar "t2_bbbb")]));
   (*L4701*) SAug true "quadruples_res" (EAdd (EScale (1 # 1) (EVar "contracted_intermediate")) (EScale (-1 # 1) (EEins "abcdijkl->abcdjikl" [(EVar "contracted_intermediate")])));
   (*L4704*) SAssign "contracted_intermediate" (EScale (1 # 1) (EEins "mnef,ecmj,fdkl,abin->abcdijkl" [(ESlice (EVar "g_abab") [SV "o"; SV "o"; SV "v"; SV "v"]); (EVar "t2_abab"); (EVar "t2_bbbb"); (EVar "t2_bbbb")]));
   (*L4705*) SAug true "quadruples_res" (EAdd (EScale (1 # 1) (EVar "contracted_intermediate")) (EScale (-1 # 1) (EEins "abcdijkl->abcdkjil" [(EVar "contracted_intermediate")])));
   (*L4708*) SAssign "contracted_intermediate" (EScale (1 # 1) (EEins "nmef,ecjm,fdkl,abin->abcdijkl" [(ESlice (EVar "g_bbbb") [SV "o"; SV "o"; SV "v"; SV "v"]); (EVar "t2_bbbb"); (EVar "t2_bbbb"); (EVar "t2_bbbb")]));
   (*L4709*) SAug true "quadruples_res" (EAdd (EScale (1 # 1) (EVar "contracted_intermediate")) (EScale (-1 # 1) (EEins "abcdijkl->abcdkjil" [(EVar "contracted_intermediate")])));
   (*L4712*) SAssign "contracted_intermediate" (EScale (1 # 1) (EEins "mnef,ecmj,fdik,abln->abcdijkl" [(ESlice (EVar "g_abab") [SV "o"; SV "o"; SV "v"; SV "v"]); (EVar "t2_abab"); (EVar "t2_bbbb"); (EVar "t2_bbbb")]));
   (*L4713*) SAug true "quadruples_res" (EAdd (EScale (1 # 1) (EVar "contracted_intermediate")) (EScale (-1 # 1) (EEins "abcdijkl->abcdjikl" [(EVar "contracted_intermediate")])));
   (*L4716*) SAssign "contracted_intermediate" (EScale (1 # 1) (EEins "nmef,ecjm,fdik,abln->abcdijkl" [(ESlice (EVar "g_bbbb") [SV "o"; SV "o"; SV "v"; SV "v"]); (EVar "t2_bbbb"); (EVar "t2_bbbb"); (EVar "t2_bbbb")]));
   (*L4717*) SAug true "quadruples_res" (EAdd (EScale (1 # 1) (EVar "contracted_intermediate")) (EScale (-1 # 1) (EEins "abcdijkl->abcdjikl" [(EVar "contracted_intermediate")])));
   (*L4720*) SAssign "contracted_intermediate" (EScale (-1 # 1) (EEins "mnef,ecmi,fdkl,abjn->abcdijkl" [(ESlice (EVar "g_abab") [SV "o"; SV "o"; SV "v"; SV "v"]); (EVar "t2_abab"); (EVar "t2_bbbb"); (EVar "t2_bbbb")]));
   (*L4721*) SAug true "quadruples_res" (EAdd (EScale (1 # 1) (EVar "contracted_intermediate")) (EScale (-1 # 1) (EEins "abcdijkl->abcdikjl" [(EVar "contracted_intermediate")])));
   (*L4724*) SAssign "contracted_intermediate" (EScale (-1 # 1) (EEins "nmef,ecim,fdkl,abjn->abcdijkl" [(ESlice (EVar "g_bbbb") [SV "o"; SV "o"; SV "v"; SV "v"]); (EVar "t2_bbbb"); (EVar "t2_bbbb"); (EVar "t2_bbbb")]));
   (*L4725*) SAug true "quadruples_res" (EAdd (EScale (1 # 1) (EVar "contracted_intermediate")) (EScale (-1 # 1) (EEins "abcdijkl->abcdikjl" [(EVar "contracted_intermediate")])));
   (*L4728*) SAssign "contracted_intermediate" (EScale (-1 # 1) (EEins "mnfe,eckl,fdmj,abin->abcdijkl" [(ESlice (EVar "g_abab") [SV "o"; SV "o"; SV "v"; SV "v"]); (EVar "t2_bbbb"); (EVar "t2_abab"); (EVar "t2_bbbb")]));
   (*L4729*) SAug true "quadruples_res" (EAdd (EScale (1 # 1) (EVar "contracted_intermediate")) (EScale (-1 # 1) (EEins "abcdijkl->abcdjikl" [(EVar "contracted_intermediate")])));
   (*L4732*) SAssign "contracted_intermediate" (EScale (1 # 1) (EEins "nmef,eckl,fdjm,abin->abcdijkl" [(ESlice (EVar "g_bbbb") [SV "o"; SV "o"; SV "v"; SV "v"]); (EVar "t2_bbbb"); (EVar "t2_bbbb"); (EVar "t2_bbbb")]));
   (*L4733*) SAug true "quadruples_res" (EAdd (EScale (1 # 1) (EVar "contracted_intermediate")) (EScale (-1 # 1) (EEins "abcdijkl->abcdjikl" [(EVar "contracted_intermediate")])));
   (*L4736*) SAssign "contracted_intermediate" (EScale (-1 # 2) (EEins "nmef,eckl,fdij,abnm->abcdijkl" [(ESlice (EVar "g_bbbb") [SV "o"; SV "o"; SV "v"; SV "v"]); (EVar "t2_bbbb"); (EVar "t2_bbbb"); (EVar "t2_bbbb")]));
   (*L4737*) SAug true "quadruples_res" (EAdd (EScale (1 # 1) (EVar "contracted_intermediate")) (EScale (-1 # 1) (EEins "abcdijkl->abcdikjl" [(EVar "contracted_intermediate")])));
   (*L4740*) SAssign "contracted_intermediate" (EScale (1 # 1) (EEins "mnfe,ecjl,fdmk,abin->abcdijkl" [(ESlice (EVar "g_abab") [SV "o"; SV "o"; SV "v"; SV "v"]); (EVar "t2_bbbb"); (EVar "t2_abab"); (EVar "t2_bbbb")]));
   (*L4741*) SAug true "quadruples_res" (EAdd (EScale (1 # 1) (EVar "contracted_intermediate")) (EScale (-1 # 1) (EEins "abcdijkl->abcdkjil" [(EVar "contracted_intermediate")])));
   (*L4744*) SAssign "contracted_intermediate" (EScale (-1 # 1) (EEins "nmef,ecjl,fdkm,abin->abcdijkl" [(ESlice (EVar "g_bbbb") [SV "o"; SV "o"; SV "v"; SV "v"]); (EVar "t2_bbbb"); (EVar "t2_bbbb"); (EVar "t2_bbbb")]));
   (*L4745*) SAug true "quadruples_res" (EAdd (EScale (1 # 1) (EVar "contracted_intermediate")) (EScale (-1 # 1) (EEins "abcdijkl->abcdkjil" [(EVar "contracted_intermediate")])));
   (*L4748*) SAssign "contracted_intermediate" (EScale (-1 # 1) (EEins "mnfe,ecil,fdmk,abjn->abcdijkl" [(ESlice (EVar "g_abab") [SV "o"; SV "o"; SV "v"; SV "v"]); (EVar "t2_bbbb"); (EVar "t2_abab"); (EVar "t2_bbbb")]));
   (*L4749*) SAug true "quadruples_res" (EAdd (EScale (1 # 1) (EVar "contracted_intermediate")) (EScale (-1 # 1) (EEins "abcdijkl->abcdikjl" [(EVar "contracted_intermediate")])));
   (*L4752*) SAssign "contracted_intermediate" (EScale (1 # 1) (EEins "nmef,ecil,fdkm,abjn->abcdijkl" [(ESlice (EVar "g_bbbb") [SV "o"; SV "o"; SV "v"; SV "v"]); (EVar "t2_bbbb"); (EVar "t2_bbbb"); (EVar "t2_bbbb")]));
   (*L4753*) SAug true "quadruples_res" (EAdd (EScale (1 # 1) (EVar "contracted_intermediate")) (EScale (-1 # 1) (EEins "abcdijkl->abcdikjl" [(EVar "contracted_intermediate")])));
   (*L4756*) SAssign "contracted_intermediate" (EScale (-1 # 2) (EEins "nmef,ecil,fdjk,abnm->abcdijkl" [(ESlice (EVar "g_bbbb") [SV "o"; SV "o"; SV "v"; SV "v"]); (EVar "t2_bbbb"); (EVar "t2_bbbb"); (EVar "t2_bbbb")]));
   (*L4757*) SAug true "quadruples_res" (EAdd (EScale (1 # 1) (EVar "contracted_intermediate")) (EScale (-1 # 1) (EEins "abcdijkl->abcdijlk" [(EVar "contracted_intermediate")])));
   (*L4760*) SAssign "contracted_intermediate" (EScale (-1 # 1) (EEins "mnfe,ecjk,fdml,abin->abcdijkl" [(ESlice (EVar "g_abab") [SV "o"; SV "o"; SV "v"; SV "v"]); (EVar "t2_bbbb"); (EVar "t2_abab"); (EVar "t2_bbbb")]));
   (*L4761*) SAug true "quadruples_res" (EAdd (EScale (1 # 1) (EVar "contracted_intermediate")) (EScale (-1 # 1) (EEins "abcdijkl->abcdljki" [(EVar "contracted_intermediate")])));
   (*L4764*) SAssign "contracted_intermediate" (EScale (1 # 1) (EEins "nmef,ecjk,fdlm,abin->abcdijkl" [(ESlice (EVar "g_bbbb") [SV "o"; SV "o"; SV "v"; SV "v"]); (EVar "t2_bbbb"); (EVar "t2_bbbb"); (EVar "t2_bbbb")]));
   (*L4765*) SAug true "quadruples_res" (EAdd (EScale (1 # 1) (EVar "contracted_intermediate")) (EScale (-1 # 1) (EEins "abcdijkl->abcdljki" [(EVar "contracted_intermediate")])));
   (*L4768*) SAssign "contracted_intermediate" (EScale (-1 # 2) (EEins "nmef,ecjk,fdil,abnm->abcdijkl" [(ESlice (EVar "g_bbbb") [SV "o"; SV "o"; SV "v"; SV "v"]); (EVar "t2_bbbb"); (EVar "t2_bbbb"); (EVar "t2_bbbb")]));
   (*L4769*) SAug true "quadruples_res" (EAdd (EScale (1 # 1) (EVar "contracted_intermediate")) (EScale (-1 # 1) (EEins "abcdijkl->abcdkjil" [(EVar "contracted_intermediate")])));
   (*L4772*) SAssign "contracted_intermediate" (EScale (1 # 1) (EEins "mnfe,ecik,fdml,abjn->abcdijkl" [(ESlice (EVar "g_abab") [SV "o"; SV "o"; SV "v"; SV "v"]); (EVar "t2_bbbb"); (EVar "t2_abab"); (EVar "t2_bbbb")]));
   (*L4773*) SAug true "quadruples_res" (EAdd (EScale (1 # 1) (EVar "contracted_intermediate")) (EScale (-1 # 1) (EEins "abcdijkl->abcdilkj" [(EVar "contracted_intermediate")])));
   (*L4776*) SAssign "contracted_intermediate" (EScale (-1 # 1) (EEins "nmef,ecik,fdlm,abjn->abcdijkl" [(ESlice (EVar "g_bbbb") [SV "o"; SV "o"; SV "v"; SV "v"]); (EVar "t2_bbbb"); (EVar "t2_bbbb"); (EVar "t2_bbbb")]));
   (*L4777*) SAug true "quadruples_res" (EAdd (EScale (1 # 1) (EVar "contracted_intermediate")) (EScale (-1 # 1) (EEins "abcdijkl->abcdilkj" [(EVar "contracted_intermediate")])));
   (*L4780*) SAssign "contracted_intermediate" (EScale (-1 # 1) (EEins "mnfe,ecij,fdml,abkn->abcdijkl" [(ESlice (EVar "g_abab") [SV "o"; SV "o"; SV "v"; SV "v"]); (EVar "t2_bbbb"); (EVar "t2_abab"); (EVar "t2_bbbb")]));
   (*L4781*) SAug true "quadruples_res" (EAdd (EScale (1 # 1) (EVar "contracted_intermediate")) (EScale (-1 # 1) (EEins "abcdijkl->abcdijlk" [(EVar "contracted_intermediate")])));
   (*L4784*) SAssign "contracted_intermediate" (EScale (1 # 1) (EEins "nmef,ecij,fdlm,abkn->abcdijkl" [(ESlice (EVar "g_bbbb") [SV "o"; SV "o"; SV "v"; SV "v"]); (EVar "t2_bbbb"); (EVar "t2_bbbb"); (EVar "t2_bbbb")]));
   (*L4785*) SAug true "quadruples_res" (EAdd (EScale (1 # 1) (EVar "contracted_intermediate")) (EScale (-1 # 1) (EEins "abcdijkl->abcdijlk" [(EVar "contracted_intermediate")])))]
  (*L4787*) (EVar "quadruples_res").
