import json
P=[]
def p(title,statement,quantifier,why,anchors):
    P.append(dict(id="C%02d"%(len(P)+1),title=title,statement=statement,quantifier=quantifier,why_tests_cant=why,anchors=anchors))
p("Spin-orbital amplitudes stay antisymmetric through a whole calculation",
  "In a spin-orbital calculation (CCD, LCCD, pCCD, XCCD(n) and UT2-CCD(n) labels, with or without DIIS) every iterate and the returned T2 array change sign under a<->b and under i<->j. (Found false for UCC(4): its <T2+ W T2> terms lost the permutation of the virtual pair, so already the first pass leaves the antisymmetric space.)",
  "all numbers of occupied and virtual orbitals, all symmetric Fock matrices, all antisymmetric integrals, all orbital energies, all DIIS settings and solvers, all numbers of iterations",
  "A test checks a handful of molecules; the claim is about arbitrary arrays of arbitrary size and about all iteration counts.",
  ["UT2/t2residEqnsSlow.py:ccd_t2residual","UT2/t2residEqnsSlow.py:residMain"])
p("Two independently generated CCD residuals agree",
  "The pdaggerq-generated spin-orbital CCD T2 residual equals, up to the documented axis order, the wicked-generated CCSD T2 residual with T1=0, the CCSDT T2 residual with T1=T3=0 and the CCDQ T2 residual with T4=0.",
  "all orbital counts, all Hermitian antisymmetric integrals, all symmetric Fock matrices, all antisymmetric T2",
  "Equality of two multilinear programs on every input cannot be sampled.",
  ["UT2/t2residEqnsSlow.py:ccd_t2residual","UT2/cc_eqns.py:ccsd_t2resid","UT2/ccdq_eqns.py:ccdq_t2eqns","UT2/ccsdt_eqns.py:ccsdt_t2eqns"])
p("CCSDT code restricted to T3=0 is the CCSD code",
  "The CCSDT T1 and T2 residual functions called with T3=0 return exactly what the CCSD T1 and T2 residual functions return.",
  "all orbital counts, integrals, Fock matrices and T1/T2 amplitudes with the physical permutational symmetry",
  "Quantifies over all tensors.",
  ["UT2/ccsdt_eqns.py:ccsdt_t1eqns","UT2/ccsdt_eqns.py:ccsdt_t2eqns","UT2/cc_eqns.py:ccsd_t1resid","UT2/cc_eqns.py:ccsd_t2resid"])
p("Spin-integrated CCD residual equals the spin-orbital one",
  "For spin-conserving integrals and amplitudes and equal numbers of alpha and beta occupied (and virtual) orbitals, the aaaa, bbbb and abab blocks returned by the spin-integrated CCD code are the corresponding blocks of the spin-orbital CCD residual.",
  "all closed-shell orbital counts, all spin-orbital integrals/Fock/T2 with antisymmetry, Hermiticity and spin conservation, all index tuples",
  "The two code paths are separate 100+ line contraction lists; only a proof covers all inputs.",
  ["UT2/t2residEqns.py:ccd_t2_aaaa_residual","UT2/t2residEqns.py:ccd_t2_bbbb_residual","UT2/t2residEqns.py:ccd_t2_abab_residual","UT2/t2residEqnsSlow.py:ccd_t2residual"])
p("Spin-integrated CCD energy equals the spin-orbital CCD energy",
  "The energy computed from spin blocks equals the energy computed from the spin-orbital arrays built from these blocks.",
  "all closed-shell orbital counts and all spin-conserving antisymmetric integrals and amplitudes",
  "Quantifies over all tensors.",
  ["UT2/t2energy.py:ccd_energy_with_spin","UT2/t2energySlow.py:ccdEnergy"])
p("Spin-integrated CCSDT T1 and T2 residuals equal the spin-orbital ones",
  "The aa/bb T1 blocks and aaaa/bbbb/abab T2 blocks of the spin-integrated CCSDT residual equal the blocks of the wicked-generated spin-orbital CCSDT residual.",
  "all closed-shell orbital counts, all spin-conserving symmetric inputs",
  "Hundreds of contractions over arbitrary tensors.",
  ["UT2/fullCCresidEqns.py:ccsdt_t1_aa_residual","UT2/fullCCresidEqns.py:ccsdt_t2_abab_residual","UT2/ccsdt_eqns.py:ccsdt_t1eqns","UT2/ccsdt_eqns.py:ccsdt_t2eqns"])
p("Spin-integrated CCSDT T3 residual equals the spin-orbital one up to literal truncation",
  "The four spin blocks of the spin-integrated CCSDT T3 residual agree with the blocks of the spin-orbital CCSDT T3 residual up to an explicit error that comes only from 9-digit (wicked) and 15-digit (pdaggerq) coefficient literals; with literals read as the fractions they abbreviate the two are equal.",
  "all closed-shell orbital counts, all spin-conserving symmetric inputs; the error bound in terms of the largest entry and the orbital counts",
  "2000 contraction statements; error bound is over all inputs.",
  ["UT2/fullCCresidEqns.py:ccsdt_t3_aaaaaa_residual","UT2/fullCCresidEqns.py:ccsdt_t3_aabaab_residual","UT2/fullCCresidEqns.py:ccsdt_t3_abbabb_residual","UT2/fullCCresidEqns.py:ccsdt_t3_bbbbbb_residual","UT2/ccsdt_eqns.py:ccsdt_t3eqns"])
p("Spin-integrated CCDQ residuals equal the spin-orbital ones",
  "The spin blocks of the CCDQ T2 residual equal those of the spin-orbital CCDQ T2 residual exactly, and the five T4 blocks agree up to coefficient-literal truncation.",
  "all closed-shell orbital counts, all spin-conserving symmetric inputs",
  "6000 lines of contractions.",
  ["UT2/ccdq_resids.py","UT2/ccdq_eqns.py:ccdq_t2eqns","UT2/ccdq_eqns.py:ccdq_t4eqns"])
p("Factorised quadruples residual (CCDQf-1) equals the explicit T4 route",
  "The CCDQf-1 T2 contribution equals one quarter of L2 contracted with the fully antisymmetrised W*T2*T2 quadruples intermediate.",
  "all orbital counts, Hermitian antisymmetric integrals, antisymmetric T2 and L2",
  "Equality of an N^6-style factorised expression with an N^8 tensor expression on all inputs.",
  ["UT2/modify_T2resid_T4Qf1Slow.py:residQf1_aaaa","UT2/modify_T2resid_T4Qf1Slow.py:unsym_residQf1","UT2/tamps.py:antisym_T4"])
p("Factorised quadruples residual (CCDQf-2) equals the explicit T4 route",
  "The CCDQf-2 T2 contribution equals one quarter of L2 contracted with the antisymmetrised W*T2^3 quadruples intermediate.",
  "all orbital counts, Hermitian antisymmetric integrals, antisymmetric T2 and L2",
  "As above.",
  ["UT2/modify_T2resid_T4Qf2Slow.py:residQf2_aaaa","UT2/modify_T2resid_T4Qf1Slow.py:unsym_residQf2"])
p("Spin-integrated CCDQf residuals equal the spin-orbital ones",
  "The aaaa/bbbb/abab blocks of the CCDQf-1 and CCDQf-2 corrections equal the blocks of the spin-orbital corrections.",
  "all closed-shell orbital counts, all spin-conserving symmetric inputs",
  "Thousands of contractions.",
  ["UT2/modify_T2resid_T4Qf1.py","UT2/modify_T2resid_T4Qf2.py","UT2/modify_T2resid_T4Qf1Slow.py:residQf1_aaaa","UT2/modify_T2resid_T4Qf2Slow.py:residQf2_aaaa"])
p("(Qf) perturbative energy is the L2 contraction of the CCDQf-1 residual, spin-integrated and spin-orbital",
  "The spin-orbital (Qf) energy equals one quarter of L2 contracted with the CCDQf-1 residual, and the 930-statement spin-integrated (Qf) energy equals it.",
  "all orbital counts and all symmetric inputs (closed shell for the spin-integrated half)",
  "Quantifies over all tensors.",
  ["UT2/modify_T2energy_pertQfSlow.py:energy_pertQf","UT2/modify_T2energy_pertQf.py:energy_pertQf","UT2/modify_T2resid_T4Qf1Slow.py:residQf1_aaaa"])
p("Fast T2-route (Qf) diagnostics equal the slow T4 route",
  "In the fifth/sixth-order (Qf) diagnostics the 'faster T2 route' intermediates for WnT2^2 and WnT3 equal the T4-route intermediates, and WnT2T3 does up to coefficient-literal truncation.",
  "all orbital counts and all symmetric inputs",
  "The code prints both and relies on the reader comparing a few digits.",
  ["UT2/cc_energy.py:optWnT2sqr","UT2/cc_energy.py:optWnT3","UT2/build_qf_correction.py:wnT2T3_toT4","UT2/build_qf_correction.py:wnT2T3_toT2","UT2/cc_energy.py:long_testQf5Order"])
p("WnT2^3 T4 route and T2 route agree",
  "The two routes printed as 'WnT2^3 contribution to (Qf)' compute the same number. (Found false: the T4 route also contains the WnT2^2 terms; the difference is exactly the WnT2^2 contribution.)",
  "all orbital counts and inputs",
  "A refutation needs one witness; the exact characterisation of the discrepancy is for all inputs.",
  ["UT2/build_qf_correction.py:wnT2cubed_toT4","UT2/build_qf_correction.py:wnT2cubed_toT2","UT2/cc_energy.py:sixthOrderQf_wnT2cubed"])
p("Approximate T4 blocks of the full-CC (Qf) correction are the spin blocks of the antisymmetrised intermediate",
  "The five spin blocks built for CCSDT(Qf)/CCSD(Qf) equal the spin blocks of the antisymmetrised W*T2^2 + W*T3 intermediate, and the Qf* increments those of W*T2^3.",
  "all closed-shell orbital counts, all spin-conserving symmetric inputs",
  "4500 lines of contractions.",
  ["UT2/fullCCenergy.py:ccsdtq_t4_aaaaaaaa_residual","UT2/fullCCenergy.py:ccsdtqT2cubed_t4_aaaaaaaa_residual"])
p("Full-CC energies: CCSD energy and Qf contraction are spin-adapted correctly",
  "The spin-integrated CCSD energy equals the spin-orbital CCSD energy expression, and the spin-integrated Qf contraction equals 1/16 of the spin-orbital contraction of two adjoint T2 with T4.",
  "all closed-shell orbital counts, all spin-conserving symmetric inputs",
  "Quantifies over all tensors.",
  ["UT2/fullCCenergy.py:ccsd_energy_with_spin","UT2/fullCCenergy.py:energy_pertQf"])
p("Approximate triples and [T]",
  "The three implementations of the second-order T3 numerator (pdaggerq list, antisymmetrised wicked list, spin blocks) agree, and the spin-integrated [T] energy equals the spin-orbital [T] expression.",
  "all orbital counts (closed shell for spin blocks) and all symmetric inputs",
  "Quantifies over all tensors.",
  ["UT2/pdagq_T3corr.py:build_T3","UT2/cc_energy.py:build_approxT3","UT2/build_approxT3full.py","UT2/square_brakT_corr.py:square_brakT"])
p("T4-modified T2 equations agree with the explicit T4 route",
  "The spin-integrated T4-corrected T2 residual blocks equal the spin blocks of one quarter L2 contracted with the antisymmetrised W*T2^2+W*T3 intermediate.",
  "all closed-shell orbital counts, all spin-conserving symmetric inputs",
  "3000 lines of contractions.",
  ["UT2/testing_modifyT2eqns_with_T4.py"])
p("Size consistency of the coupled-cluster equations and energies",
  "For a system made of two non-interacting fragments with block-diagonal integrals and amplitudes, the residuals (CCD, LCCD, CCSD, CCSDT, CCDQ and the factorised-quadruples corrections) restricted to a fragment are that fragment's residuals, residual entries with mixed indices vanish, and the energies are the sums of the fragment energies; the union of fragment solutions solves the whole. The same holds for the methods XCCD(5) to XCCD(9): their energy and their perturbative energy add up, and one pass of their iteration keeps the amplitudes block diagonal.",
  "all fragment sizes and all fragment integrals and amplitudes",
  "Quantifies over all pairs of systems.",
  ["UT2/t2residEqnsSlow.py:ccd_t2residual","UT2/t2energySlow.py:ccdEnergy","UT2/XCCDbasebuilder.py:build_XCCDbase"])
p("LCCD residual is affine in T2",
  "The LCCD residual (CCD minus the quadratic offset) satisfies R(x*T+(1-x)*S) = x*R(T)+(1-x)*R(S).",
  "all orbital counts, integrals, amplitudes T,S and scalars x",
  "Quantifies over all tensors and scalars.",
  ["UT2/t2residEqnsSlow.py:doubles_resLCCDoffset","UT2/t2residEqnsSlow.py:residMain"])
p("Antisymmetrisers return fully antisymmetric arrays",
  "antisym_T2, antisym_T3 and antisym_T4 return an array that changes sign under every transposition of occupied or virtual indices, whatever the input; on an already antisymmetric input they multiply by 4, 36 and 576.",
  "all array sizes and contents, all transpositions",
  "576 signed permutations; a dropped or wrongly signed one only shows for some input.",
  ["UT2/tamps.py:antisym_T2","UT2/tamps.py:antisym_T3","UT2/tamps.py:antisym_T4","UT2/antisym_t4resids.py:antisym_t4_residual","UT2/wicked_T3corr.py:antisym_T3"])
p("pCCD iteration in spin-orbital form keeps only pair amplitudes",
  "A pCCD run keeps T2 entries t[a,a,i,i] and sets the others to zero. (Consequence found: in the antisymmetric spin-orbital basis these entries are zero, so the first update makes all amplitudes zero and the pCCD energy is the reference energy.)",
  "all orbital counts, all antisymmetric integrals and amplitudes",
  "For-all statement over inputs.",
  ["UT2/t2residEqnsSlow.py:residMain"])
p("Open-shell spin-integrated CCD uses the right occupied/virtual slices for beta electrons",
  "For different numbers of alpha and beta electrons the spin-integrated code contracts beta indices over beta occupied/virtual orbitals. (Found false: every beta block is sliced with the alpha ranges.)",
  "all orbital counts with n_alpha != n_beta",
  "Characterises a whole class of inputs.",
  ["UT2/t2residEqns.py:ccd_t2_bbbb_residual","UT2/t2residEqns.py:ccd_t2_abab_residual","UT2/t2energy.py:ccd_energy_with_spin"])
p("Spin-flip symmetry of the spin-integrated residuals",
  "Exchanging the roles of alpha and beta in all inputs exchanges the alpha and beta residual blocks (and returns the same mixed-spin blocks seen with the spins exchanged), for CCD, CCSDT, CCDQ and CCDQf.",
  "all orbital counts and all inputs that are the spin blocks of antisymmetric spin-conserving spin-orbital arrays, for every ordering of the spin orbitals",
  "Quantifies over all tensors.",
  ["UT2/t2residEqns.py:ccd_t2_aaaa_residual","UT2/t2residEqns.py:ccd_t2_bbbb_residual","UT2/fullCCresidEqns.py","UT2/ccdq_resids.py"])
p("Energy denominators",
  "Every D_n array entry is the reciprocal of (sum of occupied minus sum of virtual orbital energies), is invariant under permutation of same-kind indices and, when an HOMO-LUMO gap exists, is nonzero and negative. For mixed-spin blocks the entry must use each spin's own orbital energies (found false for unequal alpha/beta energies in several blocks).",
  "all orbital-energy vectors with a gap, all occupation numbers, all index tuples",
  "Broadcasting and index placement must be right at every index.",
  ["UT2/run_ccd.py:get_denoms","UT2/set_denoms.py"])
p("A converged amplitude set solves the CC equations",
  "T is unchanged by the residual/denominator update exactly when the residual (without the diagonal shift) vanishes.",
  "all orbital counts, integrals and amplitudes with nonzero denominators",
  "If-and-only-if over all amplitude arrays.",
  ["UT2/t2residEqnsSlow.py:residMain","UT2/t2residEqns.py:residMain","UT2/cc_eqns.py:cceqns_driver"])
p("DIIS extrapolation preserves a solution and the affine constraint",
  "When the DIIS linear system is solved exactly the weights sum to one, the extrapolated vector is the weighted sum of the stored vectors, the predicted error is the stationary point of the residual norm under that constraint, and if all stored vectors equal T the result is T.",
  "all histories of vectors and error vectors, all vector lengths and DIIS sizes",
  "For-all over histories.",
  ["UT2/diis.py"])
p("DIIS history is bounded and first-in-first-out",
  "Before the start iteration DIIS returns its input; afterwards it keeps the most recent nvecs (vector,error) pairs in order.",
  "all sequences of calls, all nvecs and start iterations",
  "For-all over histories.",
  ["UT2/diis.py"])
p("Amplitude vectorisation round-trips",
  "Concatenating the flattened amplitude arrays and splitting/reshaping the extrapolated vector back gives the same arrays for every method label; the old-vector length equals the new-vector length. (Found false for full-CC labels other than CCDQ.)",
  "all array shapes and contents, all method labels",
  "For-all over shapes and labels.",
  ["UT2/kernel.py:UltT2CC","UT2/tamps.py:get_oldvec","UT2/tamps.py:set_tampsSLOW"])
p("The iteration loop reports an energy only when converged",
  "kernel() either returns a final energy whose last change was below the threshold, or signals failure. (Found false: reaching max_iter falls through to finalisation silently; only iteration 76 exits.)",
  "all residual/energy behaviours, thresholds and iteration limits",
  "Needs all trajectories of the iteration.",
  ["UT2/kernel.py:UltT2CC.kernel","UT2/run_ccd.py:ccd_kernel"])
p("The legacy iteration loop never returns unconverged",
  "The legacy loop of run_ccd either stops with an energy change below its built-in threshold 1e-12 or raises after 75 passes; it never returns amplitudes whose last energy change was larger.",
  "all residual/energy behaviours, thresholds and iteration limits",
  "Needs all trajectories.",
  ["UT2/run_ccd.py:ccd_kernel","UT2/run_ccd.py:run_ccd"])
p("Reported energies are consistent",
  "After a run corr energy = total energy - HF energy for every method. (Found false for the (Qf) labels, where only the perturbative part is reported as correlation energy.)",
  "all energies and all method labels",
  "For-all over labels and numbers.",
  ["UT2/kernel.py:UltT2CC.finalize"])
p("Option handling of ccd_main",
  "Defaults are filled only when absent; user-supplied stopping thresholds and iteration limits are honoured. (Found false for the ccdType key, which overwrites them; and the caller's dictionary is modified.)",
  "all option dictionaries",
  "For-all over dictionaries.",
  ["UT2/run_ccd.py:ccd_main"])
p("Method label selection is consistent between driver and kernel",
  "The calculation type selected by the driver is the one used by the kernel. (Found false when several type keys are present.)",
  "all option dictionaries",
  "For-all over key sets.",
  ["UT2/kernel.py:get_calc","UT2/run_ccd.py:ccd_main"])
p("Perturbation order parsing",
  "A label such as XCCD(n) yields the corrections of orders 5..n. (Found false for two-digit orders; proved for single-digit n and characterised for all strings.)",
  "all strings",
  "For-all over strings.",
  ["UT2/kernel.py:extract_integer","UT2/t2energySlow.py:extract_integer","UT2/t2energySlow.py:extract_UT2"])
p("Separate calculations do not share state",
  "Creating a second calculation-information object does not expose the data stored in the first. (Found false: mutable default dictionaries are shared.)",
  "all histories of object creations and updates",
  "For-all over histories.",
  ["UT2/run_ccd.py:StoredInfo"])
p("Spin-blocked integrals",
  "The spin-orbital two-electron array built from spatial integrals is antisymmetric, Hermitian and conserves spin, and the MO transformation by any coefficient matrix preserves antisymmetry.",
  "all basis sizes, all real integrals with the 8-fold symmetry, all coefficient matrices",
  "For-all over matrices.",
  ["UT2/run_ccd.py:spin_block_tei","UT2/run_ccd.py:convertSCFinfo_tmpslow","UT2/run_ccd.py:spinorb_from_spatial","UT2/run_ccd.py:generalUHF"])
p("External amplitude readers produce antisymmetric arrays",
  "Reading an amplitude file gives antisymmetric arrays that hold, at each orbital quadruple, the value of the last line of the file about it, with the sign of the permutation, and zero elsewhere; the integral array holds four times the value in the file at its indices; orbital counts, energies and energy denominators are those of the system file. (Found false: with a repeated orbital the array is not antisymmetric, an occupied orbital in a virtual place is silently accepted, and the arrays represent minus the doubles and two-electron operators the file lists, because its annihilators come in the other order.)",
  "all file contents",
  "For-all over files.",
  ["UT2/xacc.py","UT2/amphandler.py"])
p("CCD energy vanishing and first-order limits",
  "With T2=0 the CCD residual is the integral block <ab||ij> and the energy is the reference energy; after one update from zero the amplitudes are the MP1 amplitudes and the energy change is the MP2 energy.",
  "all orbital counts and integrals",
  "For-all over integrals.",
  ["UT2/t2residEqnsSlow.py:ccd_t2residual","UT2/t2energySlow.py:ccdEnergy","UT2/kernel.py:UltT2CC"])
p("Full-CC residual driver works for each label",
  "The spin-integrated full-CC residual driver computes residuals for CCSD, CCSDT, CCD and CCDQ labels. (Found false: for labels other than CCDQ it reads variables that were never assigned.)",
  "all labels and inputs",
  "Control-flow claim over all labels.",
  ["UT2/fullCCresidEqns.py:residMain"])
p("XCCD(6) augmentation contributes its T2^3 terms",
  "The sixth-order intermediate returned equals the antisymmetrised T2^3 contribution. (Found false: it is identically zero.)",
  "all inputs",
  "For-all statement.",
  ["UT2/antisym_t4resids.py:xccd_6"])
p("The programmed equations are the projected Schroedinger equation",
  "The spin-orbital CCD residual returned by the code equals <Phi_ij^ab| exp(-T2) H exp(T2) |Phi> and the CCD energy equals <Phi| exp(-T2) H exp(T2) |Phi>, with H and T2 the second-quantised operators built from the same arrays; likewise the CCSD singles and doubles residuals and energy with T = T1 + T2.",
  "all orbital counts, integrals and amplitudes",
  "The defining equation of the theory, over all inputs.",
  ["UT2/t2residEqnsSlow.py:ccd_t2residual","UT2/t2energySlow.py:ccdEnergy","UT2/ccsdt_eqns.py","UT2/cc_eqns.py","UT2/cc_energy.py"])
p("The (Qf) correction is evaluated with the final amplitudes",
  "The adjoint amplitudes used for the perturbative (Qf) correction are those of the amplitudes the run returns. (Found false: they are the adjoints of the amplitudes of the previous pass.)",
  "all residual and energy routines, all iteration counts",
  "For-all over trajectories.",
  ["UT2/kernel.py:UltT2CC.kernel","UT2/kernel.py:UltT2CC.finalize"])
p("Spin-orbital runs of the (Qf) labels deliver a result",
  "A spin-orbital calculation started with one of the accepted (Qf) labels ends with an energy. (Found false: the perturbative step needs an order number that these labels do not contain, so every such run ends with an exception.)",
  "all systems, settings and trajectories",
  "For-all over inputs and trajectories.",
  ["UT2/kernel.py:UltT2CC.finalize","UT2/t2energySlow.py:ccd_energyMain"])
p("Results do not depend on files left by earlier runs",
  "A spin-orbital calculation gives the same outcome whatever the scratch file roooovvvv_t4_third.pickle contained (or whether it existed) when it was started.",
  "all file contents, all systems, labels, settings and iteration counts",
  "For-all over earlier histories of the working directory.",
  ["UT2/XCCDbasebuilder.py:build_XCCDbase","UT2/t2residEqnsSlow.py:residMain","UT2/t2energySlow.py:add_XCCenergy"])
p("Spin-integrated and spin-orbital CCD take the same path",
  "For a closed-shell system, the spin-integrated and the spin-orbital CCD calculations without DIIS walk through the same amplitudes and energies (the spin-integrated one starts from zero and is one pass behind), and with one more pass allowed they return the same energy and the same amplitudes.",
  "all orbital counts, integrals, orbital energies, thresholds and iteration counts",
  "For-all over trajectories of two programs.",
  ["UT2/kernel.py:UltT2CC.kernel","UT2/t2residEqns.py:residMain","UT2/t2residEqnsSlow.py:residMain","UT2/t2energy.py:ccd_energyMain","UT2/t2energySlow.py:ccd_energyMain"])
p("Spin-integrated iterates stay physical",
  "On the spin-integrated route, after any number of passes and with any DIIS extrapolation, the three amplitude blocks are the spin blocks of one antisymmetric spin-conserving amplitude tensor, and the energy is the CCD energy of that tensor; without DIIS no pass raises.",
  "all orbital counts, integrals, labels, DIIS settings and iteration counts",
  "Invariant over unbounded trajectories.",
  ["UT2/kernel.py:UltT2CC","UT2/t2residEqns.py:residMain","UT2/t2energy.py:ccd_energyMain"])
p("The legacy loop and the class-based loop compute the same CCD",
  "For a CCD calculation the legacy loop of run_ccd and the kernel of the class-based driver, given the same integrals, denominators, DIIS settings and linear solver, agree: whenever the legacy loop returns, the class-based driver run with the legacy threshold and iteration limit returns the same amplitudes, the same total energy, and that energy minus the Hartree-Fock energy as correlation energy.",
  "all orbital counts, integrals, denominators, DIIS settings, solvers and iteration counts",
  "For-all over trajectories of two programs.",
  ["UT2/run_ccd.py:ccd_kernel","UT2/kernel.py:UltT2CC.kernel"])
p("Legacy pCCD keeps only electron-pair amplitudes",
  "In the legacy loop with the label pCCD the same-spin amplitudes vanish and the opposite-spin amplitudes vanish unless both virtual orbitals agree and both occupied orbitals agree, in every iterate, with or without DIIS.",
  "all orbital counts, integrals, solvers and iteration counts",
  "Invariant over unbounded trajectories.",
  ["UT2/run_ccd.py:ccd_kernel"])
p("DiagCCD is a method of its own",
  "The label DiagCCD of the legacy loop runs a calculation that keeps only selected amplitudes, distinct from CCD. (Found false: the diagonalised arrays are never used, the label gives exactly the CCD result for every input on which the diagonalisation itself does not fail.)",
  "all inputs",
  "For-all over inputs.",
  ["UT2/run_ccd.py:ccd_kernel"])
p("Both routes start from the same Hamiltonian and report the same energy",
  "From one SCF result with equal numbers of alpha and beta electrons (AO integrals with the usual symmetry, canonical orbitals, a HOMO-LUMO gap), the integral conversion of the spin-orbital route and that of the spin-integrated route produce the same Hamiltonian: one assignment of spin orbitals to (spin, spatial orbital) makes every stored block agree, whatever order degenerate orbitals are sorted in. Hence the CCD runs of the two routes, conversion to final energy, report the same total and correlation energies.",
  "all AO integrals, Fock matrices, coefficients, orbital energies, sort orders, orbital counts, thresholds and iteration counts",
  "For-all over SCF results and over the tie-breaking of an unstable sort.",
  ["UT2/run_ccd.py:convertSCFinfo_tmpslow","UT2/run_ccd.py:convertSCFinfo","UT2/run_ccd.py:generalUHF","UT2/run_ccd.py:spin_block_tei","UT2/run_ccd.py:get_denoms","UT2/kernel.py:UltT2CC.kernel"])
p("XCCD energies and residuals use the same corrections",
  "For an XCCD(n) calculation there are antisymmetric arrays B_5..B_n, depending on the current amplitudes only, such that the residual is the CCD residual plus their sum and the energy is the CCD energy plus 1/4 sum_abij t[a,b,i,j] B_k[a,b,i,j] over the orders; the perturbative correction uses the same arrays with the first-order amplitudes in place of t.",
  "all orbital counts, integrals, antisymmetric amplitudes, denominators, orders and leftover scratch files",
  "For-all over real tensors of any size and over file contents.",
  ["UT2/kernel.py:ContractAdjointAmps.buildXCCD_T2energy","UT2/t2energySlow.py:add_XCCenergy","UT2/t2residEqnsSlow.py:residMain","UT2/XCCDbasebuilder.py:build_XCCDbase"])
p("Perturbative corrections to amplitudes from elsewhere",
  "A run with the key pertCorr returns the requested correction for amplitudes read from files. (True for one combination: method pdagq_parT, integrals from an SCF result, a virtual-first doubles file and no singles file give the [T] energy of the approximate triples. Found false otherwise: the methods wicked_parT and checkUCCD, every run from the three xacc text files, every run with a singles file and every run with occupied-first doubles raise; and the energy reported beside the correction is None.)",
  "all methods, file contents, orbital counts, integrals and amplitudes",
  "For-all over inputs and file contents.",
  ["UT2/run_ccd.py:ccd_main","UT2/amphandler.py","UT2/pdagq_T3corr.py","UT2/xacc.py"])
p("What a run of the DriveCC class returns",
  "DriveCC(mf, mol, cc_info).kernel(cc_info), for a label with a D, walks through one sequence of antisymmetric amplitudes that depends on the calculation, the label and the T2 file only: it starts with T2 = <ij||ab>/(e_i+e_j-e_a-e_b) (or the file) and zero for the rest, and each step adds residual over orbital-energy difference. The run stops at the first step where the energy changes by less than stopping_eps and reports energy and amplitudes after it; if max_iter steps contain no such step it raises. DIIS settings change nothing. A label with '(qf)' gives the same energies and amplitudes and prints sixteen numbers made of six, each computed from the final T2 and the final T3 (for labels without a T, the approximate triples); any other label with '(' raises at the end.",
  "all orbital counts, integrals, orbital energies, labels, thresholds, iteration limits and DIIS settings",
  "For-all over trajectories of unbounded length.",
  ["UT2/test.py:DriveCC","UT2/cc_eqns.py:cceqns_driver","UT2/cc_energy.py:ccenergy_driver","UT2/cc_energy.py:perturbE_driver","UT2/tamps.py:set_tampsSLOW","UT2/tamps.py:get_oldvec"])
p("DriveCC stops moving exactly at solutions",
  "A DriveCC step leaves the amplitudes unchanged exactly when all residuals of the method vanish; for CCSD and CCD labels exactly when the projections of the connected part of H exp(T)|0> on singly and doubly excited determinants vanish.",
  "all orbital counts, integrals with non-zero orbital-energy differences, and antisymmetric amplitudes",
  "For-all over real tensors of any size.",
  ["UT2/test.py:DriveCC.kernel","UT2/cc_eqns.py:cceqns_driver"])
p("DriveCC runs from closed- and open-shell SCF results",
  "DriveCC can be started from an RHF or UHF result with any numbers of electrons, with frozen core orbitals and any label. (True for closed shells: the set-up succeeds and holds the antisymmetrised integrals over the kept spin orbitals in order of energy. Found false otherwise: RHF with a frozen core, UHF with different numbers of alpha and beta electrons, and labels without a D always raise.)",
  "all SCF results, labels and settings",
  "For-all over inputs.",
  ["UT2/test.py:SetupCC","UT2/set_denoms.py"])
p("DriveCC reports the energies it names",
  "totalCorrE is the correlation energy of the final amplitudes and totalE is SCF energy plus correlation energy. (The first holds when the SCF energy is nuclear repulsion plus the reference energy of the kept orbitals, and is found false with a frozen core; the second is found false: nuclear repulsion is missing.)",
  "all runs that return",
  "For-all over trajectories.",
  ["UT2/test.py:DriveCC.kernel","UT2/test.py:DriveCC.finalizeCC"])
p("DriveCC labels with quadruples include quadruples",
  "A run with a label that names quadruples (CCDQ, CCSDQ, CCSDTQ) solves for them. (Found false for every label containing CCSD: T4 is allocated and is zero at the end of every run.)",
  "all runs that return",
  "For-all over trajectories.",
  ["UT2/test.py:DriveCC","UT2/cc_eqns.py:cceqns_driver"])
p("DriveCC and the class-based driver run the same CCD",
  "From one closed-shell SCF result, with the same threshold and iteration limit and without DIIS, whenever a DriveCC run for CCD returns, the spin-orbital CCD run of the class-based driver returns the same correlation energy, the same total energy up to the nuclear repulsion (which DriveCC leaves out), and the same amplitudes in the other index order. When DriveCC raises because it did not converge, the class-based driver returns.",
  "all SCF results with non-zero orbital-energy differences, thresholds, limits up to 76 passes",
  "For-all over trajectories of two programs.",
  ["UT2/test.py:DriveCC.kernel","UT2/kernel.py:UltT2CC.kernel","UT2/run_ccd.py:convertSCFinfo_tmpslow"])
p("The [T] correction of DriveCC is the [T] energy",
  "For a label with '(qf)' and without a T (CCD(qf), CCSD(qf)), the number printed as [T] correction is 0.999999999 times the [T] energy of the final doubles: T3 is the antisymmetrised product of <||> and T2 over orbital-energy differences, contracted with <||> and T2. (The factor is the code's 0.111111111 for 1/9.)",
  "all orbital counts, integrals with non-zero orbital-energy differences, and runs that return",
  "For-all over trajectories and real tensors of any size.",
  ["UT2/cc_energy.py:perturbE_driver","UT2/cc_energy.py:build_approxT3","UT2/test.py:DriveCC.finalizeCC"])
p("CCSDT and CCDQ residuals are the projected Schroedinger equation",
  "For every number of orbitals, integrals and antisymmetric amplitudes, the CCSDT singles, doubles and triples residuals and its energy are the matrix elements <Phi_i^a|, <Phi_ij^ab|, <Phi_ijk^abc| and <Phi| of exp(-T) H exp(T)|Phi> with T = T1+T2+T3, and the CCDQ doubles and quadruples residuals and energy those with T = T2+T4. Printed decimals such as 0.0277777777 stand for fractions: with the fractions the identity is exact, as coded the triples differ from the matrix elements by at most 2.5e-7 N^4 M^4 and the quadruples by at most 2.5e-6 N^4 M^3 (N spin orbitals, arrays bounded by M).",
  "all orbital counts, Fock matrices, antisymmetrised integrals and antisymmetric amplitudes, all indices",
  "For-all over real tensors of any size; the reference is an operator identity in a many-particle space.",
  ["UT2/ccsdt_eqns.py:ccsdt_t1eqns","UT2/ccsdt_eqns.py:ccsdt_t2eqns","UT2/ccsdt_eqns.py:ccsdt_t3eqns","UT2/ccdq_eqns.py:ccdq_t2eqns","UT2/ccdq_eqns.py:ccdq_t4eqns","UT2/cc_energy.py:spinorbitalCCSDE_T1","UT2/cc_energy.py:spinorbitalCCSDE_noT1"])
p("The spin-integrated equations are spin blocks of the projected Schroedinger equation",
  "For every closed-shell Hamiltonian and spin-conserving amplitudes given by their spin blocks, what the spin-integrated CCD, CCSDT and CCDQ residual routines return are the spin blocks of the matrix elements of exp(-T) H exp(T)|Phi> over all spin orbitals, and the spin-integrated CCD energy is <Phi|exp(-T) H exp(T)|Phi>. For the triples and quadruples routines the printed decimals are read as the fractions they stand for.",
  "all numbers of orbitals, placements of the two spins, spin-conserving Hamiltonians and antisymmetric spin-conserving amplitudes",
  "For-all over real tensors of any size; the reference is an operator identity in a many-particle space.",
  ["UT2/t2residEqns.py:ccd_t2_aaaa_residual","UT2/fullCCresidEqns.py:ccsdt_t3_aaaaaa_residual","UT2/ccdq_resids.py:ccdq_t4_aaaaaaaa_residual","UT2/t2energy.py:ccd_energy_with_spin"])
p("Perturbative triples and quadruples are matrix elements of commutators",
  "For every Hamiltonian and antisymmetric amplitudes: the approximate triples returned by the spin-orbital and spin-integrated builders are the projections of [H,T2]|Phi> onto the triply excited determinants; the approximate quadruples of the full-CC (Qf) correction are the projections of (1/2 [[H,T2],T2] + [H,T3])|Phi> and 1/6 [[[H,T2],T2],T2]|Phi>; the CCDQf-1 and CCDQf-2 terms are the projections onto doubly excited determinants of L2 times 1/2 [[H,T2],T2]|Phi> and 1/6 [[[H,T2],T2],T2]|Phi>; the (Qf) energy is <Phi|L2 L2 1/2 [[H,T2],T2]|Phi> and the [T] energy is <Phi|L2 [W,T3]|Phi>, with W the two-electron part of H.",
  "all numbers of orbitals, Hamiltonians, antisymmetric amplitudes and (for the spin-integrated routines) placements of the two spins",
  "For-all over real tensors of any size; the reference is an operator expression in a many-particle space.",
  ["UT2/pdagq_T3corr.py:build_T3","UT2/cc_energy.py:build_approxT3","UT2/build_approxT3full.py:ccsdtq_t3_aaaaaa_residual","UT2/fullCCenergy.py:ccsdtq_t4_aaaaaaaa_residual","UT2/modify_T2resid_T4Qf1Slow.py:residQf1_aaaa","UT2/modify_T2resid_T4Qf2Slow.py:residQf2_aaaa","UT2/modify_T2energy_pertQfSlow.py:energy_pertQf","UT2/square_brakT_corr.py:square_brakT"])
p("The stand-alone CCD driver returns converged energies of the similarity-transformed Hamiltonian",
  "run_ccd_SOslow.ccd_main, called with a closed-shell SCF result in restricted or unrestricted form, returns only after a pass (at most the 75th) that changed the energy by less than 1e-12. For every label the arrays before and after that pass are the spin blocks of antisymmetric spin-conserving amplitudes of the spin-orbital Hamiltonian of the same SCF result, whose energies are <Phi|e^-T2 H e^T2|Phi>; the first number returned is the nuclear repulsion plus the last energy, for CCD(Qf) plus <Phi|L L 1/2 [[H,T],T]|Phi> at the amplitudes before the last pass. A pass leaves the CCD amplitudes unchanged exactly when all doubles projections of e^-T2 H e^T2|Phi> vanish. The loop agrees with the older loop in run_ccd. The documented second result, the correlation energy, is not returned (it is the total energy again). With different numbers of alpha and beta electrons the driver raises.",
  "all integrals, coefficients, orbital energies with an energy gap, labels, DIIS solvers, histories of passes",
  "Quantifies over every SCF result and every number of passes; the energy refers to an operator exponential in Fock space.",
  ["UT2/run_ccd_SOslow.py:ccd_main","UT2/run_ccd_SOslow.py:ccd_kernel","UT2/run_ccd_SOslow.py:convertSCFinfo","UT2/run_ccd_SOslow.py:generalUHF","UT2/run_ccd.py:ccd_kernel"])
p("The perturbative correction of the full CC energy routine is a fifth-order matrix element",
  "fullCCenergy.fullCC_energyMain called with get_perturbCorr=True on spin-integrated amplitudes that are the spin blocks of antisymmetric amplitudes of a closed-shell Hamiltonian returns 1/2 <Phi|K2 L2 Q|Phi>: K2 holds the adjoint first-order doubles <ab||ij>/(ei+ej-ea-eb), L2 the adjoint of the stored T2 (whatever l2 arrays it was handed), Q = 1/2 [[H,T2],T2] + [H,T3], to which the starred labels CCSDT(Qf*) and CCD(Qf*) add 1/6 [[[H,T2],T2],T2]. For CCSD(Qf) the T3 are <Phi_ijk^abc|[H,T2]|Phi> over the orbital gap, and the [T] energy printed is <Phi|L2 [W,T3]|Phi>.",
  "all numbers of orbitals, antisymmetric spin-conserving integrals and amplitudes, orbital energies, labels, l2 arrays",
  "Relates array programs of arbitrary size to commutators of operators in Fock space.",
  ["UT2/fullCCenergy.py:fullCC_energyMain","UT2/fullCCenergy.py:energy_pertQf","UT2/build_approxT3full.py:ccsdtq_t3_aaaaaa_residual","UT2/square_brakT_corr.py:square_brakT"])
p("The XCCD(n) corrections are projections of the adjoint cluster operator on commutators",
  "For antisymmetric integrals and doubles amplitudes, with L2 the adjoint of T2, the array that the order-5 correction adds to the CCD residual is 1/2 <Phi_ij^ab|L2 Q|Phi> with Q = 1/2 [[H,T2],T2], the order-6 array is 1/2 <Phi_ij^ab|L2 C|Phi> with C = 1/6 [[[H,T2],T2],T2], and the file written with order 5 holds <Phi_ijkl^abcd|Q|Phi>. The order-7 array is 1/6 <Phi_ij^ab|L2 [[L2,T2],Q4]|Phi>, Q4 holding the amplitudes read from the file: exactly if the decimal coefficients are read as the fractions they abbreviate, and within 1e-7 N^8 M^4 for the coefficients as written (N orbitals, entries bounded by M). The order-8 array is 1/6 <Phi_ij^ab|L2 L2 1/24 [[[[H,T2],T2],T2],T2]|Phi>. The order-9 array is 1/6 <Phi_ij^ab|L2 L2 (1/2 [[[L2,T2],T2],Q4] + 1/2 [[L2,Q4],Q4])|Phi>, with the fractions exactly and as written within 3e-6 N^12 M^6. So with the label XCCD(n), n = 5..9, the energy is <Phi|exp(-T2) H exp(T2)|Phi> + <Phi|L2|chi_n> and one pass adds D (<Phi_ij^ab|exp(-T2) H exp(T2)|Phi> + <Phi_ij^ab|chi_n>) to the amplitudes, for one and the same state chi_n, the sum of the states of the orders 5..n: exactly for n = 5 and 6, within the rounding error of the coefficients from n = 7 on, and whatever file an earlier calculation left in the working directory.",
  "all numbers of orbitals, all Fock matrices, antisymmetric integrals and amplitudes, contents of the file, denominators",
  "Relates array programs of arbitrary size with hundreds of contractions to commutators of operators in Fock space.",
  ["UT2/XCCDbasebuilder.py:build_XCCDbase","UT2/XCCDbasebuilder.py:get_xcc7residual","UT2/t2energySlow.py:ccd_energyMain","UT2/t2residEqnsSlow.py:residMain"])
p("Rotating occupied orbitals among themselves and virtual orbitals among themselves changes no energy",
  "Let the integrals and amplitudes be transformed by an orthogonal matrix among the occupied and another among the virtual spin orbitals (reordering orbitals and changing their signs are special cases). Then every spin-orbital residual (CCD, LCCD, CCDQf-1, CCDQf-2, CCSD, CCSDT, CCDQ) is the old residual transformed in the same way, every energy (CCD, (Qf), CCSD, CCSDT, CCDQ) is the same number, and the transformed arrays keep the symmetries of integrals and amplitudes; so solutions become solutions with the same energy. The same holds for the energies and passes of XCCD(5) to XCCD(9) with any non-zero denominators.",
  "all numbers of orbitals, orthogonal matrices, integrals, amplitudes, denominators, leftover files",
  "For-all over real tensors and rotations of any size.",
  ["UT2/t2residEqnsSlow.py:ccd_t2residual","UT2/t2residEqnsSlow.py:residMain","UT2/t2energySlow.py:ccdEnergy","UT2/t2energySlow.py:ccd_energyMain","UT2/modify_T2resid_T4Qf1Slow.py:residQf1_aaaa","UT2/modify_T2resid_T4Qf2Slow.py:residQf2_aaaa","UT2/modify_T2energy_pertQfSlow.py:energy_pertQf","UT2/cc_eqns.py:ccsd_t1resid","UT2/cc_eqns.py:ccsd_t2resid","UT2/ccsdt_eqns.py:ccsdt_t3eqns","UT2/ccdq_eqns.py:ccdq_t4eqns","UT2/cc_energy.py:spinorbitalCCSDE_T1","UT2/XCCDbasebuilder.py:build_XCCDbase"])
p("A calculation does not depend on which of the equivalent canonical orbitals it is given",
  "Two spin-orbital calculations on the same molecule, started from two sets of orbitals that differ by an orthogonal mixing of orbitals of equal energy (for canonical orbitals: by any orthogonal mixing within the occupied and within the virtual space, in particular by order and signs), end in the same way: both return, both exit or both raise; when they return, the two energies are the same and the returned amplitudes of one are those of the other, transformed to the other set of orbitals. This holds for every method label, with or without convergence acceleration, and whatever intermediate files earlier calculations left behind. The separate spin-orbital driver for CCD, CCSD, CCSDT and CCDQ behaves in the same way, with or without a file of first T2 amplitudes, and prints the same numbers.",
  "All orthogonal matrices between orbitals of equal energy, all numbers of orbitals, all real Hermitian integrals, all options (label, iteration limit, threshold, size of the DIIS space), all outcomes of the linear solver, all previous contents of the working directory.",
  "For-all over real integrals, rotations and whole iteration histories.",
  ["UT2/kernel.py:UltT2CC.kernel","UT2/kernel.py:UltT2CC.finalize","UT2/diis.py","UT2/t2residEqnsSlow.py:residMain","UT2/t2energySlow.py:ccd_energyMain","UT2/XCCDbasebuilder.py:build_XCCDbase","UT2/drive_ucc4.py:resid_main","UT2/drive_ucc4.py:ucc4_energy_simplified","UT2/test.py:DriveCC"])
p("A UCC(4) calculation solves the UCC(4) equations and returns the UCC(4) energy",
  "With W the fluctuation potential and F the Fock operator, one pass of UCC(4) from antisymmetric amplitudes adds to every amplitude the reciprocal orbital-energy difference times its residual: for singles the projection of F + [F,T1] + [W,T2], for triples the projection of [F,T3] + [W,T2], for doubles the projection of H + [H,T2] + 1/4 [[H,T2],T2] + [W,T1] + [W,T3] plus seven sums with the adjoint of T2. So a pass leaves the singles (doubles, triples) alone exactly when their equations hold. The energy routine returns, for every array of doubles, the CCD energy plus twice the sum of doubles times denominators times the terms with the adjoint. If a UCC(4) calculation returns, its total and correlation energies are that energy of the doubles it returns; and with 1 to 76 passes allowed it always returns, as long as the linear solver of the convergence acceleration finds solutions.",
  "all numbers of orbitals, all Fock matrices, antisymmetric integrals, amplitudes, orbital energies; for whole calculations all options, linear solvers and leftover files",
  "Relates array programs of arbitrary size to commutators of operators in Fock space, and whole iteration histories to a closed formula.",
  ["UT2/drive_ucc4.py:resid_main","UT2/drive_ucc4.py:ucc4_energy_simplified","UT2/drive_ucc4.py:t1_residEqns","UT2/drive_ucc4.py:t3_resid","UT2/drive_ucc4.py:offset_t2resid_t2squared","UT2/drive_ucc4.py:offset_t2resid_t2dag_w_t2","UT2/drive_ucc4.py:offset_t2resid_T1_T3","UT2/kernel.py:UltT2CC.kernel"])
p("A calculation with a supported label raises only if the linear solver of DIIS raises",
  "A spin-orbital calculation (options with ccdTypeSlow) for UCC(4), or for any other label that is not a (Qf) label, with DIIS off or keeping any positive number of vectors, at least one pass allowed and at least one occupied and one virtual orbital, never ends in an exception as long as the linear solver of DIIS finds a solution: it returns amplitudes and energies, or, if more than 76 passes were allowed, exits. With at most 76 passes it returns. A label with an X or with UT2 must contain a digit, and CCDQ may not be combined with DIIS. The same holds for closed-shell spin-integrated calculations (ccdType), including the (Qf) labels, if the label contains neither UT2 nor, with DIIS, CCDQ or UCC(4); and for full CC calculations (fullCCType) with the label CCDQ.",
  "all numbers of orbitals, Fock matrices, antisymmetric integrals, orbital energies (also with vanishing differences), thresholds, DIIS settings, answers of the linear solver, leftover files",
  "An exception in some late pass depends on shapes and keys of all earlier passes; tests run a few molecules for a few passes.",
  ["UT2/kernel.py:UltT2CC.kernel","UT2/kernel.py:UltT2CC.finalize","UT2/diis.py","UT2/t2residEqnsSlow.py:residMain","UT2/t2energySlow.py:ccd_energyMain","UT2/XCCDbasebuilder.py:build_XCCDbase","UT2/drive_ucc4.py:resid_main"])
p("With DIIS, a pass leaves the best combination of the recent passes",
  "In a calculation with DIIS over n vectors that starts at pass s, pass k leaves exactly the amplitudes that the residual routine made if k is at most s. For a later k, with m the smaller of n and k - s, it leaves a weighted sum of the amplitudes that the residual routine made in the passes k-m+1 to k. The weights sum to one and, among all weights that do, give the smallest norm of the equally weighted sum of the changes those passes made, where the change of a pass is measured from the amplitudes left by the pass before it (the first one: from zero amplitudes, also in spin-orbital calculations, which start from first-order amplitudes). The shapes of the arrays are kept, and arrays that are not amplitudes of the method are left as the residual routine made them. This holds for spin-orbital, spin-integrated and full CC calculations.",
  "all integrals, residual and energy routines, numbers of kept vectors, start passes, numbers of passes; every exact linear solver",
  "The combination made in pass k depends on all retained earlier passes; tests run a few molecules for a few passes.",
  ["UT2/kernel.py:UltT2CC.kernel","UT2/kernel.py:UltT2CC.__init__","UT2/diis.py:DIIS.compute_new_vec","UT2/diis.py:DIIS.get_bmat"])
p("The interleaved conversion makes the same integrals as the driver's",
  "The second conversion of a closed-shell SCF result to spin orbitals stores, at positions 2p and 2p+1, the alpha and beta copy of spatial orbital p: the antisymmetrised integral of any four of them, the closed-shell Fock matrix in the orbital basis between equal spins and zero between different spins, and every orbital energy twice. For canonical orbitals sorted by energy this is a possible result of the energy sort in the driver's conversion, and the two conversions then store the same Fock matrix, integrals and energies.",
  "all numbers of orbitals and electrons, integrals with the symmetry of real orbitals, coefficients, core Hamiltonians",
  "The claim equates arrays filled by nested loops with transformed integrals for every size and content; tests compare a few molecules.",
  ["UT2/run_ccd.py:convertSCFinfo_slow","UT2/run_ccd.py:spinorb_from_spatial","UT2/run_ccd.py:convertSCFinfo_tmpslow"])
p("The order of spin orbitals of equal energy does not matter",
  "The conversion sorts alpha and beta orbitals together by energy, with a sort that does not fix the order of equal energies; in a closed-shell molecule every energy occurs twice. If the highest occupied and lowest virtual energies differ, then for any two admissible orders the same energies are stored, and a spin-orbital calculation with any label ends the same way for both: it returns the same energies and the same amplitudes with the orbitals renumbered, or exits, or raises. The same holds between the driver's conversion and the interleaved one, and for closed-shell DriveCC runs, also with frozen orbitals if the highest frozen and lowest kept energies differ.",
  "all integrals, coefficients, orbital energies with a gap, admissible sort orders, method labels, settings, answers of the linear solver and leftover files",
  "The sort order of equal energies depends on the platform and on rounding; a test sees one order.",
  ["UT2/run_ccd.py:convertSCFinfo_tmpslow","UT2/run_ccd.py:convertSCFinfo_slow","UT2/kernel.py:UltT2CC.kernel","UT2/test.py:SetupCC.get_integrals","UT2/test.py:DriveCC.kernel"])
p("The perturbation energies printed by the method wicked_parT",
  "The method wicked_parT prints energies and then stops. Its 'full MP2 energy' is the second-order energy, a quarter of the sum of <ij||ab>^2 over e_i+e_j-e_a-e_b. Its 'off Diag MP2 energy' is that sum without the terms in which i, j are neighbouring occupied and a, b neighbouring virtual spin orbitals. Its 'full MP3 energy' is minus the third-order energy (particle-particle, hole-hole and particle-hole ladders between first-order amplitudes), and its 'off diag MP3 energy' is minus the same sum with the neighbouring amplitudes left out on one side. So the third-order energy is printed with the wrong sign, and the off-diagonal number leaves out more than the pair amplitudes: the neighbours 1, 2 belong to different orbitals. The five numbers printed after that are the second-order energy expression (a quarter of the sum of <ij||ab> times doubles) of these doubles, each divided by its energy difference: the linear CCD terms of the amplitudes held (printed with a minus sign), the same without neighbours, the terms linear in the singles held, the same without neighbours, and the quadratic CCD terms of the first-order amplitudes without neighbours.",
  "all numbers of occupied and virtual spin orbitals, antisymmetric integrals, orbital energies, antisymmetric amplitudes",
  "The numbers are sums over arrays of any size, and the sign and the set of amplitudes left out can only be compared with a formula.",
  ["UT2/amphandler.py:AmpHandler.run_wickedTest","UT2/wicked_T3corr.py:antisym_T2"])
p("The pair corrections printed by the method wicked_parT",
  "Before the perturbation energies of C74, wicked_parT prints reports on pair amplitudes. For doubles t it prints their energy E (a quarter of the sum of <ij||ab> t), a 'diagonal portion' S, the energy without the amplitudes t_{i,i+1,a,a+1}, and E - S. S is a quarter of the sum of t_{i,i+1,a,a+1} times the integral over the spin orbitals numbered a, a+1, i, i+1 from the start of the list, not over the virtual ones, so that the last two numbers, which should agree, can differ. The first report is on the first-order amplitudes. The second is on the negative of the second-order amplitudes made from the first-order ones without t_{i,i+1,a,a+1}, because the first report has set these to zero in the caller's array. The singles report prints a quarter of the sum of r_ijab^2 over e_i+e_j-e_a-e_b, with r the terms linear in the singles, the part of it with j=i+1 and b=a+1, their difference, and the sum of the three corrections.",
  "all numbers of occupied and virtual spin orbitals, antisymmetric integrals, orbital energies, singles",
  "The effect of an array changed by a call on later numbers, and of an index that is not shifted, shows only in a formula for every array.",
  ["UT2/amphandler.py:AmpHandler.run_wickedTest","UT2/wicked_T3corr.py:antisym_T2"])
p("The unitary CCD check prints consistent energies",
  "The method checkUCCD prints energies and then stops. For antisymmetric doubles t the diagrams A and B are equal, both a quarter of the sum of <ij||ab> t; diagram C is the sum of the particle-particle, hole-hole and particle-hole ladders between t and t; the Fock part is half the sum of f_ab t_ijac t_ijbc minus half the sum of f_ij t_ikab t_jkab; the total is A + B + C without the Fock part; and the number found through the doubles residual is the same as diagram C.",
  "all numbers of occupied and virtual spin orbitals, Fock matrices, antisymmetric integrals and amplitudes",
  "Two different contraction routes have to agree for arrays of every size and content.",
  ["UT2/amphandler.py:AmpHandler.run_UCCDcheck","UT2/wicked_T3corr.py:antisym_T2"])
p("The wicked triples routine returns the [T] energy",
  "wicked_main, given antisymmetric integrals, doubles and orbital-energy denominators, does not raise and returns 0.999999999 times the [T] energy of the doubles: the triples are the antisymmetrised product of <||> and T2 over the orbital-energy differences, contracted with <||> and T2 (the factor is the code's 0.111111111 for 1/9). The number printed as '2e cap is' is four times the same with the triples of the first-order doubles. getE_squareBrackT, the direct route, returns the [T] energy of the triples it is given without that factor.",
  "all numbers of occupied and virtual spin orbitals, antisymmetric integrals, orbital energies and antisymmetric amplitudes",
  "Two different contraction routes have to agree for arrays of every size and content.",
  ["UT2/wicked_T3corr.py:wicked_main","UT2/wicked_T3corr.py:build_T3_resids","UT2/wicked_T3corr.py:get_fourthOrder","UT2/wicked_T3corr.py:getE_squareBrackT"])
p("The wicked sources are projections of commutators with the fluctuation potential",
  "With W the fluctuation potential (the Hamiltonian without its Fock operator) and T1, T2, T3 the cluster operators of antisymmetric amplitudes: get_netT1_fromT2 returns the singles projection of [W,T2]; antisym_T2 of get_T2resid_fromT1bar and of build_netT2 returns the doubles projections of [W,T1] and [W,T3]; antisym_T3 of build_T3_secondO and of build_T3_thirdO returns the triples projections of [W,T2] and of half of [[W,T2],T2]; getE_parenT_t1 returns the sum of t1 times the singles projection of [W,T3]; get_netT1_thirdO returns the singles projection of the adjoint of T2 times [W,T2]; fifthOrder_capA returns the triples projection of [[W,T2],T2]; fifthOrder_capC returns the antisymmetrised product of a quarter of t2 and the singles projection of [W,T2].",
  "all numbers of occupied and virtual spin orbitals, antisymmetric integrals and antisymmetric amplitudes",
  "The generated contractions have to equal matrix elements between Slater determinants for arrays of every size and content.",
  ["UT2/wicked_T3corr.py:get_netT1_fromT2","UT2/wicked_T3corr.py:get_T2resid_fromT1bar","UT2/wicked_T3corr.py:build_netT2","UT2/wicked_T3corr.py:build_T3_secondO","UT2/wicked_T3corr.py:build_T3_thirdO","UT2/wicked_T3corr.py:getE_parenT_t1","UT2/wicked_T3corr.py:get_netT1_thirdO","UT2/wicked_T3corr.py:fifthOrder_capA","UT2/wicked_T3corr.py:fifthOrder_capC","UT2/wicked_T3corr.py:antisym_T2","UT2/wicked_T3corr.py:antisym_T3"])
p("The triples energies of wicked_main as matrix elements",
  "wicked_main, given antisymmetric integrals, doubles t2 and l2 and orbital-energy denominators, prints after its first four numbers three pairs: 0.111111111 times the sum over triple excitations, each divided by its orbital-energy difference, of the projections of [W,T2] and [[W,L2],L2], and minus an eighth of it; the same for the projections of half of [[W,T2],T2] and of [W,T2], and a quarter of it; the same for the projection of [W,T2] and the antisymmetrised product of a quarter of l2 and the singles projection of [W,L2], and a quarter of it. It returns 0.999999999 times the expectation value of the adjoint of T2 times [W,T3] in the reference, where the triples are the projections of [W,T2] over the orbital-energy differences; getE_squareBrackT returns this expectation value for any triples.",
  "all numbers of occupied and virtual spin orbitals, antisymmetric integrals, orbital energies and antisymmetric amplitudes",
  "The printed sums have to equal sums of matrix elements between Slater determinants for arrays of every size and content.",
  ["UT2/wicked_T3corr.py:wicked_main","UT2/wicked_T3corr.py:get_fifthOrder","UT2/wicked_T3corr.py:fifthOrder_capA","UT2/wicked_T3corr.py:fifthOrder_capC","UT2/wicked_T3corr.py:contractE"])
open('/verif/properties.jsonl','w').write(''.join(json.dumps(x)+'\n' for x in P))
print(len(P))
