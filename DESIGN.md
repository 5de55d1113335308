# Formal model of zww-4855/ut2 in Rocq/Coq 8.16

## 1. What the code is and how it is modelled

UT2 is a coupled-cluster quantum chemistry package.  Nearly all of its 39k lines are straight-line
programs made of `einsum` calls over arrays (integrals, Fock matrix, amplitudes); the rest is driver
logic (option handling, iteration loop, DIIS, vectorisation, denominators, string parsing, readers).

* **Mini-numpy** (`theories/Tensor.v`, `theories/Interp.v`).  A deep embedding of the numpy fragment
  the equation files use: `einsum` with its spec *string*, slicing with occupied/virtual slices,
  `.transpose`, scaling, `+`, `-`, elementwise `*`, dictionary lookup, `+=`/`-=`, calls of the
  antisymmetrisers.  The interpreter checks shapes and returns `None` where Python raises.
* **Transcribed programs** (`theories/Code_*.v`).  Each straight-line function of /repo is transcribed
  statement by statement by `tools/transcribe.py` (an AST printer, no interpretation: spec strings,
  literals, slices, operand order are copied), with a `file:line` citation on every statement.
* **Symbolic layer** (`theories/Poly.v`, `SymExec.v`, `Canon.v`).  A symbolic executor turns a program into a
  sum of contraction terms; a canonicaliser renames summation indices, sorts by the declared index
  symmetries and collects coefficients.  Both are proved sound against the interpreter, so that
  `vm_compute` on the program text proves an equality *for all orbital counts and all arrays*.
* **Drivers** as ordinary Gallina functions, exceptions as values (`option`), files and shared objects as explicit state:
  `SlowCC.v` (spin-orbital `residMain`/`ccd_energyMain`, XCCD/UCC corrections, the scratch pickle), `FullCC.v` (spin-integrated full-CC driver), `SpinCC.v` and
  `SpinLink.v` (spin-integrated `residMain`/`ccd_energyMain`), `Kernel.v` (`UltT2CC.kernel`, `finalize`, `get_calc`), `Diis.v`
  (`diis.py`, `get_oldvec`, (un)packing), `Denoms.v` (denominators), `Legacy.v` (`run_ccd.ccd_kernel`), `Options.v` (`ccd_main`
  option handling, `StoredInfo` objects on a heap, `extract_integer`), `Ints.v` (`convertSCFinfo*`, `generalUHF`,
  `spin_block_tei`, sorting of orbital energies).
* **Specifications**, which do not mention the code model: `Spec.v` (what an antisymmetric spin-conserving array is, spin
  blocks, spin-orbital integrals, explicit textbook formulas), `SpecDriver.v` (what one iteration of a method is), `Fock.v`
  (second quantisation: determinants, creation and annihilation operators, the Hamiltonian, cluster operators, exp(-T) H exp(T)).
* **Wick's theorem** (`Wick.v`, `CCState.v`): proved against `Fock.v`; turns a projected matrix element into the same kind of
  polynomial the symbolic executor produces, so that the code can be compared with the Schroedinger equation. `Dress.v`,
  `Commut.v`, `NOrd.v`, `Proj.v`, `Elem.v`: similarity transformation, commutators and normal ordering computed inside Coq.

Scalars are exact rationals `Qc`: every float literal is transcribed as the exact decimal fraction in
the source.  Floating-point rounding is **not** modelled.

## 2. Plan per property

| id | modelled | proof |
|----|----------|-------|
| C01 | ccd_t2residual, residMain update | symbolic antisymmetry + induction on iterations |
| C02,C03 | wicked/pdaggerq residual programs | canonical form of the difference is empty |
| C04-C06,C08(T2),C11,C12,C15-C18 | spin-orbital and spin-integrated programs | index splitting alpha/beta + spin selection + canonical form |
| C07,C08(T4),C13(WnT2T3) | same | difference polynomial has only tiny coefficients: explicit error bound |
| C09,C10,C13 | factorised vs T4 route | canonical form |
| C14 | both routes | refutation plus exact characterisation |
| C19 | CCD, LCCD, Qf, CCSD, CCSDT and CCDQ residuals and energies (transcribed) on a system of two fragments | SpecFrag.v states what a whole-system array made of fragment arrays is (any sizes, any interleaving of orbitals); Frag.v splits every summation over the fragments, drops factors that couple them, and compares polynomials; antisymmetrisers are shown to keep arrays assembled (FragTabs.v); the union of fragment solutions is a solution (P_frag.v); for XCCD(5) to XCCD(9) every term of a correction is checked to be connected (FragConn.v), so that crossing entries vanish, and the parts are compared as before (P_frag2.v) |
| C20 | CCD minus offset | symbolic |
| C21 | antisymmetrisers | canonical form without symmetry assumptions |
| C22 | residMain pCCD branch | from C01 |
| C23 | spin-integrated programs on open-shell sizes | counterexample by computation |
| C24 | aaaa, bbbb, abab (etc.) programs on the spin blocks and on the spin-exchanged blocks | corollary of C04, C06-C08, C11 for the exchanged spin map; renumbering of electrons by antisymmetry |
| C25 | get_denoms, set_denoms | pointwise field reasoning, induction on nothing; counterexample for mixed spin |
| C26 | residMain update | field reasoning |
| C27,C28 | diis.py | linear algebra over Qc, list invariants |
| C29 | vectorisation/flatten/reshape | list induction |
| C30,C31 | iteration loops as state machines with an oracle for residual and energy | invariant; counterexample |
| C32 | finalize | field; counterexample |
| C33-C35 | ccd_main, get_calc, extract_integer | case analysis, string induction; counterexamples |
| C36 | StoredInfo default-argument aliasing as a heap | counterexample + characterisation |
| C37 | spin_block_tei, transforms | sums over Qc |
| C38 | xacc reader (Xacc.v), file format (SpecXacc.v) | induction over file lines; operators compared in Fock space |
| C39 | CCD residual/energy at T2=0 | symbolic |
| C40 | fullCC residMain and the iteration that uses it (FullCC.v) | the driver reads unassigned variables for every label but CCDQ: refuted on all inputs; for CCDQ, symbolic execution shows that every call succeeds for all sizes, then the update formula, the fixed points and totality of runs without DIIS |
| C41 | xccd_6 | symbolic |
| C42 | Fock space, second-quantised H, T1, T2, ...; residual and energy programs | Wick's theorem, proved, then canonical form |
| C43,C44 | finalize and the pertCorr step of the kernel | trajectory invariant; counterexample |
| C45 | scratch pickle as state | non-interference by induction on passes |
| C46,C47 | both routes' loops | simulation by induction on passes, using C04/C05 |
| C48-C50 | legacy loop | simulation with the class-based kernel; invariants |
| C51 | integral conversions of both routes | sums over Qc, sorted permutations |
| C53 | amphandler, pdagq_T3corr, pertCorr branch of ccd_main (Xacc.v) | case analysis; symbolic |
| C54-C58 | SetupCC and DriveCC of test.py, cceqns_driver, ccenergy_driver, perturbE_driver, set_tampsSLOW, get_oldvec (Drive.v) | every call shown to succeed for all sizes (symbolic execution); the sequence of amplitudes by induction on passes; fixed points linked to Fock space through C42; open shells by shape mismatch; frozen core by an instance |
| C59 | both drivers | simulation by induction on passes, using C02 |
| C60 | the [T] number of perturbE_driver | C54 pins T3; symbolic identity between the contraction of the numerator and the [T] energy formula |
| C61 | Fock space with triples and quadruples (Fock.v); CCSDT and CCDQ routines | H similarity-transformed operator by operator and normal ordered inside Coq (Dress.v, NOrd.v, proved); the result read off as a tensor polynomial; an array is determined by its contractions with antisymmetric arrays (Proj.v), so the comparison is one closed polynomial identity per routine; error bounds by `so_close` |
| C62 | spin-integrated CCD, CCSDT, CCDQ routines and Fock.v | C04, C05, C07, C08 (spin blocks of the spin-orbital routines) composed with C43/C61 (spin-orbital routines are matrix elements) |
| C63 | approximate triples and quadruples, (Qf) and [T] routines; commutators and the de-excitation L2 in Fock.v | commutators of operator strings computed letter by letter and normal ordered inside Coq (Commut.v, proved); the result compared with the numerators of C09, C10, C15, C17 |
| C64 | run_ccd_SOslow.py as a whole (SOMain.v): conversion of the SCF result, denominators, loop, returned numbers; linalg.eig is a parameter | the loop is shown equal to the older loop of C31; invariant over the passes (spin blocks of one antisymmetric T2) through DIIS; integrals by C51, energies by C62 and C63 |
| C65 | fullCCenergy.py:9-160 with get_perturbCorr=True (full_pert in FullCC.v) and the transcribed routines it calls | spin summation of each call by SpinLink, then the spin-orbital numerators are commutators by C62 and C63 |
| C66 | the transcribed builders of XCCDbasebuilder.py for orders 5 to 9, and the XCCD branches of SlowCC.v | each builder is cut at its antisymmetriser (Cut.v); the array before it is compared with the projection of the commutator by the canonicaliser; the contraction after it is the de-excitation operator; the bounds for orders 7 and 9 by Bound.v. For orders 8 and 9 the product of two de-excitation operators is contracted letter by letter, like terms being merged on the way (OpMerge.v: the remaining operator string is one more antisymmetric atom for the canonicaliser) |
| C67 | the transcribed residual and energy routines, the XCCD builders and the XCCD branches of SlowCC.v; orthogonal matrices among occupied and among virtual orbitals (SpecRot.v) | a syntactic check on the symbolic result (Rot.v, proved sound): every summed variable occurs exactly twice, in one space, and every free index exactly once per term; rotating each array then cancels on the summed variables by orthogonality. Antisymmetrisers are cut out (Cut.v) and checked on their own |
| C68 | the kernel with its DIIS block (Kernel.v, Diis.v) run with the spin-orbital routines (SlowCC.v) | two runs are related step by step (RelRun.v, for any relation on amplitudes that is kept by linear combinations and keeps inner products): residuals and energies by C67, denominators because equal energies are mixed only with each other, the B matrix of DIIS because inner products are kept. P_rot3.v proves that canonical orbitals meet the hypothesis on energies. P_rot4.v does the same for DriveCC of test.py (Drive.v), and P_rot5.v for the numbers it prints, where the elementwise products with the denominators are read as one array |
| C69 | ucc4_resid and ucc4_energy of SlowCC.v, the functions of Code_drive_ucc4.v, whole runs of the kernel | P_ucc4.v (returning: P_total.v): the commutators are normal ordered by Commut.v/Wick.v into tensor polynomials and compared with the symbolic runs; the terms with the adjoint and the energy are compared with explicit sums for arrays without any symmetry; whole runs through C30_kernel_return, the shapes of iterates through C67/C68 with the identity rotation |
| C70 | whole runs of the kernel with the spin-orbital routines of SlowCC.v and the DIIS of Diis.v | Total.v: DIIS and the loop succeed on arrays of constant shapes; P_total.v: every pass keeps antisymmetric amplitudes (for UCC(4): the shapes) and the keys that DIIS needs, by induction over the passes; P_total2.v: the same for fast_kernel (iterates are spin blocks of antisymmetric amplitudes, C47), P_total3.v: for full_kernel with CCDQ (shapes, C40) |
| C71 | the loop and DIIS block of Kernel.v and Diis.v, for any residual and energy routine, and the three kinds of run | P_diisrun.v: cutting a vector into arrays and joining them again is the identity; the DIIS object after k passes is the one after k calls on the vectors and changes of the passes, by induction over the passes; then C27 and C28 |
| C72 | SpinOrb.v: `convertSCFinfo_slow` (closed-shell branch), `spinorb_from_spatial`: the assignments of the nested loops, in their order | P_ints3.v: which assignment is the last at an index; sums over Qc; the interleaved order is an argsort |
| C73 | Ints.v, SpinOrb.v, SlowCC.v, Drive.v | P_ties.v, P_ties2.v: a sorted list of energies is unique; two argsorts differ by a renumbering that keeps occupied and virtual orbitals apart; then C68 for renumberings |
| C74 | Wicked.v: local functions of `run_wickedTest` and the statements that print energies | P_wicked.v: symbolic comparison for antisymmetric amplitudes; the writes of the loops as in C72; a computed counterexample for the intended numbers |
| C75 | Wicked.v: `determine_pCCD_correction`, with the array it changes, and the statements that call it | P_wicked.v: as C74, for arrays without symmetry; a computed counterexample |
| C76 | Wicked.v: `run_UCCDcheck` | P_wicked2.v: symbolic comparison; P_wicked3.v: A, B and C are the matrix elements of [W, T2], T2^+ W and T2^+ [W, T2] in the reference, C with the Fock part that of T2^+ [H, T2] |
| C77 | WickedT3.v: `wicked_main` of wicked_T3corr.py with the transcribed functions it calls | P_wicked4.v: symbolic comparison of the residual with <W T2>, then the [T] identity of C60 |
| C78 | the transcribed functions of wicked_T3corr.py | P_wicked5.v: symbolic comparison with the Wick expansion of the commutators on Fock space (P_ucc4.v) |
| C79 | WickedT3.v: `get_fifthOrder` inside `wicked_main` | P_wicked6.v: C77 and C78 combined, summand by summand |
| C52 | XCCDbasebuilder, corrections to energy and residual | symbolic, cut at the base arrays |

## 3. Not modelled

* Floating point rounding, overflow, NaN; numpy memory layout and performance; `einsum`'s size-1 broadcasting (the interpreter
  treats a mismatch of extents as an exception).
* pyscf itself: SCF energies, coefficients and AO integrals are arbitrary inputs (with the symmetry real orbitals give where a
  theorem says so).  Eigen- and linear solvers (`np.linalg.solve` in DIIS, `np.linalg.eig` in DiagCCD) are parameters: theorems
  hold for every solver, or for every solver that returns a solution.
* Printing, banners, timing, plotting.  `logging` has no effect on results.
* Code no driver reaches: `spinorb_from_UHFspatial` (run_ccd.py:1259-1301) and the unrestricted branch of `convertSCFinfo_slow` (857-941),
  `modifyAmps.py`,
  `xccd8_resid` and `xccd9_resid` of xccd_resid.py and of antisym_t4resids.py, the debugging functions of antisym_t4resids.py,
  `ccd_energyTest` and `mp2_energy` of xacc.py, `checksum` and `check_norms` of t2residEqnsSlow.py, `canvas` of ut2.py, and
  `run_otherCC.py`, which is not valid Python.
* The statements of amphandler.py that only a successful `sys.exit()` could be followed by (`sys` is not imported).

Simplifications local to one definition are stated in the comment of that definition.

## 4. Trusted base

* Coq 8.16.1's kernel, including its `vm_compute` reduction machine (the checker coqchk replays the proofs without it).
* `Print Assumptions` is issued after every property theorem in the `P_*.v` files.  Each answers "Closed under the global
  context": no axiom, neither of ours nor of the standard library, is used.  (A whole-library listing also shows the seven
  constants of `Coq.ssr.ssrunder`, which the standard library seals behind a module type; no theorem here depends on them.)
* That `tools/transcribe.py` prints what is in /repo.  Its output is plain text beside the line numbers of the source, so it
  can be read against the source; the script and its output are both committed, and it interprets nothing.
* The reading of Python and numpy in `Tensor.v`, `Interp.v`, `Numpy.v` and in the hand-written driver models, each definition of
  which cites the lines it models.
* The specifications `Spec.v`, `SpecDriver.v`, `SpecFrag.v`, `SpecXacc.v`, `SpecDrive.v`, `Fock.v` and the property theorems' statements.

Not trusted: the symbolic executor, the canonicaliser and its hints (lists that tell the canonicaliser which renaming to try;
wrong hints can only make a proof fail), the Wick expansion.  These are proved sound.

## 5. Reading guide

`properties.jsonl` has the claims, `MANIFEST.json` maps each to theorems in `theories/P_*.v`.  A name ending in `_refuted` proves
that the claim is false of the code as written, on an explicit input or for all inputs; the theorems listed beside it say what
holds instead.  `*_instance` examples show that hypotheses can be met.  `seeded/LOG.jsonl` records edits of the model made to
see whether the theorems notice; `tools/seed.py` and `seeded/*.py` rerun them.
