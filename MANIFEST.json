{
 "claims": [
  {
   "property": "C01",
   "status": "proved",
   "theorems": [
    "C01_every_iterate_antisymmetric",
    "C01_iterates_exist",
    "C01_returned_antisymmetric",
    "C01_generated_residuals_antisymmetric",
    "C01_ucc4_refuted"
   ],
   "note": "false for UCC(4), refuted by an instance"
  },
  {
   "property": "C02",
   "status": "proved",
   "theorems": [
    "C02_four_codings_of_ccd"
   ],
   "note": ""
  },
  {
   "property": "C03",
   "status": "proved",
   "theorems": [
    "C03_ccsdt_without_triples_is_ccsd"
   ],
   "note": ""
  },
  {
   "property": "C04",
   "status": "proved",
   "theorems": [
    "C04_spin_ccd_residual"
   ],
   "note": ""
  },
  {
   "property": "C05",
   "status": "proved",
   "theorems": [
    "C05_spin_ccd_energy"
   ],
   "note": ""
  },
  {
   "property": "C06",
   "status": "proved",
   "theorems": [
    "C06_spin_ccsdt_singles_doubles"
   ],
   "note": ""
  },
  {
   "property": "C07",
   "status": "proved",
   "theorems": [
    "C07_spin_ccsdt_triples_unrounded",
    "C07_spin_ccsdt_triples_bound"
   ],
   "note": "exact once the truncated literals are read as the fractions they abbreviate; as printed, up to the stated bound"
  },
  {
   "property": "C08",
   "status": "proved",
   "theorems": [
    "C08_spin_ccdq_doubles",
    "C08_spin_ccdq_quadruples_unrounded",
    "C08_spin_ccdq_quadruples_bound"
   ],
   "note": "quadruples exact once the truncated literals are read as the fractions they abbreviate; as printed, up to the stated bound"
  },
  {
   "property": "C09",
   "status": "proved",
   "theorems": [
    "C09_ccdqf1_is_the_T4_route"
   ],
   "note": ""
  },
  {
   "property": "C10",
   "status": "proved",
   "theorems": [
    "C10_ccdqf2_is_the_T4_route"
   ],
   "note": ""
  },
  {
   "property": "C11",
   "status": "proved",
   "theorems": [
    "C11_spin_ccdqf_residuals"
   ],
   "note": ""
  },
  {
   "property": "C12",
   "status": "proved",
   "theorems": [
    "C12_qf_energy_is_L2_residual",
    "C12_spin_qf_energy"
   ],
   "note": ""
  },
  {
   "property": "C13",
   "status": "proved",
   "theorems": [
    "C13_fast_route_is_T4_route",
    "C13_WnT2T3_routes"
   ],
   "note": "WnT3 routes differ by the factor 24*0.041666667 of a truncated literal, exactly as stated"
  },
  {
   "property": "C14",
   "status": "proved",
   "theorems": [
    "C14_WnT2cubed_routes_refuted",
    "C14_WnT2cubed_routes_differ_by_WnT2sqr"
   ],
   "note": "the claim is false of the code: refuted by an instance, difference characterised for all inputs"
  },
  {
   "property": "C15",
   "status": "proved",
   "theorems": [
    "C15_spin_quadruples_blocks"
   ],
   "note": ""
  },
  {
   "property": "C16",
   "status": "proved",
   "theorems": [
    "C16_spin_ccsd_energy",
    "C16_spin_qf_contraction",
    "C16_spinorbital_energies"
   ],
   "note": ""
  },
  {
   "property": "C17",
   "status": "proved",
   "theorems": [
    "C17_approximate_triples",
    "C17_spin_triples",
    "C17_square_bracket_T"
   ],
   "note": ""
  },
  {
   "property": "C18",
   "status": "proved",
   "theorems": [
    "C18_spin_modified_doubles"
   ],
   "note": ""
  },
  {
   "property": "C19",
   "status": "proved",
   "theorems": [
    "C19_ccd_size_consistent",
    "C19_ccd_fragment_solutions",
    "C19_qf_size_consistent",
    "C19_ccsdt_size_consistent",
    "C19_ccdq_size_consistent",
    "C19_xccd_size_consistent"
   ],
   "note": "also for LCCD, CCSD, CCSDT, CCDQ, the Qf corrections and XCCD(5) to XCCD(9)"
  },
  {
   "property": "C20",
   "status": "proved",
   "theorems": [
    "C20_lccd_affine"
   ],
   "note": ""
  },
  {
   "property": "C21",
   "status": "proved",
   "theorems": [
    "C21_antisymmetrisers"
   ],
   "note": ""
  },
  {
   "property": "C22",
   "status": "proved",
   "theorems": [
    "C22_pccd_collapses"
   ],
   "note": ""
  },
  {
   "property": "C23",
   "status": "proved",
   "theorems": [
    "C23_beta_ranges_ignored_refuted",
    "C23_beta_shapes_raise_refuted",
    "C23_open_shell_run_raises_refuted"
   ],
   "note": "the claim is false of the code: beta ranges are never read, and a run with different numbers of alpha and beta electrons raises or ignores them"
  },
  {
   "property": "C24",
   "status": "proved",
   "theorems": [
    "C24_spin_exchange_ccd",
    "C24_spin_exchange_ccsdt",
    "C24_spin_exchange_ccdq",
    "C24_spin_exchange_ccdqf"
   ],
   "note": "triples and quadruples with their printed decimals read as the fractions they abbreviate (as printed, C07/C08 bound the difference)"
  },
  {
   "property": "C25",
   "status": "proved",
   "theorems": [
    "C25_spin_orbital_denominators",
    "C25_spin_integrated_denominators",
    "C25_full_closed_shell",
    "C25_full_uhf_refuted",
    "C25_permutation",
    "C25_negative",
    "C25_occupied_first"
   ],
   "note": "mixed-spin claim false for full CC with different alpha and beta energies, refuted block by block"
  },
  {
   "property": "C26",
   "status": "proved",
   "theorems": [
    "C26_fixed_point",
    "C26_spin_fixed_point"
   ],
   "note": "spin-orbital route and spin-integrated route"
  },
  {
   "property": "C27",
   "status": "proved",
   "theorems": [
    "C27_diis_extrapolation"
   ],
   "note": "for every solver that returns an exact solution of the DIIS system"
  },
  {
   "property": "C28",
   "status": "proved",
   "theorems": [
    "C28_diis_history",
    "C28_zero_size_raises"
   ],
   "note": ""
  },
  {
   "property": "C29",
   "status": "proved",
   "theorems": [
    "C29_roundtrip",
    "C29_old_vector_length",
    "C29_ccdqf_label_crashes_refuted",
    "C29_full_label_crashes_refuted"
   ],
   "note": "round trip holds for every label; the DIIS block raises for CCDQf labels of T2-only runs and for full-CC labels without CCDQ"
  },
  {
   "property": "C30",
   "status": "proved",
   "theorems": [
    "C30_kernel_return",
    "C30_loop_never_raises",
    "C30_exit_at_76",
    "C30_reports_only_converged_refuted"
   ],
   "note": "the loop also returns unconverged amplitudes: refuted part"
  },
  {
   "property": "C31",
   "status": "proved",
   "theorems": [
    "C31_legacy_return",
    "C31_legacy_raises",
    "C31_legacy_returns"
   ],
   "note": ""
  },
  {
   "property": "C32",
   "status": "proved",
   "theorems": [
    "C32_correlation_energy",
    "C32_qf_labels_report_correction_only",
    "C32_every_label_refuted"
   ],
   "note": "false for the five (Qf) labels, characterised"
  },
  {
   "property": "C33",
   "status": "proved",
   "theorems": [
    "C33_user_settings_honoured",
    "C33_ccdType_overwrites_refuted",
    "C33_other_keys_untouched",
    "C33_caller_dict_changed_refuted",
    "C33_no_route_raises",
    "C33_mixed_keys",
    "C33_reuse_same_settings"
   ],
   "note": "false for the key ccdType; the pertCorr branch is the subject of C53"
  },
  {
   "property": "C34",
   "status": "proved",
   "theorems": [
    "C34_same_label",
    "C34_energy_and_residual_match",
    "C34_mismatch_refuted"
   ],
   "note": "false when fullCCType and ccdTypeSlow are both given"
  },
  {
   "property": "C35",
   "status": "proved",
   "theorems": [
    "C35_single_digit",
    "C35_all_strings",
    "C35_two_digits_refuted"
   ],
   "note": ""
  },
  {
   "property": "C36",
   "status": "proved",
   "theorems": [
    "C36_fresh_objects_share_data_refuted",
    "C36_separate_dictionaries_are_isolated",
    "C36_setters_are_local"
   ],
   "note": "the claim is false of the code: refuted for every history; what holds is proved"
  },
  {
   "property": "C37",
   "status": "proved",
   "theorems": [
    "C37_spin_orbital_integrals"
   ],
   "note": "spin conservation is the factor in so_integral; the unused converter convertSCFinfo_slow is not modelled"
  },
  {
   "property": "C38",
   "status": "proved",
   "theorems": [
    "C38_amplitudes",
    "C38_integrals",
    "C38_system",
    "C38_repeated_orbital_refuted",
    "C38_occupied_in_virtual_place_refuted",
    "C38_integral_sign_refuted",
    "C38_doubles_sign_refuted"
   ],
   "note": "float() is a parameter; files with a repeated orbital, an occupied orbital in a virtual place or read as operators break the claim: refuted parts"
  },
  {
   "property": "C39",
   "status": "proved",
   "theorems": [
    "C39_zero_amplitudes",
    "C39_first_guess"
   ],
   "note": ""
  },
  {
   "property": "C40",
   "status": "proved",
   "theorems": [
    "C40_other_labels_raise_refuted",
    "C40_other_labels_run_raises_refuted",
    "C40_ccdq_residuals",
    "C40_ccdq_fixed_point",
    "C40_ccdq_run_total"
   ],
   "note": "the claim is false of the code for every label except CCDQ: refuted for all inputs; for CCDQ it is proved. get_perturbCorr=True is a parameter of the run, its value is C65"
  },
  {
   "property": "C41",
   "status": "proved",
   "theorems": [
    "C41_xccd6_returns_zeros"
   ],
   "note": "the claim is false of the code: the returned array is zero for all inputs"
  },
  {
   "property": "C42",
   "status": "proved",
   "theorems": [
    "C42_ccd_equations",
    "C42_ccsd_equations"
   ],
   "note": "also proved for CCSD; exponentials cut off at any order K >= 2 (CCSD: 4) give the same matrix elements"
  },
  {
   "property": "C43",
   "status": "proved",
   "theorems": [
    "C43_correction_uses_previous_adjoints",
    "C43_correction_from_final_amplitudes_refuted"
   ],
   "note": "the claim is false of the code: refuted by an instance, and what is used instead is proved for all runs"
  },
  {
   "property": "C44",
   "status": "proved",
   "theorems": [
    "C44_slow_qf_never_returns_refuted"
   ],
   "note": "the claim is false of the code: no (Qf) run on the spin-orbital route returns"
  },
  {
   "property": "C45",
   "status": "proved",
   "theorems": [
    "C45_result_independent_of_old_file"
   ],
   "note": ""
  },
  {
   "property": "C46",
   "status": "proved",
   "theorems": [
    "C46_same_iterates",
    "C46_same_result"
   ],
   "note": ""
  },
  {
   "property": "C47",
   "status": "proved",
   "theorems": [
    "C47_spin_iterates",
    "C47_spin_run_total"
   ],
   "note": ""
  },
  {
   "property": "C48",
   "status": "proved",
   "theorems": [
    "C48_legacy_matches_class"
   ],
   "note": ""
  },
  {
   "property": "C49",
   "status": "proved",
   "theorems": [
    "C49_legacy_pCCD_pairs"
   ],
   "note": ""
  },
  {
   "property": "C50",
   "status": "proved",
   "theorems": [
    "C50_DiagCCD_is_CCD_refuted"
   ],
   "note": "the claim is false of the code"
  },
  {
   "property": "C51",
   "status": "proved",
   "theorems": [
    "C51_same_hamiltonian",
    "C51_same_energy"
   ],
   "note": ""
  },
  {
   "property": "C52",
   "status": "proved",
   "theorems": [
    "C52_xccd_energy_and_residual"
   ],
   "note": "the arrays are those returned by the transcribed XCCDbasebuilder"
  },
  {
   "property": "C53",
   "status": "proved",
   "theorems": [
    "C53_pdagq_delivers",
    "C53_other_methods_raise_refuted",
    "C53_xacc_route_raises_refuted",
    "C53_singles_file_raises_refuted",
    "C53_occupied_first_raises_refuted"
   ],
   "note": "the claim holds for one combination of inputs, for which it is proved; it is refuted for all inputs of the other combinations"
  },
  {
   "property": "C54",
   "status": "proved",
   "theorems": [
    "C54_drive_run"
   ],
   "note": ""
  },
  {
   "property": "C55",
   "status": "proved",
   "theorems": [
    "C55_fixed_points",
    "C55_ccsd_fixed_points",
    "C55_ccd_fixed_points",
    "C55_ccsdt_fixed_points",
    "C55_ccdq_fixed_points"
   ],
   "note": ""
  },
  {
   "property": "C56",
   "status": "proved",
   "theorems": [
    "C56_closed_shell_setup",
    "C56_rhf_frozen_core_refuted",
    "C56_label_without_doubles_refuted",
    "C56_open_shell_refuted"
   ],
   "note": "holds for closed shells; the other cases raise for all inputs"
  },
  {
   "property": "C57",
   "status": "proved",
   "theorems": [
    "C57_reported_energies",
    "C57_frozen_core_refuted",
    "C57_total_energy_refuted"
   ],
   "note": "characterised for every run; false with a frozen core and for totalE"
  },
  {
   "property": "C58",
   "status": "proved",
   "theorems": [
    "C58_quadruples_never_move_refuted"
   ],
   "note": "the claim is false of the code for every label with CCSD and Q"
  },
  {
   "property": "C59",
   "status": "proved",
   "theorems": [
    "C59_same_ccd",
    "C59_same_ccd_from_scf"
   ],
   "note": ""
  },
  {
   "property": "C60",
   "status": "proved",
   "theorems": [
    "C60_bracket_T"
   ],
   "note": ""
  },
  {
   "property": "C61",
   "status": "proved",
   "theorems": [
    "C61_ccsdt_equations",
    "C61_ccsdt_triples_bound",
    "C61_ccdq_equations",
    "C61_ccdq_quadruples_bound"
   ],
   "note": "cc_state K is the exponential series cut at order K, the statement holds for every K >= 8 (9)"
  },
  {
   "property": "C62",
   "status": "proved",
   "theorems": [
    "C62_spin_ccd_equations",
    "C62_spin_ccsdt_equations",
    "C62_spin_ccdq_equations"
   ],
   "note": "triples and quadruples routines with their decimals read as fractions"
  },
  {
   "property": "C63",
   "status": "proved",
   "theorems": [
    "C63_triples",
    "C63_spin_triples",
    "C63_spin_quadruples",
    "C63_ccdqf",
    "C63_spin_ccdqf",
    "C63_bracket_T"
   ],
   "note": ""
  },
  {
   "property": "C64",
   "status": "proved",
   "theorems": [
    "C64_driver",
    "C64_legacy_iterates",
    "C64_fixed_point",
    "C64_copies_agree",
    "C64_copies_agree_pCCD",
    "C64_rhf_is_uhf",
    "C64_returns_correlation_refuted",
    "C64_open_shell_raises_refuted"
   ],
   "note": "the documented meaning of the second returned number is false of the code: C64_returns_correlation_refuted; open shells raise: C64_open_shell_raises_refuted"
  },
  {
   "property": "C65",
   "status": "proved",
   "theorems": [
    "C65_full_correction",
    "C65_closed_shell"
   ],
   "note": "about the routine itself: through the full CC kernel every (Qf) label raises before it is called, C40_other_labels_run_raises_refuted"
  },
  {
   "property": "C66",
   "status": "proved",
   "theorems": [
    "C66_xccd_orders_5_6",
    "C66_xccd_order_7",
    "C66_xccd_order_7_bound",
    "C66_xccd_order_8",
    "C66_xccd_order_9",
    "C66_xccd_order_9_bound",
    "C66_xccd_methods",
    "C66_xccd_methods_all"
   ],
   "note": "all five orders and all five methods; the quadruple amplitudes used from order 7 on are the numbers left by order 5, which nothing divides by an orbital gap"
  },
  {
   "property": "C67",
   "status": "proved",
   "theorems": [
    "C67_ccd_rotation",
    "C67_qf_rotation",
    "C67_ccsdt_rotation",
    "C67_ccdq_rotation",
    "C67_rotation_keeps_symmetry",
    "C67_solutions_rotate",
    "C67_relabelling_is_rotation",
    "C67_xccd_rotation"
   ],
   "note": "no symmetry of the arrays is assumed except for XCCD; the perturbative XCCD energy and the passes themselves contain denominators, so they are invariant only as far as the denominators are"
  },
  {
   "property": "C68",
   "status": "proved",
   "theorems": [
    "C68_run_rotation",
    "C68_canonical_mixing",
    "C68_run_canonical",
    "C68_run_relabelled",
    "C68_drive_rotation",
    "C68_drive_canonical",
    "C68_drive_printed"
   ],
   "note": "whole spin-orbital runs of both drivers (UltT2CC and DriveCC), every label, any options; labels that contain UCC(4) without being UCC(4) are left out"
  },
  {
   "property": "C69",
   "status": "proved",
   "theorems": [
    "C69_ucc4_energy",
    "C69_ucc4_pass",
    "C69_ucc4_fixed_point",
    "C69_ucc4_run",
    "C69_ucc4_returns"
   ],
   "note": "the pass is described for antisymmetric amplitudes (the first pass always starts from such); iterates lose antisymmetry because of the terms with the adjoint (C01_ucc4_refuted); the energy theorems need no antisymmetry"
  },
  {
   "property": "C70",
   "status": "proved",
   "theorems": [
    "C70_slow_run_ends",
    "C70_slow_run_returns",
    "C70_spin_run_ends",
    "C70_full_run_ends"
   ],
   "note": "spin-orbital (Qf) labels end in the exceptions described by C29; a DIIS space of size zero raises (C28)"
  },
  {
   "property": "C71",
   "status": "proved",
   "theorems": [
    "C71_diis_run",
    "C71_slow_diis",
    "C71_spin_diis",
    "C71_full_diis"
   ],
   "note": "C27 and C28 describe the DIIS object alone; the full CC run is covered for CCDQ labels, the only ones it supports; the linear solver is assumed to return exact solutions"
  },
  {
   "property": "C72",
   "status": "proved",
   "theorems": [
    "C72_interleaved_integrals",
    "C72_same_as_driver"
   ],
   "note": "no driver calls this conversion; as many orbitals as basis functions; its branch for unrestricted orbitals repeats the code of C37"
  },
  {
   "property": "C73",
   "status": "proved",
   "theorems": [
    "C73_order_of_equal_energies",
    "C73_interleaved_run",
    "C73_drive_order"
   ],
   "note": "labels as in C68: every label except those that contain UCC(4) without being equal to it; DriveCC: closed shells, labels with a D, no file of first amplitudes"
  },
  {
   "property": "C74",
   "status": "proved",
   "theorems": [
    "C74_printed_energies",
    "C74_printed_from_amplitudes",
    "C74_intended_energies_refuted"
   ],
   "note": "the refuted part shows a case in which the printed numbers differ from the third-order energy and from the second-order energy without pair amplitudes"
  },
  {
   "property": "C75",
   "status": "proved",
   "theorems": [
    "C75_printed_pair_corrections",
    "C75_pair_correction_refuted"
   ],
   "note": "the refuted part shows a case in which the two numbers printed for the off-diagonal energy differ; the list of singles printed in between is not modelled"
  },
  {
   "property": "C76",
   "status": "proved",
   "theorems": [
    "C76_printed_UCCD",
    "C76_matrix_elements",
    "C76_printed_matrix_elements"
   ],
   "note": "for a Fock matrix; with amplitudes read from text files the Fock matrix is a list of energies and the method raises (C53)"
  },
  {
   "property": "C77",
   "status": "proved",
   "theorems": [
    "C77_wicked_main",
    "C77_square_bracket"
   ],
   "note": "the fifth-order numbers printed by the way are given by C79"
  },
  {
   "property": "C78",
   "status": "proved",
   "theorems": [
    "C78_wicked_sources",
    "C78_netT1_thirdO",
    "C78_fifth_order_caps"
   ],
   "note": "for the array functions themselves"
  },
  {
   "property": "C79",
   "status": "proved",
   "theorems": [
    "C79_fifth_order",
    "C79_bracket_matrix_element"
   ],
   "note": "the first four printed numbers are given by C77"
  }
 ]
}
