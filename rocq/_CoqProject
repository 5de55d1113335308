-Q theories Verif
theories/Sums.v
theories/Tensor.v
theories/Interp.v
theories/Poly.v
theories/SymExec.v
theories/Canon.v
theories/Code_XCCDbasebuilder.v
theories/Code_antisym_t4resids.v
theories/Code_build_approxT3full.v
theories/Code_build_qf_correction.v
theories/Code_cc_energy.v
theories/Code_cc_eqns.v
theories/Code_ccdq_eqns.v
theories/Code_ccdq_resids.v
theories/Code_ccsdt_eqns.v
theories/Code_drive_ucc4.v
theories/Code_fullCCenergy.v
theories/Code_fullCCresidEqns.v
theories/Code_modify_T2energy_pertQf.v
theories/Code_modify_T2energy_pertQfSlow.v
theories/Code_modify_T2resid_T4Qf1.v
theories/Code_modify_T2resid_T4Qf1Slow.v
theories/Code_modify_T2resid_T4Qf2.v
theories/Code_modify_T2resid_T4Qf2Slow.v
theories/Code_pdagq_T3corr.v
theories/Code_pdagq_t4resid.v
theories/Code_square_brakT_corr.v
theories/Code_t2energy.v
theories/Code_t2energySlow.v
theories/Code_t2residEqns.v
theories/Code_t2residEqnsSlow.v
theories/Code_tamps.v
theories/Code_testing_modifyT2eqns_with_T4.v
theories/Code_wicked_T3corr.v
theories/Code_xccd_resid.v
theories/Unround.v
theories/Spec.v
theories/Instances.v
theories/Setup.v
theories/Master.v
theories/Spin.v
theories/Check.v
theories/Tabs.v
theories/NF.v
theories/Antisym.v
theories/Formula.v
theories/Bound.v
theories/P_ccd.v
theories/P_spin_ccd.v
theories/P_spin_ccsdt.v
theories/P_antisym.v
theories/P_qf.v
theories/P_spin_qf.v
theories/P_qf_routes.v
theories/P_qf_routes14.v
theories/Asym.v
theories/P_ccsd.v
theories/P_triples.v
theories/P_spin_energy.v
theories/P_spin_t4.v
theories/P_spin_modt2.v
theories/BoundedInst.v
theories/P_spin_ccsdt3.v
theories/P_spin_ccdq.v
theories/Numpy.v
theories/Diis.v
theories/P_diis.v
theories/Kernel.v
theories/P_kernel.v
theories/P_driver.v
theories/SlowCC.v
theories/Cut.v
theories/P_xcc.v
theories/SpecDriver.v
theories/Linear.v
theories/P_slow.v
theories/P_slow2.v
theories/P_slow3.v
theories/P_stale.v
theories/Denoms.v
theories/P_denoms.v
theories/SpinLink.v
theories/SpinCC.v
theories/P_spinrun.v
theories/P_spinrun2.v
theories/P_openshell.v
theories/Legacy.v
theories/P_legacy.v
theories/Options.v
theories/P_options.v
theories/Ints.v
theories/P_ints.v
theories/P_ints2.v
theories/P_endtoend.v
theories/Fock.v
theories/Wick.v
theories/CCState.v
theories/P_fock.v
theories/Dress.v
theories/Commut.v
theories/NOrd.v
theories/Proj.v
theories/Elem.v
theories/P_xcc2.v
theories/P_wanti.v
theories/P_flip.v
theories/FullCC.v
theories/P_fullcc.v
theories/SpecFrag.v
theories/Frag.v
theories/FragTabs.v
theories/P_frag.v
theories/Xacc.v
theories/SpecXacc.v
theories/P_xacc.v
theories/P_pert.v
theories/RunMono.v
theories/Drive.v
theories/SpecDrive.v
theories/P_drive.v
theories/P_drive2.v
theories/P_drive3.v
theories/P_drive4.v
theories/P_same.v
theories/P_drive5.v
theories/P_fock2.v
theories/P_drive6.v
theories/P_fock3.v
theories/P_fock4.v
theories/SOMain.v
theories/P_somain.v
theories/P_fullpert.v
theories/OpMerge.v
theories/P_xcc3.v
theories/P_xcc4.v
theories/P_xcc5.v
theories/P_xcc6.v
theories/FragConn.v
theories/P_frag2.v
theories/SpecRot.v
theories/Rot.v
theories/RotTabs.v
theories/P_rot.v
theories/P_rot2.v
theories/RelRun.v
theories/P_rot3.v
theories/P_rot4.v
theories/P_rot5.v
theories/P_ucc4.v
theories/Total.v
theories/P_total.v
theories/P_total2.v
theories/P_total3.v
theories/P_diisrun.v
theories/SpinOrb.v
theories/P_ints3.v
theories/P_ties.v
theories/P_ties2.v
theories/P_inst.v
theories/Wicked.v
theories/P_wicked.v
theories/P_wicked2.v
theories/P_wicked3.v
theories/WickedT3.v
theories/P_wicked4.v
theories/P_wicked5.v
theories/P_wicked6.v
