-Q theories Verif
theories/Mat3.v
theories/Spec.v
theories/PyNum.v
theories/Model_diag.v
theories/PyNumFacts.v
theories/PointGroup.v
theories/Model_sc.v
theories/Model_bcc.v
theories/Model_fcc.v
theories/Model_so.v
theories/Model_stet.v
theories/Model_hx.v
theories/Model_body_tet.v
theories/Model_body_ortho.v
theories/Model_sm.v
theories/Model_face_ortho.v
theories/Model_base_mono.v
theories/Model_rhom.v
theories/Model_base_ortho.v
theories/EnumTac.v
theories/PreservesDec.v
theories/Proofs_mono.v
theories/Proofs_ortho.v
theories/Proofs_tet.v
theories/Proofs_hex.v
theories/Proofs_cubic.v
theories/NearSym.v
theories/Bases.v
theories/Model_universal.v
theories/HnfTheory.v
theories/Proofs_enum.v
theories/Proofs_nodup.v
theories/Proofs_enum_extra.v
theories/Properties_enum.v
theories/Proofs_two.v
theories/Proofs_volumes.v
theories/Proofs_supercells.v
theories/Properties_supercells.v
theories/QMat.v
theories/Model_transform.v
theories/Proofs_transform.v
theories/Properties_transform.v
theories/QNum.v
theories/QcTac.v
theories/Spec_niggli.v
theories/Model_pyniggli.v
theories/Proofs_pyniggli.v
theories/Proofs_niggli_term.v
theories/Proofs_pyniggli2.v
theories/Proofs_pyniggli3.v
theories/Properties_pyniggli.v
theories/Model_niggli_id.v
theories/Proofs_niggli_short.v
theories/Proofs_niggli_cand.v
theories/Bases_niggli.v
theories/Proofs_niggli_group.v
theories/Proofs_niggli_id.v
theories/Proofs_niggli_id2.v
theories/Spec_grid.v
theories/Proofs_gridcell.v
theories/Proofs_gridcell2.v
theories/Spec_id.v
theories/Proofs_niggli_id3.v
theories/Properties_niggli_id.v
theories/Proofs_stable.v
theories/Proofs_stable_z.v
theories/Proofs_scale.v
theories/Proofs_niggli_canon.v
theories/Model_find_supercells.v
theories/Spec_find.v
theories/Spec_clear.v
theories/Proofs_clear.v
theories/Proofs_clear2.v
theories/Proofs_clear3.v
theories/Proofs_clear4.v
theories/Proofs_clear5.v
theories/Proofs_passes.v
theories/Proofs_passes2.v
theories/Proofs_passes3.v
theories/Proofs_find_supercells.v
theories/Proofs_cbrt.v
theories/Properties_find_supercells.v
theories/Model_basis_check.v
theories/Proofs_basis_check.v
theories/Properties_basis_check.v
theories/Model_find_kgrids.v
theories/Model_grid_utils.v
theories/Spec_kgrids.v
theories/Proofs_kpd.v
theories/Proofs_search.v
theories/Proofs_offsets.v
theories/Properties_find_kgrids.v
theories/Proofs_grid_utils.v
theories/Properties_grid_utils.v
theories/FortFacts.v
theories/Model_sp_hnfs.v
theories/Proofs_sp_hnfs1.v
theories/Proofs_sp_hnfs2.v
theories/Proofs_sp_hnfs3.v
theories/Proofs_sp_hnfs4.v
theories/Model_find_grid.v
theories/Proofs_find_grid1.v
theories/Proofs_find_grid2.v
theories/Proofs_find_grid3.v
theories/Properties_sp_hnfs.v
theories/Properties_find_grid.v
theories/Model_niggli_f90.v
theories/Spec_niggli_f90.v
theories/Proofs_niggli_f90a.v
theories/Proofs_niggli_f90b.v
theories/Proofs_niggli_f90c.v
theories/Model_find_grid_top.v
theories/Proofs_niggli_f90d.v
theories/Proofs_niggli_f90e.v
theories/Proofs_niggli_f90f.v
theories/Properties_niggli_f90.v
theories/Model_control.v
theories/Spec_control.v
theories/Proofs_control.v
theories/Proofs_control2.v
theories/Proofs_control3.v
theories/Proofs_poscar.v
theories/Properties_control.v
theories/Model_delinter.v
theories/Spec_delinter.v
theories/Proofs_delinter.v
theories/Proofs_delinter2.v
theories/Proofs_delinter3.v
theories/Properties_delinter.v
theories/Model_brute.v
theories/Spec_brute.v
theories/Proofs_brute1.v
theories/Proofs_brute2.v
theories/Proofs_brute3.v
theories/Properties_brute.v
theories/Spec_choice.v
theories/Proofs_choice.v
theories/Properties_choice.v
theories/Model_driver.v
theories/Spec_driver.v
theories/Proofs_driver.v
theories/Proofs_driver2.v
theories/Proofs_driver3.v
theories/Properties_driver.v
theories/Model_brute_main.v
theories/Spec_brute_main.v
theories/Proofs_brute4.v
theories/Proofs_brute5.v
theories/Proofs_brute6.v
theories/Proofs_brute7.v
theories/Proofs_brute8.v
theories/Properties_brute_main.v
theories/Spec_basis_check.v
theories/Model_cell_test.v
theories/Proofs_family.v
theories/Proofs_cell_test.v
theories/Proofs_cell_test2.v
theories/Properties_cell_test.v
theories/Spec_offsets.v
theories/Proofs_offsets2.v
theories/Properties_offsets.v
theories/Spec_int32.v
theories/Model_int32.v
theories/Proofs_int32.v
theories/Properties_int32.v
theories/Data_f90.v
theories/Data_sp.v
theories/Data_py.v
theories/Data_enum.v
theories/Conformance_f90.v
theories/Conformance_py.v
theories/Spec_float.v
theories/Model_float.v
theories/Proofs_float.v
theories/Proofs_float2.v
theories/Properties_float.v
theories/Proofs_poscar2.v
theories/Properties_poscar.v
theories/Proofs_width.v
theories/Properties_width.v
