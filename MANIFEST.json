{
 "claims": [
  {
   "property": "C01",
   "status": "proved",
   "theorems": [
    "C01_diagonals_complete",
    "C01_diagonals_nodup"
   ],
   "note": ""
  },
  {
   "property": "C02",
   "status": "proved",
   "theorems": [
    "C02_sc_3_exact",
    "C02_sc_3_basis",
    "C02_sc_3_nonempty",
    "C02_sc_3_single",
    "C02_sc_3_once"
   ],
   "note": ""
  },
  {
   "property": "C03",
   "status": "proved",
   "theorems": [
    "C03_bcc_5_exact",
    "C03_bcc_5_basis",
    "C03_bcc_5_nonempty",
    "C03_bcc_5_once"
   ],
   "note": ""
  },
  {
   "property": "C04",
   "status": "proved",
   "theorems": [
    "C04_fcc_1_exact",
    "C04_fcc_1_basis",
    "C04_fcc_1_nonempty",
    "C04_fcc_1_once"
   ],
   "note": ""
  },
  {
   "property": "C05",
   "status": "proved",
   "theorems": [
    "C05_hex_12_exact",
    "C05_hex_12_basis",
    "C05_hex_22_exact",
    "C05_hex_22_basis",
    "C05_hex_12_once",
    "C05_hex_22_once"
   ],
   "note": ""
  },
  {
   "property": "C06",
   "status": "proved",
   "theorems": [
    "C06_rhom_4_2_id2_exact",
    "C06_rhom_4_2_id2_basis",
    "C06_rhom_4_2_id4_exact",
    "C06_rhom_4_2_id4_basis",
    "C06_rhom_9_24_id9_exact",
    "C06_rhom_9_24_id9_basis",
    "C06_rhom_9_24_id24_exact",
    "C06_rhom_9_24_id24_basis",
    "C06_rhom_4_2_id2_once",
    "C06_rhom_4_2_id4_once",
    "C06_rhom_9_24_id9_once",
    "C06_rhom_9_24_id24_once"
   ],
   "note": ""
  },
  {
   "property": "C07",
   "status": "proved",
   "theorems": [
    "C07_stet_11_exact",
    "C07_stet_11_basis",
    "C07_stet_21_exact",
    "C07_stet_21_basis",
    "C07_stet_11_once",
    "C07_stet_21_once"
   ],
   "note": ""
  },
  {
   "property": "C08",
   "status": "proved",
   "theorems": [
    "C08_body_tet_6_7_15_18_id6_exact",
    "C08_body_tet_6_7_15_18_id6_basis",
    "C08_body_tet_6_7_15_18_id7_exact",
    "C08_body_tet_6_7_15_18_id7_basis",
    "C08_body_tet_6_7_15_18_id15_exact",
    "C08_body_tet_6_7_15_18_id15_basis",
    "C08_body_tet_6_7_15_18_id18_exact",
    "C08_body_tet_6_7_15_18_id18_basis",
    "C08_body_tet_6_7_15_18_id6_once",
    "C08_body_tet_6_7_15_18_id7_once",
    "C08_body_tet_6_7_15_18_id15_once",
    "C08_body_tet_6_7_15_18_id18_once"
   ],
   "note": ""
  },
  {
   "property": "C09",
   "status": "proved",
   "theorems": [
    "C09_so_32_exact",
    "C09_so_32_basis",
    "C09_so_32_once"
   ],
   "note": ""
  },
  {
   "property": "C10",
   "status": "proved",
   "theorems": [
    "C10_base_ortho_23_exact",
    "C10_base_ortho_23_basis",
    "C10_base_ortho_36_exact",
    "C10_base_ortho_36_basis",
    "C10_base_ortho_38_13_id13_exact",
    "C10_base_ortho_38_13_id13_basis",
    "C10_base_ortho_38_13_id38_exact",
    "C10_base_ortho_38_13_id38_basis",
    "C10_base_ortho_40_exact",
    "C10_base_ortho_40_basis",
    "C10_base_ortho_23_once",
    "C10_base_ortho_36_once",
    "C10_base_ortho_38_13_id13_once",
    "C10_base_ortho_38_13_id38_once",
    "C10_base_ortho_40_once"
   ],
   "note": ""
  },
  {
   "property": "C11",
   "status": "proved",
   "theorems": [
    "C11_body_ortho_19_exact",
    "C11_body_ortho_19_basis",
    "C11_body_ortho_42_exact",
    "C11_body_ortho_42_basis",
    "C11_body_ortho_8_exact",
    "C11_body_ortho_8_basis",
    "C11_body_ortho_19_once",
    "C11_body_ortho_42_once",
    "C11_body_ortho_8_once"
   ],
   "note": ""
  },
  {
   "property": "C12",
   "status": "proved",
   "theorems": [
    "C12_face_ortho_16_exact",
    "C12_face_ortho_16_basis",
    "C12_face_ortho_26_exact",
    "C12_face_ortho_26_basis",
    "C12_face_ortho_16_once",
    "C12_face_ortho_26_once"
   ],
   "note": ""
  },
  {
   "property": "C13",
   "status": "proved",
   "theorems": [
    "C13_sm_33_exact",
    "C13_sm_33_basis",
    "C13_sm_34_exact",
    "C13_sm_34_basis",
    "C13_sm_35_exact",
    "C13_sm_35_basis",
    "C13_sm_33_once",
    "C13_sm_34_once",
    "C13_sm_35_once"
   ],
   "note": ""
  },
  {
   "property": "C14",
   "status": "proved",
   "theorems": [
    "C14_base_mono_10_14_17_27_37_39_41_id10_exact",
    "C14_base_mono_10_14_17_27_37_39_41_id10_basis",
    "C14_base_mono_10_14_17_27_37_39_41_id14_exact",
    "C14_base_mono_10_14_17_27_37_39_41_id14_basis",
    "C14_base_mono_10_14_17_27_37_39_41_id17_exact",
    "C14_base_mono_10_14_17_27_37_39_41_id17_basis",
    "C14_base_mono_10_14_17_27_37_39_41_id27_exact",
    "C14_base_mono_10_14_17_27_37_39_41_id27_basis",
    "C14_base_mono_10_14_17_27_37_39_41_id37_exact",
    "C14_base_mono_10_14_17_27_37_39_41_id37_basis",
    "C14_base_mono_10_14_17_27_37_39_41_id39_exact",
    "C14_base_mono_10_14_17_27_37_39_41_id39_basis",
    "C14_base_mono_10_14_17_27_37_39_41_id41_exact",
    "C14_base_mono_10_14_17_27_37_39_41_id41_basis",
    "C14_base_mono_20_25_id20_exact",
    "C14_base_mono_20_25_id20_basis",
    "C14_base_mono_20_25_id25_exact",
    "C14_base_mono_20_25_id25_basis",
    "C14_base_mono_28_exact",
    "C14_base_mono_28_basis",
    "C14_base_mono_29_30_id29_exact",
    "C14_base_mono_29_30_id29_basis",
    "C14_base_mono_29_30_id30_exact",
    "C14_base_mono_29_30_id30_basis",
    "C14_base_mono_43_exact",
    "C14_base_mono_43_basis",
    "C14_base_mono_10_14_17_27_37_39_41_id10_once",
    "C14_base_mono_10_14_17_27_37_39_41_id14_once",
    "C14_base_mono_10_14_17_27_37_39_41_id17_once",
    "C14_base_mono_10_14_17_27_37_39_41_id27_once",
    "C14_base_mono_10_14_17_27_37_39_41_id37_once",
    "C14_base_mono_10_14_17_27_37_39_41_id39_once",
    "C14_base_mono_10_14_17_27_37_39_41_id41_once",
    "C14_base_mono_20_25_id20_once",
    "C14_base_mono_20_25_id25_once",
    "C14_base_mono_28_once",
    "C14_base_mono_29_30_id29_once",
    "C14_base_mono_29_30_id30_once",
    "C14_base_mono_43_once"
   ],
   "note": ""
  },
  {
   "property": "C15",
   "status": "proved",
   "theorems": [
    "C15_triclinic_exact",
    "C15_triclinic_nodup",
    "C15_inversion_preserves"
   ],
   "note": ""
  },
  {
   "property": "C16",
   "status": "proved",
   "theorems": [
    "C02_sc_3_once",
    "C03_bcc_5_once",
    "C04_fcc_1_once",
    "C05_hex_12_once",
    "C05_hex_22_once",
    "C06_rhom_4_2_id2_once",
    "C06_rhom_4_2_id4_once",
    "C06_rhom_9_24_id9_once",
    "C06_rhom_9_24_id24_once",
    "C07_stet_11_once",
    "C07_stet_21_once",
    "C08_body_tet_6_7_15_18_id6_once",
    "C08_body_tet_6_7_15_18_id7_once",
    "C08_body_tet_6_7_15_18_id15_once",
    "C08_body_tet_6_7_15_18_id18_once",
    "C09_so_32_once",
    "C10_base_ortho_23_once",
    "C10_base_ortho_36_once",
    "C10_base_ortho_38_13_id13_once",
    "C10_base_ortho_38_13_id38_once",
    "C10_base_ortho_40_once",
    "C11_body_ortho_19_once",
    "C11_body_ortho_42_once",
    "C11_body_ortho_8_once",
    "C12_face_ortho_16_once",
    "C12_face_ortho_26_once",
    "C13_sm_33_once",
    "C13_sm_34_once",
    "C13_sm_35_once",
    "C14_base_mono_10_14_17_27_37_39_41_id10_once",
    "C14_base_mono_10_14_17_27_37_39_41_id14_once",
    "C14_base_mono_10_14_17_27_37_39_41_id17_once",
    "C14_base_mono_10_14_17_27_37_39_41_id27_once",
    "C14_base_mono_10_14_17_27_37_39_41_id37_once",
    "C14_base_mono_10_14_17_27_37_39_41_id39_once",
    "C14_base_mono_10_14_17_27_37_39_41_id41_once",
    "C14_base_mono_20_25_id20_once",
    "C14_base_mono_20_25_id25_once",
    "C14_base_mono_28_once",
    "C14_base_mono_29_30_id29_once",
    "C14_base_mono_29_30_id30_once",
    "C14_base_mono_43_once",
    "C16_hnf_unique",
    "C16_hnf_exists_unique",
    "C16_canonical_gram_close"
   ],
   "note": "The *_once theorems (named after the enumerator) state that each symmetry-preserving superlattice is listed exactly once."
  },
  {
   "property": "C17",
   "status": "proved",
   "theorems": [
    "C17_cubic_volumes_usable"
   ],
   "note": "The floating point cube root is a parameter nb; root_guess says it is one or two below the integer cube root."
  },
  {
   "property": "C18",
   "status": "partial",
   "theorems": [
    "C18_cubic_volumes_closest_refuted",
    "C18_next_cube_missed_refuted",
    "C18_cubic_volumes_closest_partial"
   ],
   "note": "The claim is false of the code: C18_cubic_volumes_closest_refuted gives kpd=5833 and C18_next_cube_missed_refuted an infinite family. The _partial theorem states what the search does return: the three smallest sizes among those built from bases in the searched window."
  },
  {
   "property": "C19",
   "status": "proved",
   "theorems": [
    "C19_triclinic_volume"
   ],
   "note": ""
  },
  {
   "property": "C20",
   "status": "proved",
   "theorems": [
    "C20_other_volumes"
   ],
   "note": ""
  },
  {
   "property": "C21",
   "status": "proved",
   "theorems": [
    "C21_all_handled",
    "C21_others_rejected",
    "C21_right_enumerator"
   ],
   "note": ""
  },
  {
   "property": "C22",
   "status": "proved",
   "theorems": [
    "C22_exact_mode",
    "C22_exact_mode_triclinic"
   ],
   "note": "Exactness is for the Gram matrix of the canonical basis of the given lattice number; find_hnfs covers the part of find_supercells between find_volumes and the basis transformation."
  },
  {
   "property": "C23",
   "status": "proved",
   "theorems": [
    "C23_default_mode_other",
    "C23_default_mode_cubic",
    "C23_default_mode_triclinic",
    "C23_cases"
   ],
   "note": ""
  },
  {
   "property": "C24",
   "status": "proved",
   "theorems": [
    "C24_integer_supercells",
    "C24_singular_fails"
   ],
   "note": "Rational arithmetic; the two reductions are arbitrary unimodular integer matrices."
  },
  {
   "property": "C25",
   "status": "proved",
   "theorems": [
    "C25_symmetry_kept",
    "C25_complete"
   ],
   "note": "The hypothesis compares the isometries of the reduced user cell with those of the reduced canonical cell."
  },
  {
   "property": "C26",
   "status": "proved",
   "theorems": [
    "C26_same_lattice"
   ],
   "note": ""
  },
  {
   "property": "C27",
   "status": "proved",
   "theorems": [
    "C27_niggli_upto_eps",
    "C27_niggli_exact"
   ],
   "note": "Exact for tolerance 0; for a positive tolerance every comparison holds up to the tolerance the constructor derives."
  },
  {
   "property": "C28",
   "status": "partial",
   "theorems": [
    "C28_clear_cells_partial",
    "C28_pass_bound",
    "C28_spaced_few_sums",
    "C28_spaced_cells_are_clear",
    "C28_niggli_cell_refused_refuted",
    "C28_iteration_limit_refuted",
    "C28_too_many_iff",
    "C28_exact_success_partial",
    "C28_check_is_definition"
   ],
   "note": "False of the code in two ways (the _refuted theorems): numpy's relative tolerance makes the final check refuse a Niggli cell, and the 1000-pass limit stops on a sheared unit cube. Partial: without the limit and with exact comparisons every non-singular cell is reduced and accepted (termination is proved, with an explicit bound on the passes: C28_pass_bound, C28_spaced_few_sums). C28_clear_cells_partial: with the program's own tolerances a clear cell (Spec_clear: every number compared is zero or above the tolerance) is never refused, and not stopped by the limit if there are at most 43 sums; C28_spaced_cells_are_clear gives a class of clear cells."
  },
  {
   "property": "C29",
   "status": "proved",
   "theorems": [
    "C29_bad_shape",
    "C29_zero_volume"
   ],
   "note": ""
  },
  {
   "property": "C30",
   "status": "partial",
   "theorems": [
    "C30_idempotent",
    "C30_niggli_unchanged_partial"
   ],
   "note": "A Niggli cell is returned unchanged or refused by the final check (C28); idempotence holds without exception."
  },
  {
   "property": "C31",
   "status": "partial",
   "theorems": [
    "C31_unbound_iff",
    "C31_no_answer_refuted",
    "C31_answer_partial"
   ],
   "note": "False of the code: C31_no_answer_refuted gives a Niggli cell that gets no answer; C31_unbound_iff describes all of them; C31_answer_partial: all others get one."
  },
  {
   "property": "C32",
   "status": "proved",
   "theorems": [
    "C32_consistent",
    "C32_basis_point_group"
   ],
   "note": ""
  },
  {
   "property": "C33",
   "status": "proved",
   "theorems": [
    "C33_exact_group",
    "C33_gap_is_triclinic",
    "C33_clear_cells",
    "C33_clear_gap_is_triclinic"
   ],
   "note": "Exact comparisons for all cells (C33_exact_group); the program's own tolerances for clear cells (C33_clear_cells)."
  },
  {
   "property": "C34",
   "status": "partial",
   "theorems": [
    "C34_sc_bcc_partial",
    "C34_fcc_partial",
    "C34_multiples_missing_refuted"
   ],
   "note": "False of the code (C34_multiples_missing_refuted): range(1,2,4) and range(1,4,16) contain only 1, so only cubes are offered. The _partial theorems state exactly which sizes are offered."
  },
  {
   "property": "C35",
   "status": "proved",
   "theorems": [
    "C35_smallest_prime"
   ],
   "note": ""
  },
  {
   "property": "C36",
   "status": "partial",
   "theorems": [
    "C36_sorted_sizes_partial",
    "C36_ten_smallest_partial",
    "C36_cube_missed_refuted",
    "C36_nothing_refuted"
   ],
   "note": "False of the code: the window of bases starts at root/16-1 and is 100 long (C36_cube_missed_refuted, C36_nothing_refuted). True up to kpd = 830583 (C36_ten_smallest_partial); form and order hold always. The floating point cube root is a parameter."
  },
  {
   "property": "C37",
   "status": "proved",
   "theorems": [
    "C37_least_multiplier"
   ],
   "note": "get_kpd_tric differs from the Python multiplier (801: 2 instead of 3) but meets its own specification."
  },
  {
   "property": "C38",
   "status": "proved",
   "theorems": [
    "C38_two_tiers",
    "C38_tolerance",
    "C38_in_bounds"
   ],
   "note": "rmin and the packing test of each candidate are inputs (square roots and Minkowski reduction are library code)."
  },
  {
   "property": "C39",
   "status": "partial",
   "theorems": [
    "C39_first_tier_partial",
    "C39_second_tier_refuted"
   ],
   "note": "False of the code: the loop over the second tier reads n_irreducible(i) but writes n_irreducible(count+i) (C39_second_tier_refuted). The first tier is handled correctly."
  },
  {
   "property": "C40",
   "status": "proved",
   "theorems": [
    "C40_check_sym"
   ],
   "note": ""
  },
  {
   "property": "C41",
   "status": "partial",
   "theorems": [
    "C41_starts_with_zero",
    "C41_distinct_partial",
    "C41_inversion_partial",
    "C41_triclinic_partial",
    "C41_signs_partial",
    "C41_orthorhombic_partial",
    "C41_tetragonal_partial",
    "C41_hexagonal_partial",
    "C41_distinct_refuted",
    "C41_symmetry_refuted",
    "C41_inversion_refuted",
    "C41_body_refuted",
    "C41_base_refuted",
    "C41_cubic_refuted",
    "C41_body_tetragonal_refuted",
    "C41_rhombohedral_refuted",
    "C41_body_tetragonal_partial",
    "C41_rhombohedral_partial",
    "C41_rhombohedral_basis_refuted",
    "C41_face_partial"
   ],
   "note": "The first offset is zero. For primitive orthorhombic, monoclinic, tetragonal and hexagonal grids and for triclinic ones the offsets listed are exactly those every symmetry keeps (C41_signs_partial, C41_orthorhombic_partial, C41_tetragonal_partial, C41_hexagonal_partial; C41_triclinic_partial: one direction). For face-centred orthorhombic, body-centred tetragonal and rhombohedral grids this depends on the basis; the bases for which it holds are characterised exactly. False in every primitive basis for cubic, base-centred and body-centred orthorhombic grids (the _refuted theorems)."
  },
  {
   "property": "C42",
   "status": "partial",
   "theorems": [
    "C42_general_loop",
    "C42_general_ends_partial",
    "C42_endless_refuted",
    "C42_triclinic_first",
    "C42_cubic_partial",
    "C42_cubic_out_of_bounds_refuted"
   ],
   "note": "Two refutations: the cubic loop can write slot 6 of 5; the general loop never ends when fewer than five densities give a candidate. In-bounds is proved for the general loop without condition."
  },
  {
   "property": "C43",
   "status": "proved",
   "theorems": [
    "C43_exact",
    "C43_cubic",
    "C43_triclinic",
    "C43_dispatch_total",
    "C43_same_as_python"
   ],
   "note": "All 42 subroutines; the size and irreducible-count arguments that only select among the HNFs are modelled in find_grid."
  },
  {
   "property": "C44",
   "status": "partial",
   "theorems": [
    "C44_inputs",
    "C44_rest_ignored",
    "C44_last_keyword_refuted",
    "C44_keyword_present_refuted",
    "C44_undefined_refuted",
    "C44_constants"
   ],
   "note": "Numbers are read by the Fortran runtime: read_int, read_real, read_3 are parameters. True if every number can be read (C44_inputs); otherwise the rest of the file is ignored silently (C44_rest_ignored), and the three _refuted theorems follow."
  },
  {
   "property": "C45",
   "status": "partial",
   "theorems": [
    "C45_always_answers",
    "C45_form",
    "C45_agrees_on_clear",
    "C45_spaced_cells_are_clear",
    "C45_agrees_refuted"
   ],
   "note": "Always answers: proved. Agreement: for cells for which neither program compares a number close to its tolerance (C45_agrees_on_clear); false in general (C45_agrees_refuted: numbers 26 and 27)."
  },
  {
   "property": "C46",
   "status": "proved",
   "theorems": [
    "C46_cube_root_exists",
    "C46_failures",
    "C46_members"
   ],
   "note": "The cube root used for the tolerance is a parameter required to be accurate to 1/1000; C46_cube_root_exists gives one."
  },
  {
   "property": "C47",
   "status": "proved",
   "theorems": [
    "C47_exact_mode"
   ],
   "note": "clear_cell: every number compared by the reduction (for all bases not longer than the given one) and by the identification is zero or farther from zero than the tolerance. The pass limit of the reduction remains an alternative because the code has it (C28), but only for cells with more than 43 sums of squared lengths."
  },
  {
   "property": "C48",
   "status": "proved",
   "theorems": [
    "C48_default_mode"
   ],
   "note": "root_guess says the rounded cube root of kpt is one or two below the integer cube root; only cubic lattices use it."
  },
  {
   "property": "C49",
   "status": "partial",
   "theorems": [
    "C49_best",
    "C49_general_partial",
    "C49_hole_refuted"
   ],
   "note": "C49_hole_refuted: in the cubic case a slot that was never written can be read. C49_general_partial: the other lattices, whole loop."
  },
  {
   "property": "C50",
   "status": "proved",
   "theorems": [
    "C50_same_as_python",
    "C50_robust"
   ],
   "note": "Exact rationals; No may be inexact in C50_robust."
  },
  {
   "property": "C51",
   "status": "proved",
   "theorems": [
    "C51_diagonals",
    "C51_hnfs"
   ],
   "note": ""
  },
  {
   "property": "C52",
   "status": "proved",
   "theorems": [
    "C52_never_empty",
    "C52_two",
    "C52_cubic",
    "C52_zero_matrix"
   ],
   "note": "Together with the finding that the zero matrix is handed on with nhnfs = 1 when nothing is found."
  },
  {
   "property": "C53",
   "status": "proved",
   "theorems": [
    "C53_symmetric_grid"
   ],
   "note": "The library (Minkowski reduction, irreducible k-points, packing test) enters through parameters with the stated properties."
  },
  {
   "property": "C54",
   "status": "proved",
   "theorems": [
    "C54_cubic",
    "C54_triclinic",
    "C54_general"
   ],
   "note": "Conditional on the packing test accepting some candidate; C42_endless_refuted shows that a condition is needed."
  },
  {
   "property": "C55",
   "status": "partial",
   "theorems": [
    "C55_same_as_python",
    "C55_gives_up",
    "C55_reduced",
    "C55_refused",
    "C55_accepts",
    "C55_zero_tolerance",
    "C55_zero_tolerance_refuted"
   ],
   "note": "C55_zero_tolerance_refuted: with EPS = 0 the final check compares with < and refuses every cell with two equal lengths or a right angle."
  },
  {
   "property": "C56",
   "status": "partial",
   "theorems": [
    "C56_same_bases",
    "C56_reduced",
    "C56_gram",
    "C56_small_eps_refuted"
   ],
   "note": "True for EPS in [0.000022, 0.0011]; C56_small_eps_refuted: false of number 6 for EPS in [1e-12, 1e-6]."
  },
  {
   "property": "C57",
   "status": "proved",
   "theorems": [
    "C57_check"
   ],
   "note": "Clear cells, EPS in [0.000022, 0.0011]; the order of the point group is defined independently as the number of integer isometries of the Gram matrix."
  },
  {
   "property": "C58",
   "status": "partial",
   "theorems": [
    "C58_from_the_cell",
    "C58_small_eps_refuted"
   ],
   "note": "C58_small_eps_refuted: for EPS in [1e-12, 1e-6] a body-centred tetragonal cell for which every grid returned lacks the symmetry. C58_from_the_cell holds for EPS in [0.000022, 0.0011], which contains the default."
  },
  {
   "property": "C59",
   "status": "partial",
   "theorems": [
    "C59_read",
    "C59_types",
    "C59_negative_refuted",
    "C59_positions",
    "C59_scaled_refuted",
    "C59_coordinates"
   ],
   "note": "False of Cartesian positions when the scale factor is not 1 (C59_scaled_refuted: VASP scales them too) and of negative counts (C59_negative_refuted); the other theorems say what holds. Numbers are read by the runtime (parameters)."
  },
  {
   "property": "C60",
   "status": "partial",
   "theorems": [
    "C60_enforced",
    "C60_unchanged",
    "C60_no_stop",
    "C60_changed_refuted",
    "C60_never_refuted",
    "C60_43_refuted"
   ],
   "note": "Proved for 33 of the 44 characters (C60_enforced, C60_unchanged); false for 6, 7, 8, 12, 16, 17, 24, 26, 27, 28 (C60_changed_refuted, C60_never_refuted) and 43 (C60_43_refuted). Uses the axioms of the standard library's reals, listed in DESIGN.md."
  },
  {
   "property": "C61",
   "status": "proved",
   "theorems": [
    "C61_exact",
    "C61_once",
    "C61_generators",
    "C61_tailored"
   ],
   "note": "Lattices with rational entries. The comparison of the library is a parameter: reflexive, and equal matrices differ by less than eps in every entry."
  },
  {
   "property": "C62",
   "status": "partial",
   "theorems": [
    "C62_forms_group",
    "C62_find_pg_gens",
    "C62_characters",
    "C62_triclinic",
    "C62_same_superlattices",
    "C62_memory_refuted",
    "C62_python",
    "C62_first_only_refuted"
   ],
   "note": "False for the Fortran program if group elements lie in memory behind the array (C62_memory_refuted) and for the Python forms_group taken alone (C62_first_only_refuted); the other theorems hold under the hypotheses stated."
  },
  {
   "property": "C63",
   "status": "partial",
   "theorems": [
    "C63_general_partial",
    "C63_triclinic",
    "C63_cubic",
    "C63_single_kpoint_refuted"
   ],
   "note": "Exact comparisons of lengths. For lattices neither cubic nor triclinic only sizes with at least two symmetry-preserving superlattices take part (C63_general_partial); the grid with one k-point is therefore never returned for them (C63_single_kpoint_refuted)."
  },
  {
   "property": "C64",
   "status": "partial",
   "theorems": [
    "C64_coordinate",
    "C64_line",
    "C64_readable",
    "C64_zone",
    "C64_skewed_refuted",
    "C64_title",
    "C64_title_refuted",
    "C64_fields",
    "C64_columns"
   ],
   "note": "False for very skewed cells (C64_skewed_refuted) and for the total in the title line from a million points on (C64_title_refuted). Rounding of halves in the last place and the width of list-directed integers are those of gfortran."
  },
  {
   "property": "C65",
   "status": "partial",
   "theorems": [
    "C65_program",
    "C65_unit5_refuted"
   ],
   "note": "The contracts of generateIrredKpointList and mapKptsIntoBZ are hypotheses (kpoint_list, maps_into_zone). False if the runtime does not allow to write to unit 5 (C65_unit5_refuted)."
  },
  {
   "property": "C66",
   "status": "proved",
   "theorems": [
    "C66_counts",
    "C66_min_ignored"
   ],
   "note": "The library's get_lattice_pointGroup is a parameter; its contract (point_group) is a hypothesis."
  },
  {
   "property": "C67",
   "status": "proved",
   "theorems": [
    "C67_generators",
    "C67_rotations"
   ],
   "note": "The library's get_lattice_pointGroup is a parameter; its contract (point_group) is a hypothesis. Memory behind the array must not look like a group element (see C62)."
  },
  {
   "property": "C68",
   "status": "proved",
   "theorems": [
    "C68_comments",
    "C68_file",
    "C68_checked"
   ],
   "note": "How the runtime reads numbers from a text is a parameter."
  },
  {
   "property": "C69",
   "status": "proved",
   "theorems": [
    "C69_seven_families",
    "C69_kept_family",
    "C69_identified"
   ],
   "note": "Exact rational arithmetic."
  },
  {
   "property": "C70",
   "status": "partial",
   "theorems": [
    "C70_not_identified",
    "C70_verdict",
    "C70_case",
    "C70_missing",
    "C70_rotated_refuted"
   ],
   "note": "As documented it is false: _test_case accepts a rotated superlattice that breaks the symmetry (refuted by a witness), and 13 characters end in an AttributeError. Proved: what each verdict and each exception means for clear cells. Exact rational arithmetic."
  },
  {
   "property": "C71",
   "status": "partial",
   "theorems": [
    "C71_exact_partial",
    "C71_same_list",
    "C71_total",
    "C71_cubic",
    "C71_triclinic",
    "C71_wrap_fits",
    "C71_total_refuted",
    "C71_triclinic_total",
    "C71_lost_refuted",
    "C71_invented_refuted"
   ],
   "note": "Cubic lattices: proved for every size that fits. Others: proved for sizes up to 46340 and any behaviour on overflow; for larger sizes refuted for wraparound by witnesses. Triclinic lattices: exact while the number of HNFs fits. Overflow of 64-bit integers is not modelled."
  },
  {
   "property": "C72",
   "status": "partial",
   "theorems": [
    "C72_exact_partial",
    "C72_same_list",
    "C72_exact_tests",
    "C72_nearest",
    "C72_rounding",
    "C72_invented_refuted"
   ],
   "note": "Proved for sizes up to 1000 and every rounding to the nearest double, all lattice numbers, exact mode; the other mode gives the list of the exact model while the sizes tried are at most 1000. Refuted for sizes of more than 160 bits by a witness; nothing is claimed in between."
  }
 ]
}