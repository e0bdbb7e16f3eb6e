{"id": "C01", "title": "Diagonals of an HNF", "statement": "get_HNF_diagonals(n) returns every ordered triple of positive integers with product n, each exactly once, and nothing else.", "quantifier": "every integer n", "why_tests_cant": "Exhaustive over all n; tests look at one or two values.", "anchors": ["support/python_dev/opf_python/universal.py:get_HNF_diagonals"]}
{"id": "C02", "title": "Simple cubic HNFs", "statement": "sc_3(n) returns exactly the Hermite-normal-form matrices of determinant n whose superlattice is mapped to itself by every point-group operation of the simple cubic lattice: nothing that breaks a symmetry is returned and nothing that keeps all of them is missed. In particular the early break never drops a solution, and the list is non-empty exactly when n is k^3, 2k^3 or 4k^3.", "quantifier": "every integer n >= 1 (for n <= 0 the list is empty)", "why_tests_cant": "The repository compares the output with a stored brute-force list for n up to 150/200/500 only; the claim is about every n and its pruned loops ('condition reached by inspection') are only argued informally.", "anchors": ["support/python_dev/opf_python/sc.py:sc_3"]}
{"id": "C03", "title": "Body-centred cubic HNFs", "statement": "bcc_5(n) returns exactly the Hermite-normal-form matrices of determinant n whose superlattice is mapped to itself by every point-group operation of the body-centred cubic lattice: nothing that breaks a symmetry is returned and nothing that keeps all of them is missed.", "quantifier": "every integer n >= 1 (for n <= 0 the list is empty)", "why_tests_cant": "The repository compares the output with a stored brute-force list for n up to 150/200/500 only; the claim is about every n and its pruned loops ('condition reached by inspection') are only argued informally.", "anchors": ["support/python_dev/opf_python/bcc.py:bcc_5"]}
{"id": "C04", "title": "Face-centred cubic HNFs", "statement": "fcc_1(n) returns exactly the Hermite-normal-form matrices of determinant n whose superlattice is mapped to itself by every point-group operation of the face-centred cubic lattice: nothing that breaks a symmetry is returned and nothing that keeps all of them is missed.", "quantifier": "every integer n >= 1 (for n <= 0 the list is empty)", "why_tests_cant": "The repository compares the output with a stored brute-force list for n up to 150/200/500 only; the claim is about every n and its pruned loops ('condition reached by inspection') are only argued informally.", "anchors": ["support/python_dev/opf_python/fcc.py:fcc_1"]}
{"id": "C05", "title": "Hexagonal HNFs", "statement": "hex_12 / hex_22(n) returns exactly the Hermite-normal-form matrices of determinant n whose superlattice is mapped to itself by every point-group operation of the hexagonal lattice in Niggli settings 12 / 22: nothing that breaks a symmetry is returned and nothing that keeps all of them is missed.", "quantifier": "every integer n >= 1 (for n <= 0 the list is empty)", "why_tests_cant": "The repository compares the output with a stored brute-force list for n up to 150/200/500 only; the claim is about every n and its pruned loops ('condition reached by inspection') are only argued informally.", "anchors": ["support/python_dev/opf_python/hx.py:hex_12", "support/python_dev/opf_python/hx.py:hex_22"]}
{"id": "C06", "title": "Rhombohedral HNFs", "statement": "rhom_9_24 / rhom_4_2(n) returns exactly the Hermite-normal-form matrices of determinant n whose superlattice is mapped to itself by every point-group operation of the rhombohedral lattices with canonical bases 9 and 24 / 4 and 2: nothing that breaks a symmetry is returned and nothing that keeps all of them is missed.", "quantifier": "every integer n >= 1 (for n <= 0 the list is empty)", "why_tests_cant": "The repository compares the output with a stored brute-force list for n up to 150/200/500 only; the claim is about every n and its pruned loops ('condition reached by inspection') are only argued informally.", "anchors": ["support/python_dev/opf_python/rhom.py:rhom_9_24", "support/python_dev/opf_python/rhom.py:rhom_4_2"]}
{"id": "C07", "title": "Simple tetragonal HNFs", "statement": "stet_11 / stet_21(n) returns exactly the Hermite-normal-form matrices of determinant n whose superlattice is mapped to itself by every point-group operation of the simple tetragonal lattice in settings 11 / 21: nothing that breaks a symmetry is returned and nothing that keeps all of them is missed.", "quantifier": "every integer n >= 1 (for n <= 0 the list is empty)", "why_tests_cant": "The repository compares the output with a stored brute-force list for n up to 150/200/500 only; the claim is about every n and its pruned loops ('condition reached by inspection') are only argued informally.", "anchors": ["support/python_dev/opf_python/stet.py:stet_11", "support/python_dev/opf_python/stet.py:stet_21"]}
{"id": "C08", "title": "Body-centred tetragonal HNFs", "statement": "body_tet_6_7_15_18(n) returns exactly the Hermite-normal-form matrices of determinant n whose superlattice is mapped to itself by every point-group operation of each of the body-centred tetragonal canonical lattices 6, 7, 15 and 18: nothing that breaks a symmetry is returned and nothing that keeps all of them is missed.", "quantifier": "every integer n >= 1 (for n <= 0 the list is empty)", "why_tests_cant": "The repository compares the output with a stored brute-force list for n up to 150/200/500 only; the claim is about every n and its pruned loops ('condition reached by inspection') are only argued informally.", "anchors": ["support/python_dev/opf_python/body_tet.py:body_tet_6_7_15_18"]}
{"id": "C09", "title": "Simple orthorhombic HNFs", "statement": "so_32(n) returns exactly the Hermite-normal-form matrices of determinant n whose superlattice is mapped to itself by every point-group operation of the simple orthorhombic lattice: nothing that breaks a symmetry is returned and nothing that keeps all of them is missed.", "quantifier": "every integer n >= 1 (for n <= 0 the list is empty)", "why_tests_cant": "The repository compares the output with a stored brute-force list for n up to 150/200/500 only; the claim is about every n and its pruned loops ('condition reached by inspection') are only argued informally.", "anchors": ["support/python_dev/opf_python/so.py:so_32"]}
{"id": "C10", "title": "Base-centred orthorhombic HNFs", "statement": "base_ortho_38_13 / base_ortho_23 / base_ortho_40 / base_ortho_36(n) returns exactly the Hermite-normal-form matrices of determinant n whose superlattice is mapped to itself by every point-group operation of the base-centred orthorhombic canonical lattices 38, 13 / 23 / 40 / 36: nothing that breaks a symmetry is returned and nothing that keeps all of them is missed.", "quantifier": "every integer n >= 1 (for n <= 0 the list is empty)", "why_tests_cant": "The repository compares the output with a stored brute-force list for n up to 150/200/500 only; the claim is about every n and its pruned loops ('condition reached by inspection') are only argued informally.", "anchors": ["support/python_dev/opf_python/base_ortho.py"]}
{"id": "C11", "title": "Body-centred orthorhombic HNFs", "statement": "body_ortho_19 / body_ortho_8 / body_ortho_42(n) returns exactly the Hermite-normal-form matrices of determinant n whose superlattice is mapped to itself by every point-group operation of the body-centred orthorhombic canonical lattices 19 / 8 / 42: nothing that breaks a symmetry is returned and nothing that keeps all of them is missed.", "quantifier": "every integer n >= 1 (for n <= 0 the list is empty)", "why_tests_cant": "The repository compares the output with a stored brute-force list for n up to 150/200/500 only; the claim is about every n and its pruned loops ('condition reached by inspection') are only argued informally.", "anchors": ["support/python_dev/opf_python/body_ortho.py"]}
{"id": "C12", "title": "Face-centred orthorhombic HNFs", "statement": "face_ortho_26 / face_ortho_16(n) returns exactly the Hermite-normal-form matrices of determinant n whose superlattice is mapped to itself by every point-group operation of the face-centred orthorhombic canonical lattices 26 / 16: nothing that breaks a symmetry is returned and nothing that keeps all of them is missed.", "quantifier": "every integer n >= 1 (for n <= 0 the list is empty)", "why_tests_cant": "The repository compares the output with a stored brute-force list for n up to 150/200/500 only; the claim is about every n and its pruned loops ('condition reached by inspection') are only argued informally.", "anchors": ["support/python_dev/opf_python/face_ortho.py"]}
{"id": "C13", "title": "Simple monoclinic HNFs", "statement": "sm_33 / sm_34 / sm_35(n) returns exactly the Hermite-normal-form matrices of determinant n whose superlattice is mapped to itself by every point-group operation of the simple monoclinic canonical lattices 33 / 34 / 35: nothing that breaks a symmetry is returned and nothing that keeps all of them is missed.", "quantifier": "every integer n >= 1 (for n <= 0 the list is empty)", "why_tests_cant": "The repository compares the output with a stored brute-force list for n up to 150/200/500 only; the claim is about every n and its pruned loops ('condition reached by inspection') are only argued informally.", "anchors": ["support/python_dev/opf_python/sm.py"]}
{"id": "C14", "title": "Base-centred monoclinic HNFs", "statement": "base_mono_20_25 / base_mono_28 / base_mono_29_30 / base_mono_10_14_17_27_37_39_41 / base_mono_43(n) returns exactly the Hermite-normal-form matrices of determinant n whose superlattice is mapped to itself by every point-group operation of each of the base-centred monoclinic canonical lattices named in the function: nothing that breaks a symmetry is returned and nothing that keeps all of them is missed.", "quantifier": "every integer n >= 1 (for n <= 0 the list is empty)", "why_tests_cant": "The repository compares the output with a stored brute-force list for n up to 150/200/500 only; the claim is about every n and its pruned loops ('condition reached by inspection') are only argued informally.", "anchors": ["support/python_dev/opf_python/base_mono.py"]}
{"id": "C15", "title": "Triclinic HNFs", "statement": "For lattice types 31 and 44 find_supercells enumerates every HNF of determinant n (each exactly once), scaled by the multiplier; nothing is lost because every sublattice is preserved by inversion.", "quantifier": "every n >= 1 and every multiplier", "why_tests_cant": "All n.", "anchors": ["support/python_dev/opf_python/universal.py:find_supercells"]}
{"id": "C16", "title": "No superlattice is listed twice", "statement": "No enumerator returns the same HNF twice, and two different HNFs in the result describe different superlattices, so every symmetry-preserving superlattice of index n is represented by exactly one entry.", "quantifier": "every enumerator and every n", "why_tests_cant": "Quantifies over all n and over all pairs of returned matrices; also needs uniqueness of the Hermite normal form.", "anchors": ["support/python_dev/opf_python/*.py enumerators", "support/python_dev/opf_python/universal.py:get_HNF_diagonals"]}
{"id": "C17", "title": "Cubic volumes are usable", "statement": "For cubic lattices find_volumes returns exactly three sizes, in increasing order, none below the requested density, each of a form (k^3, 2k^3, 4k^3 for P and I; k^3, 4k^3, 16k^3 for F) for which the matching enumerator returns a grid.", "quantifier": "every requested density >= 1 and every rounding of the floating-point cube root", "why_tests_cant": "All densities; floating-point cube roots of perfect cubes can land on either side.", "anchors": ["support/python_dev/opf_python/universal.py:find_volumes"]}
{"id": "C18", "title": "Cubic volumes are the closest ones", "statement": "For cubic lattices find_volumes returns the three smallest sizes >= the requested density for which a symmetry-preserving grid exists.", "quantifier": "every requested density >= 1", "why_tests_cant": "Tests use three densities; the search window starts at cbrt(density)-1 and only a sweep over all densities can show whether something is skipped.", "anchors": ["support/python_dev/opf_python/universal.py:find_volumes"]}
{"id": "C19", "title": "Triclinic volume and multiplier", "statement": "For triclinic lattices find_volumes terminates and returns one size of at most 100 and the smallest multiplier m with density/m^3 <= 100; the total size m^3*n never exceeds the requested density and is short of it by less than m^3.", "quantifier": "every density >= 0", "why_tests_cant": "All densities; termination of an unbounded loop.", "anchors": ["support/python_dev/opf_python/universal.py:find_volumes"]}
{"id": "C20", "title": "Volumes for the other lattices", "statement": "For every other lattice type find_volumes returns the eleven consecutive sizes density..density+10 and no multiplier.", "quantifier": "every density and lattice type", "why_tests_cant": "All densities.", "anchors": ["support/python_dev/opf_python/universal.py:find_volumes"]}
{"id": "C21", "title": "Every identified lattice is handled", "statement": "find_supercells has exactly one enumerator for each of the 44 Niggli numbers and it is the enumerator whose canonical basis niggli_id returns for that number, so the 'unrecognized lattice type' error cannot occur after identification.", "quantifier": "all 44 lattice characters", "why_tests_cant": "Tests exercise a subset of characters; the correspondence of dispatch table and canonical-basis table is a global property.", "anchors": ["support/python_dev/opf_python/universal.py:find_supercells", "support/python_dev/opf_python/niggli_lat_id.py:niggli_id"]}
{"id": "C22", "title": "Exact mode returns everything", "statement": "With exact=True find_supercells returns one supercell for each symmetry-preserving HNF of determinant kpt, and nothing else.", "quantifier": "every kpt >= 1 and every lattice character", "why_tests_cant": "All kpt.", "anchors": ["support/python_dev/opf_python/universal.py:find_supercells"]}
{"id": "C23", "title": "Default mode returns something useful", "statement": "With exact=False every supercell returned has a size among the candidate volumes (for non-triclinic lattices never below the requested density), sizes come from at most five volumes, and the result is never empty.", "quantifier": "every kpt >= 1 and every lattice character", "why_tests_cant": "All kpt; non-emptiness needs an argument that some volume in the window has at least two grids.", "anchors": ["support/python_dev/opf_python/universal.py:find_supercells", "support/python_dev/opf_python/universal.py:find_volumes"]}
{"id": "C24", "title": "Supercells are supercells of the user's cell", "statement": "Every matrix returned by transform_supercells is the user's cell times an integer matrix of determinant equal to that of the HNF (so the supercell volume is n times the user's cell volume).", "quantifier": "every invertible user cell and canonical cell, every pair of reductions, every HNF list", "why_tests_cant": "Ranges over all real cells.", "anchors": ["support/python_dev/opf_python/universal.py:transform_supercells"]}
{"id": "C25", "title": "Supercells keep the user's symmetry", "statement": "If the user's reduced cell and the canonical reduced cell have the same integer point group (same lattice character), every returned supercell is invariant under every isometry of the user's lattice.", "quantifier": "every user cell of the given character, every symmetry-preserving HNF, every isometry", "why_tests_cant": "Ranges over all lattices and all isometries.", "anchors": ["support/python_dev/opf_python/universal.py:transform_supercells", "support/python_dev/opf_python/universal.py:find_supercells"]}
{"id": "C26", "title": "Reduction keeps the lattice", "statement": "When reduced_cell succeeds, its transformation C is an integer matrix of determinant 1 and niggli = original * C: the reduced cell spans the same lattice with the same volume and orientation.", "quantifier": "every non-singular cell and every tolerance", "why_tests_cant": "All cells and all paths through the reduction loop.", "anchors": ["support/python_dev/opf_python/pyniggli.py:reduced_cell"]}
{"id": "C27", "title": "Reduction result is Niggli-reduced", "statement": "When reduced_cell succeeds, the six parameters of the reduced cell satisfy the main and special conditions for a Niggli cell (up to the stated tolerance).", "quantifier": "every non-singular cell", "why_tests_cant": "All cells; conditions are checked by hand-written code that could itself miss a case.", "anchors": ["support/python_dev/opf_python/pyniggli.py:_niggli_check", "support/python_dev/opf_python/pyniggli.py:_niggli_reduction"]}
{"id": "C28", "title": "Reduction does not fail spuriously", "statement": "In exact arithmetic the reduction loop never ends in the 'cell reduction incorrect' error, and reduced_cell succeeds for every non-singular cell. The number of passes is at most 23 times the number of different sums of squared edge lengths, up to that of the given cell, of bases of its lattice; so with at most 43 such sums the limit of 1000 passes is never reached.", "quantifier": "every non-singular cell", "why_tests_cant": "All cells; the iteration cap is only reached by inputs no test uses.", "anchors": ["support/python_dev/opf_python/pyniggli.py:reduced_cell"]}
{"id": "C29", "title": "Bad cells are rejected", "statement": "reduced_cell raises ValueError for a matrix that is not 3x3 and for a singular matrix, and for no other input.", "quantifier": "every input matrix", "why_tests_cant": "All matrices.", "anchors": ["support/python_dev/opf_python/pyniggli.py:reduced_cell.__init__"]}
{"id": "C30", "title": "Reducing a reduced cell changes nothing", "statement": "A cell that already satisfies the Niggli conditions is returned unchanged up to sign normalisation, with unchanged parameters.", "quantifier": "every Niggli-reduced cell", "why_tests_cant": "All reduced cells.", "anchors": ["support/python_dev/opf_python/pyniggli.py:_niggli_reduction"]}
{"id": "C31", "title": "Identification always answers", "statement": "niggli_id returns a lattice name, number, family and basis for every non-singular cell whose reduction succeeds.", "quantifier": "every non-singular cell", "why_tests_cant": "One branch of the decision tree assigns nothing; only an all-inputs argument (or a well-chosen witness) shows it.", "anchors": ["support/python_dev/opf_python/niggli_lat_id.py:niggli_id"]}
{"id": "C32", "title": "Identification is consistent", "statement": "The number, name, family and canonical basis returned by niggli_id always belong together: the family is the one of the named Bravais lattice and the basis has that lattice's point group.", "quantifier": "every input reaching an answer", "why_tests_cant": "All branches and inputs.", "anchors": ["support/python_dev/opf_python/niggli_lat_id.py:niggli_id"]}
{"id": "C33", "title": "Identification is right about symmetry", "statement": "If niggli_id answers number k (exact comparison), the user's reduced Gram matrix is invariant under the full integer point group of character k in the Niggli basis.", "quantifier": "every reduced Gram matrix", "why_tests_cant": "Ranges over all real parameters.", "anchors": ["support/python_dev/opf_python/niggli_lat_id.py:niggli_id"]}
{"id": "C34", "title": "Volumes offered by the driver for cubic cells", "statement": "sc_and_bcc_kps / fcc_kps list all sizes k^3, 2k^3, 4k^3 (k^3, 4k^3, 16k^3) up to the limit, as their documentation says.", "quantifier": "every limit", "why_tests_cant": "All limits.", "anchors": ["support/python_dev/opf_python/basis_check.py:sc_and_bcc_kps", "support/python_dev/opf_python/basis_check.py:fcc_kps"]}
{"id": "C35", "title": "smallest_prime", "statement": "smallest_prime(a) returns the smallest prime factor of a for every a >= 2.", "quantifier": "every a >= 2", "why_tests_cant": "All a.", "anchors": ["support/python_dev/opf_python/body_tet.py:smallest_prime"]}
{"id": "C36", "title": "Fortran: cubic densities", "statement": "get_kpd_cubic returns densities that are >= the request, increasing, without duplicates and of an allowed form, and they are the ten smallest such values.", "quantifier": "every requested density and cubic lattice type", "why_tests_cant": "All densities.", "anchors": ["src/find_kgrids.f90:get_kpd_cubic"]}
{"id": "C37", "title": "Fortran: triclinic multiplier", "statement": "get_kpd_tric terminates with the smallest multiplier that brings the density to at most the limit.", "quantifier": "every density", "why_tests_cant": "All densities; unbounded loop.", "anchors": ["src/find_kgrids.f90:get_kpd_tric"]}
{"id": "C38", "title": "Fortran: candidate grids kept by the comparison", "statement": "After comparing any sequence of candidate grids with the running list, the list holds exactly the candidates with the largest minimum vector length (up to tolerance).", "quantifier": "every sequence of candidates", "why_tests_cant": "All histories of calls.", "anchors": ["src/grid_utils.f90:compare_grids"]}
{"id": "C39", "title": "Fortran: selected grid is optimal", "statement": "grid_selection returns the candidate with the fewest irreducible k-points among all candidates and offsets.", "quantifier": "every candidate list and k-point counter", "why_tests_cant": "All candidate lists.", "anchors": ["src/grid_utils.f90:grid_selection"]}
{"id": "C40", "title": "Fortran: expected point-group size", "statement": "check_sym compares against the point-group order of the lattice's Bravais class for all 44 characters.", "quantifier": "all 44 characters", "why_tests_cant": "Table over 44 classes.", "anchors": ["src/find_kgrids.f90:check_sym"]}
{"id": "C41", "title": "Fortran: symmetry-preserving offsets", "statement": "get_offsets lists distinct offsets, starting with the zero offset, and every offset keeps the symmetry of the grid.", "quantifier": "every lattice type and shape", "why_tests_cant": "All cells and classes.", "anchors": ["src/find_kgrids.f90:get_offsets"]}
{"id": "C42", "title": "Fortran: search loop stays in bounds", "statement": "The search loops in find_grid never write outside the arrays holding the candidates and end after finitely many steps.", "quantifier": "every density, lattice type and outcome of the candidate tests", "why_tests_cant": "All histories of successes and failures.", "anchors": ["src/find_kgrids.f90:find_grid"]}
{"id": "C43", "title": "Fortran enumerators", "statement": "Each subroutine of sp_hnfs.f90 considers exactly the symmetry-preserving HNFs of determinant n (so it agrees with the Python reference).", "quantifier": "every n >= 1", "why_tests_cant": "The repository compares the output with a stored brute-force list for n up to 150/200/500 only; the claim is about every n and its pruned loops ('condition reached by inspection') are only argued informally.", "anchors": ["src/sp_hnfs.f90"]}
{"id": "C44", "title": "Control file: density keywords", "statement": "get_inputs takes the density from the last density keyword present, stops when none is present, and an explicit SHIFT disables the offset search.", "quantifier": "every sequence of control-file lines", "why_tests_cant": "All sequences of lines.", "anchors": ["src/control_file.f90:get_inputs"]}
{"id": "C45", "title": "Fortran identification always answers", "statement": "id_cell returns a number for every cell and agrees with the Python niggli_id wherever the latter answers.", "quantifier": "every parameter vector", "why_tests_cant": "All inputs.", "anchors": ["src/niggli.f90:id_cell", "support/python_dev/opf_python/niggli_lat_id.py:niggli_id"]}
{"id": "C46", "title": "find_supercells: failures come from the user's cell, results are supercells", "statement": "find_supercells raises only the exceptions of reducing and identifying the user's own cell (reducing the canonical basis, selecting HNFs and transforming never fail), and every matrix it returns is the user's cell times an integer matrix of positive determinant, equal to kpt in exact mode.", "quantifier": "every array, every kpt >= 1, both modes, every cube root function accurate to 1/1000", "why_tests_cant": "The whole pipeline on every input; the tests run a few cells.", "anchors": ["support/python_dev/opf_python/universal.py:find_supercells"]}
{"id": "C47", "title": "find_supercells, exact mode, end to end", "statement": "On a clear cell (one for which every number compared by the reduction and the identification is zero or farther from zero than the tolerance), find_supercells(U, n, exact=True) returns exactly the superlattices of index n that keep every symmetry of U, each once, unless the reduction hits its pass limit (which needs more than 43 different sums of squared edge lengths, see C28) or the cell is one of the unidentified cells, which have no symmetry but inversion.", "quantifier": "every such cell and every n >= 1", "why_tests_cant": "All cells and sizes, with a symmetry group that is computed from no table.", "anchors": ["support/python_dev/opf_python/universal.py:find_supercells", "support/python_dev/opf_python/niggli_lat_id.py:niggli_id", "support/python_dev/opf_python/pyniggli.py:reduced_cell"]}
{"id": "C48", "title": "find_supercells, default mode, end to end", "statement": "On an identified clear cell (see C47) the default mode returns at least one supercell; every one keeps all symmetries of the cell and has one of the chosen sizes (at or above kpt, at most kpt+10 unless cubic; m^3*n just below kpt for triclinic cells), and all symmetry-preserving superlattices of the chosen sizes are returned unless triclinic.", "quantifier": "every such cell and every kpt >= 1", "why_tests_cant": "All cells and sizes.", "anchors": ["support/python_dev/opf_python/universal.py:find_supercells", "support/python_dev/opf_python/universal.py:find_volumes"]}
{"id": "C49", "title": "Fortran: the returned grid is the best of those found", "statement": "find_grid returns one of the grids found for the densities it tried, and it has the fewest irreducible k-points (the smallest ratio of irreducible to all k-points for densities above 500 without MIN_IRR_KPTS) of all of them.", "quantifier": "every density, lattice type and outcome of the candidate tests", "why_tests_cant": "All histories of candidates.", "anchors": ["src/find_kgrids.f90:find_grid"]}
{"id": "C50", "title": "Fortran: transformation to the user's cell", "statement": "transform_supercell returns the user's cell times an integer matrix of the determinant of the HNF, agrees with the Python version in exact arithmetic, and does not depend on errors of the canonical Niggli cell that stay below one half in the rounded matrix.", "quantifier": "every cell, HNF and pair of reductions", "why_tests_cant": "All cells and all perturbations.", "anchors": ["src/grid_utils.f90:transform_supercell", "support/python_dev/opf_python/universal.py:transform_supercells"]}
{"id": "C51", "title": "Fortran: work arrays are large enough", "statement": "The arrays temp_HNFs(3,3,total_hnfs) allocated by the subroutines of sp_hnfs.f90 are never written past their end: the number of HNFs found is at most the size computed from the diagonals.", "quantifier": "every n >= 1 and each of the 42 lattice types", "why_tests_cant": "An overflow would depend on the number of divisors of n and the lattice type; all n are concerned.", "anchors": ["src/sp_hnfs.f90"]}
{"id": "C52", "title": "Fortran: sizes without a symmetry-preserving grid", "statement": "For each non-cubic lattice type the subroutine of sp_hnfs.f90 finds at least one HNF for every size (two for multiples of four); for cubic lattices it finds one exactly when n is m b^3 with m in 1,2,4 (1,4,16 for fcc), and for all other sizes hands on the all-zero matrix as if it were an HNF.", "quantifier": "every n >= 1", "why_tests_cant": "Statement about every size.", "anchors": ["src/sp_hnfs.f90"]}
{"id": "C53", "title": "Fortran: find_grid returns a symmetric grid of the requested density", "statement": "The grid find_grid returns contains the reciprocal lattice of the user's cell with index equal to the number of k-points, is mapped to itself by every symmetry of the user's cell, comes with one of the offered offsets, and has at least the requested number of k-points (triclinic lattices: m^3 a with a >= kpd/m^3).", "quantifier": "every cell with its reduction, lattice type, density, offset list and behaviour of the symmetry library", "why_tests_cant": "The repository's tests compare a few stored grids; the claim is about all cells, densities and outcomes of the symmetry reduction.", "anchors": ["src/find_kgrids.f90:find_grid", "src/grid_utils.f90:transform_supercell", "src/grid_utils.f90:grid_selection", "src/sp_hnfs.f90"]}
{"id": "C54", "title": "Fortran: find_grid ends with a grid", "statement": "If the symmetry library answers for every grid, find_grid ends with a grid: always for cubic lattices up to 830583 k-points; for the others when some candidate passes the packing test (at each multiple of four in the first twenty sizes; at each size for triclinic lattices), after a bounded number of sizes.", "quantifier": "every cell, density and behaviour of the library", "why_tests_cant": "Termination for all inputs.", "anchors": ["src/find_kgrids.f90:find_grid"]}
{"id": "C55", "title": "Fortran: reduction of the cell", "statement": "reduce_cell returns a cell that spans the same lattice (change of basis with determinant 1) and is a Niggli cell up to the tolerance derived from EPS; where the Python reduction also succeeds the results are identical, and both run into the pass limit for the same cells. The final check refuses only cells with a squared length within the tolerance or a compared quantity exactly at the tolerance. A Niggli cell is accepted for every tolerance.", "quantifier": "every cell and tolerance", "why_tests_cant": "All cells and tolerances, in particular ties at the tolerance.", "anchors": ["src/niggli.f90:reduce_cell", "src/niggli.f90:condition_check", "support/python_dev/opf_python/pyniggli.py:reduced_cell"]}
{"id": "C56", "title": "Fortran: canonical cells of id_cell", "statement": "Every canonical cell O written in id_cell is reduced by reduce_cell, with the EPS of the user, to a cell whose scalar products have the pattern of its Niggli number.", "quantifier": "all 42 bases and every EPS", "why_tests_cant": "The bases are decimal constants with six digits; whether they are precise enough depends on a continuous parameter.", "anchors": ["src/niggli.f90:id_cell", "src/niggli.f90:reduce_cell"]}
{"id": "C57", "title": "Fortran: the point group check accepts correct identifications", "statement": "For a cell identified by id_cell, check_sym lets the program go on exactly if the number of symmetries it is given is the order of the point group of the lattice.", "quantifier": "every clear cell (see C47) and every EPS in the range where the canonical cells are reduced correctly", "why_tests_cant": "All cells of all 44 types.", "anchors": ["src/find_kgrids.f90:find_grid", "src/find_kgrids.f90:check_sym", "src/niggli.f90:id_cell"]}
{"id": "C58", "title": "Fortran: find_grid from the user's cell to the grid", "statement": "Called with a cell, find_grid either stops because the cell is dependent or needs too many reduction passes (then there are more than 43 sums of squared edge lengths, see C28), or stops because the library does not find all symmetries, or searches; and every grid it returns contains the reciprocal lattice with index equal to the number of k-points, has all symmetries of the user's lattice, comes with an allowed offset and is dense enough.", "quantifier": "every clear cell (see C47), EPS, density, offset argument and behaviour of the symmetry library", "why_tests_cant": "Composition of reduction, identification, enumeration and transformation for all cells; wrong grids are returned silently.", "anchors": ["src/find_kgrids.f90:find_grid", "src/niggli.f90:id_cell", "src/grid_utils.f90", "src/sp_hnfs.f90"]}
{"id": "C59", "title": "POSCAR: what read_POSCAR returns", "statement": "From a file in the usual format (with or without a line of element names, a comment after the counts allowed) read_POSCAR returns the scale factor, the lattice vectors as columns, the type of every atom, block by block, and the positions in lattice coordinates, both for Direct and for Cartesian positions.", "quantifier": "every file, number of species, counts and positions", "why_tests_cant": "All files; the repository has no tests of the reader with a scale factor other than 1 in Cartesian coordinates.", "anchors": ["src/control_file.f90:read_POSCAR", "src/control_file.f90:parse_line_for_numbers"]}
{"id": "C60", "title": "delinter: a nearly symmetric cell is made exactly symmetric", "statement": "delint, given a cell and the number of its lattice character, returns a cell whose scalar products satisfy the equalities of that character exactly (International Tables A, table 9.2.5.1); a cell that satisfies them already comes back unchanged; the check that the rotation back is orthogonal never stops the program.", "quantifier": "every nonsingular real cell and each of the 44 numbers", "why_tests_cant": "Exact equality for all real cells cannot be observed in floating point, and the repository has no tests of the module.", "anchors": ["src/delinter.f90:delint", "src/delinter.f90:symmetrize", "src/delinter.f90:cell2basis", "src/delinter.f90:basis2cell"]}
{"id": "C61", "title": "Brute-force reference: get_srHNFs", "statement": "Given the point group of the parent lattice (or any matrices that generate it), get_srHNFs lists exactly the Hermite normal forms of determinant n whose superlattice keeps every symmetry of the parent, each once, as long as the tolerance is at most 1/n; the tailored enumerators list the same matrices.", "quantifier": "every rational nonsingular parent lattice, every volume n, every tolerance up to 1/n", "why_tests_cant": "The brute-force program is what the tests of the enumerators are generated with; its own correctness is not tested and concerns all lattices and sizes.", "anchors": ["support/brute_force/srHNF_brute.f90:get_srHNFs", "support/brute_force/srHNF_brute.f90:symm_pres", "support/brute_force/srHNF_brute.f90:get_HNF_diagonals"]}
{"id": "C62", "title": "Brute-force reference: generators of the point group", "statement": "forms_group tells whether matrices generate the point group; find_pg_gens returns a smallest set of two or three generators (nothing only if four are needed, which does not happen for the lattices of the enumerators); find_gens_of_pg ends and returns as few generators as possible; the superlattices found with the generators are those found with the group.", "quantifier": "every finite group of matrices given as a list", "why_tests_cant": "All groups; reads outside an array depend on memory content and are not seen in a test.", "anchors": ["support/brute_force/srHNF_brute.f90:forms_group", "support/brute_force/srHNF_brute.f90:find_pg_gens", "support/brute_force/srHNF_brute.f90:combinations", "support/brute_force/general_approach.py:forms_group", "support/brute_force/general_approach.py:find_gens_of_pg"]}
{"id": "C63", "title": "Fortran: which grid is chosen", "statement": "For each size the choice is made among the accepted symmetry-preserving grids with the longest shortest vector (and the next longest). find_grid returns the choice of one of the sizes tried, and no grid of the first layer of any size tried has fewer irreducible k-points (a smaller ratio above 500 without MIN_IRR_KPTS): sizes kpd to kpd+s_range-1, for cubic lattices the five smallest sizes there are, for triclinic ones the first usable density.", "quantifier": "every lattice number, density, size range and all answers of the library", "why_tests_cant": "An optimum over all superlattices of all sizes in the range, for all lattices and all outcomes of the library calls.", "anchors": ["src/find_kgrids.f90:find_grid", "src/grid_utils.f90:compare_grids", "src/grid_utils.f90:grid_selection"]}
{"id": "C64", "title": "KPOINTS: the numbers can be read back", "statement": "A coordinate written with F15.12 is read back with an error of at most 5e-13 if it lies between -10 and 100 (up to rounding) and is lost otherwise; every point of the first Brillouin zone is written readably unless the cell is very skewed (squared length of a lattice vector times the sum of the squared lengths of the reciprocal vectors at least 399); for a very skewed cell of a cubic lattice a coordinate is lost.", "quantifier": "every rational coordinate, weight, cell and point of the first zone", "why_tests_cant": "All coordinates and cells; the bound needs an estimate of the length of all points of the first zone.", "anchors": ["src/driver.f90:lat_id_driver"]}
{"id": "C65", "title": "From POSCAR and KPGEN to KPOINTS", "statement": "If the program writes a KPOINTS file for a clear cell (see C47) that is not very skewed and EPS from 0.000022 to 0.0011, the file lists, with weights that add up to the number of points, points of a grid that contains the reciprocal lattice, has all symmetries of the cell, the user's or an allowed offset and at least the requested density, and every point of the grid is the image of a listed one; if the runtime refuses to write to unit 5, which is never opened, no point is written.", "quantifier": "all input files and all answers of the library that satisfy its contract", "why_tests_cant": "The whole program for all cells and control files; the outcome depends on routines of other libraries.", "anchors": ["src/driver.f90:lat_id_driver", "src/control_file.f90:get_inputs", "src/find_kgrids.f90:find_grid"]}
{"id": "C66", "title": "Brute force: the file n_srHNFs.out", "statement": "Given the point group of the lattice, srHNF.x writes one line with the size and the number of superlattices that keep all symmetries for each size from 1 to nMax that has any, in increasing order and readable, and prints their total; the smallest size asked for makes no difference.", "quantifier": "every lattice, every nMax up to 5000 and every tolerance up to 1/nMax", "why_tests_cant": "The counts are over all superlattices of all sizes of an arbitrary lattice, and nothing may be missing from the file.", "anchors": ["support/brute_force/driver.f90:driver", "support/brute_force/srHNF_brute.f90:get_srHNFs"]}
{"id": "C67", "title": "Brute force: pg.x prints generators of the symmetries", "statement": "Given the point group of any lattice, pg.x finds and prints two or three integer matrices (lattice coordinates) that generate exactly the symmetries of the Gram matrix.", "quantifier": "every nonsingular rational lattice", "why_tests_cant": "That three generators always suffice needs the classification of all lattices, not single examples.", "anchors": ["support/brute_force/driver2.f90:driver", "support/brute_force/srHNF_brute.f90:find_pg_gens"]}
{"id": "C68", "title": "Brute force: reading struct_enum.in", "statement": "Blank and comment lines make no difference; a file with all items in order is read completely (lattice vectors as columns, sites, labels, sizes, tolerance, mode, concentration ranges); every file that is accepted has labels from 0 to k-1, none twice at a site and all of them used, and ranges with 0 <= min, max <= denominator.", "quantifier": "every list of lines and every way the runtime reads numbers", "why_tests_cant": "All texts, all numbers of sites and labels, comments at all places.", "anchors": ["support/brute_force/io_utils.f90:read_input", "support/brute_force/io_utils.f90:co_ca"]}
{"id": "C69", "title": "Seven crystal families, and which family a symmetry-keeping superlattice has", "statement": "Every lattice has 48, 24, 12, 16, 8, 4 or 2 symmetries (families 1 to 7 of niggli_id); a lattice that keeps all symmetries of another has a family with the same or a smaller number; niggli_id with any tolerance names the family of every cell that has no compared number close to its tolerance.", "quantifier": "every nonsingular rational cell, every tolerance", "why_tests_cant": "All cells, all superlattices; needs the classification of Niggli cells and Lagrange's theorem.", "anchors": ["support/python_dev/opf_python/niggli_lat_id.py:niggli_id", "support/python_dev/opf_python/basis_check.py:_test_case"]}
{"id": "C70", "title": "cell_test tells whether the supercells keep the symmetry", "statement": "cell_test returns True exactly if all supercells of the tested sizes keep the symmetry of the cell, and counts the character of the cell.", "quantifier": "every cell without compared numbers close to their tolerances, every counter, every limit", "why_tests_cant": "All cells, all sizes up to any limit.", "anchors": ["support/python_dev/opf_python/basis_check.py:cell_test", "support/python_dev/opf_python/basis_check.py:_test_case"]}
{"id": "C71", "title": "The Fortran enumerators with integers of 32 bits", "statement": "With default integers of 32 bits the Fortran enumerators list, for every size, exactly the HNFs kept by all symmetries of the lattice, and reserve room for all of them.", "quantifier": "every lattice number, every size, every behaviour of the machine on overflow", "why_tests_cant": "The first wrong lists need more than 46340 points; no test goes near them, and what happens there depends on the compiler.", "anchors": ["src/sp_hnfs.f90:basecm_28", "src/sp_hnfs.f90:hex_12", "src/sp_hnfs.f90:tric_31_44", "src/find_kgrids.f90:find_grid"]}
{"id": "C72", "title": "The Python enumerators with doubles", "statement": "Although they test divisibility with floating point quotients (x % f == 0, f/a == 2), the Python enumerators list, for every size, exactly the HNFs kept by all symmetries of the lattice.", "quantifier": "every lattice number, every size, every rounding to a nearest double", "why_tests_cant": "A rounded quotient can miss an integer by one unit in the last place for some sizes only (1/49*49 is not 1); tests cover a few sizes.", "anchors": ["support/python_dev/opf_python/hx.py:hex_12", "support/python_dev/opf_python/base_mono.py:base_mono_28", "support/python_dev/opf_python/bcc.py:bcc_5", "support/python_dev/opf_python/universal.py:find_supercells"]}
