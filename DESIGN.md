# Formal model of autoGR: design

## Aim

autoGR generates k-point grids (equivalently, supercells) that keep every
symmetry of a crystal lattice.  The pipeline is

1. reduce the user's cell to its Niggli cell (`pyniggli.py`),
2. identify which of the 44 lattice characters it has (`niggli_lat_id.py`),
3. choose candidate sizes (`universal.find_volumes`),
4. enumerate, for the canonical basis of that character, every
   symmetry-preserving Hermite normal form (HNF) of each size
   (`sc.py`, `bcc.py`, ..., `base_mono.py`),
5. carry these back to the user's basis (`universal.transform_supercells`),
6. (Fortran only) rank the candidates and pick the best grid.

The model is a shallow embedding in Gallina: one executable definition per
program function, following its branches and loops in order.  Every definition
cites the file and lines it models and every simplification.

## Layout (`rocq/theories`)

| file | content |
|---|---|
| `Mat3.v` | 3x3 integer matrices (record), product, transpose, determinant; algebra lemmas |
| `Spec.v` | the small specification: HNF, lattice of a matrix, integer isometry of a Gram matrix, "symmetry preserving" |
| `PyNum.v` | Python `range`, `while` loops, exact model of float quotients and `%` tests |
| `Model_*.v` | the program, one file per source file |
| `Bases.v` | the canonical bases written in the sources as decimal matrices, and the Gram matrices they stand for |
| `FortFacts.v` | facts on the Fortran primitives (`do` loops, `mod`, quotients) |
| `Bases_niggli.v` | reduction matrix of each canonical basis and the Gram matrix of its Niggli cell |
| `QMat.v`, `QNum.v` | rational matrices; Python/numpy comparisons (`allclose`) on rationals |
| `Spec_niggli.v`, `Spec_id.v`, `Spec_grid.v`, `Spec_find.v`, `Spec_kgrids.v`, `Spec_niggli_f90.v`, `Spec_clear.v`, `Spec_control.v`, `Spec_delinter.v`, `Spec_offsets.v`, `Spec_int32.v`, `Spec_float.v` | definition of a Niggli cell; table of the 44 lattice characters; cells on a grid; clear cells (no compared number close to its tolerance); what `find_supercells` should return; words for the Fortran search, the reduction and the two input files |
| `PointGroup.v`, `NearSym.v` | generic theorem: the integer isometries of a positive definite Gram matrix are a finite, computable list; generation by a few elements |
| `Proofs_*.v` | lemmas |
| `Data_*.v`, `Conformance_*.v` | the repository's own test data as Coq terms, and the model computed on them (see "Conformance") |
| `Properties_*.v` | the theorems of `MANIFEST.json` only: `Proof. exact lemma. Qed.` + `Print Assumptions`, with non-vacuity examples next to them |

## Specification of "symmetry preserving" (properties C02-C16, C22, C25)

A canonical lattice is given by its Gram matrix `G` (integer after scaling).
Its point group, in lattice coordinates, is the set of integer matrices `X`
with `X^T G X = G`: this is a definition, not a list.  An HNF `H` keeps the
symmetry when for each such `X` the superlattice `H Z^3` is mapped into itself:
`forall v, exists w, X (H v) = H w`.  An enumerator is correct when

    In H (enumerator n) <-> is_hnf n H /\ symmetry_preserving G H.

Nothing in that statement mentions the program's own tests (alpha, beta, gamma
conditions).  `Bases.v` ties `G` to the decimal basis in the source: the Gram
matrix of the decimal basis differs from `G / scale` by less than 1e-4 in
each entry.  The expected lists committed in the repository
(`support/python_dev/tests/test_output/*`) were produced by brute force with
the same criterion and were used (as text) to sanity check the specification.

## Plan per property

| id | what is modelled | how it is proved |
|---|---|---|
| C01 | `get_HNF_diagonals` | membership characterised by divisibility, NoDup by injectivity |
| C02-C04 | `sc_3`, `bcc_5`, `fcc_1` with float quotient tests and `break` | point group enumerated by the generic theorem; divisibility reasoning gives the three families |
| C05-C14 | the other enumerators, literal transcription of the nested loops | soundness: the code's tests give the integer matrix `Z` with `X H = H Z` for generators; completeness: `Z` for well-chosen group elements gives the code's tests and justifies each pruned loop |
| C15 | triclinic branch of `find_supercells` | all HNFs; point group of a generic lattice is {1,-1} |
| C16 | all enumerators | NoDup of nested loops; uniqueness of HNF |
| C17-C20 | `find_volumes` | loop invariants; the float cube root is a parameter constrained to within one of the integer cube root |
| C18 | `find_volumes` | expected false for the code; witness by computation if so |
| C21-C23 | `find_supercells` dispatch and loop | case analysis over 44 characters, loop invariant; non-emptiness needs >= 2 grids for some size of the window |
| C24, C25 | `transform_supercells` over an abstract field / the rationals | matrix algebra |
| C26-C30 | `reduced_cell` over exact ordered arithmetic with tolerance `eps` | loop invariant over the list of steps; `eps` arbitrary for C26, C27 |
| C28 | iteration cap | expected false (cap of 1000): witness; the "incorrect" error is unreachable for eps = 0 |
| C31-C33, C45 | `niggli_id` / `id_cell` decision trees over six parameters | case analysis; expected gap in one branch gives a witness |
| C34 | `sc_and_bcc_kps`, `fcc_kps` | expected false (`range(1,2,4)`): witness |
| C35 | `smallest_prime` | induction over the loop |
| C36-C42, C44, C49, C59, C50, C53, C54 | Fortran search, ranking and control-file code | loop invariants, witnesses where the code misbehaves |
| C46-C48 | `find_supercells` as a whole | the parts above; the reductions of the 42 canonical bases are computed on the two ends of an interval of tolerances and shown not to depend on the tolerance inside it |
| C45, C55-C58 | `niggli.f90` and `find_grid` as a whole | the loop is proved equal to the Python loop up to the pass limit; the decision tree equals the Python tree completed by 31; the bases are reduced for a whole interval of tolerances |
| C60 | `delinter.f90` over the reals of the standard library | Gram matrices are kept by the rotation; case analysis over the 44 numbers |
| C61, C62 | `support/brute_force`: `get_srHNFs`, `find_pg_gens`, `find_gens_of_pg` | entries of the transformation are multiples of 1/n, so rounding decides exactly; closure of the set of products; finiteness |
| C66, C67, C68 | `support/brute_force`: `driver.f90`, `driver2.f90`, `io_utils.f90` | C61 and C62 with the numbers written; every lattice has a Niggli character up to change of basis, so at most three generators; induction over the lines |
| C69, C70 | `basis_check.py`: `cell_test`, `_test_case`; families of `niggli_lat_id.py` | every lattice has a Niggli cell, so its group is that of a character or trivial; Lagrange on the rotations gives the order of families; the loops by induction, with C47 for the supercells of each size |
| C71 | `sp_hnfs.f90` with every default-integer operation rounded to 32 bits by an unknown function `w` | interval bounds on every intermediate result; for wraparound the witnesses by arithmetic modulo 2^32 |
| C72 | the Python enumerators and `find_hnfs`, quotients kept as terms, every operation rounded by an unknown function `rnd` | forward error bound by induction on the term; where the test is true all parts are integers and nothing is rounded; where it is false the distance to a multiple is larger than the error; rounding to the nearest double fulfils what is used |
| C63 | `find_grid` from the sizes tried to the grid returned | C38, C39, C42 and C49 put together; the sizes with a candidate are counted |
| C64, C65 | `driver.f90` from POSCAR and KPGEN to the lines of KPOINTS, with the edit descriptors | decimal digits are read back by induction; a point of the first zone is at most as long as the average over the eight roundings of its coordinates; the rest is C44, C58 and C59 put together |
| C43, C51, C52 | `sp_hnfs.f90` | proved equal to the Python enumerators (as lists up to order), so the same specification applies; counting over the diagonals bounds the arrays |

## Trusted base

* Coq 8.16.1's kernel (including `vm_compute`).
* What `Print Assumptions` prints for each theorem (see end of this file).
* Transcription of the Python/Fortran text into Gallina.
* Numbers: Python ints and HNF entries are `Z`.  Float quotients such as
  `e*beta13/float(c)` are modelled as exact fractions.  Up to 1000 points rounding to doubles changes
  no test: this is `C72_same_list`, proved for the same code with every operation rounded
  (`Model_float.v`).
* Reals (cells) are modelled by exact rationals (`Qc`, canonical fractions); rounding of
  floats is not modelled there.  Tolerances and numpy's relative tolerance are kept.
* In `delinter.f90` reals are those of the standard library (roots and arc cosines are needed);
  the literals 3.1415926535897931 and 1.910633236249019 stand for pi and acos(-1/3).
* The cube root of the volume in `reduced_cell` (for the tolerance) and of the density in
  `find_volumes` are parameters; the theorems say what they need of them.

## Conformance

To check the transcription, the model is run on the test data of the repository (read as text and
turned into Coq terms, `Data_*.v`) and compared with the expected outputs in `Conformance_f90.v` and
`Conformance_py.v`.  These examples are evidence for the fidelity of the model; no claim rests on them.

| test suite | cases | result |
|---|---|---|
| `niggli.xml`: `reduce_cell` (cell and transformation) | 60 | all agree |
| `niggli.xml`: `id_cell` (six outputs each) | 44 | agree except `O.out.17` and `No.out.34` |
| `niggli.xml`: `get_params`, `condition_check`, `get_sign`, `find_C3`, `find_C4` | 39 | all agree |
| `find_kgrids.xml`: `get_kpd_cubic`, `get_kpd_tric`, `transform_supercell` | 13 | all agree |
| `sp_hnfs.xml`: the enumerators, in order (sizes up to 60 and lists up to 250) | 49 | all agree |
| `test_pyniggli.py`: reductions and errors | 18 | all agree |
| `test_niggli_id.py` | 50 | all agree |
| `test_universal.py`: `transform_supercells`, `find_volumes` | 8 | all agree |
| `test_universal.py`: `find_supercells`, in order | 30 | agree except lattice 34 |
| `test_cases.py`: brute-force lists up to a small size | 27 | all agree |

The three that do not agree are wrong test data: `O.out.17` is not the basis assigned at niggli.f90
588-589; `No.out.34` is not `O.out.34` times `Co.out.34` (`case_34_inconsistent`); the supercells of
lattice 34 are those of another, equivalent basis (`find_supercells_34` reproduces the file exactly
with that basis).  In addition `n.in.st_21_3` has two lines (the list is that of the second), and the
files `niggli_check_eps.in` that `niggli.xml` names do not exist (`eps.in` was used).

## Not modelled

Plotting and driver scripts, numpy/LAPACK internals (matrix inverse is
modelled by its algebraic meaning), the external libraries
`symlib`/`kpointgeneration` (their results are parameters).  Of the file output only that of
`driver.f90` and of `support/brute_force/driver.f90` is modelled: the edit descriptors I and F as in gfortran, halves in the last place
rounded away from zero.  In `control_file.f90` and `io_utils.f90` the
conversion of text to numbers by the Fortran runtime is a parameter; a read gives a value, leaves
the variable (`Null`, e.g. "/") or fails.

## Findings

Places where the code does not do what it says; each is a theorem about the model.

* `find_volumes` does not return the closest cubic sizes: kpd = 5833, and every
  k^3 + 1 with k >= 18 (`C18_*_refuted`).
* `reduced_cell` refuses some cells that are already reduced ("Cell reduction
  incorrect"), because `np.allclose` adds a relative tolerance to the absolute one
  (`C28_niggli_cell_refused_refuted`).
* `reduced_cell` gives up on a unit cell sheared by 3000 (limit of 1000 passes)
  (`C28_iteration_limit_refuted`).  The number of passes is at most 23 per sum of squared
  edge lengths of the bases not longer than the given cell (`C28_pass_bound`).
* `niggli_id` raises UnboundLocalError on some triclinic cells (D, E, F > 0, E = F, not
  A/2 = E, not B = C): line 228 has no `else` (`C31_no_answer_refuted`).  The lattice
  has character 31.
* The reduction of the canonical bases depends on the tolerance to a few per cent: with
  one 5% off basis 16 gets another transformation, with one 10% larger basis 6 is refused
  ("Cell reduction incorrect").  With the tolerance the program computes all 42 are reduced
  as the enumerators expect (used in C46-C48; `canonical_reduced`).
* `sc_and_bcc_kps` and `fcc_kps` (`basis_check.py`) mean to offer k^3, 2k^3, 4k^3 (k^3,
  4k^3, 16k^3) but loop over `range(1,2,4)` and `range(1,4,16)`, which contain only 1: only
  cubes are offered (`C34_multiples_missing_refuted`).

* Fortran `get_kpd_cubic`: the bases tried start at a sixteenth of the cube root of the density
  and only 100 of them are tried, so k^3 is missed for every k >= 105 and nothing at all is
  found from 180^3 on for simple and body-centred cubic lattices (`C36_*_refuted`).
* Fortran `grid_selection`: the loop over the second tier compares with
  `n_irreducible(i)` but writes `n_irreducible(count+i)`; a worse grid can overwrite a better one
  (`C39_second_tier_refuted`).  The second call of `generateIrredKpointList` also drops the
  symmetry flag.
* Fortran `get_offsets`: rows 7 and 8 are equal for base-centred lattices with a shortest third
  vector; (1/2,0,0) is offered for cubic grids although it breaks the symmetry; offsets such as
  (3/4,1/4,0) break inversion (`C41_*_refuted`).  For body-centred orthorhombic, base-centred and
  cubic grids some listed offset breaks a symmetry whatever primitive basis the grid has; for
  face-centred orthorhombic, body-centred tetragonal and rhombohedral grids the list is right only for
  the bases characterised in `Properties_offsets.v` (the rhombohedral basis itself is not one).
* Fortran `find_grid`: in the cubic branch the slot number is the number of the density, not
  of the candidate, so slot 6 of 5 is written when one of the first five densities fails
  (`C42_cubic_out_of_bounds_refuted`), and a slot that was never written can be read
  (`C49_hole_refuted`).  In the other branch the loop never ends when fewer than five
  densities give a candidate (`C42_endless_refuted`).

* Fortran `sp_hnfs.f90`, cubic lattices: for a size without a symmetric grid the subroutine
  hands on the all-zero matrix as if one HNF had been found (`C52_zero_matrix`); `find_grid`
  never asks for such a size, so this is harmless there.  `bcc_5` (line 372) moreover uses
  `nhnfs` before it is set.
* Fortran `find_grid`, triclinic lattices: the number of k-points can be below the requested
  density (m^3 (kpd / m^3) with integer division), and `nt_kpts(1) = a_kpd*mult` should be
  `a_kpd*mult**3` (not used for the decision between equals).
* Fortran, EPS = 0: the final check of `reduce_cell` compares with `<`, so every cell with two
  equal lengths or a right angle is refused, for instance the unit cube
  (`C55_zero_tolerance`, `C55_zero_tolerance_refuted`).
* Fortran, small EPS: the canonical bases have six digits.  For EPS in [1e-12, 1e-6] basis 6 is
  reduced to a cell with other scalar products than the enumerator expects
  (`C56_small_eps_refuted`), no test notices, and all grids returned for a body-centred
  tetragonal cell lack its symmetry (`C58_small_eps_refuted`).  Bases 8, 17 and 40 are affected
  in the same way.  For EPS in [0.000022, 0.0011] (default 0.001) all bases are reduced
  correctly (`C56_reduced`).
* `id_cell` compares with tolerance EPS*y in block 4 where `niggli_id` uses EPS + 1e-5*y: with the
  default tolerances the two give different numbers for some cells (`C45_agrees_refuted`).
* `get_inputs`: a number that cannot be read sets the variable that ends the loop over the file.
  All later lines are ignored without a message (`C44_rest_ignored`): an earlier density wins over
  the last one, the program stops with "not set" although a density is present, or it goes on with
  an undefined number of k-points (`C44_*_refuted`).  MIN_IRR_KPTS can be switched on but not off;
  indented or lower-case keywords are skipped (`C44_example`); lines are cut after 100 characters.
  KPPRA multiplies by the number of atoms; "k-points per reciprocal atom" is usually divided by it.
* `read_POSCAR`: Cartesian positions are divided by the scale factor, but in a POSCAR the factor
  applies to them as well; every such position is wrong unless the factor is 1
  (`C59_scaled_refuted`).  A negative count overruns the array of types (`C59_negative_refuted`).
  A "Selective dynamics" line is taken for the line Direct/Cartesian.
* `delinter.f90` (not called by the rest of the program): the formulas for an angle have a wrong
  sign for the characters 6, 7, 8, 12, 16, 17, 24, 26, 27 and 28 (for 12 the angle gamma is 60
  degrees, the character needs 120), so a perfect cell is distorted or gives NaN
  (`C60_changed_refuted`); for 12, 26, 27, 28 no output has the character (`C60_never_refuted`).
  For 43 the products with b and c are mixed up (`C60_43_refuted`).
* `srHNF_brute.f90`, `forms_group`: the loops over the array of matrices run to its total number of
  entries, nine times the number of matrices; depending on what lies in memory behind the array,
  matrices are accepted that do not generate the group (`C62_memory_refuted`).
* `general_approach.py`, `forms_group`: only the number of elements and the first element are
  compared (`C62_first_only_refuted`).  Harmless in `find_gens_of_pg` (`C62_python`).
* `find_grid` considers a size only if it has at least two symmetry-preserving superlattices
  (`temp_nhnfs > 1`; `>= 1` in the cubic branch, `> 0` in the triclinic one).  Sizes with exactly
  one are skipped however good their grid is; the grid with one k-point is never returned for
  lattices neither cubic nor triclinic (`C63_single_kpoint_refuted`).
* `driver.f90` writes coordinates in units of the user's reciprocal vectors with F15.12.  For very
  skewed cells points of the first zone have coordinates up to hundreds and are written as
  asterisks (`C64_skewed_refuted`, and the run in `C65_example`).
* `driver.f90` lines 38-41 write to unit 5, which is never opened: in gfortran the standard input.
  If that is an error the file KPOINTS ends after its title (`C65_unit5_refuted`).
* `support/brute_force/driver.f90` reads the smallest size but always starts at 1
  (`C66_min_ignored`), and computes generators that it does not use.
* `io_utils.f90`, `co_ca`: only the first 50 characters of a line decide whether it is blank; labels
  of a site beyond the k-th are silently ignored.
* `basis_check.cell_test` calls `body_tet_6`, `base_mono_10_17`, `rhom_9` and others, which do not
  exist: for 13 of the 44 characters it stops with an AttributeError (`C70_missing`).
* `_test_case` compares families only, so it accepts superlattices that are turned against the
  parent lattice and break its symmetry (`C70_rotated_refuted`).  For clear cells its "False" is
  always a false alarm (`C70_verdict`).
* `sp_hnfs.f90` computes products such as `e*e` in default integers before they are stored in
  64 bits.  Up to 46340 points nothing overflows (`C71_exact_partial`).  Beyond, with the usual wraparound,
  grids which keep the symmetry are missed (`C71_lost_refuted`), others are wrongly taken
  (`C71_invented_refuted`) and the array for the list is too short (`C71_total_refuted`).  For triclinic
  lattices the number of HNFs overflows as soon as it reaches 2^31 (`C71_triclinic_total`), which by a
  computation outside the proofs happens first at 19800 points.
* With doubles the Python enumerators are exact up to 1000 points (`C72_exact_partial`); with sides of more
  than 53 bits a quotient is rounded to 2 and a grid that breaks the symmetry is listed
  (`C72_invented_refuted`).  Nothing is claimed in between.
* The title of KPOINTS gives the number of points with I6: asterisks from a million on
  (`C64_title_refuted`).

Found while reading, not expressible as a theorem: the docstring and the Fortran code have
-1.1789 where the Python code has -1.1798 in basis 16; `gengrid.py` imports a function
that does not exist; in `general_approach.py`, `div_HNF`, `cdivs` and `fdivs` use undefined
names (`x21sd`, `var1`, `appned`, ...) and cannot run, so they are not modelled; `src/python_comp.f90`
calls `bct_15`, which no longer exists; `src/driver2.f90` and `src/miles.f90` call `hex_12` and `so_32` without the
required argument `symm_flag`, and `src/lat_id_driver.f90` has a syntax error, so none of these programs compiles
and none is modelled; the name of character 43 is spelt "body centered monoclinc".

## Print Assumptions

Every theorem listed in `MANIFEST.json` except those of C60 prints "Closed under the global
context": no axioms are used, not even the standard library's.

The theorems `C60_*` are about real numbers and print the axioms of the standard library's reals:
`ClassicalDedekindReals.sig_forall_dec`, `ClassicalDedekindReals.sig_not_dec`,
`FunctionalExtensionality.functional_extensionality_dep` and `Classical_Prop.classic`.
