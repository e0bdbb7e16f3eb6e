(** The repository's own test data for sp_hnfs.f90 (src/tests/spHNFs, read as text), as listed in
    src/sp_hnfs.xml: size and expected list of each case; the files with more than 250 HNFs or a size above 60 are left
    out (cubic lattices: any size).  n.in.st_21_3 has two lines, 10 and 50; its list is that of 50.  A matrix (a 0 0; b c 0; d e f) is written (a, b, c, d, e, f). *)
From Coq Require Import ZArith List.
Import ListNotations.
Open Scope Z_scope.

Definition cases_sc_3 : list (Z * list (Z * Z * Z * Z * Z * Z)) := [
  (2, [(1, 0, 1, 1, 1, 2)]);
  (4, [(1, 1, 2, 1, 0, 2)]);
  (8, [(2, 0, 2, 0, 0, 2)])].
Definition cases_fcc_1 : list (Z * list (Z * Z * Z * Z * Z * Z)) := [
  (4, [(1, 1, 2, 1, 0, 2)]);
  (16, [(1, 1, 4, 1, 0, 4)]);
  (8, [(2, 0, 2, 0, 0, 2)])].
Definition cases_bcc_5 : list (Z * list (Z * Z * Z * Z * Z * Z)) := [
  (2, [(1, 0, 1, 1, 1, 2)]);
  (4, [(1, 0, 1, 3, 3, 4)]);
  (8, [(2, 0, 2, 0, 0, 2)])].
Definition cases_hex_12 : list (Z * list (Z * Z * Z * Z * Z * Z)) := [
  (8, [(1, 0, 1, 0, 0, 8); (2, 0, 2, 0, 0, 2)]);
  (20, [(1, 0, 1, 0, 0, 20); (2, 0, 2, 0, 0, 5)]);
  (35, [(1, 0, 1, 0, 0, 35)])].
Definition cases_hex_22 : list (Z * list (Z * Z * Z * Z * Z * Z)) := [
  (8, [(2, 0, 2, 0, 0, 2); (8, 0, 1, 0, 0, 1)])].
Definition cases_rhom_9_24 : list (Z * list (Z * Z * Z * Z * Z * Z)) := [
  (10, [(1, 1, 2, 4, 4, 5)]);
  (50, [(1, 1, 2, 24, 24, 25); (1, 5, 10, 1, 0, 5)])].
Definition cases_rhom_4_2 : list (Z * list (Z * Z * Z * Z * Z * Z)) := [
  (10, [(1, 1, 2, 1, 1, 5)]);
  (50, [(1, 1, 2, 1, 1, 25); (1, 5, 10, 4, 0, 5)])].
Definition cases_st_11 : list (Z * list (Z * Z * Z * Z * Z * Z)) := [
  (10, [(1, 0, 1, 0, 0, 10); (1, 0, 1, 5, 5, 10); (1, 1, 2, 0, 0, 5)]);
  (21, [(1, 0, 1, 0, 0, 21)]);
  (50, [(1, 0, 1, 0, 0, 50); (1, 0, 1, 25, 25, 50); (1, 1, 2, 0, 0, 25); (5, 0, 5, 0, 0, 2); (5, 0, 5, 1, 1, 2); (5, 5, 10, 0, 0, 1)])].
Definition cases_st_21 : list (Z * list (Z * Z * Z * Z * Z * Z)) := [
  (10, [(5, 0, 1, 0, 1, 2); (5, 0, 1, 1, 1, 2); (10, 0, 1, 0, 0, 1)]);
  (21, [(21, 0, 1, 0, 0, 1)]);
  (50, [(1, 0, 5, 0, 5, 10); (1, 0, 5, 5, 5, 10); (2, 0, 5, 0, 0, 5); (25, 0, 1, 0, 1, 2); (25, 0, 1, 1, 1, 2); (50, 0, 1, 0, 0, 1)])].
Definition cases_bct_6_7_15_18 : list (Z * list (Z * Z * Z * Z * Z * Z)) := [
  (10, [(10, 0, 1, 0, 0, 1)]);
  (55, [(55, 0, 1, 0, 0, 1)])].
Definition cases_so_32 : list (Z * list (Z * Z * Z * Z * Z * Z)) := [
  (10, [(1, 0, 1, 0, 0, 10); (1, 0, 1, 5, 0, 10); (1, 0, 1, 0, 5, 10); (1, 0, 1, 5, 5, 10); (1, 0, 2, 0, 0, 5); (1, 1, 2, 0, 0, 5); (1, 0, 5, 0, 0, 2); (1, 0, 5, 1, 0, 2); (1, 0, 5, 0, 1, 2); (1, 0, 5, 1, 1, 2); (1, 0, 10, 0, 0, 1); (1, 5, 10, 0, 0, 1); (2, 0, 1, 0, 0, 5); (2, 0, 5, 0, 0, 1); (5, 0, 1, 0, 0, 2); (5, 0, 1, 1, 0, 2); (5, 0, 1, 0, 1, 2); (5, 0, 1, 1, 1, 2); (5, 0, 2, 0, 0, 1); (5, 1, 2, 0, 0, 1); (10, 0, 1, 0, 0, 1)]);
  (47, [(1, 0, 1, 0, 0, 47); (1, 0, 47, 0, 0, 1); (47, 0, 1, 0, 0, 1)])].
Definition cases_fco_26 : list (Z * list (Z * Z * Z * Z * Z * Z)) := [
  (10, [(1, 0, 2, 2, 4, 5); (1, 1, 2, 4, 4, 5); (1, 0, 10, 0, 0, 1); (1, 5, 10, 0, 0, 1); (2, 0, 1, 4, 2, 5); (2, 0, 5, 0, 0, 1); (5, 0, 2, 0, 0, 1); (5, 1, 2, 0, 0, 1); (10, 0, 1, 0, 0, 1)]);
  (55, [(1, 0, 1, 27, 27, 55); (1, 0, 5, 5, 3, 11); (1, 0, 11, 2, 2, 5); (1, 0, 55, 0, 0, 1); (5, 0, 1, 3, 5, 11); (5, 0, 11, 0, 0, 1); (11, 0, 1, 2, 2, 5); (11, 0, 5, 0, 0, 1); (55, 0, 1, 0, 0, 1)])].
Definition cases_fco_16 : list (Z * list (Z * Z * Z * Z * Z * Z)) := [
  (10, [(1, 1, 2, 4, 4, 5); (1, 0, 2, 2, 4, 5); (1, 5, 10, 0, 0, 1); (1, 0, 10, 0, 0, 1); (2, 0, 1, 4, 2, 5); (2, 0, 5, 0, 0, 1); (5, 1, 2, 0, 0, 1); (5, 0, 2, 0, 0, 1); (10, 0, 1, 0, 0, 1)]);
  (55, [(1, 0, 1, 27, 27, 55); (1, 0, 5, 5, 3, 11); (1, 0, 11, 2, 2, 5); (1, 0, 55, 0, 0, 1); (5, 0, 1, 3, 5, 11); (5, 0, 11, 0, 0, 1); (11, 0, 1, 2, 2, 5); (11, 0, 5, 0, 0, 1); (55, 0, 1, 0, 0, 1)])].
Definition cases_bco_19 : list (Z * list (Z * Z * Z * Z * Z * Z)) := [
  (10, [(2, 0, 1, 4, 0, 5); (2, 4, 5, 0, 0, 1); (10, 0, 1, 0, 0, 1)]);
  (27, [(1, 0, 1, 13, 0, 27); (1, 1, 3, 4, 0, 9); (1, 4, 9, 1, 0, 3); (1, 13, 27, 0, 0, 1); (3, 0, 1, 3, 0, 9); (3, 0, 3, 0, 0, 3); (3, 3, 9, 0, 0, 1); (9, 0, 1, 0, 0, 3); (9, 0, 3, 0, 0, 1); (27, 0, 1, 0, 0, 1)])].
Definition cases_bco_8 : list (Z * list (Z * Z * Z * Z * Z * Z)) := [
  (10, [(2, 0, 1, 4, 0, 5); (2, 0, 1, 4, 1, 5); (10, 0, 1, 0, 0, 1)]);
  (27, [(1, 0, 1, 13, 0, 27); (1, 0, 1, 13, 1, 27); (1, 0, 3, 4, 0, 9); (1, 0, 3, 4, 3, 9); (3, 0, 1, 3, 0, 9); (3, 0, 1, 3, 1, 9); (3, 0, 3, 0, 0, 3); (9, 0, 1, 0, 0, 3); (9, 0, 1, 0, 1, 3); (27, 0, 1, 0, 0, 1)])].
Definition cases_bco_42 : list (Z * list (Z * Z * Z * Z * Z * Z)) := [
  (10, [(2, 0, 1, 1, 0, 5); (2, 1, 5, 0, 0, 1); (10, 0, 1, 0, 0, 1)]);
  (27, [(1, 0, 1, 14, 0, 27); (1, 2, 3, 5, 0, 9); (1, 5, 9, 2, 0, 3); (1, 14, 27, 0, 0, 1); (3, 0, 1, 6, 0, 9); (3, 0, 3, 0, 0, 3); (3, 6, 9, 0, 0, 1); (9, 0, 1, 0, 0, 3); (9, 0, 3, 0, 0, 1); (27, 0, 1, 0, 0, 1)])].
Definition cases_baseco_38_13 : list (Z * list (Z * Z * Z * Z * Z * Z)) := [
  (10, [(1, 0, 1, 0, 0, 10); (1, 0, 1, 5, 5, 10); (1, 1, 2, 0, 0, 5); (1, 1, 5, 0, 0, 2); (1, 1, 5, 0, 1, 2); (1, 4, 5, 0, 0, 2); (1, 4, 5, 1, 1, 2); (1, 1, 10, 0, 0, 1); (1, 9, 10, 0, 0, 1)])].
Definition cases_baseco_23 : list (Z * list (Z * Z * Z * Z * Z * Z)) := [
  (10, [(1, 0, 1, 1, 0, 10); (1, 0, 1, 9, 0, 10); (1, 0, 1, 1, 5, 10); (1, 0, 1, 9, 5, 10); (1, 0, 2, 1, 0, 5); (1, 0, 2, 4, 0, 5); (1, 0, 5, 1, 0, 2); (1, 0, 5, 1, 1, 2); (1, 0, 10, 0, 0, 1)])].
Definition cases_baseco_40 : list (Z * list (Z * Z * Z * Z * Z * Z)) := [
  (10, [(1, 0, 1, 0, 0, 10); (1, 0, 1, 5, 0, 10); (1, 0, 1, 0, 2, 10); (1, 0, 1, 5, 2, 10); (2, 0, 1, 0, 0, 5); (2, 0, 1, 0, 2, 5); (5, 0, 1, 0, 0, 2); (5, 0, 1, 1, 0, 2); (10, 0, 1, 0, 0, 1)])].
Definition cases_baseco_36 : list (Z * list (Z * Z * Z * Z * Z * Z)) := [
  (10, [(1, 0, 1, 0, 0, 10); (1, 0, 1, 2, 0, 10); (1, 0, 1, 0, 5, 10); (1, 0, 1, 2, 5, 10); (1, 0, 2, 0, 0, 5); (1, 0, 2, 2, 0, 5); (1, 0, 5, 0, 0, 2); (1, 0, 5, 0, 1, 2); (1, 0, 10, 0, 0, 1)])].
Definition cases_sm_33 : list (Z * list (Z * Z * Z * Z * Z * Z)) := [
  (10, [(1, 0, 1, 0, 0, 10); (1, 0, 1, 1, 0, 10); (1, 0, 1, 2, 0, 10); (1, 0, 1, 3, 0, 10); (1, 0, 1, 4, 0, 10); (1, 0, 1, 5, 0, 10); (1, 0, 1, 6, 0, 10); (1, 0, 1, 7, 0, 10); (1, 0, 1, 8, 0, 10); (1, 0, 1, 9, 0, 10); (1, 0, 1, 0, 5, 10); (1, 0, 1, 1, 5, 10); (1, 0, 1, 2, 5, 10); (1, 0, 1, 3, 5, 10); (1, 0, 1, 4, 5, 10); (1, 0, 1, 5, 5, 10); (1, 0, 1, 6, 5, 10); (1, 0, 1, 7, 5, 10); (1, 0, 1, 8, 5, 10); (1, 0, 1, 9, 5, 10); (1, 0, 2, 0, 0, 5); (1, 0, 2, 1, 0, 5); (1, 0, 2, 2, 0, 5); (1, 0, 2, 3, 0, 5); (1, 0, 2, 4, 0, 5); (1, 1, 2, 0, 0, 5); (1, 1, 2, 1, 0, 5); (1, 1, 2, 2, 0, 5); (1, 1, 2, 3, 0, 5); (1, 1, 2, 4, 0, 5); (1, 0, 5, 0, 0, 2); (1, 0, 5, 1, 0, 2); (1, 0, 5, 0, 1, 2); (1, 0, 5, 1, 1, 2); (1, 0, 10, 0, 0, 1); (1, 5, 10, 0, 0, 1); (2, 0, 1, 0, 0, 5); (2, 0, 1, 1, 0, 5); (2, 0, 1, 2, 0, 5); (2, 0, 1, 3, 0, 5); (2, 0, 1, 4, 0, 5); (2, 0, 5, 0, 0, 1); (5, 0, 1, 0, 0, 2); (5, 0, 1, 1, 0, 2); (5, 0, 1, 0, 1, 2); (5, 0, 1, 1, 1, 2); (5, 0, 2, 0, 0, 1); (5, 1, 2, 0, 0, 1); (10, 0, 1, 0, 0, 1)])].
Definition cases_sm_34_35 : list (Z * list (Z * Z * Z * Z * Z * Z)) := [
  (10, [(1, 0, 1, 0, 0, 10); (1, 0, 1, 0, 5, 10); (1, 0, 1, 5, 0, 10); (1, 0, 1, 5, 5, 10); (1, 0, 2, 0, 0, 5); (1, 1, 2, 0, 0, 5); (1, 0, 5, 0, 0, 2); (1, 1, 5, 0, 0, 2); (1, 2, 5, 0, 0, 2); (1, 3, 5, 0, 0, 2); (1, 4, 5, 0, 0, 2); (1, 0, 5, 0, 1, 2); (1, 1, 5, 0, 1, 2); (1, 2, 5, 0, 1, 2); (1, 3, 5, 0, 1, 2); (1, 4, 5, 0, 1, 2); (1, 0, 5, 1, 0, 2); (1, 1, 5, 1, 0, 2); (1, 2, 5, 1, 0, 2); (1, 3, 5, 1, 0, 2); (1, 4, 5, 1, 0, 2); (1, 0, 5, 1, 1, 2); (1, 1, 5, 1, 1, 2); (1, 2, 5, 1, 1, 2); (1, 3, 5, 1, 1, 2); (1, 4, 5, 1, 1, 2); (1, 0, 10, 0, 0, 1); (1, 1, 10, 0, 0, 1); (1, 2, 10, 0, 0, 1); (1, 3, 10, 0, 0, 1); (1, 4, 10, 0, 0, 1); (1, 5, 10, 0, 0, 1); (1, 6, 10, 0, 0, 1); (1, 7, 10, 0, 0, 1); (1, 8, 10, 0, 0, 1); (1, 9, 10, 0, 0, 1); (2, 0, 1, 0, 0, 5); (2, 0, 5, 0, 0, 1); (2, 1, 5, 0, 0, 1); (2, 2, 5, 0, 0, 1); (2, 3, 5, 0, 0, 1); (2, 4, 5, 0, 0, 1); (5, 0, 1, 0, 0, 2); (5, 0, 1, 0, 1, 2); (5, 0, 1, 1, 0, 2); (5, 0, 1, 1, 1, 2); (5, 0, 2, 0, 0, 1); (5, 1, 2, 0, 0, 1); (10, 0, 1, 0, 0, 1)])].
Definition cases_basecm_10_14_17_27_37_39_41 : list (Z * list (Z * Z * Z * Z * Z * Z)) := [
  (10, [(1, 0, 2, 3, 0, 5); (1, 1, 2, 3, 0, 5); (1, 0, 10, 0, 0, 1); (1, 1, 10, 0, 0, 1); (1, 2, 10, 0, 0, 1); (1, 3, 10, 0, 0, 1); (1, 4, 10, 0, 0, 1); (1, 5, 10, 0, 0, 1); (1, 6, 10, 0, 0, 1); (1, 7, 10, 0, 0, 1); (1, 8, 10, 0, 0, 1); (1, 9, 10, 0, 0, 1); (2, 0, 1, 1, 0, 5); (2, 0, 5, 0, 0, 1); (2, 1, 5, 0, 0, 1); (2, 2, 5, 0, 0, 1); (2, 3, 5, 0, 0, 1); (2, 4, 5, 0, 0, 1); (5, 0, 2, 0, 0, 1); (5, 1, 2, 0, 0, 1); (10, 0, 1, 0, 0, 1)])].
Definition cases_basecm_20_25 : list (Z * list (Z * Z * Z * Z * Z * Z)) := [
  (10, [(1, 0, 2, 0, 4, 5); (1, 0, 2, 1, 4, 5); (1, 0, 2, 2, 4, 5); (1, 0, 2, 3, 4, 5); (1, 0, 2, 4, 4, 5); (1, 1, 2, 0, 4, 5); (1, 1, 2, 1, 4, 5); (1, 1, 2, 2, 4, 5); (1, 1, 2, 3, 4, 5); (1, 1, 2, 4, 4, 5); (1, 0, 10, 0, 0, 1); (1, 5, 10, 0, 0, 1); (2, 0, 1, 0, 2, 5); (2, 0, 1, 1, 2, 5); (2, 0, 1, 2, 2, 5); (2, 0, 1, 3, 2, 5); (2, 0, 1, 4, 2, 5); (2, 0, 5, 0, 0, 1); (5, 0, 2, 0, 0, 1); (5, 1, 2, 0, 0, 1); (10, 0, 1, 0, 0, 1)])].
Definition cases_basecm_28 : list (Z * list (Z * Z * Z * Z * Z * Z)) := [
  (10, [(1, 0, 1, 0, 0, 10); (1, 0, 1, 5, 0, 10); (1, 0, 1, 0, 8, 10); (1, 0, 1, 1, 8, 10); (1, 0, 1, 2, 8, 10); (1, 0, 1, 3, 8, 10); (1, 0, 1, 4, 8, 10); (1, 0, 1, 5, 8, 10); (1, 0, 1, 6, 8, 10); (1, 0, 1, 7, 8, 10); (1, 0, 1, 8, 8, 10); (1, 0, 1, 9, 8, 10); (2, 0, 1, 0, 0, 5); (2, 0, 1, 0, 3, 5); (2, 0, 1, 1, 3, 5); (2, 0, 1, 2, 3, 5); (2, 0, 1, 3, 3, 5); (2, 0, 1, 4, 3, 5); (5, 0, 1, 0, 0, 2); (5, 0, 1, 1, 0, 2); (10, 0, 1, 0, 0, 1)])].
Definition cases_basecm_29_30 : list (Z * list (Z * Z * Z * Z * Z * Z)) := [
  (10, [(1, 0, 1, 0, 0, 10); (1, 0, 1, 5, 0, 10); (1, 0, 1, 0, 8, 10); (1, 0, 1, 1, 8, 10); (1, 0, 1, 2, 8, 10); (1, 0, 1, 3, 8, 10); (1, 0, 1, 4, 8, 10); (1, 0, 1, 5, 8, 10); (1, 0, 1, 6, 8, 10); (1, 0, 1, 7, 8, 10); (1, 0, 1, 8, 8, 10); (1, 0, 1, 9, 8, 10); (2, 0, 1, 0, 0, 5); (2, 0, 1, 0, 3, 5); (2, 0, 1, 1, 3, 5); (2, 0, 1, 2, 3, 5); (2, 0, 1, 3, 3, 5); (2, 0, 1, 4, 3, 5); (5, 0, 1, 0, 0, 2); (5, 0, 1, 1, 0, 2); (10, 0, 1, 0, 0, 1)])].
Definition cases_basecm_43 : list (Z * list (Z * Z * Z * Z * Z * Z)) := [
  (10, [(1, 0, 1, 4, 0, 10); (1, 0, 1, 9, 0, 10); (1, 0, 1, 0, 2, 10); (1, 0, 1, 1, 2, 10); (1, 0, 1, 2, 2, 10); (1, 0, 1, 3, 2, 10); (1, 0, 1, 4, 2, 10); (1, 0, 1, 5, 2, 10); (1, 0, 1, 6, 2, 10); (1, 0, 1, 7, 2, 10); (1, 0, 1, 8, 2, 10); (1, 0, 1, 9, 2, 10); (2, 0, 1, 3, 0, 5); (2, 0, 1, 0, 2, 5); (2, 0, 1, 1, 2, 5); (2, 0, 1, 2, 2, 5); (2, 0, 1, 3, 2, 5); (2, 0, 1, 4, 2, 5); (5, 0, 1, 0, 0, 2); (5, 0, 1, 1, 0, 2); (10, 0, 1, 0, 0, 1)])].
Definition cases_tric_31_44 : list (Z * list (Z * Z * Z * Z * Z * Z)) := [
  (10, [(1, 0, 1, 0, 0, 10); (1, 0, 1, 0, 1, 10); (1, 0, 1, 0, 2, 10); (1, 0, 1, 0, 3, 10); (1, 0, 1, 0, 4, 10); (1, 0, 1, 0, 5, 10); (1, 0, 1, 0, 6, 10); (1, 0, 1, 0, 7, 10); (1, 0, 1, 0, 8, 10); (1, 0, 1, 0, 9, 10); (1, 0, 1, 1, 0, 10); (1, 0, 1, 1, 1, 10); (1, 0, 1, 1, 2, 10); (1, 0, 1, 1, 3, 10); (1, 0, 1, 1, 4, 10); (1, 0, 1, 1, 5, 10); (1, 0, 1, 1, 6, 10); (1, 0, 1, 1, 7, 10); (1, 0, 1, 1, 8, 10); (1, 0, 1, 1, 9, 10); (1, 0, 1, 2, 0, 10); (1, 0, 1, 2, 1, 10); (1, 0, 1, 2, 2, 10); (1, 0, 1, 2, 3, 10); (1, 0, 1, 2, 4, 10); (1, 0, 1, 2, 5, 10); (1, 0, 1, 2, 6, 10); (1, 0, 1, 2, 7, 10); (1, 0, 1, 2, 8, 10); (1, 0, 1, 2, 9, 10); (1, 0, 1, 3, 0, 10); (1, 0, 1, 3, 1, 10); (1, 0, 1, 3, 2, 10); (1, 0, 1, 3, 3, 10); (1, 0, 1, 3, 4, 10); (1, 0, 1, 3, 5, 10); (1, 0, 1, 3, 6, 10); (1, 0, 1, 3, 7, 10); (1, 0, 1, 3, 8, 10); (1, 0, 1, 3, 9, 10); (1, 0, 1, 4, 0, 10); (1, 0, 1, 4, 1, 10); (1, 0, 1, 4, 2, 10); (1, 0, 1, 4, 3, 10); (1, 0, 1, 4, 4, 10); (1, 0, 1, 4, 5, 10); (1, 0, 1, 4, 6, 10); (1, 0, 1, 4, 7, 10); (1, 0, 1, 4, 8, 10); (1, 0, 1, 4, 9, 10); (1, 0, 1, 5, 0, 10); (1, 0, 1, 5, 1, 10); (1, 0, 1, 5, 2, 10); (1, 0, 1, 5, 3, 10); (1, 0, 1, 5, 4, 10); (1, 0, 1, 5, 5, 10); (1, 0, 1, 5, 6, 10); (1, 0, 1, 5, 7, 10); (1, 0, 1, 5, 8, 10); (1, 0, 1, 5, 9, 10); (1, 0, 1, 6, 0, 10); (1, 0, 1, 6, 1, 10); (1, 0, 1, 6, 2, 10); (1, 0, 1, 6, 3, 10); (1, 0, 1, 6, 4, 10); (1, 0, 1, 6, 5, 10); (1, 0, 1, 6, 6, 10); (1, 0, 1, 6, 7, 10); (1, 0, 1, 6, 8, 10); (1, 0, 1, 6, 9, 10); (1, 0, 1, 7, 0, 10); (1, 0, 1, 7, 1, 10); (1, 0, 1, 7, 2, 10); (1, 0, 1, 7, 3, 10); (1, 0, 1, 7, 4, 10); (1, 0, 1, 7, 5, 10); (1, 0, 1, 7, 6, 10); (1, 0, 1, 7, 7, 10); (1, 0, 1, 7, 8, 10); (1, 0, 1, 7, 9, 10); (1, 0, 1, 8, 0, 10); (1, 0, 1, 8, 1, 10); (1, 0, 1, 8, 2, 10); (1, 0, 1, 8, 3, 10); (1, 0, 1, 8, 4, 10); (1, 0, 1, 8, 5, 10); (1, 0, 1, 8, 6, 10); (1, 0, 1, 8, 7, 10); (1, 0, 1, 8, 8, 10); (1, 0, 1, 8, 9, 10); (1, 0, 1, 9, 0, 10); (1, 0, 1, 9, 1, 10); (1, 0, 1, 9, 2, 10); (1, 0, 1, 9, 3, 10); (1, 0, 1, 9, 4, 10); (1, 0, 1, 9, 5, 10); (1, 0, 1, 9, 6, 10); (1, 0, 1, 9, 7, 10); (1, 0, 1, 9, 8, 10); (1, 0, 1, 9, 9, 10); (1, 0, 2, 0, 0, 5); (1, 0, 2, 0, 1, 5); (1, 0, 2, 0, 2, 5); (1, 0, 2, 0, 3, 5); (1, 0, 2, 0, 4, 5); (1, 0, 2, 1, 0, 5); (1, 0, 2, 1, 1, 5); (1, 0, 2, 1, 2, 5); (1, 0, 2, 1, 3, 5); (1, 0, 2, 1, 4, 5); (1, 0, 2, 2, 0, 5); (1, 0, 2, 2, 1, 5); (1, 0, 2, 2, 2, 5); (1, 0, 2, 2, 3, 5); (1, 0, 2, 2, 4, 5); (1, 0, 2, 3, 0, 5); (1, 0, 2, 3, 1, 5); (1, 0, 2, 3, 2, 5); (1, 0, 2, 3, 3, 5); (1, 0, 2, 3, 4, 5); (1, 0, 2, 4, 0, 5); (1, 0, 2, 4, 1, 5); (1, 0, 2, 4, 2, 5); (1, 0, 2, 4, 3, 5); (1, 0, 2, 4, 4, 5); (1, 1, 2, 0, 0, 5); (1, 1, 2, 0, 1, 5); (1, 1, 2, 0, 2, 5); (1, 1, 2, 0, 3, 5); (1, 1, 2, 0, 4, 5); (1, 1, 2, 1, 0, 5); (1, 1, 2, 1, 1, 5); (1, 1, 2, 1, 2, 5); (1, 1, 2, 1, 3, 5); (1, 1, 2, 1, 4, 5); (1, 1, 2, 2, 0, 5); (1, 1, 2, 2, 1, 5); (1, 1, 2, 2, 2, 5); (1, 1, 2, 2, 3, 5); (1, 1, 2, 2, 4, 5); (1, 1, 2, 3, 0, 5); (1, 1, 2, 3, 1, 5); (1, 1, 2, 3, 2, 5); (1, 1, 2, 3, 3, 5); (1, 1, 2, 3, 4, 5); (1, 1, 2, 4, 0, 5); (1, 1, 2, 4, 1, 5); (1, 1, 2, 4, 2, 5); (1, 1, 2, 4, 3, 5); (1, 1, 2, 4, 4, 5); (1, 0, 5, 0, 0, 2); (1, 0, 5, 0, 1, 2); (1, 0, 5, 1, 0, 2); (1, 0, 5, 1, 1, 2); (1, 1, 5, 0, 0, 2); (1, 1, 5, 0, 1, 2); (1, 1, 5, 1, 0, 2); (1, 1, 5, 1, 1, 2); (1, 2, 5, 0, 0, 2); (1, 2, 5, 0, 1, 2); (1, 2, 5, 1, 0, 2); (1, 2, 5, 1, 1, 2); (1, 3, 5, 0, 0, 2); (1, 3, 5, 0, 1, 2); (1, 3, 5, 1, 0, 2); (1, 3, 5, 1, 1, 2); (1, 4, 5, 0, 0, 2); (1, 4, 5, 0, 1, 2); (1, 4, 5, 1, 0, 2); (1, 4, 5, 1, 1, 2); (1, 0, 10, 0, 0, 1); (1, 1, 10, 0, 0, 1); (1, 2, 10, 0, 0, 1); (1, 3, 10, 0, 0, 1); (1, 4, 10, 0, 0, 1); (1, 5, 10, 0, 0, 1); (1, 6, 10, 0, 0, 1); (1, 7, 10, 0, 0, 1); (1, 8, 10, 0, 0, 1); (1, 9, 10, 0, 0, 1); (2, 0, 1, 0, 0, 5); (2, 0, 1, 0, 1, 5); (2, 0, 1, 0, 2, 5); (2, 0, 1, 0, 3, 5); (2, 0, 1, 0, 4, 5); (2, 0, 1, 1, 0, 5); (2, 0, 1, 1, 1, 5); (2, 0, 1, 1, 2, 5); (2, 0, 1, 1, 3, 5); (2, 0, 1, 1, 4, 5); (2, 0, 1, 2, 0, 5); (2, 0, 1, 2, 1, 5); (2, 0, 1, 2, 2, 5); (2, 0, 1, 2, 3, 5); (2, 0, 1, 2, 4, 5); (2, 0, 1, 3, 0, 5); (2, 0, 1, 3, 1, 5); (2, 0, 1, 3, 2, 5); (2, 0, 1, 3, 3, 5); (2, 0, 1, 3, 4, 5); (2, 0, 1, 4, 0, 5); (2, 0, 1, 4, 1, 5); (2, 0, 1, 4, 2, 5); (2, 0, 1, 4, 3, 5); (2, 0, 1, 4, 4, 5); (2, 0, 5, 0, 0, 1); (2, 1, 5, 0, 0, 1); (2, 2, 5, 0, 0, 1); (2, 3, 5, 0, 0, 1); (2, 4, 5, 0, 0, 1); (5, 0, 1, 0, 0, 2); (5, 0, 1, 0, 1, 2); (5, 0, 1, 1, 0, 2); (5, 0, 1, 1, 1, 2); (5, 0, 2, 0, 0, 1); (5, 1, 2, 0, 0, 1); (10, 0, 1, 0, 0, 1)])].
