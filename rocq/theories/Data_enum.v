(** The symmetry-preserving HNFs that the repository found by brute force
    (support/python_dev/tests/test_output/<name>_srHNFs.out, read as text), up to the size given for each file:
    the data of test_cases.py. *)
From Coq Require Import ZArith List.
From Verif Require Import Mat3.
Import ListNotations.
Open Scope Z_scope.

Definition brute_sc : list (Z * Z * Z * Z * Z * Z) := [
  (1,0,1,0,0,1); (1,0,1,1,1,2); (1,1,2,1,0,2); (2,0,2,0,0,2); (2,0,2,2,2,4); (3,0,3,0,0,3); (2,2,4,2,0,4); (3,0,3,3,3,6); (4,0,4,0,0,4); (3,3,6,3,0,6); (5,0,5,0,0,5); (4,0,4,4,4,8); (6,0,6,0,0,6)].

Definition brute_bcc : list (Z * Z * Z * Z * Z * Z) := [
  (1,0,1,0,0,1); (1,0,1,1,1,2); (1,0,1,3,3,4); (2,0,2,0,0,2); (2,0,2,2,2,4); (3,0,3,0,0,3); (2,0,2,6,6,8); (3,0,3,3,3,6); (4,0,4,0,0,4); (3,0,3,9,9,12); (5,0,5,0,0,5); (4,0,4,4,4,8); (6,0,6,0,0,6)].

Definition brute_fcc : list (Z * Z * Z * Z * Z * Z) := [
  (1,0,1,0,0,1); (1,1,2,1,0,2); (2,0,2,0,0,2); (1,1,4,1,0,4); (3,0,3,0,0,3); (2,2,4,2,0,4); (4,0,4,0,0,4); (3,3,6,3,0,6); (5,0,5,0,0,5); (2,2,8,2,0,8); (6,0,6,0,0,6)].

Definition brute_stet_11 : list (Z * Z * Z * Z * Z * Z) := [
  (1,0,1,0,0,1); (1,0,1,0,0,2); (1,0,1,1,1,2); (1,1,2,0,0,1); (1,0,1,0,0,3); (1,0,1,0,0,4); (1,0,1,2,2,4); (1,1,2,0,0,2); (1,1,2,1,0,2); (2,0,2,0,0,1); (1,0,1,0,0,5); (1,0,1,0,0,6); (1,0,1,3,3,6); (1,1,2,0,0,3); (1,0,1,0,0,7); (1,0,1,0,0,8); (1,0,1,4,4,8); (1,1,2,0,0,4); (1,1,2,2,0,4); (2,0,2,0,0,2); (2,0,2,1,1,2); (2,2,4,0,0,1); (1,0,1,0,0,9); (3,0,3,0,0,1); (1,0,1,0,0,10); (1,0,1,5,5,10); (1,1,2,0,0,5); (1,0,1,0,0,11); (1,0,1,0,0,12); (1,0,1,6,6,12); (1,1,2,0,0,6); (1,1,2,3,0,6); (2,0,2,0,0,3); (1,0,1,0,0,13); (1,0,1,0,0,14); (1,0,1,7,7,14); (1,1,2,0,0,7); (1,0,1,0,0,15); (1,0,1,0,0,16); (1,0,1,8,8,16); (1,1,2,0,0,8); (1,1,2,4,0,8); (2,0,2,0,0,4); (2,0,2,2,2,4); (2,2,4,0,0,2); (2,2,4,1,0,2); (4,0,4,0,0,1); (1,0,1,0,0,17); (1,0,1,0,0,18); (1,0,1,9,9,18); (1,1,2,0,0,9); (3,0,3,0,0,2); (3,0,3,1,1,2); (3,3,6,0,0,1); (1,0,1,0,0,19); (1,0,1,0,0,20); (1,0,1,10,10,20); (1,1,2,0,0,10); (1,1,2,5,0,10); (2,0,2,0,0,5); (1,0,1,0,0,21); (1,0,1,0,0,22); (1,0,1,11,11,22); (1,1,2,0,0,11); (1,0,1,0,0,23); (1,0,1,0,0,24); (1,0,1,12,12,24); (1,1,2,0,0,12); (1,1,2,6,0,12); (2,0,2,0,0,6); (2,0,2,3,3,6); (2,2,4,0,0,3)].

Definition brute_stet_21 : list (Z * Z * Z * Z * Z * Z) := [
  (1,0,1,0,0,1); (1,0,1,0,1,2); (1,0,1,1,1,2); (2,0,1,0,0,1); (3,0,1,0,0,1); (1,0,2,0,0,2); (1,1,2,1,0,2); (2,0,1,0,1,2); (2,0,1,1,1,2); (4,0,1,0,0,1); (5,0,1,0,0,1); (3,0,1,0,1,2); (3,0,1,1,1,2); (6,0,1,0,0,1); (7,0,1,0,0,1); (1,0,2,0,2,4); (1,0,2,2,2,4); (2,0,2,0,0,2); (2,1,2,1,0,2); (4,0,1,0,1,2); (4,0,1,1,1,2); (8,0,1,0,0,1); (1,0,3,0,0,3); (9,0,1,0,0,1); (5,0,1,0,1,2); (5,0,1,1,1,2); (10,0,1,0,0,1); (11,0,1,0,0,1); (3,0,2,0,0,2); (3,1,2,1,0,2); (6,0,1,0,1,2); (6,0,1,1,1,2); (12,0,1,0,0,1); (13,0,1,0,0,1); (7,0,1,0,1,2); (7,0,1,1,1,2); (14,0,1,0,0,1); (15,0,1,0,0,1); (1,0,4,0,0,4); (1,2,4,2,0,4); (2,0,2,0,2,4); (2,0,2,2,2,4); (4,0,2,0,0,2); (4,1,2,1,0,2); (8,0,1,0,1,2); (8,0,1,1,1,2); (16,0,1,0,0,1); (17,0,1,0,0,1); (1,0,3,0,3,6); (1,0,3,3,3,6); (2,0,3,0,0,3); (9,0,1,0,1,2); (9,0,1,1,1,2); (18,0,1,0,0,1); (19,0,1,0,0,1); (5,0,2,0,0,2); (5,1,2,1,0,2); (10,0,1,0,1,2); (10,0,1,1,1,2); (20,0,1,0,0,1); (21,0,1,0,0,1); (11,0,1,0,1,2); (11,0,1,1,1,2); (22,0,1,0,0,1); (23,0,1,0,0,1); (3,0,2,0,2,4); (3,0,2,2,2,4); (6,0,2,0,0,2); (6,1,2,1,0,2); (12,0,1,0,1,2); (12,0,1,1,1,2); (24,0,1,0,0,1)].

Definition brute_rhom_9 : list (Z * Z * Z * Z * Z * Z) := [
  (1,0,1,0,0,1); (1,1,2,0,0,1); (1,0,1,1,1,3); (1,0,2,1,0,2); (1,1,2,1,1,2); (1,0,1,2,2,5); (1,1,2,2,2,3); (1,0,1,3,3,7); (1,1,2,3,3,4); (2,0,2,0,0,2); (1,0,1,4,4,9); (1,0,3,1,0,3); (1,1,2,4,4,5); (1,0,1,5,5,11); (1,0,2,1,2,6); (1,1,2,5,5,6); (1,0,1,6,6,13); (1,1,2,6,6,7); (1,0,1,7,7,15); (1,1,2,7,7,8); (1,0,4,1,0,4); (2,2,4,0,0,2); (1,0,1,8,8,17); (1,1,2,8,8,9); (1,3,6,1,0,3); (1,0,1,9,9,19); (1,0,2,7,4,10); (1,1,2,9,9,10); (1,0,1,10,10,21); (1,1,2,10,10,11); (1,0,1,11,11,23); (1,1,2,11,11,12); (2,0,2,2,2,6); (1,0,1,12,12,25); (1,0,5,1,0,5); (1,1,2,12,12,13); (1,0,1,13,13,27); (1,0,3,1,3,9); (1,0,3,4,3,9); (1,0,3,7,3,9); (3,0,3,0,0,3); (1,0,2,3,6,14); (1,1,2,13,13,14); (1,0,1,14,14,29); (1,1,2,14,14,15); (1,0,1,15,15,31); (1,1,2,15,15,16); (2,0,4,2,0,4); (2,2,4,2,2,4)].

Definition brute_rhom_2 : list (Z * Z * Z * Z * Z * Z) := [
  (1,0,1,0,0,1); (1,1,2,0,0,1); (1,0,1,2,2,3); (1,0,2,1,0,2); (1,1,2,1,1,2); (1,0,1,3,3,5); (1,1,2,1,1,3); (1,0,1,4,4,7); (1,1,2,1,1,4); (2,0,2,0,0,2); (1,0,1,5,5,9); (1,0,3,2,0,3); (1,1,2,1,1,5); (1,0,1,6,6,11); (1,0,2,5,4,6); (1,1,2,1,1,6); (1,0,1,7,7,13); (1,1,2,1,1,7); (1,0,1,8,8,15); (1,1,2,1,1,8); (1,0,4,3,0,4); (2,2,4,0,0,2); (1,0,1,9,9,17); (1,1,2,1,1,9); (1,3,6,2,0,3); (1,0,1,10,10,19); (1,0,2,3,6,10); (1,1,2,1,1,10); (1,0,1,11,11,21); (1,1,2,1,1,11); (1,0,1,12,12,23); (1,1,2,1,1,12); (2,0,2,4,4,6); (1,0,1,13,13,25); (1,0,5,4,0,5); (1,1,2,1,1,13); (1,0,1,14,14,27); (1,0,3,2,6,9); (1,0,3,5,6,9); (1,0,3,8,6,9); (3,0,3,0,0,3); (1,0,2,11,8,14); (1,1,2,1,1,14); (1,0,1,15,15,29); (1,1,2,1,1,15); (1,0,1,16,16,31); (1,1,2,1,1,16); (2,0,4,2,0,4); (2,2,4,2,2,4)].

Definition brute_hex_12 : list (Z * Z * Z * Z * Z * Z) := [
  (1,0,1,0,0,1); (1,0,1,0,0,2); (1,0,1,0,0,3); (1,1,3,0,0,1); (1,0,1,0,0,4); (2,0,2,0,0,1); (1,0,1,0,0,5); (1,0,1,0,0,6); (1,1,3,0,0,2); (1,0,1,0,0,7); (1,0,1,0,0,8); (2,0,2,0,0,2); (1,0,1,0,0,9); (1,1,3,0,0,3); (3,0,3,0,0,1); (1,0,1,0,0,10); (1,0,1,0,0,11); (1,0,1,0,0,12); (1,1,3,0,0,4); (2,0,2,0,0,3); (2,2,6,0,0,1); (1,0,1,0,0,13); (1,0,1,0,0,14); (1,0,1,0,0,15); (1,1,3,0,0,5); (1,0,1,0,0,16); (2,0,2,0,0,4); (4,0,4,0,0,1); (1,0,1,0,0,17); (1,0,1,0,0,18); (1,1,3,0,0,6); (3,0,3,0,0,2); (1,0,1,0,0,19); (1,0,1,0,0,20); (2,0,2,0,0,5); (1,0,1,0,0,21); (1,1,3,0,0,7); (1,0,1,0,0,22); (1,0,1,0,0,23); (1,0,1,0,0,24); (1,1,3,0,0,8); (2,0,2,0,0,6); (2,2,6,0,0,2); (1,0,1,0,0,25); (5,0,5,0,0,1); (1,0,1,0,0,26); (1,0,1,0,0,27); (1,1,3,0,0,9); (3,0,3,0,0,3); (3,3,9,0,0,1); (1,0,1,0,0,28); (2,0,2,0,0,7); (1,0,1,0,0,29); (1,0,1,0,0,30); (1,1,3,0,0,10); (1,0,1,0,0,31); (1,0,1,0,0,32); (2,0,2,0,0,8); (4,0,4,0,0,2)].

Definition brute_hex_22 : list (Z * Z * Z * Z * Z * Z) := [
  (1,0,1,0,0,1); (2,0,1,0,0,1); (1,0,1,0,2,3); (3,0,1,0,0,1); (1,0,2,0,0,2); (4,0,1,0,0,1); (5,0,1,0,0,1); (2,0,1,0,2,3); (6,0,1,0,0,1); (7,0,1,0,0,1); (2,0,2,0,0,2); (8,0,1,0,0,1); (1,0,3,0,0,3); (3,0,1,0,2,3); (9,0,1,0,0,1); (10,0,1,0,0,1); (11,0,1,0,0,1); (1,0,2,0,4,6); (3,0,2,0,0,2); (4,0,1,0,2,3); (12,0,1,0,0,1); (13,0,1,0,0,1); (14,0,1,0,0,1); (5,0,1,0,2,3); (15,0,1,0,0,1); (1,0,4,0,0,4); (4,0,2,0,0,2); (16,0,1,0,0,1); (17,0,1,0,0,1); (2,0,3,0,0,3); (6,0,1,0,2,3); (18,0,1,0,0,1); (19,0,1,0,0,1); (5,0,2,0,0,2); (20,0,1,0,0,1); (7,0,1,0,2,3); (21,0,1,0,0,1); (22,0,1,0,0,1); (23,0,1,0,0,1); (2,0,2,0,4,6); (6,0,2,0,0,2); (8,0,1,0,2,3); (24,0,1,0,0,1); (1,0,5,0,0,5); (25,0,1,0,0,1); (26,0,1,0,0,1); (1,0,3,0,6,9); (3,0,3,0,0,3); (9,0,1,0,2,3); (27,0,1,0,0,1); (7,0,2,0,0,2); (28,0,1,0,0,1); (29,0,1,0,0,1); (10,0,1,0,2,3); (30,0,1,0,0,1); (31,0,1,0,0,1); (2,0,4,0,0,4); (8,0,2,0,0,2); (32,0,1,0,0,1)].

Definition brute_body_tet_6 : list (Z * Z * Z * Z * Z * Z) := [
  (1,0,1,0,0,1); (2,0,1,0,0,1); (3,0,1,0,0,1); (2,0,1,0,1,2); (2,0,1,1,1,2); (4,0,1,0,0,1); (5,0,1,0,0,1); (6,0,1,0,0,1); (7,0,1,0,0,1); (2,0,2,0,0,2); (2,1,2,1,0,2); (4,0,1,0,1,2); (4,0,1,1,1,2); (8,0,1,0,0,1); (1,1,3,1,0,3); (9,0,1,0,0,1); (10,0,1,0,0,1); (11,0,1,0,0,1); (6,0,1,0,1,2); (6,0,1,1,1,2); (12,0,1,0,0,1); (13,0,1,0,0,1); (14,0,1,0,0,1); (15,0,1,0,0,1); (2,1,2,1,2,4); (2,1,2,3,2,4); (4,0,2,0,0,2); (4,1,2,1,0,2); (8,0,1,0,1,2); (8,0,1,1,1,2); (16,0,1,0,0,1); (17,0,1,0,0,1); (2,2,3,2,0,3); (18,0,1,0,0,1); (19,0,1,0,0,1); (10,0,1,0,1,2); (10,0,1,1,1,2); (20,0,1,0,0,1); (21,0,1,0,0,1); (22,0,1,0,0,1); (23,0,1,0,0,1); (6,0,2,0,0,2); (6,1,2,1,0,2); (12,0,1,0,1,2); (12,0,1,1,1,2); (24,0,1,0,0,1); (1,2,5,2,0,5); (25,0,1,0,0,1); (26,0,1,0,0,1); (3,0,3,0,0,3); (27,0,1,0,0,1); (14,0,1,0,1,2); (14,0,1,1,1,2); (28,0,1,0,0,1); (29,0,1,0,0,1); (30,0,1,0,0,1); (31,0,1,0,0,1); (2,1,4,1,0,4); (2,3,4,3,0,4); (4,0,2,0,2,4); (4,0,2,2,2,4); (8,0,2,0,0,2); (8,1,2,1,0,2); (16,0,1,0,1,2); (16,0,1,1,1,2); (32,0,1,0,0,1)].

Definition brute_so : list (Z * Z * Z * Z * Z * Z) := [
  (1,0,1,0,0,1); (1,0,1,0,0,2); (1,0,1,0,1,2); (1,0,1,1,0,2); (1,0,1,1,1,2); (1,0,2,0,0,1); (1,1,2,0,0,1); (2,0,1,0,0,1); (1,0,1,0,0,3); (1,0,3,0,0,1); (3,0,1,0,0,1); (1,0,1,0,0,4); (1,0,1,0,2,4); (1,0,1,2,0,4); (1,0,1,2,2,4); (1,0,2,0,0,2); (1,0,2,0,1,2); (1,0,2,1,0,2); (1,0,2,1,1,2); (1,1,2,0,0,2); (1,1,2,1,0,2); (1,0,4,0,0,1); (1,2,4,0,0,1); (2,0,1,0,0,2); (2,0,1,0,1,2); (2,0,1,1,0,2); (2,0,1,1,1,2); (2,0,2,0,0,1); (2,1,2,0,0,1); (4,0,1,0,0,1); (1,0,1,0,0,5); (1,0,5,0,0,1); (5,0,1,0,0,1); (1,0,1,0,0,6); (1,0,1,0,3,6); (1,0,1,3,0,6); (1,0,1,3,3,6); (1,0,2,0,0,3); (1,1,2,0,0,3); (1,0,3,0,0,2); (1,0,3,0,1,2); (1,0,3,1,0,2); (1,0,3,1,1,2); (1,0,6,0,0,1); (1,3,6,0,0,1); (2,0,1,0,0,3); (2,0,3,0,0,1); (3,0,1,0,0,2); (3,0,1,0,1,2); (3,0,1,1,0,2); (3,0,1,1,1,2); (3,0,2,0,0,1); (3,1,2,0,0,1); (6,0,1,0,0,1); (1,0,1,0,0,7); (1,0,7,0,0,1); (7,0,1,0,0,1); (1,0,1,0,0,8); (1,0,1,0,4,8); (1,0,1,4,0,8); (1,0,1,4,4,8); (1,0,2,0,0,4); (1,0,2,0,2,4); (1,0,2,2,0,4); (1,0,2,2,2,4); (1,1,2,0,0,4); (1,1,2,2,0,4); (1,0,4,0,0,2); (1,0,4,0,1,2); (1,0,4,1,0,2); (1,0,4,1,1,2); (1,2,4,0,0,2); (1,2,4,1,0,2); (1,0,8,0,0,1); (1,4,8,0,0,1); (2,0,1,0,0,4); (2,0,1,0,2,4); (2,0,1,2,0,4); (2,0,1,2,2,4); (2,0,2,0,0,2); (2,0,2,0,1,2); (2,0,2,1,0,2); (2,0,2,1,1,2); (2,1,2,0,0,2); (2,1,2,1,0,2); (2,0,4,0,0,1); (2,2,4,0,0,1); (4,0,1,0,0,2); (4,0,1,0,1,2); (4,0,1,1,0,2); (4,0,1,1,1,2); (4,0,2,0,0,1); (4,1,2,0,0,1); (8,0,1,0,0,1)].

Definition brute_base_ortho_38 : list (Z * Z * Z * Z * Z * Z) := [
  (1,0,1,0,0,1); (1,0,1,0,0,2); (1,0,1,1,1,2); (1,1,2,0,0,1); (1,0,1,0,0,3); (1,1,3,0,0,1); (1,2,3,0,0,1); (1,0,1,0,0,4); (1,0,1,2,2,4); (1,1,2,0,0,2); (1,1,2,0,1,2); (1,1,2,1,0,2); (1,1,2,1,1,2); (1,1,4,0,0,1); (1,3,4,0,0,1); (2,0,2,0,0,1); (1,0,1,0,0,5); (1,1,5,0,0,1); (1,4,5,0,0,1); (1,0,1,0,0,6); (1,0,1,3,3,6); (1,1,2,0,0,3); (1,1,3,0,0,2); (1,1,3,0,1,2); (1,2,3,0,0,2); (1,2,3,1,1,2); (1,1,6,0,0,1); (1,5,6,0,0,1); (1,0,1,0,0,7); (1,1,7,0,0,1); (1,6,7,0,0,1); (1,0,1,0,0,8); (1,0,1,4,4,8); (1,1,2,0,0,4); (1,1,2,0,2,4); (1,1,2,2,0,4); (1,1,2,2,2,4); (1,1,4,0,0,2); (1,1,4,0,1,2); (1,1,4,1,0,2); (1,1,4,1,1,2); (1,3,4,0,0,2); (1,3,4,0,1,2); (1,3,4,1,0,2); (1,3,4,1,1,2); (1,1,8,0,0,1); (1,3,8,0,0,1); (1,5,8,0,0,1); (1,7,8,0,0,1); (2,0,2,0,0,2); (2,0,2,1,1,2); (2,2,4,0,0,1); (1,0,1,0,0,9); (1,1,3,0,0,3); (1,2,3,0,0,3); (1,1,9,0,0,1); (1,8,9,0,0,1); (3,0,3,0,0,1); (1,0,1,0,0,10); (1,0,1,5,5,10); (1,1,2,0,0,5); (1,1,5,0,0,2); (1,1,5,0,1,2); (1,4,5,0,0,2); (1,4,5,1,1,2); (1,1,10,0,0,1); (1,9,10,0,0,1)].

Definition brute_base_ortho_23 : list (Z * Z * Z * Z * Z * Z) := [
  (1,0,1,0,0,1); (1,0,1,1,0,2); (1,0,1,1,1,2); (1,0,2,0,0,1); (1,0,1,1,0,3); (1,0,1,2,0,3); (1,0,3,0,0,1); (1,0,1,1,0,4); (1,0,1,1,2,4); (1,0,1,3,0,4); (1,0,1,3,2,4); (1,0,2,1,0,2); (1,0,2,1,1,2); (1,1,2,1,0,2); (1,0,4,0,0,1); (2,0,1,0,0,2); (1,0,1,1,0,5); (1,0,1,4,0,5); (1,0,5,0,0,1); (1,0,1,1,0,6); (1,0,1,1,3,6); (1,0,1,5,0,6); (1,0,1,5,3,6); (1,0,2,1,0,3); (1,0,2,2,0,3); (1,0,3,1,0,2); (1,0,3,1,1,2); (1,0,6,0,0,1); (1,0,1,1,0,7); (1,0,1,6,0,7); (1,0,7,0,0,1); (1,0,1,1,0,8); (1,0,1,1,4,8); (1,0,1,3,0,8); (1,0,1,3,4,8); (1,0,1,5,0,8); (1,0,1,5,4,8); (1,0,1,7,0,8); (1,0,1,7,4,8); (1,0,2,1,0,4); (1,0,2,1,2,4); (1,0,2,3,0,4); (1,0,2,3,2,4); (1,1,2,1,0,4); (1,1,2,3,0,4); (1,0,4,1,0,2); (1,0,4,1,1,2); (1,2,4,1,0,2); (1,0,8,0,0,1); (2,0,1,2,0,4); (2,0,1,2,2,4); (2,0,2,0,0,2); (1,0,1,1,0,9); (1,0,1,8,0,9); (1,0,3,1,0,3); (1,0,3,2,0,3); (1,0,9,0,0,1); (3,0,1,0,0,3); (1,0,1,1,0,10); (1,0,1,1,5,10); (1,0,1,9,0,10); (1,0,1,9,5,10); (1,0,2,1,0,5); (1,0,2,4,0,5); (1,0,5,1,0,2); (1,0,5,1,1,2); (1,0,10,0,0,1)].

Definition brute_base_ortho_40 : list (Z * Z * Z * Z * Z * Z) := [
  (1,0,1,0,0,1); (1,0,1,0,0,2); (1,0,1,1,0,2); (2,0,1,0,0,1); (1,0,1,0,0,3); (1,0,1,0,2,3); (3,0,1,0,0,1); (1,0,1,0,0,4); (1,0,1,0,2,4); (1,0,1,2,0,4); (1,0,1,2,2,4); (1,0,2,0,0,2); (1,1,2,0,0,2); (2,0,1,0,0,2); (2,0,1,1,0,2); (4,0,1,0,0,1); (1,0,1,0,0,5); (1,0,1,0,2,5); (5,0,1,0,0,1); (1,0,1,0,0,6); (1,0,1,0,2,6); (1,0,1,3,0,6); (1,0,1,3,2,6); (2,0,1,0,0,3); (2,0,1,0,2,3); (3,0,1,0,0,2); (3,0,1,1,0,2); (6,0,1,0,0,1); (1,0,1,0,0,7); (1,0,1,0,2,7); (7,0,1,0,0,1); (1,0,1,0,0,8); (1,0,1,0,2,8); (1,0,1,0,4,8); (1,0,1,0,6,8); (1,0,1,4,0,8); (1,0,1,4,2,8); (1,0,1,4,4,8); (1,0,1,4,6,8); (1,0,2,0,0,4); (1,0,2,2,0,4); (1,1,2,0,0,4); (1,1,2,2,0,4); (2,0,1,0,0,4); (2,0,1,0,2,4); (2,0,1,2,0,4); (2,0,1,2,2,4); (2,0,2,0,0,2); (2,1,2,0,0,2); (4,0,1,0,0,2); (4,0,1,1,0,2); (8,0,1,0,0,1); (1,0,1,0,0,9); (1,0,1,0,2,9); (1,0,3,0,0,3); (3,0,1,0,0,3); (3,0,1,0,2,3); (9,0,1,0,0,1); (1,0,1,0,0,10); (1,0,1,0,2,10); (1,0,1,5,0,10); (1,0,1,5,2,10); (2,0,1,0,0,5); (2,0,1,0,2,5); (5,0,1,0,0,2); (5,0,1,1,0,2); (10,0,1,0,0,1)].

Definition brute_base_ortho_36 : list (Z * Z * Z * Z * Z * Z) := [
  (1,0,1,0,0,1); (1,0,1,0,0,2); (1,0,1,0,1,2); (1,0,2,0,0,1); (1,0,1,0,0,3); (1,0,1,2,0,3); (1,0,3,0,0,1); (1,0,1,0,0,4); (1,0,1,0,2,4); (1,0,1,2,0,4); (1,0,1,2,2,4); (1,0,2,0,0,2); (1,0,2,0,1,2); (1,1,2,0,0,2); (1,0,4,0,0,1); (2,0,1,0,0,2); (1,0,1,0,0,5); (1,0,1,2,0,5); (1,0,5,0,0,1); (1,0,1,0,0,6); (1,0,1,0,3,6); (1,0,1,2,0,6); (1,0,1,2,3,6); (1,0,2,0,0,3); (1,0,2,2,0,3); (1,0,3,0,0,2); (1,0,3,0,1,2); (1,0,6,0,0,1); (1,0,1,0,0,7); (1,0,1,2,0,7); (1,0,7,0,0,1); (1,0,1,0,0,8); (1,0,1,0,4,8); (1,0,1,2,0,8); (1,0,1,2,4,8); (1,0,1,4,0,8); (1,0,1,4,4,8); (1,0,1,6,0,8); (1,0,1,6,4,8); (1,0,2,0,0,4); (1,0,2,0,2,4); (1,0,2,2,0,4); (1,0,2,2,2,4); (1,1,2,0,0,4); (1,1,2,2,0,4); (1,0,4,0,0,2); (1,0,4,0,1,2); (1,2,4,0,0,2); (1,0,8,0,0,1); (2,0,1,0,0,4); (2,0,1,0,2,4); (2,0,2,0,0,2); (1,0,1,0,0,9); (1,0,1,2,0,9); (1,0,3,0,0,3); (1,0,3,2,0,3); (1,0,9,0,0,1); (3,0,1,0,0,3); (1,0,1,0,0,10); (1,0,1,0,5,10); (1,0,1,2,0,10); (1,0,1,2,5,10); (1,0,2,0,0,5); (1,0,2,2,0,5); (1,0,5,0,0,2); (1,0,5,0,1,2); (1,0,10,0,0,1)].

Definition brute_body_ortho_19 : list (Z * Z * Z * Z * Z * Z) := [
  (1,0,1,0,0,1); (2,0,1,0,0,1); (1,0,1,1,0,3); (1,1,3,0,0,1); (3,0,1,0,0,1); (2,0,1,0,0,2); (2,0,1,0,1,2); (2,0,1,1,0,2); (2,0,1,1,1,2); (2,0,2,0,0,1); (2,1,2,0,0,1); (4,0,1,0,0,1); (1,0,1,2,0,5); (1,2,5,0,0,1); (5,0,1,0,0,1); (2,0,1,2,0,3); (2,2,3,0,0,1); (6,0,1,0,0,1); (1,0,1,3,0,7); (1,3,7,0,0,1); (7,0,1,0,0,1); (2,0,1,1,0,4); (2,0,1,1,2,4); (2,0,1,3,0,4); (2,0,1,3,2,4); (2,0,2,0,0,2); (2,0,2,1,0,2); (2,1,2,0,0,2); (2,1,2,0,1,2); (2,1,2,1,0,2); (2,1,2,1,1,2); (2,1,4,0,0,1); (2,3,4,0,0,1); (4,0,1,0,0,2); (4,0,1,0,1,2); (4,0,1,1,0,2); (4,0,1,1,1,2); (4,0,2,0,0,1); (4,1,2,0,0,1); (8,0,1,0,0,1); (1,0,1,4,0,9); (1,1,3,1,0,3); (1,4,9,0,0,1); (3,0,1,0,0,3); (3,0,3,0,0,1); (9,0,1,0,0,1); (2,0,1,4,0,5); (2,4,5,0,0,1); (10,0,1,0,0,1)].

Definition brute_body_ortho_8 : list (Z * Z * Z * Z * Z * Z) := [
  (1,0,1,0,0,1); (2,0,1,0,0,1); (1,0,1,1,0,3); (1,0,1,1,1,3); (3,0,1,0,0,1); (2,0,1,0,0,2); (2,0,1,0,1,2); (2,0,1,1,0,2); (2,0,1,1,1,2); (2,0,2,0,0,1); (2,1,2,0,0,1); (4,0,1,0,0,1); (1,0,1,2,0,5); (1,0,1,2,1,5); (5,0,1,0,0,1); (2,0,1,2,0,3); (2,0,1,2,1,3); (6,0,1,0,0,1); (1,0,1,3,0,7); (1,0,1,3,1,7); (7,0,1,0,0,1); (2,0,1,1,0,4); (2,0,1,1,1,4); (2,0,1,1,2,4); (2,0,1,1,3,4); (2,0,1,3,0,4); (2,0,1,3,1,4); (2,0,1,3,2,4); (2,0,1,3,3,4); (2,0,2,0,0,2); (2,0,2,1,0,2); (2,1,2,0,0,2); (2,1,2,1,0,2); (4,0,1,0,0,2); (4,0,1,0,1,2); (4,0,1,1,0,2); (4,0,1,1,1,2); (4,0,2,0,0,1); (4,1,2,0,0,1); (8,0,1,0,0,1); (1,0,1,4,0,9); (1,0,1,4,1,9); (1,0,3,1,0,3); (3,0,1,0,0,3); (3,0,1,0,1,3); (9,0,1,0,0,1); (2,0,1,4,0,5); (2,0,1,4,1,5); (10,0,1,0,0,1)].

Definition brute_body_ortho_42 : list (Z * Z * Z * Z * Z * Z) := [
  (1,0,1,0,0,1); (2,0,1,0,0,1); (1,0,1,2,0,3); (1,2,3,0,0,1); (3,0,1,0,0,1); (2,0,1,0,0,2); (2,0,1,0,1,2); (2,0,1,1,0,2); (2,0,1,1,1,2); (2,0,2,0,0,1); (2,1,2,0,0,1); (4,0,1,0,0,1); (1,0,1,3,0,5); (1,3,5,0,0,1); (5,0,1,0,0,1); (2,0,1,1,0,3); (2,1,3,0,0,1); (6,0,1,0,0,1); (1,0,1,4,0,7); (1,4,7,0,0,1); (7,0,1,0,0,1); (2,0,1,1,0,4); (2,0,1,1,2,4); (2,0,1,3,0,4); (2,0,1,3,2,4); (2,0,2,0,0,2); (2,0,2,1,0,2); (2,1,2,0,0,2); (2,1,2,0,1,2); (2,1,2,1,0,2); (2,1,2,1,1,2); (2,1,4,0,0,1); (2,3,4,0,0,1); (4,0,1,0,0,2); (4,0,1,0,1,2); (4,0,1,1,0,2); (4,0,1,1,1,2); (4,0,2,0,0,1); (4,1,2,0,0,1); (8,0,1,0,0,1); (1,0,1,5,0,9); (1,2,3,2,0,3); (1,5,9,0,0,1); (3,0,1,0,0,3); (3,0,3,0,0,1); (9,0,1,0,0,1); (2,0,1,1,0,5); (2,1,5,0,0,1); (10,0,1,0,0,1)].

Definition brute_face_ortho_26 : list (Z * Z * Z * Z * Z * Z) := [
  (1,0,1,0,0,1); (1,0,2,0,0,1); (1,1,2,0,0,1); (2,0,1,0,0,1); (1,0,1,1,1,3); (1,0,3,0,0,1); (3,0,1,0,0,1); (1,1,2,0,1,2); (1,1,2,1,1,2); (1,0,4,0,0,1); (1,2,4,0,0,1); (2,0,2,0,0,1); (2,1,2,0,0,1); (4,0,1,0,0,1); (1,0,1,2,2,5); (1,0,5,0,0,1); (5,0,1,0,0,1); (1,0,2,1,2,3); (1,1,2,2,2,3); (1,0,6,0,0,1); (1,3,6,0,0,1); (2,0,1,2,1,3); (2,0,3,0,0,1); (3,0,2,0,0,1); (3,1,2,0,0,1); (6,0,1,0,0,1); (1,0,1,3,3,7); (1,0,7,0,0,1); (7,0,1,0,0,1); (1,1,2,1,3,4); (1,1,2,3,3,4); (1,0,8,0,0,1); (1,4,8,0,0,1); (2,0,2,0,0,2); (2,0,2,0,1,2); (2,0,2,1,0,2); (2,0,2,1,1,2); (2,0,4,0,0,1); (2,2,4,0,0,1); (4,0,2,0,0,1); (4,1,2,0,0,1); (8,0,1,0,0,1); (1,0,1,4,4,9); (1,0,3,1,0,3); (1,0,9,0,0,1); (3,0,1,0,1,3); (3,0,3,0,0,1); (9,0,1,0,0,1); (1,0,2,2,4,5); (1,1,2,4,4,5); (1,0,10,0,0,1); (1,5,10,0,0,1); (2,0,1,4,2,5); (2,0,5,0,0,1); (5,0,2,0,0,1); (5,1,2,0,0,1); (10,0,1,0,0,1)].

Definition brute_face_ortho_16 : list (Z * Z * Z * Z * Z * Z) := [
  (1,0,1,0,0,1); (1,0,2,0,0,1); (1,1,2,0,0,1); (2,0,1,0,0,1); (1,0,1,1,1,3); (1,0,3,0,0,1); (3,0,1,0,0,1); (1,1,2,0,1,2); (1,1,2,1,1,2); (1,0,4,0,0,1); (1,2,4,0,0,1); (2,0,2,0,0,1); (2,1,2,0,0,1); (4,0,1,0,0,1); (1,0,1,2,2,5); (1,0,5,0,0,1); (5,0,1,0,0,1); (1,0,2,1,2,3); (1,1,2,2,2,3); (1,0,6,0,0,1); (1,3,6,0,0,1); (2,0,1,2,1,3); (2,0,3,0,0,1); (3,0,2,0,0,1); (3,1,2,0,0,1); (6,0,1,0,0,1); (1,0,1,3,3,7); (1,0,7,0,0,1); (7,0,1,0,0,1); (1,1,2,1,3,4); (1,1,2,3,3,4); (1,0,8,0,0,1); (1,4,8,0,0,1); (2,0,2,0,0,2); (2,0,2,0,1,2); (2,0,2,1,0,2); (2,0,2,1,1,2); (2,0,4,0,0,1); (2,2,4,0,0,1); (4,0,2,0,0,1); (4,1,2,0,0,1); (8,0,1,0,0,1); (1,0,1,4,4,9); (1,0,3,1,0,3); (1,0,9,0,0,1); (3,0,1,0,1,3); (3,0,3,0,0,1); (9,0,1,0,0,1); (1,0,2,2,4,5); (1,1,2,4,4,5); (1,0,10,0,0,1); (1,5,10,0,0,1); (2,0,1,4,2,5); (2,0,5,0,0,1); (5,0,2,0,0,1); (5,1,2,0,0,1); (10,0,1,0,0,1)].

Definition brute_sm_33 : list (Z * Z * Z * Z * Z * Z) := [
  (1,0,1,0,0,1); (1,0,1,0,0,2); (1,0,1,0,1,2); (1,0,1,1,0,2); (1,0,1,1,1,2); (1,0,2,0,0,1); (1,1,2,0,0,1); (2,0,1,0,0,1); (1,0,1,0,0,3); (1,0,1,1,0,3); (1,0,1,2,0,3); (1,0,3,0,0,1); (3,0,1,0,0,1); (1,0,1,0,0,4); (1,0,1,0,2,4); (1,0,1,1,0,4); (1,0,1,1,2,4); (1,0,1,2,0,4); (1,0,1,2,2,4); (1,0,1,3,0,4); (1,0,1,3,2,4); (1,0,2,0,0,2); (1,0,2,0,1,2); (1,0,2,1,0,2); (1,0,2,1,1,2); (1,1,2,0,0,2); (1,1,2,1,0,2); (1,0,4,0,0,1); (1,2,4,0,0,1); (2,0,1,0,0,2); (2,0,1,0,1,2); (2,0,1,1,0,2); (2,0,1,1,1,2); (2,0,2,0,0,1); (2,1,2,0,0,1); (4,0,1,0,0,1); (1,0,1,0,0,5); (1,0,1,1,0,5); (1,0,1,2,0,5); (1,0,1,3,0,5); (1,0,1,4,0,5); (1,0,5,0,0,1); (5,0,1,0,0,1); (1,0,1,0,0,6); (1,0,1,0,3,6); (1,0,1,1,0,6); (1,0,1,1,3,6); (1,0,1,2,0,6); (1,0,1,2,3,6); (1,0,1,3,0,6); (1,0,1,3,3,6); (1,0,1,4,0,6); (1,0,1,4,3,6); (1,0,1,5,0,6); (1,0,1,5,3,6); (1,0,2,0,0,3); (1,0,2,1,0,3); (1,0,2,2,0,3); (1,1,2,0,0,3); (1,1,2,1,0,3); (1,1,2,2,0,3); (1,0,3,0,0,2); (1,0,3,0,1,2); (1,0,3,1,0,2); (1,0,3,1,1,2); (1,0,6,0,0,1); (1,3,6,0,0,1); (2,0,1,0,0,3); (2,0,1,1,0,3); (2,0,1,2,0,3); (2,0,3,0,0,1); (3,0,1,0,0,2); (3,0,1,0,1,2); (3,0,1,1,0,2); (3,0,1,1,1,2); (3,0,2,0,0,1); (3,1,2,0,0,1); (6,0,1,0,0,1)].

Definition brute_sm_35 : list (Z * Z * Z * Z * Z * Z) := [
  (1,0,1,0,0,1); (1,0,1,0,0,2); (1,0,1,0,1,2); (1,0,1,1,0,2); (1,0,1,1,1,2); (1,0,2,0,0,1); (1,1,2,0,0,1); (2,0,1,0,0,1); (1,0,1,0,0,3); (1,0,3,0,0,1); (1,1,3,0,0,1); (1,2,3,0,0,1); (3,0,1,0,0,1); (1,0,1,0,0,4); (1,0,1,0,2,4); (1,0,1,2,0,4); (1,0,1,2,2,4); (1,0,2,0,0,2); (1,0,2,0,1,2); (1,0,2,1,0,2); (1,0,2,1,1,2); (1,1,2,0,0,2); (1,1,2,0,1,2); (1,1,2,1,0,2); (1,1,2,1,1,2); (1,0,4,0,0,1); (1,1,4,0,0,1); (1,2,4,0,0,1); (1,3,4,0,0,1); (2,0,1,0,0,2); (2,0,1,0,1,2); (2,0,1,1,0,2); (2,0,1,1,1,2); (2,0,2,0,0,1); (2,1,2,0,0,1); (4,0,1,0,0,1); (1,0,1,0,0,5); (1,0,5,0,0,1); (1,1,5,0,0,1); (1,2,5,0,0,1); (1,3,5,0,0,1); (1,4,5,0,0,1); (5,0,1,0,0,1); (1,0,1,0,0,6); (1,0,1,0,3,6); (1,0,1,3,0,6); (1,0,1,3,3,6); (1,0,2,0,0,3); (1,1,2,0,0,3); (1,0,3,0,0,2); (1,0,3,0,1,2); (1,0,3,1,0,2); (1,0,3,1,1,2); (1,1,3,0,0,2); (1,1,3,0,1,2); (1,1,3,1,0,2); (1,1,3,1,1,2); (1,2,3,0,0,2); (1,2,3,0,1,2); (1,2,3,1,0,2); (1,2,3,1,1,2); (1,0,6,0,0,1); (1,1,6,0,0,1); (1,2,6,0,0,1); (1,3,6,0,0,1); (1,4,6,0,0,1); (1,5,6,0,0,1); (2,0,1,0,0,3); (2,0,3,0,0,1); (2,1,3,0,0,1); (2,2,3,0,0,1); (3,0,1,0,0,2); (3,0,1,0,1,2); (3,0,1,1,0,2); (3,0,1,1,1,2); (3,0,2,0,0,1); (3,1,2,0,0,1); (6,0,1,0,0,1)].

Definition brute_base_mono_20 : list (Z * Z * Z * Z * Z * Z) := [
  (1,0,1,0,0,1); (1,0,2,0,0,1); (1,1,2,0,0,1); (2,0,1,0,0,1); (1,0,1,0,1,3); (1,0,1,1,1,3); (1,0,1,2,1,3); (1,0,3,0,0,1); (3,0,1,0,0,1); (1,0,2,0,0,2); (1,0,2,0,1,2); (1,0,2,1,0,2); (1,0,2,1,1,2); (1,1,2,0,1,2); (1,1,2,1,1,2); (1,0,4,0,0,1); (1,2,4,0,0,1); (2,0,2,0,0,1); (2,1,2,0,0,1); (4,0,1,0,0,1); (1,0,1,0,2,5); (1,0,1,1,2,5); (1,0,1,2,2,5); (1,0,1,3,2,5); (1,0,1,4,2,5); (1,0,5,0,0,1); (5,0,1,0,0,1); (1,0,2,0,2,3); (1,0,2,1,2,3); (1,0,2,2,2,3); (1,1,2,0,2,3); (1,1,2,1,2,3); (1,1,2,2,2,3); (1,0,6,0,0,1); (1,3,6,0,0,1); (2,0,1,0,1,3); (2,0,1,1,1,3); (2,0,1,2,1,3); (2,0,3,0,0,1); (3,0,2,0,0,1); (3,1,2,0,0,1); (6,0,1,0,0,1)].

Definition brute_base_mono_28 : list (Z * Z * Z * Z * Z * Z) := [
  (1,0,1,0,0,1); (1,0,1,0,0,2); (1,0,1,1,0,2); (2,0,1,0,0,1); (1,0,1,0,0,3); (1,0,1,0,1,3); (1,0,1,1,1,3); (1,0,1,2,1,3); (3,0,1,0,0,1); (1,0,1,0,0,4); (1,0,1,0,2,4); (1,0,1,1,2,4); (1,0,1,2,0,4); (1,0,1,2,2,4); (1,0,1,3,2,4); (1,0,2,0,0,2); (1,1,2,0,0,2); (2,0,1,0,0,2); (2,0,1,1,0,2); (4,0,1,0,0,1); (1,0,1,0,0,5); (1,0,1,0,3,5); (1,0,1,1,3,5); (1,0,1,2,3,5); (1,0,1,3,3,5); (1,0,1,4,3,5); (5,0,1,0,0,1); (1,0,1,0,0,6); (1,0,1,0,4,6); (1,0,1,1,4,6); (1,0,1,2,4,6); (1,0,1,3,0,6); (1,0,1,3,4,6); (1,0,1,4,4,6); (1,0,1,5,4,6); (2,0,1,0,0,3); (2,0,1,0,1,3); (2,0,1,1,1,3); (2,0,1,2,1,3); (3,0,1,0,0,2); (3,0,1,1,0,2); (6,0,1,0,0,1)].

Definition brute_base_mono_29 : list (Z * Z * Z * Z * Z * Z) := [
  (1,0,1,0,0,1); (1,0,1,0,0,2); (1,0,1,1,0,2); (2,0,1,0,0,1); (1,0,1,0,0,3); (1,0,1,0,1,3); (1,0,1,1,1,3); (1,0,1,2,1,3); (3,0,1,0,0,1); (1,0,1,0,0,4); (1,0,1,0,2,4); (1,0,1,1,2,4); (1,0,1,2,0,4); (1,0,1,2,2,4); (1,0,1,3,2,4); (1,0,2,0,0,2); (1,1,2,0,0,2); (2,0,1,0,0,2); (2,0,1,1,0,2); (4,0,1,0,0,1); (1,0,1,0,0,5); (1,0,1,0,3,5); (1,0,1,1,3,5); (1,0,1,2,3,5); (1,0,1,3,3,5); (1,0,1,4,3,5); (5,0,1,0,0,1); (1,0,1,0,0,6); (1,0,1,0,4,6); (1,0,1,1,4,6); (1,0,1,2,4,6); (1,0,1,3,0,6); (1,0,1,3,4,6); (1,0,1,4,4,6); (1,0,1,5,4,6); (2,0,1,0,0,3); (2,0,1,0,1,3); (2,0,1,1,1,3); (2,0,1,2,1,3); (3,0,1,0,0,2); (3,0,1,1,0,2); (6,0,1,0,0,1)].

Definition brute_base_mono_43 : list (Z * Z * Z * Z * Z * Z) := [
  (1,0,1,0,0,1); (1,0,1,0,0,2); (1,0,1,1,0,2); (2,0,1,0,0,1); (1,0,1,0,2,3); (1,0,1,1,2,3); (1,0,1,2,0,3); (1,0,1,2,2,3); (3,0,1,0,0,1); (1,0,1,0,2,4); (1,0,1,1,0,4); (1,0,1,1,2,4); (1,0,1,2,2,4); (1,0,1,3,0,4); (1,0,1,3,2,4); (1,0,2,1,0,2); (1,1,2,1,0,2); (2,0,1,0,0,2); (2,0,1,1,0,2); (4,0,1,0,0,1); (1,0,1,0,2,5); (1,0,1,1,2,5); (1,0,1,2,2,5); (1,0,1,3,2,5); (1,0,1,4,0,5); (1,0,1,4,2,5); (5,0,1,0,0,1); (1,0,1,0,2,6); (1,0,1,1,2,6); (1,0,1,2,0,6); (1,0,1,2,2,6); (1,0,1,3,2,6); (1,0,1,4,2,6); (1,0,1,5,0,6); (1,0,1,5,2,6); (2,0,1,0,2,3); (2,0,1,1,0,3); (2,0,1,1,2,3); (2,0,1,2,2,3); (3,0,1,0,0,2); (3,0,1,1,0,2); (6,0,1,0,0,1)].

Definition brute_base_mono_37 : list (Z * Z * Z * Z * Z * Z) := [
  (1,0,1,0,0,1); (1,0,2,0,0,1); (1,1,2,0,0,1); (2,0,1,0,0,1); (1,0,1,2,0,3); (1,0,3,0,0,1); (1,1,3,0,0,1); (1,2,3,0,0,1); (3,0,1,0,0,1); (1,0,4,0,0,1); (1,1,4,0,0,1); (1,2,4,0,0,1); (1,3,4,0,0,1); (2,0,1,0,0,2); (2,0,1,0,1,2); (2,0,1,1,0,2); (2,0,1,1,1,2); (2,0,2,0,0,1); (2,1,2,0,0,1); (4,0,1,0,0,1); (1,0,1,3,0,5); (1,0,5,0,0,1); (1,1,5,0,0,1); (1,2,5,0,0,1); (1,3,5,0,0,1); (1,4,5,0,0,1); (5,0,1,0,0,1); (1,0,2,2,0,3); (1,1,2,2,0,3); (1,0,6,0,0,1); (1,1,6,0,0,1); (1,2,6,0,0,1); (1,3,6,0,0,1); (1,4,6,0,0,1); (1,5,6,0,0,1); (2,0,1,1,0,3); (2,0,3,0,0,1); (2,1,3,0,0,1); (2,2,3,0,0,1); (3,0,2,0,0,1); (3,1,2,0,0,1); (6,0,1,0,0,1)].
