(** The repository's own Python test data (support/python_dev/tests, read as text): input and expected
    output of each case.  The numbers of the expected supercells are rounded to 7 decimals. *)
From Coq Require Import ZArith List Qcanon.
From Verif Require Import Mat3 QMat QNum.
Import ListNotations.
Open Scope Z_scope.

(** test_pyniggli.py, test_reduction: the array, [eps] and the expected [niggli]. *)
Definition py_reduce_cases : list (list (list Qc) * option Qc * qmat) := [
  ([[(zq 1); (zq 0); (zq 0)]; [(zq 0); (zq 1); (zq 0)]; [(zq 0); (zq 0); (zq 2)]], None, QMat (zq 1) (zq 0) (zq 0) (zq 0) (zq 1) (zq 0) (zq 0) (zq 0) (zq 2));
  ([[(qdec 5 1); (zq 0); (qdec 5 1)]; [(zq 0); (zq 3); (zq 0)]; [(qdec 5 1); (zq 0); (qdec (-5) 1)]], None, QMat (qdec (-5) 1) (qdec (-5) 1) (zq 0) (zq 0) (zq 0) (zq (-3)) (qdec (-5) 1) (qdec 5 1) (zq 0));
  ([[(zq 1); (qdec (-5) 1); (zq 0)]; [(zq 0); (qdec 8660254 7); (qdec (-17320508) 7)]; [(zq 0); (qdec 16329932 7); (qdec 16329932 7)]], None, QMat (zq (-1)) (qdec 5 1) (zq 0) (zq 0) (qdec (-8660254) 7) (qdec (-17320508) 7) (zq 0) (qdec (-16329932) 7) (qdec 16329932 7));
  ([[(zq 1); (qdec (-5) 1); (zq 0)]; [(zq 0); (qdec 8660254 7); (zq 0)]; [(zq 0); (zq 0); (qdec 32659864 7)]], None, QMat (zq 1) (qdec (-5) 1) (zq 0) (zq 0) (qdec 8660254 7) (zq 0) (zq 0) (zq 0) (qdec 32659864 7));
  ([[(zq 1); (qdec (-5) 1); (zq 0)]; [(zq 0); (qdec 8660254 7); (qdec (-17320508) 7)]; [(zq 0); (qdec 16329932 7); (qdec 16329932 7)]], None, QMat (zq (-1)) (qdec 5 1) (zq 0) (zq 0) (qdec (-8660254) 7) (qdec (-17320508) 7) (zq 0) (qdec (-16329932) 7) (qdec 16329932 7));
  ([[(zq 1); (qdec 5 1); (zq 0)]; [(zq 0); (qdec (-8660254) 7); (qdec (-17320508) 7)]; [(zq 0); (qdec 32659864 7); (zq 0)]], None, QMat (zq 1) (zq 0) (qdec (-5) 1) (zq 0) (qdec (-17320508) 7) (qdec 8660254 7) (zq 0) (zq 0) (qdec (-32659864) 7));
  ([[(zq 1); (qdec 5 1); (zq 0)]; [(zq 0); (qdec 4330127 6); (zq 0)]; [(zq 0); (zq 0); (qdec 16329932 7)]], None, QMat (zq (-1)) (zq 0) (qdec 5 1) (zq 0) (zq 0) (qdec 4330127 6) (zq 0) (qdec 16329932 7) (zq 0));
  ([[(zq 1); (qdec 5 1); (zq 0)]; [(zq 0); (qdec (-8660254) 7); (qdec (-17320508) 7)]; [(zq 0); (qdec 48989796 7); (zq 0)]], None, QMat (zq 1) (zq 0) (qdec (-5) 1) (zq 0) (qdec (-17320508) 7) (qdec 8660254 7) (zq 0) (zq 0) (qdec (-48989796) 7));
  ([[(zq 0); (qdec 5 1); (zq 1)]; [(qdec (-17320508) 7); (qdec 25980762 7); (zq 0)]; [(qdec 16329932 7); (qdec 32659864 7); (zq 0)]], None, QMat (zq (-1)) (zq 0) (qdec 5 1) (zq 0) (qdec 17320508 7) (qdec 25980762 7) (zq 0) (qdec (-16329932) 7) (qdec 32659864 7));
  ([[(qdec 5 1); (qdec (-5) 1); (zq 1)]; [(qdec 5 1); (qdec 5 1); (zq 0)]; [(qdec (-5) 1); (qdec 5 1); (zq 1)]], None, QMat (qdec 5 1) (qdec (-5) 1) (zq 1) (qdec 5 1) (qdec 5 1) (zq 0) (qdec (-5) 1) (qdec 5 1) (zq 1));
  ([[(zq 1); (zq 0); (qdec 5 1)]; [(zq 0); (zq 0); (qdec (-15) 1)]; [(zq 0); (zq 1); (qdec 5 1)]], None, QMat (zq (-1)) (zq 0) (qdec 5 1) (zq 0) (zq 0) (qdec (-15) 1) (zq 0) (zq (-1)) (qdec 5 1));
  ([[(qdec 5 2); (qdec 1 1); (qdec 99 2)]; [(qdec 27 1); (qdec 7 1); (qdec 3 1)]; [(qdec 33 1); (qdec 45 1); (qdec 54 1)]], None, QMat (qdec (-89) 2) (qdec (-84) 2) (qdec (-168) 2) (qdec 4 1) (qdec (-16) 1) (qdec 15 1) (qdec (-9) 1) (qdec 3 1) (qdec 27 1));
  ([[(zq 1); (qdec (-3) 1); (qdec (-3) 1)]; [(qdec (-1) 1); (zq 1); (qdec (-1) 1)]; [(zq 0); (qdec 3 1); (qdec (-15) 1)]], None, QMat (zq (-1)) (qdec 3 1) (qdec 4 1) (qdec 1 1) (zq (-1)) (qdec 8 1) (zq 0) (qdec (-3) 1) (qdec (-12) 1));
  ([[(qdec 3682244 8); (zq 0); (zq 0)]; [(zq 0); (qdec 6377834 8); (zq 0)]; [(qdec 96209276 8); (qdec 96209276 8); (qdec 192418552 8)]], (Some (qdec 1 10)), QMat (qdec (-7364488) 8) (qdec (-3682244) 8) (qdec (-3682244) 8) (zq 0) (qdec 6377834 8) (zq 0) (zq 0) (zq 0) (qdec (-96209276) 8));
  ([[(qdec 7364488 8); (zq 0); (zq 0)]; [(zq 0); (qdec 12755668 8); (zq 0)]; [(qdec 24052319 8); (qdec 24052319 8); (qdec 48104638 8)]], (Some (qdec 1 10)), QMat (qdec (-14728977) 8) (qdec (-7364488) 8) (qdec (-7364488) 8) (zq 0) (qdec 12755668 8) (zq 0) (zq 0) (zq 0) (qdec (-24052319) 8));
  ([[(qdec 120559446 8); (zq 0); (zq 0)]; [(zq 0); (qdec 208815085 8); (zq 0)]; [(qdec 393745511 8); (qdec 393745511 8); (qdec 787491022 8)]], (Some (qdec 1 5)), QMat (qdec (-241118892) 8) (qdec (-120559446) 8) (qdec (-120559446) 8) (zq 0) (qdec 208815085 8) (zq 0) (zq 0) (zq 0) (qdec (-393745511) 8))].

(** test_niggli_id.py: the array, the parameters [G] if given, and the expected number. *)
Definition py_id_cases : list (list (list Qc) * option (Qc * Qc * Qc * Qc * Qc * Qc) * Z) := [
  ([[(qdec (-5) 1); (qdec 5 1); (qdec 5 1)]; [(zq 1); (zq (-1)); (zq 1)]; [(qdec 15 1); (qdec 15 1); (qdec (-15) 1)]], None, 19);
  ([[(zq 1); (qdec 141144 5); (qdec (-199868) 5)]; [(zq 1); (qdec 885622 7); (qdec 121232 5)]; [(zq 2); (zq (-2)); (qdec (-731822) 6)]], None, 8);
  ([[(zq 1); (qdec 161803 5); (qdec (-153633) 5)]; [(zq 1); (qdec (-61803) 5); (qdec 136706 5)]; [(zq 1); (zq (-1)); (qdec (-133073) 5)]], None, 42);
  ([[(qdec 5 1); (qdec 5 1); (zq 0)]; [(zq 0); (qdec 5 1); (zq 0)]; [(qdec 5 1); (zq 0); (zq 1)]], None, 1);
  ([[(zq 1); (zq 1); (zq 0)]; [(zq 0); (zq 1); (zq 0)]; [(zq 0); (zq 0); (zq 1)]], None, 3);
  ([[(zq (-1)); (zq 1); (zq 1)]; [(zq 1); (zq (-1)); (zq 1)]; [(zq 1); (zq 1); (zq (-1))]], None, 5);
  ([[(zq 1); (zq 0); (zq 1)]; [(zq 1); (zq 1); (zq 0)]; [(zq 0); (zq 0); (zq 2)]], None, 11);
  ([[(zq 1); (zq 0); (zq 1)]; [(zq 1); (zq 1); (zq 1)]; [(zq 2); (zq 2); (zq 0)]], None, 11);
  ([[(zq 1); (zq 1); (zq 0)]; [(zq 0); (zq 1); (zq 0)]; [(zq 0); (zq 0); (zq 4)]], None, 11);
  ([[(zq (-1)); (zq 0); (zq 0)]; [(zq 0); (zq (-1)); (zq 0)]; [(zq 0); (zq 2); (zq 2)]], None, 11);
  ([[(zq 0); (zq 1); (zq 0)]; [(zq 0); (zq 0); (zq 1)]; [(qdec 5 1); (zq 0); (zq 0)]], None, 21);
  ([[(zq 1); (zq 0); (zq 0)]; [(zq 0); (qdec 17320508 7); (zq 0)]; [(zq 0); (zq 0); (qdec 32659864 7)]], None, 32);
  ([[(qdec 5 1); (zq 0); (qdec 15 1)]; [(qdec 5 1); (zq 0); (qdec (-15) 1)]; [(zq 0); (zq 1); (zq 0)]], None, 32);
  ([[(qdec 5 1); (zq 0); (zq 2)]; [(qdec 5 1); (zq 0); (zq (-2))]; [(zq 0); (zq 1); (zq 0)]], None, 32);
  ([[(zq 1); (zq 2); (zq 4)]; [(zq 2); (zq 1); (zq 3)]; [(zq 2); (zq 2); (zq 3)]], None, 9);
  ([[(zq (-1)); (qdec 151184 5); (qdec (-255922) 6)]; [(zq 0); (zq 0); (qdec (-144338) 5)]; [(zq (-1)); (qdec (-845178) 6); (qdec 92259 5)]], None, 24);
  ([[(zq (-1)); (zq 0); (qdec (-111652) 5)]; [(zq 0); (qdec (-132288) 5); (qdec (-610985) 6)]; [(zq (-1)); (qdec (-5) 1); (qdec 616515 6)]], None, 2);
  ([[(zq (-1)); (zq 0); (qdec (-548584) 6)]; [(zq 0); (qdec (-132288) 5); (qdec 774292 6)]; [(zq (-1)); (qdec 5 1); (qdec 104858 5)]], None, 4);
  ([[(zq 1); (qdec 5 1); (zq 0)]; [(zq 0); (qdec (-8660254037844386) 16); (zq 0)]; [(zq 0); (zq 0); (zq 2)]], (Some ((zq 1), (qdec 99999999999999989 17), (zq 4), (zq 0), (zq 0), (qdec (-5) 1))), 12);
  ([[(zq 0); (zq 1); (qdec (-5) 1)]; [(zq 0); (zq 0); (qdec 8660254037844386 16)]; [(qdec (-5) 1); (zq 0); (zq 0)]], None, 22);
  ([[(zq (-1)); (zq 1); (zq 1)]; [(zq 1); (zq (-1)); (zq 1)]; [(zq 2); (zq 2); (zq (-2))]], None, 15);
  ([[(zq (-1)); (zq 1); (qdec 195095 5)]; [(zq 1); (qdec 160788 5); (qdec (-141625) 5)]; [(zq 2); (qdec (-155394) 5); (qdec 433603 6)]], None, 7);
  ([[(zq (-1)); (zq 1); (qdec 180278 5)]; [(zq 1); (qdec 160788 5); (qdec (-147253) 5)]; [(zq 2); (qdec (-155394) 5); (qdec 762655 6)]], None, 6);
  ([[(zq 0); (zq 1); (zq (-2))]; [(zq 0); (zq (-2)); (zq (-1))]; [(zq 2); (zq 1); (zq 1)]], None, 18);
  ([[(zq 0); (qdec 5 1); (zq 0)]; [(zq 1); (zq 0); (zq 0)]; [(qdec 15 1); (qdec 15 1); (zq 3)]], None, 26);
  ([[(zq 1); (qdec 779796 6); (qdec (-104442) 5)]; [(zq 1); (qdec (-11798) 4); (qdec (-143973) 5)]; [(zq (-1)); (zq 1); (qdec (-168415) 5)]], None, 16);
  ([[(qdec 5 1); (qdec 5 1); (zq 0)]; [(zq 1); (zq (-1)); (zq 0)]; [(zq 0); (zq 0); (zq 3)]], None, 38);
  ([[(zq 1); (zq 1); (zq 0)]; [(zq 1); (zq (-1)); (qdec (-173205) 5)]; [(zq 1); (zq (-1)); (qdec 173205 5)]], None, 13);
  ([[(zq 1); (zq 2); (qdec (-3333333) 7)]; [(zq 1); (zq (-1)); (qdec (-154116) 5)]; [(zq 1); (zq (-1)); (qdec 187449 5)]], None, 23);
  ([[(zq 1); (qdec 161803 5); (qdec (-105557) 5)]; [(zq 1); (qdec (-618034) 6); (qdec 199895 5)]; [(zq 1); (zq (-1)); (qdec (-943376) 6)]], None, 40);
  ([[(zq 1); (qdec 141421 5); (qdec (-143541) 5)]; [(zq 1); (qdec (-141421) 5); (qdec (-143541) 5)]; [(zq 1); (zq 0); (qdec 137083 5)]], None, 36);
  ([[(zq 2); (zq 0); (qdec 5 1)]; [(zq 0); (zq 2); (zq 0)]; [(zq 0); (zq 0); (zq 2)]], None, 33);
  ([[(zq 1); (qdec 161803 5); (qdec (-668912) 6)]; [(zq 1); (qdec (-618034) 6); (qdec 196676 5)]; [(zq 1); (zq (-1)); (qdec (-129785) 5)]], None, 35);
  ([[(zq 1); (qdec 122474487 8); (qdec (-165985087) 9)]; [(zq 1); (qdec (-122474487) 8); (qdec (-164308297) 8)]; [(zq 1); (zq (-1)); (qdec 180906806 8)]], None, 34);
  ([[(zq 1); (zq 1); (qdec 5 1)]; [(zq 1); (zq (-1)); (zq 0)]; [(zq 0); (zq 0); (zq 2)]], None, 14);
  ([[(zq 1); (zq 1); (qdec (-146391) 5)]; [(zq 1); (zq (-1)); (zq 0)]; [(zq 1); (zq 1); (qdec 196391 5)]], None, 10);
  ([[(zq 1); (qdec 809568 6); (qdec (-105387) 5)]; [(zq 1); (qdec (-115957) 5); (qdec (-161088) 5)]; [(zq 1); (zq (-1)); (qdec 151474 5)]], None, 17);
  ([[(zq 1); (qdec 170119 5); (qdec (-10034) 4)]; [(zq 1); (qdec (-145119) 5); (qdec 189395 7)]; [(zq 1); (zq 1); (qdec 223446 5)]], None, 20);
  ([[(zq 1); (qdec 145119 5); (qdec (-116241) 5)]; [(zq 1); (qdec (-170119) 5); (qdec (-156776) 5)]; [(zq 1); (zq (-1)); (qdec 148018 5)]], None, 25);
  ([[(zq 1); (qdec 1618033 6); (qdec (-464824) 6)]; [(zq 1); (qdec (-618033) 6); (qdec 1464824 6)]; [(zq 0); (zq 1); (qdec 1907413 6)]], None, 27);
  ([[(zq 1); (qdec 144896 5); (qdec (-342424) 6)]; [(zq 1); (qdec (-948958) 6); (qdec 1342424 6)]; [(zq 0); (zq 1); (qdec 202006 5)]], None, 28);
  ([[(zq 1); (qdec 161803 5); (qdec (-666125) 6)]; [(zq 1); (qdec (-618034) 6); (qdec 116613 5)]; [(zq 0); (zq 1); (qdec 204852 5)]], None, 29);
  ([[(zq 1); (qdec 161803 5); (qdec (-361373) 7)]; [(zq 1); (qdec (-618034) 6); (qdec 536137 6)]; [(zq 0); (zq 1); (qdec 238982 5)]], None, 30);
  ([[(zq 1); (zq 1); (qdec (-185397) 5)]; [(zq 0); (qdec (-141421) 5); (qdec (-854143) 6)]; [(zq 1); (zq (-1)); (qdec 135397 5)]], None, 41);
  ([[(zq 1); (zq 1); (qdec (-179092) 5)]; [(zq 0); (qdec (-141421) 5); (qdec (-147209) 5)]; [(zq 1); (zq (-1)); (qdec 790922 6)]], None, 37);
  ([[(zq 1); (zq 0); (qdec (-166542) 5)]; [(zq 0); (qdec (-173205) 5); (qdec (-672857) 6)]; [(zq 1); (zq (-1)); (qdec 166542 5)]], None, 39);
  ([[(zq 1); (qdec 164194 5); (qdec (-139716) 5)]; [(zq 1); (qdec (-114194) 5); (qdec (-134718) 5)]; [(zq 1); (zq (-1)); (qdec 149434 5)]], None, 43);
  ([[(zq 1); (zq 0); (zq 0)]; [(zq 0); (zq 1); (zq 0)]; [(zq 0); (zq 0); (zq 1)]], (Some ((zq 1), (zq 2), (zq 3), (qdec 1 1), (qdec 2 1), (qdec 3 1))), 31);
  ([[(zq 1); (zq 0); (zq 0)]; [(zq 0); (zq 1); (zq 0)]; [(zq 0); (zq 0); (zq 1)]], (Some ((zq 1), (zq 2), (zq 3), (qdec (-1) 1), (qdec (-2) 1), (qdec (-3) 1))), 44)].

(** The case of test_niggli_id.py that gives [eps_] and compares the family. *)
Definition py_fam_case : list (list Qc) * Qc * Z := ([[(qdec 7364488 8); (zq 0); (zq 0)]; [(zq 0); (qdec 6377834 8); (zq 0)]; [(qdec 48104638 8); (qdec 48104638 8); (qdec 96209276 8)]], (qdec 1 10), 5).

(** test_universal.py, test_transform_HNFs. *)
Definition py_transform_cases : list (list mat3 * qmat * qmat * qmat * qmat * qmat * list qmat) := [
  ([Mat3 1 0 0 0 1 0 1 1 2; Mat3 1 0 0 1 2 0 1 0 2], QMat (zq 1) (zq 0) (zq 0) (zq 0) (zq 1) (zq 0) (zq 0) (zq 0) (zq 1), QMat (zq 1) (zq 0) (zq 0) (zq 0) (zq 1) (zq 0) (zq 0) (zq 0) (zq 1), QMat (zq 1) (zq 0) (zq 0) (zq 0) (zq 1) (zq 0) (zq 0) (zq 0) (zq 1), QMat (zq 1) (zq 0) (zq 0) (zq 0) (zq 1) (zq 0) (zq 0) (zq 0) (zq 1), QMat (zq 1) (zq 0) (zq 0) (zq 0) (zq 1) (zq 0) (zq 0) (zq 0) (zq 1), [QMat (zq 1) (zq 0) (zq 0) (zq 0) (zq 1) (zq 0) (zq 1) (zq 1) (zq 2); QMat (zq 1) (zq 0) (zq 0) (zq 1) (zq 2) (zq 0) (zq 1) (zq 0) (zq 2)]);
  ([Mat3 1 0 0 0 1 0 1 1 2; Mat3 1 0 0 1 2 0 1 0 2], QMat (zq 1) (zq 0) (zq 0) (zq 0) (zq 1) (zq 0) (zq 0) (zq 0) (zq 1), QMat (zq (-1)) (zq 0) (zq 0) (zq 0) (zq 0) (zq 1) (zq 0) (zq 1) (zq 0), QMat (zq 1) (zq 0) (zq 0) (zq 0) (zq 1) (zq 0) (zq 0) (zq 0) (zq 1), QMat (zq (-1)) (zq 0) (zq (-1)) (zq 0) (zq 0) (zq 1) (zq 0) (zq 1) (zq 0), QMat (zq 1) (zq 0) (zq 0) (zq 0) (zq 1) (zq 0) (zq 0) (zq 0) (zq 1), [QMat (zq 1) (zq 1) (zq 0) (zq (-1)) (zq 1) (zq 1) (zq 0) (zq 0) (zq 1); QMat (zq 1) (zq 1) (zq 0) (zq (-1)) (zq 1) (zq 0) (zq (-1)) (zq (-1)) (zq 2)]);
  ([Mat3 1 0 0 0 1 0 1 0 4; Mat3 1 0 0 0 1 0 2 0 4; Mat3 1 0 0 0 1 0 3 0 4; Mat3 2 0 0 0 1 0 0 0 2; Mat3 2 0 0 0 1 0 0 1 2; Mat3 2 0 0 0 1 0 1 0 2; Mat3 2 0 0 0 1 0 1 1 2; Mat3 2 0 0 0 2 0 0 0 1; Mat3 2 0 0 1 2 0 0 0 1], QMat (zq 1) (zq 1) (qdec (-5) 1) (zq 1) (zq (-1)) (zq 0) (zq 0) (zq 0) (zq (-2)), QMat (zq (-1)) (zq (-1)) (qdec 5 1) (zq (-1)) (zq 1) (zq 0) (zq 0) (zq 0) (zq 2), QMat (zq 1) (zq 1) (zq 0) (zq 0) (zq (-1)) (zq 0) (zq 0) (zq 0) (zq (-1)), QMat (zq 0) (zq 1) (zq 0) (zq (-3)) (zq (-9)) (zq (-4)) (zq 2) (zq 6) (zq 3), QMat (zq 1) (zq 0) (qdec 5 1) (zq 1) (zq 2) (zq 0) (zq 0) (zq 0) (zq 2), [QMat (zq 3) (qdec 85 1) (zq 12) (zq 4) (zq 3) (zq 4) (zq 4) (zq 22) (zq 32); QMat (zq 4) (zq 10) (zq 14) (zq 4) (zq 3) (zq 4) (zq 8) (zq 28) (zq 40); QMat (zq 5) (qdec 115 1) (zq 16) (zq 4) (zq 3) (zq 4) (zq 12) (zq 34) (zq 48); QMat (zq 4) (zq 8) (zq 11) (zq 6) (zq 6) (zq 8) (zq 0) (zq 8) (zq 12); QMat (qdec 45 1) (zq 8) (zq 11) (zq 6) (zq 6) (zq 8) (zq 2) (zq 8) (zq 12); QMat (zq 5) (qdec 95 1) (zq 13) (zq 6) (zq 6) (zq 8) (zq 4) (zq 14) (zq 20); QMat (qdec 55 1) (qdec 95 1) (zq 13) (zq 6) (zq 6) (zq 8) (zq 6) (zq 14) (zq 20); QMat (zq 4) (zq 7) (qdec 95 1) (zq 8) (zq 6) (zq 8) (zq 0) (zq 4) (zq 6); QMat (zq 4) (zq 7) (qdec 95 1) (zq 12) (zq 12) (zq 16) (zq 0) (zq 4) (zq 6)])].

(** test_universal.py, test_find_supers: the array, [kpt], [exact], [nb] (the value of
    [int(floor(kpt**(1.0/3.0))-1)]) and the expected supercells (those with at most 100). *)
Definition py_super_cases : list (list (list Qc) * Z * bool * Z * list qmat) := [
  (* find_supercells_basis_12_14.txt *)
  ([[(zq 0); (qdec 15 1); (zq 1)]; [(zq 0); (qdec (-8660254) 7); (zq 0)]; [(zq 2); (zq 2); (zq 2)]], 10, false, 1, [QMat (zq 0) (qdec 15 1) (zq 1) (zq 0) (qdec (-8660254) 7) (zq 0) (zq 24) (zq 24) (zq 24);
     QMat (zq 0) (qdec 45 1) (zq 3) (zq 0) (qdec (-8660254) 7) (zq 0) (zq 8) (zq 8) (zq 8);
     QMat (zq 0) (zq 3) (zq 2) (zq 0) (qdec (-17320508) 7) (zq 0) (zq 6) (zq 6) (zq 6);
     QMat (zq 0) (zq 9) (zq 6) (zq 0) (qdec (-17320508) 7) (zq 0) (zq 2) (zq 2) (zq 2);
     QMat (zq 0) (qdec 15 1) (zq 1) (zq 0) (qdec (-8660254) 7) (zq 0) (zq 30) (zq 30) (zq 30);
     QMat (zq 0) (qdec 45 1) (zq 3) (zq 0) (qdec (-8660254) 7) (zq 0) (zq 10) (zq 10) (zq 10);
     QMat (zq 0) (qdec 15 1) (zq 1) (zq 0) (qdec (-8660254) 7) (zq 0) (zq 32) (zq 32) (zq 32);
     QMat (zq 0) (zq 3) (zq 2) (zq 0) (qdec (-17320508) 7) (zq 0) (zq 8) (zq 8) (zq 8);
     QMat (zq 0) (zq 6) (zq 4) (zq 0) (qdec (-34641016) 7) (zq 0) (zq 2) (zq 2) (zq 2);
     QMat (zq 0) (qdec 15 1) (zq 1) (zq 0) (qdec (-8660254) 7) (zq 0) (zq 36) (zq 36) (zq 36);
     QMat (zq 0) (qdec 45 1) (zq 3) (zq 0) (qdec (-8660254) 7) (zq 0) (zq 12) (zq 12) (zq 12);
     QMat (zq 0) (qdec 45 1) (zq 3) (zq 0) (qdec (-25980762) 7) (zq 0) (zq 4) (zq 4) (zq 4);
     QMat (zq 0) (qdec 15 1) (zq 1) (zq 0) (qdec (-8660254) 7) (zq 0) (zq 40) (zq 40) (zq 40);
     QMat (zq 0) (zq 3) (zq 2) (zq 0) (qdec (-17320508) 7) (zq 0) (zq 10) (zq 10) (zq 10)]);
  (* find_supercells_basis_22_1.txt *)
  ([[(qdec (-5) 1); (qdec 5 1); (qdec (-5) 1)]; [(qdec 8660254 7); (qdec 8660254 7); (qdec 8660254 7)]; [(zq 0); (qdec (-5) 1); (qdec (-5) 1)]], 10, true, 1, [QMat (qdec (-5) 1) (qdec 5 1) (qdec (-5) 1) (qdec 8660254 7) (qdec 8660254 7) (qdec 8660254 7) (zq 0) (zq (-5)) (zq (-5))]);
  (* find_supercells_basis_3_3.txt *)
  ([[(zq 0); (zq 1); (zq 1)]; [(zq 0); (zq 1); (zq 0)]; [(zq 1); (zq 1); (zq 1)]], 10, false, 1, [QMat (zq (-2)) (zq 4) (zq 2) (zq 0) (zq 2) (zq 0) (zq 2) (zq 2) (zq 2);
     QMat (zq 0) (zq 3) (zq 3) (zq 0) (zq 3) (zq 0) (zq 3) (zq 3) (zq 3);
     QMat (zq (-2)) (zq 2) (zq 2) (zq (-2)) (zq 2) (zq (-2)) (zq 2) (zq 2) (zq 2)]);
  (* find_supercells_basis_1_3.txt *)
  ([[(zq 1); (zq 2); (zq 1)]; [(zq 1); (zq 2); (zq 2)]; [(zq 0); (zq 2); (zq 1)]], 10, false, 1, [QMat (zq 4) (zq 6) (zq 4) (zq 4) (zq 10) (zq 8) (zq 0) (zq 6) (zq 4);
     QMat (zq 3) (zq 6) (zq 3) (zq 3) (zq 6) (zq 6) (zq 0) (zq 6) (zq 3);
     QMat (zq 4) (zq 8) (zq 4) (zq 4) (zq 12) (zq 8) (zq 0) (zq 8) (zq 4)]);
  (* find_supercells_basis_5_3.txt *)
  ([[(zq 1); (zq 1); (zq 0)]; [(zq 1); (zq 1); (zq 2)]; [(zq (-1)); (zq 1); (zq 0)]], 10, false, 1, [QMat (zq 4) (zq 0) (zq (-4)) (zq 0) (zq 4) (zq 8) (zq 0) (zq 0) (zq (-4));
     QMat (zq 3) (zq 3) (zq 0) (zq 3) (zq 3) (zq 6) (zq (-3)) (zq 3) (zq 0);
     QMat (zq 8) (zq (-4)) (zq (-12)) (zq (-4)) (zq 8) (zq 16) (zq 4) (zq (-4)) (zq (-12))]);
  (* find_supercells_basis_9_24_1.txt *)
  ([[(zq 4); (zq 7); (zq 5)]; [(zq 3); (zq 6); (zq 5)]; [(zq 3); (zq 7); (zq 5)]], 10, true, 1, [QMat (zq 20) (zq 59) (zq 39) (zq 15) (zq 44) (zq 30) (zq 15) (zq 47) (zq 31)]);
  (* find_supercells_basis_4_2_13.txt *)
  ([[(qdec (-111652) 5); (qdec (-211652) 5); (qdec (-211652) 5)]; [(qdec (-610985) 6); (qdec (-1933865) 6); (qdec (-610985) 6)]; [(qdec 616515 6); (qdec (-883485) 6); (qdec (-383485) 6)]], 20, false, 1, [QMat (qdec 1046608 5) (qdec (-1481564) 5) (qdec (-211652) 4) (qdec 244394 5) (qdec (-5599775) 6) (qdec (-610985) 5) (qdec 353394 5) (qdec (-3184395) 6) (qdec (-383485) 5);
     QMat (qdec (-11652) 5) (qdec (-201652) 4) (qdec (-211652) 4) (qdec (-610985) 6) (qdec (-743273) 5) (qdec (-610985) 5) (qdec 1616515 6) (qdec (-333485) 5) (qdec (-383485) 5);
     QMat (qdec (-11652) 5) (qdec (-2439824) 5) (qdec (-2539824) 5) (qdec (-610985) 6) (qdec (-86547) 4) (qdec (-733182) 5) (qdec 1616515 6) (qdec (-410182) 5) (qdec (-460182) 5);
     QMat (qdec 623304 5) (qdec (-423304) 5) (qdec (-1269912) 5) (qdec 122197 5) (qdec (-386773) 5) (qdec (-366591) 5) (qdec 276697 5) (qdec (-176697) 5) (qdec (-230091) 5);
     QMat (qdec 2639824 5) (qdec (-2539824) 5) (qdec (-52913) 3) (qdec 733182 5) (qdec (-86547) 4) (qdec (-15274625) 6) (qdec 560182 5) (qdec (-510182) 5) (qdec (-9587125) 6);
     QMat (qdec (-55826) 4) (qdec (-211652) 5) (qdec (-105826) 4) (qdec (-3054925) 6) (qdec (-1933865) 6) (qdec (-3054925) 6) (qdec 3082575 6) (qdec (-883485) 6) (qdec (-1917425) 6);
     QMat (qdec 2851476 5) (qdec (-2751476) 5) (qdec (-5714604) 5) (qdec 7942805 6) (qdec (-9265685) 6) (qdec (-16496595) 6) (qdec 5985305 6) (qdec (-5485305) 6) (qdec (-10354095) 6);
     QMat (qdec 934956 5) (qdec (-1481564) 5) (qdec (-1904868) 5) (qdec 1832955 6) (qdec (-5599775) 6) (qdec (-5498865) 6) (qdec 4150455 6) (qdec (-3184395) 6) (qdec (-3451365) 6);
     QMat (qdec 934956 5) (qdec (-846608) 5) (qdec (-1904868) 5) (qdec 1832955 6) (qdec (-376682) 5) (qdec (-5498865) 6) (qdec 4150455 6) (qdec (-203394) 5) (qdec (-3451365) 6);
     QMat (qdec 934956 5) (qdec (-211652) 5) (qdec (-1904868) 5) (qdec 1832955 6) (qdec (-1933865) 6) (qdec (-5498865) 6) (qdec 4150455 6) (qdec (-883485) 6) (qdec (-3451365) 6);
     QMat (qdec (-334956) 5) (qdec (-634956) 5) (qdec (-634956) 5) (qdec (-1832955) 6) (qdec (-5801595) 6) (qdec (-1832955) 6) (qdec 1849545 6) (qdec (-2650455) 6) (qdec (-1150455) 6);
     QMat (qdec 1469912 5) (qdec (-634956) 5) (qdec (-2963128) 5) (qdec 366591 5) (qdec (-3155835) 6) (qdec (-855379) 5) (qdec 430091 5) (qdec (-1650455) 6) (qdec (-536879) 5);
     QMat (qdec (-11652) 5) (qdec (-2863128) 5) (qdec (-2963128) 5) (qdec (-610985) 6) (qdec (-987667) 5) (qdec (-855379) 5) (qdec 1616515 6) (qdec (-486879) 5) (qdec (-536879) 5)]);
  (* find_supercells_basis_11_3.txt *)
  ([[(zq 0); (zq 1); (zq 1)]; [(zq 0); (zq 1); (zq 0)]; [(zq 2); (zq 2); (zq 2)]], 10, true, 1, [QMat (zq 0) (zq 1) (zq 1) (zq 0) (zq 1) (zq 0) (zq 20) (zq 20) (zq 20);
     QMat (zq 0) (zq 1) (zq 1) (zq 0) (zq 1) (zq 0) (zq 20) (zq 0) (zq 10);
     QMat (zq 0) (zq 3) (zq 2) (zq 0) (zq 1) (zq 0) (zq 10) (zq 10) (zq 10)]);
  (* find_supercells_basis_21_20.txt *)
  ([[(zq 0); (zq 1); (zq 0)]; [(zq 1); (zq 1); (zq 1)]; [(zq 0); (qdec 5 1); (qdec 5 1)]], 20, false, 1, [QMat (zq 0) (zq 2) (zq 0) (zq 2) (zq 2) (zq 2) (zq 0) (qdec 25 1) (qdec 25 1);
     QMat (zq 0) (zq 3) (zq 1) (zq 2) (zq 1) (zq 1) (zq 0) (qdec 25 1) (qdec 25 1);
     QMat (zq (-1)) (zq 1) (zq (-1)) (zq 1) (zq 1) (zq 1) (zq 0) (zq 5) (zq 5);
     QMat (zq (-1)) (zq 2) (zq 0) (zq 1) (zq 1) (zq 1) (zq 0) (zq 5) (zq 5);
     QMat (zq 0) (zq 1) (zq 0) (zq 1) (zq 1) (zq 1) (zq 0) (zq 10) (zq 10);
     QMat (zq (-1)) (zq 1) (zq (-1)) (zq 1) (zq 1) (zq 1) (zq 0) (qdec 55 1) (qdec 55 1);
     QMat (zq (-1)) (zq 2) (zq 0) (zq 1) (zq 1) (zq 1) (zq 0) (qdec 55 1) (qdec 55 1);
     QMat (zq 0) (zq 1) (zq 0) (zq 1) (zq 1) (zq 1) (zq 0) (zq 11) (zq 11);
     QMat (zq (-2)) (zq 2) (zq (-2)) (zq 2) (zq 2) (zq 2) (zq 0) (qdec 15 1) (qdec 15 1);
     QMat (zq (-2)) (zq 4) (zq 0) (zq 2) (zq 2) (zq 2) (zq 0) (qdec 15 1) (qdec 15 1);
     QMat (zq 0) (zq 2) (zq 0) (zq 2) (zq 2) (zq 2) (zq 0) (zq 3) (zq 3);
     QMat (zq 0) (zq 3) (zq 1) (zq 2) (zq 1) (zq 1) (zq 0) (zq 3) (zq 3);
     QMat (zq (-1)) (zq 1) (zq (-1)) (zq 1) (zq 1) (zq 1) (zq 0) (zq 6) (zq 6);
     QMat (zq (-1)) (zq 2) (zq 0) (zq 1) (zq 1) (zq 1) (zq 0) (zq 6) (zq 6);
     QMat (zq 0) (zq 1) (zq 0) (zq 1) (zq 1) (zq 1) (zq 0) (zq 12) (zq 12);
     QMat (zq 0) (zq 5) (zq 0) (zq 5) (zq 5) (zq 5) (zq 0) (qdec 5 1) (qdec 5 1);
     QMat (zq 0) (zq 1) (zq 0) (zq 1) (zq 1) (zq 1) (zq 0) (qdec 125 1) (qdec 125 1);
     QMat (zq (-1)) (zq 1) (zq (-1)) (zq 1) (zq 1) (zq 1) (zq 0) (qdec 65 1) (qdec 65 1);
     QMat (zq (-1)) (zq 2) (zq 0) (zq 1) (zq 1) (zq 1) (zq 0) (qdec 65 1) (qdec 65 1);
     QMat (zq 0) (zq 1) (zq 0) (zq 1) (zq 1) (zq 1) (zq 0) (zq 13) (zq 13)]);
  (* find_supercells_basis_15_3.txt *)
  ([[(zq 1); (zq 1); (zq 0)]; [(zq 1); (zq 1); (zq 2)]; [(zq (-2)); (zq 2); (zq 0)]], 12, true, 1, [QMat (zq 6) (zq 0) (zq 2) (zq 6) (zq (-4)) (zq 2) (zq (-12)) (zq 12) (zq 0);
     QMat (zq 8) (zq (-2)) (zq 2) (zq 6) (zq (-4)) (zq 2) (zq (-12)) (zq 12) (zq 0);
     QMat (zq 12) (zq (-10)) (zq 0) (zq 12) (zq (-10)) (zq 2) (zq (-24)) (zq 24) (zq 0)]);
  (* find_supercells_basis_32_21.txt *)
  ([[(zq 0); (zq 1); (zq 1)]; [(zq 0); (zq 2); (zq 0)]; [(zq 3); (zq 3); (zq 3)]], 10, true, 1, [QMat (zq 0) (zq 1) (zq 1) (zq 0) (zq 2) (zq 0) (zq 30) (zq 30) (zq 30);
     QMat (zq 0) (zq 1) (zq 1) (zq 0) (zq 2) (zq 0) (zq 30) (zq 15) (zq 15);
     QMat (zq 0) (zq 1) (zq 1) (zq 0) (zq 2) (zq 0) (zq 30) (zq 15) (zq 30);
     QMat (zq 0) (zq 1) (zq 1) (zq 0) (zq 2) (zq 0) (zq 30) (zq 0) (zq 15);
     QMat (zq 0) (zq 1) (zq 1) (zq 0) (zq 4) (zq 0) (zq 15) (zq 15) (zq 15);
     QMat (zq 0) (zq 1) (zq 1) (zq 0) (zq 6) (zq 2) (zq 15) (zq 15) (zq 15);
     QMat (zq 0) (zq 1) (zq 1) (zq 0) (zq 10) (zq 0) (zq 6) (zq 6) (zq 6);
     QMat (zq 0) (zq 1) (zq 1) (zq 0) (zq 10) (zq 0) (zq 6) (zq 3) (zq 3);
     QMat (zq 0) (zq 1) (zq 1) (zq 0) (zq 10) (zq 0) (zq 6) (zq 3) (zq 6);
     QMat (zq 0) (zq 1) (zq 1) (zq 0) (zq 10) (zq 0) (zq 6) (zq 0) (zq 3);
     QMat (zq 0) (zq 1) (zq 1) (zq 0) (zq 20) (zq 0) (zq 3) (zq 3) (zq 3);
     QMat (zq 0) (zq 1) (zq 1) (zq 0) (zq 30) (zq 10) (zq 3) (zq 3) (zq 3);
     QMat (zq 0) (zq 2) (zq 2) (zq 0) (zq 2) (zq 0) (zq 15) (zq 15) (zq 15);
     QMat (zq 0) (zq 2) (zq 2) (zq 0) (zq 10) (zq 0) (zq 3) (zq 3) (zq 3);
     QMat (zq 0) (zq 5) (zq 5) (zq 0) (zq 2) (zq 0) (zq 6) (zq 6) (zq 6);
     QMat (zq 0) (zq 5) (zq 5) (zq 0) (zq 2) (zq 0) (zq 6) (zq 3) (zq 3);
     QMat (zq 0) (zq 5) (zq 5) (zq 0) (zq 2) (zq 0) (zq 6) (zq 3) (zq 6);
     QMat (zq 0) (zq 5) (zq 5) (zq 0) (zq 2) (zq 0) (zq 6) (zq 0) (zq 3);
     QMat (zq 0) (zq 5) (zq 5) (zq 0) (zq 4) (zq 0) (zq 3) (zq 3) (zq 3);
     QMat (zq 0) (zq 5) (zq 5) (zq 0) (zq 6) (zq 2) (zq 3) (zq 3) (zq 3);
     QMat (zq 0) (zq 10) (zq 10) (zq 0) (zq 2) (zq 0) (zq 3) (zq 3) (zq 3)]);
  (* find_supercells_basis_32_70.txt *)
  ([[(zq 0); (zq 1); (zq 1)]; [(zq 0); (zq 2); (zq 0)]; [(zq 3); (zq 3); (zq 3)]], 5, false, 0, [QMat (zq 0) (zq 1) (zq 1) (zq 0) (zq 2) (zq 0) (zq 15) (zq 15) (zq 15);
     QMat (zq 0) (zq 1) (zq 1) (zq 0) (zq 10) (zq 0) (zq 3) (zq 3) (zq 3);
     QMat (zq 0) (zq 5) (zq 5) (zq 0) (zq 2) (zq 0) (zq 3) (zq 3) (zq 3);
     QMat (zq 0) (zq 1) (zq 1) (zq 0) (zq 2) (zq 0) (zq 18) (zq 18) (zq 18);
     QMat (zq 0) (zq 1) (zq 1) (zq 0) (zq 2) (zq 0) (zq 18) (zq 9) (zq 9);
     QMat (zq 0) (zq 1) (zq 1) (zq 0) (zq 2) (zq 0) (zq 18) (zq 9) (zq 18);
     QMat (zq 0) (zq 1) (zq 1) (zq 0) (zq 2) (zq 0) (zq 18) (zq 0) (zq 9);
     QMat (zq 0) (zq 1) (zq 1) (zq 0) (zq 4) (zq 0) (zq 9) (zq 9) (zq 9);
     QMat (zq 0) (zq 1) (zq 1) (zq 0) (zq 6) (zq 2) (zq 9) (zq 9) (zq 9);
     QMat (zq 0) (zq 1) (zq 1) (zq 0) (zq 6) (zq 0) (zq 6) (zq 6) (zq 6);
     QMat (zq 0) (zq 1) (zq 1) (zq 0) (zq 6) (zq 0) (zq 6) (zq 3) (zq 3);
     QMat (zq 0) (zq 1) (zq 1) (zq 0) (zq 6) (zq 0) (zq 6) (zq 3) (zq 6);
     QMat (zq 0) (zq 1) (zq 1) (zq 0) (zq 6) (zq 0) (zq 6) (zq 0) (zq 3);
     QMat (zq 0) (zq 1) (zq 1) (zq 0) (zq 12) (zq 0) (zq 3) (zq 3) (zq 3);
     QMat (zq 0) (zq 1) (zq 1) (zq 0) (zq 18) (zq 6) (zq 3) (zq 3) (zq 3);
     QMat (zq 0) (zq 2) (zq 2) (zq 0) (zq 2) (zq 0) (zq 9) (zq 9) (zq 9);
     QMat (zq 0) (zq 2) (zq 2) (zq 0) (zq 6) (zq 0) (zq 3) (zq 3) (zq 3);
     QMat (zq 0) (zq 3) (zq 3) (zq 0) (zq 2) (zq 0) (zq 6) (zq 6) (zq 6);
     QMat (zq 0) (zq 3) (zq 3) (zq 0) (zq 2) (zq 0) (zq 6) (zq 3) (zq 3);
     QMat (zq 0) (zq 3) (zq 3) (zq 0) (zq 2) (zq 0) (zq 6) (zq 3) (zq 6);
     QMat (zq 0) (zq 3) (zq 3) (zq 0) (zq 2) (zq 0) (zq 6) (zq 0) (zq 3);
     QMat (zq 0) (zq 3) (zq 3) (zq 0) (zq 4) (zq 0) (zq 3) (zq 3) (zq 3);
     QMat (zq 0) (zq 3) (zq 3) (zq 0) (zq 6) (zq 2) (zq 3) (zq 3) (zq 3);
     QMat (zq 0) (zq 6) (zq 6) (zq 0) (zq 2) (zq 0) (zq 3) (zq 3) (zq 3);
     QMat (zq 0) (zq 1) (zq 1) (zq 0) (zq 2) (zq 0) (zq 21) (zq 21) (zq 21);
     QMat (zq 0) (zq 1) (zq 1) (zq 0) (zq 14) (zq 0) (zq 3) (zq 3) (zq 3);
     QMat (zq 0) (zq 7) (zq 7) (zq 0) (zq 2) (zq 0) (zq 3) (zq 3) (zq 3);
     QMat (zq 0) (zq 1) (zq 1) (zq 0) (zq 2) (zq 0) (zq 24) (zq 24) (zq 24);
     QMat (zq 0) (zq 1) (zq 1) (zq 0) (zq 2) (zq 0) (zq 24) (zq 12) (zq 12);
     QMat (zq 0) (zq 1) (zq 1) (zq 0) (zq 2) (zq 0) (zq 24) (zq 12) (zq 24);
     QMat (zq 0) (zq 1) (zq 1) (zq 0) (zq 2) (zq 0) (zq 24) (zq 0) (zq 12);
     QMat (zq 0) (zq 1) (zq 1) (zq 0) (zq 4) (zq 0) (zq 12) (zq 12) (zq 12);
     QMat (zq 0) (zq 1) (zq 1) (zq 0) (zq 4) (zq 0) (zq 12) (zq 6) (zq 6);
     QMat (zq 0) (zq 1) (zq 1) (zq 0) (zq 4) (zq 0) (zq 12) (zq 6) (zq 12);
     QMat (zq 0) (zq 1) (zq 1) (zq 0) (zq 4) (zq 0) (zq 12) (zq 0) (zq 6);
     QMat (zq 0) (zq 1) (zq 1) (zq 0) (zq 6) (zq 2) (zq 12) (zq 12) (zq 12);
     QMat (zq 0) (zq 1) (zq 1) (zq 0) (zq 6) (zq 2) (zq 12) (zq 6) (zq 6);
     QMat (zq 0) (zq 1) (zq 1) (zq 0) (zq 8) (zq 0) (zq 6) (zq 6) (zq 6);
     QMat (zq 0) (zq 1) (zq 1) (zq 0) (zq 8) (zq 0) (zq 6) (zq 3) (zq 3);
     QMat (zq 0) (zq 1) (zq 1) (zq 0) (zq 8) (zq 0) (zq 6) (zq 3) (zq 6);
     QMat (zq 0) (zq 1) (zq 1) (zq 0) (zq 8) (zq 0) (zq 6) (zq 0) (zq 3);
     QMat (zq 0) (zq 1) (zq 1) (zq 0) (zq 12) (zq 4) (zq 6) (zq 6) (zq 6);
     QMat (zq 0) (zq 1) (zq 1) (zq 0) (zq 12) (zq 4) (zq 6) (zq 3) (zq 3);
     QMat (zq 0) (zq 1) (zq 1) (zq 0) (zq 16) (zq 0) (zq 3) (zq 3) (zq 3);
     QMat (zq 0) (zq 1) (zq 1) (zq 0) (zq 24) (zq 8) (zq 3) (zq 3) (zq 3);
     QMat (zq 0) (zq 2) (zq 2) (zq 0) (zq 2) (zq 0) (zq 12) (zq 12) (zq 12);
     QMat (zq 0) (zq 2) (zq 2) (zq 0) (zq 2) (zq 0) (zq 12) (zq 6) (zq 6);
     QMat (zq 0) (zq 2) (zq 2) (zq 0) (zq 2) (zq 0) (zq 12) (zq 6) (zq 12);
     QMat (zq 0) (zq 2) (zq 2) (zq 0) (zq 2) (zq 0) (zq 12) (zq 0) (zq 6);
     QMat (zq 0) (zq 2) (zq 2) (zq 0) (zq 4) (zq 0) (zq 6) (zq 6) (zq 6);
     QMat (zq 0) (zq 2) (zq 2) (zq 0) (zq 4) (zq 0) (zq 6) (zq 3) (zq 3);
     QMat (zq 0) (zq 2) (zq 2) (zq 0) (zq 4) (zq 0) (zq 6) (zq 3) (zq 6);
     QMat (zq 0) (zq 2) (zq 2) (zq 0) (zq 4) (zq 0) (zq 6) (zq 0) (zq 3);
     QMat (zq 0) (zq 2) (zq 2) (zq 0) (zq 6) (zq 2) (zq 6) (zq 6) (zq 6);
     QMat (zq 0) (zq 2) (zq 2) (zq 0) (zq 6) (zq 2) (zq 6) (zq 3) (zq 3);
     QMat (zq 0) (zq 2) (zq 2) (zq 0) (zq 8) (zq 0) (zq 3) (zq 3) (zq 3);
     QMat (zq 0) (zq 2) (zq 2) (zq 0) (zq 12) (zq 4) (zq 3) (zq 3) (zq 3);
     QMat (zq 0) (zq 4) (zq 4) (zq 0) (zq 2) (zq 0) (zq 6) (zq 6) (zq 6);
     QMat (zq 0) (zq 4) (zq 4) (zq 0) (zq 2) (zq 0) (zq 6) (zq 3) (zq 3);
     QMat (zq 0) (zq 4) (zq 4) (zq 0) (zq 2) (zq 0) (zq 6) (zq 3) (zq 6);
     QMat (zq 0) (zq 4) (zq 4) (zq 0) (zq 2) (zq 0) (zq 6) (zq 0) (zq 3);
     QMat (zq 0) (zq 4) (zq 4) (zq 0) (zq 4) (zq 0) (zq 3) (zq 3) (zq 3);
     QMat (zq 0) (zq 4) (zq 4) (zq 0) (zq 6) (zq 2) (zq 3) (zq 3) (zq 3);
     QMat (zq 0) (zq 8) (zq 8) (zq 0) (zq 2) (zq 0) (zq 3) (zq 3) (zq 3);
     QMat (zq 0) (zq 1) (zq 1) (zq 0) (zq 2) (zq 0) (zq 27) (zq 27) (zq 27);
     QMat (zq 0) (zq 1) (zq 1) (zq 0) (zq 6) (zq 0) (zq 9) (zq 9) (zq 9);
     QMat (zq 0) (zq 1) (zq 1) (zq 0) (zq 18) (zq 0) (zq 3) (zq 3) (zq 3);
     QMat (zq 0) (zq 3) (zq 3) (zq 0) (zq 2) (zq 0) (zq 9) (zq 9) (zq 9);
     QMat (zq 0) (zq 3) (zq 3) (zq 0) (zq 6) (zq 0) (zq 3) (zq 3) (zq 3);
     QMat (zq 0) (zq 9) (zq 9) (zq 0) (zq 2) (zq 0) (zq 3) (zq 3) (zq 3)]);
  (* find_supercells_basis_38_13_9.txt *)
  ([[(zq 0); (zq 1); (qdec 5 1)]; [(zq 0); (zq 0); (zq 1)]; [(zq 3); (zq 3); (zq 3)]], 10, true, 1, [QMat (zq 0) (zq 1) (qdec 5 1) (zq 0) (zq 0) (zq 1) (zq 30) (zq 30) (zq 30);
     QMat (zq 0) (zq 1) (qdec 5 1) (zq 0) (zq 0) (zq 1) (zq 30) (zq 60) (zq 45);
     QMat (zq 0) (zq 2) (zq 1) (zq 0) (zq 2) (zq 2) (zq 15) (zq 15) (zq 15);
     QMat (zq 0) (qdec 35 1) (qdec 25 1) (zq 0) (zq 5) (zq 5) (zq 6) (zq 6) (zq 6);
     QMat (zq 0) (qdec 35 1) (qdec 25 1) (zq 0) (zq 5) (zq 5) (zq 6) (zq 9) (zq 9);
     QMat (zq 0) (zq 5) (qdec 25 1) (zq 0) (zq 8) (zq 5) (zq 6) (zq 6) (zq 6);
     QMat (zq 0) (zq 5) (qdec 25 1) (zq 0) (zq 8) (zq 5) (zq 6) (zq 12) (zq 9);
     QMat (zq 0) (zq 6) (zq 5) (zq 0) (zq 10) (zq 10) (zq 3) (zq 3) (zq 3);
     QMat (zq 0) (zq 10) (zq 5) (zq 0) (zq 18) (zq 10) (zq 3) (zq 3) (zq 3)]);
  (* find_supercells_basis_23_42.txt *)
  ([[(zq 2); (qdec 26666667 7); (qdec 16666667 7)]; [(zq (-1)); (qdec (-154116) 5); (qdec (-254116) 5)]; [(zq (-1)); (qdec 187449 5); (qdec 87449 5)]], 5, false, 0, [QMat (qdec 16666667 7) (qdec 10000002 7) (qdec 2 7) (qdec (-254116) 5) (qdec (-924696) 5) (qdec (-1024696) 5) (qdec 87449 5) (qdec 1124694 5) (qdec 1024694 5);
     QMat (qdec 6666668 7) (qdec 3 7) (qdec (-9999997) 7) (qdec (-716464) 5) (qdec (-1387044) 5) (qdec (-1487044) 5) (qdec 649796 5) (qdec 1687041 5) (qdec 1587041 5);
     QMat (zq 2) (qdec 66666667 7) (qdec 16666667 7) (zq (-1)) (qdec 245884 5) (qdec (-254116) 5) (zq (-1)) (qdec 587449 5) (qdec 87449 5);
     QMat (qdec 16666667 7) (qdec 6666669 7) (qdec (-3333331) 7) (qdec (-254116) 5) (qdec (-1078812) 5) (qdec (-1178812) 5) (qdec 87449 5) (qdec 1312143 5) (qdec 1212143 5);
     QMat (qdec 3333335 7) (qdec (-6666663) 7) (qdec (-16666663) 7) (qdec (-87058) 4) (qdec (-1695276) 5) (qdec (-1795276) 5) (qdec 837245 5) (qdec 2061939 5) (qdec 1961939 5);
     QMat (qdec 16666667 7) (qdec (-333333) 6) (qdec (-3333331) 7) (qdec (-254116) 5) (qdec (-154116) 4) (qdec (-1178812) 5) (qdec 87449 5) (qdec 187449 4) (qdec 1212143 5);
     QMat (qdec 3333335 7) (qdec (-16666662) 7) (qdec (-16666663) 7) (qdec (-87058) 4) (qdec (-2157624) 5) (qdec (-1795276) 5) (qdec 837245 5) (qdec 2624286 5) (qdec 1961939 5);
     QMat (qdec 16666667 7) (qdec 26666668 7) (qdec 6666668 7) (qdec (-254116) 5) (qdec (-516464) 5) (qdec (-716464) 5) (qdec 87449 5) (qdec 849796 5) (qdec 649796 5);
     QMat (qdec 13333334 7) (qdec 23333335 7) (qdec 3333335 7) (qdec (-408232) 5) (qdec (-67058) 4) (qdec (-87058) 4) (qdec 274898 5) (qdec 1037245 5) (qdec 837245 5);
     QMat (qdec 16666667 7) (qdec 40000001 7) (qdec 10000001 7) (qdec (-254116) 5) (qdec (-262348) 5) (qdec (-562348) 5) (qdec 87449 5) (qdec 762347 5) (qdec 462347 5);
     QMat (qdec 16666667 7) (qdec 36666668 7) (qdec 10000001 7) (qdec (-254116) 5) (qdec (-416464) 5) (qdec (-562348) 5) (qdec 87449 5) (qdec 949796 5) (qdec 462347 5);
     QMat (zq 2) (qdec 76666667 7) (qdec 16666667 7) (zq (-1)) (qdec 345884 5) (qdec (-254116) 5) (zq (-1)) (qdec 687449 5) (qdec 87449 5);
     QMat (qdec 16666667 7) (qdec 3333336 7) (qdec (-6666664) 7) (qdec (-254116) 5) (qdec (-1232928) 5) (qdec (-1332928) 5) (qdec 87449 5) (qdec 1499592 5) (qdec 1399592 5);
     QMat (qdec 2 7) (qdec (-13333329) 7) (qdec (-23333329) 7) (qdec (-1024696) 5) (qdec (-2003508) 5) (qdec (-2103508) 5) (qdec 1024694 5) (qdec 2436837 5) (qdec 2336837 5);
     QMat (zq 2) (qdec 86666667 7) (qdec 16666667 7) (zq (-1)) (qdec 445884 5) (qdec (-254116) 5) (zq (-1)) (qdec 787449 5) (qdec 87449 5);
     QMat (qdec 16666667 7) (qdec 3 7) (qdec (-9999997) 7) (qdec (-254116) 5) (qdec (-1387044) 5) (qdec (-1487044) 5) (qdec 87449 5) (qdec 1687041 5) (qdec 1587041 5);
     QMat (qdec 10000001 7) (qdec (-6666663) 7) (qdec (-16666663) 7) (qdec (-562348) 5) (qdec (-1695276) 5) (qdec (-1795276) 5) (qdec 462347 5) (qdec 2061939 5) (qdec 1961939 5);
     QMat (qdec 3333335 7) (qdec (-13333329) 7) (qdec (-23333329) 7) (qdec (-87058) 4) (qdec (-2003508) 5) (qdec (-2103508) 5) (qdec 837245 5) (qdec 2436837 5) (qdec 2336837 5);
     QMat (qdec (-3333331) 7) (qdec (-19999995) 7) (qdec (-29999995) 7) (qdec (-1178812) 5) (qdec (-231174) 4) (qdec (-241174) 4) (qdec 1212143 5) (qdec 2811735 5) (qdec 2711735 5);
     QMat (qdec 16666667 7) (qdec (-13333329) 7) (qdec (-9999997) 7) (qdec (-254116) 5) (qdec (-2003508) 5) (qdec (-1487044) 5) (qdec 87449 5) (qdec 2436837 5) (qdec 1587041 5);
     QMat (qdec 10000001 7) (qdec (-19999995) 7) (qdec (-16666663) 7) (qdec (-562348) 5) (qdec (-231174) 4) (qdec (-1795276) 5) (qdec 462347 5) (qdec 2811735 5) (qdec 1961939 5);
     QMat (qdec 3333335 7) (qdec (-26666661) 7) (qdec (-23333329) 7) (qdec (-87058) 4) (qdec (-2619972) 5) (qdec (-2103508) 5) (qdec 837245 5) (qdec 3186633 5) (qdec 2336837 5);
     QMat (qdec (-3333331) 7) (qdec (-33333327) 7) (qdec (-29999995) 7) (qdec (-1178812) 5) (qdec (-2928204) 5) (qdec (-241174) 4) (qdec 1212143 5) (qdec 3561531 5) (qdec 2711735 5);
     QMat (qdec 16666667 7) (qdec 23333335 7) (qdec 3333335 7) (qdec (-254116) 5) (qdec (-67058) 4) (qdec (-87058) 4) (qdec 87449 5) (qdec 1037245 5) (qdec 837245 5);
     QMat (qdec 10000001 7) (qdec 16666669 7) (qdec (-3333331) 7) (qdec (-562348) 5) (qdec (-978812) 5) (qdec (-1178812) 5) (qdec 462347 5) (qdec 1412143 5) (qdec 1212143 5);
     QMat (qdec 16666667 7) (qdec 16666669 7) (qdec 3333335 7) (qdec (-254116) 5) (qdec (-978812) 5) (qdec (-87058) 4) (qdec 87449 5) (qdec 1412143 5) (qdec 837245 5);
     QMat (qdec 10000001 7) (qdec 10000003 7) (qdec (-3333331) 7) (qdec (-562348) 5) (qdec (-1287044) 5) (qdec (-1178812) 5) (qdec 462347 5) (qdec 1787041 5) (qdec 1212143 5);
     QMat (qdec 26666667 7) (qdec 33333335 7) (qdec 13333335 7) (qdec (-154116) 5) (qdec (-57058) 4) (qdec (-77058) 4) (qdec 187449 5) (qdec 1137245 5) (qdec 937245 5);
     QMat (qdec 20000001 7) (qdec 26666669 7) (qdec 6666669 7) (qdec (-462348) 5) (qdec (-878812) 5) (qdec (-1078812) 5) (qdec 562347 5) (qdec 1512143 5) (qdec 1312143 5);
     QMat (qdec 16666667 7) (qdec 50000001 7) (qdec 10000001 7) (qdec (-254116) 5) (qdec (-162348) 5) (qdec (-562348) 5) (qdec 87449 5) (qdec 862347 5) (qdec 462347 5);
     QMat (qdec 16666667 7) (qdec 46666668 7) (qdec 10000001 7) (qdec (-254116) 5) (qdec (-316464) 5) (qdec (-562348) 5) (qdec 87449 5) (qdec 1049796 5) (qdec 462347 5);
     QMat (qdec 36666667 7) (qdec 70000001 7) (qdec 30000001 7) (qdec (-54116) 5) (qdec 37652 5) (qdec (-362348) 5) (qdec 287449 5) (qdec 1062347 5) (qdec 662347 5);
     QMat (zq 2) (qdec 96666667 7) (qdec 16666667 7) (zq (-1)) (qdec 545884 5) (qdec (-254116) 5) (zq (-1)) (qdec 887449 5) (qdec 87449 5);
     QMat (qdec 33333334 7) (qdec 30000002 7) (qdec 20000002 7) (qdec (-508232) 5) (qdec (-1024696) 5) (qdec (-1124696) 5) (qdec 174898 5) (qdec 1024694 5) (qdec 924694 5);
     QMat (qdec 33333334 7) (qdec 23333336 7) (qdec 20000002 7) (qdec (-508232) 5) (qdec (-1332928) 5) (qdec (-1124696) 5) (qdec 174898 5) (qdec 1399592 5) (qdec 924694 5);
     QMat (zq 4) (qdec 53333334 7) (qdec 33333334 7) (zq (-2)) (qdec (-308232) 5) (qdec (-508232) 5) (zq (-2)) (qdec 374898 5) (qdec 174898 5);
     QMat (qdec 16666667 7) (qdec (-333333) 6) (qdec (-1333333) 6) (qdec (-254116) 5) (qdec (-154116) 4) (qdec (-164116) 4) (qdec 87449 5) (qdec 187449 4) (qdec 177449 4);
     QMat (qdec (-6666664) 7) (qdec (-26666661) 7) (qdec (-36666661) 7) (qdec (-1332928) 5) (qdec (-2619972) 5) (qdec (-2719972) 5) (qdec 1399592 5) (qdec 3186633 5) (qdec 3086633 5);
     QMat (qdec 16666667 7) (qdec 36666668 7) (qdec 6666668 7) (qdec (-254116) 5) (qdec (-416464) 5) (qdec (-716464) 5) (qdec 87449 5) (qdec 949796 5) (qdec 649796 5);
     QMat (qdec 13333334 7) (qdec 33333335 7) (qdec 3333335 7) (qdec (-408232) 5) (qdec (-57058) 4) (qdec (-87058) 4) (qdec 274898 5) (qdec 1137245 5) (qdec 837245 5);
     QMat (zq 2) (qdec 106666667 7) (qdec 16666667 7) (zq (-1)) (qdec 645884 5) (qdec (-254116) 5) (zq (-1)) (qdec 987449 5) (qdec 87449 5);
     QMat (zq 6) (qdec 60000001 7) (qdec 50000001 7) (zq (-3)) (qdec (-662348) 5) (qdec (-762348) 5) (zq (-3)) (qdec 362347 5) (qdec 262347 5)]);
  (* find_supercells_basis_40_42.txt *)
  ([[(qdec (-105557) 5); (qdec 156246 5); (qdec (-5557) 5)]; [(qdec 199895 5); (qdec 2380916 6); (qdec 299895 5)]; [(qdec (-943376) 6); (qdec (-943376) 6); (qdec 56624 6)]], 5, false, 0, [QMat (qdec (-527785) 5) (qdec (-265982) 5) (qdec (-427785) 5) (qdec 999475 5) (qdec 10376716 6) (qdec 1099475 5) (qdec (-471688) 5) (qdec (-471688) 5) (qdec (-371688) 5);
     QMat (qdec (-527785) 5) (qdec (-477096) 5) (qdec (-427785) 5) (qdec 999475 5) (qdec 14374616 6) (qdec 1099475 5) (qdec (-471688) 5) (qdec (-6603632) 6) (qdec (-371688) 5);
     QMat (qdec (-105557) 5) (qdec 556246 5) (qdec 394443 5) (qdec 199895 5) (qdec 6380916 6) (qdec 699895 5) (qdec (-943376) 6) (qdec 3056624 6) (qdec 4056624 6);
     QMat (qdec (-633342) 5) (qdec (-371539) 5) (qdec (-533342) 5) (qdec 119937 4) (qdec 12375666 6) (qdec 129937 4) (qdec (-5660256) 6) (qdec (-5660256) 6) (qdec (-4660256) 6);
     QMat (qdec (-633342) 5) (qdec (-68821) 4) (qdec (-850013) 5) (qdec 119937 4) (qdec 18372516 6) (qdec 1899055 5) (qdec (-5660256) 6) (qdec (-8490384) 6) (qdec (-7490384) 6);
     QMat (qdec (-633342) 5) (qdec (-582653) 5) (qdec (-533342) 5) (qdec 119937 4) (qdec 16373566 6) (qdec 129937 4) (qdec (-5660256) 6) (qdec (-7547008) 6) (qdec (-4660256) 6);
     QMat (qdec (-633342) 5) (qdec (-899324) 5) (qdec (-850013) 5) (qdec 119937 4) (qdec 22370416 6) (qdec 1899055 5) (qdec (-5660256) 6) (qdec (-10377136) 6) (qdec (-7490384) 6);
     QMat (qdec (-316671) 5) (qdec 45132 5) (qdec (-116671) 5) (qdec 599685 5) (qdec 7378816 6) (qdec 799685 5) (qdec (-2830128) 6) (qdec (-1830128) 6) (qdec (-830128) 6);
     QMat (qdec (-316671) 5) (qdec (-165982) 5) (qdec (-116671) 5) (qdec 599685 5) (qdec 11376716 6) (qdec 799685 5) (qdec (-2830128) 6) (qdec (-371688) 5) (qdec (-830128) 6);
     QMat (qdec (-211114) 5) (qdec 250689 5) (qdec 88886 5) (qdec 39979 4) (qdec 6379866 6) (qdec 69979 4) (qdec (-1886752) 6) (qdec 113248 6) (qdec 1113248 6);
     QMat (qdec (-211114) 5) (qdec 145132 5) (qdec (-16671) 5) (qdec 39979 4) (qdec 8378816 6) (qdec 899685 5) (qdec (-1886752) 6) (qdec (-830128) 6) (qdec 169872 6);
     QMat (qdec (-105557) 5) (qdec 656246 5) (qdec 494443 5) (qdec 199895 5) (qdec 7380916 6) (qdec 799895 5) (qdec (-943376) 6) (qdec 4056624 6) (qdec 5056624 6);
     QMat (qdec (-738899) 5) (qdec (-477096) 5) (qdec (-638899) 5) (qdec 1399265 5) (qdec 14374616 6) (qdec 1499265 5) (qdec (-6603632) 6) (qdec (-6603632) 6) (qdec (-5603632) 6);
     QMat (qdec (-738899) 5) (qdec (-68821) 4) (qdec (-638899) 5) (qdec 1399265 5) (qdec 18372516 6) (qdec 1499265 5) (qdec (-6603632) 6) (qdec (-8490384) 6) (qdec (-5603632) 6);
     QMat (qdec (-105557) 5) (qdec 756246 5) (qdec 594443 5) (qdec 199895 5) (qdec 8380916 6) (qdec 899895 5) (qdec (-943376) 6) (qdec 5056624 6) (qdec 6056624 6);
     QMat (qdec (-844456) 5) (qdec (-582653) 5) (qdec (-744456) 5) (qdec 159916 4) (qdec 16373566 6) (qdec 169916 4) (qdec (-7547008) 6) (qdec (-7547008) 6) (qdec (-6547008) 6);
     QMat (qdec (-844456) 5) (qdec (-1004881) 5) (qdec (-1166684) 5) (qdec 159916 4) (qdec 24369366 6) (qdec 249874 4) (qdec (-7547008) 6) (qdec (-11320512) 6) (qdec (-10320512) 6);
     QMat (qdec (-844456) 5) (qdec (-793767) 5) (qdec (-744456) 5) (qdec 159916 4) (qdec 20371466 6) (qdec 169916 4) (qdec (-7547008) 6) (qdec (-943376) 5) (qdec (-6547008) 6);
     QMat (qdec (-844456) 5) (qdec (-1215995) 5) (qdec (-1166684) 5) (qdec 159916 4) (qdec 28367266 6) (qdec 249874 4) (qdec (-7547008) 6) (qdec (-13207264) 6) (qdec (-10320512) 6);
     QMat (qdec (-844456) 5) (qdec (-1004881) 5) (qdec (-744456) 5) (qdec 159916 4) (qdec 24369366 6) (qdec 169916 4) (qdec (-7547008) 6) (qdec (-11320512) 6) (qdec (-6547008) 6);
     QMat (qdec (-844456) 5) (qdec (-1427109) 5) (qdec (-1166684) 5) (qdec 159916 4) (qdec 32365166 6) (qdec 249874 4) (qdec (-7547008) 6) (qdec (-15094016) 6) (qdec (-10320512) 6);
     QMat (qdec (-844456) 5) (qdec (-1215995) 5) (qdec (-744456) 5) (qdec 159916 4) (qdec 28367266 6) (qdec 169916 4) (qdec (-7547008) 6) (qdec (-13207264) 6) (qdec (-6547008) 6);
     QMat (qdec (-844456) 5) (qdec (-1638223) 5) (qdec (-1166684) 5) (qdec 159916 4) (qdec 36363066 6) (qdec 249874 4) (qdec (-7547008) 6) (qdec (-16980768) 6) (qdec (-10320512) 6);
     QMat (qdec (-422228) 5) (qdec 1378 5) (qdec (-322228) 5) (qdec 79958 4) (qdec 7759732 6) (qdec 89958 4) (qdec (-3773504) 6) (qdec (-4773504) 6) (qdec (-2773504) 6);
     QMat (qdec (-422228) 5) (qdec 163181 5) (qdec (-160425) 5) (qdec 79958 4) (qdec 7141698 6) (qdec 8377766 6) (qdec (-3773504) 6) (qdec (-5773504) 6) (qdec (-3773504) 6);
     QMat (qdec (-422228) 5) (qdec (-209736) 5) (qdec (-533342) 5) (qdec 79958 4) (qdec 11757632 6) (qdec 129937 4) (qdec (-3773504) 6) (qdec (-6660256) 6) (qdec (-4660256) 6);
     QMat (qdec (-422228) 5) (qdec (-47933) 5) (qdec (-371539) 5) (qdec 79958 4) (qdec 11139598 6) (qdec 12375666 6) (qdec (-3773504) 6) (qdec (-7660256) 6) (qdec (-5660256) 6);
     QMat (qdec (-422228) 5) (qdec (-60425) 5) (qdec (-222228) 5) (qdec 79958 4) (qdec 9377766 6) (qdec 99958 4) (qdec (-3773504) 6) (qdec (-2773504) 6) (qdec (-1773504) 6);
     QMat (qdec (-422228) 5) (qdec (-271539) 5) (qdec (-433342) 5) (qdec 79958 4) (qdec 13375666 6) (qdec 139937 4) (qdec (-3773504) 6) (qdec (-4660256) 6) (qdec (-3660256) 6);
     QMat (qdec (-422228) 5) (qdec (-271539) 5) (qdec (-222228) 5) (qdec 79958 4) (qdec 13375666 6) (qdec 99958 4) (qdec (-3773504) 6) (qdec (-4660256) 6) (qdec (-1773504) 6);
     QMat (qdec (-422228) 5) (qdec (-482653) 5) (qdec (-433342) 5) (qdec 79958 4) (qdec 17373566 6) (qdec 139937 4) (qdec (-3773504) 6) (qdec (-6547008) 6) (qdec (-3660256) 6);
     QMat (qdec (-211114) 5) (qdec 312492 5) (qdec (-11114) 5) (qdec 39979 4) (qdec 4761832 6) (qdec 59979 4) (qdec (-1886752) 6) (qdec (-1886752) 6) (qdec 113248 6);
     QMat (qdec (-211114) 5) (qdec 474295 5) (qdec 150689 5) (qdec 39979 4) (qdec 4143798 6) (qdec 5379866 6) (qdec (-1886752) 6) (qdec (-2886752) 6) (qdec (-886752) 6);
     QMat (qdec (-211114) 5) (qdec 350689 5) (qdec 188886 5) (qdec 39979 4) (qdec 7379866 6) (qdec 79979 4) (qdec (-1886752) 6) (qdec 1113248 6) (qdec 2113248 6);
     QMat (qdec (-211114) 5) (qdec 245132 5) (qdec 83329 5) (qdec 39979 4) (qdec 9378816 6) (qdec 999685 5) (qdec (-1886752) 6) (qdec 169872 6) (qdec 1169872 6);
     QMat (qdec (-105557) 5) (qdec 856246 5) (qdec 694443 5) (qdec 199895 5) (qdec 9380916 6) (qdec 999895 5) (qdec (-943376) 6) (qdec 6056624 6) (qdec 7056624 6);
     QMat (qdec (-950013) 5) (qdec (-68821) 4) (qdec (-850013) 5) (qdec 1799055 5) (qdec 18372516 6) (qdec 1899055 5) (qdec (-8490384) 6) (qdec (-8490384) 6) (qdec (-7490384) 6);
     QMat (qdec (-950013) 5) (qdec (-899324) 5) (qdec (-850013) 5) (qdec 1799055 5) (qdec 22370416 6) (qdec 1899055 5) (qdec (-8490384) 6) (qdec (-10377136) 6) (qdec (-7490384) 6);
     QMat (qdec (-316671) 5) (qdec 268738 5) (qdec (-216671) 5) (qdec 599685 5) (qdec 5142748 6) (qdec 699685 5) (qdec (-2830128) 6) (qdec (-4830128) 6) (qdec (-1830128) 6);
     QMat (qdec (-316671) 5) (qdec 145132 5) (qdec (-16671) 5) (qdec 599685 5) (qdec 8378816 6) (qdec 899685 5) (qdec (-2830128) 6) (qdec (-830128) 6) (qdec 169872 6);
     QMat (qdec (-316671) 5) (qdec (-65982) 5) (qdec (-16671) 5) (qdec 599685 5) (qdec 12376716 6) (qdec 899685 5) (qdec (-2830128) 6) (qdec (-271688) 5) (qdec 169872 6);
     QMat (qdec (-105557) 5) (qdec 956246 5) (qdec 794443 5) (qdec 199895 5) (qdec 10380916 6) (qdec 1099895 5) (qdec (-943376) 6) (qdec 7056624 6) (qdec 8056624 6)]);
  (* find_supercells_basis_36_42.txt *)
  ([[(qdec (-143541) 5); (qdec 9788 4); (qdec (-43541) 5)]; [(qdec (-143541) 5); (qdec (-184962) 5); (qdec (-43541) 5)]; [(qdec 137083 5); (qdec 237083 5); (qdec 237083 5)]], 5, false, 0, [QMat (qdec (-717705) 5) (qdec (-476284) 5) (qdec (-617705) 5) (qdec (-717705) 5) (qdec (-759126) 5) (qdec (-617705) 5) (qdec 685415 5) (qdec 785415 5) (qdec 785415 5);
     QMat (qdec (-717705) 5) (qdec (-763366) 5) (qdec (-904787) 5) (qdec (-717705) 5) (qdec (-1046208) 5) (qdec (-904787) 5) (qdec 685415 5) (qdec 1059581 5) (qdec 1059581 5);
     QMat (qdec (-143541) 5) (qdec 663564 5) (qdec (-43541) 5) (qdec (-143541) 5) (qdec (-750646) 5) (qdec (-43541) 5) (qdec 137083 5) (qdec 237083 5) (qdec 237083 5);
     QMat (qdec (-861246) 5) (qdec (-619825) 5) (qdec (-761246) 5) (qdec (-861246) 5) (qdec (-902667) 5) (qdec (-761246) 5) (qdec 822498 5) (qdec 922498 5) (qdec 922498 5);
     QMat (qdec (-861246) 5) (qdec (-906907) 5) (qdec (-1048328) 5) (qdec (-861246) 5) (qdec (-1189749) 5) (qdec (-1048328) 5) (qdec 822498 5) (qdec 1196664 5) (qdec 1196664 5);
     QMat (qdec (-861246) 5) (qdec (-189202) 5) (qdec (-761246) 5) (qdec (-861246) 5) (qdec (-472044) 5) (qdec (-761246) 5) (qdec 822498 5) (qdec 511249 5) (qdec 922498 5);
     QMat (qdec (-861246) 5) (qdec (-476284) 5) (qdec (-1048328) 5) (qdec (-861246) 5) (qdec (-759126) 5) (qdec (-1048328) 5) (qdec 822498 5) (qdec 785415 5) (qdec 1196664 5);
     QMat (qdec (-430623) 5) (qdec (-47781) 5) (qdec (-330623) 5) (qdec (-430623) 5) (qdec (-613465) 5) (qdec (-330623) 5) (qdec 411249 5) (qdec 511249 5) (qdec 511249 5);
     QMat (qdec (-430623) 5) (qdec (-334863) 5) (qdec (-617705) 5) (qdec (-430623) 5) (qdec (-900547) 5) (qdec (-617705) 5) (qdec 411249 5) (qdec 785415 5) (qdec 785415 5);
     QMat (qdec (-287082) 5) (qdec 237181 5) (qdec (-187082) 5) (qdec (-287082) 5) (qdec (-611345) 5) (qdec (-187082) 5) (qdec 274166 5) (qdec 374166 5) (qdec 374166 5);
     QMat (qdec (-287082) 5) (qdec 380722 5) (qdec (-187082) 5) (qdec (-287082) 5) (qdec (-467804) 5) (qdec (-187082) 5) (qdec 274166 5) (qdec 237083 5) (qdec 374166 5);
     QMat (qdec (-143541) 5) (qdec 804985 5) (qdec (-43541) 5) (qdec (-143541) 5) (qdec (-892067) 5) (qdec (-43541) 5) (qdec 137083 5) (qdec 237083 5) (qdec 237083 5);
     QMat (qdec (-1004787) 5) (qdec (-763366) 5) (qdec (-904787) 5) (qdec (-1004787) 5) (qdec (-1046208) 5) (qdec (-904787) 5) (qdec 959581 5) (qdec 1059581 5) (qdec 1059581 5);
     QMat (qdec (-1004787) 5) (qdec (-1050448) 5) (qdec (-1191869) 5) (qdec (-1004787) 5) (qdec (-133329) 4) (qdec (-1191869) 5) (qdec 959581 5) (qdec 1333747 5) (qdec 1333747 5);
     QMat (qdec (-143541) 5) (qdec 946406 5) (qdec (-43541) 5) (qdec (-143541) 5) (qdec (-1033488) 5) (qdec (-43541) 5) (qdec 137083 5) (qdec 237083 5) (qdec 237083 5);
     QMat (qdec (-1148328) 5) (qdec (-906907) 5) (qdec (-1048328) 5) (qdec (-1148328) 5) (qdec (-1189749) 5) (qdec (-1048328) 5) (qdec 1096664 5) (qdec 1196664 5) (qdec 1196664 5);
     QMat (qdec (-1148328) 5) (qdec (-1193989) 5) (qdec (-133541) 4) (qdec (-1148328) 5) (qdec (-1476831) 5) (qdec (-133541) 4) (qdec 1096664 5) (qdec 147083 4) (qdec 147083 4);
     QMat (qdec (-1148328) 5) (qdec (-1481071) 5) (qdec (-1622492) 5) (qdec (-1148328) 5) (qdec (-1763913) 5) (qdec (-1622492) 5) (qdec 1096664 5) (qdec 1744996 5) (qdec 1744996 5);
     QMat (qdec (-1148328) 5) (qdec (-1768153) 5) (qdec (-1909574) 5) (qdec (-1148328) 5) (qdec (-2050995) 5) (qdec (-1909574) 5) (qdec 1096664 5) (qdec 2019162 5) (qdec 2019162 5);
     QMat (qdec (-1148328) 5) (qdec (-332743) 5) (qdec (-1048328) 5) (qdec (-1148328) 5) (qdec (-615585) 5) (qdec (-1048328) 5) (qdec 1096664 5) (qdec 648332 5) (qdec 1196664 5);
     QMat (qdec (-1148328) 5) (qdec (-619825) 5) (qdec (-133541) 4) (qdec (-1148328) 5) (qdec (-902667) 5) (qdec (-133541) 4) (qdec 1096664 5) (qdec 922498 5) (qdec 147083 4);
     QMat (qdec (-1148328) 5) (qdec (-906907) 5) (qdec (-1622492) 5) (qdec (-1148328) 5) (qdec (-1189749) 5) (qdec (-1622492) 5) (qdec 1096664 5) (qdec 1196664 5) (qdec 1744996 5);
     QMat (qdec (-1148328) 5) (qdec (-1193989) 5) (qdec (-1909574) 5) (qdec (-1148328) 5) (qdec (-1476831) 5) (qdec (-1909574) 5) (qdec 1096664 5) (qdec 147083 4) (qdec 2019162 5);
     QMat (qdec (-574164) 5) (qdec (-191322) 5) (qdec (-474164) 5) (qdec (-574164) 5) (qdec (-757006) 5) (qdec (-474164) 5) (qdec 548332 5) (qdec 648332 5) (qdec 648332 5);
     QMat (qdec (-574164) 5) (qdec (-478404) 5) (qdec (-761246) 5) (qdec (-574164) 5) (qdec (-1044088) 5) (qdec (-761246) 5) (qdec 548332 5) (qdec 922498 5) (qdec 922498 5);
     QMat (qdec (-574164) 5) (qdec 9576 4) (qdec (-474164) 5) (qdec (-574164) 5) (qdec (-469924) 5) (qdec (-474164) 5) (qdec 548332 5) (qdec 374166 5) (qdec 648332 5);
     QMat (qdec (-574164) 5) (qdec (-191322) 5) (qdec (-761246) 5) (qdec (-574164) 5) (qdec (-757006) 5) (qdec (-761246) 5) (qdec 548332 5) (qdec 648332 5) (qdec 922498 5);
     QMat (qdec (-574164) 5) (qdec (-332743) 5) (qdec (-615585) 5) (qdec (-574164) 5) (qdec (-615585) 5) (qdec (-332743) 5) (qdec 548332 5) (qdec 648332 5) (qdec 648332 5);
     QMat (qdec (-574164) 5) (qdec (-619825) 5) (qdec (-902667) 5) (qdec (-574164) 5) (qdec (-902667) 5) (qdec (-619825) 5) (qdec 548332 5) (qdec 922498 5) (qdec 922498 5);
     QMat (qdec (-287082) 5) (qdec 378602 5) (qdec (-187082) 5) (qdec (-287082) 5) (qdec (-752766) 5) (qdec (-187082) 5) (qdec 274166 5) (qdec 374166 5) (qdec 374166 5);
     QMat (qdec (-287082) 5) (qdec 522143 5) (qdec (-187082) 5) (qdec (-287082) 5) (qdec (-609225) 5) (qdec (-187082) 5) (qdec 274166 5) (qdec 237083 5) (qdec 374166 5);
     QMat (qdec (-287082) 5) (qdec 9576 4) (qdec (-469924) 5) (qdec (-287082) 5) (qdec (-469924) 5) (qdec 9576 4) (qdec 274166 5) (qdec 374166 5) (qdec 374166 5);
     QMat (qdec (-143541) 5) (qdec 1087827 5) (qdec (-43541) 5) (qdec (-143541) 5) (qdec (-1174909) 5) (qdec (-43541) 5) (qdec 137083 5) (qdec 237083 5) (qdec 237083 5);
     QMat (qdec (-574164) 5) (qdec (-232743) 5) (qdec (-374164) 5) (qdec (-574164) 5) (qdec (-515585) 5) (qdec (-374164) 5) (qdec 548332 5) (qdec 748332 5) (qdec 748332 5);
     QMat (qdec (-574164) 5) (qdec 54339 5) (qdec (-374164) 5) (qdec (-574164) 5) (qdec (-228503) 5) (qdec (-374164) 5) (qdec 548332 5) (qdec 474166 5) (qdec 748332 5);
     QMat (qdec (-287082) 5) (qdec 19576 4) (qdec (-87082) 5) (qdec (-287082) 5) (qdec (-369924) 5) (qdec (-87082) 5) (qdec 274166 5) (qdec 474166 5) (qdec 474166 5);
     QMat (qdec (-1291869) 5) (qdec (-1050448) 5) (qdec (-1191869) 5) (qdec (-1291869) 5) (qdec (-133329) 4) (qdec (-1191869) 5) (qdec 1233747 5) (qdec 1333747 5) (qdec 1333747 5);
     QMat (qdec (-1291869) 5) (qdec (-133753) 4) (qdec (-1478951) 5) (qdec (-1291869) 5) (qdec (-1620372) 5) (qdec (-1478951) 5) (qdec 1233747 5) (qdec 1607913 5) (qdec 1607913 5);
     QMat (qdec (-430623) 5) (qdec 9364 4) (qdec (-330623) 5) (qdec (-430623) 5) (qdec (-754886) 5) (qdec (-330623) 5) (qdec 411249 5) (qdec 511249 5) (qdec 511249 5);
     QMat (qdec (-430623) 5) (qdec (-193442) 5) (qdec (-617705) 5) (qdec (-430623) 5) (qdec (-1041968) 5) (qdec (-617705) 5) (qdec 411249 5) (qdec 785415 5) (qdec 785415 5);
     QMat (qdec (-143541) 5) (qdec 1229248 5) (qdec (-43541) 5) (qdec (-143541) 5) (qdec (-131633) 4) (qdec (-43541) 5) (qdec 137083 5) (qdec 237083 5) (qdec 237083 5);
     QMat (qdec (-430623) 5) (qdec 10798 5) (qdec (-130623) 5) (qdec (-430623) 5) (qdec (-272044) 5) (qdec (-130623) 5) (qdec 411249 5) (qdec 711249 5) (qdec 711249 5)]);
  (* find_supercells_basis_19_3.txt *)
  ([[(zq 0); (qdec 5 1); (qdec 5 1)]; [(zq 0); (zq 3); (zq 1)]; [(zq 3); (qdec 45 1); (qdec 45 1)]], 10, true, 1, [QMat (zq 0) (zq 1) (zq 1) (zq 0) (zq 4) (zq 2) (zq 15) (zq 30) (zq 30);
     QMat (zq 0) (zq 1) (zq 1) (zq 0) (zq 20) (zq 10) (zq 3) (zq 6) (zq 6);
     QMat (zq 0) (zq 5) (zq 5) (zq 0) (zq 12) (zq 10) (zq 3) (zq 18) (zq 18)]);
  (* find_supercells_basis_8_34.txt *)
  ([[(qdec 341012 5); (qdec 382288 5); (qdec 482156 5)]; [(qdec (-11237578) 7); (qdec 11771244 7); (qdec (-10351956) 7)]; [(qdec (-1268178) 6); (zq (-2)); (qdec (-3268178) 6)]], 5, false, 0, [QMat (qdec 906116 5) (qdec 1229944 5) (qdec 1329812 5) (qdec 12079771 6) (qdec 209824176 7) (qdec 187700976 7) (qdec 3804534 6) (qdec 5609068 6) (qdec 434089 5);
     QMat (qdec 1188668 5) (qdec 1512496 5) (qdec 175364 4) (qdec 186815354 7) (qdec 27584182 6) (qdec 286727442 7) (qdec 634089 5) (qdec 8145424 6) (qdec 8145424 6);
     QMat (qdec 341012 5) (qdec 547392 5) (qdec 64726 4) (qdec (-11237578) 7) (qdec 103806532 7) (qdec 81683332 7) (qdec (-1268178) 6) (qdec (-4927288) 6) (qdec (-6195466) 6);
     QMat (qdec 623564 5) (qdec 988668 5) (qdec 1088536 5) (qdec 54780066 7) (qdec 166815354 7) (qdec 144692154 7) (qdec 1268178 6) (qdec 234089 5) (qdec 1072712 6);
     QMat (qdec 906116 5) (qdec 127122 4) (qdec 1512364 5) (qdec 12079771 6) (qdec 232832998 7) (qdec 24371862 6) (qdec 3804534 6) (qdec 4877246 6) (qdec 4877246 6);
     QMat (qdec 341012 5) (qdec 588668 5) (qdec 688536 5) (qdec (-11237578) 7) (qdec 126815354 7) (qdec 104692154 7) (qdec (-1268178) 6) (qdec (-565911) 5) (qdec (-6927288) 6);
     QMat (qdec 1188668 5) (qdec 1653772 5) (qdec 175364 4) (qdec 186815354 7) (qdec 308850642 7) (qdec 286727442 7) (qdec 634089 5) (qdec 9413602 6) (qdec 8145424 6);
     QMat (qdec 147122 4) (qdec 1936324 5) (qdec 2177468 5) (qdec 252832998 7) (qdec 374868286 7) (qdec 385753908 7) (qdec 8877246 6) (qdec 11949958 6) (qdec 11949958 6);
     QMat (qdec 341012 5) (qdec 629944 5) (qdec 729812 5) (qdec (-11237578) 7) (qdec 149824176 7) (qdec 127700976 7) (qdec (-1268178) 6) (qdec (-6390932) 6) (qdec (-765911) 5);
     QMat (qdec 76484 4) (qdec 988668 5) (qdec 1088536 5) (qdec 87788888 7) (qdec 166815354 7) (qdec 144692154 7) (qdec 2536356 6) (qdec 234089 5) (qdec 1072712 6);
     QMat (qdec 76484 4) (qdec 127122 4) (qdec 1371088 5) (qdec 87788888 7) (qdec 232832998 7) (qdec 210709798 7) (qdec 2536356 6) (qdec 4877246 6) (qdec 3609068 6);
     QMat (qdec 1047392 5) (qdec 127122 4) (qdec 1512364 5) (qdec 153806532 7) (qdec 232832998 7) (qdec 24371862 6) (qdec 5072712 6) (qdec 4877246 6) (qdec 4877246 6);
     QMat (qdec 1047392 5) (qdec 1553772 5) (qdec 1794916 5) (qdec 153806532 7) (qdec 298850642 7) (qdec 309736264 7) (qdec 5072712 6) (qdec 7413602 6) (qdec 7413602 6);
     QMat (qdec 1329944 5) (qdec 1553772 5) (qdec 1936192 5) (qdec 219824176 7) (qdec 298850642 7) (qdec 342745086 7) (qdec 7609068 6) (qdec 7413602 6) (qdec 868178 5);
     QMat (qdec 1329944 5) (qdec 1836324 5) (qdec 2218744 5) (qdec 219824176 7) (qdec 364868286 7) (qdec 40876273 6) (qdec 7609068 6) (qdec 9949958 6) (qdec 11218136 6);
     QMat (qdec 1612496 5) (qdec 1836324 5) (qdec 236002 4) (qdec 28584182 6) (qdec 364868286 7) (qdec 441771552 7) (qdec 10145424 6) (qdec 9949958 6) (qdec 12486314 6);
     QMat (qdec 1612496 5) (qdec 2118876 5) (qdec 2642572 5) (qdec 28584182 6) (qdec 43088593 6) (qdec 507789196 7) (qdec 10145424 6) (qdec 12486314 6) (qdec 1502267 5);
     QMat (qdec 682024 5) (qdec 764576 5) (qdec 964312 5) (qdec (-22475156) 7) (qdec 23542488 7) (qdec (-20703912) 7) (qdec (-2536356) 6) (zq (-4)) (qdec (-6536356) 6);
     QMat (qdec 682024 5) (qdec 905852 5) (qdec 1105588 5) (qdec (-22475156) 7) (qdec 5655131 6) (qdec 1230491 6) (qdec (-2536356) 6) (qdec (-2731822) 6) (qdec (-5268178) 6);
     QMat (qdec 682024 5) (qdec 864444 5) (qdec 106418 4) (qdec (-22475156) 7) (qdec 1419288 7) (qdec (-42827112) 7) (qdec (-2536356) 6) (qdec (-5268178) 6) (qdec (-7804534) 6);
     QMat (qdec 682024 5) (qdec 100572 4) (qdec 1205456 5) (qdec (-22475156) 7) (qdec 3442811 6) (qdec (-981829) 6) (qdec (-2536356) 6) (zq (-4)) (qdec (-6536356) 6);
     QMat (qdec 482288 5) (qdec 647392 5) (qdec 74726 4) (qdec 21771244 7) (qdec 113806532 7) (qdec 91683332 7) (zq 0) (qdec (-2927288) 6) (qdec (-4195466) 6);
     QMat (qdec 482288 5) (qdec 788668 5) (qdec 888536 5) (qdec 21771244 7) (qdec 146815354 7) (qdec 124692154 7) (zq 0) (qdec (-165911) 5) (qdec (-2927288) 6);
     QMat (qdec 76484 4) (qdec 929944 5) (qdec 1171088 5) (qdec 87788888 7) (qdec 179824176 7) (qdec 190709798 7) (qdec 2536356 6) (qdec (-390932) 6) (qdec (-390932) 6);
     QMat (qdec 76484 4) (qdec 107122 4) (qdec 1312364 5) (qdec 87788888 7) (qdec 212832998 7) (qdec 22371862 6) (qdec 2536356 6) (qdec 877246 6) (qdec 877246 6);
     QMat (qdec 540748 5) (qdec 705852 5) (qdec 905588 5) (qdec (-55483978) 7) (qdec 3655131 6) (qdec (-769509) 6) (qdec (-3804534) 6) (qdec (-6731822) 6) (qdec (-9268178) 6);
     QMat (qdec 540748 5) (qdec 80572 4) (qdec 1005456 5) (qdec (-55483978) 7) (qdec 1442811 6) (qdec (-2981829) 6) (qdec (-3804534) 6) (zq (-8)) (qdec (-10536356) 6);
     QMat (qdec 341012 5) (qdec 67122 4) (qdec 771088 5) (qdec (-11237578) 7) (qdec 172832998 7) (qdec 150709798 7) (qdec (-1268178) 6) (qdec (-7122754) 6) (qdec (-8390932) 6);
     QMat (qdec 147122 4) (qdec 20776 3) (qdec 2177468 5) (qdec 252832998 7) (qdec 407877108 7) (qdec 385753908 7) (qdec 8877246 6) (qdec 13218136 6) (qdec 11949958 6);
     QMat (qdec 1753772 5) (qdec 2360152 5) (qdec 2601296 5) (qdec 318850642 7) (qdec 473894752 7) (qdec 484780374 7) (qdec 11413602 6) (qdec 15754492 6) (qdec 15754492 6);
     QMat (qdec 1023036 5) (qdec 1205588 5) (qdec 1505192 5) (qdec (-33712734) 7) (qdec 2230491 6) (qdec (-4406469) 6) (qdec (-3804534) 6) (qdec (-3268178) 6) (qdec (-7072712) 6);
     QMat (qdec 623564 5) (qdec 747392 5) (qdec 84726 4) (qdec 54780066 7) (qdec 123806532 7) (qdec 101683332 7) (qdec 1268178 6) (qdec (-927288) 6) (qdec (-2195466) 6);
     QMat (qdec 906116 5) (qdec 1029944 5) (qdec 1271088 5) (qdec 12079771 6) (qdec 189824176 7) (qdec 200709798 7) (qdec 3804534 6) (qdec 1609068 6) (qdec 1609068 6);
     QMat (qdec 341012 5) (qdec 712496 5) (qdec 812364 5) (qdec (-11237578) 7) (qdec 19584182 6) (qdec 17371862 6) (qdec (-1268178) 6) (qdec (-7854576) 6) (qdec (-9122754) 6)]);
  (* find_supercells_basis_42_34.txt *)
  ([[(qdec 161803 5); (qdec 10817 4); (qdec 817 4)]; [(qdec (-61803) 5); (qdec 174903 5); (qdec 74903 5)]; [(zq (-1)); (qdec (-133073) 5); (qdec (-233073) 5)]], 5, false, 0, [QMat (qdec 809015 5) (qdec (-377239) 5) (qdec (-477239) 5) (qdec (-309015) 5) (qdec 360312 5) (qdec 260312 5) (zq (-5)) (qdec 166927 5) (qdec 66927 5);
     QMat (qdec 161803 5) (qdec (-19183) 4) (qdec (-69183) 4) (qdec (-61803) 5) (qdec (-125097) 5) (qdec (-625097) 5) (zq (-1)) (qdec (-433073) 5) (qdec (-933073) 5);
     QMat (qdec 161803 5) (qdec 54085 4) (qdec 44085 4) (qdec (-61803) 5) (qdec 874515 5) (qdec 774515 5) (zq (-1)) (qdec (-665365) 5) (qdec (-765365) 5);
     QMat (qdec 485409 5) (qdec 54537 5) (qdec (-45463) 5) (qdec (-185409) 5) (qdec 411609 5) (qdec 311609 5) (zq (-3)) (qdec (-166146) 5) (qdec (-266146) 5);
     QMat (qdec 161803 5) (qdec 11634 4) (qdec (-18366) 4) (qdec (-61803) 5) (qdec 249806 5) (qdec (-50194) 5) (zq (-1)) (qdec (-366146) 5) (qdec (-666146) 5);
     QMat (qdec 161803 5) (qdec 64902 4) (qdec 54902 4) (qdec (-61803) 5) (qdec 1049418 5) (qdec 949418 5) (zq (-1)) (qdec (-798438) 5) (qdec (-898438) 5);
     QMat (qdec 1132621 5) (qdec (-539042) 5) (qdec (-639042) 5) (qdec (-432621) 5) (qdec 422115 5) (qdec 322115 5) (zq (-7)) (qdec 266927 5) (qdec 166927 5);
     QMat (qdec 161803 5) (qdec (-29183) 4) (qdec (-99183) 4) (qdec (-61803) 5) (qdec (-225097) 5) (qdec (-925097) 5) (zq (-1)) (qdec (-533073) 5) (qdec (-1233073) 5);
     QMat (qdec 161803 5) (qdec 75719 4) (qdec 65719 4) (qdec (-61803) 5) (qdec 1224321 5) (qdec 1124321 5) (zq (-1)) (qdec (-931511) 5) (qdec (-1031511) 5);
     QMat (qdec 647212 5) (qdec 54537 5) (qdec (-45463) 5) (qdec (-247212) 5) (qdec 411609 5) (qdec 311609 5) (zq (-4)) (qdec (-166146) 5) (qdec (-266146) 5);
     QMat (qdec 647212 5) (qdec (-269069) 5) (qdec (-369069) 5) (qdec (-247212) 5) (qdec 535215 5) (qdec 435215 5) (zq (-4)) (qdec 33854 5) (qdec (-66146) 5);
     QMat (qdec 647212 5) (qdec 54537 5) (qdec (-369069) 5) (qdec (-247212) 5) (qdec 411609 5) (qdec 435215 5) (zq (-4)) (qdec (-166146) 5) (qdec (-66146) 5);
     QMat (qdec 647212 5) (qdec (-269069) 5) (qdec (-692675) 5) (qdec (-247212) 5) (qdec 535215 5) (qdec 558821 5) (zq (-4)) (qdec 33854 5) (qdec 133854 5);
     QMat (qdec 323606 5) (qdec 21634 4) (qdec 1634 4) (qdec (-123606) 5) (qdec 349806 5) (qdec 149806 5) (zq (-2)) (qdec (-266146) 5) (qdec (-466146) 5);
     QMat (qdec 323606 5) (qdec 54537 5) (qdec (-145463) 5) (qdec (-123606) 5) (qdec 411609 5) (qdec 211609 5) (zq (-2)) (qdec (-166146) 5) (qdec (-366146) 5);
     QMat (qdec 323606 5) (qdec 11634 4) (qdec (-8366) 4) (qdec (-123606) 5) (qdec 249806 5) (qdec 49806 5) (zq (-2)) (qdec (-366146) 5) (qdec (-566146) 5);
     QMat (qdec 323606 5) (qdec (-45463) 5) (qdec (-245463) 5) (qdec (-123606) 5) (qdec 311609 5) (qdec 111609 5) (zq (-2)) (qdec (-266146) 5) (qdec (-466146) 5);
     QMat (qdec 323606 5) (qdec 11634 4) (qdec (-245463) 5) (qdec (-123606) 5) (qdec 249806 5) (qdec 111609 5) (zq (-2)) (qdec (-366146) 5) (qdec (-466146) 5);
     QMat (qdec 323606 5) (qdec (-45463) 5) (qdec (-407266) 5) (qdec (-123606) 5) (qdec 311609 5) (qdec 173412 5) (zq (-2)) (qdec (-266146) 5) (qdec (-366146) 5);
     QMat (qdec 161803 5) (qdec 11634 4) (qdec (-28366) 4) (qdec (-61803) 5) (qdec 249806 5) (qdec (-150194) 5) (zq (-1)) (qdec (-366146) 5) (qdec (-766146) 5);
     QMat (qdec 161803 5) (qdec (-8366) 4) (qdec (-48366) 4) (qdec (-61803) 5) (qdec 49806 5) (qdec (-350194) 5) (zq (-1)) (qdec (-566146) 5) (qdec (-966146) 5);
     QMat (qdec 323606 5) (qdec 43268 4) (qdec 33268 4) (qdec (-123606) 5) (qdec 699612 5) (qdec 599612 5) (zq (-2)) (qdec (-532292) 5) (qdec (-632292) 5);
     QMat (qdec 323606 5) (qdec 270877 5) (qdec 170877 5) (qdec (-123606) 5) (qdec 761415 5) (qdec 661415 5) (zq (-2)) (qdec (-432292) 5) (qdec (-532292) 5);
     QMat (qdec 323606 5) (qdec 43268 4) (qdec 170877 5) (qdec (-123606) 5) (qdec 699612 5) (qdec 661415 5) (zq (-2)) (qdec (-532292) 5) (qdec (-532292) 5);
     QMat (qdec 323606 5) (qdec 270877 5) (qdec 9074 5) (qdec (-123606) 5) (qdec 761415 5) (qdec 723218 5) (zq (-2)) (qdec (-432292) 5) (qdec (-432292) 5);
     QMat (qdec 161803 5) (qdec 43268 4) (qdec 23268 4) (qdec (-61803) 5) (qdec 699612 5) (qdec 499612 5) (zq (-1)) (qdec (-532292) 5) (qdec (-732292) 5);
     QMat (qdec 161803 5) (qdec 33268 4) (qdec 13268 4) (qdec (-61803) 5) (qdec 599612 5) (qdec 399612 5) (zq (-1)) (qdec (-632292) 5) (qdec (-832292) 5);
     QMat (qdec 161803 5) (qdec 86536 4) (qdec 76536 4) (qdec (-61803) 5) (qdec 1399224 5) (qdec 1299224 5) (zq (-1)) (qdec (-1064584) 5) (qdec (-1164584) 5);
     QMat (qdec 1456227 5) (qdec (-700845) 5) (qdec (-800845) 5) (qdec (-556227) 5) (qdec 483918 5) (qdec 383918 5) (zq (-9)) (qdec 366927 5) (qdec 266927 5);
     QMat (qdec 485409 5) (qdec (-415436) 5) (qdec (-715436) 5) (qdec (-185409) 5) (qdec 98509 5) (qdec (-201491) 5) (zq (-3)) (qdec (-133073) 5) (qdec (-433073) 5);
     QMat (qdec 161803 5) (qdec (-39183) 4) (qdec (-129183) 4) (qdec (-61803) 5) (qdec (-325097) 5) (qdec (-1225097) 5) (zq (-1)) (qdec (-633073) 5) (qdec (-1533073) 5);
     QMat (qdec 485409 5) (qdec 32451 4) (qdec 22451 4) (qdec (-185409) 5) (qdec 524709 5) (qdec 424709 5) (zq (-3)) (qdec (-399219) 5) (qdec (-499219) 5);
     QMat (qdec 161803 5) (qdec 32451 4) (qdec 2451 4) (qdec (-61803) 5) (qdec 524709 5) (qdec 224709 5) (zq (-1)) (qdec (-399219) 5) (qdec (-699219) 5);
     QMat (qdec 161803 5) (qdec 97353 4) (qdec 87353 4) (qdec (-61803) 5) (qdec 1574127 5) (qdec 1474127 5) (zq (-1)) (qdec (-1197657) 5) (qdec (-1297657) 5)]);
  (* find_supercells_basis_26_9.txt *)
  ([[(zq 0); (qdec 5 1); (zq 0)]; [(zq 0); (zq 1); (zq 1)]; [(zq 3); (zq 6); (qdec 45 1)]], 10, true, 1, [QMat (zq 0) (zq 1) (zq 0) (zq 0) (zq 1) (zq 1) (zq 15) (qdec 375 1) (qdec 225 1);
     QMat (zq 0) (qdec 15 1) (qdec 5 1) (zq 0) (zq 1) (zq 1) (zq 15) (zq 45) (zq 30);
     QMat (zq 0) (zq 5) (zq 0) (zq 0) (zq 1) (zq 1) (zq 3) (qdec 195 1) (qdec 45 1);
     QMat (zq 0) (qdec 75 1) (qdec 25 1) (zq 0) (zq 1) (zq 1) (zq 3) (zq 27) (zq 12);
     QMat (zq 0) (qdec 5 1) (zq 0) (zq 0) (zq 2) (zq 2) (zq 15) (qdec 375 1) (zq 30);
     QMat (zq 0) (qdec 25 1) (zq 0) (zq 0) (zq 2) (zq 2) (zq 3) (qdec 135 1) (zq 6);
     QMat (zq 0) (zq 1) (zq 0) (zq 0) (zq 5) (zq 5) (zq 3) (qdec 135 1) (qdec 105 1);
     QMat (zq 0) (qdec 15 1) (qdec 5 1) (zq 0) (zq 5) (zq 5) (zq 3) (zq 15) (zq 12);
     QMat (zq 0) (qdec 5 1) (zq 0) (zq 0) (zq 10) (zq 10) (zq 3) (qdec 195 1) (zq 18)]);
  (* find_supercells_basis_16_34.txt *)
  ([[(qdec 104442 5); (qdec 1515172 6); (qdec 2824216 6)]; [(qdec 143973 5); (qdec (-279933) 5); (qdec 125993 5)]; [(qdec 168415 5); (qdec (-68415) 5); (qdec 168415 5)]], 5, false, 0, [QMat (qdec 4604012 6) (qdec 8634356 6) (qdec 13502992 6) (qdec 108013 5) (qdec (-351853) 5) (qdec 18113 5) (qdec 168415 5) (qdec (-68415) 5) (qdec 168415 5);
     QMat (qdec 104442 5) (qdec 4634356 6) (qdec 2824216 6) (qdec 143973 5) (qdec (-751853) 5) (qdec 125993 5) (qdec 168415 5) (qdec 331585 5) (qdec 168415 5);
     QMat (qdec 52221 4) (qdec (-2662508) 6) (qdec 7001896 6) (qdec 719865 5) (qdec (-855825) 5) (qdec 701885 5) (qdec 842075 5) (qdec (-742075) 5) (qdec 842075 5);
     QMat (qdec 5383808 6) (qdec 5074764 6) (qdec 10723196 6) (qdec (-9967) 5) (qdec (-315893) 5) (qdec (-63907) 5) (qdec 268415 5) (qdec (-68415) 5) (qdec 268415 5);
     QMat (qdec 2824216 6) (qdec 7634356 6) (qdec 8163604 6) (qdec 125993 5) (qdec (-451853) 5) (qdec 72053 5) (qdec 168415 5) (qdec 31585 5) (qdec 168415 5);
     QMat (qdec 3383808 6) (qdec 3074764 6) (qdec 5163604 6) (qdec (-209967) 5) (qdec (-515893) 5) (qdec (-227947) 5) (qdec 468415 5) (qdec 131585 5) (qdec 468415 5);
     QMat (qdec 104442 5) (qdec 5414152 6) (qdec 2824216 6) (qdec 143973 5) (qdec (-869833) 5) (qdec 125993 5) (qdec 168415 5) (qdec 431585 5) (qdec 168415 5);
     QMat (qdec 5648432 6) (qdec 2250548 6) (qdec 1098782 5) (qdec 251986 5) (qdec (-441886) 5) (qdec 198046 5) (qdec 33683 4) (qdec (-23683) 4) (qdec 33683 4);
     QMat (qdec 208884 5) (qdec 2030344 6) (qdec 3868636 6) (qdec 287946 5) (qdec (-659866) 5) (qdec 269966 5) (qdec 33683 4) (qdec (-3683) 4) (qdec 33683 4);
     QMat (qdec 3913056 6) (qdec (-573668) 6) (qdec 5692852 6) (qdec 313939 5) (qdec (-567879) 5) (qdec 295959 5) (qdec 605245 5) (qdec (-405245) 5) (qdec 605245 5);
     QMat (qdec 313326 5) (qdec 206128 6) (qdec 4913056 6) (qdec 431919 5) (qdec (-685859) 5) (qdec 413939 5) (qdec 505245 5) (qdec (-305245) 5) (qdec 505245 5);
     QMat (qdec 626652 5) (qdec (-3706928) 6) (qdec 8046316 6) (qdec 863838 5) (qdec (-999798) 5) (qdec 845858 5) (qdec 101049 4) (qdec (-91049) 4) (qdec 101049 4);
     QMat (qdec 6383808 6) (qdec 12193948 6) (qdec 1884238 5) (qdec 90033 5) (qdec (-387813) 5) (qdec (-35827) 5) (qdec 168415 5) (qdec (-68415) 5) (qdec 168415 5);
     QMat (qdec 104442 5) (qdec 6193948 6) (qdec 2824216 6) (qdec 143973 5) (qdec (-987813) 5) (qdec 125993 5) (qdec 168415 5) (qdec 531585 5) (qdec 168415 5);
     QMat (qdec 731094 5) (qdec (-4751348) 6) (qdec 9090736 6) (qdec 1007811 5) (qdec (-1143771) 5) (qdec 989831 5) (qdec 1178905 5) (qdec (-1078905) 5) (qdec 1178905 5);
     QMat (qdec 3604012 6) (qdec 10414152 6) (qdec 10723196 6) (qdec 8013 5) (qdec (-369833) 5) (qdec (-63907) 5) (qdec 268415 5) (qdec (-68415) 5) (qdec 268415 5);
     QMat (qdec 7163604 6) (qdec 685456 5) (qdec 14282788 6) (qdec (-27947) 5) (qdec (-333873) 5) (qdec (-99867) 5) (qdec 268415 5) (qdec (-68415) 5) (qdec 268415 5);
     QMat (qdec 4163604 6) (qdec 385456 5) (qdec 59434 4) (qdec (-327947) 5) (qdec (-633873) 5) (qdec (-345927) 5) (qdec 568415 5) (qdec 231585 5) (qdec 568415 5);
     QMat (qdec 104442 5) (qdec 6973744 6) (qdec 2824216 6) (qdec 143973 5) (qdec (-1105793) 5) (qdec 125993 5) (qdec 168415 5) (qdec 631585 5) (qdec 168415 5);
     QMat (qdec 208884 5) (qdec 3030344 6) (qdec 5648432 6) (qdec 287946 5) (qdec (-559866) 5) (qdec 251986 5) (qdec 33683 4) (qdec (-13683) 4) (qdec 33683 4);
     QMat (qdec 3868636 6) (qdec 1250548 6) (qdec 7428228 6) (qdec 269966 5) (qdec (-541886) 5) (qdec 234006 5) (qdec 33683 4) (qdec (-13683) 4) (qdec 33683 4);
     QMat (qdec 208884 5) (qdec 481014 5) (qdec 5648432 6) (qdec 287946 5) (qdec (-577846) 5) (qdec 251986 5) (qdec 33683 4) (qdec (-13683) 4) (qdec 33683 4);
     QMat (qdec 3868636 6) (qdec 3030344 6) (qdec 7428228 6) (qdec 269966 5) (qdec (-559866) 5) (qdec 234006 5) (qdec 33683 4) (qdec (-13683) 4) (qdec 33683 4);
     QMat (qdec 3648432 6) (qdec 1250548 6) (qdec 5428228 6) (qdec 51986 5) (qdec (-541886) 5) (qdec 34006 5) (qdec 53683 4) (qdec (-13683) 4) (qdec 53683 4);
     QMat (qdec 208884 5) (qdec 281014 5) (qdec 3868636 6) (qdec 287946 5) (qdec (-777846) 5) (qdec 269966 5) (qdec 33683 4) (qdec 6317 4) (qdec 33683 4);
     QMat (qdec 4957476 6) (qdec (-1618088) 6) (qdec 6737272 6) (qdec 457912 5) (qdec (-711852) 5) (qdec 439932 5) (qdec 77366 4) (qdec (-57366) 4) (qdec 77366 4);
     QMat (qdec 417768 5) (qdec (-838292) 6) (qdec 5957476 6) (qdec 575892 5) (qdec (-829832) 5) (qdec 557912 5) (qdec 67366 4) (qdec (-47366) 4) (qdec 67366 4);
     QMat (qdec 835536 5) (qdec (-5795768) 6) (qdec 10135156 6) (qdec 1151784 5) (qdec (-1287744) 5) (qdec 1133804 5) (qdec 134732 4) (qdec (-124732) 4) (qdec 134732 4);
     QMat (qdec 8163604 6) (qdec 1575354 5) (qdec 24181768 6) (qdec 72053 5) (qdec (-423773) 5) (qdec (-89767) 5) (qdec 168415 5) (qdec (-68415) 5) (qdec 168415 5);
     QMat (qdec 2824216 6) (qdec 485456 5) (qdec 8163604 6) (qdec 125993 5) (qdec (-533873) 5) (qdec 72053 5) (qdec 168415 5) (qdec 131585 5) (qdec 168415 5);
     QMat (qdec 104442 5) (qdec 775354 5) (qdec 2824216 6) (qdec 143973 5) (qdec (-1223773) 5) (qdec 125993 5) (qdec 168415 5) (qdec 731585 5) (qdec 168415 5);
     QMat (qdec 313326 5) (qdec 476572 5) (qdec 8472648 6) (qdec 431919 5) (qdec (-621819) 5) (qdec 377979 5) (qdec 505245 5) (qdec (-405245) 5) (qdec 505245 5);
     QMat (qdec 313326 5) (qdec 985924 6) (qdec 4913056 6) (qdec 431919 5) (qdec (-803839) 5) (qdec 413939 5) (qdec 505245 5) (qdec (-205245) 5) (qdec 505245 5);
     QMat (qdec 939978 5) (qdec (-6840188) 6) (qdec 11179576 6) (qdec 1295757 5) (qdec (-1431717) 5) (qdec 1277777 5) (qdec 1515735 5) (qdec (-1415735) 5) (qdec 1515735 5)]);
  (* find_supercells_basis_33_49.txt *)
  ([[(zq 2); (qdec (-15) 1); (qdec 25 1)]; [(zq 0); (zq 2); (zq 0)]; [(zq 0); (zq 2); (zq 2)]], 10, true, 1, [QMat (zq 2) (zq 3) (zq 7) (zq 0) (zq 2) (zq 0) (zq 0) (zq 20) (zq 20);
     QMat (qdec 25 1) (qdec 25 1) (qdec 75 1) (zq 0) (zq 2) (zq 0) (zq 2) (zq 18) (zq 22);
     QMat (zq 3) (zq 2) (zq 8) (zq 0) (zq 2) (zq 0) (zq 4) (zq 16) (zq 24);
     QMat (qdec 35 1) (qdec 15 1) (qdec 85 1) (zq 0) (zq 2) (zq 0) (zq 6) (zq 14) (zq 26);
     QMat (zq 4) (zq 1) (zq 9) (zq 0) (zq 2) (zq 0) (zq 8) (zq 12) (zq 28);
     QMat (qdec 45 1) (qdec 5 1) (qdec 95 1) (zq 0) (zq 2) (zq 0) (zq 10) (zq 10) (zq 30);
     QMat (zq 5) (zq 0) (zq 10) (zq 0) (zq 2) (zq 0) (zq 12) (zq 8) (zq 32);
     QMat (qdec 55 1) (qdec (-5) 1) (qdec 105 1) (zq 0) (zq 2) (zq 0) (zq 14) (zq 6) (zq 34);
     QMat (zq 6) (zq (-1)) (zq 11) (zq 0) (zq 2) (zq 0) (zq 16) (zq 4) (zq 36);
     QMat (qdec 65 1) (qdec (-15) 1) (qdec 115 1) (zq 0) (zq 2) (zq 0) (zq 18) (zq 2) (zq 38);
     QMat (zq 2) (qdec 5 1) (zq 7) (zq 0) (zq 2) (zq 0) (zq 0) (zq 10) (zq 20);
     QMat (qdec 25 1) (zq 0) (qdec 75 1) (zq 0) (zq 2) (zq 0) (zq 2) (zq 8) (zq 22);
     QMat (zq 3) (qdec (-5) 1) (zq 8) (zq 0) (zq 2) (zq 0) (zq 4) (zq 6) (zq 24);
     QMat (qdec 35 1) (zq (-1)) (qdec 85 1) (zq 0) (zq 2) (zq 0) (zq 6) (zq 4) (zq 26);
     QMat (zq 4) (qdec (-15) 1) (zq 9) (zq 0) (zq 2) (zq 0) (zq 8) (zq 2) (zq 28);
     QMat (qdec 45 1) (zq (-2)) (qdec 95 1) (zq 0) (zq 2) (zq 0) (zq 10) (zq 0) (zq 30);
     QMat (zq 5) (qdec (-25) 1) (zq 10) (zq 0) (zq 2) (zq 0) (zq 12) (zq (-2)) (zq 32);
     QMat (qdec 55 1) (zq (-3)) (qdec 105 1) (zq 0) (zq 2) (zq 0) (zq 14) (zq (-4)) (zq 34);
     QMat (zq 6) (qdec (-35) 1) (zq 11) (zq 0) (zq 2) (zq 0) (zq 16) (zq (-6)) (zq 36);
     QMat (qdec 65 1) (zq (-4)) (qdec 115 1) (zq 0) (zq 2) (zq 0) (zq 18) (zq (-8)) (zq 38);
     QMat (zq 2) (qdec 5 1) (qdec 45 1) (zq 0) (zq 4) (zq 0) (zq 0) (zq 10) (zq 10);
     QMat (qdec 25 1) (zq 0) (zq 5) (zq 0) (zq 4) (zq 0) (zq 2) (zq 8) (zq 12);
     QMat (zq 3) (qdec (-5) 1) (qdec 55 1) (zq 0) (zq 4) (zq 0) (zq 4) (zq 6) (zq 14);
     QMat (qdec 35 1) (zq (-1)) (zq 6) (zq 0) (zq 4) (zq 0) (zq 6) (zq 4) (zq 16);
     QMat (zq 4) (qdec (-15) 1) (qdec 65 1) (zq 0) (zq 4) (zq 0) (zq 8) (zq 2) (zq 18);
     QMat (zq 2) (qdec 5 1) (qdec 45 1) (zq (-2)) (zq 6) (zq (-2)) (zq 0) (zq 10) (zq 10);
     QMat (qdec 25 1) (zq 0) (zq 5) (zq (-2)) (zq 6) (zq (-2)) (zq 2) (zq 8) (zq 12);
     QMat (zq 3) (qdec (-5) 1) (qdec 55 1) (zq (-2)) (zq 6) (zq (-2)) (zq 4) (zq 6) (zq 14);
     QMat (qdec 35 1) (zq (-1)) (zq 6) (zq (-2)) (zq 6) (zq (-2)) (zq 6) (zq 4) (zq 16);
     QMat (zq 4) (qdec (-15) 1) (qdec 65 1) (zq (-2)) (zq 6) (zq (-2)) (zq 8) (zq 2) (zq 18);
     QMat (zq 2) (zq (-1)) (zq 3) (zq 0) (zq 10) (zq 0) (zq 0) (zq 4) (zq 4);
     QMat (qdec 25 1) (qdec (-15) 1) (qdec 35 1) (zq 0) (zq 10) (zq 0) (zq 2) (zq 2) (zq 6);
     QMat (zq 2) (qdec (-15) 1) (zq 3) (zq 0) (zq 10) (zq 0) (zq 0) (zq 2) (zq 4);
     QMat (qdec 25 1) (zq (-2)) (qdec 35 1) (zq 0) (zq 10) (zq 0) (zq 2) (zq 0) (zq 6);
     QMat (zq 2) (qdec (-15) 1) (qdec 25 1) (zq 0) (zq 20) (zq 0) (zq 0) (zq 2) (zq 2);
     QMat (zq 2) (qdec (-15) 1) (qdec 25 1) (zq (-10)) (zq 30) (zq (-10)) (zq 0) (zq 2) (zq 2);
     QMat (zq 4) (qdec (-15) 1) (qdec 65 1) (zq 0) (zq 2) (zq 0) (zq 0) (zq 10) (zq 10);
     QMat (qdec 45 1) (zq (-2)) (zq 7) (zq 0) (zq 2) (zq 0) (zq 2) (zq 8) (zq 12);
     QMat (zq 5) (qdec (-25) 1) (qdec 75 1) (zq 0) (zq 2) (zq 0) (zq 4) (zq 6) (zq 14);
     QMat (qdec 55 1) (zq (-3)) (zq 8) (zq 0) (zq 2) (zq 0) (zq 6) (zq 4) (zq 16);
     QMat (zq 6) (qdec (-35) 1) (qdec 85 1) (zq 0) (zq 2) (zq 0) (zq 8) (zq 2) (zq 18);
     QMat (zq 4) (qdec (-35) 1) (qdec 45 1) (zq 0) (zq 10) (zq 0) (zq 0) (zq 2) (zq 2);
     QMat (zq 10) (zq (-9)) (zq 11) (zq 0) (zq 2) (zq 0) (zq 0) (zq 4) (zq 4);
     QMat (qdec 105 1) (qdec (-95) 1) (qdec 115 1) (zq 0) (zq 2) (zq 0) (zq 2) (zq 2) (zq 6);
     QMat (zq 10) (qdec (-95) 1) (zq 11) (zq 0) (zq 2) (zq 0) (zq 0) (zq 2) (zq 4);
     QMat (qdec 105 1) (zq (-10)) (qdec 115 1) (zq 0) (zq 2) (zq 0) (zq 2) (zq 0) (zq 6);
     QMat (zq 10) (qdec (-95) 1) (qdec 105 1) (zq 0) (zq 4) (zq 0) (zq 0) (zq 2) (zq 2);
     QMat (zq 10) (qdec (-95) 1) (qdec 105 1) (zq (-2)) (zq 6) (zq (-2)) (zq 0) (zq 2) (zq 2);
     QMat (zq 20) (qdec (-195) 1) (qdec 205 1) (zq 0) (zq 2) (zq 0) (zq 0) (zq 2) (zq 2)]);
  (* find_supercells_basis_35_49.txt *)
  ([[(zq 1); (qdec (-50882) 6); (qdec 331088 6)]; [(zq 1); (qdec 348726 6); (qdec 296676 5)]; [(zq 1); (qdec (-329785) 5); (qdec (-29785) 5)]], 10, true, 1, [QMat (zq 10) (qdec (-9050882) 6) (qdec 9331088 6) (zq 10) (qdec (-8651274) 6) (qdec 1196676 5) (zq 10) (qdec (-1229785) 5) (qdec 870215 5);
     QMat (zq 10) (qdec (-14050882) 6) (qdec 4331088 6) (zq 10) (qdec (-13651274) 6) (qdec 696676 5) (zq 10) (qdec (-1729785) 5) (qdec 370215 5);
     QMat (zq 10) (qdec (-14050882) 6) (qdec 9331088 6) (zq 10) (qdec (-13651274) 6) (qdec 1196676 5) (zq 10) (qdec (-1729785) 5) (qdec 870215 5);
     QMat (zq 10) (qdec (-19050882) 6) (qdec 4331088 6) (zq 10) (qdec (-18651274) 6) (qdec 696676 5) (zq 10) (qdec (-2229785) 5) (qdec 370215 5);
     QMat (zq 5) (qdec (-2432852) 6) (qdec 4331088 6) (zq 5) (qdec (-4269308) 6) (qdec 696676 5) (zq 5) (qdec (-829785) 5) (qdec 370215 5);
     QMat (zq 5) (qdec (-814822) 6) (qdec 5949118 6) (zq 5) (qdec (-4887342) 6) (qdec 6348726 6) (zq 5) (qdec (-929785) 5) (qdec 270215 5);
     QMat (zq 2) (qdec 5421238 6) (qdec 1331088 6) (zq 2) (qdec (-312341) 5) (qdec 396676 5) (zq 2) (qdec (-829785) 5) (qdec 70215 5);
     QMat (zq 2) (qdec 7039268 6) (qdec 2949118 6) (zq 2) (qdec (-3741444) 6) (qdec 3348726 6) (zq 2) (qdec (-929785) 5) (qdec (-29785) 5);
     QMat (zq 2) (qdec 8657298 6) (qdec 4567148 6) (zq 2) (qdec (-4359478) 6) (qdec 2730692 6) (zq 2) (qdec (-1029785) 5) (qdec (-129785) 5);
     QMat (zq 2) (qdec 10275328 6) (qdec 6185178 6) (zq 2) (qdec (-4977512) 6) (qdec 2112658 6) (zq 2) (qdec (-1129785) 5) (qdec (-229785) 5);
     QMat (zq 2) (qdec 11893358 6) (qdec 7803208 6) (zq 2) (qdec (-5595546) 6) (qdec 1494624 6) (zq 2) (qdec (-1229785) 5) (qdec (-329785) 5);
     QMat (zq 2) (qdec 4421238 6) (qdec 331088 6) (zq 2) (qdec (-412341) 5) (qdec 296676 5) (zq 2) (qdec (-929785) 5) (qdec (-29785) 5);
     QMat (zq 2) (qdec 6039268 6) (qdec 1949118 6) (zq 2) (qdec (-4741444) 6) (qdec 2348726 6) (zq 2) (qdec (-1029785) 5) (qdec (-129785) 5);
     QMat (zq 2) (qdec 7657298 6) (qdec 3567148 6) (zq 2) (qdec (-5359478) 6) (qdec 1730692 6) (zq 2) (qdec (-1129785) 5) (qdec (-229785) 5);
     QMat (zq 2) (qdec 9275328 6) (qdec 5185178 6) (zq 2) (qdec (-5977512) 6) (qdec 1112658 6) (zq 2) (qdec (-1229785) 5) (qdec (-329785) 5);
     QMat (zq 2) (qdec 10893358 6) (qdec 6803208 6) (zq 2) (qdec (-6595546) 6) (qdec 494624 6) (zq 2) (qdec (-1329785) 5) (qdec (-429785) 5);
     QMat (zq 2) (qdec 4421238 6) (qdec 1331088 6) (zq 2) (qdec (-412341) 5) (qdec 396676 5) (zq 2) (qdec (-929785) 5) (qdec 70215 5);
     QMat (zq 2) (qdec 6039268 6) (qdec 2949118 6) (zq 2) (qdec (-4741444) 6) (qdec 3348726 6) (zq 2) (qdec (-1029785) 5) (qdec (-29785) 5);
     QMat (zq 2) (qdec 7657298 6) (qdec 4567148 6) (zq 2) (qdec (-5359478) 6) (qdec 2730692 6) (zq 2) (qdec (-1129785) 5) (qdec (-129785) 5);
     QMat (zq 2) (qdec 9275328 6) (qdec 6185178 6) (zq 2) (qdec (-5977512) 6) (qdec 2112658 6) (zq 2) (qdec (-1229785) 5) (qdec (-229785) 5);
     QMat (zq 2) (qdec 10893358 6) (qdec 7803208 6) (zq 2) (qdec (-6595546) 6) (qdec 1494624 6) (zq 2) (qdec (-1329785) 5) (qdec (-329785) 5);
     QMat (zq 2) (qdec 3421238 6) (qdec 331088 6) (zq 2) (qdec (-512341) 5) (qdec 296676 5) (zq 2) (qdec (-1029785) 5) (qdec (-29785) 5);
     QMat (zq 2) (qdec 5039268 6) (qdec 1949118 6) (zq 2) (qdec (-5741444) 6) (qdec 2348726 6) (zq 2) (qdec (-1129785) 5) (qdec (-129785) 5);
     QMat (zq 2) (qdec 6657298 6) (qdec 3567148 6) (zq 2) (qdec (-6359478) 6) (qdec 1730692 6) (zq 2) (qdec (-1229785) 5) (qdec (-229785) 5);
     QMat (zq 2) (qdec 8275328 6) (qdec 5185178 6) (zq 2) (qdec (-6977512) 6) (qdec 1112658 6) (zq 2) (qdec (-1329785) 5) (qdec (-329785) 5);
     QMat (zq 2) (qdec 9893358 6) (qdec 6803208 6) (zq 2) (qdec (-7595546) 6) (qdec 494624 6) (zq 2) (qdec (-1429785) 5) (qdec (-429785) 5);
     QMat (zq 1) (qdec 14511388 6) (qdec 331088 6) (zq 1) (qdec (-521358) 5) (qdec 296676 5) (zq 1) (qdec (-1229785) 5) (qdec (-29785) 5);
     QMat (zq 1) (qdec 16129418 6) (qdec 1949118 6) (zq 1) (qdec (-5831614) 6) (qdec 2348726 6) (zq 1) (qdec (-1329785) 5) (qdec (-129785) 5);
     QMat (zq 1) (qdec 17747448 6) (qdec 3567148 6) (zq 1) (qdec (-6449648) 6) (qdec 1730692 6) (zq 1) (qdec (-1429785) 5) (qdec (-229785) 5);
     QMat (zq 1) (qdec 19365478 6) (qdec 5185178 6) (zq 1) (qdec (-7067682) 6) (qdec 1112658 6) (zq 1) (qdec (-1529785) 5) (qdec (-329785) 5);
     QMat (zq 1) (qdec 20983508 6) (qdec 6803208 6) (zq 1) (qdec (-7685716) 6) (qdec 494624 6) (zq 1) (qdec (-1629785) 5) (qdec (-429785) 5);
     QMat (zq 1) (qdec 22601538 6) (qdec 8421238 6) (zq 1) (qdec (-830375) 5) (qdec (-12341) 5) (zq 1) (qdec (-1729785) 5) (qdec (-529785) 5);
     QMat (zq 1) (qdec 24219568 6) (qdec 10039268 6) (zq 1) (qdec (-8921784) 6) (qdec (-741444) 6) (zq 1) (qdec (-1829785) 5) (qdec (-629785) 5);
     QMat (zq 1) (qdec 25837598 6) (qdec 11657298 6) (zq 1) (qdec (-9539818) 6) (qdec (-1359478) 6) (zq 1) (qdec (-1929785) 5) (qdec (-729785) 5);
     QMat (zq 1) (qdec 27455628 6) (qdec 13275328 6) (zq 1) (qdec (-10157852) 6) (qdec (-1977512) 6) (zq 1) (qdec (-2029785) 5) (qdec (-829785) 5);
     QMat (zq 1) (qdec 29073658 6) (qdec 14893358 6) (zq 1) (qdec (-10775886) 6) (qdec (-2595546) 6) (zq 1) (qdec (-2129785) 5) (qdec (-929785) 5);
     QMat (zq 5) (qdec (-4719794) 6) (qdec 3662176 6) (zq 5) (qdec (-1684514) 6) (qdec 893352 5) (zq 5) (qdec (-85957) 4) (qdec 24043 4);
     QMat (zq 1) (qdec 5752326 6) (qdec (-337824) 6) (zq 1) (qdec (-15665) 5) (qdec 493352 5) (zq 1) (qdec (-85957) 4) (qdec (-15957) 4);
     QMat (zq 1) (qdec 7370356 6) (qdec 1280206 6) (zq 1) (qdec (-774684) 6) (qdec 4315486 6) (zq 1) (qdec (-95957) 4) (qdec (-25957) 4);
     QMat (zq 1) (qdec 8988386 6) (qdec 2898236 6) (zq 1) (qdec (-1392718) 6) (qdec 3697452 6) (zq 1) (qdec (-105957) 4) (qdec (-35957) 4);
     QMat (zq 1) (qdec 10606416 6) (qdec 4516266 6) (zq 1) (qdec (-2010752) 6) (qdec 3079418 6) (zq 1) (qdec (-115957) 4) (qdec (-45957) 4);
     QMat (zq 1) (qdec 12224446 6) (qdec 6134296 6) (zq 1) (qdec (-2628786) 6) (qdec 2461384 6) (zq 1) (qdec (-125957) 4) (qdec (-55957) 4);
     QMat (zq 2) (qdec (-372653) 5) (qdec (-134456) 5) (zq 2) (qdec 7215766 6) (qdec 118338 4) (zq 2) (qdec (-948925) 5) (qdec (-448925) 5);
     QMat (zq 2) (qdec (-472653) 5) (qdec (-234456) 5) (zq 2) (qdec 6215766 6) (qdec 108338 4) (zq 2) (qdec (-1048925) 5) (qdec (-548925) 5);
     QMat (zq 2) (qdec (-472653) 5) (qdec (-134456) 5) (zq 2) (qdec 6215766 6) (qdec 118338 4) (zq 2) (qdec (-1048925) 5) (qdec (-448925) 5);
     QMat (zq 2) (qdec (-572653) 5) (qdec (-234456) 5) (zq 2) (qdec 5215766 6) (qdec 108338 4) (zq 2) (qdec (-1148925) 5) (qdec (-548925) 5);
     QMat (zq 1) (qdec (-11085) 4) (qdec (-234456) 5) (zq 1) (qdec 7597732 6) (qdec 108338 4) (zq 1) (qdec (-948925) 5) (qdec (-548925) 5);
     QMat (zq 1) (qdec 50953 5) (qdec (-72653) 5) (zq 1) (qdec 6979698 6) (qdec 10215766 6) (zq 1) (qdec (-1048925) 5) (qdec (-648925) 5);
     QMat (zq 1) (qdec (-607109) 5) (qdec (-568912) 5) (zq 1) (qdec 18049566 6) (qdec 206676 4) (zq 1) (qdec (-149785) 4) (qdec (-119785) 4)]);
  (* find_supercells_basis_34_77.txt *)
  ([[(zq 1); (qdec 5875978 8); (qdec 83401491 8)]; [(zq 1); (qdec (-386782784) 8); (qdec (-64308297) 8)]; [(zq 1); (qdec (-19093194) 8); (qdec 280906806 8)]], 1, false, 0, [QMat (zq 1) (qdec (-1072253) 7) (qdec 6680298 7) (zq 1) (qdec (-55109108) 7) (qdec (-22861659) 7) (zq 1) (qdec 16181361 7) (qdec 46181361 7);
     QMat (zq 1) (qdec 587598 7) (qdec 6680298 7) (zq 1) (qdec (-38678278) 7) (qdec (-22861659) 7) (zq 1) (qdec (-1909319) 7) (qdec 46181361 7);
     QMat (qdec 8340149 7) (qdec 2247449 7) (qdec 5020447 7) (qdec (-643083) 6) (qdec (-22247449) 7) (qdec (-39292489) 7) (qdec 28090681 7) (zq (-2)) (qdec 64272042 7);
     QMat (qdec 8340149 7) (qdec 39073 5) (qdec 5020447 7) (qdec (-643083) 6) (qdec (-5816619) 7) (qdec (-39292489) 7) (qdec 28090681 7) (qdec (-38090681) 7) (qdec 64272042 7);
     QMat (zq 1) (qdec 22835047 7) (qdec 8340149 7) (zq 1) (qdec (-40925727) 7) (qdec (-643083) 6) (zq 1) (qdec (-1909319) 7) (qdec 28090681 7);
     QMat (qdec (-12247449) 7) (qdec 67329944 7) (qdec (-139073) 5) (qdec 12247449 7) (qdec (-45420624) 7) (qdec (-4183381) 7) (zq 1) (qdec (-1909319) 7) (qdec 28090681 7);
     QMat (zq 2) (qdec (-19412402) 7) (qdec 18340149 7) (zq 2) (qdec (-58678278) 7) (qdec 356917 6) (zq 2) (qdec (-21909319) 7) (qdec 38090681 7);
     QMat (zq 1) (qdec (-2732104) 7) (qdec 5020447 7) (zq 1) (qdec (-71539938) 7) (qdec (-39292489) 7) (zq 1) (qdec 34272042 7) (qdec 64272042 7);
     QMat (zq 1) (qdec 45082495 7) (qdec 8340149 7) (zq 1) (qdec (-43173176) 7) (qdec (-643083) 6) (zq 1) (qdec (-1909319) 7) (qdec 28090681 7);
     QMat (qdec (-12247449) 7) (qdec 89577393 7) (qdec (-139073) 5) (qdec 12247449 7) (qdec (-47668073) 7) (qdec (-4183381) 7) (zq 1) (qdec (-1909319) 7) (qdec 28090681 7);
     QMat (qdec (-34494897) 7) (qdec 13407229 6) (qdec (-36154748) 7) (qdec 14494897 7) (qdec (-52162971) 7) (qdec (-1935932) 7) (zq 1) (qdec (-1909319) 7) (qdec 28090681 7);
     QMat (zq 3) (qdec (-39412402) 7) (qdec 28340149 7) (zq 3) (qdec (-78678278) 7) (qdec 1356917 6) (zq 3) (qdec (-41909319) 7) (qdec 48090681 7);
     QMat (zq 1) (qdec (-4391955) 7) (qdec 3360596 7) (zq 1) (qdec (-87970767) 7) (qdec (-55723319) 7) (zq 1) (qdec 52362722 7) (qdec 82362722 7);
     QMat (zq 1) (qdec (-1072253) 7) (qdec 3360596 7) (zq 1) (qdec (-55109108) 7) (qdec (-55723319) 7) (zq 1) (qdec 16181361 7) (qdec 82362722 7);
     QMat (qdec 6680298 7) (qdec 2247449 7) (qdec 40895 7) (qdec (-22861659) 7) (qdec (-22247449) 7) (qdec (-88584978) 7) (qdec 46181361 7) (zq (-2)) (qdec 118544084 7);
     QMat (qdec 6680298 7) (qdec 5567151 7) (qdec 40895 7) (qdec (-22861659) 7) (qdec 10614211 7) (qdec (-88584978) 7) (qdec 46181361 7) (qdec (-56181361) 7) (qdec 118544084 7);
     QMat (zq 1) (qdec 21175196 7) (qdec 6680298 7) (zq 1) (qdec (-57356557) 7) (qdec (-22861659) 7) (zq 1) (qdec 16181361 7) (qdec 46181361 7);
     QMat (qdec (-12247449) 7) (qdec 65670093 7) (qdec (-1556715) 6) (qdec 12247449 7) (qdec (-61851454) 7) (qdec (-20614211) 7) (zq 1) (qdec 16181361 7) (qdec 46181361 7);
     QMat (zq 1) (qdec 22835047 7) (qdec 6680298 7) (zq 1) (qdec (-40925727) 7) (qdec (-22861659) 7) (zq 1) (qdec (-1909319) 7) (qdec 46181361 7);
     QMat (qdec (-12247449) 7) (qdec 67329944 7) (qdec (-1556715) 6) (qdec 12247449 7) (qdec (-45420624) 7) (qdec (-20614211) 7) (zq 1) (qdec (-1909319) 7) (qdec 46181361 7);
     QMat (qdec 8340149 7) (qdec 24494897 7) (qdec 5020447 7) (qdec (-643083) 6) (qdec (-24494897) 7) (qdec (-39292489) 7) (qdec 28090681 7) (zq (-2)) (qdec 64272042 7);
     QMat (qdec (-139073) 5) (qdec 68989795 7) (qdec (-17227001) 7) (qdec (-4183381) 7) (qdec (-28989795) 7) (qdec (-3704504) 6) (qdec 28090681 7) (zq (-2)) (qdec 64272042 7);
     QMat (qdec 8340149 7) (qdec 26154748 7) (qdec 5020447 7) (qdec (-643083) 6) (qdec (-8064068) 7) (qdec (-39292489) 7) (qdec 28090681 7) (qdec (-38090681) 7) (qdec 64272042 7);
     QMat (qdec (-139073) 5) (qdec 70649646 7) (qdec (-17227001) 7) (qdec (-4183381) 7) (qdec (-12558965) 7) (qdec (-3704504) 6) (qdec 28090681 7) (qdec (-38090681) 7) (qdec 64272042 7);
     QMat (zq 1) (qdec 67329944 7) (qdec 8340149 7) (zq 1) (qdec (-45420624) 7) (qdec (-643083) 6) (zq 1) (qdec (-1909319) 7) (qdec 28090681 7);
     QMat (qdec (-12247449) 7) (qdec 111824841 7) (qdec (-139073) 5) (qdec 12247449 7) (qdec (-49915522) 7) (qdec (-4183381) 7) (zq 1) (qdec (-1909319) 7) (qdec 28090681 7);
     QMat (qdec (-34494897) 7) (qdec 156319739 7) (qdec (-36154748) 7) (qdec 14494897 7) (qdec (-54410419) 7) (qdec (-1935932) 7) (zq 1) (qdec (-1909319) 7) (qdec 28090681 7);
     QMat (qdec (-56742346) 7) (qdec 200814636 7) (qdec (-58402197) 7) (qdec 16742346 7) (qdec (-58905317) 7) (qdec 311516 7) (zq 1) (qdec (-1909319) 7) (qdec 28090681 7);
     QMat (zq 2) (qdec (-21072253) 7) (qdec 16680298 7) (zq 2) (qdec (-75109108) 7) (qdec (-12861659) 7) (zq 2) (qdec (-3818639) 7) (qdec 56181361 7);
     QMat (zq 2) (qdec (-19412402) 7) (qdec 16680298 7) (zq 2) (qdec (-58678278) 7) (qdec (-12861659) 7) (zq 2) (qdec (-21909319) 7) (qdec 56181361 7);
     QMat (qdec 18340149 7) (qdec (-17752551) 7) (qdec 15020447 7) (qdec 356917 6) (qdec (-42247449) 7) (qdec (-29292489) 7) (qdec 38090681 7) (zq (-4)) (qdec 74272042 7);
     QMat (qdec 18340149 7) (qdec (-160927) 5) (qdec 15020447 7) (qdec 356917 6) (qdec (-25816619) 7) (qdec (-29292489) 7) (qdec 38090681 7) (qdec (-58090681) 7) (qdec 74272042 7);
     QMat (zq 2) (qdec 2835047 7) (qdec 18340149 7) (zq 2) (qdec (-60925727) 7) (qdec 356917 6) (zq 2) (qdec (-21909319) 7) (qdec 38090681 7);
     QMat (qdec (-2247449) 7) (qdec 47329944 7) (qdec (-39073) 5) (qdec 22247449 7) (qdec (-65420624) 7) (qdec 5816619 7) (zq 2) (qdec (-21909319) 7) (qdec 38090681 7);
     QMat (zq 4) (qdec (-59412402) 7) (qdec 38340149 7) (zq 4) (qdec (-98678278) 7) (qdec 2356917 6) (zq 4) (qdec (-61909319) 7) (qdec 58090681 7);
     QMat (zq 1) (qdec (-6051806) 7) (qdec 1700745 7) (zq 1) (qdec (-104401597) 7) (qdec (-72154149) 7) (zq 1) (qdec 70453403 7) (qdec 100453403 7);
     QMat (zq 1) (qdec 89577393 7) (qdec 8340149 7) (zq 1) (qdec (-47668073) 7) (qdec (-643083) 6) (zq 1) (qdec (-1909319) 7) (qdec 28090681 7);
     QMat (qdec (-12247449) 7) (qdec 13407229 6) (qdec (-139073) 5) (qdec 12247449 7) (qdec (-52162971) 7) (qdec (-4183381) 7) (zq 1) (qdec (-1909319) 7) (qdec 28090681 7);
     QMat (qdec (-34494897) 7) (qdec 178567187 7) (qdec (-36154748) 7) (qdec 14494897 7) (qdec (-56657868) 7) (qdec (-1935932) 7) (zq 1) (qdec (-1909319) 7) (qdec 28090681 7);
     QMat (qdec (-56742346) 7) (qdec 223062085 7) (qdec (-58402197) 7) (qdec 16742346 7) (qdec (-61152765) 7) (qdec 311516 7) (zq 1) (qdec (-1909319) 7) (qdec 28090681 7);
     QMat (qdec (-78989795) 7) (qdec 267556982 7) (qdec (-80649646) 7) (qdec 18989795 7) (qdec (-65647663) 7) (qdec 2558965 7) (zq 1) (qdec (-1909319) 7) (qdec 28090681 7);
     QMat (zq 5) (qdec (-79412402) 7) (qdec 48340149 7) (zq 5) (qdec (-118678278) 7) (qdec 3356917 6) (zq 5) (qdec (-81909319) 7) (qdec 68090681 7);
     QMat (zq 1) (qdec (-7711657) 7) (qdec 40895 7) (zq 1) (qdec (-120832427) 7) (qdec (-88584978) 7) (zq 1) (qdec 88544084 7) (qdec 118544084 7);
     QMat (zq 1) (qdec (-2732104) 7) (qdec 40895 7) (zq 1) (qdec (-71539938) 7) (qdec (-88584978) 7) (zq 1) (qdec 34272042 7) (qdec 118544084 7);
     QMat (qdec 5020447 7) (qdec 2247449 7) (qdec (-4938658) 7) (qdec (-39292489) 7) (qdec (-22247449) 7) (qdec (-137877467) 7) (qdec 64272042 7) (zq (-2)) (qdec 172816125 7);
     QMat (qdec 5020447 7) (qdec 7227001 7) (qdec (-4938658) 7) (qdec (-39292489) 7) (qdec 2704504 6) (qdec (-137877467) 7) (qdec 64272042 7) (qdec (-74272042) 7) (qdec 172816125 7);
     QMat (zq 1) (qdec 19515345 7) (qdec 5020447 7) (zq 1) (qdec (-73787386) 7) (qdec (-39292489) 7) (zq 1) (qdec 34272042 7) (qdec 64272042 7);
     QMat (qdec (-12247449) 7) (qdec 64010242 7) (qdec (-17227001) 7) (qdec 12247449 7) (qdec (-78282284) 7) (qdec (-3704504) 6) (zq 1) (qdec 34272042 7) (qdec 64272042 7);
     QMat (zq 1) (qdec 43422644 7) (qdec 6680298 7) (zq 1) (qdec (-59604005) 7) (qdec (-22861659) 7) (zq 1) (qdec 16181361 7) (qdec 46181361 7);
     QMat (qdec (-12247449) 7) (qdec 87917542 7) (qdec (-1556715) 6) (qdec 12247449 7) (qdec (-64098903) 7) (qdec (-20614211) 7) (zq 1) (qdec 16181361 7) (qdec 46181361 7);
     QMat (qdec (-34494897) 7) (qdec 132412439 7) (qdec (-37814599) 7) (qdec 14494897 7) (qdec (-685938) 5) (qdec (-18366762) 7) (zq 1) (qdec 16181361 7) (qdec 46181361 7);
     QMat (zq 1) (qdec 45082495 7) (qdec 6680298 7) (zq 1) (qdec (-43173176) 7) (qdec (-22861659) 7) (zq 1) (qdec (-1909319) 7) (qdec 46181361 7);
     QMat (qdec (-12247449) 7) (qdec 89577393 7) (qdec (-1556715) 6) (qdec 12247449 7) (qdec (-47668073) 7) (qdec (-20614211) 7) (zq 1) (qdec (-1909319) 7) (qdec 46181361 7);
     QMat (qdec (-34494897) 7) (qdec 13407229 6) (qdec (-37814599) 7) (qdec 14494897 7) (qdec (-52162971) 7) (qdec (-18366762) 7) (zq 1) (qdec (-1909319) 7) (qdec 46181361 7);
     QMat (qdec 8340149 7) (qdec 46742346 7) (qdec 5020447 7) (qdec (-643083) 6) (qdec (-26742346) 7) (qdec (-39292489) 7) (qdec 28090681 7) (zq (-2)) (qdec 64272042 7);
     QMat (qdec (-139073) 5) (qdec 91237243 7) (qdec (-17227001) 7) (qdec (-4183381) 7) (qdec (-31237243) 7) (qdec (-3704504) 6) (qdec 28090681 7) (zq (-2)) (qdec 64272042 7);
     QMat (qdec (-36154748) 7) (qdec 135732141 7) (qdec (-3947445) 6) (qdec (-1935932) 7) (qdec (-35732141) 7) (qdec (-34797592) 7) (qdec 28090681 7) (zq (-2)) (qdec 64272042 7);
     QMat (qdec 8340149 7) (qdec 48402197 7) (qdec 5020447 7) (qdec (-643083) 6) (qdec (-10311516) 7) (qdec (-39292489) 7) (qdec 28090681 7) (qdec (-38090681) 7) (qdec 64272042 7);
     QMat (qdec (-139073) 5) (qdec 92897094 7) (qdec (-17227001) 7) (qdec (-4183381) 7) (qdec (-14806414) 7) (qdec (-3704504) 6) (qdec 28090681 7) (qdec (-38090681) 7) (qdec 64272042 7);
     QMat (qdec (-36154748) 7) (qdec 137391992 7) (qdec (-3947445) 6) (qdec (-1935932) 7) (qdec (-19301311) 7) (qdec (-34797592) 7) (qdec 28090681 7) (qdec (-38090681) 7) (qdec 64272042 7);
     QMat (zq 1) (qdec 111824841 7) (qdec 8340149 7) (zq 1) (qdec (-49915522) 7) (qdec (-643083) 6) (zq 1) (qdec (-1909319) 7) (qdec 28090681 7);
     QMat (qdec (-12247449) 7) (qdec 156319739 7) (qdec (-139073) 5) (qdec 12247449 7) (qdec (-54410419) 7) (qdec (-4183381) 7) (zq 1) (qdec (-1909319) 7) (qdec 28090681 7);
     QMat (qdec (-34494897) 7) (qdec 200814636 7) (qdec (-36154748) 7) (qdec 14494897 7) (qdec (-58905317) 7) (qdec (-1935932) 7) (zq 1) (qdec (-1909319) 7) (qdec 28090681 7);
     QMat (qdec (-56742346) 7) (qdec 245309533 7) (qdec (-58402197) 7) (qdec 16742346 7) (qdec (-63400214) 7) (qdec 311516 7) (zq 1) (qdec (-1909319) 7) (qdec 28090681 7);
     QMat (qdec (-78989795) 7) (qdec 289804431 7) (qdec (-80649646) 7) (qdec 18989795 7) (qdec (-67895111) 7) (qdec 2558965 7) (zq 1) (qdec (-1909319) 7) (qdec 28090681 7);
     QMat (qdec (-101237243) 7) (qdec 334299328 7) (qdec (-102897094) 7) (qdec 21237243 7) (qdec (-72390009) 7) (qdec 4806414 7) (zq 1) (qdec (-1909319) 7) (qdec 28090681 7);
     QMat (zq 2) (qdec (-22732104) 7) (qdec 15020447 7) (zq 2) (qdec (-91539938) 7) (qdec (-29292489) 7) (zq 2) (qdec 14272042 7) (qdec 74272042 7);
     QMat (zq 2) (qdec 25082495 7) (qdec 18340149 7) (zq 2) (qdec (-63173176) 7) (qdec 356917 6) (zq 2) (qdec (-21909319) 7) (qdec 38090681 7);
     QMat (qdec (-2247449) 7) (qdec 69577393 7) (qdec (-39073) 5) (qdec 22247449 7) (qdec (-67668073) 7) (qdec 5816619 7) (zq 2) (qdec (-21909319) 7) (qdec 38090681 7);
     QMat (qdec (-24494897) 7) (qdec 11407229 6) (qdec (-26154748) 7) (qdec 24494897 7) (qdec (-72162971) 7) (qdec 8064068 7) (zq 2) (qdec (-21909319) 7) (qdec 38090681 7);
     QMat (zq 3) (qdec (-41072253) 7) (qdec 26680298 7) (zq 3) (qdec (-95109108) 7) (qdec (-2861659) 7) (zq 3) (qdec (-23818639) 7) (qdec 66181361 7);
     QMat (zq 3) (qdec (-39412402) 7) (qdec 26680298 7) (zq 3) (qdec (-78678278) 7) (qdec (-2861659) 7) (zq 3) (qdec (-41909319) 7) (qdec 66181361 7);
     QMat (qdec 28340149 7) (qdec (-37752551) 7) (qdec 25020447 7) (qdec 1356917 6) (qdec (-62247449) 7) (qdec (-19292489) 7) (qdec 48090681 7) (zq (-6)) (qdec 84272042 7);
     QMat (qdec 28340149 7) (qdec (-360927) 5) (qdec 25020447 7) (qdec 1356917 6) (qdec (-45816619) 7) (qdec (-19292489) 7) (qdec 48090681 7) (qdec (-78090681) 7) (qdec 84272042 7);
     QMat (zq 3) (qdec (-17164953) 7) (qdec 28340149 7) (zq 3) (qdec (-80925727) 7) (qdec 1356917 6) (zq 3) (qdec (-41909319) 7) (qdec 48090681 7);
     QMat (qdec 7752551 7) (qdec 27329944 7) (qdec 60927 5) (qdec 32247449 7) (qdec (-85420624) 7) (qdec 15816619 7) (zq 3) (qdec (-41909319) 7) (qdec 48090681 7);
     QMat (zq 6) (qdec (-99412402) 7) (qdec 58340149 7) (zq 6) (qdec (-138678278) 7) (qdec 4356917 6) (zq 6) (qdec (-101909319) 7) (qdec 78090681 7)]);
  (* find_supercells_basis_20_25_31.txt *)
  ([[(zq 1); (qdec 139898 5); (qdec 169779 5)]; [(zq 1); (qdec (-38834405) 7); (qdec (-4322505) 7)]; [(zq 1); (qdec 323446 5); (qdec 423446 5)]], 8, true, 1, [QMat (zq 1) (qdec 589133 5) (qdec 379116 5) (zq 1) (qdec (-110636325) 7) (qdec (-4729002) 6) (zq 1) (qdec 171723 4) (qdec 1393784 5);
     QMat (qdec 169779 5) (qdec 519354 5) (qdec 448895 5) (qdec (-4322505) 7) (qdec (-9631382) 6) (qdec (-61612525) 7) (qdec 423446 5) (qdec 1393784 5) (qdec 171723 4);
     QMat (qdec 239558 5) (qdec 449575 5) (qdec 518674 5) (qdec (-1864501) 6) (qdec (-81991315) 7) (qdec (-7593503) 6) (qdec 746892 5) (qdec 1070338 5) (qdec 2040676 5);
     QMat (qdec 309337 5) (qdec 379796 5) (qdec 588453 5) (qdec (-32967515) 7) (qdec (-6766881) 6) (qdec (-90257535) 7) (qdec 1070338 5) (qdec 746892 5) (qdec 2364122 5);
     QMat (zq 1) (qdec 449575 5) (qdec 379116 5) (zq 1) (qdec (-81991315) 7) (qdec (-4729002) 6) (zq 1) (qdec 1070338 5) (qdec 1393784 5);
     QMat (qdec 169779 5) (qdec 379796 5) (qdec 448895 5) (qdec (-4322505) 7) (qdec (-6766881) 6) (qdec (-61612525) 7) (qdec 423446 5) (qdec 746892 5) (qdec 171723 4);
     QMat (qdec 239558 5) (qdec 310017 5) (qdec 518674 5) (qdec (-1864501) 6) (qdec (-53346305) 7) (qdec (-7593503) 6) (qdec 746892 5) (qdec 423446 5) (qdec 2040676 5);
     QMat (qdec 309337 5) (qdec 240238 5) (qdec 588453 5) (qdec (-32967515) 7) (qdec (-390238) 5) (qdec (-90257535) 7) (qdec 1070338 5) (zq 1) (qdec 2364122 5);
     QMat (qdec (-34) 4) (qdec 549915 5) (qdec 278776 5) (qdec 10189395 7) (qdec (-8218071) 6) (qdec (-47100625) 7) (qdec 323446 5) (qdec 846892 5) (qdec 161723 4);
     QMat (qdec 69439 5) (qdec 480136 5) (qdec 348555 5) (qdec (-413311) 6) (qdec (-67858205) 7) (qdec (-6142313) 6) (qdec 646892 5) (qdec 523446 5) (qdec 1940676 5);
     QMat (qdec 139218 5) (qdec 410357 5) (qdec 418334 5) (qdec (-18455615) 7) (qdec (-535357) 5) (qdec (-75745635) 7) (qdec 970338 5) (zq 2) (qdec 2264122 5);
     QMat (qdec 208997 5) (qdec 340578 5) (qdec 488113 5) (qdec (-3277812) 6) (qdec (-39213195) 7) (qdec (-9006814) 6) (qdec 1293784 5) (qdec (-123446) 5) (qdec 2587568 5);
     QMat (zq 1) (qdec 580476 5) (qdec 239558 5) (zq 1) (qdec (-680476) 5) (qdec (-1864501) 6) (zq 1) (zq 3) (qdec 746892 5);
     QMat (qdec 169779 5) (qdec 510697 5) (qdec 309337 5) (qdec (-4322505) 7) (qdec (-53725095) 7) (qdec (-32967515) 7) (qdec 423446 5) (qdec (-23446) 5) (qdec 1070338 5);
     QMat (qdec (-10068) 4) (qdec 781156 5) (qdec 38878 5) (qdec 1037879 6) (qdec (-6842639) 6) (qdec (-1826622) 6) (qdec 546892 5) (qdec (-146892) 5) (qdec 1193784 5);
     QMat (qdec (-30901) 5) (qdec 711377 5) (qdec 108657 5) (qdec (-3943715) 7) (qdec (-54103885) 7) (qdec (-32588725) 7) (qdec 870338 5) (qdec (-470338) 5) (qdec 151723 4);
     QMat (zq 1) (qdec 510697 5) (qdec 239558 5) (zq 1) (qdec (-53725095) 7) (qdec (-1864501) 6) (zq 1) (qdec (-23446) 5) (qdec 746892 5);
     QMat (qdec 169779 5) (qdec 440918 5) (qdec 309337 5) (qdec (-4322505) 7) (qdec (-3940259) 6) (qdec (-32967515) 7) (qdec 423446 5) (qdec (-346892) 5) (qdec 1070338 5);
     QMat (zq 1) (qdec 842278 5) (qdec 169779 5) (zq 1) (qdec (-4016017) 6) (qdec (-4322505) 7) (zq 1) (qdec (-1240676) 5) (qdec 423446 5);
     QMat (qdec (-30136) 4) (qdec 1243638 5) (qdec (-231581) 5) (qdec 1075758 6) (qdec (-4091775) 6) (qdec (-3564925) 7) (qdec 993784 5) (qdec (-213446) 4) (qdec 131723 4);
     QMat (zq 2) (qdec 279796 5) (qdec 339558 5) (zq 2) (qdec (-7766881) 6) (qdec (-864501) 6) (zq 2) (qdec 646892 5) (qdec 846892 5);
     QMat (qdec 269779 5) (qdec 210017 5) (qdec 409337 5) (qdec 5677495 7) (qdec (-63346305) 7) (qdec (-22967515) 7) (qdec 523446 5) (qdec 323446 5) (qdec 1170338 5);
     QMat (zq 2) (qdec 210017 5) (qdec 339558 5) (zq 2) (qdec (-63346305) 7) (qdec (-864501) 6) (zq 2) (qdec 323446 5) (qdec 846892 5);
     QMat (qdec 269779 5) (qdec 140238 5) (qdec 409337 5) (qdec 5677495 7) (qdec (-490238) 5) (qdec (-22967515) 7) (qdec 523446 5) (zq 0) (qdec 1170338 5);
     QMat (qdec 9966 4) (qdec 310357 5) (qdec 239218 5) (qdec 20189395 7) (qdec (-635357) 5) (qdec (-8455615) 7) (qdec 423446 5) (zq 1) (qdec 1070338 5);
     QMat (qdec 169439 5) (qdec 240578 5) (qdec 308997 5) (qdec 586689 6) (qdec (-49213195) 7) (qdec (-2277812) 6) (qdec 746892 5) (qdec (-223446) 5) (qdec 1393784 5);
     QMat (zq 2) (qdec 340918 5) (qdec 269779 5) (zq 2) (qdec (-4940259) 6) (qdec 5677495 7) (zq 2) (qdec (-446892) 5) (qdec 523446 5);
     QMat (qdec (-68) 4) (qdec 541598 5) (qdec 69099 5) (qdec 2037879 6) (qdec (-4978138) 6) (qdec 6056285 7) (qdec 646892 5) (qdec (-893784) 5) (qdec 970338 5);
     QMat (zq 4) (qdec (-59762) 5) (qdec 469779 5) (zq 4) (qdec (-690238) 5) (qdec 25677495 7) (zq 4) (zq (-2)) (qdec 723446 5);
     QMat (qdec 29966 4) (qdec 40578 5) (qdec 369439 5) (qdec 40189395 7) (qdec (-69213195) 7) (qdec 2586689 6) (qdec 623446 5) (qdec (-423446) 5) (qdec 946892 5);
     QMat (zq 8) (qdec (-560102) 5) (qdec 869779 5) (zq 8) (qdec (-108834405) 7) (qdec 65677495 7) (zq 8) (qdec (-376554) 5) (qdec 1123446 5)]);
  (* find_supercells_basis_28_31.txt *)
  ([[(qdec (-144896) 5); (qdec 791384 6); (qdec (-1106536) 6)]; [(qdec 948958 6); (qdec (-3291382) 6); (qdec (-393466) 6)]; [(zq (-1)); (qdec (-102006) 5); (qdec (-302006) 5)]], 8, true, 1, [QMat (qdec (-144896) 5) (qdec 3188352 6) (qdec 1290432 6) (qdec 948958 6) (qdec (-1268835) 5) (qdec (-9790434) 6) (zq (-1)) (qdec (-1516048) 5) (qdec (-1716048) 5);
     QMat (qdec (-79264) 6) (qdec 1818656 6) (qdec 2660128 6) (qdec (-4420738) 6) (qdec (-7318654) 6) (qdec (-1516013) 5) (qdec (-908024) 5) (qdec (-708024) 5) (qdec (-2524072) 5);
     QMat (qdec (-144896) 5) (qdec 38732 4) (qdec 1290432 6) (qdec 948958 6) (qdec (-15373198) 6) (qdec (-9790434) 6) (zq (-1)) (qdec (-192006) 4) (qdec (-1716048) 5);
     QMat (qdec (-764112) 6) (qdec 3188352 6) (qdec 197528 5) (qdec (-173589) 5) (qdec (-1268835) 5) (qdec (-12475282) 6) (qdec (-504012) 5) (qdec (-1516048) 5) (qdec (-212006) 4);
     QMat (qdec (-79264) 6) (qdec 2503504 6) (qdec 2660128 6) (qdec (-4420738) 6) (qdec (-10003502) 6) (qdec (-1516013) 5) (qdec (-908024) 5) (qdec (-1112036) 5) (qdec (-2524072) 5);
     QMat (qdec 605584 6) (qdec 1818656 6) (qdec 3344976 6) (qdec (-7105586) 6) (qdec (-7318654) 6) (qdec (-17844978) 6) (qdec (-1312036) 5) (qdec (-708024) 5) (qdec (-2928084) 5);
     QMat (qdec (-144896) 5) (qdec 4558048 6) (qdec 1290432 6) (qdec 948958 6) (qdec (-18058046) 6) (qdec (-9790434) 6) (zq (-1)) (qdec (-2324072) 5) (qdec (-1716048) 5);
     QMat (qdec (-79264) 6) (qdec 3188352 6) (qdec 2660128 6) (qdec (-4420738) 6) (qdec (-1268835) 5) (qdec (-1516013) 5) (qdec (-908024) 5) (qdec (-1516048) 5) (qdec (-2524072) 5);
     QMat (qdec (-144896) 5) (qdec 5242896 6) (qdec 1290432 6) (qdec 948958 6) (qdec (-20742894) 6) (qdec (-9790434) 6) (zq (-1)) (qdec (-2728084) 5) (qdec (-1716048) 5);
     QMat (qdec (-1106536) 6) (qdec 4900472 6) (qdec 1632856 6) (qdec (-393466) 6) (qdec (-1940047) 5) (qdec (-11132858) 6) (qdec (-302006) 5) (qdec (-2526078) 5) (qdec (-1918054) 5);
     QMat (qdec (-764112) 6) (qdec 4558048 6) (qdec 197528 5) (qdec (-173589) 5) (qdec (-18058046) 6) (qdec (-12475282) 6) (qdec (-504012) 5) (qdec (-2324072) 5) (qdec (-212006) 4);
     QMat (qdec (-421688) 6) (qdec 4215624 6) (qdec 2317704 6) (qdec (-3078314) 6) (qdec (-16715622) 6) (qdec (-13817706) 6) (qdec (-706018) 5) (qdec (-2122066) 5) (qdec (-2322066) 5);
     QMat (qdec (-79264) 6) (qdec 38732 4) (qdec 2660128 6) (qdec (-4420738) 6) (qdec (-15373198) 6) (qdec (-1516013) 5) (qdec (-908024) 5) (qdec (-192006) 4) (qdec (-2524072) 5);
     QMat (qdec 26316 5) (qdec 3530776 6) (qdec 3002552 6) (qdec (-5763162) 6) (qdec (-14030774) 6) (qdec (-16502554) 6) (qdec (-111003) 4) (qdec (-1718054) 5) (qdec (-2726078) 5);
     QMat (qdec 605584 6) (qdec 3188352 6) (qdec 3344976 6) (qdec (-7105586) 6) (qdec (-1268835) 5) (qdec (-17844978) 6) (qdec (-1312036) 5) (qdec (-1516048) 5) (qdec (-2928084) 5);
     QMat (qdec 948008 6) (qdec 2845928 6) (qdec 36874 4) (qdec (-844801) 5) (qdec (-11345926) 6) (qdec (-19187402) 6) (qdec (-1514042) 5) (qdec (-1314042) 5) (qdec (-313009) 4);
     QMat (qdec (-144896) 5) (qdec 818656 6) (qdec (-79264) 6) (qdec 948958 6) (qdec (-8318654) 6) (qdec (-4420738) 6) (zq (-1)) (qdec (-708024) 5) (qdec (-908024) 5);
     QMat (qdec (-244896) 5) (qdec 1818656 6) (qdec (-1079264) 6) (qdec (-51042) 6) (qdec (-7318654) 6) (qdec (-5420738) 6) (zq (-1)) (qdec (-708024) 5) (qdec (-908024) 5);
     QMat (qdec (-764112) 6) (qdec 133808 6) (qdec 605584 6) (qdec (-173589) 5) (qdec (-5633806) 6) (qdec (-7105586) 6) (qdec (-504012) 5) (qdec (-304012) 5) (qdec (-1312036) 5);
     QMat (qdec (-1764112) 6) (qdec 1133808 6) (qdec (-394416) 6) (qdec (-273589) 5) (qdec (-4633806) 6) (qdec (-8105586) 6) (qdec (-504012) 5) (qdec (-304012) 5) (qdec (-1312036) 5);
     QMat (qdec (-289792) 5) (qdec 3267616 6) (qdec (-1528224) 6) (qdec 1897916 6) (qdec (-8267612) 6) (qdec (-347178) 5) (zq (-2)) (qdec (-608024) 5) (qdec (-1008024) 5);
     QMat (qdec (-2213072) 6) (qdec 2582768 6) (qdec (-843376) 6) (qdec (-786932) 6) (qdec (-5582764) 6) (qdec (-6156628) 6) (qdec (-604012) 5) (qdec (-204012) 5) (qdec (-1412036) 5);
     QMat (qdec (-289792) 5) (qdec 3952464 6) (qdec (-1528224) 6) (qdec 1897916 6) (qdec (-1095246) 5) (qdec (-347178) 5) (zq (-2)) (qdec (-1012036) 5) (qdec (-1008024) 5);
     QMat (qdec (-2555496) 6) (qdec 361004 5) (qdec (-11858) 4) (qdec 555492 6) (qdec (-9610036) 6) (qdec (-4814204) 6) (qdec (-402006) 5) (qdec (-81003) 4) (qdec (-121003) 4);
     QMat (qdec (-2213072) 6) (qdec 3267616 6) (qdec (-843376) 6) (qdec (-786932) 6) (qdec (-8267612) 6) (qdec (-6156628) 6) (qdec (-604012) 5) (qdec (-608024) 5) (qdec (-1412036) 5);
     QMat (qdec (-1870648) 6) (qdec 2925192 6) (qdec (-500952) 6) (qdec (-2129356) 6) (qdec (-6925188) 6) (qdec (-7499052) 6) (qdec (-806018) 5) (qdec (-406018) 5) (qdec (-1614042) 5);
     QMat (qdec (-289792) 5) (qdec 1582768 6) (qdec (-2213072) 6) (qdec 1897916 6) (qdec (-6582764) 6) (qdec (-786932) 6) (zq (-2)) (qdec (-204012) 5) (qdec (-604012) 5);
     QMat (qdec (-389792) 5) (qdec 2582768 6) (qdec (-3213072) 6) (qdec 897916 6) (qdec (-5582764) 6) (qdec (-1786932) 6) (zq (-2)) (qdec (-204012) 5) (qdec (-604012) 5);
     QMat (qdec (-579584) 5) (qdec 5480688 6) (qdec (-5110992) 6) (qdec 3795832 6) (qdec (-748068) 5) (qdec 1110984 6) (zq (-4)) (qdec (-4012) 5) (qdec (-804012) 5);
     QMat (qdec (-5453416) 6) (qdec 5138264 6) (qdec (-4768568) 6) (qdec 2453408 6) (qdec (-6138256) 6) (qdec (-23144) 5) (qdec (-602006) 5) (qdec 197994 5) (qdec (-1006018) 5);
     QMat (qdec (-1159168) 5) (qdec 10934104 6) (qdec (-11249256) 6) (qdec 7591664 6) (qdec (-9934088) 6) (qdec 624924 5) (zq (-8)) (qdec 597994 5) (qdec (-1002006) 5)]);
  (* find_supercells_basis_29_30_31.txt *)
  ([[(qdec (-666125) 6); (qdec 3284155 6); (qdec 951905 6)]; [(qdec 116613 5); (qdec (-784164) 6); (qdec 548096 6)]; [(qdec 204852 5); (qdec (-104852) 5); (qdec 304852 5)]], 8, true, 1, [QMat (qdec (-666125) 6) (qdec 14610365 6) (qdec 12278115 6) (qdec 116613 5) (qdec (-5110402) 6) (qdec (-3778142) 6) (qdec 204852 5) (qdec 595148 5) (qdec 1004852 5);
     QMat (qdec 5805995 6) (qdec 8138245 6) (qdec 18750235 6) (qdec (-1306006) 6) (qdec (-2638266) 6) (qdec (-6250278) 6) (qdec 604852 5) (qdec 195148 5) (qdec 1404852 5);
     QMat (qdec (-666125) 6) (qdec 17846425 6) (qdec 12278115 6) (qdec 116613 5) (qdec (-634647) 5) (qdec (-3778142) 6) (qdec 204852 5) (qdec 795148 5) (qdec 1004852 5);
     QMat (qdec 2569935 6) (qdec 14610365 6) (qdec 15514175 6) (qdec (-69938) 6) (qdec (-5110402) 6) (qdec (-501421) 5) (qdec 404852 5) (qdec 595148 5) (qdec 1204852 5);
     QMat (qdec 5805995 6) (qdec 11374305 6) (qdec 18750235 6) (qdec (-1306006) 6) (qdec (-3874334) 6) (qdec (-6250278) 6) (qdec 604852 5) (qdec 395148 5) (qdec 1404852 5);
     QMat (qdec 9042055 6) (qdec 8138245 6) (qdec 21986295 6) (qdec (-2542074) 6) (qdec (-2638266) 6) (qdec (-7486346) 6) (qdec 804852 5) (qdec 195148 5) (qdec 1604852 5);
     QMat (qdec (-666125) 6) (qdec 21082485 6) (qdec 12278115 6) (qdec 116613 5) (qdec (-7582538) 6) (qdec (-3778142) 6) (qdec 204852 5) (qdec 995148 5) (qdec 1004852 5);
     QMat (qdec 5805995 6) (qdec 14610365 6) (qdec 18750235 6) (qdec (-1306006) 6) (qdec (-5110402) 6) (qdec (-6250278) 6) (qdec 604852 5) (qdec 595148 5) (qdec 1404852 5);
     QMat (qdec (-666125) 6) (qdec 24318545 6) (qdec 12278115 6) (qdec 116613 5) (qdec (-8818606) 6) (qdec (-3778142) 6) (qdec 204852 5) (qdec 1195148 5) (qdec 1004852 5);
     QMat (qdec 951905 6) (qdec 22700515 6) (qdec 13896145 6) (qdec 548096 6) (qdec (-8200572) 6) (qdec (-4396176) 6) (qdec 304852 5) (qdec 1095148 5) (qdec 1104852 5);
     QMat (qdec 2569935 6) (qdec 21082485 6) (qdec 15514175 6) (qdec (-69938) 6) (qdec (-7582538) 6) (qdec (-501421) 5) (qdec 404852 5) (qdec 995148 5) (qdec 1204852 5);
     QMat (qdec 4187965 6) (qdec 19464455 6) (qdec 17132205 6) (qdec (-687972) 6) (qdec (-6964504) 6) (qdec (-5632244) 6) (qdec 504852 5) (qdec 895148 5) (qdec 1304852 5);
     QMat (qdec 5805995 6) (qdec 17846425 6) (qdec 18750235 6) (qdec (-1306006) 6) (qdec (-634647) 5) (qdec (-6250278) 6) (qdec 604852 5) (qdec 795148 5) (qdec 1404852 5);
     QMat (qdec 7424025 6) (qdec 16228395 6) (qdec 20368265 6) (qdec (-192404) 5) (qdec (-5728436) 6) (qdec (-6868312) 6) (qdec 704852 5) (qdec 695148 5) (qdec 1504852 5);
     QMat (qdec 9042055 6) (qdec 14610365 6) (qdec 21986295 6) (qdec (-2542074) 6) (qdec (-5110402) 6) (qdec (-7486346) 6) (qdec 804852 5) (qdec 595148 5) (qdec 1604852 5);
     QMat (qdec 10660085 6) (qdec 12992335 6) (qdec 23604325 6) (qdec (-3160108) 6) (qdec (-4492368) 6) (qdec (-810438) 5) (qdec 904852 5) (qdec 495148 5) (qdec 1704852 5);
     QMat (qdec (-666125) 6) (qdec 9138245 6) (qdec 5805995 6) (qdec 116613 5) (qdec (-1638266) 6) (qdec (-1306006) 6) (qdec 204852 5) (qdec 195148 5) (qdec 604852 5);
     QMat (qdec 333875 6) (qdec 8138245 6) (qdec 6805995 6) (qdec 216613 5) (qdec (-2638266) 6) (qdec (-306006) 6) (qdec 204852 5) (qdec 195148 5) (qdec 604852 5);
     QMat (qdec 2569935 6) (qdec 5902185 6) (qdec 9042055 6) (qdec (-69938) 6) (qdec (-402198) 6) (qdec (-2542074) 6) (qdec 404852 5) (qdec (-4852) 5) (qdec 804852 5);
     QMat (qdec 3569935 6) (qdec 4902185 6) (qdec 10042055 6) (qdec 930062 6) (qdec (-1402198) 6) (qdec (-1542074) 6) (qdec 404852 5) (qdec (-4852) 5) (qdec 804852 5);
     QMat (qdec (-133225) 5) (qdec 880437 5) (qdec 513987 5) (qdec 233226 5) (qdec (-3804396) 6) (qdec (-139876) 6) (qdec 409704 5) (qdec (-9704) 5) (qdec 809704 5);
     QMat (qdec 190381 5) (qdec 556831 5) (qdec 837593 5) (qdec 1096192 6) (qdec (-2568328) 6) (qdec (-1375944) 6) (qdec 609704 5) (qdec (-209704) 5) (qdec 1009704 5);
     QMat (qdec (-133225) 5) (qdec 1204043 5) (qdec 513987 5) (qdec 233226 5) (qdec (-5040464) 6) (qdec (-139876) 6) (qdec 409704 5) (qdec 190296 5) (qdec 809704 5);
     QMat (qdec 28578 5) (qdec 104224 4) (qdec 67579 4) (qdec 1714226 6) (qdec (-442243) 5) (qdec (-75791) 5) (qdec 509704 5) (qdec 90296 5) (qdec 909704 5);
     QMat (qdec 190381 5) (qdec 880437 5) (qdec 837593 5) (qdec 1096192 6) (qdec (-3804396) 6) (qdec (-1375944) 6) (qdec 609704 5) (qdec (-9704) 5) (qdec 1009704 5);
     QMat (qdec 352184 5) (qdec 718634 5) (qdec 999396 5) (qdec 478158 6) (qdec (-3186362) 6) (qdec (-1993978) 6) (qdec 709704 5) (qdec (-109704) 5) (qdec 1109704 5);
     QMat (qdec (-133225) 5) (qdec 656831 5) (qdec 190381 5) (qdec 233226 5) (qdec (-1568328) 6) (qdec 1096192 6) (qdec 409704 5) (qdec (-209704) 5) (qdec 609704 5);
     QMat (qdec (-33225) 5) (qdec 556831 5) (qdec 290381 5) (qdec 333226 5) (qdec (-2568328) 6) (qdec 2096192 6) (qdec 409704 5) (qdec (-209704) 5) (qdec 609704 5);
     QMat (qdec (-26645) 4) (qdec 690056 5) (qdec 57156 5) (qdec 466452 5) (qdec (-4900588) 6) (qdec 3428452 6) (qdec 819408 5) (qdec (-619408) 5) (qdec 1019408 5);
     QMat (qdec (-104647) 5) (qdec 528253 5) (qdec 218959 5) (qdec 4046486 6) (qdec (-4282554) 6) (qdec 2810418 6) (qdec 919408 5) (qdec (-719408) 5) (qdec 1119408 5);
     QMat (qdec (-5329) 3) (qdec 794703 5) (qdec (-371097) 5) (qdec 932904 5) (qdec (-8947074) 6) (qdec 8711006 6) (qdec 1638816 5) (qdec (-1538816) 5) (qdec 1738816 5)]);
  (* find_supercells_basis_37_39_41_31.txt *)
  ([[(qdec (-179092) 5); (zq 1); (zq 1)]; [(qdec (-147209) 5); (qdec (-141421) 5); (zq 0)]; [(qdec 790922 6); (zq (-1)); (zq 1)]], 8, true, 1, [QMat (qdec (-179092) 5) (zq 8) (zq 1) (qdec (-147209) 5) (qdec (-1131368) 5) (zq 0) (qdec 790922 6) (zq (-8)) (zq 1);
     QMat (qdec (-79092) 5) (zq 8) (zq 1) (qdec (-28863) 4) (qdec (-1131368) 5) (zq 0) (qdec (-209078) 6) (zq (-8)) (zq 1);
     QMat (qdec 20908 5) (zq 8) (zq 1) (qdec (-430051) 5) (qdec (-1131368) 5) (zq 0) (qdec (-1209078) 6) (zq (-8)) (zq 1);
     QMat (qdec 120908 5) (zq 8) (zq 1) (qdec (-571472) 5) (qdec (-1131368) 5) (zq 0) (qdec (-2209078) 6) (zq (-8)) (zq 1);
     QMat (qdec 220908 5) (zq 8) (zq 1) (qdec (-712893) 5) (qdec (-1131368) 5) (zq 0) (qdec (-3209078) 6) (zq (-8)) (zq 1);
     QMat (qdec 320908 5) (zq 8) (zq 1) (qdec (-854314) 5) (qdec (-1131368) 5) (zq 0) (qdec (-4209078) 6) (zq (-8)) (zq 1);
     QMat (qdec 420908 5) (zq 8) (zq 1) (qdec (-995735) 5) (qdec (-1131368) 5) (zq 0) (qdec (-5209078) 6) (zq (-8)) (zq 1);
     QMat (qdec 520908 5) (zq 8) (zq 1) (qdec (-1137156) 5) (qdec (-1131368) 5) (zq 0) (qdec (-6209078) 6) (zq (-8)) (zq 1);
     QMat (qdec (-258184) 5) (zq 1) (zq 4) (qdec (-294418) 5) (qdec (-141421) 5) (zq 0) (qdec 2581844 6) (zq (-1)) (zq 4);
     QMat (qdec (-58184) 5) (zq 1) (zq 4) (qdec (-294418) 5) (qdec (-141421) 5) (zq 0) (qdec 4581844 6) (zq (-1)) (zq 4);
     QMat (qdec (-258184) 5) (zq 3) (zq 4) (qdec (-294418) 5) (qdec (-141421) 5) (zq 0) (qdec 2581844 6) (zq 1) (zq 4);
     QMat (qdec (-58184) 5) (zq 3) (zq 4) (qdec (-294418) 5) (qdec (-141421) 5) (zq 0) (qdec 4581844 6) (zq 1) (zq 4);
     QMat (qdec (-358184) 5) (zq 2) (zq 2) (qdec (-294418) 5) (qdec (-282842) 5) (zq 0) (qdec 1581844 6) (zq (-2)) (zq 2);
     QMat (qdec (-258184) 5) (zq 2) (zq 2) (qdec (-435839) 5) (qdec (-282842) 5) (zq 0) (qdec 581844 6) (zq (-2)) (zq 2);
     QMat (qdec (-258184) 5) (zq 2) (zq 2) (qdec (-294418) 5) (qdec (-282842) 5) (zq 0) (qdec 2581844 6) (zq (-2)) (zq 2);
     QMat (qdec (-158184) 5) (zq 2) (zq 2) (qdec (-435839) 5) (qdec (-282842) 5) (zq 0) (qdec 1581844 6) (zq (-2)) (zq 2);
     QMat (qdec (-358184) 5) (zq 3) (zq 2) (qdec (-294418) 5) (qdec (-282842) 5) (zq 0) (qdec 1581844 6) (zq (-1)) (zq 2);
     QMat (qdec (-258184) 5) (zq 3) (zq 2) (qdec (-435839) 5) (qdec (-282842) 5) (zq 0) (qdec 581844 6) (zq (-1)) (zq 2);
     QMat (qdec (-258184) 5) (zq 3) (zq 2) (qdec (-294418) 5) (qdec (-282842) 5) (zq 0) (qdec 2581844 6) (zq (-1)) (zq 2);
     QMat (qdec (-158184) 5) (zq 3) (zq 2) (qdec (-435839) 5) (qdec (-282842) 5) (zq 0) (qdec 1581844 6) (zq (-1)) (zq 2);
     QMat (qdec (-358184) 5) (zq 4) (zq 1) (qdec (-294418) 5) (qdec (-565684) 5) (zq 0) (qdec 1581844 6) (zq (-4)) (zq 1);
     QMat (qdec (-258184) 5) (zq 4) (zq 1) (qdec (-435839) 5) (qdec (-565684) 5) (zq 0) (qdec 581844 6) (zq (-4)) (zq 1);
     QMat (qdec (-158184) 5) (zq 4) (zq 1) (qdec (-57726) 4) (qdec (-565684) 5) (zq 0) (qdec (-418156) 6) (zq (-4)) (zq 1);
     QMat (qdec (-58184) 5) (zq 4) (zq 1) (qdec (-718681) 5) (qdec (-565684) 5) (zq 0) (qdec (-1418156) 6) (zq (-4)) (zq 1);
     QMat (qdec (-716368) 5) (zq 1) (zq 2) (qdec (-588836) 5) (qdec (-141421) 5) (zq 0) (qdec 3163688 6) (zq (-1)) (zq 2);
     QMat (qdec (-616368) 5) (zq 1) (zq 2) (qdec (-588836) 5) (qdec (-141421) 5) (zq 0) (qdec 4163688 6) (zq (-1)) (zq 2);
     QMat (qdec (-716368) 5) (zq 2) (zq 2) (qdec (-588836) 5) (qdec (-141421) 5) (zq 0) (qdec 3163688 6) (zq 0) (zq 2);
     QMat (qdec (-616368) 5) (zq 2) (zq 2) (qdec (-588836) 5) (qdec (-141421) 5) (zq 0) (qdec 4163688 6) (zq 0) (zq 2);
     QMat (qdec (-716368) 5) (zq 2) (zq 1) (qdec (-588836) 5) (qdec (-282842) 5) (zq 0) (qdec 3163688 6) (zq (-2)) (zq 1);
     QMat (qdec (-616368) 5) (zq 2) (zq 1) (qdec (-730257) 5) (qdec (-282842) 5) (zq 0) (qdec 2163688 6) (zq (-2)) (zq 1);
     QMat (qdec (-1432736) 5) (zq 1) (zq 1) (qdec (-1177672) 5) (qdec (-141421) 5) (zq 0) (qdec 6327376 6) (zq (-1)) (zq 1)]);
  (* find_supercells_basis_43_41.txt *)
  ([[(qdec (-39716) 5); (qdec 164194 5); (qdec (-179432) 5)]; [(qdec (-34718) 5); (qdec (-114194) 5); (qdec (-169436) 5)]; [(qdec 249434 5); (zq (-1)); (qdec 398868 5)]], 1, false, 0, [QMat (qdec (-39716) 5) (qdec 24478 5) (qdec (-319148) 5) (qdec (-34718) 5) (qdec (-248912) 5) (qdec (-304154) 5) (qdec 249434 5) (qdec 49434 5) (qdec 548302 5);
     QMat (qdec (-179432) 5) (qdec 164194 5) (qdec (-458864) 5) (qdec (-169436) 5) (qdec (-114194) 5) (qdec (-438872) 5) (qdec 398868 5) (zq (-1)) (qdec 697736 5);
     QMat (qdec (-79432) 5) (qdec 20391 4) (qdec (-219148) 5) (qdec (-69436) 5) (qdec (-79476) 5) (qdec (-204154) 5) (qdec 498868 5) (qdec (-349434) 5) (qdec 648302 5);
     QMat (qdec (-319148) 5) (qdec 164194 5) (qdec (-738296) 5) (qdec (-304154) 5) (qdec (-114194) 5) (qdec (-708308) 5) (qdec 548302 5) (zq (-1)) (qdec 996604 5);
     QMat (qdec (-39716) 5) (qdec (-39467) 4) (qdec (-458864) 5) (qdec (-34718) 5) (qdec (-653066) 5) (qdec (-438872) 5) (qdec 249434 5) (qdec 497736 5) (qdec 697736 5);
     QMat (qdec (-179432) 5) (qdec (-254954) 5) (qdec (-59858) 4) (qdec (-169436) 5) (qdec (-518348) 5) (qdec (-57359) 4) (qdec 398868 5) (qdec 348302 5) (qdec 84717 4);
     QMat (qdec (-319148) 5) (qdec (-115238) 5) (qdec (-738296) 5) (qdec (-304154) 5) (qdec (-38363) 4) (qdec (-708308) 5) (qdec 548302 5) (qdec 198868 5) (qdec 996604 5);
     QMat (qdec (-119148) 5) (qdec 243626 5) (qdec (-258864) 5) (qdec (-104154) 5) (qdec (-44758) 5) (qdec (-238872) 5) (qdec 748302 5) (qdec (-598868) 5) (qdec 897736 5);
     QMat (qdec (-179432) 5) (qdec (-115238) 5) (qdec (-738296) 5) (qdec (-169436) 5) (qdec (-38363) 4) (qdec (-708308) 5) (qdec 398868 5) (qdec 198868 5) (qdec 996604 5);
     QMat (qdec (-458864) 5) (qdec 164194 5) (qdec (-1017728) 5) (qdec (-438872) 5) (qdec (-114194) 5) (qdec (-977744) 5) (qdec 697736 5) (zq (-1)) (qdec 1295472 5);
     QMat (qdec (-39716) 5) (qdec (-534386) 5) (qdec (-59858) 4) (qdec (-34718) 5) (qdec (-787784) 5) (qdec (-57359) 4) (qdec 249434 5) (qdec 64717 4) (qdec 84717 4);
     QMat (qdec (-179432) 5) (qdec (-39467) 4) (qdec (-738296) 5) (qdec (-169436) 5) (qdec (-653066) 5) (qdec (-708308) 5) (qdec 398868 5) (qdec 497736 5) (qdec 996604 5);
     QMat (qdec (-319148) 5) (qdec (-254954) 5) (qdec (-878012) 5) (qdec (-304154) 5) (qdec (-518348) 5) (qdec (-843026) 5) (qdec 548302 5) (qdec 348302 5) (qdec 1146038 5);
     QMat (qdec (-458864) 5) (qdec (-115238) 5) (qdec (-1017728) 5) (qdec (-438872) 5) (qdec (-38363) 4) (qdec (-977744) 5) (qdec 697736 5) (qdec 198868 5) (qdec 1295472 5);
     QMat (qdec (-179432) 5) (qdec 428388 5) (qdec (-458864) 5) (qdec (-169436) 5) (qdec (-128388) 5) (qdec (-438872) 5) (qdec 398868 5) (zq (-1)) (qdec 697736 5);
     QMat (qdec 84762 5) (qdec 164194 5) (qdec (-19467) 4) (qdec (-18363) 4) (qdec (-114194) 5) (qdec (-453066) 5) (qdec 398868 5) (zq (-1)) (qdec 697736 5);
     QMat (qdec (-79432) 5) (qdec 64194 5) (qdec (-358864) 5) (qdec (-69436) 5) (qdec (-214194) 5) (qdec (-338872) 5) (qdec 498868 5) (zq (-2)) (qdec 797736 5);
     QMat (qdec (-219148) 5) (qdec 20391 4) (qdec (-49858) 4) (qdec (-204154) 5) (qdec (-79476) 5) (qdec (-47359) 4) (qdec 648302 5) (qdec (-349434) 5) (qdec 94717 4);
     QMat (qdec (-158864) 5) (qdec 283342 5) (qdec (-29858) 4) (qdec (-138872) 5) (qdec (-1004) 4) (qdec (-27359) 4) (qdec 997736 5) (qdec (-848302) 5) (qdec 114717 4);
     QMat (qdec (-59858) 4) (qdec 164194 5) (qdec (-129716) 4) (qdec (-57359) 4) (qdec (-114194) 5) (qdec (-124718) 4) (qdec 84717 4) (zq (-1)) (qdec 159434 4);
     QMat (qdec (-39716) 5) (qdec (-674102) 5) (qdec (-738296) 5) (qdec (-34718) 5) (qdec (-922502) 5) (qdec (-708308) 5) (qdec 249434 5) (qdec 796604 5) (qdec 996604 5);
     QMat (qdec (-179432) 5) (qdec (-534386) 5) (qdec (-878012) 5) (qdec (-169436) 5) (qdec (-787784) 5) (qdec (-843026) 5) (qdec 398868 5) (qdec 64717 4) (qdec 1146038 5);
     QMat (qdec (-319148) 5) (qdec (-39467) 4) (qdec (-1017728) 5) (qdec (-304154) 5) (qdec (-653066) 5) (qdec (-977744) 5) (qdec 548302 5) (qdec 497736 5) (qdec 1295472 5);
     QMat (qdec (-458864) 5) (qdec (-254954) 5) (qdec (-1157444) 5) (qdec (-438872) 5) (qdec (-518348) 5) (qdec (-1112462) 5) (qdec 697736 5) (qdec 348302 5) (qdec 1444906 5);
     QMat (qdec (-59858) 4) (qdec (-115238) 5) (qdec (-129716) 4) (qdec (-57359) 4) (qdec (-38363) 4) (qdec (-124718) 4) (qdec 84717 4) (qdec 198868 5) (qdec 159434 4);
     QMat (qdec (-19858) 4) (qdec 323058 5) (qdec (-338296) 5) (qdec (-17359) 4) (qdec 24678 5) (qdec (-308308) 5) (qdec 124717 4) (qdec (-1097736) 5) (qdec 1396604 5);
     QMat (qdec (-319148) 5) (qdec (-254954) 5) (qdec (-1157444) 5) (qdec (-304154) 5) (qdec (-518348) 5) (qdec (-1112462) 5) (qdec 548302 5) (qdec 348302 5) (qdec 1444906 5);
     QMat (qdec (-738296) 5) (qdec 164194 5) (qdec (-1576592) 5) (qdec (-708308) 5) (qdec (-114194) 5) (qdec (-1516616) 5) (qdec 996604 5) (zq (-1)) (qdec 1893208 5);
     QMat (qdec (-39716) 5) (qdec (-813818) 5) (qdec (-878012) 5) (qdec (-34718) 5) (qdec (-105722) 4) (qdec (-843026) 5) (qdec 249434 5) (qdec 946038 5) (qdec 1146038 5);
     QMat (qdec (-179432) 5) (qdec (-674102) 5) (qdec (-1017728) 5) (qdec (-169436) 5) (qdec (-922502) 5) (qdec (-977744) 5) (qdec 398868 5) (qdec 796604 5) (qdec 1295472 5);
     QMat (qdec (-319148) 5) (qdec (-534386) 5) (qdec (-1157444) 5) (qdec (-304154) 5) (qdec (-787784) 5) (qdec (-1112462) 5) (qdec 548302 5) (qdec 64717 4) (qdec 1444906 5);
     QMat (qdec (-458864) 5) (qdec (-39467) 4) (qdec (-129716) 4) (qdec (-438872) 5) (qdec (-653066) 5) (qdec (-124718) 4) (qdec 697736 5) (qdec 497736 5) (qdec 159434 4);
     QMat (qdec (-59858) 4) (qdec (-254954) 5) (qdec (-1436876) 5) (qdec (-57359) 4) (qdec (-518348) 5) (qdec (-1381898) 5) (qdec 84717 4) (qdec 348302 5) (qdec 1743774 5);
     QMat (qdec (-738296) 5) (qdec (-115238) 5) (qdec (-1576592) 5) (qdec (-708308) 5) (qdec (-38363) 4) (qdec (-1516616) 5) (qdec 996604 5) (qdec 198868 5) (qdec 1893208 5);
     QMat (qdec (-219148) 5) (qdec 64194 5) (qdec (-638296) 5) (qdec (-204154) 5) (qdec (-214194) 5) (qdec (-608308) 5) (qdec 648302 5) (zq (-2)) (qdec 1096604 5);
     QMat (qdec (-79432) 5) (qdec (-354954) 5) (qdec (-49858) 4) (qdec (-69436) 5) (qdec (-618348) 5) (qdec (-47359) 4) (qdec 498868 5) (qdec 248302 5) (qdec 94717 4);
     QMat (qdec (-219148) 5) (qdec (-215238) 5) (qdec (-638296) 5) (qdec (-204154) 5) (qdec (-48363) 4) (qdec (-608308) 5) (qdec 648302 5) (qdec 98868 5) (qdec 1096604 5);
     QMat (qdec (-358864) 5) (qdec (-75522) 5) (qdec (-778012) 5) (qdec (-338872) 5) (qdec (-348912) 5) (qdec (-743026) 5) (qdec 797736 5) (qdec (-50566) 5) (qdec 1246038 5);
     QMat (qdec (-119148) 5) (qdec 10391 4) (qdec (-39858) 4) (qdec (-104154) 5) (qdec (-179476) 5) (qdec (-37359) 4) (qdec 748302 5) (qdec (-449434) 5) (qdec 104717 4);
     QMat (qdec (-258864) 5) (qdec 243626 5) (qdec (-538296) 5) (qdec (-238872) 5) (qdec (-44758) 5) (qdec (-508308) 5) (qdec 897736 5) (qdec (-598868) 5) (qdec 1196604 5);
     QMat (qdec (-238296) 5) (qdec 362774 5) (qdec (-378012) 5) (qdec (-208308) 5) (qdec 59396 5) (qdec (-343026) 5) (qdec 1496604 5) (qdec (-134717) 4) (qdec 1646038 5)]);
  (* find_supercells_basis_44_31.txt *)
  ([[(qdec 224478 5); (qdec 348956 5); (qdec (-179432) 5)]; [(qdec (-48912) 5); (qdec (-197824) 5); (qdec (-169436) 5)]; [(qdec 249434 5); (qdec 398868 5); (qdec 398868 5)]], 5, false, 0, [QMat (qdec 224478 5) (qdec 348956 5) (qdec (-89716) 4) (qdec (-48912) 5) (qdec (-197824) 5) (qdec (-84718) 4) (qdec 249434 5) (qdec 398868 5) (qdec 199434 4);
     QMat (qdec 224478 5) (qdec 169524 5) (qdec (-89716) 4) (qdec (-48912) 5) (qdec (-36726) 4) (qdec (-84718) 4) (qdec 249434 5) (qdec 797736 5) (qdec 199434 4);
     QMat (qdec 224478 5) (qdec (-9908) 5) (qdec (-89716) 4) (qdec (-48912) 5) (qdec (-536696) 5) (qdec (-84718) 4) (qdec 249434 5) (qdec 1196604 5) (qdec 199434 4);
     QMat (qdec 224478 5) (qdec (-18934) 4) (qdec (-89716) 4) (qdec (-48912) 5) (qdec (-706132) 5) (qdec (-84718) 4) (qdec 249434 5) (qdec 1595472 5) (qdec 199434 4);
     QMat (qdec 224478 5) (qdec (-368772) 5) (qdec (-89716) 4) (qdec (-48912) 5) (qdec (-875568) 5) (qdec (-84718) 4) (qdec 249434 5) (qdec 199434 4) (qdec 199434 4);
     QMat (qdec 45046 5) (qdec 348956 5) (qdec (-89716) 4) (qdec (-218348) 5) (qdec (-197824) 5) (qdec (-84718) 4) (qdec 648302 5) (qdec 398868 5) (qdec 199434 4);
     QMat (qdec 45046 5) (qdec 169524 5) (qdec (-89716) 4) (qdec (-218348) 5) (qdec (-36726) 4) (qdec (-84718) 4) (qdec 648302 5) (qdec 797736 5) (qdec 199434 4);
     QMat (qdec 45046 5) (qdec (-9908) 5) (qdec (-89716) 4) (qdec (-218348) 5) (qdec (-536696) 5) (qdec (-84718) 4) (qdec 648302 5) (qdec 1196604 5) (qdec 199434 4);
     QMat (qdec 45046 5) (qdec (-18934) 4) (qdec (-89716) 4) (qdec (-218348) 5) (qdec (-706132) 5) (qdec (-84718) 4) (qdec 648302 5) (qdec 1595472 5) (qdec 199434 4);
     QMat (qdec 45046 5) (qdec (-368772) 5) (qdec (-89716) 4) (qdec (-218348) 5) (qdec (-875568) 5) (qdec (-84718) 4) (qdec 648302 5) (qdec 199434 4) (qdec 199434 4);
     QMat (qdec (-134386) 5) (qdec 348956 5) (qdec (-89716) 4) (qdec (-387784) 5) (qdec (-197824) 5) (qdec (-84718) 4) (qdec 104717 4) (qdec 398868 5) (qdec 199434 4);
     QMat (qdec (-134386) 5) (qdec 169524 5) (qdec (-89716) 4) (qdec (-387784) 5) (qdec (-36726) 4) (qdec (-84718) 4) (qdec 104717 4) (qdec 797736 5) (qdec 199434 4);
     QMat (qdec (-134386) 5) (qdec (-9908) 5) (qdec (-89716) 4) (qdec (-387784) 5) (qdec (-536696) 5) (qdec (-84718) 4) (qdec 104717 4) (qdec 1196604 5) (qdec 199434 4);
     QMat (qdec (-134386) 5) (qdec (-18934) 4) (qdec (-89716) 4) (qdec (-387784) 5) (qdec (-706132) 5) (qdec (-84718) 4) (qdec 104717 4) (qdec 1595472 5) (qdec 199434 4);
     QMat (qdec (-134386) 5) (qdec (-368772) 5) (qdec (-89716) 4) (qdec (-387784) 5) (qdec (-875568) 5) (qdec (-84718) 4) (qdec 104717 4) (qdec 199434 4) (qdec 199434 4);
     QMat (qdec (-313818) 5) (qdec 348956 5) (qdec (-89716) 4) (qdec (-55722) 4) (qdec (-197824) 5) (qdec (-84718) 4) (qdec 1446038 5) (qdec 398868 5) (qdec 199434 4);
     QMat (qdec (-313818) 5) (qdec 169524 5) (qdec (-89716) 4) (qdec (-55722) 4) (qdec (-36726) 4) (qdec (-84718) 4) (qdec 1446038 5) (qdec 797736 5) (qdec 199434 4);
     QMat (qdec (-313818) 5) (qdec (-9908) 5) (qdec (-89716) 4) (qdec (-55722) 4) (qdec (-536696) 5) (qdec (-84718) 4) (qdec 1446038 5) (qdec 1196604 5) (qdec 199434 4);
     QMat (qdec (-313818) 5) (qdec (-18934) 4) (qdec (-89716) 4) (qdec (-55722) 4) (qdec (-706132) 5) (qdec (-84718) 4) (qdec 1446038 5) (qdec 1595472 5) (qdec 199434 4);
     QMat (qdec (-313818) 5) (qdec (-368772) 5) (qdec (-89716) 4) (qdec (-55722) 4) (qdec (-875568) 5) (qdec (-84718) 4) (qdec 1446038 5) (qdec 199434 4) (qdec 199434 4);
     QMat (qdec (-49325) 4) (qdec 348956 5) (qdec (-89716) 4) (qdec (-726656) 5) (qdec (-197824) 5) (qdec (-84718) 4) (qdec 1844906 5) (qdec 398868 5) (qdec 199434 4);
     QMat (qdec (-49325) 4) (qdec 169524 5) (qdec (-89716) 4) (qdec (-726656) 5) (qdec (-36726) 4) (qdec (-84718) 4) (qdec 1844906 5) (qdec 797736 5) (qdec 199434 4);
     QMat (qdec (-49325) 4) (qdec (-9908) 5) (qdec (-89716) 4) (qdec (-726656) 5) (qdec (-536696) 5) (qdec (-84718) 4) (qdec 1844906 5) (qdec 1196604 5) (qdec 199434 4);
     QMat (qdec (-49325) 4) (qdec (-18934) 4) (qdec (-89716) 4) (qdec (-726656) 5) (qdec (-706132) 5) (qdec (-84718) 4) (qdec 1844906 5) (qdec 1595472 5) (qdec 199434 4);
     QMat (qdec (-49325) 4) (qdec (-368772) 5) (qdec (-89716) 4) (qdec (-726656) 5) (qdec (-875568) 5) (qdec (-84718) 4) (qdec 1844906 5) (qdec 199434 4) (qdec 199434 4);
     QMat (qdec 224478 5) (qdec 174478 4) (qdec (-179432) 5) (qdec (-48912) 5) (qdec (-98912) 4) (qdec (-169436) 5) (qdec 249434 5) (qdec 199434 4) (qdec 398868 5);
     QMat (qdec 573434 5) (qdec 174478 4) (qdec (-179432) 5) (qdec (-246736) 5) (qdec (-98912) 4) (qdec (-169436) 5) (qdec 648302 5) (qdec 199434 4) (qdec 398868 5);
     QMat (qdec 92239 4) (qdec 174478 4) (qdec (-179432) 5) (qdec (-44456) 4) (qdec (-98912) 4) (qdec (-169436) 5) (qdec 104717 4) (qdec 199434 4) (qdec 398868 5);
     QMat (qdec 1271346 5) (qdec 174478 4) (qdec (-179432) 5) (qdec (-642384) 5) (qdec (-98912) 4) (qdec (-169436) 5) (qdec 1446038 5) (qdec 199434 4) (qdec 398868 5);
     QMat (qdec 1620302 5) (qdec 174478 4) (qdec (-179432) 5) (qdec (-840208) 5) (qdec (-98912) 4) (qdec (-169436) 5) (qdec 1844906 5) (qdec 199434 4) (qdec 398868 5);
     QMat (qdec 112239 4) (qdec 348956 5) (qdec (-179432) 5) (qdec (-24456) 4) (qdec (-197824) 5) (qdec (-169436) 5) (qdec 124717 4) (qdec 398868 5) (qdec 398868 5)])].
