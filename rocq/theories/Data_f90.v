(** The repository's own Fortran test data (src/tests/niggli, src/tests/find_kgrids, read as text),
    as listed in src/niggli.xml and src/find_kgrids.xml: input and expected output of each case;
    rounded to 12 decimals (the noise of double precision). *)
From Coq Require Import ZArith List Qcanon.
From Verif Require Import Mat3 QMat QNum.
Import ListNotations.
Open Scope Z_scope.

(** reduce_cell: IN.in, niggli_cell.out, transformation.out (tolerance 0.00001). *)
Definition reduce_cases : list (qmat * qmat * mat3) := [
  (QMat (qdec 5 1) (qdec 5 1) (zq 0) (zq 0) (qdec 5 1) (zq 0) (qdec 5 1) (zq 0) (zq 1), QMat (qdec (-5) 1) (qdec (-5) 1) (zq 0) (qdec (-5) 1) (zq 0) (qdec (-5) 1) (zq 0) (qdec (-5) 1) (qdec (-5) 1), Mat3 0 (-1) 1 (-1) 0 (-1) 0 0 (-1));
  (QMat (zq (-1)) (zq 0) (qdec (-111652) 5) (zq 0) (qdec (-132288) 5) (qdec (-610985) 6) (zq (-1)) (qdec (-5) 1) (qdec 616515 6), QMat (zq (-1)) (zq 0) (qdec (-111652) 5) (zq 0) (qdec (-132288) 5) (qdec (-610985) 6) (zq (-1)) (qdec (-5) 1) (qdec 616515 6), Mat3 1 0 0 0 1 0 0 0 1);
  (QMat (zq 1) (zq 1) (zq 0) (zq 0) (zq 1) (zq 0) (zq 0) (zq 0) (zq 1), QMat (zq (-1)) (zq 0) (zq 0) (zq 0) (zq 0) (zq 1) (zq 0) (zq 1) (zq 0), Mat3 (-1) 0 (-1) 0 0 1 0 1 0);
  (QMat (zq (-1)) (zq 0) (qdec (-548584) 6) (zq 0) (qdec (-132288) 5) (qdec 774292 6) (zq (-1)) (qdec 5 1) (qdec 104858 5), QMat (zq 0) (zq 1) (qdec 548584 6) (qdec 132288 5) (zq 0) (qdec (-774292) 6) (qdec (-5) 1) (zq 1) (qdec (-104858) 5), Mat3 0 (-1) 0 (-1) 0 0 0 0 (-1));
  (QMat (zq (-1)) (zq 1) (zq 1) (zq 1) (zq (-1)) (zq 1) (zq 1) (zq 1) (zq (-1)), QMat (zq (-1)) (zq 1) (zq 1) (zq 1) (zq (-1)) (zq 1) (zq 1) (zq 1) (zq (-1)), Mat3 1 0 0 0 1 0 0 0 1);
  (QMat (zq (-1)) (zq 1) (qdec 180278 5) (zq 1) (qdec 160788 5) (qdec (-147253) 5) (zq 2) (qdec (-155394) 5) (qdec 762655 6), QMat (zq (-1)) (zq 1) (qdec 180278 5) (zq 1) (qdec 160788 5) (qdec (-147253) 5) (zq 2) (qdec (-155394) 5) (qdec 762655 6), Mat3 1 0 0 0 1 0 0 0 1);
  (QMat (zq (-1)) (zq 1) (qdec 195095 5) (zq 1) (qdec 160788 5) (qdec (-141625) 5) (zq 2) (qdec (-155394) 5) (qdec 433603 6), QMat (zq 1) (qdec (-195095) 5) (zq (-1)) (zq (-1)) (qdec 141625 5) (qdec (-160788) 5) (zq (-2)) (qdec (-433603) 6) (qdec 155394 5), Mat3 (-1) 0 0 0 0 (-1) 0 (-1) 0);
  (QMat (zq 1) (qdec 141144 5) (qdec (-199868) 5) (zq 1) (qdec 885622 7) (qdec 121232 5) (zq 2) (zq (-2)) (qdec (-731822) 6), QMat (zq 1) (qdec 141144 5) (qdec (-199868) 5) (zq 1) (qdec 885622 7) (qdec 121232 5) (zq 2) (zq (-2)) (qdec (-731822) 6), Mat3 1 0 0 0 1 0 0 0 1);
  (QMat (zq 1) (zq 2) (zq 4) (zq 2) (zq 1) (zq 3) (zq 2) (zq 2) (zq 3), QMat (zq (-1)) (zq (-1)) (zq 1) (zq 1) (zq 0) (zq 2) (zq 0) (zq 1) (zq 2), Mat3 1 1 1 (-1) 1 0 0 (-1) 0);
  (QMat (zq 1) (zq 1) (qdec (-146391) 5) (zq 1) (zq (-1)) (zq 0) (zq 1) (zq 1) (qdec 196391 5), QMat (zq 1) (zq 1) (qdec (-146391) 5) (zq 1) (zq (-1)) (zq 0) (zq 1) (zq 1) (qdec 196391 5), Mat3 1 0 0 0 1 0 0 0 1);
  (QMat (zq (-1)) (zq 0) (zq 0) (zq 0) (zq (-1)) (zq 0) (zq 0) (zq 2) (zq 2), QMat (zq 1) (zq 0) (zq 0) (zq 0) (zq 1) (zq 0) (zq 0) (zq 0) (zq 2), Mat3 (-1) 0 0 0 (-1) 0 0 1 1);
  (QMat (zq 1) (qdec 5 1) (zq 0) (zq 0) (qdec (-866025403784) 12) (zq 0) (zq 0) (zq 0) (zq 2), QMat (zq 1) (qdec (-5) 1) (zq 0) (zq 0) (qdec 866025403784 12) (zq 0) (zq 0) (zq 0) (zq (-2)), Mat3 1 0 0 0 (-1) 0 0 0 (-1));
  (QMat (zq 1) (zq 1) (zq 0) (zq 1) (zq (-1)) (qdec (-173205) 5) (zq 1) (zq (-1)) (qdec 173205 5), QMat (zq 1) (zq 1) (zq 0) (zq 1) (zq (-1)) (qdec (-173205) 5) (zq 1) (zq (-1)) (qdec 173205 5), Mat3 1 0 0 0 1 0 0 0 1);
  (QMat (zq 1) (zq 1) (qdec 5 1) (zq 1) (zq (-1)) (zq 0) (zq 0) (zq 0) (zq 2), QMat (zq (-1)) (zq (-1)) (qdec 5 1) (zq (-1)) (zq 1) (zq 0) (zq 0) (zq 0) (zq 2), Mat3 (-1) 0 0 0 (-1) 0 0 0 1);
  (QMat (zq (-1)) (zq 1) (zq 1) (zq 1) (zq (-1)) (zq 1) (zq 2) (zq 2) (zq (-2)), QMat (zq 2) (zq 0) (zq (-1)) (zq 0) (zq 2) (zq (-1)) (zq 0) (zq 0) (zq 2), Mat3 0 1 0 1 0 0 1 1 (-1));
  (QMat (zq 1) (qdec 779796 6) (qdec (-104442) 5) (zq 1) (qdec (-11798) 4) (qdec (-143973) 5) (zq (-1)) (zq 1) (qdec (-168415) 5), QMat (zq 1) (qdec 779796 6) (qdec (-104442) 5) (zq 1) (qdec (-11798) 4) (qdec (-143973) 5) (zq (-1)) (zq 1) (qdec (-168415) 5), Mat3 1 0 0 0 1 0 0 0 1);
  (QMat (zq 1) (qdec 809568 6) (qdec (-105387) 5) (zq 1) (qdec (-115957) 5) (qdec (-161088) 5) (zq 1) (zq (-1)) (qdec 151474 5), QMat (zq 1) (qdec 809568 6) (qdec (-105387) 5) (zq 1) (qdec (-115957) 5) (qdec (-161088) 5) (zq 1) (zq (-1)) (qdec 151474 5), Mat3 1 0 0 0 1 0 0 0 1);
  (QMat (zq 0) (zq 1) (zq (-2)) (zq 0) (zq (-2)) (zq (-1)) (zq 2) (zq 1) (zq 1), QMat (zq 0) (zq 1) (zq (-2)) (zq 0) (zq (-2)) (zq (-1)) (zq 2) (zq 1) (zq 1), Mat3 1 0 0 0 1 0 0 0 1);
  (QMat (qdec (-5) 1) (qdec 5 1) (qdec 5 1) (zq 1) (zq (-1)) (zq 1) (qdec 15 1) (qdec 15 1) (qdec (-15) 1), QMat (zq (-1)) (qdec (-5) 1) (qdec (-5) 1) (zq 0) (zq (-1)) (zq 1) (zq 0) (qdec 15 1) (qdec 15 1), Mat3 0 0 1 (-1) 0 0 (-1) (-1) 0);
  (QMat (zq 1) (qdec 170119 5) (qdec (-10034) 4) (zq 1) (qdec (-145119) 5) (qdec 189395 7) (zq 1) (zq 1) (qdec 223446 5), QMat (zq 1) (qdec 170119 5) (qdec (-10034) 4) (zq 1) (qdec (-145119) 5) (qdec 189395 7) (zq 1) (zq 1) (qdec 223446 5), Mat3 1 0 0 0 1 0 0 0 1);
  (QMat (zq 0) (zq 1) (zq 0) (zq 0) (zq 0) (zq 1) (qdec 5 1) (zq 0) (zq 0), QMat (zq 0) (zq 1) (zq 0) (zq 0) (zq 0) (zq 1) (qdec 5 1) (zq 0) (zq 0), Mat3 1 0 0 0 1 0 0 0 1);
  (QMat (zq 0) (zq 1) (qdec (-5) 1) (zq 0) (zq 0) (qdec 866025403784 12) (qdec (-5) 1) (zq 0) (zq 0), QMat (zq 0) (zq 1) (qdec (-5) 1) (zq 0) (zq 0) (qdec 866025403784 12) (qdec (-5) 1) (zq 0) (zq 0), Mat3 1 0 0 0 1 0 0 0 1);
  (QMat (zq 1) (zq 2) (qdec (-3333333) 7) (zq 1) (zq (-1)) (qdec (-154116) 5) (zq 1) (zq (-1)) (qdec 187449 5), QMat (zq 1) (zq 2) (qdec (-3333333) 7) (zq 1) (zq (-1)) (qdec (-154116) 5) (zq 1) (zq (-1)) (qdec 187449 5), Mat3 1 0 0 0 1 0 0 0 1);
  (QMat (zq (-1)) (qdec 151184 5) (qdec (-255922) 6) (zq 0) (zq 0) (qdec (-144338) 5) (zq (-1)) (qdec (-845178) 6) (qdec 92259 5), QMat (zq (-1)) (qdec 151184 5) (qdec (-255922) 6) (zq 0) (zq 0) (qdec (-144338) 5) (zq (-1)) (qdec (-845178) 6) (qdec 92259 5), Mat3 1 0 0 0 1 0 0 0 1);
  (QMat (zq 1) (qdec 145119 5) (qdec (-116241) 5) (zq 1) (qdec (-170119) 5) (qdec (-156776) 5) (zq 1) (zq (-1)) (qdec 148018 5), QMat (zq 1) (qdec 145119 5) (qdec (-116241) 5) (zq 1) (qdec (-170119) 5) (qdec (-156776) 5) (zq 1) (zq (-1)) (qdec 148018 5), Mat3 1 0 0 0 1 0 0 0 1);
  (QMat (zq 0) (qdec 5 1) (zq 0) (zq 1) (zq 0) (zq 0) (qdec 15 1) (qdec 15 1) (zq 3), QMat (zq (-1)) (qdec (-5) 1) (qdec (-5) 1) (zq 0) (zq (-1)) (zq 0) (zq 0) (zq 0) (qdec (-15) 1), Mat3 0 (-1) 0 (-2) (-1) (-1) 1 1 0);
  (QMat (zq 1) (qdec 1618033 6) (qdec (-464824) 6) (zq 1) (qdec (-618033) 6) (qdec 1464824 6) (zq 0) (zq 1) (qdec 1907413 6), QMat (zq (-1)) (qdec (-1618033) 6) (qdec (-1464824) 6) (zq (-1)) (qdec 618033 6) (qdec 464824 6) (zq 0) (zq (-1)) (qdec 1907413 6), Mat3 (-1) 0 (-1) 0 (-1) 0 0 0 1);
  (QMat (zq 1) (qdec 144896 5) (qdec (-342424) 6) (zq 1) (qdec (-948958) 6) (qdec 1342424 6) (zq 0) (zq 1) (qdec 202006 5), QMat (zq 1) (qdec 144896 5) (qdec (-342424) 6) (zq 1) (qdec (-948958) 6) (qdec 1342424 6) (zq 0) (zq 1) (qdec 202006 5), Mat3 1 0 0 0 1 0 0 0 1);
  (QMat (zq 1) (qdec 161803 5) (qdec (-666125) 6) (zq 1) (qdec (-618034) 6) (qdec 116613 5) (zq 0) (zq 1) (qdec 204852 5), QMat (zq 1) (qdec 161803 5) (qdec (-666125) 6) (zq 1) (qdec (-618034) 6) (qdec 116613 5) (zq 0) (zq 1) (qdec 204852 5), Mat3 1 0 0 0 1 0 0 0 1);
  (QMat (zq 1) (qdec 161803 5) (qdec (-361373) 7) (zq 1) (qdec (-618034) 6) (qdec 536137 6) (zq 0) (zq 1) (qdec 238982 5), QMat (zq 1) (qdec 161803 5) (qdec (-361373) 7) (zq 1) (qdec (-618034) 6) (qdec 536137 6) (zq 0) (zq 1) (qdec 238982 5), Mat3 1 0 0 0 1 0 0 0 1);
  (QMat (zq 1) (zq 0) (zq 0) (zq 0) (zq 1) (zq 0) (zq 0) (zq 0) (zq 1), QMat (zq 1) (zq 0) (zq 0) (zq 0) (zq 1) (zq 0) (zq 0) (zq 0) (zq 1), Mat3 1 0 0 0 1 0 0 0 1);
  (QMat (qdec 5 1) (zq 0) (zq 2) (qdec 5 1) (zq 0) (zq (-2)) (zq 0) (zq 1) (zq 0), QMat (qdec 5 1) (zq 0) (zq 2) (qdec 5 1) (zq 0) (zq (-2)) (zq 0) (zq 1) (zq 0), Mat3 1 0 0 0 1 0 0 0 1);
  (QMat (zq 2) (zq 0) (qdec 5 1) (zq 0) (zq 2) (zq 0) (zq 0) (zq 0) (zq 2), QMat (zq 2) (zq 0) (qdec (-5) 1) (zq 0) (zq (-2)) (zq 0) (zq 0) (zq 0) (zq (-2)), Mat3 1 0 0 0 (-1) 0 0 0 (-1));
  (QMat (zq 1) (qdec 122474487 8) (qdec (-165985087) 9) (zq 1) (qdec (-122474487) 8) (qdec (-164308297) 8) (zq 1) (zq (-1)) (qdec 180906806 8), QMat (zq 1) (qdec 122474487 8) (qdec (-165985087) 9) (zq 1) (qdec (-122474487) 8) (qdec (-164308297) 8) (zq 1) (zq (-1)) (qdec 180906806 8), Mat3 1 0 0 0 1 0 0 0 1);
  (QMat (zq 1) (qdec 161803 5) (qdec (-668912) 6) (zq 1) (qdec (-618034) 6) (qdec 196676 5) (zq 1) (zq (-1)) (qdec (-129785) 5), QMat (zq 1) (qdec 161803 5) (qdec (-668912) 6) (zq 1) (qdec (-618034) 6) (qdec 196676 5) (zq 1) (zq (-1)) (qdec (-129785) 5), Mat3 1 0 0 0 1 0 0 0 1);
  (QMat (zq 1) (qdec 141421 5) (qdec (-143541) 5) (zq 1) (qdec (-141421) 5) (qdec (-143541) 5) (zq 1) (zq 0) (qdec 137083 5), QMat (zq 1) (qdec 141421 5) (qdec (-143541) 5) (zq 1) (qdec (-141421) 5) (qdec (-143541) 5) (zq 1) (zq 0) (qdec 137083 5), Mat3 1 0 0 0 1 0 0 0 1);
  (QMat (zq 1) (zq 1) (qdec (-179092) 5) (zq 0) (qdec (-141421) 5) (qdec (-147209) 5) (zq 1) (zq (-1)) (qdec 790922 6), QMat (zq 1) (zq 1) (qdec (-179092) 5) (zq 0) (qdec (-141421) 5) (qdec (-147209) 5) (zq 1) (zq (-1)) (qdec 790922 6), Mat3 1 0 0 0 1 0 0 0 1);
  (QMat (qdec 5 1) (qdec 5 1) (zq 0) (zq 1) (zq (-1)) (zq 0) (zq 0) (zq 0) (zq 3), QMat (zq (-1)) (qdec 5 1) (zq 0) (zq 0) (zq 1) (zq 0) (zq 0) (zq 0) (zq 3), Mat3 (-1) 1 0 (-1) 0 0 0 0 1);
  (QMat (zq 1) (zq 0) (qdec (-166542) 5) (zq 0) (qdec (-173205) 5) (qdec (-672857) 6) (zq 1) (zq (-1)) (qdec 166542 5), QMat (zq 1) (zq 0) (qdec (-166542) 5) (zq 0) (qdec (-173205) 5) (qdec (-672857) 6) (zq 1) (zq (-1)) (qdec 166542 5), Mat3 1 0 0 0 1 0 0 0 1);
  (QMat (zq 1) (qdec 161803 5) (qdec (-105557) 5) (zq 1) (qdec (-618034) 6) (qdec 199895 5) (zq 1) (zq (-1)) (qdec (-943376) 6), QMat (zq 1) (qdec 161803 5) (qdec (-105557) 5) (zq 1) (qdec (-618034) 6) (qdec 199895 5) (zq 1) (zq (-1)) (qdec (-943376) 6), Mat3 1 0 0 0 1 0 0 0 1);
  (QMat (zq 1) (zq 1) (qdec (-185397) 5) (zq 0) (qdec (-141421) 5) (qdec (-854143) 6) (zq 1) (zq (-1)) (qdec 135397 5), QMat (zq 1) (zq 1) (qdec (-185397) 5) (zq 0) (qdec (-141421) 5) (qdec (-854143) 6) (zq 1) (zq (-1)) (qdec 135397 5), Mat3 1 0 0 0 1 0 0 0 1);
  (QMat (zq 1) (qdec 161803 5) (qdec (-153633) 5) (zq 1) (qdec (-61803) 5) (qdec 136706 5) (zq 1) (zq (-1)) (qdec (-133073) 5), QMat (zq 1) (qdec 161803 5) (qdec (-153633) 5) (zq 1) (qdec (-61803) 5) (qdec 136706 5) (zq 1) (zq (-1)) (qdec (-133073) 5), Mat3 1 0 0 0 1 0 0 0 1);
  (QMat (zq 1) (qdec 164194 5) (qdec (-139716) 5) (zq 1) (qdec (-114194) 5) (qdec (-134718) 5) (zq 1) (zq (-1)) (qdec 149434 5), QMat (zq 1) (qdec 164194 5) (qdec (-139716) 5) (zq 1) (qdec (-114194) 5) (qdec (-134718) 5) (zq 1) (zq (-1)) (qdec 149434 5), Mat3 1 0 0 0 1 0 0 0 1);
  (QMat (zq 1) (zq 0) (zq 0) (zq 0) (zq 1) (zq 0) (zq 0) (zq 0) (zq 1), QMat (zq 1) (zq 0) (zq 0) (zq 0) (zq 1) (zq 0) (zq 0) (zq 0) (zq 1), Mat3 1 0 0 0 1 0 0 0 1);
  (QMat (zq 1) (zq 0) (zq 0) (zq 0) (zq 1) (zq 0) (zq 0) (zq 0) (zq 2), QMat (zq 1) (zq 0) (zq 0) (zq 0) (zq 1) (zq 0) (zq 0) (zq 0) (zq 2), Mat3 1 0 0 0 1 0 0 0 1);
  (QMat (qdec 5 1) (zq 0) (qdec 5 1) (zq 0) (zq 3) (zq 0) (qdec 5 1) (zq 0) (qdec (-5) 1), QMat (qdec (-5) 1) (qdec (-5) 1) (zq 0) (zq 0) (zq 0) (zq (-3)) (qdec (-5) 1) (qdec 5 1) (zq 0), Mat3 (-1) 0 0 0 0 (-1) 0 (-1) 0);
  (QMat (zq 1) (qdec (-5) 1) (zq 0) (zq 0) (qdec 8660254 7) (qdec (-17320508) 7) (zq 0) (qdec 16329932 7) (qdec 16329932 7), QMat (zq (-1)) (qdec 5 1) (zq 0) (zq 0) (qdec (-8660254) 7) (qdec (-17320508) 7) (zq 0) (qdec (-16329932) 7) (qdec 16329932 7), Mat3 (-1) 0 0 0 (-1) 0 0 0 1);
  (QMat (zq 1) (qdec (-5) 1) (zq 0) (zq 0) (qdec 8660254 7) (zq 0) (zq 0) (zq 0) (qdec 32659864 7), QMat (zq 1) (qdec (-5) 1) (zq 0) (zq 0) (qdec 8660254 7) (zq 0) (zq 0) (zq 0) (qdec 32659864 7), Mat3 1 0 0 0 1 0 0 0 1);
  (QMat (zq 1) (qdec (-5) 1) (zq 0) (zq 0) (qdec 8660254 7) (qdec (-17320508) 7) (zq 0) (qdec 16329932 7) (qdec 16329932 7), QMat (zq (-1)) (qdec 5 1) (zq 0) (zq 0) (qdec (-8660254) 7) (qdec (-17320508) 7) (zq 0) (qdec (-16329932) 7) (qdec 16329932 7), Mat3 (-1) 0 0 0 (-1) 0 0 0 1);
  (QMat (zq 1) (qdec 5 1) (zq 0) (zq 0) (qdec (-8660254) 7) (qdec (-17320508) 7) (zq 0) (qdec 32659864 7) (zq 0), QMat (zq 1) (zq 0) (qdec (-5) 1) (zq 0) (qdec (-17320508) 7) (qdec 8660254 7) (zq 0) (zq 0) (qdec (-32659864) 7), Mat3 1 0 0 0 0 (-1) 0 1 0);
  (QMat (zq 1) (qdec 5 1) (zq 0) (zq 0) (qdec 4330127 6) (zq 0) (zq 0) (zq 0) (qdec 16329932 7), QMat (zq (-1)) (zq 0) (qdec 5 1) (zq 0) (zq 0) (qdec 4330127 6) (zq 0) (qdec 16329932 7) (zq 0), Mat3 (-1) 0 0 0 0 1 0 1 0);
  (QMat (zq 1) (qdec 5 1) (zq 0) (zq 0) (qdec (-8660254) 7) (qdec (-17320508) 7) (zq 0) (qdec 48989796 7) (zq 0), QMat (zq 1) (zq 0) (qdec (-5) 1) (zq 0) (qdec (-17320508) 7) (qdec 8660254 7) (zq 0) (zq 0) (qdec (-48989796) 7), Mat3 1 0 0 0 0 (-1) 0 1 0);
  (QMat (zq 0) (qdec 5 1) (zq 1) (qdec (-17320508) 7) (qdec 25980762 7) (zq 0) (qdec 16329932 7) (qdec 32659864 7) (zq 0), QMat (zq (-1)) (zq 0) (qdec 5 1) (zq 0) (qdec 17320508 7) (qdec 25980762 7) (zq 0) (qdec (-16329932) 7) (qdec 32659864 7), Mat3 0 (-1) 0 0 0 1 (-1) 0 0);
  (QMat (qdec 5 1) (qdec (-5) 1) (zq 1) (qdec 5 1) (qdec 5 1) (zq 0) (qdec (-5) 1) (qdec 5 1) (zq 1), QMat (qdec 5 1) (qdec (-5) 1) (zq 1) (qdec 5 1) (qdec 5 1) (zq 0) (qdec (-5) 1) (qdec 5 1) (zq 1), Mat3 1 0 0 0 1 0 0 0 1);
  (QMat (zq 1) (zq 0) (qdec 5 1) (zq 0) (zq 0) (qdec (-15) 1) (zq 0) (zq 1) (qdec 5 1), QMat (zq (-1)) (zq 0) (qdec 5 1) (zq 0) (zq 0) (qdec (-15) 1) (zq 0) (zq (-1)) (qdec 5 1), Mat3 (-1) 0 0 0 (-1) 0 0 0 1);
  (QMat (qdec 5 2) (qdec 1 1) (qdec 99 2) (qdec 27 1) (qdec 7 1) (qdec 3 1) (qdec 33 1) (qdec 45 1) (qdec 54 1), QMat (qdec (-89) 2) (qdec (-84) 2) (qdec (-168) 2) (qdec 4 1) (qdec (-16) 1) (qdec 15 1) (qdec (-9) 1) (qdec 3 1) (qdec 27 1), Mat3 0 (-1) 0 1 2 3 (-1) (-1) (-2));
  (QMat (zq 1) (qdec (-3) 1) (qdec (-3) 1) (qdec (-1) 1) (zq 1) (qdec (-1) 1) (zq 0) (qdec 3 1) (qdec (-15) 1), QMat (zq (-1)) (qdec 3 1) (qdec 4 1) (qdec 1 1) (zq (-1)) (qdec 8 1) (zq 0) (qdec (-3) 1) (qdec (-12) 1), Mat3 (-1) 0 1 0 (-1) 1 0 0 1);
  (QMat (qdec 3682244 8) (zq 0) (zq 0) (zq 0) (qdec 6377834 8) (zq 0) (qdec 96209276 8) (qdec 96209276 8) (qdec 192418552 8), QMat (qdec (-7364488) 8) (qdec (-3682244) 8) (qdec (-3682244) 8) (zq 0) (qdec 6377834 8) (zq 0) (zq 0) (zq 0) (qdec (-96209276) 8), Mat3 (-2) (-1) (-1) 0 1 0 1 0 0);
  (QMat (qdec 7364488 8) (zq 0) (zq 0) (zq 0) (qdec 12755668 8) (zq 0) (qdec 24052319 8) (qdec 24052319 8) (qdec 48104638 8), QMat (qdec (-14728976) 8) (qdec (-7364488) 8) (qdec (-7364488) 8) (zq 0) (qdec 12755668 8) (zq 0) (zq 0) (zq 0) (qdec (-24052319) 8), Mat3 (-2) (-1) (-1) 0 1 0 1 0 0);
  (QMat (qdec 120559446 8) (zq 0) (zq 0) (zq 0) (qdec 208815085 8) (zq 0) (qdec 393745511 8) (qdec 393745511 8) (qdec 787491022 8), QMat (qdec (-241118892) 8) (qdec (-120559446) 8) (qdec (-120559446) 8) (zq 0) (qdec 208815085 8) (zq 0) (zq 0) (zq 0) (qdec (-393745511) 8), Mat3 (-2) (-1) (-1) 0 1 0 1 0 0)
].
(** id_cell: U.in, Nu.out, Cu.out, O.out, No.out, Co.out, id.out (tolerance 0.00001). *)
Definition id_cases : list (qmat * (qmat * mat3 * qmat * qmat * mat3 * Z)) := [
  (QMat (qdec 5 1) (qdec 5 1) (zq 0) (zq 0) (qdec 5 1) (zq 0) (qdec 5 1) (zq 0) (zq 1), (QMat (qdec (-5) 1) (qdec (-5) 1) (zq 0) (qdec (-5) 1) (zq 0) (qdec (-5) 1) (zq 0) (qdec (-5) 1) (qdec (-5) 1), Mat3 0 (-1) 1 (-1) 0 (-1) 0 0 (-1), QMat (zq 0) (zq 1) (zq 1) (zq 1) (zq 0) (zq 1) (zq 1) (zq 1) (zq 0), QMat (zq 0) (zq 1) (zq 1) (zq 1) (zq 0) (zq 1) (zq 1) (zq 1) (zq 0), Mat3 1 0 0 0 1 0 0 0 1, 1));
  (QMat (zq (-1)) (zq 0) (qdec (-111652) 5) (zq 0) (qdec (-132288) 5) (qdec (-610985) 6) (zq (-1)) (qdec (-5) 1) (qdec 616515 6), (QMat (zq (-1)) (zq 0) (qdec (-111652) 5) (zq 0) (qdec (-132288) 5) (qdec (-610985) 6) (zq (-1)) (qdec (-5) 1) (qdec 616515 6), Mat3 1 0 0 0 1 0 0 0 1, QMat (qdec (-111652) 5) (zq 0) (zq 1) (qdec (-610985) 6) (qdec (-132288) 5) (qdec 132288 5) (qdec 616515 6) (qdec (-5) 1) (qdec 15 1), QMat (zq 0) (qdec (-111652) 5) (zq (-1)) (qdec (-132288) 5) (qdec (-610985) 6) (zq 0) (qdec (-5) 1) (qdec 616515 6) (zq (-1)), Mat3 0 1 0 1 0 (-1) 0 0 (-1), 2));
  (QMat (zq 1) (zq 1) (zq 0) (zq 0) (zq 1) (zq 0) (zq 0) (zq 0) (zq 1), (QMat (zq (-1)) (zq 0) (zq 0) (zq 0) (zq 0) (zq 1) (zq 0) (zq 1) (zq 0), Mat3 (-1) 0 (-1) 0 0 1 0 1 0, QMat (zq 1) (zq 0) (zq 0) (zq 0) (zq 1) (zq 0) (zq 0) (zq 0) (zq 1), QMat (zq 1) (zq 0) (zq 0) (zq 0) (zq 1) (zq 0) (zq 0) (zq 0) (zq 1), Mat3 1 0 0 0 1 0 0 0 1, 3));
  (QMat (zq (-1)) (zq 0) (qdec (-548584) 6) (zq 0) (qdec (-132288) 5) (qdec 774292 6) (zq (-1)) (qdec 5 1) (qdec 104858 5), (QMat (zq 0) (zq 1) (qdec 548584 6) (qdec 132288 5) (zq 0) (qdec (-774292) 6) (qdec (-5) 1) (zq 1) (qdec (-104858) 5), Mat3 0 (-1) 0 (-1) 0 0 0 0 (-1), QMat (qdec (-548584) 6) (zq 0) (zq 1) (qdec 774292 6) (qdec (-132288) 5) (qdec 132288 5) (qdec 104858 5) (qdec 5 1) (qdec 5 1), QMat (qdec 548584 6) (zq 0) (zq 1) (qdec (-774292) 6) (qdec 132288 5) (zq 0) (qdec (-104858) 5) (qdec (-5) 1) (zq 1), Mat3 (-1) 0 0 0 (-1) 1 0 0 1, 4));
  (QMat (zq (-1)) (zq 1) (zq 1) (zq 1) (zq (-1)) (zq 1) (zq 1) (zq 1) (zq (-1)), (QMat (zq (-1)) (zq 1) (zq 1) (zq 1) (zq (-1)) (zq 1) (zq 1) (zq 1) (zq (-1)), Mat3 1 0 0 0 1 0 0 0 1, QMat (zq (-1)) (zq 1) (zq 1) (zq 1) (zq (-1)) (zq 1) (zq 1) (zq 1) (zq (-1)), QMat (zq (-1)) (zq 1) (zq 1) (zq 1) (zq (-1)) (zq 1) (zq 1) (zq 1) (zq (-1)), Mat3 1 0 0 0 1 0 0 0 1, 5));
  (QMat (zq (-1)) (zq 1) (qdec 180278 5) (zq 1) (qdec 160788 5) (qdec (-147253) 5) (zq 2) (qdec (-155394) 5) (qdec 762655 6), (QMat (zq (-1)) (zq 1) (qdec 180278 5) (zq 1) (qdec 160788 5) (qdec (-147253) 5) (zq 2) (qdec (-155394) 5) (qdec 762655 6), Mat3 1 0 0 0 1 0 0 0 1, QMat (qdec 180278 5) (qdec 280278 5) (qdec 80278 5) (qdec (-147253) 5) (qdec 13535 5) (qdec (-47253) 5) (qdec 762655 6) (qdec (-791285) 6) (qdec 2762655 6), QMat (qdec 180278 5) (qdec (-180278) 5) (zq 1) (qdec (-147253) 5) (qdec (-113535) 5) (qdec 160788 5) (qdec 762655 6) (qdec (-1208715) 6) (qdec (-155394) 5), Mat3 1 1 (-1) 0 (-1) 1 0 (-1) 0, 6));
  (QMat (zq (-1)) (zq 1) (qdec 195095 5) (zq 1) (qdec 160788 5) (qdec (-141625) 5) (zq 2) (qdec (-155394) 5) (qdec 433603 6), (QMat (zq 1) (qdec (-195095) 5) (zq (-1)) (zq (-1)) (qdec 141625 5) (qdec (-160788) 5) (zq (-2)) (qdec (-433603) 6) (qdec 155394 5), Mat3 (-1) 0 0 0 0 (-1) 0 (-1) 0, QMat (qdec 195095 5) (zq 0) (qdec 95095 5) (qdec 119163 5) (qdec 260788 5) (qdec (-41625) 5) (qdec 879663 6) (qdec 44606 5) (qdec 2433603 6), QMat (zq 1) (qdec (-195095) 5) (zq (-1)) (qdec 160788 5) (qdec (-119163) 5) (zq 1) (qdec (-155394) 5) (qdec (-879663) 6) (zq 2), Mat3 1 (-1) (-1) 0 0 1 (-1) 0 1, 7));
  (QMat (zq 1) (qdec 141144 5) (qdec (-199868) 5) (zq 1) (qdec 885622 7) (qdec 121232 5) (zq 2) (zq (-2)) (qdec (-731822) 6), (QMat (zq 1) (qdec 141144 5) (qdec (-199868) 5) (zq 1) (qdec 885622 7) (qdec 121232 5) (zq 2) (zq (-2)) (qdec (-731822) 6), Mat3 1 0 0 0 1 0 0 0 1, QMat (qdec 141144 5) (qdec (-99868) 5) (qdec 341012 5) (qdec 885622 7) (qdec 221232 5) (qdec (-11237578) 7) (zq (-2)) (qdec 1268178 6) (qdec (-1268178) 6), QMat (qdec (-41276) 5) (qdec (-199868) 5) (qdec 141144 5) (qdec (-23008822) 7) (qdec 121232 5) (qdec 885622 7) (qdec 731822 6) (qdec (-731822) 6) (zq (-2)), Mat3 (-1) 1 1 (-1) 0 0 0 (-1) 0, 8));
  (QMat (zq 1) (zq 2) (zq 4) (zq 2) (zq 1) (zq 3) (zq 2) (zq 2) (zq 3), (QMat (zq (-1)) (zq (-1)) (zq 1) (zq 1) (zq 0) (zq 2) (zq 0) (zq 1) (zq 2), Mat3 1 1 1 (-1) 1 0 0 (-1) 0, QMat (zq 1) (zq 2) (zq 4) (zq 2) (zq 1) (zq 3) (zq 2) (zq 2) (zq 3), QMat (zq (-1)) (zq (-1)) (zq 1) (zq 1) (zq 0) (zq 2) (zq 0) (zq 1) (zq 2), Mat3 1 1 1 (-1) 1 0 0 (-1) 0, 9));
  (QMat (zq 1) (zq 1) (qdec (-146391) 5) (zq 1) (zq (-1)) (zq 0) (zq 1) (zq 1) (qdec 196391 5), (QMat (zq 1) (zq 1) (qdec (-146391) 5) (zq 1) (zq (-1)) (zq 0) (zq 1) (zq 1) (qdec 196391 5), Mat3 1 0 0 0 1 0 0 0 1, QMat (zq 1) (qdec (-146391) 5) (zq 0) (zq (-1)) (zq 0) (zq 2) (zq 1) (qdec 196391 5) (zq 0), QMat (zq (-1)) (zq (-1)) (qdec 146391 5) (zq 1) (zq (-1)) (zq 0) (zq (-1)) (zq (-1)) (qdec (-196391) 5), Mat3 (-1) (-1) 0 0 0 (-1) 0 (-1) 0, 10));
  (QMat (zq (-1)) (zq 0) (zq 0) (zq 0) (zq (-1)) (zq 0) (zq 0) (zq 2) (zq 2), (QMat (zq 1) (zq 0) (zq 0) (zq 0) (zq 1) (zq 0) (zq 0) (zq 0) (zq 2), Mat3 (-1) 0 0 0 (-1) 0 0 1 1, QMat (zq 1) (zq 0) (zq 0) (zq 0) (zq 1) (zq 0) (zq 0) (zq 0) (zq 2), QMat (zq 1) (zq 0) (zq 0) (zq 0) (zq 1) (zq 0) (zq 0) (zq 0) (zq 2), Mat3 1 0 0 0 1 0 0 0 1, 11));
  (QMat (zq 1) (qdec 5 1) (zq 0) (zq 0) (qdec (-866025403784) 12) (zq 0) (zq 0) (zq 0) (zq 2), (QMat (zq 1) (qdec (-5) 1) (zq 0) (zq 0) (qdec 866025403784 12) (zq 0) (zq 0) (zq 0) (zq (-2)), Mat3 1 0 0 0 (-1) 0 0 0 (-1), QMat (zq 1) (qdec 5 1) (zq 0) (zq 0) (qdec (-866025403784) 12) (zq 0) (zq 0) (zq 0) (zq 2), QMat (zq 1) (qdec (-5) 1) (zq 0) (zq 0) (qdec 866025403784 12) (zq 0) (zq 0) (zq 0) (zq (-2)), Mat3 1 0 0 0 (-1) 0 0 0 (-1), 12));
  (QMat (zq 1) (zq 1) (zq 0) (zq 1) (zq (-1)) (qdec (-173205) 5) (zq 1) (zq (-1)) (qdec 173205 5), (QMat (zq 1) (zq 1) (zq 0) (zq 1) (zq (-1)) (qdec (-173205) 5) (zq 1) (zq (-1)) (qdec 173205 5), Mat3 1 0 0 0 1 0 0 0 1, QMat (zq 1) (zq 1) (zq 0) (zq 1) (zq (-1)) (qdec (-173205) 5) (zq 1) (zq (-1)) (qdec 173205 5), QMat (zq 1) (zq 1) (zq 0) (zq 1) (zq (-1)) (qdec (-173205) 5) (zq 1) (zq (-1)) (qdec 173205 5), Mat3 1 0 0 0 1 0 0 0 1, 13));
  (QMat (zq 1) (zq 1) (qdec 5 1) (zq 1) (zq (-1)) (zq 0) (zq 0) (zq 0) (zq 2), (QMat (zq (-1)) (zq (-1)) (qdec 5 1) (zq (-1)) (zq 1) (zq 0) (zq 0) (zq 0) (zq 2), Mat3 (-1) 0 0 0 (-1) 0 0 0 1, QMat (zq (-1)) (qdec 5 1) (zq 0) (zq 1) (zq 0) (zq (-2)) (zq 0) (zq 2) (zq 0), QMat (zq 1) (zq 1) (qdec (-5) 1) (zq (-1)) (zq 1) (zq 0) (zq 0) (zq 0) (zq (-2)), Mat3 (-1) (-1) 0 0 0 (-1) 0 (-1) 0, 14));
  (QMat (zq (-1)) (zq 1) (zq 1) (zq 1) (zq (-1)) (zq 1) (zq 2) (zq 2) (zq (-2)), (QMat (zq 2) (zq 0) (zq (-1)) (zq 0) (zq 2) (zq (-1)) (zq 0) (zq 0) (zq 2), Mat3 0 1 0 1 0 0 1 1 (-1), QMat (zq (-1)) (zq 0) (zq (-2)) (zq (-1)) (zq (-2)) (zq 0) (zq 2) (zq 0) (zq 0), QMat (zq 0) (zq 2) (zq (-1)) (zq 2) (zq 0) (zq (-1)) (zq 0) (zq 0) (zq 2), Mat3 0 0 1 (-1) 0 0 0 (-1) 0, 15));
  (QMat (zq 1) (qdec 779796 6) (qdec (-104442) 5) (zq 1) (qdec (-11798) 4) (qdec (-143973) 5) (zq (-1)) (zq 1) (qdec (-168415) 5), (QMat (zq 1) (qdec 779796 6) (qdec (-104442) 5) (zq 1) (qdec (-11798) 4) (qdec (-143973) 5) (zq (-1)) (zq 1) (qdec (-168415) 5), Mat3 1 0 0 0 1 0 0 0 1, QMat (qdec 104442 5) (qdec 779796 6) (qdec 1779796 6) (qdec 143973 5) (qdec (-11789) 4) (qdec (-1789) 4) (qdec 168415 5) (zq 1) (zq 0), QMat (qdec 779796 6) (zq 1) (qdec (-735376) 6) (qdec (-11789) 4) (zq 1) (qdec 161863 5) (zq 1) (zq (-1)) (qdec 168415 5), Mat3 0 0 1 1 (-1) 0 0 1 (-1), 16));
  (QMat (zq 1) (qdec 809568 6) (qdec (-105387) 5) (zq 1) (qdec (-115957) 5) (qdec (-161088) 5) (zq 1) (zq (-1)) (qdec 151474 5), (QMat (zq 1) (qdec 809568 6) (qdec (-105387) 5) (zq 1) (qdec (-115957) 5) (qdec (-161088) 5) (zq 1) (zq (-1)) (qdec 151474 5), Mat3 1 0 0 0 1 0 0 0 1, QMat (qdec (-5387) 5) (zq 1) (qdec 1809568 6) (qdec (-61088) 5) (zq 1) (qdec (-15957) 5) (qdec 251474 5) (zq 1) (zq 0), QMat (qdec (-809568) 6) (zq (-1)) (qdec 755698 6) (qdec 115957 5) (zq (-1)) (qdec (-177045) 5) (zq 1) (zq (-1)) (qdec 151474 5), Mat3 1 (-1) 1 (-1) 1 0 0 (-1) 1, 17));
  (QMat (zq 0) (zq 1) (zq (-2)) (zq 0) (zq (-2)) (zq (-1)) (zq 2) (zq 1) (zq 1), (QMat (zq 0) (zq 1) (zq (-2)) (zq 0) (zq (-2)) (zq (-1)) (zq 2) (zq 1) (zq 1), Mat3 1 0 0 0 1 0 0 0 1, QMat (zq (-2)) (zq (-3)) (zq (-1)) (zq (-1)) (zq 1) (zq (-3)) (zq 1) (zq 0) (zq 0), QMat (zq 0) (zq 2) (zq 1) (zq 0) (zq 1) (zq (-2)) (zq (-2)) (zq (-1)) (zq (-1)), Mat3 (-2) (-1) (-1) 1 0 0 1 0 1, 18));
  (QMat (qdec (-5) 1) (qdec 5 1) (qdec 5 1) (zq 1) (zq (-1)) (zq 1) (qdec 15 1) (qdec 15 1) (qdec (-15) 1), (QMat (zq (-1)) (qdec (-5) 1) (qdec (-5) 1) (zq 0) (zq (-1)) (zq 1) (zq 0) (qdec 15 1) (qdec 15 1), Mat3 0 0 1 (-1) 0 0 (-1) (-1) 0, QMat (qdec 5 1) (zq 0) (zq 0) (zq 1) (zq 2) (zq 0) (qdec 15 1) (zq 0) (zq 3), QMat (zq 1) (qdec 5 1) (qdec 5 1) (zq 0) (zq (-1)) (zq 1) (zq 0) (qdec (-15) 1) (qdec (-15) 1), Mat3 2 1 1 (-1) (-1) 0 (-1) (-1) (-1), 19));
  (QMat (zq 1) (qdec 170119 5) (qdec (-10034) 4) (zq 1) (qdec (-145119) 5) (qdec 189395 7) (zq 1) (zq 1) (qdec 223446 5), (QMat (zq 1) (qdec 170119 5) (qdec (-10034) 4) (zq 1) (qdec (-145119) 5) (qdec 189395 7) (zq 1) (zq 1) (qdec 223446 5), Mat3 1 0 0 0 1 0 0 0 1, QMat (zq 1) (qdec 170119 5) (qdec 69779 5) (zq 1) (qdec (-145119) 5) (qdec (-14322505) 7) (zq 1) (zq 1) (qdec 323446 5), QMat (zq 1) (qdec 170119 5) (qdec (-10034) 4) (zq 1) (qdec (-145119) 5) (qdec 189395 7) (zq 1) (zq 1) (qdec 223446 5), Mat3 1 0 0 0 1 (-1) 0 0 1, 20));
  (QMat (zq 0) (zq 1) (zq 0) (zq 0) (zq 0) (zq 1) (qdec 5 1) (zq 0) (zq 0), (QMat (zq 0) (zq 1) (zq 0) (zq 0) (zq 0) (zq 1) (qdec 5 1) (zq 0) (zq 0), Mat3 1 0 0 0 1 0 0 0 1, QMat (zq 0) (zq 1) (zq 0) (zq 0) (zq 0) (zq 1) (qdec 5 1) (zq 0) (zq 0), QMat (zq 0) (zq 1) (zq 0) (zq 0) (zq 0) (zq 1) (qdec 5 1) (zq 0) (zq 0), Mat3 1 0 0 0 1 0 0 0 1, 21));
  (QMat (zq 0) (zq 1) (qdec (-5) 1) (zq 0) (zq 0) (qdec 866025403784 12) (qdec (-5) 1) (zq 0) (zq 0), (QMat (zq 0) (zq 1) (qdec (-5) 1) (zq 0) (zq 0) (qdec 866025403784 12) (qdec (-5) 1) (zq 0) (zq 0), Mat3 1 0 0 0 1 0 0 0 1, QMat (zq 0) (zq 1) (qdec (-5) 1) (zq 0) (zq 0) (qdec 866025403784 12) (qdec (-5) 1) (zq 0) (zq 0), QMat (zq 0) (zq 1) (qdec (-5) 1) (zq 0) (zq 0) (qdec 866025403784 12) (qdec (-5) 1) (zq 0) (zq 0), Mat3 1 0 0 0 1 0 0 0 1, 22));
  (QMat (zq 1) (zq 2) (qdec (-3333333) 7) (zq 1) (zq (-1)) (qdec (-154116) 5) (zq 1) (zq (-1)) (qdec 187449 5), (QMat (zq 1) (zq 2) (qdec (-3333333) 7) (zq 1) (zq (-1)) (qdec (-154116) 5) (zq 1) (zq (-1)) (qdec 187449 5), Mat3 1 0 0 0 1 0 0 0 1, QMat (qdec (-3333333) 7) (zq 1) (zq 2) (qdec (-154116) 5) (zq 1) (zq (-1)) (qdec 187449 5) (zq 1) (zq (-1)), QMat (zq (-1)) (qdec 3333333 7) (zq (-2)) (zq (-1)) (qdec 154116 5) (zq 1) (zq (-1)) (qdec (-187449) 5) (zq 1), Mat3 0 (-1) 0 (-1) 0 0 0 0 (-1), 23));
  (QMat (zq (-1)) (qdec 151184 5) (qdec (-255922) 6) (zq 0) (zq 0) (qdec (-144338) 5) (zq (-1)) (qdec (-845178) 6) (qdec 92259 5), (QMat (zq (-1)) (qdec 151184 5) (qdec (-255922) 6) (zq 0) (zq 0) (qdec (-144338) 5) (zq (-1)) (qdec (-845178) 6) (qdec 92259 5), Mat3 1 0 0 0 1 0 0 0 1, QMat (qdec (-255922) 6) (qdec 151184 5) (qdec 1255922 6) (qdec (-144338) 5) (zq 0) (qdec 144338 5) (qdec 92259 5) (qdec (-845178) 6) (qdec 7741 5), QMat (zq (-1)) (qdec 151184 5) (qdec (-255922) 6) (zq 0) (zq 0) (qdec (-144338) 5) (zq (-1)) (qdec (-845178) 6) (qdec 92259 5), Mat3 (-1) 0 1 0 1 0 (-1) 0 0, 24));
  (QMat (zq 1) (qdec 145119 5) (qdec (-116241) 5) (zq 1) (qdec (-170119) 5) (qdec (-156776) 5) (zq 1) (zq (-1)) (qdec 148018 5), (QMat (zq 1) (qdec 145119 5) (qdec (-116241) 5) (zq 1) (qdec (-170119) 5) (qdec (-156776) 5) (zq 1) (zq (-1)) (qdec 148018 5), Mat3 1 0 0 0 1 0 0 0 1, QMat (zq 1) (qdec 145119 5) (qdec 28878 5) (zq 1) (qdec (-170119) 5) (qdec (-326895) 5) (zq 1) (zq (-1)) (qdec 48018 5), QMat (zq 1) (qdec 145119 5) (qdec (-116241) 5) (zq 1) (qdec (-170119) 5) (qdec (-156776) 5) (zq 1) (zq (-1)) (qdec 148018 5), Mat3 1 0 0 0 1 (-1) 0 0 1, 25));
  (QMat (zq 0) (qdec 5 1) (zq 0) (zq 1) (zq 0) (zq 0) (qdec 15 1) (qdec 15 1) (zq 3), (QMat (zq (-1)) (qdec (-5) 1) (qdec (-5) 1) (zq 0) (zq (-1)) (zq 0) (zq 0) (zq 0) (qdec (-15) 1), Mat3 0 (-1) 0 (-2) (-1) (-1) 1 1 0, QMat (zq 0) (qdec 5 1) (zq 0) (zq 1) (zq 0) (zq 0) (qdec 15 1) (qdec 15 1) (zq 3), QMat (zq (-1)) (qdec (-5) 1) (qdec (-5) 1) (zq 0) (zq (-1)) (zq 0) (zq 0) (zq 0) (qdec (-15) 1), Mat3 0 (-1) 0 (-2) (-1) (-1) 1 1 0, 26));
  (QMat (zq 1) (qdec 1618033 6) (qdec (-464824) 6) (zq 1) (qdec (-618033) 6) (qdec 1464824 6) (zq 0) (zq 1) (qdec 1907413 6), (QMat (zq (-1)) (qdec (-1618033) 6) (qdec (-1464824) 6) (zq (-1)) (qdec 618033 6) (qdec 464824 6) (zq 0) (zq (-1)) (qdec 1907413 6), Mat3 (-1) 0 (-1) 0 (-1) 0 0 0 1, QMat (qdec (-1464824) 6) (qdec (-153209) 6) (zq 1) (qdec 464824 6) (qdec 153209 6) (zq 1) (qdec 1907413 6) (qdec (-2907413) 6) (zq 0), QMat (zq (-1)) (qdec (-1618033) 6) (qdec (-1464824) 6) (zq (-1)) (qdec 618033 6) (qdec 464824 6) (zq 0) (zq (-1)) (qdec 1907413 6), Mat3 0 1 1 0 1 0 (-1) 0 0, 27));
  (QMat (zq 1) (qdec 144896 5) (qdec (-342424) 6) (zq 1) (qdec (-948958) 6) (qdec 1342424 6) (zq 0) (zq 1) (qdec 202006 5), (QMat (zq 1) (qdec 144896 5) (qdec (-342424) 6) (zq 1) (qdec (-948958) 6) (qdec 1342424 6) (zq 0) (zq 1) (qdec 202006 5), Mat3 1 0 0 0 1 0 0 0 1, QMat (qdec (-144896) 5) (zq (-1)) (qdec 342424 6) (qdec 948958 6) (zq (-1)) (qdec (-1342424) 6) (zq (-1)) (zq 0) (qdec (-202006) 5), QMat (zq 1) (qdec 144896 5) (qdec (-342424) 6) (zq 1) (qdec (-948958) 6) (qdec 1342424 6) (zq 0) (zq 1) (qdec 202006 5), Mat3 0 (-1) 0 (-1) 0 0 0 0 (-1), 28));
  (QMat (zq 1) (qdec 161803 5) (qdec (-666125) 6) (zq 1) (qdec (-618034) 6) (qdec 116613 5) (zq 0) (zq 1) (qdec 204852 5), (QMat (zq 1) (qdec 161803 5) (qdec (-666125) 6) (zq 1) (qdec (-618034) 6) (qdec 116613 5) (zq 0) (zq 1) (qdec 204852 5), Mat3 1 0 0 0 1 0 0 0 1, QMat (qdec (-666125) 6) (zq 1) (qdec 161803 5) (qdec 116613 5) (zq 1) (qdec (-618034) 6) (qdec 204852 5) (zq 0) (zq 1), QMat (zq 1) (qdec 161803 5) (qdec (-666125) 6) (zq 1) (qdec (-618034) 6) (qdec 116613 5) (zq 0) (zq 1) (qdec 204852 5), Mat3 0 0 1 1 0 0 0 1 0, 29));
  (QMat (zq 1) (qdec 161803 5) (qdec (-361373) 7) (zq 1) (qdec (-618034) 6) (qdec 536137 6) (zq 0) (zq 1) (qdec 238982 5), (QMat (zq 1) (qdec 161803 5) (qdec (-361373) 7) (zq 1) (qdec (-618034) 6) (qdec 536137 6) (zq 0) (zq 1) (qdec 238982 5), Mat3 1 0 0 0 1 0 0 0 1, QMat (zq 1) (qdec 161803 5) (qdec (-361373) 7) (zq 1) (qdec (-618034) 6) (qdec 536137 6) (zq 0) (zq 1) (qdec 238982 5), QMat (zq 1) (qdec 161803 5) (qdec (-361373) 7) (zq 1) (qdec (-618034) 6) (qdec 536137 6) (zq 0) (zq 1) (qdec 238982 5), Mat3 1 0 0 0 1 0 0 0 1, 30));
  (QMat (zq (-1)) (qdec (-3) 1) (qdec (-2) 1) (zq 0) (qdec (-138183192) 8) (zq 0) (zq 0) (qdec (-2324953) 8) (qdec 172046505 8), (QMat (zq (-1)) (qdec (-3) 1) (qdec (-2) 1) (zq 0) (qdec (-138183192) 8) (zq 0) (zq 0) (qdec (-2324953) 8) (qdec 172046505 8), Mat3 1 0 0 0 1 0 0 0 1, QMat (zq (-1)) (qdec (-3) 1) (qdec (-2) 1) (zq 0) (qdec (-138183192) 8) (zq 0) (zq 0) (qdec (-2324953) 8) (qdec 172046505 8), QMat (zq (-1)) (qdec (-3) 1) (qdec (-2) 1) (zq 0) (qdec (-138183192) 8) (zq 0) (zq 0) (qdec (-2324953) 8) (qdec 172046505 8), Mat3 1 0 0 0 1 0 0 0 1, 31));
  (QMat (qdec 5 1) (zq 0) (zq 2) (qdec 5 1) (zq 0) (zq (-2)) (zq 0) (zq 1) (zq 0), (QMat (qdec 5 1) (zq 0) (zq 2) (qdec 5 1) (zq 0) (zq (-2)) (zq 0) (zq 1) (zq 0), Mat3 1 0 0 0 1 0 0 0 1, QMat (zq 1) (zq 0) (zq 0) (zq 0) (zq 2) (zq 0) (zq 0) (zq 0) (zq 3), QMat (zq 1) (zq 0) (zq 0) (zq 0) (zq 2) (zq 0) (zq 0) (zq 0) (zq 3), Mat3 1 0 0 0 1 0 0 0 1, 32));
  (QMat (zq 2) (zq 0) (qdec 5 1) (zq 0) (zq 2) (zq 0) (zq 0) (zq 0) (zq 2), (QMat (zq 2) (zq 0) (qdec (-5) 1) (zq 0) (zq (-2)) (zq 0) (zq 0) (zq 0) (zq (-2)), Mat3 1 0 0 0 (-1) 0 0 0 (-1), QMat (zq 2) (zq 0) (qdec 5 1) (zq 0) (zq 2) (zq 0) (zq 0) (zq 0) (zq 2), QMat (zq 2) (zq 0) (qdec (-5) 1) (zq 0) (zq (-2)) (zq 0) (zq 0) (zq 0) (zq (-2)), Mat3 1 0 0 0 (-1) 0 0 0 (-1), 33));
  (QMat (zq 1) (qdec 122474487 8) (qdec (-165985087) 9) (zq 1) (qdec (-122474487) 8) (qdec (-164308297) 8) (zq 1) (zq (-1)) (qdec 180906806 8), (QMat (zq 1) (qdec 122474487 8) (qdec (-165985087) 9) (zq 1) (qdec (-122474487) 8) (qdec (-164308297) 8) (zq 1) (zq (-1)) (qdec 180906806 8), Mat3 1 0 0 0 1 0 0 0 1, QMat (zq 1) (qdec 122474487 8) (qdec (-16598509) 8) (zq 1) (qdec (-122474487) 8) (qdec (-164308297) 8) (zq 1) (zq (-1)) (qdec 180906806 8), QMat (zq 1) (qdec 122474487 8) (qdec 16598509 8) (zq 1) (qdec 22474487 8) (qdec 164308297 8) (zq 1) (zq 1) (qdec 180906806 8), Mat3 1 0 0 0 1 0 0 0 1, 34));
  (QMat (zq 1) (qdec 161803 5) (qdec (-668912) 6) (zq 1) (qdec (-618034) 6) (qdec 196676 5) (zq 1) (zq (-1)) (qdec (-129785) 5), (QMat (zq 1) (qdec 161803 5) (qdec (-668912) 6) (zq 1) (qdec (-618034) 6) (qdec 196676 5) (zq 1) (zq (-1)) (qdec (-129785) 5), Mat3 1 0 0 0 1 0 0 0 1, QMat (qdec (-668912) 6) (qdec 161803 5) (zq 1) (qdec 196676 5) (qdec (-618034) 6) (zq 1) (qdec (-129785) 5) (zq (-1)) (zq 1), QMat (zq (-1)) (qdec (-161803) 5) (qdec 668912 6) (zq (-1)) (qdec 618034 6) (qdec (-196676) 5) (zq (-1)) (zq 1) (qdec 129785 5), Mat3 0 0 (-1) 0 (-1) 0 (-1) 0 0, 35));
  (QMat (zq 1) (qdec 141421 5) (qdec (-143541) 5) (zq 1) (qdec (-141421) 5) (qdec (-143541) 5) (zq 1) (zq 0) (qdec 137083 5), (QMat (zq 1) (qdec 141421 5) (qdec (-143541) 5) (zq 1) (qdec (-141421) 5) (qdec (-143541) 5) (zq 1) (zq 0) (qdec 137083 5), Mat3 1 0 0 0 1 0 0 0 1, QMat (zq 1) (qdec 141421 5) (qdec (-143541) 5) (zq 1) (qdec (-141421) 5) (qdec (-143541) 5) (zq 1) (zq 0) (qdec 137083 5), QMat (zq 1) (qdec 141421 5) (qdec (-143541) 5) (zq 1) (qdec (-141421) 5) (qdec (-143541) 5) (zq 1) (zq 0) (qdec 137083 5), Mat3 1 0 0 0 1 0 0 0 1, 36));
  (QMat (zq 1) (zq 1) (qdec (-179092) 5) (zq 0) (qdec (-141421) 5) (qdec (-147209) 5) (zq 1) (zq (-1)) (qdec 790922 6), (QMat (zq 1) (zq 1) (qdec (-179092) 5) (zq 0) (qdec (-141421) 5) (qdec (-147209) 5) (zq 1) (zq (-1)) (qdec 790922 6), Mat3 1 0 0 0 1 0 0 0 1, QMat (qdec (-179092) 5) (zq 1) (zq 1) (qdec (-147209) 5) (qdec (-141421) 5) (zq 0) (qdec 790922 6) (zq (-1)) (zq 1), QMat (zq (-1)) (zq (-1)) (qdec 179092 5) (zq 0) (qdec 141421 5) (qdec 147209 5) (zq (-1)) (zq 1) (qdec (-790922) 6), Mat3 0 0 (-1) 0 (-1) 0 (-1) 0 0, 37));
  (QMat (qdec 5 1) (qdec 5 1) (zq 0) (zq 1) (zq (-1)) (zq 0) (zq 0) (zq 0) (zq 3), (QMat (zq (-1)) (qdec 5 1) (zq 0) (zq 0) (zq 1) (zq 0) (zq 0) (zq 0) (zq 3), Mat3 (-1) 1 0 (-1) 0 0 0 0 1, QMat (qdec 5 1) (qdec 5 1) (zq 0) (zq 1) (zq (-1)) (zq 0) (zq 0) (zq 0) (zq 3), QMat (zq (-1)) (qdec 5 1) (zq 0) (zq 0) (zq 1) (zq 0) (zq 0) (zq 0) (zq 3), Mat3 (-1) 1 0 (-1) 0 0 0 0 1, 38));
  (QMat (zq 1) (zq 0) (qdec (-166542) 5) (zq 0) (qdec (-173205) 5) (qdec (-672857) 6) (zq 1) (zq (-1)) (qdec 166542 5), (QMat (zq 1) (zq 0) (qdec (-166542) 5) (zq 0) (qdec (-173205) 5) (qdec (-672857) 6) (zq 1) (zq (-1)) (qdec 166542 5), Mat3 1 0 0 0 1 0 0 0 1, QMat (zq 0) (qdec (-166542) 5) (zq 1) (qdec (-173205) 5) (qdec (-672857) 6) (zq 0) (zq (-1)) (qdec 166542 5) (zq 1), QMat (zq 1) (zq 0) (qdec (-166542) 5) (zq 0) (qdec (-173205) 5) (qdec (-672857) 6) (zq 1) (zq (-1)) (qdec 166542 5), Mat3 0 1 0 0 0 1 1 0 0, 39));
  (QMat (zq 1) (qdec 161803 5) (qdec (-105557) 5) (zq 1) (qdec (-618034) 6) (qdec 199895 5) (zq 1) (zq (-1)) (qdec (-943376) 6), (QMat (zq 1) (qdec 161803 5) (qdec (-105557) 5) (zq 1) (qdec (-618034) 6) (qdec 199895 5) (zq 1) (zq (-1)) (qdec (-943376) 6), Mat3 1 0 0 0 1 0 0 0 1, QMat (zq 1) (qdec 161803 5) (qdec (-105557) 5) (zq 1) (qdec (-618034) 6) (qdec 199895 5) (zq 1) (zq (-1)) (qdec (-943376) 6), QMat (zq 1) (qdec 161803 5) (qdec (-105557) 5) (zq 1) (qdec (-618034) 6) (qdec 199895 5) (zq 1) (zq (-1)) (qdec (-943376) 6), Mat3 1 0 0 0 1 0 0 0 1, 40));
  (QMat (zq 1) (zq 1) (qdec (-185397) 5) (zq 0) (qdec (-141421) 5) (qdec (-854143) 6) (zq 1) (zq (-1)) (qdec 135397 5), (QMat (zq 1) (zq 1) (qdec (-185397) 5) (zq 0) (qdec (-141421) 5) (qdec (-854143) 6) (zq 1) (zq (-1)) (qdec 135397 5), Mat3 1 0 0 0 1 0 0 0 1, QMat (qdec (-185397) 5) (zq 1) (zq 1) (qdec (-854143) 6) (zq 0) (qdec (-141421) 5) (qdec 135397 5) (zq 1) (zq (-1)), QMat (zq 1) (zq 1) (qdec (-185397) 5) (zq 0) (qdec (-141421) 5) (qdec (-854143) 6) (zq 1) (zq (-1)) (qdec 135397 5), Mat3 0 0 1 1 0 0 0 1 0, 41));
  (QMat (zq 1) (qdec 161803 5) (qdec (-153633) 5) (zq 1) (qdec (-61803) 5) (qdec 136706 5) (zq 1) (zq (-1)) (qdec (-133073) 5), (QMat (zq 1) (qdec 161803 5) (qdec (-153633) 5) (zq 1) (qdec (-61803) 5) (qdec 136706 5) (zq 1) (zq (-1)) (qdec (-133073) 5), Mat3 1 0 0 0 1 0 0 0 1, QMat (qdec (-153633) 5) (zq 1) (qdec 161803 5) (qdec 136706 5) (zq 1) (qdec (-61803) 5) (qdec (-133073) 5) (zq 1) (zq (-1)), QMat (zq 1) (qdec 161803 5) (qdec (-153633) 5) (zq 1) (qdec (-61803) 5) (qdec 136706 5) (zq 1) (zq (-1)) (qdec (-133073) 5), Mat3 0 0 1 1 0 0 0 1 0, 42));
  (QMat (zq 1) (qdec 164194 5) (qdec (-139716) 5) (zq 1) (qdec (-114194) 5) (qdec (-134718) 5) (zq 1) (zq (-1)) (qdec 149434 5), (QMat (zq 1) (qdec 164194 5) (qdec (-139716) 5) (zq 1) (qdec (-114194) 5) (qdec (-134718) 5) (zq 1) (zq (-1)) (qdec 149434 5), Mat3 1 0 0 0 1 0 0 0 1, QMat (qdec (-39716) 5) (qdec 264194 5) (qdec (-139716) 5) (qdec (-34718) 5) (qdec (-14194) 5) (qdec (-134718) 5) (qdec 249434 5) (zq 0) (qdec 149434 5), QMat (zq 1) (qdec 164194 5) (qdec (-139716) 5) (zq 1) (qdec (-114194) 5) (qdec (-134718) 5) (zq 1) (zq (-1)) (qdec 149434 5), Mat3 1 (-1) 0 0 1 0 (-1) 1 1, 43));
  (QMat (zq 1) (qdec (-3) 1) (qdec (-2) 1) (zq 0) (qdec (-137889497) 8) (zq 0) (zq 0) (qdec (-9299811) 8) (qdec 172046505 8), (QMat (zq 1) (qdec (-3) 1) (qdec (-2) 1) (zq 0) (qdec (-137889497) 8) (zq 0) (zq 0) (qdec (-9299811) 8) (qdec 172046505 8), Mat3 1 0 0 0 1 0 0 0 1, QMat (zq 1) (qdec (-3) 1) (qdec (-2) 1) (zq 0) (qdec (-137889497) 8) (zq 0) (zq 0) (qdec (-9299811) 8) (qdec 172046505 8), QMat (zq 1) (qdec (-3) 1) (qdec (-2) 1) (zq 0) (qdec (-137889497) 8) (zq 0) (zq 0) (qdec (-9299811) 8) (qdec 172046505 8), Mat3 1 0 0 0 1 0 0 0 1, 44))
].
(** get_params: get_params_IN.in, get_params_eps.in, A.out ... zeta.out, l.out, m.out, n.out. *)
Definition params_cases : list (qmat * Qc * (Qc * Qc * Qc * Qc * Qc * Qc) * (Z * Z * Z)) := [
  (QMat (zq 1) (zq 0) (zq 0) (zq 0) (zq 1) (zq 0) (zq 0) (zq 0) (zq 2), (qdec 1 5), ((zq 1), (zq 1), (zq 4), (zq 0), (zq 0), (zq 0)), (0, 0, 0));
  (QMat (qdec 5 1) (zq 0) (qdec 5 1) (zq 0) (zq 3) (zq 0) (qdec 5 1) (zq 0) (qdec (-5) 1), (qdec 1 5), ((qdec 5 1), (zq 9), (qdec 5 1), (zq 0), (zq 0), (zq 0)), (0, 0, 0));
  (QMat (zq 1) (qdec (-5) 1) (zq 0) (zq 0) (qdec 8660254 7) (qdec (-17320508) 7) (zq 0) (qdec 16329932 7) (qdec 16329932 7), (qdec 1 5), ((zq 1), (qdec 3666666784691 12), (qdec 566666676503 11), (qdec 2333333608712 12), (zq 0), (zq (-1))), (1, 0, (-1)));
  (QMat (zq 1) (qdec (-5) 1) (zq 0) (zq 0) (qdec 8660254 7) (zq 0) (zq 0) (zq 0) (qdec 32659864 7), (qdec 1 5), ((zq 1), (qdec 999999993445 12), (qdec 10666667165 9), (zq 0), (zq 0), (zq (-1))), (0, 0, (-1)));
  (QMat (zq 1) (qdec (-5) 1) (zq 0) (zq 0) (qdec 8660254 7) (qdec (-17320508) 7) (zq 0) (qdec 16329932 7) (qdec 16329932 7), (qdec 1 5), ((zq 1), (qdec 3666666784691 12), (qdec 566666676503 11), (qdec 2333333608712 12), (zq 0), (zq (-1))), (1, 0, (-1)));
  (QMat (zq 1) (qdec 5 1) (zq 0) (zq 0) (qdec (-8660254) 7) (qdec (-17320508) 7) (zq 0) (qdec 32659864 7) (zq 0), (qdec 1 5), ((zq 1), (qdec 1166666715843 11), (qdec 2999999973781 12), (qdec 2999999973781 12), (zq 0), (zq 1)), (1, 0, 1));
  (QMat (zq 1) (qdec 5 1) (zq 0) (zq 0) (qdec 4330127 6) (zq 0) (zq 0) (zq 0) (qdec 16329932 7), (qdec 1 5), ((zq 1), (qdec 18999999836129 12), (qdec 266666679125 11), (zq 0), (zq 0), (zq 1)), (0, 0, 1));
  (QMat (zq 1) (qdec 5 1) (zq 0) (zq 0) (qdec (-8660254) 7) (qdec (-17320508) 7) (zq 0) (qdec 48989796 7) (zq 0), (qdec 1 5), ((zq 1), (qdec 250000011147 10), (qdec 2999999973781 12), (qdec 2999999973781 12), (zq 0), (zq 1)), (1, 0, 1));
  (QMat (zq 0) (qdec 5 1) (zq 1) (qdec (-17320508) 7) (qdec 25980762 7) (zq 0) (qdec 16329932 7) (qdec 32659864 7) (zq 0), (qdec 1 5), ((qdec 566666676503 11), (qdec 17666667106 9), (zq 1), (zq 1), (zq 0), (qdec 1666667243643 12)), (1, 0, 1));
  (QMat (qdec 5 1) (qdec (-5) 1) (zq 1) (qdec 5 1) (qdec 5 1) (zq 0) (qdec (-5) 1) (qdec 5 1) (zq 1), (qdec 1 5), ((qdec 75 2), (qdec 75 2), (zq 2), (zq 0), (zq 0), (qdec (-5) 1)), (0, 0, (-1)));
  (QMat (zq 1) (zq 0) (qdec 5 1) (zq 0) (zq 0) (qdec (-15) 1) (zq 0) (zq 1) (qdec 5 1), (qdec 1 5), ((zq 1), (zq 1), (qdec 275 2), (zq 1), (zq 1), (zq 0)), (1, 1, 0));
  (QMat (qdec 5 2) (qdec 1 1) (qdec 99 2) (qdec 27 1) (qdec 7 1) (qdec 3 1) (qdec 33 1) (qdec 45 1) (qdec 54 1), (qdec 1 5), ((qdec 181825 4), (qdec 2075 2), (qdec 302301 4), (qdec 49218 3), (qdec 37359 3), (qdec 3349 2)), (1, 1, 1));
  (QMat (zq 1) (qdec (-3) 1) (qdec (-3) 1) (qdec (-1) 1) (zq 1) (qdec (-1) 1) (zq 0) (qdec 3 1) (qdec (-15) 1), (qdec 1 5), ((qdec 101 2), (qdec 118 2), (qdec 235 2), (qdec (-92) 2), (qdec (-58) 2), (qdec (-8) 1)), ((-1), (-1), (-1)));
  (QMat (qdec 3682244 8) (zq 0) (zq 0) (zq 0) (qdec 6377834 8) (zq 0) (qdec 96209276 8) (qdec 96209276 8) (qdec 192418552 8), (qdec 1 5), ((qdec 926978370932 12), (qdec 929690155498 12), (qdec 370248991538 11), (qdec 370248991538 11), (qdec 370248991538 11), (qdec 185124495769 11)), (1, 1, 1));
  (QMat (qdec 7364488 8) (zq 0) (zq 0) (zq 0) (qdec 12755668 8) (zq 0) (qdec 24052319 8) (qdec 24052319 8) (qdec 48104638 8), (qdec 1 5), ((qdec 63274973278 12), (qdec 7412211154 11), (qdec 231405619711 12), (qdec 231405619711 12), (qdec 231405619711 12), (qdec 115702809856 12)), (1, 1, 1));
  (QMat (qdec 120559446 8) (zq 0) (zq 0) (zq 0) (qdec 208815085 8) (zq 0) (qdec 393745511 8) (qdec 393745511 8) (qdec 787491022 8), (qdec 1 5), ((qdec 16957010745248 12), (qdec 19863926715621 12), (qdec 620142109731 10), (qdec 620142109731 10), (qdec 620142109731 10), (qdec 3100710548653 11)), (1, 1, 1))
].
(** condition_check: A.in ... zeta.in, niggli_check_eps.in, niggli_check.out. *)
Definition check_cases : list ((Qc * Qc * Qc * Qc * Qc * Qc) * Qc * bool) := [
  (((zq 0), (zq 2), (zq 1), (zq 0), (zq 0), (zq 0)), (qdec 1 5), false);
  (((zq 1), (zq 1), (zq 2), (zq 1), (zq 0), (zq 0)), (qdec 1 5), false);
  (((zq 1), (zq 2), (zq 2), (zq 0), (zq 2), (zq 0)), (qdec 1 5), false);
  (((zq 1), (zq 1), (zq 2), (zq 0), (zq 1), (zq 0)), (qdec 1 5), false);
  (((zq 1), (zq 2), (zq 3), (zq (-3)), (zq (-1)), (zq 0)), (qdec 1 5), false);
  (((zq 1), (zq 2), (zq 3), (zq (-1)), (zq (-3)), (zq (-2))), (qdec 1 5), false);
  (((zq 1), (zq 2), (qdec 21 1), (qdec (-19) 1), (qdec (-9) 1), (qdec (-9) 1)), (qdec 1 5), false);
  (((zq 1), (zq 2), (qdec 21 1), (zq 2), (qdec 1 1), (qdec 9 1)), (qdec 1 5), false);
  (((zq 1), (zq 2), (qdec 21 1), (qdec 1 1), (zq 1), (qdec 9 1)), (qdec 1 5), false);
  (((zq 1), (zq 2), (qdec 21 1), (qdec 1 1), (qdec 5 1), (zq 1)), (qdec 1 5), false);
  (((zq 1), (zq 2), (qdec 21 1), (zq (-2)), (qdec (-1) 1), (qdec (-9) 1)), (qdec 1 5), false);
  (((zq 1), (zq 2), (qdec 21 1), (qdec (-1) 1), (zq (-1)), (qdec (-9) 1)), (qdec 1 5), false);
  (((zq 1), (zq 2), (qdec 21 1), (qdec (-1) 1), (qdec (-5) 1), (zq (-1))), (qdec 1 5), false);
  (((zq 1), (zq 2), (qdec 21 1), (qdec (-19) 1), (qdec (-8) 1), (qdec (-3) 1)), (qdec 1 5), false)
].
(** get_sign, find_C3, find_C4. *)
Definition sign_cases : list (Qc * Z) := [
  ((zq 1), 1);
  ((zq (-1)), (-1));
  ((zq 0), 0)
].
Definition C3_cases : list (Z * Z * Z * mat3) := [
  ((-1), (-1), (-1), Mat3 (-1) 0 0 0 (-1) 0 0 0 (-1));
  (1, 1, 1, Mat3 1 0 0 0 1 0 0 0 1)
].
Definition C4_cases : list (Z * Z * Z * mat3) := [
  ((-1), (-1), (-1), Mat3 1 0 0 0 1 0 0 0 1);
  (0, 0, 1, Mat3 1 0 0 0 (-1) 0 0 0 (-1));
  (1, (-1), 0, Mat3 (-1) 0 0 0 1 0 0 0 (-1));
  (0, 1, (-1), Mat3 (-1) 0 0 0 (-1) 0 0 0 1)
].
(** get_kpd_cubic: lat_id.in, kpd.in, get_kpd_cubic.out. *)
Definition kpd_cubic_cases : list (Z * Z * list Z) := [
  (1, 5, [8; 16; 27; 32; 64; 108; 125; 128; 216; 256]);
  (3, 100, [108; 125; 128; 216; 250; 256; 343; 432; 500; 512]);
  (5, 108, [108; 125; 128; 216; 250; 256; 343; 432; 500; 512]);
  (5, 1001, [1024; 1331; 1372; 1458; 1728; 2000; 2048; 2197; 2662; 2744])
].
(** get_kpd_tric: tric_kpd.in, get_kpd_tric.out, get_kpd_tric_mult.out. *)
Definition kpd_tric_cases : list (Z * Z * Z) := [
  (1001, 37, 3);
  (500, 62, 2);
  (1177, 43, 3)
].
(** transform_supercell: HNF.in, No.in, Nu.in, Co.in, Cu.in, O.in, Bu.out. *)
Definition transform_cases : list (mat3 * qmat * qmat * mat3 * mat3 * qmat * qmat) := [
  (Mat3 2 0 0 0 2 0 2 2 4, QMat (zq 1) (zq 0) (zq 0) (zq 0) (zq 1) (zq 0) (zq 0) (zq 0) (zq 1), QMat (zq 1) (zq 0) (zq 0) (zq 0) (zq 1) (zq 0) (zq 0) (zq 0) (zq 1), Mat3 1 0 0 0 1 0 0 0 1, Mat3 1 0 0 0 1 0 0 0 1, QMat (zq 1) (zq 0) (zq 0) (zq 0) (zq 1) (zq 0) (zq 0) (zq 0) (zq 1), QMat (zq 2) (zq 0) (zq 0) (zq 0) (zq 2) (zq 0) (zq 2) (zq 2) (zq 4));
  (Mat3 2 0 0 0 2 0 2 2 4, QMat (zq 1) (zq 0) (zq 0) (zq 0) (zq 1) (zq 0) (zq 0) (zq 0) (zq 1), QMat (zq (-1)) (zq 0) (zq 0) (zq 0) (zq 0) (zq 1) (zq 0) (zq 1) (zq 0), Mat3 1 0 0 0 1 0 0 0 1, Mat3 (-1) (-1) (-1) 0 0 1 0 1 0, QMat (zq 1) (zq 0) (zq 0) (zq 0) (zq 1) (zq 0) (zq 0) (zq 0) (zq 1), QMat (zq 2) (zq 2) (zq 2) (zq (-2)) (zq 2) (zq 0) (zq 0) (zq 0) (zq 2));
  (Mat3 2 0 0 0 4 0 0 0 2, QMat (qdec (-779796) 6) (zq (-1)) (qdec 104442 5) (qdec 11798 4) (zq (-1)) (qdec 143973 5) (zq (-1)) (zq 1) (qdec 168415 5), QMat (zq 0) (zq (-1)) (zq 0) (zq 1) (zq 0) (zq (-1)) (qdec (-5) 1) (qdec 5 1) (zq (-1)), Mat3 0 0 1 (-1) 1 0 0 (-1) 0, Mat3 1 (-1) 1 (-1) (-1) 0 0 1 (-1), QMat (qdec 104442 5) (qdec 779796 6) (qdec 1779796 6) (qdec 143973 5) (qdec (-11798) 4) (qdec (-1798) 4) (qdec 168415 5) (zq 1) (zq 0), QMat (zq 2) (zq 2) (zq 2) (zq 8) (zq 4) (zq 10) (zq (-2)) (zq 0) (zq 0));
  (Mat3 1 0 0 8 16 0 0 0 1, QMat (qdec (-779796) 6) (zq (-1)) (qdec 104442 5) (qdec 11798 4) (zq (-1)) (qdec 143973 5) (zq (-1)) (zq 1) (qdec 168415 5), QMat (zq 0) (zq (-1)) (zq 0) (zq 1) (zq 0) (zq (-1)) (qdec (-5) 1) (qdec 5 1) (zq (-1)), Mat3 0 0 1 (-1) 1 0 0 (-1) 0, Mat3 1 (-1) 1 (-1) (-1) 0 0 1 (-1), QMat (qdec 104442 5) (qdec 779796 6) (qdec 1779796 6) (qdec 143973 5) (qdec (-11798) 4) (qdec (-1798) 4) (qdec 168415 5) (zq 1) (zq 0), QMat (zq 1) (zq 1) (zq 1) (zq 40) (zq 24) (zq 49) (zq (-19)) (zq (-11)) (zq (-22)));
  (Mat3 1 0 0 1 2 0 0 0 8, QMat (zq 1) (zq 0) (zq 0) (zq 0) (zq 1) (zq 0) (zq 0) (zq 0) (zq 2), QMat (zq 0) (zq 0) (zq (-1)) (qdec (-5) 1) (zq 0) (zq 0) (zq 0) (qdec 5 1) (zq 0), Mat3 1 0 0 0 1 0 0 0 1, Mat3 1 5 3 (-2) (-11) (-8) 1 6 4, QMat (zq 1) (zq 0) (zq 0) (zq 0) (zq 1) (zq 0) (zq 0) (zq 0) (zq 2), QMat (zq 8) (zq 8) (zq 8) (zq (-2)) (zq 1) (qdec 35 1) (zq 2) (zq 0) (qdec (-15) 1));
  (Mat3 1 0 0 1 2 0 3 3 4, QMat (zq (-1)) (zq (-1)) (zq 1) (zq 1) (zq 0) (zq 2) (zq 0) (zq 1) (zq 2), QMat (zq 1) (zq 1) (zq (-1)) (zq (-1)) (zq 0) (zq (-2)) (zq 0) (zq (-1)) (zq (-2)), Mat3 1 1 1 (-1) 1 0 0 (-1) 0, Mat3 1 2 1 1 (-1) 0 (-2) 0 (-1), QMat (zq 1) (zq 2) (zq 4) (zq 2) (zq 1) (zq 3) (zq 2) (zq 2) (zq 3), QMat (zq 16) (zq 47) (zq 31) (zq 12) (zq 35) (zq 24) (zq 12) (zq 38) (zq 25))
].
