(** The canonical bases written in niggli_lat_id.py (decimal matrices, basis vectors
    as columns) and the integer Gram matrices they stand for. *)
From Coq Require Import ZArith List Lia Bool.
From Verif Require Import Mat3 Spec.
Import ListNotations.
Open Scope Z_scope.

(** Unit of the decimal literals: [dec m p] is the literal [m * 10^-p], counted in
    units of [10^-16]. *)
Definition dec (m : Z) (p : Z) : Z := m * 10 ^ (16 - p).

(** [np.transpose([u,v,w])]: the three vectors become the columns. *)
Definition cols (x1 y1 z1 x2 y2 z2 x3 y3 z3 : Z) : mat3 :=
  of_cols (Vec3 x1 y1 z1) (Vec3 x2 y2 z2) (Vec3 x3 y3 z3).

(** 1e-3 in units of [10^-32] (scalar products of vectors). *)
Definition eps3 : Z := 10 ^ 29.

(** niggli_lat_id.py 67 *)
Definition basis_1 : mat3 :=
  cols (dec 0 0) (dec 1 0) (dec 1 0)
       (dec 1 0) (dec 0 0) (dec 1 0)
       (dec 1 0) (dec 1 0) (dec 0 0).
(** niggli_lat_id.py 72-73 *)
Definition basis_2 : mat3 :=
  cols (dec (-111652) 5) (dec (-610985) 6) (dec 616515 6)
       (dec 0 0) (dec (-132288) 5) (dec (-5) 1)
       (dec 1 0) (dec 132288 5) (dec 15 1).
(** niggli_lat_id.py 80 *)
Definition basis_3 : mat3 :=
  cols (dec 1 0) (dec 0 0) (dec 0 0)
       (dec 0 0) (dec 1 0) (dec 0 0)
       (dec 0 0) (dec 0 0) (dec 1 0).
(** niggli_lat_id.py 90-91 *)
Definition basis_4 : mat3 :=
  cols (dec (-548584) 6) (dec 774292 6) (dec 104858 5)
       (dec 0 0) (dec (-132288) 5) (dec 5 1)
       (dec 1 0) (dec 132288 5) (dec 5 1).
(** niggli_lat_id.py 85 *)
Definition basis_5 : mat3 :=
  cols (dec (-1) 0) (dec 1 0) (dec 1 0)
       (dec 1 0) (dec (-1) 0) (dec 1 0)
       (dec 1 0) (dec 1 0) (dec (-1) 0).
(** niggli_lat_id.py 98-99 *)
Definition basis_6 : mat3 :=
  cols (dec 180278 5) (dec (-147253) 5) (dec 762655 6)
       (dec 280278 5) (dec 13535 5) (dec (-791285) 6)
       (dec 80278 5) (dec (-47253) 5) (dec 2762655 6).
(** niggli_lat_id.py 104-105 *)
Definition basis_7 : mat3 :=
  cols (dec 195095 5) (dec 119163 5) (dec 879663 6)
       (dec 0 0) (dec 260788 5) (dec 44606 5)
       (dec 95095 5) (dec (-41625) 5) (dec 2433603 6).
(** niggli_lat_id.py 110-112 *)
Definition basis_8 : mat3 :=
  cols (dec 141144 5) (dec 885622 7) (dec (-2) 0)
       (dec (-99868) 5) (dec 221232 5) (dec 1268178 6)
       (dec 341012 5) (dec (-11237578) 7) (dec (-1268178) 6).
(** niggli_lat_id.py 120 *)
Definition basis_9 : mat3 :=
  cols (dec 1 0) (dec 2 0) (dec 2 0)
       (dec 2 0) (dec 1 0) (dec 2 0)
       (dec 4 0) (dec 3 0) (dec 3 0).
(** niggli_lat_id.py 125-126 *)
Definition basis_10 : mat3 :=
  cols (dec 1 0) (dec (-1) 0) (dec 1 0)
       (dec (-146391) 5) (dec 0 0) (dec 196391 5)
       (dec 0 0) (dec 2 0) (dec 0 0).
(** niggli_lat_id.py 132 *)
Definition basis_11 : mat3 :=
  cols (dec 1 0) (dec 0 0) (dec 0 0)
       (dec 0 0) (dec 1 0) (dec 0 0)
       (dec 0 0) (dec 0 0) (dec 2 0).
(** niggli_lat_id.py 138 *)
Definition basis_12 : mat3 :=
  cols (dec 1 0) (dec 0 0) (dec 0 0)
       (dec 5 1) (dec (-8660254037844386) 16) (dec 0 0)
       (dec 0 0) (dec 0 0) (dec 2 0).
(** niggli_lat_id.py 148-149 *)
Definition basis_13 : mat3 :=
  cols (dec 1 0) (dec 1 0) (dec 1 0)
       (dec 1 0) (dec (-1) 0) (dec (-1) 0)
       (dec 0 0) (dec (-173205) 5) (dec 173205 5).
(** niggli_lat_id.py 161 *)
Definition basis_14 : mat3 :=
  cols (dec (-1) 0) (dec 1 0) (dec 0 0)
       (dec 5 1) (dec 0 0) (dec 2 0)
       (dec 0 0) (dec (-2) 0) (dec 0 0).
(** niggli_lat_id.py 143 *)
Definition basis_15 : mat3 :=
  cols (dec (-1) 0) (dec (-1) 0) (dec 2 0)
       (dec 0 0) (dec (-2) 0) (dec 0 0)
       (dec (-2) 0) (dec 0 0) (dec 0 0).
(** niggli_lat_id.py 154-156 *)
Definition basis_16 : mat3 :=
  cols (dec 104442 5) (dec 143973 5) (dec 168415 5)
       (dec 779796 6) (dec (-11798) 4) (dec 1 0)
       (dec 1779796 6) (dec (-1798) 4) (dec 0 0).
(** niggli_lat_id.py 166-167 *)
Definition basis_17 : mat3 :=
  cols (dec (-105387) 5) (dec (-161088) 5) (dec 151474 5)
       (dec (-244302) 6) (dec (-277045) 5) (dec 51474 5)
       (dec 1809568 6) (dec (-15957) 5) (dec 0 0).
(** niggli_lat_id.py 176 *)
Definition basis_18 : mat3 :=
  cols (dec (-2) 0) (dec (-1) 0) (dec 1 0)
       (dec (-3) 0) (dec 1 0) (dec 0 0)
       (dec (-1) 0) (dec (-3) 0) (dec 0 0).
(** niggli_lat_id.py 181 *)
Definition basis_19 : mat3 :=
  cols (dec 5 1) (dec 1 0) (dec 15 1)
       (dec 0 0) (dec 2 0) (dec 0 0)
       (dec 0 0) (dec 0 0) (dec 3 0).
(** niggli_lat_id.py 186-187 *)
Definition basis_20 : mat3 :=
  cols (dec 1 0) (dec 1 0) (dec 1 0)
       (dec 170119 5) (dec (-145119) 5) (dec 1 0)
       (dec 69779 5) (dec (-14322505) 7) (dec 323446 5).
(** niggli_lat_id.py 194 *)
Definition basis_21 : mat3 :=
  cols (dec 0 0) (dec 0 0) (dec 5 1)
       (dec 1 0) (dec 0 0) (dec 0 0)
       (dec 0 0) (dec 1 0) (dec 0 0).
(** niggli_lat_id.py 199-200 *)
Definition basis_22 : mat3 :=
  cols (dec 0 0) (dec 0 0) (dec (-5) 1)
       (dec 1 0) (dec 0 0) (dec 0 0)
       (dec (-5) 1) (dec 8660254037844386 16) (dec 0 0).
(** niggli_lat_id.py 205-206 *)
Definition basis_23 : mat3 :=
  cols (dec (-3333333) 7) (dec (-154116) 5) (dec 187449 5)
       (dec 1 0) (dec 1 0) (dec 1 0)
       (dec 2 0) (dec (-1) 0) (dec (-1) 0).
(** niggli_lat_id.py 211-212 *)
Definition basis_24 : mat3 :=
  cols (dec (-255922) 6) (dec (-144338) 5) (dec 92259 5)
       (dec 151184 5) (dec 0 0) (dec (-845178) 6)
       (dec 1255922 6) (dec 144338 5) (dec 7741 5).
(** niggli_lat_id.py 217-218 *)
Definition basis_25 : mat3 :=
  cols (dec 1 0) (dec 1 0) (dec 1 0)
       (dec 145119 5) (dec (-170119) 5) (dec (-1) 0)
       (dec 28878 5) (dec (-326895) 5) (dec 48018 5).
(** niggli_lat_id.py 227 *)
Definition basis_26 : mat3 :=
  cols (dec 0 0) (dec 1 0) (dec 15 1)
       (dec 5 1) (dec 0 0) (dec 15 1)
       (dec 0 0) (dec 0 0) (dec 3 0).
(** niggli_lat_id.py 232 *)
Definition basis_27 : mat3 :=
  cols (dec (-1464824) 6) (dec 464824 6) (dec 1907413 6)
       (dec (-153209) 6) (dec 153209 6) (dec (-2907413) 6)
       (dec 1 0) (dec 1 0) (dec 0 0).
(** niggli_lat_id.py 238-239 *)
Definition basis_28 : mat3 :=
  cols (dec (-144896) 5) (dec 948958 6) (dec (-1) 0)
       (dec (-1) 0) (dec (-1) 0) (dec 0 0)
       (dec 342424 6) (dec (-1342424) 6) (dec (-202006) 5).
(** niggli_lat_id.py 244-245 *)
Definition basis_29 : mat3 :=
  cols (dec (-666125) 6) (dec 116613 5) (dec 204852 5)
       (dec 1 0) (dec 1 0) (dec 0 0)
       (dec 161803 5) (dec (-618034) 6) (dec 1 0).
(** niggli_lat_id.py 250-251 *)
Definition basis_30 : mat3 :=
  cols (dec 1 0) (dec 1 0) (dec 0 0)
       (dec 161803 5) (dec (-618034) 6) (dec 1 0)
       (dec (-361373) 7) (dec 536137 6) (dec 238982 5).
(** niggli_lat_id.py 263 *)
Definition basis_32 : mat3 :=
  cols (dec 1 0) (dec 0 0) (dec 0 0)
       (dec 0 0) (dec 2 0) (dec 0 0)
       (dec 0 0) (dec 0 0) (dec 3 0).
(** niggli_lat_id.py 288 *)
Definition basis_33 : mat3 :=
  cols (dec 2 0) (dec 0 0) (dec 0 0)
       (dec 0 0) (dec 2 0) (dec 0 0)
       (dec 5 1) (dec 0 0) (dec 2 0).
(** niggli_lat_id.py 299-300 *)
Definition basis_34 : mat3 :=
  cols (dec 1 0) (dec 1 0) (dec 1 0)
       (dec 122474487 8) (dec (-122474487) 8) (dec (-1) 0)
       (dec (-16598509) 8) (dec (-164308297) 8) (dec 180906806 8).
(** niggli_lat_id.py 274-275 *)
Definition basis_35 : mat3 :=
  cols (dec (-668912) 6) (dec 196676 5) (dec (-129785) 5)
       (dec 161803 5) (dec (-618034) 6) (dec (-1) 0)
       (dec 1 0) (dec 1 0) (dec 1 0).
(** niggli_lat_id.py 282-283 *)
Definition basis_36 : mat3 :=
  cols (dec 1 0) (dec 1 0) (dec 1 0)
       (dec 141421 5) (dec (-141421) 5) (dec 0 0)
       (dec (-143541) 5) (dec (-143541) 5) (dec 137083 5).
(** niggli_lat_id.py 318-319 *)
Definition basis_37 : mat3 :=
  cols (dec (-179092) 5) (dec (-147209) 5) (dec 790922 6)
       (dec 1 0) (dec (-141421) 5) (dec (-1) 0)
       (dec 1 0) (dec 0 0) (dec 1 0).
(** niggli_lat_id.py 294 *)
Definition basis_38 : mat3 :=
  cols (dec 5 1) (dec 1 0) (dec 0 0)
       (dec 5 1) (dec (-1) 0) (dec 0 0)
       (dec 0 0) (dec 0 0) (dec 3 0).
(** niggli_lat_id.py 324-325 *)
Definition basis_39 : mat3 :=
  cols (dec 0 0) (dec (-173205) 5) (dec (-1) 0)
       (dec (-166542) 5) (dec (-672857) 6) (dec 166542 5)
       (dec 1 0) (dec 0 0) (dec 1 0).
(** niggli_lat_id.py 268-269 *)
Definition basis_40 : mat3 :=
  cols (dec 1 0) (dec 1 0) (dec 1 0)
       (dec 161803 5) (dec (-618034) 6) (dec (-1) 0)
       (dec (-105557) 5) (dec 199895 5) (dec (-943376) 6).
(** niggli_lat_id.py 312-313 *)
Definition basis_41 : mat3 :=
  cols (dec (-185397) 5) (dec (-854143) 6) (dec 135397 5)
       (dec 1 0) (dec 0 0) (dec 1 0)
       (dec 1 0) (dec (-141421) 5) (dec (-1) 0).
(** niggli_lat_id.py 306-307 *)
Definition basis_42 : mat3 :=
  cols (dec (-153633) 5) (dec 136706 5) (dec (-133073) 5)
       (dec 1 0) (dec 1 0) (dec 1 0)
       (dec 161803 5) (dec (-61803) 5) (dec (-1) 0).
(** niggli_lat_id.py 330-332 *)
Definition basis_43 : mat3 :=
  cols (dec (-39716) 5) (dec (-34718) 5) (dec 249434 5)
       (dec 264194 5) (dec (-14194) 5) (dec 0 0)
       (dec (-139716) 5) (dec (-134718) 5) (dec 149434 5).

(** The basis returned with each number ([None] for the triclinic numbers 31 and 44
    and for numbers that do not occur). *)
Definition canonical_basis (k : Z) : option mat3 :=
  match k with
  | 1 => Some basis_1
  | 2 => Some basis_2
  | 3 => Some basis_3
  | 4 => Some basis_4
  | 5 => Some basis_5
  | 6 => Some basis_6
  | 7 => Some basis_7
  | 8 => Some basis_8
  | 9 => Some basis_9
  | 10 => Some basis_10
  | 11 => Some basis_11
  | 12 => Some basis_12
  | 13 => Some basis_13
  | 14 => Some basis_14
  | 15 => Some basis_15
  | 16 => Some basis_16
  | 17 => Some basis_17
  | 18 => Some basis_18
  | 19 => Some basis_19
  | 20 => Some basis_20
  | 21 => Some basis_21
  | 22 => Some basis_22
  | 23 => Some basis_23
  | 24 => Some basis_24
  | 25 => Some basis_25
  | 26 => Some basis_26
  | 27 => Some basis_27
  | 28 => Some basis_28
  | 29 => Some basis_29
  | 30 => Some basis_30
  | 32 => Some basis_32
  | 33 => Some basis_33
  | 34 => Some basis_34
  | 35 => Some basis_35
  | 36 => Some basis_36
  | 37 => Some basis_37
  | 38 => Some basis_38
  | 39 => Some basis_39
  | 40 => Some basis_40
  | 41 => Some basis_41
  | 42 => Some basis_42
  | 43 => Some basis_43
  | _ => None
  end.

(** Integer Gram matrix [gram_of k] of lattice [k] after multiplication by [gram_scale k].
    These are not in the source: they are the exactly symmetric lattices that the
    decimal bases approximate (see [canonical_gram_close]). *)
Definition gram_of (k : Z) : mat3 :=
  match k with
  | 1 => Mat3 2 1 1  1 2 1  1 1 2
  | 2 => Mat3 4 1 (-2)  1 4 (-5)  (-2) (-5) 10
  | 3 => Mat3 1 0 0  0 1 0  0 0 1
  | 4 => Mat3 4 (-1) 2  (-1) 4 (-3)  2 (-3) 6
  | 5 => Mat3 3 (-1) (-1)  (-1) 3 (-1)  (-1) (-1) 3
  | 6 => Mat3 24 17 17  17 34 0  17 0 34
  | 7 => Mat3 12 7 7  7 14 0  7 0 14
  | 8 => Mat3 24 (-15) 29  (-15) 30 (-30)  29 (-30) 58
  | 9 => Mat3 9 8 16  8 9 17  16 17 34
  | 10 => Mat3 6 1 (-4)  1 12 0  (-4) 0 8
  | 11 => Mat3 1 0 0  0 1 0  0 0 4
  | 12 => Mat3 2 1 0  1 2 0  0 0 8
  | 13 => Mat3 3 (-1) 0  (-1) 3 0  0 0 6
  | 14 => Mat3 8 (-2) (-8)  (-2) 17 0  (-8) 0 16
  | 15 => Mat3 6 2 2  2 4 0  2 0 4
  | 16 => Mat3 30 4 8  4 15 8  8 8 16
  | 17 => Mat3 120 110 (-33)  110 160 0  (-33) 0 66
  | 18 => Mat3 6 5 5  5 10 0  5 0 10
  | 19 => Mat3 7 4 9  4 8 0  9 0 18
  | 20 => Mat3 12 5 10  5 24 26  10 26 52
  | 21 => Mat3 1 0 0  0 4 0  0 0 4
  | 22 => Mat3 1 0 0  0 4 (-2)  0 (-2) 4
  | 23 => Mat3 6 0 (-1)  0 3 0  (-1) 0 6
  | 24 => Mat3 18 (-7) (-14)  (-7) 18 11  (-14) 11 22
  | 25 => Mat3 12 (-5) (-10)  (-5) 24 22  (-10) 22 44
  | 26 => Mat3 13 9 18  9 10 18  18 18 36
  | 27 => Mat3 24 (-21) (-4)  (-21) 34 0  (-4) 0 8
  | 28 => Mat3 16 2 1  2 8 4  1 4 24
  | 29 => Mat3 24 2 1  2 8 4  1 4 16
  | 30 => Mat3 4 2 1  2 8 4  1 4 12
  | 32 => Mat3 1 0 0  0 4 0  0 0 9
  | 33 => Mat3 16 0 4  0 16 0  4 0 17
  | 34 => Mat3 3 (-1) 0  (-1) 4 0  0 0 6
  | 35 => Mat3 6 (-1) 0  (-1) 4 0  0 0 3
  | 36 => Mat3 6 0 (-3)  0 8 0  (-3) 0 12
  | 37 => Mat3 12 (-1) (-2)  (-1) 8 0  (-2) 0 4
  | 38 => Mat3 5 (-3) 0  (-3) 5 0  0 0 36
  | 39 => Mat3 8 (-1) (-2)  (-1) 12 0  (-2) 0 4
  | 40 => Mat3 3 0 0  0 4 (-2)  0 (-2) 6
  | 41 => Mat3 12 (-1) (-4)  (-1) 4 0  (-4) 0 8
  | 42 => Mat3 12 (-3) (-4)  (-3) 6 0  (-4) 0 8
  | 43 => Mat3 26 (-4) 19  (-4) 28 (-14)  19 (-14) 24
  | _ => mid
  end.
Definition gram_scale (k : Z) : Z :=
  match k with
  | 2 => 2
  | 4 => 2
  | 6 => 4
  | 7 => 2
  | 8 => 4
  | 10 => 2
  | 12 => 2
  | 14 => 4
  | 16 => 5
  | 17 => 20
  | 19 => 2
  | 20 => 4
  | 21 => 4
  | 22 => 4
  | 24 => 6
  | 25 => 4
  | 26 => 4
  | 27 => 4
  | 28 => 4
  | 29 => 4
  | 30 => 2
  | 33 => 4
  | 36 => 2
  | 37 => 2
  | 38 => 4
  | 39 => 2
  | 41 => 2
  | 42 => 2
  | 43 => 4
  | _ => 1
  end.

(** The numbers that come with a basis. *)
Definition lattice_numbers : list Z :=
  [1; 2; 3; 4; 5; 6; 7; 8; 9; 10; 11; 12; 13; 14; 15; 16; 17; 18; 19; 20; 21; 22; 23; 24; 25; 26; 27; 28; 29; 30; 32; 33; 34; 35; 36; 37; 38; 39; 40; 41; 42; 43].

(** Every scalar product of the decimal basis differs from [G / s] by at most 1e-4. *)
Definition gram_close (B G : mat3) (s : Z) : Prop :=
  let D := gram B in
  let ok x y := Z.abs (s * x - 10 ^ 32 * y) <= s * 10 ^ 28 in
  ok (m11 D) (m11 G) /\ ok (m12 D) (m12 G) /\ ok (m13 D) (m13 G) /\
  ok (m21 D) (m21 G) /\ ok (m22 D) (m22 G) /\ ok (m23 D) (m23 G) /\
  ok (m31 D) (m31 G) /\ ok (m32 D) (m32 G) /\ ok (m33 D) (m33 G).
