(** The 44 lattice characters for real cells, International Tables vol. A, table 9.2.5.1, in terms
    of the scalar products A = aa, B = bb, C = cc, D = bc, E = ac, F = ab. *)
From Coq Require Import Reals ZArith List.
From Verif Require Import Model_delinter.
Import ListNotations.
Open Scope R_scope.

Definition equalities (n : Z) (A B C D E F : R) : Prop :=
  let sum := 2 * Rabs (D + E + F) = A + B in
  match n with
  | 1%Z => A = B /\ B = C /\ D = A / 2 /\ E = A / 2 /\ F = A / 2
  | 2%Z | 4%Z => A = B /\ B = C /\ D = E /\ E = F
  | 3%Z => A = B /\ B = C /\ D = 0 /\ E = 0 /\ F = 0
  | 5%Z => A = B /\ B = C /\ D = - A / 3 /\ E = - A / 3 /\ F = - A / 3
  | 6%Z => A = B /\ B = C /\ D = E /\ sum
  | 7%Z => A = B /\ B = C /\ E = F /\ sum
  | 8%Z => A = B /\ B = C /\ sum
  | 9%Z => A = B /\ D = A / 2 /\ E = A / 2 /\ F = A / 2
  | 10%Z | 14%Z => A = B /\ D = E
  | 11%Z => A = B /\ D = 0 /\ E = 0 /\ F = 0
  | 12%Z => A = B /\ D = 0 /\ E = 0 /\ F = - A / 2
  | 13%Z => A = B /\ D = 0 /\ E = 0
  | 15%Z => A = B /\ D = - A / 2 /\ E = - A / 2 /\ F = 0
  | 16%Z => A = B /\ D = E /\ sum
  | 17%Z => A = B /\ sum
  | 18%Z => B = C /\ D = A / 4 /\ E = A / 2 /\ F = A / 2
  | 19%Z => B = C /\ E = A / 2 /\ F = A / 2
  | 20%Z | 25%Z => B = C /\ E = F
  | 21%Z => B = C /\ D = 0 /\ E = 0 /\ F = 0
  | 22%Z => B = C /\ D = - B / 2 /\ E = 0 /\ F = 0
  | 23%Z => B = C /\ E = 0 /\ F = 0
  | 24%Z => B = C /\ E = - A / 3 /\ F = - A / 3 /\ sum
  | 26%Z => D = A / 4 /\ E = A / 2 /\ F = A / 2
  | 27%Z => E = A / 2 /\ F = A / 2
  | 28%Z => E = A / 2 /\ F = 2 * D
  | 29%Z => E = 2 * D /\ F = A / 2
  | 30%Z => D = B / 2 /\ F = 2 * E
  | 31%Z | 44%Z => True
  | 32%Z => D = 0 /\ E = 0 /\ F = 0
  | 33%Z => D = 0 /\ F = 0
  | 34%Z => D = 0 /\ E = 0
  | 35%Z => E = 0 /\ F = 0
  | 36%Z => D = 0 /\ E = - A / 2 /\ F = 0
  | 37%Z => E = - A / 2 /\ F = 0
  | 38%Z => D = 0 /\ E = 0 /\ F = - A / 2
  | 39%Z => E = 0 /\ F = - A / 2
  | 40%Z => D = - B / 2 /\ E = 0 /\ F = 0
  | 41%Z => D = - B / 2 /\ F = 0
  | 42%Z => D = - B / 2 /\ E = - A / 2 /\ F = 0
  | 43%Z => sum /\ Rabs (2 * D + F) = B
  | _ => False
  end.

(** Type I: all three scalar products positive; type II: none positive. *)
Definition type_one : list Z := [1; 2; 9; 10; 18; 19; 20; 26; 27; 28; 29; 30; 31]%Z.
Definition signs (n : Z) (D E F : R) : Prop :=
  if in_dec Z.eq_dec n type_one then 0 < D /\ 0 < E /\ 0 < F else D <= 0 /\ E <= 0 /\ F <= 0.

(** A property of the six scalar products of the columns of a matrix. *)
Definition products (P : R -> R -> R -> R -> R -> R -> Prop) (V : rmat) : Prop :=
  let a := rcol1 V in let b := rcol2 V in let c := rcol3 V in
  P (rdot a a) (rdot b b) (rdot c c) (rdot b c) (rdot a c) (rdot a b).

(** The columns of [V] satisfy the equalities of character [n], and its sign condition. *)
Definition satisfies (n : Z) (V : rmat) : Prop := products (equalities n) V.
Definition perfect (n : Z) (V : rmat) : Prop :=
  satisfies n V /\ products (fun _ _ _ D E F => signs n D E F) V.

(** The numbers for which the program enforces the right equalities, and the others. *)
Definition right_numbers : list Z :=
  [1; 2; 3; 4; 5; 9; 10; 11; 13; 14; 15; 18; 19; 20; 21; 22; 23; 25; 29; 30; 31; 32; 33; 34; 35;
   36; 37; 38; 39; 40; 41; 42; 44]%Z.
Definition wrong_numbers : list Z := [6; 7; 8; 12; 16; 17; 24; 26; 27; 28]%Z.
