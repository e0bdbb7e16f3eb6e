(** The 44 lattice characters of the International Tables for Crystallography (vol. A, table
    9.2.5.1): Bravais type and crystal family of each. *)
From Coq Require Import ZArith String.
Open Scope Z_scope.

Inductive bravais : Type := cP | cI | cF | hP | hR | tP | tI | oP | oC | oI | oF | mP | mC | mI | aP.

Definition character (k : Z) : bravais :=
  match k with
  | 1 => cF | 2 => hR | 3 => cP | 4 => hR | 5 => cI | 6 => tI | 7 => tI | 8 => oI | 9 => hR
  | 10 => mC | 11 => tP | 12 => hP | 13 => oC | 14 => mC | 15 => tI | 16 => oF | 17 => mC
  | 18 => tI | 19 => oI | 20 => mC | 21 => tP | 22 => hP | 23 => oC | 24 => hR | 25 => mC
  | 26 => oF | 27 => mC | 28 => mC | 29 => mC | 30 => mC | 32 => oP | 33 => mP | 34 => mP
  | 35 => mP | 36 => oC | 37 => mC | 38 => oC | 39 => mC | 40 => oC | 41 => mC | 42 => oI
  | 43 => mI | _ => aP
  end.

(** The numbers of the families in the docstring of niggli_id: cubic 1, hexagonal 2,
    rhombohedral 3, tetragonal 4, orthorhombic 5, monoclinic 6, triclinic 7. *)
Definition family (b : bravais) : Z :=
  match b with
  | cP | cI | cF => 1 | hP => 2 | hR => 3 | tP | tI => 4 | oP | oC | oI | oF => 5
  | mP | mC | mI => 6 | aP => 7
  end.

(** The names used by the program ("monoclinc" is its spelling). *)
Definition bravais_name (b : bravais) : string :=
  match b with
  | cP => "simple cubic" | cI => "body centered cubic" | cF => "face centered cubic"
  | hP => "hexagonal" | hR => "rhombohedral"
  | tP => "simple tetragonal" | tI => "body centered tetragonal"
  | oP => "simple orthorhombic" | oC => "base centered orthorhombic"
  | oI => "body centered orthorhombic" | oF => "face centered orthorhombic"
  | mP => "simple monoclinic" | mC => "base centered monoclinic" | mI => "body centered monoclinc"
  | aP => "triclinic"
  end.

(** Order of the point group of a lattice of the family. *)
Definition holohedry_order (fam : Z) : nat :=
  match fam with 1 => 48 | 2 => 24 | 3 => 12 | 4 => 16 | 5 => 8 | 6 => 4 | _ => 2 end.
