(** The specification shared by the enumeration theorems.  Deliberately small:
    nothing here refers to the program. *)
From Coq Require Import ZArith List.
From Verif Require Import Mat3.
Open Scope Z_scope.

(** A lower-triangular matrix [[a,0,0],[b,c,0],[d,e,f]]. *)
Definition HNF (a b c d e f : Z) : mat3 := Mat3 a 0 0 b c 0 d e f.

(** [H] is a Hermite normal form of determinant [n]: positive diagonal, each
    off-diagonal entry reduced modulo the diagonal entry of its row. *)
Definition is_hnf (n : Z) (H : mat3) : Prop :=
  exists a b c d e f,
    H = HNF a b c d e f /\
    1 <= a /\ 1 <= c /\ 1 <= f /\ a * c * f = n /\
    0 <= b < c /\ 0 <= d < f /\ 0 <= e < f.

(** The lattice with basis the columns of [H] (in coordinates of the parent
    lattice). *)
Definition in_lattice (H : mat3) (x : vec3) : Prop := exists v, x = mvec H v.

(** [X] is an isometry of the lattice with Gram matrix [G], written in lattice
    coordinates: an integer matrix that preserves all scalar products. *)
Definition isometry (G X : mat3) : Prop := mmul (mtr X) (mmul G X) = G.

(** [X] maps the superlattice [H Z^3] into itself. *)
Definition preserves (X H : mat3) : Prop :=
  forall x, in_lattice H x -> in_lattice H (mvec X x).

(** Every isometry of the parent lattice keeps the superlattice. *)
Definition symmetry_preserving (G H : mat3) : Prop :=
  forall X, isometry G X -> preserves X H.

(** Specification of an enumerator for the lattice with Gram matrix [G]. *)
Definition enumerates_exactly (G : mat3) (enum : Z -> list mat3) : Prop :=
  forall n H, In H (enum n) <-> 1 <= n /\ is_hnf n H /\ symmetry_preserving G H.

(** ** Symmetry up to a numerical tolerance

    The canonical bases in the sources are decimal approximations, so their
    symmetry holds only up to rounding.  [near_isometry G eps X]: all scalar
    products of the lattice basis change by at most [eps] under [X]. *)
Definition near (eps x y : Z) : Prop := Z.abs (x - y) <= eps.
Definition near_isometry (G : mat3) (eps : Z) (X : mat3) : Prop :=
  let M := mmul (mtr X) (mmul G X) in
  near eps (m11 M) (m11 G) /\ near eps (m12 M) (m12 G) /\ near eps (m13 M) (m13 G) /\
  near eps (m21 M) (m21 G) /\ near eps (m22 M) (m22 G) /\ near eps (m23 M) (m23 G) /\
  near eps (m31 M) (m31 G) /\ near eps (m32 M) (m32 G) /\ near eps (m33 M) (m33 G).

(** Gram matrix of the lattice whose basis vectors are the columns of [B]. *)
Definition gram (B : mat3) : mat3 := mmul (mtr B) B.

(** The enumerator lists exactly the HNFs kept by every operation that is a
    symmetry, up to [eps], of the lattice with basis [B]. *)
Definition enumerates_for_basis (B : mat3) (eps : Z) (enum : Z -> list mat3) : Prop :=
  forall n H, In H (enum n) <->
    1 <= n /\ is_hnf n H /\
    (forall X, near_isometry (gram B) eps X -> preserves X H).

(** Two integer matrices whose columns span the same lattice. *)
Definition same_lattice (H K : mat3) : Prop :=
  forall x, in_lattice H x <-> in_lattice K x.

(** An enumerator lists every symmetry-preserving superlattice of index [n] exactly
    once: no repetitions, no two entries span the same lattice, and every integer
    basis [M] with |det M| = n whose lattice is kept by all isometries is
    represented. *)
Definition lists_each_superlattice_once (G : mat3) (enum : Z -> list mat3) : Prop :=
  forall n, 1 <= n ->
    NoDup (enum n) /\
    (forall H K, In H (enum n) -> In K (enum n) -> same_lattice H K -> H = K) /\
    (forall H, In H (enum n) -> mdet H = n /\ symmetry_preserving G H) /\
    (forall M, Z.abs (mdet M) = n -> symmetry_preserving G M ->
       exists H, In H (enum n) /\ same_lattice H M).
