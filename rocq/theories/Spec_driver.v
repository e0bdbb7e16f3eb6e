(** Words used in the statements about the file KPOINTS. *)
From Coq Require Import ZArith QArith Qcanon List Bool Ascii String.
From Verif Require Import Mat3 QMat QNum Spec_kgrids.
Import ListNotations.
Open Scope string_scope.

(** ** Reading numbers *)
(** The blank-separated words of a line; [w]: the beginning of the current word. *)
Definition flush (w : string) : list string := if String.eqb w "" then [] else [w].
Fixpoint words_after (w s : string) : list string :=
  match s with
  | "" => flush w
  | String c s =>
      if Ascii.eqb c " " then (flush w ++ words_after "" s)%list
      else words_after (w ++ String c "") s
  end.
Definition words (s : string) : list string := words_after "" s.
Definition digit_of (c : ascii) : option Z :=
  let n := nat_of_ascii c in
  if Nat.leb 48 n && Nat.leb n 57 then Some (Z.of_nat n - 48)%Z else None.
(** The number written by the leading digits (after [acc]), and what follows them. *)
Fixpoint whole (acc : Z) (s : string) : Z * string :=
  match s with
  | "" => (acc, s)
  | String c s' => match digit_of c with Some d => whole (10 * acc + d) s' | None => (acc, s) end
  end.
Definition sign_of (s : string) : Z * string :=
  match s with
  | String c s' => if Ascii.eqb c "-" then ((-1)%Z, s') else (1%Z, s)
  | "" => (1%Z, s)
  end.
(** Digits, possibly after a minus sign. *)
Definition integer (s : string) : option Z :=
  let '(g, s) := sign_of s in
  let '(n, r) := whole 0 s in
  match s, r with String _ _, "" => Some (g * n)%Z | _, _ => None end.
(** Digits with a point, possibly after a minus sign. *)
Definition decimal (s : string) : option Qc :=
  let '(g, s) := sign_of s in
  let '(n, r) := whole 0 s in
  match r with
  | String c f =>
      if Ascii.eqb c "." then
        match whole 0 f with
        | (m, "") => Some (zq g * (zq n + zq m / zq (10 ^ Z.of_nat (length f))))%Qc
        | _ => None
        end
      else None
  | "" => None
  end.

(** The numbers that fit into 15 characters with 12 decimal places: above -9.9999999999995 and
    below 99.9999999999995. *)
Definition fits (x : Qc) : Prop :=
  (qdec (-99999999999995) 13 < x /\ x < qdec 999999999999995 13)%Qc.
(** A line with the point [x], each coordinate to twelve places, and the weight [w]. *)
Definition within (v x : Qc) : Prop := (qabs (v - x) <= qdec 5 13)%Qc.
Definition reads_point (line : string) (x : qvec) (w : Z) : Prop :=
  exists a b c d va vb vc, words line = [a; b; c; d] /\
    decimal a = Some va /\ within va (w1 x) /\
    decimal b = Some vb /\ within vb (w2 x) /\
    decimal c = Some vc /\ within vc (w3 x) /\ integer d = Some w.

(** ** Points of a grid *)
Definition qvadd (x y : qvec) : qvec := QVec (w1 x + w1 y) (w2 x + w2 y) (w3 x + w3 y).
Definition qvsub (x y : qvec) : qvec := QVec (w1 x - w1 y) (w2 x - w2 y) (w3 x - w3 y).
Definition norm2 (x : qvec) : Qc := (w1 x * w1 x + w2 x * w2 x + w3 x * w3 x)%Qc.
(** [p] is a point of the grid [g] with offset [s] (in units of the grid vectors). *)
Definition on_grid (g : qmat) (s : Qc * Qc * Qc) (p : qvec) : Prop :=
  let '(s1, s2, s3) := s in exists z, p = qmvec g (qvadd (qvof z) (QVec s1 s2 s3)).
(** No point that differs from [p] by a vector of the lattice [R] is shorter. *)
Definition in_first_zone (R : qmat) (p : qvec) : Prop :=
  forall G, in_span R G -> (norm2 p <= norm2 (qvadd p G))%Qc.

(** What is expected of the library: [mapKptsIntoBZ]: an equivalent point in the first zone. *)
Definition maps_into_zone (R : qmat) (f : qvec -> qvec) : Prop :=
  forall p, in_span R (qvsub (f p) p) /\ in_first_zone R (f p).
(** [generateIrredKpointList]: points of the grid, such that each point of the grid is carried to
    one of them by a symmetry in [ops], up to a vector of the reciprocal lattice [R]; with weights
    between 1 and 48 (the largest number of symmetries of a crystal) that add up to the number of
    points of the grid per cell of [R]. *)
Definition kpoint_list (ops : qmat -> Prop) (R g : qmat) (s : Qc * Qc * Qc) (l : list (qvec * Z))
  : Prop :=
  (forall p w, In (p, w) l -> on_grid g s p /\ (1 <= w <= 48)%Z) /\
  (forall q, on_grid g s q -> exists p w T, In (p, w) l /\ ops T /\ in_span R (qvsub p (qmvec T q))) /\
  (forall M, R = qmul g (qof M) -> fold_right Z.add 0%Z (map snd l) = Z.abs (mdet M)).

(** Squared lengths of the columns. *)
Definition col_norms (A : qmat) : Qc * Qc * Qc :=
  (norm2 (QVec (q11 A) (q21 A) (q31 A)), norm2 (QVec (q12 A) (q22 A) (q32 A)),
   norm2 (QVec (q13 A) (q23 A) (q33 A))).
(** The squared length of each lattice vector times the sum of the squared lengths of the
    reciprocal vectors is less than 400 (minus a margin for rounding).  It is 3 for a cubic cell. *)
Definition not_too_skewed (U : qmat) : Prop :=
  let '(a, b, c) := col_norms U in
  let '(r1, r2, r3) := col_norms (reciprocal U) in
  let r := (r1 + r2 + r3)%Qc in
  (a * r < zq 399 /\ b * r < zq 399 /\ c * r < zq 399)%Qc.

(** The file [lines] lists the points [pts] (coordinates in units of the reciprocal vectors) of
    the grid [g] with offset [s], with their weights: three lines, of which the second is the
    number of points, then one line for each point; all listed points belong to the grid and all
    points of the grid are images of listed points. *)
Definition lists_grid (ops : qmat -> Prop) (R g : qmat) (s : Qc * Qc * Qc) (lines : list string)
    (pts : list (qvec * Z)) : Prop :=
  (exists title count t, lines = title :: count :: " Fractional" :: skipn 3 lines /\
     words count = [t] /\ integer t = Some (Z.of_nat (List.length pts))) /\
  Forall2 (fun line xw => reads_point line (fst xw) (snd xw)) (skipn 3 lines) pts /\
  Forall (fun xw => exists p, on_grid g s p /\ in_span R (qvsub (qmvec R (fst xw)) p)) pts /\
  (forall q, on_grid g s q -> exists x w T, In (x, w) pts /\ ops T /\
     in_span R (qvsub (qmvec R x) (qmvec T q))).
