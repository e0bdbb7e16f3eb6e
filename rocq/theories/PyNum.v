(** Python numbers and loops used by the enumerators. *)
From Coq Require Import ZArith List Lia Bool.
Import ListNotations.
Open Scope Z_scope.

(** [range(lo, hi, step)] for a positive [step]. Also used for the loops
    [x = 0; while x < hi: ...; x += step] (same sequence of values). *)
Definition py_range (lo hi step : Z) : list Z :=
  map (fun i => lo + step * Z.of_nat i)
      (seq 0 (Z.to_nat ((hi - lo + step - 1) / step))).

(** [for x in l: body x], where [body] returns the entries it appends. *)
Definition py_for {A B} (l : list A) (body : A -> list B) : list B := flat_map body l.

(** [if c: body]. *)
Definition py_if {B} (c : bool) (body : list B) : list B := if c then body else [].

(** [x % y == 0] on integers ([y > 0] at every call site). *)
Definition mod0 (x y : Z) : bool := x mod y =? 0.

(** A Python float that arises from quotients of integers, as an exact
    fraction.  Simplification: IEEE rounding is not modelled (the quotients
    are exact in the program as long as numbers stay below 2^53). *)
Record frac : Type := Frac { fnum : Z; fden : Z }.
Definition fz (z : Z) : frac := Frac z 1.
Definition fadd x y := Frac (fnum x * fden y + fnum y * fden x) (fden x * fden y).
Definition fsub x y := Frac (fnum x * fden y - fnum y * fden x) (fden x * fden y).
Definition fmul x y := Frac (fnum x * fnum y) (fden x * fden y).
Definition fdiv x y := Frac (fnum x * fden y) (fden x * fnum y).
Definition fopp x := Frac (- fnum x) (fden x).
(** [x % y == 0] for a float [x] and an integer [y]. *)
Definition fmod0 (x : frac) (y : Z) : bool := fnum x mod (fden x * y) =? 0.
(** [x == k] for a float [x] and an integer literal [k]. *)
Definition feqz (x : frac) (k : Z) : bool := fnum x =? k * fden x.

Declare Scope frac_scope.
Delimit Scope frac_scope with frac.
Bind Scope frac_scope with frac.
Notation "x + y" := (fadd x y) : frac_scope.
Notation "x - y" := (fsub x y) : frac_scope.
Notation "x * y" := (fmul x y) : frac_scope.
Notation "x / y" := (fdiv x y) : frac_scope.
Notation "- x" := (fopp x) : frac_scope.
Coercion fz : Z >-> frac.

(** [if c%2==0: [0,c/2] else: [0]]. [c/2] is exact because [c] is even. *)
Definition halves (c : Z) : list Z := if c mod 2 =? 0 then [0; c / 2] else [0].
