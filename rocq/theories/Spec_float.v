(** What is used of floating point arithmetic. *)
From Coq Require Import ZArith QArith Qabs Qround Qreduction.
Open Scope Z_scope.

(** [rnd x] is the number the machine stores for the exact result [x].  Rounding to the nearest of the
    IEEE 754 doubles fulfils this:
    integers up to [2 ^ 53] are exact, and the error is at most [2 ^ -53] times the size of the number
    (or, below 1, [2 ^ -53]); the number stored depends on the value only. *)
Definition like_double (rnd : Q -> Q) : Prop :=
  (forall x y, (x == y)%Q -> (rnd x == rnd y)%Q) /\
  (forall z, Z.abs z <= 2 ^ 53 -> (rnd (inject_Z z) == inject_Z z)%Q) /\
  (forall x, (Qabs x <= inject_Z (2 ^ 900))%Q ->
     (Qabs (rnd x - x) * inject_Z (2 ^ 53) <= Qabs x + 1)%Q).

(** The finite IEEE 754 doubles: 53 binary digits and an exponent. *)
Definition is_double (y : Q) : Prop :=
  exists m e, Z.abs m < 2 ^ 53 /\ -1074 <= e <= 971 /\ (y == inject_Z m * Qpower 2 e)%Q.
(** [rnd] goes to a nearest double (below [2 ^ 900], so that nothing overflows). *)
Definition rounds_to_nearest (rnd : Q -> Q) : Prop :=
  (forall x y, (x == y)%Q -> (rnd x == rnd y)%Q) /\
  forall x, (Qabs x <= inject_Z (2 ^ 900))%Q ->
    is_double (rnd x) /\ forall y, is_double y -> (Qabs (rnd x - x) <= Qabs (y - x))%Q.

(** One such function: the place of the last digit is [2 ^ e], halves go up. *)
Definition ilog2 (x : Q) : Z :=
  let k := Z.log2 (Qnum x) - Z.log2 (QDen x) in
  if Qle_bool (Qpower 2 k) x then k else k - 1.
Definition round64 (x : Q) : Q :=
  let x := Qred x in
  if Qeq_bool x 0 then 0%Q
  else
    let e := Z.max (-1074) (ilog2 (Qabs x) - 52) in
    (inject_Z (Qfloor (x / Qpower 2 e + (1 # 2))%Q) * Qpower 2 e)%Q.
