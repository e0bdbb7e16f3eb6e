(** Model of the module delinter (src/delinter.f90).

    Reals are the exact real numbers of the standard library.  The constants
    3.1415926535897931 and 1.910633236249019 stand for pi and acos(-1/3).  [None] is a result that
    is not a number (root or arc cosine outside the domain, division by zero) or not set. *)
From Coq Require Import Reals ZArith List Bool.
Import ListNotations.
Open Scope R_scope.

Definition bind {A B} (x : option A) (f : A -> option B) : option B :=
  match x with Some a => f a | None => None end.
Local Notation "'do' x <- e ; f" := (bind e (fun x => f)) (at level 200, x name, right associativity).

Definition r_div (x y : R) : option R := if Req_EM_T y 0 then None else Some (x / y).
Definition r_sqrt (x : R) : option R := if Rle_dec 0 x then Some (sqrt x) else None.
Definition r_acos (x : R) : option R :=
  if Rle_dec (-1) x then if Rle_dec x 1 then Some (acos x) else None else None.

(** 3x3 arrays, by rows. *)
Record rmat : Type := RMat {
  r11 : R; r12 : R; r13 : R; r21 : R; r22 : R; r23 : R; r31 : R; r32 : R; r33 : R }.
Record rvec : Type := RVec { x1 : R; x2 : R; x3 : R }.
Definition rcol1 (m : rmat) : rvec := RVec (r11 m) (r21 m) (r31 m).
Definition rcol2 (m : rmat) : rvec := RVec (r12 m) (r22 m) (r32 m).
Definition rcol3 (m : rmat) : rvec := RVec (r13 m) (r23 m) (r33 m).
Definition rdot (u v : rvec) : R := x1 u * x1 v + x2 u * x2 v + x3 u * x3 v.
Definition rmul (a b : rmat) : rmat :=
  RMat (r11 a * r11 b + r12 a * r21 b + r13 a * r31 b)
       (r11 a * r12 b + r12 a * r22 b + r13 a * r32 b)
       (r11 a * r13 b + r12 a * r23 b + r13 a * r33 b)
       (r21 a * r11 b + r22 a * r21 b + r23 a * r31 b)
       (r21 a * r12 b + r22 a * r22 b + r23 a * r32 b)
       (r21 a * r13 b + r22 a * r23 b + r23 a * r33 b)
       (r31 a * r11 b + r32 a * r21 b + r33 a * r31 b)
       (r31 a * r12 b + r32 a * r22 b + r33 a * r32 b)
       (r31 a * r13 b + r32 a * r23 b + r33 a * r33 b).
Definition rtr (a : rmat) : rmat :=
  RMat (r11 a) (r21 a) (r31 a) (r12 a) (r22 a) (r32 a) (r13 a) (r23 a) (r33 a).
Definition rid : rmat := RMat 1 0 0 0 1 0 0 0 1.
Definition rdet (a : rmat) : R :=
  r11 a * (r22 a * r33 a - r23 a * r32 a) - r12 a * (r21 a * r33 a - r23 a * r31 a)
  + r13 a * (r21 a * r32 a - r22 a * r31 a).
(** [matrix_inverse] of the library. *)
Definition rinv (a : rmat) : option rmat :=
  let d := rdet a in
  if Req_EM_T d 0 then None else Some (RMat
    ((r22 a * r33 a - r23 a * r32 a) / d) ((r13 a * r32 a - r12 a * r33 a) / d) ((r12 a * r23 a - r13 a * r22 a) / d)
    ((r23 a * r31 a - r21 a * r33 a) / d) ((r11 a * r33 a - r13 a * r31 a) / d) ((r13 a * r21 a - r11 a * r23 a) / d)
    ((r21 a * r32 a - r22 a * r31 a) / d) ((r12 a * r31 a - r11 a * r32 a) / d) ((r11 a * r22 a - r12 a * r21 a) / d)).

(** The array of the six cell parameters. *)
Record cell : Type := Cell { ca : R; cb : R; cc : R; calpha : R; cbeta : R; cgamma : R }.

(** Lines 20-44 [cell2basis]. *)
Definition cell2basis (p : cell) : option rmat :=
  let '(Cell a b c alpha beta gamma) := p in
  do temp <- r_div (cos alpha - cos beta * cos gamma) (sin gamma);
  do s <- r_sqrt (1 - cos beta ^ 2 - temp ^ 2);
  Some (RMat a (b * cos gamma) (c * cos beta)
             0 (b * sin gamma) (c * temp)
             0 0               (c * s)).

(** Lines 53-58 [cosangs]. *)
Definition cosangs (u v : rvec) : option R := r_div (rdot u v) (sqrt (rdot u u) * sqrt (rdot v v)).

(** Lines 65-82 [basis2cell]. *)
Definition basis2cell (vecs : rmat) : option cell :=
  let a := rcol1 vecs in let b := rcol2 vecs in let c := rcol3 vecs in
  do al <- cosangs b c; do be <- cosangs a c; do ga <- cosangs a b;
  do alpha <- r_acos al; do beta <- r_acos be; do gamma <- r_acos ga;
  Some (Cell (sqrt (rdot a a)) (sqrt (rdot b b)) (sqrt (rdot c c)) alpha beta gamma).

Definition acos_div (x y : R) : option R := do q <- r_div x y; r_acos q.

(** Lines 93-447 [symmetrize]; [equal x y] is the comparison of the library with tolerance eps.  A
    number without a branch leaves the parameters unset. *)
Definition symmetrize (equal : R -> R -> bool) (p : cell) (case : Z) : option cell :=
  let '(Cell a0 b0 c0 alpha0 beta0 gamma0) := p in
  let ret a b c alpha beta gamma := Some (Cell a b c alpha beta gamma) in
  let third := (a0 + b0 + c0) / 3 in
  let ab := (a0 + b0) / 2 in
  let bc := (c0 + b0) / 2 in
  if Z.eqb case 1 then
    let a := third in ret a a a (PI / 3) (PI / 3) (PI / 3)
  else if (Z.eqb case 2 || Z.eqb case 4)%bool then
    let a := third in
    let temp := (alpha0 + beta0 + gamma0) / 3 in ret a a a temp temp temp
  else if Z.eqb case 3 then
    let a := third in ret a a a (PI / 2) (PI / 2) (PI / 2)
  else if Z.eqb case 5 then
    let a := third in ret a a a (acos (-1 / 3)) (acos (-1 / 3)) (acos (-1 / 3))
  else if Z.eqb case 6 then
    let a := third in let b := third in let c := third in
    do temp <- acos_div (((a ^ 2 + b ^ 2) / 2 - cos gamma0 * a * c) / 2) (b + c);
    ret a b c temp temp gamma0
  else if Z.eqb case 7 then
    let a := third in let b := third in let c := third in
    do alpha <- acos_div ((a ^ 2 + b ^ 2) / 2 - 2 * cos gamma0 * a * c) (b + c);
    let temp := (beta0 + gamma0) / 2 in ret a b c alpha temp temp
  else if Z.eqb case 8 then
    let a := third in let b := third in let c := third in
    do alpha <- acos_div ((a ^ 2 + b ^ 2) / 2 - cos gamma0 * a * c - cos beta0 * a * b) (b * c);
    ret a b c alpha beta0 gamma0
  else if Z.eqb case 9 then
    let a := ab in let b := ab in let c := c0 in
    do alpha <- acos_div (a * a) (2 * b * c);
    do beta <- acos_div (a * a) (2 * a * c);
    ret a b c alpha beta (PI / 3)
  else if Z.eqb case 10 then
    let temp := (alpha0 + beta0) / 2 in ret ab ab c0 temp temp gamma0
  else if Z.eqb case 11 then ret ab ab c0 (PI / 2) (PI / 2) (PI / 2)
  else if Z.eqb case 12 then ret ab ab c0 (PI / 2) (PI / 2) (PI / 3)
  else if Z.eqb case 13 then ret ab ab c0 (PI / 2) (PI / 2) gamma0
  else if Z.eqb case 15 then
    let a := ab in let b := ab in let c := c0 in
    do alpha <- acos_div (- (a * a)) (2 * b * c);
    do beta <- acos_div (- (a * a)) (2 * a * c);
    ret a b c alpha beta (PI / 2)
  else if Z.eqb case 16 then
    let a := ab in let b := ab in let c := c0 in
    let gamma := PI / 2 in
    do alpha <- acos_div (((a * a + b * b) / 2 - cos gamma * a * c) / 2) (b * c);
    do beta <- acos_div (((a * a + b * b) / 2 - cos gamma * a * c) / 2) (a * c);
    ret a b c alpha beta gamma
  else if Z.eqb case 14 then
    let temp := (alpha0 + beta0) / 2 in ret ab ab c0 temp temp gamma0
  else if Z.eqb case 17 then
    let a := ab in let b := ab in let c := c0 in
    let gamma := gamma0 in let beta := beta0 in
    do alpha <- acos_div ((a * a + b * b) / 2 - cos gamma * a * c - cos beta * a * b) (b * c);
    ret a b c alpha beta gamma
  else if Z.eqb case 18 then
    let a := a0 in let b := bc in let c := bc in
    do alpha <- acos_div (a * a) (4 * b * c);
    do beta <- acos_div (a * a) (2 * a * c);
    do gamma <- acos_div (a * a) (2 * a * b);
    ret a b c alpha beta gamma
  else if Z.eqb case 19 then
    let a := a0 in let b := bc in let c := bc in
    do beta <- acos_div (a * a) (2 * a * c);
    do gamma <- acos_div (a * a) (2 * a * b);
    ret a b c alpha0 beta gamma
  else if (Z.eqb case 20 || Z.eqb case 25)%bool then
    let temp := (beta0 + gamma0) / 2 in ret a0 bc bc alpha0 temp temp
  else if Z.eqb case 21 then ret a0 bc bc (PI / 2) (PI / 2) (PI / 2)
  else if Z.eqb case 22 then
    let b := bc in let c := bc in
    do alpha <- acos_div (- (b * b)) (2 * b * c);
    ret a0 b c alpha (PI / 2) (PI / 2)
  else if Z.eqb case 23 then ret a0 bc bc alpha0 (PI / 2) (PI / 2)
  else if Z.eqb case 24 then
    let a := a0 in let b := bc in let c := bc in
    do beta <- acos_div (- (a * a)) (3 * a * c);
    do gamma <- acos_div (- (a * a)) (3 * a * b);
    do alpha <- acos_div ((a * a + b * b) * 2 - cos gamma * a * c - cos beta * a * b) (b * c);
    ret a b c alpha beta gamma
  else
  let a := a0 in let b := b0 in let c := c0 in
  if Z.eqb case 26 then
    do alpha <- acos_div (a * a) (4 * b * c);
    do beta <- acos_div (- (a * a)) (2 * a * c);
    do gamma <- acos_div (- (a * a)) (2 * a * b);
    ret a b c alpha beta gamma
  else if Z.eqb case 27 then
    do beta <- acos_div (- (a * a)) (2 * a * c);
    do gamma <- acos_div (- (a * a)) (2 * a * b);
    ret a b c alpha0 beta gamma
  else if Z.eqb case 28 then
    do beta <- acos_div (- (a * a)) (2 * a * c);
    do gamma <- acos_div (2 * cos alpha0 * b * c) (a * b);
    ret a b c alpha0 beta gamma
  else if Z.eqb case 29 then
    do beta <- acos_div (2 * cos alpha0 * b * c) (a * c);
    do gamma <- acos_div (a * a) (2 * a * b);
    ret a b c alpha0 beta gamma
  else if Z.eqb case 30 then
    do alpha <- acos_div (b * b) (2 * b * c);
    do gamma <- acos_div (2 * cos beta0 * a * c) (a * b);
    ret a b c alpha beta0 gamma
  else if (Z.eqb case 31 || Z.eqb case 44)%bool then ret a b c alpha0 beta0 gamma0
  else if Z.eqb case 32 then ret a b c (PI / 2) (PI / 2) (PI / 2)
  else if Z.eqb case 40 then
    do alpha <- acos_div (- (b * b)) (2 * b * c);
    ret a b c alpha (PI / 2) (PI / 2)
  else if Z.eqb case 35 then ret a b c alpha0 (PI / 2) (PI / 2)
  else if Z.eqb case 36 then
    do beta <- acos_div (- (a * a)) (2 * a * c);
    ret a b c (PI / 2) beta (PI / 2)
  else if Z.eqb case 33 then ret a b c (PI / 2) beta0 (PI / 2)
  else if Z.eqb case 38 then
    do gamma <- acos_div (- (a * a)) (2 * a * b);
    ret a b c (PI / 2) (PI / 2) gamma
  else if Z.eqb case 34 then ret a b c (PI / 2) (PI / 2) gamma0
  else if Z.eqb case 42 then
    do alpha <- acos_div (- (b * b)) (2 * b * c);
    do beta <- acos_div (- (a * a)) (2 * a * c);
    ret a b c alpha beta (PI / 2)
  else if Z.eqb case 41 then
    do alpha <- acos_div (- (b * b)) (2 * b * c);
    ret a b c alpha beta0 (PI / 2)
  else if Z.eqb case 37 then
    do beta <- acos_div (- (a * a)) (2 * a * c);
    ret a b c alpha0 beta (PI / 2)
  else if Z.eqb case 39 then
    do gamma <- acos_div (- (a * a)) (2 * a * b);
    ret a b c alpha0 (PI / 2) gamma
  else if Z.eqb case 43 then
    let gamma := gamma0 in let beta := beta0 in
    let temp := (a * a + b * b) / 2 - cos gamma * a * c - cos beta * a * b in
    if equal (2 * temp * cos gamma * a * b) (b * b) then
      do alpha <- acos_div temp (b * c); ret a b c alpha beta gamma
    else
      let temp := - (a * a + b * b) / 2 - cos gamma * a * c - cos beta * a * b in
      do alpha <- acos_div temp (b * c); ret a b c alpha beta gamma
  else None.

(** Lines 460-490 [delint]: the [stop] of line 483, a result that is not a number, or out_vecs.
    [equal], [equal_mat]: the comparison of the library with tolerance eps. *)
Inductive delinted : Type := Rotation_stop | Not_a_number | Delinted (out_vecs : rmat).
Definition delint (equal : R -> R -> bool) (equal_mat : rmat -> rmat -> bool) (in_vecs : rmat)
    (case : Z) : delinted :=
  match (do in_params <- basis2cell in_vecs;
         do canonical_basis <- cell2basis in_params;
         do cb_inv <- rinv canonical_basis;
         Some (in_params, rmul in_vecs cb_inv)) with
  | None => Not_a_number
  | Some (in_params, rot_mat) =>
    if negb (equal_mat (rmul rot_mat (rtr rot_mat)) rid) then Rotation_stop
    else
      match (do c_params <- symmetrize equal in_params case; cell2basis c_params) with
      | None => Not_a_number
      | Some fixed_basis => Delinted (rmul rot_mat fixed_basis)
      end
  end.
