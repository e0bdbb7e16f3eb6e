(** The Python enumerators with floating point numbers.

    The enumerators of Model_hx, Model_rhom, ... once more.  The expressions that contain a quotient
    are kept as terms [fexp], and [T x f] stands for the test [x % f == 0], [E x k] for
    [x == k].  With [test_exact] and [eq_exact] these are
    the definitions of those files; with [test_round rnd] and
    [eq_round rnd] every operation is rounded by [rnd].
    Integers are exact in Python; one that meets a float is converted first.  The remainder of two
    floats is exact.  [float(c)] is not shown: the conversion of an integer below 2^53 is exact. *)
From Coq Require Import ZArith QArith List Bool.
From Verif Require Import Mat3 Spec PyNum Model_diag Model_so Model_sm Model_base_mono Model_universal.
Import ListNotations.
Open Scope Z_scope.

(** An expression: integers, sums, differences, products, quotients. *)
Inductive fexp : Type :=
  | FZ (z : Z) | FAdd (x y : fexp) | FSub (x y : fexp) | FMul (x y : fexp) | FDiv (x y : fexp).
(** Its value as an exact fraction. *)
Fixpoint eval_exact (x : fexp) : frac :=
  match x with
  | FZ z => fz z
  | FAdd x y => fadd (eval_exact x) (eval_exact y)
  | FSub x y => fsub (eval_exact x) (eval_exact y)
  | FMul x y => fmul (eval_exact x) (eval_exact y)
  | FDiv x y => fdiv (eval_exact x) (eval_exact y)
  end.
(** Its value when every result is rounded. *)
Fixpoint eval_round (rnd : Q -> Q) (x : fexp) : Q :=
  match x with
  | FZ z => rnd (inject_Z z)
  | FAdd x y => rnd (eval_round rnd x + eval_round rnd y)%Q
  | FSub x y => rnd (eval_round rnd x - eval_round rnd y)%Q
  | FMul x y => rnd (eval_round rnd x * eval_round rnd y)%Q
  | FDiv x y => rnd (eval_round rnd x / eval_round rnd y)%Q
  end.
(** [x % f == 0] *)
Definition test_exact (x : fexp) (f : Z) : bool := fmod0 (eval_exact x) f.
Definition test_round (rnd : Q -> Q) (x : fexp) (f : Z) : bool :=
  let v := eval_round rnd x in Qnum v mod (QDen v * f) =? 0.

(** [x == k] *)
Definition eq_exact (x : fexp) (k : Z) : bool := feqz (eval_exact x) k.
Definition eq_round (rnd : Q -> Q) (x : fexp) (k : Z) : bool := Qeq_bool (eval_round rnd x) (inject_Z k).

Declare Scope fexp_scope.
Delimit Scope fexp_scope with fexp.
Bind Scope fexp_scope with fexp.
Notation "x + y" := (FAdd x y) : fexp_scope.
Notation "x - y" := (FSub x y) : fexp_scope.
Notation "x * y" := (FMul x y) : fexp_scope.
Notation "x / y" := (FDiv x y) : fexp_scope.
Coercion FZ : Z >-> fexp.

Section tests.
Context (T E : fexp -> Z -> bool).

(** hx.py 1-50 *)
Definition t_hex_12 (n : Z) : list mat3 :=
  py_for (get_HNF_diagonals n) (fun '(a, c, f) =>
    py_if (mod0 c a) (
    py_for (py_range 0 c a) (fun b =>
    let beta13 := a + 2 * b in
    let beta11 := (FZ (2 * b) + FZ (b * b) / a)%fexp in
    py_if (mod0 beta13 c && T beta11 c) (
    let es := halves f in
    py_for es (fun e =>
    let gamma13 := (FZ ((a + 2 * b) * e) / c)%fexp in
    py_if (T gamma13 f) (
    py_for (py_range 0 f 1) (fun d =>
    let gamma11 := (FZ (b * d) / a - e * beta11 / c)%fexp in
    let gamma12 := (FZ (2 * d) + FZ (b * d) / a - e * beta11 / c)%fexp in
    let gamma21 := (FZ (c * d) / a - FZ (2 * e) - FZ (b * e) / a)%fexp in
    let gamma22 := (FZ (c * d - b * e) / a)%fexp in
    py_if (T gamma11 f && T gamma12 f && T gamma21 f && T gamma22 f)
      [HNF a b c d e f]))))))).

(** hx.py 52-87 *)
Definition t_hex_22 (n : Z) : list mat3 :=
  py_for (get_HNF_diagonals n) (fun '(a, c, f) =>
    py_if (mod0 f c) (
    py_for (py_range 0 f c) (fun e =>
    let g21 := - c + 2 * e in
    let g22 := (FZ (- c + e) - FZ (e * e) / c)%fexp in
    py_if (mod0 g21 f && T g22 f && mod0 e c) (
    py_for (py_range 0 c 1) (fun b =>
    py_for (py_range 0 f c) (fun d =>
    let g11 := - b + 2 * d in
    let g12 := (FZ (- b + d) - FZ (d * e) / c)%fexp in
    py_if (mod0 g11 f && T g12 f)
      [HNF a b c d e f])))))).

(** rhom.py 1-58 *)
Definition t_rhom_9_24 (n : Z) : list mat3 :=
  py_for (get_HNF_diagonals n) (fun '(a, c, f) =>
    py_if (mod0 f a) (
    let bs := halves c in
    py_for bs (fun b =>
    let beta13 := (FZ f + FZ (b * f) / a)%fexp in
    py_if (T beta13 c) (
    py_for (py_range 0 f a) (fun e =>
    let beta22 := (FZ e + FZ (b * e) / a)%fexp in
    let g21 := c + 2 * e in
    let g11 := (FZ b + FZ (2 * b * e) / c)%fexp in
    py_if (T beta22 c && mod0 g21 f && T g11 f) (
    py_for (py_range 0 f a) (fun d =>
    let beta12 := (FZ (- a + b + d) + FZ (d * b) / a)%fexp in
    let g12 := (FZ (- b - d) + FZ (d * d) / a - e * beta12 / c)%fexp in
    let g22 := (FZ (- c - 2 * e) + FZ (d * e) / a - e * beta22 / c)%fexp in
    py_if (T beta12 c && T g12 f && T g22 f)
      [HNF a b c d e f]))))))).

(** rhom.py 60-110 *)
Definition t_rhom_4_2 (n : Z) : list mat3 :=
  py_for (get_HNF_diagonals n) (fun '(a, c, f) =>
    py_if (mod0 f a) (
    let bs := halves c in
    py_for bs (fun b =>
    let beta32 := (FZ (- f) + FZ (b * f) / a)%fexp in
    py_if (T beta32 c) (
    py_for (py_range 0 f 1) (fun e =>
    let beta22 := (FZ (- e) + FZ (b * e) / a)%fexp in
    let gamma11 := (FZ b - FZ (2 * b * e) / c)%fexp in
    let gamma21 := c - 2 * e in
    py_if (mod0 e a && T beta22 c && T gamma11 f && mod0 gamma21 f) (
    py_for (py_range 0 f 1) (fun d =>
    let beta12 := (FZ (- a + b - d) + FZ (b * d) / a)%fexp in
    let gamma12 := (FZ (- a) + FZ (d * d) / a - e * beta12 / c)%fexp in
    let gamma22 := (FZ (- e) + FZ (d * e) / a - e * beta22 / c)%fexp in
    py_if (mod0 d a && T beta12 c && T gamma12 f && T gamma22 f)
      [HNF a b c d e f]))))))).

(** stet.py 1-50 *)
Definition t_stet_11 (n : Z) : list mat3 :=
  py_for (get_HNF_diagonals n) (fun '(a, c, f) =>
    py_if (mod0 c a) (
    let bs := halves c in
    let es := halves f in
    py_for bs (fun b =>
    py_if (mod0 b a) (
    let beta13 := (FZ (- a) + FZ (b * b) / a)%fexp in
    py_if (T beta13 c) (
    py_for es (fun e =>
    let g12 := (FZ (2 * b * e) / c)%fexp in
    py_if (T g12 f) (
    py_for (py_range 0 f 1) (fun d =>
    let g13 := (FZ (- e) * beta13 / c + d * (FZ b / a - 1))%fexp in
    let g23 := (FZ (- e) * (FZ b / a + 1) + FZ (d * c) / a)%fexp in
    py_if (T g13 f && T g23 f)
      [HNF a b c d e f])))))))).

(** stet.py 52-97 *)
Definition t_stet_21 (n : Z) : list mat3 :=
  py_for (get_HNF_diagonals n) (fun '(a, c, f) =>
    py_if (mod0 f c) (
    let bs := halves c in
    py_for bs (fun b =>
    let es := halves f in
    py_for es (fun d =>
    let b13 := b - d in
    py_if (mod0 b13 c) (
    py_for es (fun e =>
    let g12 := (FZ (2 * d) - FZ (2 * d * e) / c)%fexp in
    let g13 := (FZ (- b + d) - FZ (b13 * e) / c)%fexp in
    let g23 := (FZ (- c) + FZ (e * e) / c)%fexp in
    py_if (T g12 f && T g13 f && T g23 f)
      [HNF a b c d e f])))))).

(** body_tet.py 18-68 *)
Definition t_body_tet_6_7_15_18 (n : Z) : list mat3 :=
  py_for (get_HNF_diagonals n) (fun '(a, c, f) =>
    py_if (mod0 f c) (
    let es := halves f in
    py_for es (fun e =>
    py_if (mod0 e c) (
    let g21 := (FZ (- c) + FZ (e * e) / c)%fexp in
    py_if (T g21 f) (
    py_for (py_range 0 f 1) (fun d =>
    let g13 := a + 2 * d in
    py_if (mod0 g13 f) (
    py_for (py_range 0 c 1) (fun b =>
    let b12 := b - d in
    py_if (mod0 b12 c) (
    let g12 := (FZ (- b + d) - FZ (b12 * e) / c)%fexp in
    py_if (T g12 f)
      [HNF a b c d e f]))))))))).

(** sm.py 1-45 *)
Definition t_sm_33 (n : Z) : list mat3 :=
  py_for (get_HNF_diagonals n) (fun '(a, c, f) =>
    let bs := halves c in
    let es := halves f in
    py_for bs (fun b =>
    py_for es (fun e =>
    let gamma12 := (FZ (2 * b * e) / c)%fexp in
    py_if (T gamma12 f) (
    py_for (py_range 0 f 1) (fun d => [HNF a b c d e f]))))).

(** base_mono.py 1-42 *)
Definition t_base_mono_20_25 (n : Z) : list mat3 :=
  py_for (get_HNF_diagonals n) (fun '(a, c, f) =>
    let bs := halves c in
    py_for (py_range 0 f 1) (fun e =>
    let g22 := - c - 2 * e in
    py_if (mod0 g22 f) (
    py_for bs (fun b =>
    let g12 := (FZ (- b) - FZ (2 * b * e) / c)%fexp in
    py_if (T g12 f) (
    py_for (py_range 0 f 1) (fun d => [HNF a b c d e f])))))).

(** base_mono.py 44-80 *)
Definition t_base_mono_28 (n : Z) : list mat3 :=
  py_for (get_HNF_diagonals n) (fun '(a, c, f) =>
    py_if (mod0 f c) (
    py_for (py_range 0 f c) (fun e =>
    let g21 := (FZ (2 * e) + FZ (e * e) / c)%fexp in
    py_if (T g21 f) (
    py_for (py_range 0 f c) (fun d =>
    let g11 := (FZ (2 * d) + FZ (d * e) / c)%fexp in
    py_if (T g11 f) (
    py_for (py_range 0 c 1) (fun b => [HNF a b c d e f]))))))).

(** base_mono.py 82-119 *)
Definition t_base_mono_29_30 (n : Z) : list mat3 :=
  py_for (get_HNF_diagonals n) (fun '(a, c, f) =>
    py_if (mod0 f c) (
    py_for (py_range 0 f c) (fun e =>
    let g21 := (FZ (2 * e) + FZ (e * e) / c)%fexp in
    py_if (T g21 f) (
    py_for (py_range 0 f c) (fun d =>
    let g11 := (FZ (2 * d) + FZ (d * e) / c)%fexp in
    py_if (T g11 f) (
    py_for (py_range 0 c 1) (fun b => [HNF a b c d e f]))))))).

(** base_mono.py 166-203 *)
Definition t_base_mono_43 (n : Z) : list mat3 :=
  py_for (get_HNF_diagonals n) (fun '(a, c, f) =>
    py_if (mod0 f c) (
    py_for (py_range 0 f c) (fun e =>
    let g22 := (FZ (2 * e) - FZ (e * e) / c)%fexp in
    py_if (T g22 f) (
    py_for (py_range 0 f 1) (fun d =>
    let b12 := a + d in
    let g12 := (FZ (2 * a + 2 * d) - FZ (b12 * e) / c)%fexp in
    py_if (mod0 b12 c && T g12 f) (
    py_for (py_range 0 c 1) (fun b => [HNF a b c d e f]))))))).

(** base_ortho.py 1-50 *)
Definition t_base_ortho_38_13 (n : Z) : list mat3 :=
  py_for (get_HNF_diagonals n) (fun '(a, c, f) =>
    py_if (mod0 c a) (
    let ed_vals := halves f in
    py_for (py_range 0 c a) (fun b =>
    let beta13 := (FZ (- a) + FZ (b * b) / a)%fexp in
    py_if (T beta13 c) (
    py_for ed_vals (fun e =>
    py_for ed_vals (fun d =>
    let g13 := (FZ (- d) + FZ (b * d) / a - e * beta13 / c)%fexp in
    let g23 := (FZ (c * d) / a - e - FZ (b * e) / a)%fexp in
    py_if (T g13 f && T g23 f)
      [HNF a b c d e f])))))).

(** base_ortho.py 52-99 *)
Definition t_base_ortho_23 (n : Z) : list mat3 :=
  py_for (get_HNF_diagonals n) (fun '(a, c, f) =>
    py_if (mod0 f a) (
    let bs := halves c in
    let es := halves f in
    py_for bs (fun b =>
    py_if (mod0 (b * f) (a * c)) (
    py_for es (fun e =>
    py_if (mod0 (b * e) (a * c) && mod0 (2 * b * e) (c * f) && mod0 e a) (
    py_for (py_range 0 f a) (fun d =>
    let b13 := (FZ (- b) + FZ (b * d) / a)%fexp in
    let g13 := (FZ (- a) + FZ (d * d) / a - b13 * e / c)%fexp in
    let g23 := (FZ e + FZ (d * e) / a - FZ (b * e * e) / FZ (a * c))%fexp in
    py_if (T b13 c && T g13 f && T g23 f)
      [HNF a b c d e f]))))))).

(** base_ortho.py 101-140 *)
Definition t_base_ortho_40 (n : Z) : list mat3 :=
  py_for (get_HNF_diagonals n) (fun '(a, c, f) =>
    py_if (mod0 f c) (
    py_for (py_range 0 f c) (fun e =>
    let g22 := (FZ (2 * e) - FZ (e * e) / c)%fexp in
    py_if (T g22 f) (
    py_for (py_range 0 f c) (fun d =>
    let g12 := (FZ (2 * d) - FZ (d * e) / c)%fexp in
    py_if (T g12 f) (
    py_for (py_range 0 c 1) (fun b =>
    let b13 := 2 * b - d in
    let g13 := (FZ (b13 * e) / c)%fexp in
    py_if (mod0 b13 c && T g13 f)
      [HNF a b c d e f]))))))).

(** base_ortho.py 142-191 *)
Definition t_base_ortho_36 (n : Z) : list mat3 :=
  py_for (get_HNF_diagonals n) (fun '(a, c, f) =>
    py_if (mod0 f a) (
    let es := halves f in
    let bs := halves c in
    py_for bs (fun b =>
    let b32 := (FZ (- b * f) / a)%fexp in
    py_if (T b32 c) (
    py_for es (fun e =>
    let b22 := (FZ (- b * e) / a)%fexp in
    let g13 := (FZ (- 2 * b * e) / c)%fexp in
    py_if (T b22 c && T g13 f && mod0 e a) (
    py_for (py_range 0 f a) (fun d =>
    let b12 := (FZ (- b * d) / a)%fexp in
    let g12 := (FZ (2 * d) - FZ (d * d) / a - b12 * e / c)%fexp in
    let g22 := (FZ (2 * e) - FZ (d * e) / a - b22 * e / c)%fexp in
    py_if (T b12 c && T g12 f && T g22 f)
      [HNF a b c d e f]))))))).

(** body_ortho.py 1-52 *)
Definition t_body_ortho_19 (n : Z) : list mat3 :=
  py_for (get_HNF_diagonals n) (fun '(a, c, f) =>
    let es := halves f in
    py_for (py_range 0 c 1) (fun b =>
    let beta13 := a + 2 * b in
    py_if (mod0 beta13 c) (
    py_for es (fun e =>
    let gamma13 := (FZ (e * beta13) / c)%fexp in
    py_if (T gamma13 f) (
    py_for (py_range 0 f 1) (fun d =>
    let gamma12 := a + 2 * d in
    py_if (mod0 gamma12 f)
      [HNF a b c d e f])))))).

(** body_ortho.py 54-98 *)
Definition t_body_ortho_8 (n : Z) : list mat3 :=
  py_for (get_HNF_diagonals n) (fun '(a, c, f) =>
    py_if (mod0 (2 * f) c) (
    let bs := halves c in
    py_for bs (fun b =>
    py_for (py_range 0 f 1) (fun e =>
    let b21 := 2 * e in
    let g21 := (FZ (- b21) + FZ (b21 * e) / c)%fexp in
    py_if (mod0 b21 c && T g21 f) (
    py_for (py_range 0 f 1) (fun d =>
    let b11 := - a + 2 * b - 2 * d in
    let g11 := (FZ (- b11 * e) / c)%fexp in
    let g13 := (FZ (a + 2 * d) - FZ (b21 * b) / c)%fexp in
    py_if (mod0 b11 c && T g11 f && T g13 f)
      [HNF a b c d e f])))))).

(** body_ortho.py 100-142 *)
Definition t_body_ortho_42 (n : Z) : list mat3 :=
  py_for (get_HNF_diagonals n) (fun '(a, c, f) =>
    let es := halves f in
    py_for es (fun e =>
    py_for (py_range 0 c 1) (fun b =>
    let b11 := - a + 2 * b in
    let g12 := (FZ (- b11 * e) / c)%fexp in
    py_if (mod0 b11 c && T g12 f) (
    py_for (py_range 0 f 1) (fun d =>
    let g11 := (FZ (- a + 2 * d) - FZ (b11 * e) / c)%fexp in
    let g13 := - a + 2 * d in
    py_if (T g11 f && mod0 g13 f)
      [HNF a b c d e f]))))).

(** face_ortho.py 1-42 *)
Definition t_face_ortho_26 (n : Z) : list mat3 :=
  py_for (get_HNF_diagonals n) (fun '(a, c, f) =>
    let bs := halves c in
    py_for bs (fun b =>
    py_for (py_range 0 f 1) (fun e =>
    let gamma23 := c + 2 * e in
    let gamma12 := (FZ b + FZ (2 * b * e) / c)%fexp in
    py_if (mod0 gamma23 f && T gamma12 f) (
    py_for (py_range 0 f 1) (fun d =>
    let gamma13 := a + b + 2 * d in
    py_if (mod0 gamma13 f)
      [HNF a b c d e f]))))).

(** face_ortho.py 44-84 *)
Definition t_face_ortho_16 (n : Z) : list mat3 :=
  py_for (get_HNF_diagonals n) (fun '(a, c, f) =>
    let bs := if c mod 2 =? 0 then [c / 2; 0] else [0] in
    py_for bs (fun b =>
    py_for (py_range 0 f 1) (fun e =>
    let g11 := (FZ (- b) - FZ (2 * b * e) / c)%fexp in
    let g21 := c + 2 * e in
    py_if (T g11 f && mod0 g21 f) (
    py_for (py_range 0 f 1) (fun d =>
    let g12 := (FZ (a + 2 * d) - FZ (2 * b * e) / c)%fexp in
    py_if (T g12 f)
      [HNF a b c d e f]))))).

(** sc.py 19-46 *)
Fixpoint t_sc_3_loop (diags : list (Z * Z * Z)) : list mat3 :=
  match diags with
  | [] => []
  | (a, c, f) :: rest =>
      if (a =? c) && (c =? f) then [HNF a 0 c 0 0 f]
      else if (a =? c) && E (FZ f / a)%fexp 2 then [HNF a 0 c a a f]
      else if (c =? f) && E (FZ f / a)%fexp 2 then [HNF a a c a 0 f]
      else t_sc_3_loop rest
  end.
Definition t_sc_3 (n : Z) : list mat3 := t_sc_3_loop (get_HNF_diagonals n).
(** bcc.py 1-43 *)
Definition t_bcc_5 (n : Z) : list mat3 :=
  py_for (get_HNF_diagonals n) (fun '(a, c, f) =>
    if (a =? c) && (a =? f) then [HNF a 0 c 0 0 f]
    else if (a =? c) && E (FZ f / a)%fexp 2 then [HNF a 0 c a a f]
    else if (a =? c) && E (FZ f / a)%fexp 4 then [HNF a 0 c (3 * a) (3 * a) f]
    else []).
(** fcc.py 1-36 *)
Definition t_fcc_1 (n : Z) : list mat3 :=
  py_for (get_HNF_diagonals n) (fun '(a, c, f) =>
    if (a =? c) && (a =? f) then [HNF a 0 c 0 0 f]
    else if (c =? f) && (E (FZ f / a)%fexp 2 || E (FZ f / a)%fexp 4)
         then [HNF a a c a 0 f]
    else []).

(** universal.py 95-311 *)
Definition t_select_hnfs (nig_n : Z) (exact : bool) (ns : list Z) (mult : option Z)
  : option (list mat3) :=
  if nig_n =? 3 then Some (collect_all t_sc_3 ns)
  else if nig_n =? 5 then Some (collect_all t_bcc_5 ns)
  else if nig_n =? 1 then Some (collect_all t_fcc_1 ns)
  else if z_in nig_n [12; 22] then
    Some (collect (fun n => if nig_n =? 12 then t_hex_12 n else t_hex_22 n) exact ns 0 [])
  else if z_in nig_n [9; 4; 2; 24] then
    Some (collect (fun n => if (nig_n =? 9) || (nig_n =? 24) then t_rhom_9_24 n else t_rhom_4_2 n)
            exact ns 0 [])
  else if z_in nig_n [11; 21] then
    Some (collect (fun n => if nig_n =? 11 then t_stet_11 n else t_stet_21 n) exact ns 0 [])
  else if z_in nig_n [15; 7; 6; 18] then
    Some (collect t_body_tet_6_7_15_18 exact ns 0 [])
  else if nig_n =? 32 then Some (collect so_32 exact ns 0 [])
  else if z_in nig_n [38; 13; 23; 40; 36] then
    Some (collect (fun n =>
      if nig_n =? 23 then t_base_ortho_23 n
      else if nig_n =? 36 then t_base_ortho_36 n
      else if nig_n =? 40 then t_base_ortho_40 n
      else t_base_ortho_38_13 n) exact ns 0 [])
  else if z_in nig_n [19; 8; 42] then
    Some (collect (fun n =>
      if nig_n =? 19 then t_body_ortho_19 n
      else if nig_n =? 8 then t_body_ortho_8 n
      else t_body_ortho_42 n) exact ns 0 [])
  else if z_in nig_n [26; 16] then
    Some (collect (fun n => if nig_n =? 26 then t_face_ortho_26 n else t_face_ortho_16 n)
            exact ns 0 [])
  else if z_in nig_n [33; 34; 35] then
    Some (collect (fun n =>
      if nig_n =? 33 then t_sm_33 n
      else if nig_n =? 34 then sm_34 n
      else sm_35 n) exact ns 0 [])
  else if z_in nig_n [14; 10; 17; 20; 25; 27; 28; 29; 30; 41; 37; 39; 43] then
    Some (collect (fun n =>
      if nig_n =? 28 then t_base_mono_28 n
      else if nig_n =? 43 then t_base_mono_43 n
      else if z_in nig_n [20; 25] then t_base_mono_20_25 n
      else if z_in nig_n [29; 30] then t_base_mono_29_30 n
      else base_mono_10_14_17_27_37_39_41 n) exact ns 0 [])
  else if z_in nig_n [31; 44] then
    match mult with
    | Some m => Some (py_for ns (triclinic_hnfs m))
    | None => None
    end
  else None.

(** universal.py 90-311: the HNFs of a call [find_supercells(U,kpt,exact)] whose lattice
    was identified as number [nig_n].  [nb] as in [find_volumes]. *)
Definition t_find_hnfs (nig_n kpt : Z) (exact : bool) (nb : Z) : option (list mat3) :=
  if negb exact then
    match find_volumes nig_n kpt nb with
    | Some (ns, mult) => t_select_hnfs nig_n exact ns mult
    | None => None
    end
  else t_select_hnfs nig_n exact [kpt] (Some 1).
End tests.
