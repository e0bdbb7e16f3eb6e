(** The integer isometries of a positive definite Gram matrix, computed. *)
From Coq Require Import ZArith List Lia Bool.
From Verif Require Import Mat3 Spec.
Import ListNotations.
Open Scope Z_scope.

(** Bilinear form. *)
Definition bil (G : mat3) (u v : vec3) : Z :=
  let w := mvec G v in v1 u * v1 w + v2 u * v2 w + v3 u * v3 w.

Definition symmetric (G : mat3) : bool :=
  (m12 G =? m21 G) && (m13 G =? m31 G) && (m23 G =? m32 G).

(** All principal minors positive (a boolean test). *)
Definition posdef (G : mat3) : bool :=
  symmetric G && (0 <? m11 G) && (0 <? m22 G) && (0 <? m33 G)
  && (0 <? m11 (madj G)) && (0 <? m22 (madj G)) && (0 <? m33 (madj G))
  && (0 <? mdet G).

Lemma quad_bound (p q r s t u x y z : Z) :
  0 < p -> 0 < p * q - s * s ->
  let D := p * q - s * s in
  let det := p * (q * r - u * u) - s * (s * r - u * t) + t * (s * u - q * t) in
  det * (z * z) <=
  D * (p * x * x + q * y * y + r * z * z + 2 * s * x * y + 2 * t * x * z + 2 * u * y * z).
Proof.
  intros Hp HD D det.
  set (Q := p * x * x + q * y * y + r * z * z + 2 * s * x * y + 2 * t * x * z + 2 * u * y * z).
  assert (E : p * (D * Q - det * (z * z)) =
     D * ((p * x + s * y + t * z) * (p * x + s * y + t * z))
     + (D * y + (p * u - s * t) * z) * (D * y + (p * u - s * t) * z)).
  { unfold Q, det, D. ring. }
  assert (0 <= D * ((p * x + s * y + t * z) * (p * x + s * y + t * z))).
  { apply Z.mul_nonneg_nonneg; [unfold D; lia|]. apply Z.square_nonneg. }
  pose proof (Z.square_nonneg (D * y + (p * u - s * t) * z)).
  assert (0 <= p * (D * Q - det * (z * z))) by lia.
  assert (0 <= D * Q - det * (z * z)).
  { apply (Z.mul_le_mono_pos_l _ _ p Hp). lia. }
  lia.
Qed.

Lemma posdef_bound G v :
  posdef G = true ->
  mdet G * (v1 v * v1 v) <= m11 (madj G) * bil G v v /\
  mdet G * (v2 v * v2 v) <= m22 (madj G) * bil G v v /\
  mdet G * (v3 v * v3 v) <= m33 (madj G) * bil G v v /\ 0 < mdet G.
Proof.
  unfold posdef, symmetric. rewrite !andb_true_iff, !Z.eqb_eq, !Z.ltb_lt.
  destruct G as [a b c b' e f c' f' i]. destruct v as [x y z].
  unfold madj, mdet, bil, mvec.
  cbn [m11 m12 m13 m21 m22 m23 m31 m32 m33 v1 v2 v3].
  intros ((((((((( -> & ->) & ->) & ?) & ?) & ?) & ?) & ?) & ?) & ?).
  repeat split.
  - pose proof (quad_bound e i a f' b' c' y z x) as Q. cbv zeta in Q.
    etransitivity; [|etransitivity; [apply Q; lia|]].
    + apply Z.eq_le_incl. ring.
    + apply Z.eq_le_incl. ring.
  - pose proof (quad_bound a i e c' b' f' x z y) as Q. cbv zeta in Q.
    etransitivity; [|etransitivity; [apply Q; lia|]]; apply Z.eq_le_incl; ring.
  - pose proof (quad_bound a e i b' c' f' x y z) as Q. cbv zeta in Q.
    etransitivity; [|etransitivity; [apply Q; lia|]]; apply Z.eq_le_incl; ring.
  - lia.
Qed.

(** Integers of absolute value at most [r]. *)
Definition box1 (r : nat) : list Z :=
  map (fun i => Z.of_nat i - Z.of_nat r) (seq 0 (2 * r + 1)).

Lemma in_box1 r z : Z.abs z <= Z.of_nat r -> In z (box1 r).
Proof.
  intros H. unfold box1. apply in_map_iff. exists (Z.to_nat (z + Z.of_nat r)).
  split; [lia|]. apply in_seq. lia.
Qed.

(** The part of the box that can hold vectors of squared length at most [k]
    (see [posdef_bound]). *)
Definition box_in (G : mat3) (r : nat) (k : Z) : list vec3 :=
  let D := mdet G in
  let l := box1 r in
  let xs := filter (fun x => D * (x * x) <=? m11 (madj G) * k) l in
  let ys := filter (fun x => D * (x * x) <=? m22 (madj G) * k) l in
  let zs := filter (fun x => D * (x * x) <=? m33 (madj G) * k) l in
  flat_map (fun x => flat_map (fun y => map (fun z => Vec3 x y z) zs) ys) xs.

Lemma in_box_in G r k v :
  Z.abs (v1 v) <= Z.of_nat r -> Z.abs (v2 v) <= Z.of_nat r -> Z.abs (v3 v) <= Z.of_nat r ->
  mdet G * (v1 v * v1 v) <= m11 (madj G) * k ->
  mdet G * (v2 v * v2 v) <= m22 (madj G) * k ->
  mdet G * (v3 v * v3 v) <= m33 (madj G) * k -> In v (box_in G r k).
Proof.
  intros H1 H2 H3 B1 B2 B3. destruct v as [x y z]; cbn [v1 v2 v3] in *. unfold box_in. cbv zeta.
  apply in_flat_map. exists x.
  split; [apply filter_In; split; [now apply in_box1|now apply Z.leb_le]|].
  apply in_flat_map. exists y.
  split; [apply filter_In; split; [now apply in_box1|now apply Z.leb_le]|].
  apply in_map_iff. exists z. split; [reflexivity|].
  apply filter_In. split; [now apply in_box1|now apply Z.leb_le].
Qed.

(** Vectors of squared length [k] inside the box. *)
Definition of_length (G : mat3) (r : nat) (k : Z) : list vec3 :=
  filter (fun v => bil G v v =? k) (box_in G r k).

Definition isometries (G : mat3) (r : nat) : list mat3 :=
  let l1 := of_length G r (m11 G) in
  let l2 := of_length G r (m22 G) in
  let l3 := of_length G r (m33 G) in
  flat_map (fun x =>
    flat_map (fun y =>
      map (fun z => of_cols x y z)
          (filter (fun z => (bil G x z =? m13 G) && (bil G y z =? m23 G)) l3))
      (filter (fun y => bil G x y =? m12 G) l2)) l1.

(** The box is large enough for vectors as short as the basis vectors. *)
Definition box_ok (G : mat3) (r : nat) : bool :=
  let R := Z.of_nat r + 1 in
  forallb (fun k =>
    (m11 (madj G) * k <? mdet G * (R * R)) &&
    (m22 (madj G) * k <? mdet G * (R * R)) &&
    (m33 (madj G) * k <? mdet G * (R * R))) [m11 G; m22 G; m33 G].

Lemma in_of_length G r k v :
  posdef G = true ->
  m11 (madj G) * k < mdet G * ((Z.of_nat r + 1) * (Z.of_nat r + 1)) ->
  m22 (madj G) * k < mdet G * ((Z.of_nat r + 1) * (Z.of_nat r + 1)) ->
  m33 (madj G) * k < mdet G * ((Z.of_nat r + 1) * (Z.of_nat r + 1)) ->
  bil G v v = k -> In v (of_length G r k).
Proof.
  intros HG H1 H2 H3 Hv.
  destruct (posdef_bound G v HG) as (B1 & B2 & B3 & D).
  unfold of_length. apply filter_In. split; [|now apply Z.eqb_eq].
  rewrite Hv in *.
  assert (A : forall x, mdet G * (x * x) < mdet G * ((Z.of_nat r + 1) * (Z.of_nat r + 1)) ->
                        Z.abs x <= Z.of_nat r).
  { intros x Hx. apply Z.mul_lt_mono_pos_l in Hx; [|exact D].
    apply Z.square_lt_simpl_nonneg in Hx; [lia|lia] || nia. }
  apply in_box_in; try (apply A); lia.
Qed.

Lemma isometry_entries G X :
  isometry G X ->
  bil G (col1 X) (col1 X) = m11 G /\ bil G (col2 X) (col2 X) = m22 G /\
  bil G (col3 X) (col3 X) = m33 G /\ bil G (col1 X) (col2 X) = m12 G /\
  bil G (col1 X) (col3 X) = m13 G /\ bil G (col2 X) (col3 X) = m23 G.
Proof.
  unfold isometry. intros H.
  pose proof (f_equal m11 H) as E1. pose proof (f_equal m22 H) as E2.
  pose proof (f_equal m33 H) as E3. pose proof (f_equal m12 H) as E4.
  pose proof (f_equal m13 H) as E5. pose proof (f_equal m23 H) as E6.
  unfold bil, mvec, col1, col2, col3. unfold mmul, mtr in *.
  cbn [m11 m12 m13 m21 m22 m23 m31 m32 m33 v1 v2 v3] in *.
  repeat split; assumption.
Qed.

Theorem isometries_complete G r X :
  posdef G = true -> box_ok G r = true -> isometry G X -> In X (isometries G r).
Proof.
  intros HG Hb HX.
  destruct (isometry_entries G X HX) as (E1 & E2 & E3 & E4 & E5 & E6).
  unfold box_ok in Hb. cbn [forallb] in Hb.
  rewrite !andb_true_iff, !Z.ltb_lt in Hb.
  destruct Hb as (((? & ?) & ?) & ((? & ?) & ?) & ((? & ?) & ?) & _).
  unfold isometries. apply in_flat_map. exists (col1 X).
  split; [now apply in_of_length|].
  apply in_flat_map. exists (col2 X). split.
  - apply filter_In. split; [now apply in_of_length|now apply Z.eqb_eq].
  - apply in_map_iff. exists (col3 X). split; [apply of_cols_cols|].
    apply filter_In. split; [now apply in_of_length|].
    rewrite andb_true_iff, !Z.eqb_eq. auto.
Qed.

(** ** Generation *)

Definition mem (X : mat3) (l : list mat3) : bool := existsb (meqb X) l.

Lemma mem_In X l : mem X l = true <-> In X l.
Proof.
  unfold mem. rewrite existsb_exists. split.
  - intros (Y & HY & E). apply meqb_eq in E. now subst.
  - intros H. exists X. split; [exact H|now apply meqb_eq].
Qed.

(** [generated gens k]: products of at most [k] generators. *)
Fixpoint add_new (l acc : list mat3) : list mat3 :=
  match l with
  | [] => acc
  | x :: l' => if mem x acc then add_new l' acc else add_new l' (x :: acc)
  end.

Fixpoint generated (gens : list mat3) (k : nat) : list mat3 :=
  match k with
  | O => [mid]
  | S k' =>
      let l := generated gens k' in
      add_new (flat_map (fun g => map (mmul g) l) gens) l
  end.

Lemma in_add_new l acc X : In X (add_new l acc) -> In X l \/ In X acc.
Proof.
  revert acc. induction l as [|x l IH]; cbn; intros acc H; [now right|].
  destruct (mem x acc).
  - destruct (IH _ H); auto.
  - destruct (IH _ H) as [?|[?|?]]; auto.
Qed.

Lemma preserves_id H : preserves mid H.
Proof. intros x Hx. replace (mvec mid x) with x; [exact Hx|].
  destruct x; unfold mvec, mid; cbn -[Z.mul Z.add]; f_equal; ring. Qed.

Lemma preserves_mul X Y H : preserves X H -> preserves Y H -> preserves (mmul X Y) H.
Proof. intros HX HY x Hx. rewrite mvec_mul. apply HX, HY, Hx. Qed.

Lemma preserves_generated gens H k X :
  (forall g, In g gens -> preserves g H) -> In X (generated gens k) -> preserves X H.
Proof.
  intros Hg. revert X. induction k as [|k IH]; cbn [generated]; intros X HX.
  - destruct HX as [<-|[]]. apply preserves_id.
  - apply in_add_new in HX. destruct HX as [HX|HX]; [|now apply IH].
    apply in_flat_map in HX. destruct HX as (g & Hgin & HX).
    apply in_map_iff in HX. destruct HX as (Y & <- & HY).
    apply preserves_mul; [now apply Hg|now apply IH].
Qed.

(** Certificate: [gens] are isometries of [G] and generate all of them. *)
Definition pg_cert (G : mat3) (r : nat) (gens : list mat3) (k : nat) : bool :=
  posdef G && box_ok G r
  && forallb (fun X => meqb (mmul (mtr X) (mmul G X)) G) gens
  && (let l := generated gens k in forallb (fun X => mem X l) (isometries G r)).

Theorem symmetry_preserving_gens G r gens k H :
  pg_cert G r gens k = true ->
  (symmetry_preserving G H <-> forall g, In g gens -> preserves g H).
Proof.
  unfold pg_cert. rewrite !andb_true_iff. intros (((HG & Hb) & Hi) & Hc). split.
  - intros HS g Hg. apply HS. rewrite forallb_forall in Hi.
    specialize (Hi g Hg). now apply meqb_eq in Hi.
  - intros HS X HX. apply (preserves_generated gens H k); [exact HS|].
    rewrite forallb_forall in Hc. apply mem_In, Hc.
    now apply isometries_complete.
Qed.

(** ** [preserves] as a matrix equation *)
Lemma preserves_matrix X H : preserves X H <-> exists Z, mmul X H = mmul H Z.
Proof.
  split.
  - intros HP.
    destruct (HP (mvec H (Vec3 1 0 0)) (ex_intro _ _ eq_refl)) as (z1 & E1).
    destruct (HP (mvec H (Vec3 0 1 0)) (ex_intro _ _ eq_refl)) as (z2 & E2).
    destruct (HP (mvec H (Vec3 0 0 1)) (ex_intro _ _ eq_refl)) as (z3 & E3).
    exists (of_cols z1 z2 z3).
    destruct z1 as [p1 p2 p3], z2 as [q1 q2 q3], z3 as [r1 r2 r3]. unfold mvec, mmul, of_cols in *.
    cbn [m11 m12 m13 m21 m22 m23 m31 m32 m33 v1 v2 v3] in *.
    injection E1; injection E2; injection E3; intros. f_equal; lia.
  - intros (Z & HZ) x (v & ->). exists (mvec Z v).
    now rewrite <- !mvec_mul, HZ.
Qed.

(** For a lower-triangular [HNF] the equation splits into three triangular
    systems, one per column. *)
Definition solvable (a b c d e f y1 y2 y3 : Z) : Prop :=
  exists z1 z2 z3, y1 = a * z1 /\ y2 = b * z1 + c * z2 /\ y3 = d * z1 + e * z2 + f * z3.

Lemma preserves_HNF X a b c d e f :
  preserves X (HNF a b c d e f) <->
  solvable a b c d e f
    (m11 X * a + m12 X * b + m13 X * d)
    (m21 X * a + m22 X * b + m23 X * d)
    (m31 X * a + m32 X * b + m33 X * d) /\
  solvable a b c d e f
    (m12 X * c + m13 X * e) (m22 X * c + m23 X * e) (m32 X * c + m33 X * e) /\
  solvable a b c d e f (m13 X * f) (m23 X * f) (m33 X * f).
Proof.
  rewrite preserves_matrix. unfold solvable, HNF, mmul.
  cbn [m11 m12 m13 m21 m22 m23 m31 m32 m33]. split.
  - intros (Z & E). injection E as E1 E2 E3 E4 E5 E6 E7 E8 E9.
    split; [|split].
    + exists (m11 Z), (m21 Z), (m31 Z). lia.
    + exists (m12 Z), (m22 Z), (m32 Z). lia.
    + exists (m13 Z), (m23 Z), (m33 Z). lia.
  - intros ((x1 & x2 & x3 & ?) & (y1 & y2 & y3 & ?) & (z1 & z2 & z3 & ?)).
    exists (Mat3 x1 y1 z1 x2 y2 z2 x3 y3 z3).
    cbn [m11 m12 m13 m21 m22 m23 m31 m32 m33]. f_equal; lia.
Qed.
