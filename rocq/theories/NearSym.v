(** The operations that preserve a decimal lattice up to a tolerance form a finite
    computable set. *)
From Coq Require Import ZArith List Lia Bool.
From Verif Require Import Mat3 Spec PyNum PointGroup EnumTac.
Import ListNotations.
Open Scope Z_scope.

Definition nearb (eps x y : Z) : bool := Z.abs (x - y) <=? eps.

Lemma nearb_iff eps x y : nearb eps x y = true <-> near eps x y.
Proof. apply Z.leb_le. Qed.

Definition near_isometryb (G : mat3) (eps : Z) (X : mat3) : bool :=
  let M := mmul (mtr X) (mmul G X) in
  nearb eps (m11 M) (m11 G) && nearb eps (m12 M) (m12 G) && nearb eps (m13 M) (m13 G) &&
  nearb eps (m21 M) (m21 G) && nearb eps (m22 M) (m22 G) && nearb eps (m23 M) (m23 G) &&
  nearb eps (m31 M) (m31 G) && nearb eps (m32 M) (m32 G) && nearb eps (m33 M) (m33 G).

Lemma near_isometryb_iff G eps X : near_isometryb G eps X = true <-> near_isometry G eps X.
Proof.
  unfold near_isometryb, near_isometry. cbv zeta.
  rewrite !andb_true_iff, !nearb_iff. tauto.
Qed.

Definition near_length (G : mat3) (r : nat) (eps k : Z) : list vec3 :=
  filter (fun v => nearb eps (bil G v v) k) (box_in G r (k + eps)).

Definition near_isometries (G : mat3) (r : nat) (eps : Z) : list mat3 :=
  let l1 := near_length G r eps (m11 G) in
  let l2 := near_length G r eps (m22 G) in
  let l3 := near_length G r eps (m33 G) in
  flat_map (fun x =>
    flat_map (fun y =>
      map (fun z => of_cols x y z)
          (filter (fun z => nearb eps (bil G x z) (m13 G) && nearb eps (bil G y z) (m23 G)) l3))
      (filter (fun y => nearb eps (bil G x y) (m12 G)) l2)) l1.

Definition near_box_ok (G : mat3) (r : nat) (eps : Z) : bool :=
  let R := Z.of_nat r + 1 in
  forallb (fun k =>
    (0 <? m11 (madj G)) && (0 <? m22 (madj G)) && (0 <? m33 (madj G)) &&
    (m11 (madj G) * (k + eps) <? mdet G * (R * R)) &&
    (m22 (madj G) * (k + eps) <? mdet G * (R * R)) &&
    (m33 (madj G) * (k + eps) <? mdet G * (R * R))) [m11 G; m22 G; m33 G].

Lemma in_near_length G r eps k v :
  posdef G = true ->
  0 < m11 (madj G) -> 0 < m22 (madj G) -> 0 < m33 (madj G) ->
  m11 (madj G) * (k + eps) < mdet G * ((Z.of_nat r + 1) * (Z.of_nat r + 1)) ->
  m22 (madj G) * (k + eps) < mdet G * ((Z.of_nat r + 1) * (Z.of_nat r + 1)) ->
  m33 (madj G) * (k + eps) < mdet G * ((Z.of_nat r + 1) * (Z.of_nat r + 1)) ->
  near eps (bil G v v) k -> In v (near_length G r eps k).
Proof.
  intros HG P1 P2 P3 H1 H2 H3 Hv.
  destruct (posdef_bound G v HG) as (B1 & B2 & B3 & D).
  unfold near_length. apply filter_In. split; [|now apply nearb_iff].
  assert (Hle : bil G v v <= k + eps) by (unfold near in Hv; lia).
  assert (A : forall x, mdet G * (x * x) < mdet G * ((Z.of_nat r + 1) * (Z.of_nat r + 1)) ->
                        Z.abs x <= Z.of_nat r).
  { intros x Hx. apply Z.mul_lt_mono_pos_l in Hx; [|exact D]. nia. }
  assert (M : forall m, 0 < m -> m * bil G v v <= m * (k + eps))
    by (intros m Hm; apply Z.mul_le_mono_nonneg_l; lia).
  pose proof (M _ P1). pose proof (M _ P2). pose proof (M _ P3).
  apply in_box_in; try (apply A); lia.
Qed.

Lemma near_isometry_entries G eps X :
  near_isometry G eps X ->
  near eps (bil G (col1 X) (col1 X)) (m11 G) /\ near eps (bil G (col2 X) (col2 X)) (m22 G) /\
  near eps (bil G (col3 X) (col3 X)) (m33 G) /\ near eps (bil G (col1 X) (col2 X)) (m12 G) /\
  near eps (bil G (col1 X) (col3 X)) (m13 G) /\ near eps (bil G (col2 X) (col3 X)) (m23 G).
Proof.
  unfold near_isometry. cbv zeta. unfold bil, mvec, col1, col2, col3. unfold mmul, mtr.
  cbn [m11 m12 m13 m21 m22 m23 m31 m32 m33 v1 v2 v3]. tauto.
Qed.

Theorem near_isometries_complete G r eps X :
  posdef G = true -> near_box_ok G r eps = true ->
  near_isometry G eps X -> In X (near_isometries G r eps).
Proof.
  intros HG Hb HX.
  destruct (near_isometry_entries G eps X HX) as (E1 & E2 & E3 & E4 & E5 & E6).
  unfold near_box_ok in Hb. cbn [forallb] in Hb.
  rewrite !andb_true_iff, !Z.ltb_lt in Hb. decompose [and] Hb. clear Hb.
  unfold near_isometries. apply in_flat_map. exists (col1 X).
  split; [now apply in_near_length|].
  apply in_flat_map. exists (col2 X). split.
  - apply filter_In. split; [now apply in_near_length|now apply nearb_iff].
  - apply in_map_iff. exists (col3 X). split; [apply of_cols_cols|].
    apply filter_In. split; [now apply in_near_length|].
    rewrite andb_true_iff, !nearb_iff. auto.
Qed.

(** Certificate: [gens] are symmetries up to [eps] and generate all of them. *)
Definition near_cert (B : mat3) (r : nat) (eps : Z) (gens : list mat3) (k : nat) : bool :=
  let G := gram B in
  posdef G && near_box_ok G r eps
  && forallb (near_isometryb G eps) gens
  && (let l := generated gens k in forallb (fun X => mem X l) (near_isometries G r eps)).

Theorem near_preserving_gens B r eps gens k H :
  near_cert B r eps gens k = true ->
  ((forall X, near_isometry (gram B) eps X -> preserves X H) <->
   forall g, In g gens -> preserves g H).
Proof.
  unfold near_cert. cbv zeta. rewrite !andb_true_iff. intros (((HG & Hb) & Hi) & Hc). split.
  - intros HS g Hg. apply HS. rewrite forallb_forall in Hi.
    apply near_isometryb_iff. auto.
  - intros HS X HX. apply (preserves_generated gens H k); [exact HS|].
    rewrite forallb_forall in Hc. apply mem_In, Hc.
    now apply near_isometries_complete.
Qed.

Lemma enum_basis_from_gens B r eps gens k enum :
  enumerates_gens gens enum -> near_cert B r eps gens k = true ->
  enumerates_for_basis B eps enum.
Proof.
  intros HE HC n H. rewrite (HE n H), (near_preserving_gens B r eps gens k H HC).
  split; [|tauto]. intros (Hh & Hs). split; [|tauto].
  destruct Hh as (a & b & c & d & e & f & -> & Ha & Hc & Hf & <- & _). nia.
Qed.
