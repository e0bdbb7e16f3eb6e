(** Deciding [preserves X H] and [symmetry_preserving G H] by computation. *)
From Coq Require Import ZArith List Lia Bool.
From Verif Require Import Mat3 Spec PointGroup.
Import ListNotations.
Open Scope Z_scope.

Definition mdiv (A : mat3) (n : Z) : mat3 :=
  Mat3 (m11 A / n) (m12 A / n) (m13 A / n)
       (m21 A / n) (m22 A / n) (m23 A / n)
       (m31 A / n) (m32 A / n) (m33 A / n).

(** [H^-1 X H] is an integer matrix. *)
Definition preserves_b (X H : mat3) : bool :=
  let n := mdet H in
  let M := mmul (madj H) (mmul X H) in
  negb (n =? 0) && meqb (mscale n (mdiv M n)) M.

Lemma preserves_b_sound X H : preserves_b X H = true -> preserves X H.
Proof.
  unfold preserves_b. rewrite andb_true_iff, negb_true_iff, Z.eqb_neq, meqb_eq.
  intros (Hn & E). apply preserves_matrix.
  exists (mdiv (mmul (madj H) (mmul X H)) (mdet H)).
  apply (mscale_inj (mdet H)); [exact Hn|].
  rewrite <- (mscale_mul_r _ H), E, mmul_assoc, madj_r, mscale_id_l. reflexivity.
Qed.

Lemma mdiv_scale A n : n <> 0 -> mdiv (mscale n A) n = A.
Proof.
  intros Hn. destruct A as [x1 x2 x3 y1 y2 y3 z1 z2 z3]. unfold mdiv, mscale.
  cbn [m11 m12 m13 m21 m22 m23 m31 m32 m33].
  f_equal; rewrite Z.mul_comm; now apply Z.div_mul.
Qed.

Lemma preserves_b_complete X H : mdet H <> 0 -> preserves X H -> preserves_b X H = true.
Proof.
  intros Hn HP. apply preserves_matrix in HP. destruct HP as (W & E).
  unfold preserves_b. rewrite andb_true_iff, negb_true_iff, Z.eqb_neq, meqb_eq.
  split; [exact Hn|]. rewrite E, mmul_assoc, madj_l, mscale_id_l, mdiv_scale by exact Hn.
  reflexivity.
Qed.

Lemma preserves_scale k X H : preserves X H -> preserves X (mscale k H).
Proof.
  intros HP. apply preserves_matrix in HP. destruct HP as (W & E).
  apply preserves_matrix. exists W. rewrite mscale_mul_r, mscale_mul_l, E. reflexivity.
Qed.

Lemma symmetry_preserving_dec G r gens k H :
  pg_cert G r gens k = true ->
  forallb (fun g => preserves_b g H) gens = true -> symmetry_preserving G H.
Proof.
  intros HC HF. apply (symmetry_preserving_gens G r gens k H HC).
  intros g Hg. apply preserves_b_sound. rewrite forallb_forall in HF. auto.
Qed.

Lemma not_symmetry_preserving_dec G X H :
  mdet H <> 0 -> isometry G X -> preserves_b X H = false -> ~ symmetry_preserving G H.
Proof.
  intros Hn HX HF HS. rewrite (preserves_b_complete X H Hn (HS X HX)) in HF. discriminate.
Qed.
