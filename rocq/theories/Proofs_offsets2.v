(** Which offsets keep the symmetry of centred and of rhombohedral grids. *)
From Coq Require Import ZArith List Bool Lia Qcanon.
From Verif Require Import Mat3 Spec Model_universal Model_find_kgrids Spec_kgrids Spec_offsets.
Import ListNotations.
Open Scope Z_scope.
Local Ltac Zify.zify_post_hook ::= Z.to_euclidean_division_equations.

Ltac red_all := cbn [mvec vplus vtimes v1 v2 v3 m11 m12 m13 m21 m22 m23 m31 m32 m33] in *.
Lemma vec3_eq u v : v1 u = v1 v -> v2 u = v2 v -> v3 u = v3 v -> u = v.
Proof. destruct u as [a b c], v as [d e f]. cbn. intros -> -> ->. reflexivity. Qed.
Lemma vec3_parts u v : u = v -> v1 u = v1 v /\ v2 u = v2 v /\ v3 u = v3 v.
Proof. intros ->. repeat split. Qed.
Lemma mvec_plus M u v : mvec M (vplus u v) = vplus (mvec M u) (mvec M v).
Proof. apply vec3_eq; unfold mvec, vplus; cbn [v1 v2 v3]; ring. Qed.
Lemma mvec_times M k v : mvec M (vtimes k v) = vtimes k (mvec M v).
Proof. apply vec3_eq; unfold mvec, vtimes; cbn [v1 v2 v3]; ring. Qed.

Section grid.
  Variables (M : mat3) (P : vec3 -> Prop).
  Hypothesis HM : spans M P.

  Lemma col_in w : P (mvec M w). Proof. apply HM. now exists w. Qed.
  Lemma in_col v : P v -> exists w, v = mvec M w. Proof. intros H. now apply HM in H. Qed.

  Lemma kept_iff g s : (forall v, P v -> P (mvec g v)) ->
    grid_kept g M s <-> exists u, P u /\ mvec g (mvec M s) = vplus (mvec M s) (vtimes 4 u).
  Proof.
    intros Hg. split.
    - intros H. destruct (H (mvec M s)) as (w & E).
      + exists (Vec3 0 0 0). apply vec3_eq; unfold mvec, vplus, vtimes; cbn [v1 v2 v3]; ring.
      + exists (mvec M w). split; [apply col_in|exact E].
    - intros (u & Hu & E) p (w & ->). destruct (in_col u Hu) as (a & ->).
      destruct (in_col _ (Hg _ (col_in w))) as (b & Hb).
      exists (vplus a b). rewrite mvec_plus, mvec_times, E, Hb, mvec_plus.
      apply vec3_eq; unfold vplus, vtimes; cbn [v1 v2 v3]; ring.
  Qed.

  Lemma kept_dec g s : (forall v, P v -> P (mvec g v)) -> (forall v, P v \/ ~ P v) -> grid_kept g M s \/ ~ grid_kept g M s.
  Proof.
    intros Hg HP. set (p := mvec M s). set (q := mvec g p).
    set (u := Vec3 ((v1 q - v1 p) / 4) ((v2 q - v2 p) / 4) ((v3 q - v3 p) / 4)).
    assert (D : forall x, P x -> q = vplus p (vtimes 4 x) -> x = u).
    { intros x _ E. unfold u. rewrite E. destruct x as [a b c]. apply vec3_eq; unfold vplus, vtimes; cbn [v1 v2 v3];
        match goal with |- _ = (?y + 4 * ?z - ?y) / 4 => replace (y + 4 * z - y) with (z * 4) by ring end; now rewrite Z.div_mul. }
    destruct (HP u) as [Hu|Hu].
    - destruct (Z.eq_dec (v1 q) (v1 p + 4 * v1 u)) as [E1|E1];
      [destruct (Z.eq_dec (v2 q) (v2 p + 4 * v2 u)) as [E2|E2];
       [destruct (Z.eq_dec (v3 q) (v3 p + 4 * v3 u)) as [E3|E3]|]|].
      + left. apply (kept_iff g s Hg). exists u. split; [exact Hu|]. apply vec3_eq; unfold vplus, vtimes; cbn [v1 v2 v3]; assumption.
      + right. intros H. apply (kept_iff g s Hg) in H. destruct H as (x & Hx & E). apply E3. fold p in E. fold q in E. rewrite <- (D x Hx E), E. reflexivity.
      + right. intros H. apply (kept_iff g s Hg) in H. destruct H as (x & Hx & E). apply E2. fold p in E. fold q in E. rewrite <- (D x Hx E), E. reflexivity.
      + right. intros H. apply (kept_iff g s Hg) in H. destruct H as (x & Hx & E). apply E1. fold p in E. fold q in E. rewrite <- (D x Hx E), E. reflexivity.
    - right. intros H. apply (kept_iff g s Hg) in H. destruct H as (x & Hx & E). apply Hu. now rewrite <- (D x Hx E).
  Qed.

  (** A symmetry that keeps the three half axes changes nothing modulo two. *)
  Lemma half_axes g v : (forall v, P v -> P (mvec g v)) ->
    grid_kept g M (Vec3 2 0 0) -> grid_kept g M (Vec3 0 2 0) -> grid_kept g M (Vec3 0 0 2) -> P v ->
    exists u, P u /\ mvec g v = vplus v (vtimes 2 u).
  Proof.
    intros Hg H1 H2 H3 Hv. destruct (in_col v Hv) as (w & ->).
    apply (kept_iff g _ Hg) in H1. apply (kept_iff g _ Hg) in H2. apply (kept_iff g _ Hg) in H3.
    destruct H1 as (u1 & P1 & E1), H2 as (u2 & P2 & E2), H3 as (u3 & P3 & E3).
    destruct (in_col _ P1) as (a1 & ->), (in_col _ P2) as (a2 & ->), (in_col _ P3) as (a3 & ->).
    exists (mvec M (vplus (vtimes (v1 w) a1) (vplus (vtimes (v2 w) a2) (vtimes (v3 w) a3)))).
    split; [apply col_in|]. rewrite !mvec_plus, !mvec_times.
    destruct (vec3_parts _ _ E1) as (A1 & A2 & A3), (vec3_parts _ _ E2) as (B1 & B2 & B3), (vec3_parts _ _ E3) as (C1 & C2 & C3).
    clear - A1 A2 A3 B1 B2 B3 C1 C2 C3. destruct M as [p1 p2 p3 p4 p5 p6 p7 p8 p9], g as [g1 g2 g3 g4 g5 g6 g7 g8 g9], w as [w1 w2 w3].
    set (X1 := mvec _ a1) in *. set (X2 := mvec _ a2) in *. set (X3 := mvec _ a3) in *. clearbody X1 X2 X3. red_all.
    assert (T : forall x y : Z, 2 * x = 2 * y -> x = y) by (intros; lia).
    apply vec3_eq; red_all; apply T.
    - transitivity (w1 * (g1 * (p1 * 2 + p2 * 0 + p3 * 0) + g2 * (p4 * 2 + p5 * 0 + p6 * 0) + g3 * (p7 * 2 + p8 * 0 + p9 * 0)) +
        w2 * (g1 * (p1 * 0 + p2 * 2 + p3 * 0) + g2 * (p4 * 0 + p5 * 2 + p6 * 0) + g3 * (p7 * 0 + p8 * 2 + p9 * 0)) +
        w3 * (g1 * (p1 * 0 + p2 * 0 + p3 * 2) + g2 * (p4 * 0 + p5 * 0 + p6 * 2) + g3 * (p7 * 0 + p8 * 0 + p9 * 2))); [ring|].
      rewrite A1, B1, C1. ring.
    - transitivity (w1 * (g4 * (p1 * 2 + p2 * 0 + p3 * 0) + g5 * (p4 * 2 + p5 * 0 + p6 * 0) + g6 * (p7 * 2 + p8 * 0 + p9 * 0)) +
        w2 * (g4 * (p1 * 0 + p2 * 2 + p3 * 0) + g5 * (p4 * 0 + p5 * 2 + p6 * 0) + g6 * (p7 * 0 + p8 * 2 + p9 * 0)) +
        w3 * (g4 * (p1 * 0 + p2 * 0 + p3 * 2) + g5 * (p4 * 0 + p5 * 0 + p6 * 2) + g6 * (p7 * 0 + p8 * 0 + p9 * 2))); [ring|].
      rewrite A2, B2, C2. ring.
    - transitivity (w1 * (g7 * (p1 * 2 + p2 * 0 + p3 * 0) + g8 * (p4 * 2 + p5 * 0 + p6 * 0) + g9 * (p7 * 2 + p8 * 0 + p9 * 0)) +
        w2 * (g7 * (p1 * 0 + p2 * 2 + p3 * 0) + g8 * (p4 * 0 + p5 * 2 + p6 * 0) + g9 * (p7 * 0 + p8 * 2 + p9 * 0)) +
        w3 * (g7 * (p1 * 0 + p2 * 0 + p3 * 2) + g8 * (p4 * 0 + p5 * 0 + p6 * 2) + g9 * (p7 * 0 + p8 * 0 + p9 * 2))); [ring|].
      rewrite A3, B3, C3. ring.
  Qed.
  Lemma half_axes_break (group : mat3 -> Prop) g v l : group g -> (forall v, P v -> P (mvec g v)) -> (forall v, P v \/ ~ P v) ->
    In (Vec3 2 0 0) l -> In (Vec3 0 2 0) l -> In (Vec3 0 0 2) l ->
    P v -> (forall u, P u -> mvec g v <> vplus v (vtimes 2 u)) -> breaks group M l.
  Proof.
    intros Hgr Hg HP L1 L2 L3 Hv N.
    destruct (kept_dec g (Vec3 2 0 0) Hg HP) as [K1|K1]; [|now exists (Vec3 2 0 0), g].
    destruct (kept_dec g (Vec3 0 2 0) Hg HP) as [K2|K2]; [|now exists (Vec3 0 2 0), g].
    destruct (kept_dec g (Vec3 0 0 2) Hg HP) as [K3|K3]; [|now exists (Vec3 0 0 2), g].
    destruct (half_axes g v Hg K1 K2 K3 Hv) as (u & Hu & E). destruct (N u Hu E).
  Qed.

  Hypothesis H2 : P (Vec3 2 0 0) /\ P (Vec3 0 2 0) /\ P (Vec3 0 0 2).
  Lemma grid_inj a b : mvec M a = mvec M b -> a = b.
  Proof.
    intros E. destruct H2 as (Q1 & Q2 & Q3).
    destruct (in_col _ Q1) as (x & Ex), (in_col _ Q2) as (y & Ey), (in_col _ Q3) as (z & Ez).
    assert (D : mdet M <> 0).
    { intros D0. assert (F : mdet M * mdet (Mat3 (v1 x) (v1 y) (v1 z) (v2 x) (v2 y) (v2 z) (v3 x) (v3 y) (v3 z)) = 8).
      { transitivity (mdet (Mat3 (v1 (mvec M x)) (v1 (mvec M y)) (v1 (mvec M z)) (v2 (mvec M x)) (v2 (mvec M y)) (v2 (mvec M z))
          (v3 (mvec M x)) (v3 (mvec M y)) (v3 (mvec M z)))); [unfold mdet, mvec; cbn [m11 m12 m13 m21 m22 m23 m31 m32 m33 v1 v2 v3]; ring|].
        rewrite <- Ex, <- Ey, <- Ez. reflexivity. }
      rewrite D0 in F. discriminate F. }
    assert (A : forall v, mvec (madj M) (mvec M v) = vtimes (mdet M) v).
    { intros v. apply vec3_eq; unfold mvec, madj, vtimes, mdet; cbn [m11 m12 m13 m21 m22 m23 m31 m32 m33 v1 v2 v3]; ring. }
    pose proof (f_equal (mvec (madj M)) E) as F. rewrite !A in F. destruct (vec3_parts _ _ F) as (F1 & F2 & F3).
    apply vec3_eq; [exact (Z.mul_reg_l _ _ _ D F1)|exact (Z.mul_reg_l _ _ _ D F2)|exact (Z.mul_reg_l _ _ _ D F3)].
  Qed.

  (** If the symmetries keep exactly the grid itself and the grid shifted by half of [c], then a
      list of two offsets is right if and only if the second one is half of [c] up to the grid. *)
  Lemma two_offsets (group : mat3 -> Prop) c e : P c -> (forall u, P u -> c <> vtimes 2 u) ->
    (forall s, (forall g, group g -> grid_kept g M s) <->
               exists u, P u /\ (mvec M s = vtimes 4 u \/ mvec M s = vplus (vtimes 2 c) (vtimes 4 u))) ->
    In e [Vec3 0 0 1; Vec3 0 1 0; Vec3 1 0 0; Vec3 1 1 1] ->
    exact_offsets group M [Vec3 0 0 0; vtimes 2 e] <-> exists w, mvec M e = vplus c (vtimes 2 (mvec M w)).
  Proof.
    intros Hc Nc K He.
    assert (Ne : forall w, e <> vtimes 2 w).
    { intros [a b d] E. destruct (vec3_parts _ _ E) as (E1 & E2 & E3). cbn [In] in He. clear - He E1 E2 E3. red_all.
      destruct He as [<- | [<- | [<- | [<- | []]]]]; red_all; lia. }
    assert (Ue : unit_offset (vtimes 2 e)) by (cbn [In] in He; destruct He as [<- | [<- | [<- | [<- | []]]]]; unfold unit_offset; cbn; lia).
    split.
    - intros H. destruct (proj1 (H (vtimes 2 e)) (or_intror (or_introl eq_refl))) as (_ & G). apply K in G.
      destruct G as (u & Hu & [E|E]); destruct (in_col u Hu) as (w & ->); rewrite mvec_times in E; destruct (vec3_parts _ _ E) as (E1 & E2 & E3).
      + exfalso. apply (Ne w). apply grid_inj. rewrite mvec_times. apply vec3_eq; unfold vtimes in *; cbn [v1 v2 v3] in *; lia.
      + exists w. apply vec3_eq; unfold vplus, vtimes in *; cbn [v1 v2 v3] in *; lia.
    - intros (w & Hw) s. cbn [In]. split.
      + intros [<- | [<- | []]]; (split; [|apply K]).
        * unfold unit_offset. cbn. lia.
        * exists (mvec M (Vec3 0 0 0)). split; [apply col_in|]. left. apply vec3_eq; unfold mvec, vtimes; cbn [v1 v2 v3]; ring.
        * exact Ue.
        * exists (mvec M w). split; [apply col_in|]. right. rewrite mvec_times, Hw. apply vec3_eq; unfold vplus, vtimes; cbn [v1 v2 v3]; ring.
      + intros (Us & G). apply K in G. destruct G as (u & Hu & [E|E]); destruct (in_col u Hu) as (a & ->).
        * left. symmetry. assert (s = vtimes 4 a) as -> by (apply grid_inj; now rewrite mvec_times).
          clear - Us. destruct a as [x y z]. unfold unit_offset, vtimes in *. cbn [v1 v2 v3] in *.
          assert (x = 0 /\ y = 0 /\ z = 0) as (-> & -> & ->) by lia. reflexivity.
        * right. left. symmetry. assert (s = vplus (vtimes 2 e) (vtimes 4 (vplus a (vtimes (-1) w)))) as Es.
          { apply grid_inj. rewrite E, !mvec_plus, !mvec_times, !mvec_plus, !mvec_times, Hw. apply vec3_eq; unfold vplus, vtimes; cbn [v1 v2 v3]; ring. }
          set (b := vplus a (vtimes (-1) w)) in Es. clearbody b. clear - Us Es Ue. rewrite Es in Us |- *. destruct b as [x y z], e as [e1 e2 e3].
          unfold unit_offset, vtimes, vplus in *. cbn [v1 v2 v3] in *.
          assert (x = 0 /\ y = 0 /\ z = 0) as (-> & -> & ->) by lia. apply vec3_eq; cbn [v1 v2 v3]; ring.
  Qed.
End grid.

(** *** The groups act on the grids *)
Lemma body_dec v : body v \/ ~ body v. Proof. unfold body. lia. Qed.
Lemma face_dec v : face v \/ ~ face v. Proof. unfold face. lia. Qed.
Lemma base_dec v : base v \/ ~ base v. Proof. unfold base. lia. Qed.
Lemma any_dec v : any_vector v \/ ~ any_vector v. Proof. left. exact I. Qed.
Lemma abs1 x : Z.abs x = 1 -> x = 1 \/ x = -1. Proof. lia. Qed.
Ltac signs_cases H :=
  let x := fresh "x" in let y := fresh "y" in let z := fresh "z" in
  let Hx := fresh in let Hy := fresh in let Hz := fresh in
  destruct H as (x & y & z & -> & Hx & Hy & Hz);
  apply abs1 in Hx; apply abs1 in Hy; apply abs1 in Hz;
  destruct Hx as [-> | ->], Hy as [-> | ->], Hz as [-> | ->].
Lemma signs_body g v : signs g -> body v -> body (mvec g v).
Proof. intros H. signs_cases H; unfold body; red_all; lia. Qed.
Lemma signs_face g v : signs g -> face v -> face (mvec g v).
Proof. intros H. signs_cases H; unfold face; red_all; lia. Qed.
Lemma signs_base g v : signs g -> base v -> base (mvec g v).
Proof. intros H. signs_cases H; unfold base; red_all; lia. Qed.
Lemma diag_signs x y z : Z.abs x = 1 -> Z.abs y = 1 -> Z.abs z = 1 -> signs (Mat3 x 0 0 0 y 0 0 0 z).
Proof. intros. now exists x, y, z. Qed.
Lemma monoclinic_signs g : monoclinic g -> signs g.
Proof. cbn. intros [<- | [<- | [<- | [<- | []]]]]; apply diag_signs; reflexivity. Qed.

(** *** Lists with the three half axes *)
Lemma body_breaks equal k n1 n2 n3 M : In k [19; 8; 42] -> spans M body -> breaks orthorhombic M (get_offsets equal k n1 n2 n3).
Proof.
  intros Hk HM. apply (half_axes_break M body HM orthorhombic (Mat3 (-1) 0 0 0 1 0 0 0 1) (Vec3 1 1 1)).
  - apply diag_signs; reflexivity.
  - intros v. apply signs_body, diag_signs; reflexivity.
  - exact body_dec.
  - destruct Hk as [<- | [<- | [<- | []]]]; cbn; tauto.
  - destruct Hk as [<- | [<- | [<- | []]]]; cbn; tauto.
  - destruct Hk as [<- | [<- | [<- | []]]]; cbn; tauto.
  - split; reflexivity.
  - intros u Hu E. destruct (vec3_parts _ _ E) as (E1 & E2 & E3). unfold body in Hu. red_all. lia.
Qed.

Lemma quarter_breaks (group : mat3 -> Prop) M P l s : spans M P -> (forall v, P v -> P (mvec (mopp mid) v)) ->
  P (Vec3 2 0 0) /\ P (Vec3 0 2 0) /\ P (Vec3 0 0 2) -> group (mopp mid) -> In s l ->
  v1 s mod 2 <> 0 \/ v2 s mod 2 <> 0 \/ v3 s mod 2 <> 0 -> breaks group M l.
Proof.
  intros HM Hg H2 Hgr Hs Q. exists s, (mopp mid). split; [exact Hs|]. split; [exact Hgr|]. intros H.
  apply (kept_iff M P HM _ _ Hg) in H. destruct H as (u & Hu & E). destruct (in_col M P HM u Hu) as (w & ->).
  assert (F : s = vtimes (-2) w).
  { apply (grid_inj M P HM H2). rewrite mvec_times. destruct (vec3_parts _ _ E) as (E1 & E2 & E3).
    set (p := mvec M s) in *. set (q := mvec M w) in *. clearbody p q. clear - E1 E2 E3.
    unfold mopp, mid in *. apply vec3_eq; red_all; lia. }
  clear - F Q. rewrite F in Q. unfold vtimes in Q. cbn [v1 v2 v3] in Q. lia.
Qed.

Lemma base_breaks equal k n1 n2 n3 M : In k base_centred -> spans M base -> breaks monoclinic M (get_offsets equal k n1 n2 n3).
Proof.
  intros Hk HM.
  assert (B2 : base (Vec3 2 0 0) /\ base (Vec3 0 2 0) /\ base (Vec3 0 0 2)) by (unfold base; cbn; repeat split; reflexivity).
  assert (Bi : forall v, base v -> base (mvec (mopp mid) v)) by (intros v; apply signs_base, diag_signs; reflexivity).
  assert (Q : forall l s, get_offsets equal k n1 n2 n3 = l -> In s l -> v1 s mod 2 <> 0 \/ v2 s mod 2 <> 0 \/ v3 s mod 2 <> 0 ->
    breaks monoclinic M (get_offsets equal k n1 n2 n3)).
  { intros l s -> Hs Hq. apply (quarter_breaks monoclinic M base l s HM Bi B2); [cbn; tauto|exact Hs|exact Hq]. }
  set (lt := fun x y => match Qccompare x y with Lt => true | _ => false end).
  assert (E : get_offsets equal k n1 n2 n3 =
    if lt n1 n2 && lt n1 n3 then [Vec3 0 0 0; Vec3 0 0 2; Vec3 0 2 0; Vec3 0 2 2; Vec3 3 1 0; Vec3 3 1 2; Vec3 1 1 0; Vec3 1 1 2]
    else if lt n2 n1 && lt n2 n3 then [Vec3 0 0 0; Vec3 0 0 2; Vec3 2 0 0; Vec3 2 0 2; Vec3 1 3 0; Vec3 1 3 2; Vec3 1 1 0; Vec3 1 1 2]
    else if lt n3 n1 && lt n3 n2 then [Vec3 0 0 0; Vec3 0 2 0; Vec3 2 0 0; Vec3 2 2 0; Vec3 0 1 3; Vec3 2 1 3; Vec3 2 1 1; Vec3 2 1 1]
    else [Vec3 0 0 0; Vec3 0 2 0; Vec3 2 0 0; Vec3 0 0 2; Vec3 2 2 0; Vec3 2 0 2; Vec3 0 2 2]).
  { unfold base_centred in Hk. cbn [In] in Hk. repeat (destruct Hk as [<- | Hk]; [reflexivity|]). destruct Hk. }
  destruct (lt n1 n2 && lt n1 n3).
  { apply (Q _ (Vec3 3 1 0) E); [cbn; tauto|]. left. discriminate. }
  destruct (lt n2 n1 && lt n2 n3).
  { apply (Q _ (Vec3 1 3 0) E); [cbn; tauto|]. left. discriminate. }
  destruct (lt n3 n1 && lt n3 n2).
  { apply (Q _ (Vec3 0 1 3) E); [cbn; tauto|]. right. left. discriminate. }
  rewrite E. apply (half_axes_break M base HM monoclinic (Mat3 (-1) 0 0 0 1 0 0 0 (-1)) (Vec3 1 1 0)); try (cbn; tauto).
  - intros v. apply signs_base, diag_signs; reflexivity.
  - exact base_dec.
  - intros u Hu F. destruct (vec3_parts _ _ F) as (E1 & E2 & E3). unfold base in Hu. red_all. lia.
Qed.

Lemma cubic_diag x y z : Z.abs x = 1 -> Z.abs y = 1 -> Z.abs z = 1 -> cubic (Mat3 x 0 0 0 y 0 0 0 z).
Proof.
  intros. exists (Mat3 x 0 0 0 y 0 0 0 z), mid. split; [now apply diag_signs|]. split; [left; reflexivity|].
  unfold mmul, mid. cbn [m11 m12 m13 m21 m22 m23 m31 m32 m33]. f_equal; ring.
Qed.
Lemma cubic_breaks equal k P n1 n2 n3 M : (k = 3 /\ P = any_vector) \/ (k = 5 /\ P = body) \/ (k = 1 /\ P = face) -> spans M P ->
  breaks cubic M (get_offsets equal k n1 n2 n3).
Proof.
  intros [(-> & ->) | [(-> & ->) | (-> & ->)]] HM.
  - apply (half_axes_break M any_vector HM cubic swap12 (Vec3 1 0 0)); try (cbn; tauto).
    + exists mid, swap12. split; [apply diag_signs; reflexivity|]. split; [right; left; reflexivity|reflexivity].
    + exact any_dec.
    + exact I.
    + intros u _ E. destruct (vec3_parts _ _ E) as (E1 & E2 & E3). unfold swap12 in *. red_all. lia.
  - apply (half_axes_break M body HM cubic (Mat3 (-1) 0 0 0 1 0 0 0 1) (Vec3 1 1 1)); try (cbn; tauto).
    + now apply cubic_diag.
    + intros v. apply signs_body, diag_signs; reflexivity.
    + exact body_dec.
    + split; reflexivity.
    + intros u Hu E. destruct (vec3_parts _ _ E) as (E1 & E2 & E3). unfold body in Hu. red_all. lia.
  - apply (half_axes_break M face HM cubic (Mat3 (-1) 0 0 0 1 0 0 0 1) (Vec3 1 1 0)); try (cbn; tauto).
    + now apply cubic_diag.
    + intros v. apply signs_face, diag_signs; reflexivity.
    + exact face_dec.
    + reflexivity.
    + intros u Hu E. destruct (vec3_parts _ _ E) as (E1 & E2 & E3). unfold face in Hu. red_all. lia.
Qed.

(** *** Face-centred orthorhombic grids *)
Lemma face_kept M s : spans M face ->
  (forall g, orthorhombic g -> grid_kept g M s) <->
  exists u, face u /\ (mvec M s = vtimes 4 u \/ mvec M s = vplus (vtimes 2 (Vec3 2 0 0)) (vtimes 4 u)).
Proof.
  intros HM. split.
  - intros H.
    assert (K : forall g, signs g -> exists u, face u /\ mvec g (mvec M s) = vplus (mvec M s) (vtimes 4 u)).
    { intros g Hg. apply (kept_iff M face HM); [intros v; now apply signs_face|now apply H]. }
    destruct (K _ (diag_signs (-1) 1 1 eq_refl eq_refl eq_refl)) as (a & Ha & Ea).
    destruct (K _ (diag_signs 1 (-1) 1 eq_refl eq_refl eq_refl)) as (b & Hb & Eb).
    destruct (K _ (diag_signs 1 1 (-1) eq_refl eq_refl eq_refl)) as (c & Hc & Ec).
    destruct (vec3_parts _ _ Ea) as (A1 & A2 & A3), (vec3_parts _ _ Eb) as (B1 & B2 & B3), (vec3_parts _ _ Ec) as (C1 & C2 & C3).
    set (v := mvec M s) in *. clearbody v. clear - Ha Hb Hc A1 A2 A3 B1 B2 B3 C1 C2 C3. unfold face in Ha, Hb, Hc. red_all.
    assert (D : v1 v mod 4 = 0 /\ v2 v mod 4 = 0 /\ v3 v mod 4 = 0) by lia. clear Ha Hb Hc A1 A2 A3 B1 B2 B3 C1 C2 C3. destruct D as (D1 & D2 & D3).
    assert (V : v = vtimes 4 (Vec3 (v1 v / 4) (v2 v / 4) (v3 v / 4))) by (apply vec3_eq; unfold vtimes; cbn [v1 v2 v3]; lia).
    set (w := Vec3 (v1 v / 4) (v2 v / 4) (v3 v / 4)) in V. clearbody w. destruct (face_dec w) as [F|F].
    + exists w. split; [exact F|now left].
    + exists (Vec3 (v1 w - 1) (v2 w) (v3 w)). split; [unfold face in *; cbn [v1 v2 v3]; lia|]. right. rewrite V.
      apply vec3_eq; unfold vplus, vtimes; cbn [v1 v2 v3]; ring.
  - intros (u & Hu & E) g Hg. apply (kept_iff M face HM); [intros v; now apply signs_face|].
    assert (V : exists w, mvec M s = vtimes 4 w).
    { destruct E as [E|E]; [now exists u|]. exists (Vec3 (1 + v1 u) (v2 u) (v3 u)). rewrite E. apply vec3_eq; unfold vplus, vtimes; cbn [v1 v2 v3]; ring. }
    destruct V as ([x y z] & ->). clear - Hg. unfold orthorhombic in Hg. signs_cases Hg;
    match goal with |- context [Mat3 ?p 0 0 0 ?q 0 0 0 ?r] => exists (Vec3 ((p - 1) * x) ((q - 1) * y) ((r - 1) * z)) end;
    (split; [unfold face; cbn [v1 v2 v3]; lia|apply vec3_eq; red_all; ring]).
Qed.
Lemma face_offsets equal k n1 n2 n3 M : In k [16; 26] -> spans M face ->
  exact_offsets orthorhombic M (get_offsets equal k n1 n2 n3) <->
  v1 (diagonal M) mod 2 = 0 /\ v2 (diagonal M) mod 2 = 0 /\ v3 (diagonal M) mod 2 = 0.
Proof.
  intros Hk HM. replace (get_offsets equal k n1 n2 n3) with [Vec3 0 0 0; vtimes 2 (Vec3 1 1 1)] by (destruct Hk as [<- | [<- | []]]; reflexivity).
  rewrite (two_offsets M face HM ltac:(repeat split) orthorhombic (Vec3 2 0 0) (Vec3 1 1 1)).
  - replace (mvec M (Vec3 1 1 1)) with (diagonal M) by (apply vec3_eq; unfold mvec, diagonal; cbn [v1 v2 v3]; ring). split.
    + intros (w & ->). unfold vplus, vtimes. cbn [v1 v2 v3]. lia.
    + intros (E1 & E2 & E3).
      assert (V : diagonal M = vtimes 2 (Vec3 (v1 (diagonal M) / 2) (v2 (diagonal M) / 2) (v3 (diagonal M) / 2))) by (apply vec3_eq; unfold vtimes; cbn [v1 v2 v3]; lia).
      set (w := Vec3 (v1 (diagonal M) / 2) _ _) in V. clearbody w.
      destruct (face_dec w) as [F|F].
      * exfalso. apply HM in F. destruct F as (a & ->).
        assert (X : Vec3 1 1 1 = vtimes 2 a).
        { apply (grid_inj M face HM); [repeat split|]. rewrite mvec_times, <- V. apply vec3_eq; unfold mvec, diagonal; cbn [v1 v2 v3]; ring. }
        apply (f_equal v1) in X. unfold vtimes in X. cbn [v1] in X. lia.
      * assert (G : face (Vec3 (v1 w - 1) (v2 w) (v3 w))) by (unfold face in *; cbn [v1 v2 v3]; lia).
        apply HM in G. destruct G as (a & Ea). exists a. rewrite <- Ea, V. apply vec3_eq; unfold vplus, vtimes; cbn [v1 v2 v3]; ring.
  - reflexivity.
  - intros u Hu E. apply vec3_parts in E. destruct E as (E1 & E2 & E3). unfold face, vtimes in *. cbn [v1 v2 v3] in *. lia.
  - intros s. now apply face_kept.
  - cbn. tauto.
Qed.

(** *** The offset along one vector of the grid *)
Definition unit_axis (k : Z) : vec3 := if k =? 3 then Vec3 0 0 1 else if k =? 2 then Vec3 0 1 0 else Vec3 1 0 0.
Lemma column_axis k M : column k M = mvec M (unit_axis k).
Proof. unfold column, unit_axis. destruct (k =? 3), (k =? 2); apply vec3_eq; unfold mvec; cbn [v1 v2 v3]; ring. Qed.
Lemma axis_in k : In (unit_axis k) [Vec3 0 0 1; Vec3 0 1 0; Vec3 1 0 0; Vec3 1 1 1].
Proof. unfold unit_axis. destruct (k =? 3), (k =? 2); cbn; tauto. Qed.
Lemma axis_list equal id n1 n2 n3 k : In id [12; 22; 4; 2; 9; 24; 6; 7; 15; 18] -> In k [1; 2; 3] -> unique_axis equal n1 n2 n3 k ->
  get_offsets equal id n1 n2 n3 = [Vec3 0 0 0; vtimes 2 (unit_axis k)].
Proof.
  intros Hid Hk U.
  assert (E : get_offsets equal id n1 n2 n3 = if equal n1 n2 then [Vec3 0 0 0; Vec3 0 0 2]
    else if equal n1 n3 then [Vec3 0 0 0; Vec3 0 2 0] else if equal n2 n3 then [Vec3 0 0 0; Vec3 2 0 0]
    else [Vec3 0 0 0; Vec3 0 0 2; Vec3 0 2 0; Vec3 2 0 0]).
  { cbn [In] in Hid. repeat (destruct Hid as [<- | Hid]; [reflexivity|]). destruct Hid. }
  rewrite E. destruct Hk as [<- | [<- | [<- | []]]]; unfold unique_axis in U; cbn [Z.eqb Pos.eqb] in U.
  - destruct U as (-> & -> & ->). reflexivity.
  - destruct U as (-> & ->). reflexivity.
  - rewrite U. reflexivity.
Qed.

(** *** Body-centred tetragonal grids *)
Lemma tetragonal_body g v : tetragonal g -> body v -> body (mvec g v).
Proof.
  intros (d & p & Hd & Hp & ->). destruct Hp as [<- | [<- | []]]; signs_cases Hd; unfold body, mmul, mid, swap12; red_all; lia.
Qed.
Lemma signs_tetragonal d : signs d -> tetragonal d.
Proof.
  intros H. exists d, mid. split; [exact H|]. split; [now left|]. destruct H as (x & y & z & -> & _).
  unfold mmul, mid. cbn [m11 m12 m13 m21 m22 m23 m31 m32 m33]. f_equal; ring.
Qed.
Lemma body_kept M s : spans M body ->
  (forall g, tetragonal g -> grid_kept g M s) <->
  exists u, body u /\ (mvec M s = vtimes 4 u \/ mvec M s = vplus (vtimes 2 (Vec3 0 0 2)) (vtimes 4 u)).
Proof.
  intros HM. split.
  - intros H.
    assert (K : forall g, tetragonal g -> exists u, body u /\ mvec g (mvec M s) = vplus (mvec M s) (vtimes 4 u)).
    { intros g Hg. apply (kept_iff M body HM); [intros v; now apply tetragonal_body|now apply H]. }
    destruct (K _ (signs_tetragonal _ (diag_signs (-1) 1 1 eq_refl eq_refl eq_refl))) as (a & Ha & Ea).
    destruct (K _ (signs_tetragonal _ (diag_signs 1 (-1) 1 eq_refl eq_refl eq_refl))) as (b & Hb & Eb).
    destruct (K _ (signs_tetragonal _ (diag_signs 1 1 (-1) eq_refl eq_refl eq_refl))) as (c & Hc & Ec).
    assert (Ts : tetragonal swap12) by (exists mid, swap12; split; [apply diag_signs; reflexivity|split; [right; now left|reflexivity]]).
    destruct (K _ Ts) as (d & Hd & Ed).
    destruct (vec3_parts _ _ Ea) as (A1 & A2 & A3), (vec3_parts _ _ Eb) as (B1 & B2 & B3), (vec3_parts _ _ Ec) as (C1 & C2 & C3),
      (vec3_parts _ _ Ed) as (D1 & D2 & D3).
    set (v := mvec M s) in *. clearbody v. clear - Ha Hb Hc Hd A1 A2 A3 B1 B2 B3 C1 C2 C3 D1 D2 D3. unfold body, swap12 in *. red_all.
    assert (D : v1 v mod 4 = 0 /\ v2 v mod 4 = 0 /\ v3 v mod 4 = 0 /\ (v1 v - v2 v) mod 8 = 0) by lia.
    clear Ha Hb Hc Hd A1 A2 A3 B1 B2 B3 C1 C2 C3 D1 D2 D3. destruct D as (D1 & D2 & D3 & D4).
    assert (V : exists w, v = vtimes 4 w /\ (v1 w - v2 w) mod 2 = 0).
    { exists (Vec3 (v1 v / 4) (v2 v / 4) (v3 v / 4)). split; [apply vec3_eq; unfold vtimes|]; cbn [v1 v2 v3]; lia. }
    destruct V as (w & V & W). destruct (body_dec w) as [F|F].
    + exists w. split; [exact F|now left].
    + exists (Vec3 (v1 w) (v2 w) (v3 w - 1)). split; [unfold body in F; cbn [v1 v2 v3]; lia|]. right. rewrite V.
      apply vec3_eq; unfold vplus, vtimes; cbn [v1 v2 v3]; ring.
  - intros (u & Hu & E) g Hg. apply (kept_iff M body HM); [intros v; now apply tetragonal_body|].
    assert (V : exists w, mvec M s = vtimes 4 w /\ (v1 w - v2 w) mod 2 = 0).
    { unfold body in Hu. destruct E as [E|E]; [now exists u|]. exists (Vec3 (v1 u) (v2 u) (1 + v3 u)). rewrite E.
      split; [apply vec3_eq; unfold vplus, vtimes; cbn [v1 v2 v3]; ring|cbn [v1 v2]; tauto]. }
    destruct V as ([x y z] & -> & W). clear - Hg W. cbn [v1 v2] in W. destruct Hg as (d & p & Hd & Hp & ->).
    destruct Hp as [<- | [<- | []]]; signs_cases Hd;
    match goal with |- context [mmul (Mat3 ?p 0 0 0 ?q 0 0 0 ?r) ?t] =>
      first [ constr_eq t mid; exists (Vec3 ((p - 1) * x) ((q - 1) * y) ((r - 1) * z))
            | exists (Vec3 (p * y - x) (q * x - y) ((r - 1) * z)) ] end;
    (split; [unfold body; cbn [v1 v2 v3]; lia|apply vec3_eq; unfold mmul, mid, swap12; red_all; ring]).
Qed.
Lemma body_tetragonal_offsets equal id n1 n2 n3 k M : In id [6; 7; 15; 18] -> In k [1; 2; 3] -> unique_axis equal n1 n2 n3 k ->
  spans M body ->
  exact_offsets tetragonal M (get_offsets equal id n1 n2 n3) <->
  exists w, column k M = vplus (Vec3 0 0 2) (vtimes 2 (mvec M w)).
Proof.
  intros Hid Hk U HM. rewrite (axis_list equal id n1 n2 n3 k); [|cbn [In] in *; tauto|exact Hk|exact U].
  rewrite column_axis. apply (two_offsets M body HM).
  - repeat split.
  - split; reflexivity.
  - intros u Hu E. apply vec3_parts in E. destruct E as (E1 & E2 & E3). unfold body, vtimes in *. cbn [v1 v2 v3] in *. lia.
  - intros s. now apply body_kept.
  - apply axis_in.
Qed.

(** *** Rhombohedral grids *)
Lemma permutation_cases p v : permutation p -> exists i j l,
  mvec p v = Vec3 i j l /\
  ((i = v1 v /\ j = v2 v /\ l = v3 v) \/ (i = v2 v /\ j = v1 v /\ l = v3 v) \/ (i = v3 v /\ j = v1 v /\ l = v2 v) \/
   (i = v2 v /\ j = v3 v /\ l = v1 v) \/ (i = v1 v /\ j = v3 v /\ l = v2 v) \/ (i = v3 v /\ j = v2 v /\ l = v1 v)).
Proof.
  intros H. exists (v1 (mvec p v)), (v2 (mvec p v)), (v3 (mvec p v)). split; [now apply vec3_eq|].
  unfold permutation in H. cbn [In] in H.
  repeat (destruct H as [<- | H]; [unfold mmul, mid, swap12, cycle; red_all; lia|]). destruct H.
Qed.
Lemma rhombohedral_kept M s : spans M any_vector ->
  (forall g, rhombohedral g -> grid_kept g M s) <->
  exists u, any_vector u /\ (mvec M s = vtimes 4 u \/ mvec M s = vplus (vtimes 2 (Vec3 1 1 1)) (vtimes 4 u)).
Proof.
  intros HM. split.
  - intros H.
    assert (K : forall g, rhombohedral g -> exists u, any_vector u /\ mvec g (mvec M s) = vplus (mvec M s) (vtimes 4 u)).
    { intros g Hg. apply (kept_iff M any_vector HM); [intros v _; exact I|now apply H]. }
    assert (R1 : rhombohedral (mopp mid)) by (exists mid; split; [now left|now right]).
    assert (R2 : rhombohedral cycle) by (exists cycle; split; [right; right; now left|now left]).
    destruct (K _ R1) as (a & _ & Ea), (K _ R2) as (b & _ & Eb).
    destruct (vec3_parts _ _ Ea) as (A1 & A2 & A3), (vec3_parts _ _ Eb) as (B1 & B2 & B3).
    set (v := mvec M s) in *. clearbody v. clear - A1 A2 A3 B1 B2 B3. unfold mopp, mid, cycle in *. red_all.
    assert (D : v1 v mod 2 = 0 /\ (v1 v - v2 v) mod 4 = 0 /\ (v2 v - v3 v) mod 4 = 0) by lia.
    clear A1 A2 A3 B1 B2 B3. destruct D as (D1 & D2 & D3).
    assert (C : v1 v mod 4 = 0 \/ v1 v mod 4 = 2) by lia. destruct C as [C|C].
    + exists (Vec3 (v1 v / 4) (v2 v / 4) (v3 v / 4)). split; [exact I|]. left. apply vec3_eq; unfold vtimes; cbn [v1 v2 v3]; lia.
    + exists (Vec3 ((v1 v - 2) / 4) ((v2 v - 2) / 4) ((v3 v - 2) / 4)). split; [exact I|]. right.
      apply vec3_eq; unfold vplus, vtimes; cbn [v1 v2 v3]; lia.
  - intros (u & _ & E) g (p & Hp & Hg). apply (kept_iff M any_vector HM); [intros v _; exact I|].
    set (v := mvec M s) in *. clearbody v.
    assert (V : exists e, (e = 0 \/ e = 2) /\ v1 v mod 4 = e /\ v2 v mod 4 = e /\ v3 v mod 4 = e).
    { clear - E. destruct E as [-> | ->]; [exists 0|exists 2]; unfold vplus, vtimes; cbn [v1 v2 v3]; lia. }
    clear E. destruct V as (e & He & V1 & V2 & V3). destruct (permutation_cases p v Hp) as (i & j & l & Ep & Q).
    assert (I4 : i mod 4 = e /\ j mod 4 = e /\ l mod 4 = e).
    { clear - V1 V2 V3 Q. repeat destruct Q as [Q|Q]; destruct Q as (-> & -> & ->); repeat split; assumption. }
    clear Q. destruct I4 as (I1 & I2 & I3). destruct Hg as [-> | ->].
    + exists (Vec3 ((i - v1 v) / 4) ((j - v2 v) / 4) ((l - v3 v) / 4)). split; [exact I|]. rewrite Ep. clear - V1 V2 V3 I1 I2 I3.
      apply vec3_eq; unfold vplus, vtimes; cbn [v1 v2 v3]; lia.
    + exists (Vec3 ((- i - v1 v) / 4) ((- j - v2 v) / 4) ((- l - v3 v) / 4)). split; [exact I|].
      assert (Eo : mvec (mopp p) v = Vec3 (- i) (- j) (- l)).
      { destruct (vec3_parts _ _ Ep) as (P1 & P2 & P3). cbn [v1 v2 v3] in P1, P2, P3. rewrite <- P1, <- P2, <- P3.
        apply vec3_eq; unfold mvec, mopp; cbn [v1 v2 v3 m11 m12 m13 m21 m22 m23 m31 m32 m33]; ring. }
      rewrite Eo. clear - V1 V2 V3 I1 I2 I3 He. apply vec3_eq; unfold vplus, vtimes; cbn [v1 v2 v3]; lia.
Qed.
Lemma rhombohedral_offsets equal id n1 n2 n3 k M : In id [2; 4; 9; 24] -> In k [1; 2; 3] -> unique_axis equal n1 n2 n3 k ->
  spans M any_vector ->
  exact_offsets rhombohedral M (get_offsets equal id n1 n2 n3) <->
  v1 (column k M) mod 2 = 1 /\ v2 (column k M) mod 2 = 1 /\ v3 (column k M) mod 2 = 1.
Proof.
  intros Hid Hk U HM. rewrite (axis_list equal id n1 n2 n3 k); [|cbn [In] in *; tauto|exact Hk|exact U].
  rewrite column_axis. rewrite (two_offsets M any_vector HM (conj I (conj I I)) rhombohedral (Vec3 1 1 1) (unit_axis k)).
  - set (v := mvec M (unit_axis k)). clearbody v. split.
    + intros (w & ->). unfold vplus, vtimes. cbn [v1 v2 v3]. lia.
    + intros (E1 & E2 & E3). destruct (in_col M any_vector HM (Vec3 ((v1 v - 1) / 2) ((v2 v - 1) / 2) ((v3 v - 1) / 2)) I) as (w & Ew).
      exists w. rewrite <- Ew. apply vec3_eq; unfold vplus, vtimes; cbn [v1 v2 v3]; lia.
  - exact I.
  - intros u _ E. apply vec3_parts in E. destruct E as (E1 & _). unfold vtimes in E1. cbn [v1 v2 v3] in E1. lia.
  - intros s. now apply rhombohedral_kept.
  - apply axis_in.
Qed.

(** *** Examples *)
Definition face_cell : mat3 := Mat3 0 1 1 1 0 1 1 1 0.
Definition body_cell : mat3 := Mat3 (-1) 1 1 1 (-1) 1 1 1 (-1).
Definition base_cell : mat3 := Mat3 1 1 0 1 (-1) 0 0 0 2.
Lemma face_spans : spans face_cell face.
Proof.
  intros [x y z]. unfold in_lattice, face, face_cell. split.
  - intros ([a b c] & E). apply vec3_parts in E. red_all. lia.
  - red_all. intros H. exists (Vec3 ((y + z - x) / 2) ((x + z - y) / 2) ((x + y - z) / 2)). apply vec3_eq; red_all; lia.
Qed.
Lemma body_spans : spans body_cell body.
Proof.
  intros [x y z]. unfold in_lattice, body, body_cell. split.
  - intros ([a b c] & E). apply vec3_parts in E. red_all. lia.
  - red_all. intros H. exists (Vec3 ((y + z) / 2) ((x + z) / 2) ((x + y) / 2)). apply vec3_eq; red_all; lia.
Qed.
Lemma base_spans : spans base_cell base.
Proof.
  intros [x y z]. unfold in_lattice, base, base_cell. split.
  - intros ([a b c] & E). apply vec3_parts in E. red_all. lia.
  - red_all. intros H. exists (Vec3 ((x + y) / 2) ((x - y) / 2) (z / 2)). apply vec3_eq; red_all; lia.
Qed.
Lemma mid_spans : spans mid any_vector.
Proof. intros v. split; [now intros|]. intros _. exists v. destruct v as [x y z]. apply vec3_eq; unfold mid; red_all; ring. Qed.
(** Body-centred tetragonal: a basis along the axis, and one for which no vector is right. *)
Definition body_axis : mat3 := Mat3 1 1 0 1 (-1) 0 1 1 2.
Lemma body_axis_spans : spans body_axis body.
Proof.
  intros [x y z]. unfold in_lattice, body, body_axis. split.
  - intros ([a b c] & E). apply vec3_parts in E. red_all. lia.
  - red_all. intros H. exists (Vec3 ((x + y) / 2) ((x - y) / 2) ((z - x) / 2)). apply vec3_eq; red_all; lia.
Qed.
Lemma body_axis_right : exists w, column 3 body_axis = vplus (Vec3 0 0 2) (vtimes 2 (mvec body_axis w)).
Proof. exists (Vec3 0 0 0). reflexivity. Qed.
Lemma body_cell_wrong k : ~ exists w, column k body_cell = vplus (Vec3 0 0 2) (vtimes 2 (mvec body_cell w)).
Proof.
  intros ([a b c] & E). unfold column, body_cell in E. apply vec3_parts in E.
  destruct (k =? 3), (k =? 2); red_all; lia.
Qed.
(** Rhombohedral: with the threefold axis as third vector. *)
Definition threefold_cell : mat3 := Mat3 1 0 1 0 1 1 0 0 1.
Lemma threefold_spans : spans threefold_cell any_vector.
Proof.
  intros [x y z]. split; [now intros|]. intros _. exists (Vec3 (x - z) (y - z) z). apply vec3_eq; unfold threefold_cell; red_all; ring.
Qed.
Lemma rhombohedral_cell_wrong equal id n1 n2 n3 k : In id [2; 4; 9; 24] -> In k [1; 2; 3] -> unique_axis equal n1 n2 n3 k ->
  ~ exact_offsets rhombohedral mid (get_offsets equal id n1 n2 n3).
Proof.
  intros Hid Hk U H. apply (rhombohedral_offsets equal id n1 n2 n3 k mid Hid Hk U mid_spans) in H.
  unfold column, mid in H. destruct (k =? 3), (k =? 2); red_all; cbn in H; lia.
Qed.

(** No two vectors of equal length: all three half vectors are listed. *)
Lemma no_axis_list equal id n1 n2 n3 s : In id [12; 22; 4; 2; 9; 24; 6; 7; 15; 18] ->
  equal n1 n2 = false -> equal n1 n3 = false -> equal n2 n3 = false ->
  In s [Vec3 2 0 0; Vec3 0 2 0; Vec3 0 0 2] -> In s (get_offsets equal id n1 n2 n3).
Proof.
  intros Hid E1 E2 E3 Hs.
  assert (E : get_offsets equal id n1 n2 n3 = [Vec3 0 0 0; Vec3 0 0 2; Vec3 0 2 0; Vec3 2 0 0]).
  { cbn [In] in Hid. repeat (destruct Hid as [<- | Hid]; [unfold get_offsets; cbn; rewrite E1, E2, E3; reflexivity|]). destruct Hid. }
  rewrite E. cbn [In] in *. tauto.
Qed.
Lemma body_tetragonal_breaks equal id n1 n2 n3 M : In id [6; 7; 15; 18] ->
  equal n1 n2 = false -> equal n1 n3 = false -> equal n2 n3 = false -> spans M body ->
  breaks tetragonal M (get_offsets equal id n1 n2 n3).
Proof.
  intros Hid E1 E2 E3 HM.
  assert (L : forall s, In s [Vec3 2 0 0; Vec3 0 2 0; Vec3 0 0 2] -> In s (get_offsets equal id n1 n2 n3)).
  { intros s. apply no_axis_list; try assumption. cbn [In] in *. tauto. }
  apply (half_axes_break M body HM tetragonal (Mat3 (-1) 0 0 0 1 0 0 0 1) (Vec3 1 1 1)); try (apply L; cbn; tauto).
  - apply signs_tetragonal, diag_signs; reflexivity.
  - intros v. apply signs_body, diag_signs; reflexivity.
  - exact body_dec.
  - split; reflexivity.
  - intros u Hu E. destruct (vec3_parts _ _ E) as (F1 & F2 & F3). unfold body in Hu. clear - Hu F1 F2 F3. red_all. lia.
Qed.
Lemma rhombohedral_breaks equal id n1 n2 n3 M : In id [2; 4; 9; 24] ->
  equal n1 n2 = false -> equal n1 n3 = false -> equal n2 n3 = false -> spans M any_vector ->
  breaks rhombohedral M (get_offsets equal id n1 n2 n3).
Proof.
  intros Hid E1 E2 E3 HM.
  assert (L : forall s, In s [Vec3 2 0 0; Vec3 0 2 0; Vec3 0 0 2] -> In s (get_offsets equal id n1 n2 n3)).
  { intros s. apply no_axis_list; try assumption. cbn [In] in *. tauto. }
  apply (half_axes_break M any_vector HM rhombohedral swap12 (Vec3 1 0 0)); try (apply L; cbn; tauto).
  - exists swap12. split; [right; now left|now left].
  - intros v _. exact I.
  - exact any_dec.
  - exact I.
  - intros u _ E. destruct (vec3_parts _ _ E) as (F1 & F2 & F3). unfold swap12 in *. clear - F1 F2 F3. red_all. lia.
Qed.
