(** Proofs about the file KPOINTS, continued: points of the first zone, and the whole program. *)
From Coq Require Import ZArith QArith Qcanon Qround List Bool Ascii String Lia Lqa.
From Verif Require Import Mat3 Spec QMat QNum QcTac Spec_kgrids Spec_control Model_control Proofs_control
  Spec_niggli Spec_niggli_f90 Bases Bases_niggli Model_find_kgrids Model_find_grid Model_niggli_f90
  Proofs_gridcell Proofs_find_grid1 Proofs_transform
  Model_find_grid_top Model_driver Spec_driver Proofs_driver Spec_grid Model_transform
  Proofs_cbrt Proofs_niggli_f90a Proofs_niggli_f90b Proofs_niggli_f90c Proofs_niggli_f90d Spec_clear.
Import ListNotations.
Open Scope Qc_scope.

(** ** Length of the points of the first zone *)
Definition qvscale (k : Qc) (x : qvec) : qvec := QVec (k * w1 x) (k * w2 x) (k * w3 x).

Lemma sq0 (x : Qc) : 0 <= x * x.
Proof.
  unfold Qcle. change (this 0) with 0%Q. rewrite this_mult. nra.
Qed.
Lemma mul0 (x y : Qc) : 0 <= x -> 0 <= y -> 0 <= x * y.
Proof. unfold Qcle. change (this 0) with 0%Q. intros. rewrite this_mult. nra. Qed.
Lemma norm2_nonneg x : 0 <= norm2 x.
Proof. unfold norm2. pose proof (sq0 (w1 x)). pose proof (sq0 (w2 x)). pose proof (sq0 (w3 x)). qclra. Qed.

Lemma average n y r f : 0 <= f -> f <= 1 ->
  n <= norm2 (qvadd y (qvscale f r)) -> n <= norm2 (qvadd y (qvscale (f - 1) r)) ->
  zq 4 * n <= zq 4 * norm2 y + norm2 r.
Proof.
  intros H0 H1 A B.
  pose proof (mul0 (1 - f) (norm2 (qvadd y (qvscale f r)) - n) ltac:(qclra) ltac:(qclra)) as A'.
  pose proof (mul0 f (norm2 (qvadd y (qvscale (f - 1) r)) - n) H0 ltac:(qclra)) as B'.
  assert (E : (1 - f) * (norm2 (qvadd y (qvscale f r)) - n)
            + f * (norm2 (qvadd y (qvscale (f - 1) r)) - n)
            = norm2 y + f * (1 - f) * norm2 r - n).
  { unfold norm2, qvadd, qvscale. cbn [w1 w2 w3]. ring. }
  pose proof (mul0 _ _ (sq0 (1 - (f + f))) (norm2_nonneg r)) as Q.
  assert (E2 : (1 - (f + f)) * (1 - (f + f)) * norm2 r
             = norm2 r - zq 4 * (f * (1 - f) * norm2 r)).
  { change (zq 4) with (1 + 1 + 1 + 1). ring. }
  rewrite E2 in Q. clear E2.
  assert (S : 0 <= norm2 y + f * (1 - f) * norm2 r - n) by (rewrite <- E; qclra).
  clear - S Q. revert S Q. generalize (f * (1 - f) * norm2 r). intros u S Q.
  change (zq 4) with (1 + 1 + 1 + 1) in *. qclra.
Qed.

Definition qfloor (x : Qc) : Z := Qfloor (this x).
Lemma qfloor_spec x : 0 <= x - zq (qfloor x) /\ x - zq (qfloor x) <= 1.
Proof.
  unfold qfloor. pose proof (Qfloor_le (this x)) as A. pose proof (Qlt_floor (this x)) as B.
  rewrite inject_Z_plus in B. change (inject_Z 1) with 1%Q in B. unfold zq, Qcle. split.
  - rewrite this_minus, (this_Q2Qc (inject_Z _)). change (this 0) with 0%Q.
    revert A B. generalize (inject_Z (Qfloor x)). intros. lra.
  - rewrite this_minus, (this_Q2Qc (inject_Z _)). change (this 1) with 1%Q.
    revert A B. generalize (inject_Z (Qfloor x)). intros. lra.
Qed.

Definition col1 (A : qmat) := QVec (q11 A) (q21 A) (q31 A).
Definition col2 (A : qmat) := QVec (q12 A) (q22 A) (q32 A).
Definition col3 (A : qmat) := QVec (q13 A) (q23 A) (q33 A).

Lemma zone_length R x : in_first_zone R (qmvec R x) ->
  zq 4 * norm2 (qmvec R x) <= norm2 (col1 R) + norm2 (col2 R) + norm2 (col3 R).
Proof.
  intros HZ. set (n := norm2 (qmvec R x)) in *.
  destruct (qfloor_spec (w1 x)) as (A1 & B1). destruct (qfloor_spec (w2 x)) as (A2 & B2).
  destruct (qfloor_spec (w3 x)) as (A3 & B3).
  set (i1 := qfloor (w1 x)) in *. set (i2 := qfloor (w2 x)) in *. set (i3 := qfloor (w3 x)) in *.
  set (f1 := w1 x - zq i1) in *. set (f2 := w2 x - zq i2) in *. set (f3 := w3 x - zq i3) in *.
  set (O := QVec 0 0 0).
  assert (Z' : forall e1 e2 e3 : Z, n <= norm2 (qvadd (qvadd (qvadd O
      (qvscale (f3 - zq e3) (col3 R))) (qvscale (f2 - zq e2) (col2 R))) (qvscale (f1 - zq e1) (col1 R)))).
  { intros e1 e2 e3.
    pose proof (HZ (qmvec R (qvof (Vec3 (- (i1 + e1)) (- (i2 + e2)) (- (i3 + e3)))))
      (ex_intro _ _ eq_refl)) as H.
    fold n in H. refine (eq_ind _ (fun t => n <= norm2 t) H _ _).
    unfold qvadd, qvscale, qmvec, qvof, col1, col2, col3, O, f1, f2, f3. cbn [w1 w2 w3 v1 v2 v3].
    rewrite !zq_opp, !zq_add. f_equal; ring. }
  assert (S0 : forall f : Qc, f - zq 0 = f) by (intros f; rewrite zq_0; ring).
  assert (Z1 : forall e2 e3 : Z, zq 4 * n <= zq 4 * norm2 (qvadd (qvadd O
      (qvscale (f3 - zq e3) (col3 R))) (qvscale (f2 - zq e2) (col2 R))) + norm2 (col1 R)).
  { intros e2 e3. apply average with f1; [exact A1|exact B1| |].
    - pose proof (Z' 0%Z e2 e3) as H. rewrite S0 in H. exact H.
    - exact (Z' 1%Z e2 e3). }
  assert (Z2 : forall e3 : Z, zq 4 * n <= zq 4 * norm2 (qvadd O (qvscale (f3 - zq e3) (col3 R)))
      + norm2 (col2 R) + norm2 (col1 R)).
  { intros e3.
    assert (K : zq 4 * (n - norm2 (col1 R) / zq 4) <=
      zq 4 * norm2 (qvadd O (qvscale (f3 - zq e3) (col3 R))) + norm2 (col2 R)).
    { apply average with f2; [exact A2|exact B2| |].
      - pose proof (Z1 0%Z e3) as H. rewrite S0 in H.
        revert H. generalize (norm2 (qvadd (qvadd O (qvscale (f3 - zq e3) (col3 R))) (qvscale f2 (col2 R)))).
        generalize (norm2 (col1 R)). intros u v H.
        assert (E : u / zq 4 = Q2Qc (1 # 4) * u) by (unfold Qcdiv; rewrite Qcmult_comm; f_equal).
        rewrite E. change (zq 4) with (1 + 1 + 1 + 1) in H. qclra.
      - pose proof (Z1 1%Z e3) as H.
        revert H. change (f2 - zq 1) with (f2 - 1).
        generalize (norm2 (qvadd (qvadd O (qvscale (f3 - zq e3) (col3 R))) (qvscale (f2 - 1) (col2 R)))).
        generalize (norm2 (col1 R)). intros u v H.
        assert (E : u / zq 4 = Q2Qc (1 # 4) * u) by (unfold Qcdiv; rewrite Qcmult_comm; f_equal).
        rewrite E. change (zq 4) with (1 + 1 + 1 + 1) in H. qclra. }
    revert K. generalize (norm2 (qvadd O (qvscale (f3 - zq e3) (col3 R)))).
    generalize (norm2 (col1 R)) (norm2 (col2 R)). intros u v w K.
    assert (E : u / zq 4 = Q2Qc (1 # 4) * u) by (unfold Qcdiv; rewrite Qcmult_comm; f_equal).
    rewrite E in K. change (zq 4) with (1 + 1 + 1 + 1) in *. qclra. }
  assert (K : zq 4 * (n - (norm2 (col1 R) + norm2 (col2 R)) / zq 4) <=
    zq 4 * norm2 O + norm2 (col3 R)).
  { apply average with f3; [exact A3|exact B3| |].
    - pose proof (Z2 0%Z) as H. rewrite S0 in H.
      revert H. generalize (norm2 (qvadd O (qvscale f3 (col3 R)))).
      generalize (norm2 (col1 R)) (norm2 (col2 R)). intros u w v H.
      assert (E : (u + w) / zq 4 = Q2Qc (1 # 4) * (u + w)) by (unfold Qcdiv; rewrite Qcmult_comm; f_equal).
      rewrite E. change (zq 4) with (1 + 1 + 1 + 1) in H. qclra.
    - pose proof (Z2 1%Z) as H. revert H. change (f3 - zq 1) with (f3 - 1).
      generalize (norm2 (qvadd O (qvscale (f3 - 1) (col3 R)))).
      generalize (norm2 (col1 R)) (norm2 (col2 R)). intros u w v H.
      assert (E : (u + w) / zq 4 = Q2Qc (1 # 4) * (u + w)) by (unfold Qcdiv; rewrite Qcmult_comm; f_equal).
      rewrite E. change (zq 4) with (1 + 1 + 1 + 1) in H. qclra. }
  assert (EO : norm2 O = 0) by reflexivity. rewrite EO in K.
  clearbody n. clear - K. revert K. generalize (norm2 (col1 R)) (norm2 (col2 R)) (norm2 (col3 R)).
  intros u v w K.
  assert (E : (u + v) / zq 4 = Q2Qc (1 # 4) * (u + v)) by (unfold Qcdiv; rewrite Qcmult_comm; f_equal).
  rewrite E in K. change (zq 4) with (1 + 1 + 1 + 1) in *. qclra.
Qed.

Lemma cauchy a b : (w1 a * w1 b + w2 a * w2 b + w3 a * w3 b) * (w1 a * w1 b + w2 a * w2 b + w3 a * w3 b)
  <= norm2 a * norm2 b.
Proof.
  unfold norm2. pose proof (sq0 (w1 a * w2 b - w2 a * w1 b)). pose proof (sq0 (w1 a * w3 b - w3 a * w1 b)).
  pose proof (sq0 (w2 a * w3 b - w3 a * w2 b)).
  assert (E : (w1 a * w1 a + w2 a * w2 a + w3 a * w3 a) * (w1 b * w1 b + w2 b * w2 b + w3 b * w3 b)
    = (w1 a * w1 b + w2 a * w2 b + w3 a * w3 b) * (w1 a * w1 b + w2 a * w2 b + w3 a * w3 b)
    + (w1 a * w2 b - w2 a * w1 b) * (w1 a * w2 b - w2 a * w1 b)
    + (w1 a * w3 b - w3 a * w1 b) * (w1 a * w3 b - w3 a * w1 b)
    + (w2 a * w3 b - w3 a * w2 b) * (w2 a * w3 b - w3 a * w2 b)) by ring.
  rewrite E. qclra.
Qed.

Lemma small_fits x : zq 4 * (x * x) < zq 399 -> fits x.
Proof.
  intros H. unfold fits.
  change (qdec (-99999999999995) 13) with (Q2Qc (-99999999999995 # 10000000000000)).
  change (qdec 999999999999995 13) with (Q2Qc (999999999999995 # 10000000000000)).
  unfold zq in H. qc2q. unfold inject_Z in *. split; nra.
Qed.

Lemma coordinate_fits R a p : in_first_zone R p -> (exists x, p = qmvec R x) ->
  norm2 a * (norm2 (col1 R) + norm2 (col2 R) + norm2 (col3 R)) < zq 399 ->
  fits (w1 a * w1 p + w2 a * w2 p + w3 a * w3 p).
Proof.
  intros Z (x & E) H. subst p. pose proof (zone_length R x Z) as L.
  set (p := qmvec R x) in *. apply small_fits.
  pose proof (cauchy a p) as C. set (d := w1 a * w1 p + w2 a * w2 p + w3 a * w3 p) in *.
  pose proof (mul0 (norm2 a) (norm2 (col1 R) + norm2 (col2 R) + norm2 (col3 R) - zq 4 * norm2 p)
    (norm2_nonneg a) ltac:(qclra)) as M.
  revert L C H M. generalize (d * d). generalize (norm2 a) (norm2 p).
  generalize (norm2 (col1 R) + norm2 (col2 R) + norm2 (col3 R)). intros s u v w L C H M.
  change (zq 4) with (1 + 1 + 1 + 1) in *. unfold zq in *. qc2q. unfold inject_Z in *. nra.
Qed.

Lemma qinv_reciprocal U : qdet U <> 0 -> qinv (reciprocal U) = qtr U.
Proof.
  intros H. unfold reciprocal. symmetry. apply qinv_unique.
  - apply qdet_inv. rewrite qdet_tr. exact H.
  - apply qinv_l. rewrite qdet_tr. exact H.
Qed.
Lemma det_reciprocal U : qdet U <> 0 -> qdet (reciprocal U) <> 0.
Proof. intros H. apply qdet_inv. rewrite qdet_tr. exact H. Qed.
Lemma back R p : qdet R <> 0 -> qmvec R (qmvec (qinv R) p) = p.
Proof. intros H. rewrite <- qmvec_mul, qinv_r, qmvec_id; [reflexivity|exact H]. Qed.

Lemma zone_fits U p : qdet U <> 0 -> not_too_skewed U -> in_first_zone (reciprocal U) p ->
  let x := qmvec (qinv (reciprocal U)) p in fits (w1 x) /\ fits (w2 x) /\ fits (w3 x).
Proof.
  intros HU HS HZ.
  assert (X : exists x, p = qmvec (reciprocal U) x).
  { eexists. symmetry. apply back, det_reciprocal, HU. }
  unfold not_too_skewed, col_norms in HS. cbv zeta iota beta in HS.
  fold (col1 U) (col2 U) (col3 U) in HS.
  fold (col1 (reciprocal U)) (col2 (reciprocal U)) (col3 (reciprocal U)) in HS.
  destruct HS as (H1 & H2 & H3). rewrite (qinv_reciprocal U HU). cbv zeta.
  unfold qmvec, qtr. cbn [w1 w2 w3 q11 q12 q13 q21 q22 q23 q31 q32 q33].
  repeat split.
  - exact (proj1 (coordinate_fits _ (col1 U) p HZ X H1)).
  - exact (proj2 (coordinate_fits _ (col1 U) p HZ X H1)).
  - exact (proj1 (coordinate_fits _ (col2 U) p HZ X H2)).
  - exact (proj2 (coordinate_fits _ (col2 U) p HZ X H2)).
  - exact (proj1 (coordinate_fits _ (col3 U) p HZ X H3)).
  - exact (proj2 (coordinate_fits _ (col3 U) p HZ X H3)).
Qed.

(** ** The file *)
Lemma file_reads U (l : list (qvec * Z)) : qdet U <> 0 -> not_too_skewed U ->
  (forall p w, In (p, w) l -> in_first_zone (reciprocal U) p /\ (1 <= w <= 48)%Z) ->
  Forall2 (fun line pw => reads_point line (qmvec (qinv (reciprocal U)) (fst pw)) (snd pw))
    (map (fun pw => point_line (qmvec (qinv (reciprocal U)) (fst pw)) (snd pw)) l) l.
Proof.
  intros HU HS. induction l as [|(p, w) l IH]; intros H; cbn [map]; constructor.
  - cbn [fst snd]. destruct (H p w (or_introl eq_refl)) as (HZ & Hw).
    destruct (zone_fits U p HU HS HZ) as (F1 & F2 & F3). apply line_reads; try assumption. lia.
  - apply IH. intros q v Hq. apply H. now right.
Qed.

Lemma count_reads m : (0 <= m < 10 ^ 11)%Z -> exists t, words (i_list m) = [t] /\ integer t = Some m.
Proof.
  intros H. destruct (i_edit_fits 11 m ltac:(lia) H) as (k & t & E & I & B & N).
  exists t. split; [|exact I]. unfold i_list. rewrite E. change (" " ++ (copies k " " ++ t))%string with (copies (S k) " " ++ t)%string.
  now apply words_last.
Qed.
Lemma title_reads l : (Z.of_nat (List.length l) < 10 ^ 12)%Z -> (0 <= total l < 10 ^ 6)%Z ->
  exists k1 k2 a b, nth 0 (header l) "" =
    ("Dynamic K-point generation: irreducible/reducible: " ++ (copies k1 " " ++ a) ++ "/" ++ (copies k2 " " ++ b))%string /\
    integer a = Some (Z.of_nat (List.length l)) /\ integer b = Some (total l).
Proof.
  intros H1 H2. destruct (i_edit_fits 12 (Z.of_nat (List.length l)) ltac:(lia) ltac:(lia)) as (k1 & a & E1 & I1 & _).
  destruct (i_edit_fits 6 (total l) ltac:(lia) H2) as (k2 & b & E2 & I2 & _).
  exists k1, k2, a, b. split; [|now split]. unfold header. cbn [nth]. now rewrite E1, E2.
Qed.
Lemma title_stars l : (10 ^ 6 <= total l)%Z -> exists s,
  nth 0 (header l) "" = (s ++ "/******")%string.
Proof.
  intros H. unfold header. cbn [nth]. rewrite (i_edit_stars 6 (total l)) by (try lia; exact H).
  exists ("Dynamic K-point generation: irreducible/reducible: " ++ i_edit 12 (Z.of_nat (List.length l)))%string.
  cbn [copies]. change "/******"%string with ("/" ++ "******")%string. rewrite !sapp_assoc. reflexivity.
Qed.

Lemma span_add R x y : in_span R x -> in_span R y -> in_span R (qvadd x y).
Proof.
  intros (a & ->) (b & ->). exists (Vec3 (v1 a + v1 b) (v2 a + v2 b) (v3 a + v3 b)).
  unfold qvadd, qmvec, qvof. cbn [w1 w2 w3 v1 v2 v3]. rewrite !zq_add. f_equal; ring.
Qed.
Lemma sub_chain (a b c : qvec) : qvsub a c = qvadd (qvsub a b) (qvsub b c).
Proof. unfold qvsub, qvadd. cbn [w1 w2 w3]. f_equal; ring. Qed.

Lemma file_lists ops U g s l f : qdet U <> 0 -> not_too_skewed U ->
  maps_into_zone (reciprocal U) f ->
  (forall p w, In (p, w) l -> on_grid g s p /\ (1 <= w <= 48)%Z) ->
  (forall q, on_grid g s q -> exists p w T, In (p, w) l /\ ops T /\
     in_span (reciprocal U) (qvsub p (qmvec T q))) ->
  (Z.of_nat (List.length l) < 10 ^ 11)%Z ->
  let l' := map (fun pw => (f (fst pw), snd pw)) l in
  lists_grid ops (reciprocal U) g s (kpoints_file true (reciprocal U) l')
    (map (fun pw => (qmvec (qinv (reciprocal U)) (fst pw), snd pw)) l').
Proof.
  intros HU HS HF HL HA HN l'.
  assert (Hl : forall p w, In (p, w) l' -> in_first_zone (reciprocal U) p /\ (1 <= w <= 48)%Z /\
    exists q, on_grid g s q /\ in_span (reciprocal U) (qvsub p q)).
  { intros p w Hp. unfold l' in Hp. rewrite in_map_iff in Hp. destruct Hp as ((q, v) & E & Hq).
    cbn [fst snd] in E. injection E as <- <-. destruct (HL q v Hq) as (G & W).
    destruct (HF q) as (S & Z). split; [exact Z|]. split; [exact W|]. exists q. now split. }
  assert (HN' : List.length l' = List.length l) by (unfold l'; apply map_length).
  split; [|split; [|split]].
  - destruct (count_reads (Z.of_nat (List.length l')) ltac:(lia)) as (t & W & I).
    eexists _, _, t. split; [reflexivity|]. split; [exact W|]. rewrite map_length. exact I.
  - change (skipn 3 (kpoints_file true (reciprocal U) l')) with
      (map (fun pw => point_line (qmvec (qinv (reciprocal U)) (fst pw)) (snd pw)) l').
    assert (H : forall p w, In (p, w) l' -> in_first_zone (reciprocal U) p /\ (1 <= w <= 48)%Z).
    { intros p w Hp. destruct (Hl p w Hp) as (A & B & _). now split. }
    pose proof (file_reads U l' HU HS H) as F. clearbody l'. clear - F.
    remember (map (fun pw => point_line (qmvec (qinv (reciprocal U)) (fst pw)) (snd pw)) l') as ls eqn:E.
    clear E. induction F as [|a b la lb H F IH]; cbn [map]; constructor; [exact H|exact IH].
  - apply Forall_forall. intros (x, w) Hx. rewrite in_map_iff in Hx. destruct Hx as ((p, v) & E & Hp).
    cbn [fst snd] in E. injection E as <- <-. destruct (Hl p v Hp) as (_ & _ & q & G & S).
    exists q. split; [exact G|]. cbn [fst]. rewrite back by (apply det_reciprocal, HU). exact S.
  - intros q Hq. destruct (HA q Hq) as (p & w & T & Hp & HT & Sp).
    exists (qmvec (qinv (reciprocal U)) (f p)), w, T. split; [|split; [exact HT|]].
    + apply in_map_iff. exists (f p, w). split; [reflexivity|]. unfold l'.
      apply in_map_iff. exists (p, w). now split.
    + rewrite back by (apply det_reciprocal, HU). rewrite (sub_chain _ p).
      apply span_add; [apply (HF p)|exact Sp].
Qed.

Lemma total_ge l : (forall p w, In (p, w) l -> (1 <= w)%Z) -> (Z.of_nat (List.length l) <= total l)%Z.
Proof.
  induction l as [|(p, w) l IH]; intros H; [reflexivity|].
  unfold total in *. cbn [map snd fold_right List.length]. rewrite Nat2Z.inj_succ.
  pose proof (H p w (or_introl eq_refl)). pose proof (IH (fun q v Hq => H q v (or_intror Hq))). lia.
Qed.

(** ** The whole program *)
Section Program.
  Context (read_int : string -> io Z) (read_real : string -> io Qc)
          (read_3 : string -> io (Qc * Qc * Qc)) (sqrt2 : Qc).
  Context (dep : Qc -> bool) (cbrt : Qc -> Qc) (pg_size : qmat -> Z)
          (norms : qmat -> Qc * Qc * Qc) (equal_norm : Qc -> Qc -> bool)
          (undefined : mat3 -> qmat) (mink reduce_R : Qc -> qmat -> qmat) (rmin : qmat -> Qc)
          (packed : qmat -> bool) (equal : Qc -> Qc -> bool)
          (irr1 irr2 : crystal -> qmat -> offset -> option Z) (fuel : nat) (root : Z -> Z)
          (generate : crystal -> qmat -> qmat -> offset -> list (qvec * Z))
          (to_bz : qmat -> Qc -> qvec -> qvec).
  Local Notation run := (driver read_int read_real read_3 sqrt2 dep cbrt pg_size norms equal_norm
    undefined mink reduce_R rmin packed equal irr1 irr2 fuel root generate to_bz).

  Lemma program_sound ops poscar kpgen p kpd off find symm min_kpts e L :
    cube_root cbrt -> dependence_test dep -> (forall cr, positive (irr1 cr)) ->
    (forall B, qdet B <> 0 -> exists Y, unimodular Y /\ mink e B = qmul B (qof Y)) ->
    read_POSCAR read_int read_real read_3 poscar = Some p ->
    get_inputs read_int read_real read_3 sqrt2 (p_allocated p) (p_param p) (p_lat p) kpgen =
      Inputs (Some kpd) off find symm min_kpts (Some e) ->
    f_clear_cell cbrt e L (p_lat p) -> qdec 22 6 <= e -> e <= qdec 11 4 -> (1 <= kpd)%Z ->
    not_too_skewed (p_lat p) ->
    (let R := reciprocal (p_lat p) in
     maps_into_zone R (to_bz R e) /\
     forall g s n, kgrid n (p_lat p) g -> kpoint_list ops R g s
       (generate (Crystal (p_lat p) (p_atoms p) (p_types p) symm e) g (reduce_R e R) s)) ->
    forall lines, run true poscar kpgen = Kpoints lines ->
    exists k g n s,
      kgrid n (p_lat p) g /\ keeps_symmetry (p_lat p) g /\
      (if find then allowed_offset norms equal_norm None k (p_lat p) s else off = Some s) /\
      (k <> 31 /\ k <> 44 -> kpd <= n)%Z /\
      (k = 31 \/ k = 44 -> exists m a, 1 <= m /\ n = m ^ 3 * a /\ kpd / m ^ 3 <= a)%Z /\
      ((n < 10 ^ 11)%Z -> exists pts, lists_grid ops (reciprocal (p_lat p)) g s lines pts /\ total pts = n).
  Proof.
    cbv zeta. intros HR HD HP HM EP EI HC L1 L2 Hk HS (HB & HG) lines Hrun.
    pose proof (fc_det _ _ _ _ HC) as HU.
    unfold driver in Hrun. rewrite EP, EI in Hrun. cbv zeta in Hrun.
    set (cr := Crystal (p_lat p) (p_atoms p) (p_types p) symm e) in *.
    fold (reciprocal (p_lat p)) in Hrun.
    assert (K : forall given,
      match find_grid_top dep cbrt pg_size norms equal_norm undefined (mink e) rmin packed equal
              (irr1 cr) (irr2 cr) fuel (root kpd) (p_lat p) (Some e) given kpd min_kpts with
      | Searched _ (Found g (Some o)) =>
          Kpoints (kpoints_file true (reciprocal (p_lat p)) (map (fun pw => (to_bz (reciprocal (p_lat p)) e (fst pw), snd pw))
             (generate cr g (reduce_R e (reciprocal (p_lat p))) o)))
      | r => No_grid r
      end = Kpoints lines ->
      exists k g n s,
        kgrid n (p_lat p) g /\ keeps_symmetry (p_lat p) g /\
        allowed_offset norms equal_norm given k (p_lat p) s /\
        (k <> 31 /\ k <> 44 -> kpd <= n)%Z /\
        (k = 31 \/ k = 44 -> exists m a, 1 <= m /\ n = m ^ 3 * a /\ kpd / m ^ 3 <= a)%Z /\
        ((n < 10 ^ 11)%Z -> exists pts, lists_grid ops (reciprocal (p_lat p)) g s lines pts /\ total pts = n)).
    { intros given HK.
      pose proof (top_sound dep cbrt pg_size norms equal_norm undefined (mink e) rmin packed equal
        (irr1 cr) (irr2 cr) fuel (root kpd) (p_lat p) (Some e) e given kpd min_kpts L eq_refl HR HD (HP cr) HM HC L1 L2 Hk) as T.
      destruct (find_grid_top dep cbrt pg_size norms equal_norm undefined (mink e) rmin packed equal
              (irr1 cr) (irr2 cr) fuel (root kpd) (p_lat p) (Some e) given kpd min_kpts) as [o|k|k r];
        try discriminate HK.
      destruct r as [g o| | | | |]; try discriminate HK. destruct o as [s|]; [|discriminate HK].
      injection HK as <-.
      destruct (T g (Some s) eq_refl) as (n & s' & T1 & T2 & T3 & T4 & T5 & T6). injection T3 as <-.
      exists k, g, n, s. repeat (split; [assumption|]). intros Hn.
      destruct (HG g s n T1) as (G1 & G3 & G2). fold cr in G1, G2, G3.
      destruct T1 as (M & T1 & T1').
      assert (Gt : total (generate cr g (reduce_R e (reciprocal (p_lat p))) s) = n).
      { unfold total. rewrite <- T1'. apply G2. exact T1. }
      eexists. split.
      - apply file_lists; [exact HU|exact HS|exact HB|exact G1|exact G3|].
        pose proof (total_ge (generate cr g (reduce_R e (reciprocal (p_lat p))) s)
          (fun q w Hq => proj1 (proj2 (G1 q w Hq)))). lia.
      - unfold total. rewrite !map_map. cbn [snd]. exact Gt. }
    destruct find.
    - exact (K None Hrun).
    - destruct off as [o|]; [|discriminate Hrun].
      destruct (K (Some o) Hrun) as (k & g & n & s & A & B & C & D).
      cbn [allowed_offset] in C. subst s. exists k, g, n, o.
      split; [exact A|]. split; [exact B|]. split; [reflexivity|exact D].
  Qed.
End Program.

(** ** Statements *)
Lemma coordinate x :
  (fits x -> exists v, words (f_edit 15 12 x) <> [] /\
     (forall t, In t (words (f_edit 15 12 x)) -> decimal t = Some v) /\ within v x) /\
  (~ fits x -> f_edit 15 12 x = "***************"%string).
Proof.
  split; intros H; [|now apply field_stars].
  destruct (field_fits x H) as (k & t & v & E & D & W & B & N). exists v.
  rewrite E, (words_last k t B N). split; [discriminate|]. split; [|exact W].
  intros t' [<-|[]]. exact D.
Qed.
Lemma readable_points U p w : qdet U <> 0 -> not_too_skewed U -> in_first_zone (reciprocal U) p ->
  (1 <= w <= 48)%Z ->
  let x := qmvec (qinv (reciprocal U)) p in qmvec (reciprocal U) x = p /\ reads_point (point_line x w) x w.
Proof.
  intros HU HS HZ Hw x. split; [apply back, det_reciprocal, HU|].
  destruct (zone_fits U p HU HS HZ) as (A & B & C). apply line_reads; try assumption. lia.
Qed.

Definition skewed : qmat := QMat 1 0 (zq 300) 0 1 0 0 0 1.
Lemma skewed_reciprocal : reciprocal skewed = QMat 1 0 0 0 1 0 (zq (-300)) 0 1.
Proof. unfold reciprocal, skewed, qinv, qtr, qscale, qadj, qdet. qcbn. f_equal; apply Qc_is_canon; vm_compute; reflexivity. Qed.
Lemma half_zone : in_first_zone (reciprocal skewed) (QVec (Q2Qc (1 # 2)) 0 0).
Proof.
  rewrite skewed_reciprocal. intros G (v & ->). unfold norm2, qvadd, qmvec, qvof. qcbn.
  cbn [w1 w2 w3]. set (z := v1 v). 
  assert (E : forall a b c : Qc, a * a + b * b + c * c = a * a + (b * b + c * c)) by (intros; ring).
  match goal with |- _ <= ?a * ?a + ?b * ?b + ?c * ?c =>
    pose proof (sq0 b) as Sb; pose proof (sq0 c) as Sc; set (bb := b * b) in *; set (cc := c * c) in * end.
  assert (P : (0 <= z * z + z)%Z) by nia.
  apply zq_le in P. rewrite zq_add, zq_mul, zq_0 in P.
  assert (E1 : Q2Qc (1 # 2) * Q2Qc (1 # 2) + 0 * 0 + 0 * 0 = Q2Qc (1 # 4)) by (apply Qc_is_canon; vm_compute; reflexivity).
  rewrite E1. clearbody bb cc. clear E E1. revert P.
  match goal with |- context [Q2Qc (1 # 2) + ?t] => assert (E : t = zq z) by (unfold z; ring) end.
  rewrite E. generalize (zq z). intros y P. clear - P Sb Sc.
  assert (E2 : (Q2Qc (1 # 2) + y) * (Q2Qc (1 # 2) + y) = Q2Qc (1 # 4) + (y * y + y)) by
    (apply Qc_is_canon; rewrite !this_mult, !this_plus, !this_mult, !this_Q2Qc; ring).
  rewrite E2. revert P. generalize (y * y + y). intros u P. qclra.
Qed.
Lemma skewed_line : let p := QVec (Q2Qc (1 # 2)) 0 0 in
  point_line (qmvec (qinv (reciprocal skewed)) p) 1 =
    " 0.500000000000  0.000000000000 ***************     1"%string.
Proof. vm_compute. reflexivity. Qed.
Lemma skewed_unreadable : let p := QVec (Q2Qc (1 # 2)) 0 0 in
  in_first_zone (reciprocal skewed) p /\
  ~ exists x w, reads_point (point_line (qmvec (qinv (reciprocal skewed)) p) 1) x w.
Proof.
  cbv zeta. split; [exact half_zone|]. rewrite skewed_line.
  intros (x & w & a & b & c & d & va & vb & vc & E & _ & _ & _ & _ & C & _).
  cbv in E. injection E as <- <- <- <-. discriminate C.
Qed.
Lemma header_only R l : kpoints_file false R l = header l /\ List.length (header l) = 3%nat.
Proof. split; reflexivity. Qed.

Lemma no_points read_int read_real read_3 sqrt2 dep cbrt pg_size norms equal_norm undefined mink
    reduce_R rmin packed equal irr1 irr2 fuel root generate to_bz poscar kpgen lines :
  driver read_int read_real read_3 sqrt2 dep cbrt pg_size norms equal_norm undefined mink reduce_R
    rmin packed equal irr1 irr2 fuel root generate to_bz false poscar kpgen = Kpoints lines ->
  List.length lines = 3%nat.
Proof.
  unfold driver. intros H.
  destruct (read_POSCAR read_int read_real read_3 poscar) as [p|]; [|discriminate H].
  destruct (get_inputs read_int read_real read_3 sqrt2 (p_allocated p) (p_param p) (p_lat p) kpgen)
    as [|[kpd|] off find symm mn [e|]]; try discriminate H.
  cbv zeta in H.
  destruct find; [|destruct off as [o'|]; [|discriminate H]].
  all: match type of H with match ?t with _ => _ end = _ => destruct t as [o|k|k r] end;
    try discriminate H;
    destruct r as [g o| | | | |]; try discriminate H; destruct o as [s|]; [|discriminate H];
    injection H as <-; reflexivity.
Qed.
