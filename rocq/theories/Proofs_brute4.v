(** The point group of every lattice has at most three generators; driver2.f90. *)
From Coq Require Import ZArith List Bool Lia QArith Qcanon.
From Verif Require Import Mat3 Spec QMat PointGroup Bases Bases_niggli Spec_niggli Model_brute Model_brute_main Spec_brute
  Proofs_transform Proofs_pyniggli2 Proofs_niggli_term Proofs_pyniggli3 Model_niggli_id Proofs_niggli_id2 Proofs_niggli_id3 Proofs_niggli_canon
  Proofs_brute1 Proofs_brute2 Proofs_brute3.
Import ListNotations.

Lemma generated_map {A B} (f : A -> B) mul mul' g x : (forall x y, f (mul x y) = mul' (f x) (f y)) ->
  generated mul g x -> generated mul' (map f g) (f x).
Proof.
  intros Hf. induction 1 as [x Hx|x y Hx Hy IH]; [apply Generator; now apply in_map|].
  rewrite Hf. apply Product; [now apply in_map|exact IH].
Qed.

(** At most three generators. *)
Definition few_gens (P : mat3 -> Prop) : Prop :=
  exists g, (length g <= 3)%nat /\ (forall X, In X g -> P X) /\ forall X, P X -> generated mmul g X.
Lemma few_ext P Q : (forall X, P X <-> Q X) -> few_gens P -> few_gens Q.
Proof.
  intros H (g & L & I & G). exists g. split; [exact L|]. split; intros X HX; [apply H; now apply I|apply G; now apply H].
Qed.
Lemma conj_hom C x y : unimodular C -> mmul (mmul C (mmul x y)) (minv1 C) =
  mmul (mmul (mmul C x) (minv1 C)) (mmul (mmul C y) (minv1 C)).
Proof.
  intros HC. rewrite <- !mmul_assoc. do 2 f_equal. rewrite (mmul_assoc (minv1 C)), minv1_l, mmul_id_l by exact HC. reflexivity.
Qed.
Lemma conj_back C X : unimodular C ->
  X = mmul (mmul C (mmul (mmul (minv1 C) X) C)) (minv1 C).
Proof.
  intros HC. rewrite <- !mmul_assoc, minv1_r, mmul_id_r, mmul_assoc, minv1_r, mmul_id_l by exact HC. reflexivity.
Qed.
(** Change of basis. *)
Lemma few_conj C P Q : unimodular C -> (forall Y, P Y <-> Q (mmul (mmul C Y) (minv1 C))) -> few_gens P -> few_gens Q.
Proof.
  intros HC H (g & L & I & G). exists (map (fun Y => mmul (mmul C Y) (minv1 C)) g). split; [now rewrite map_length|]. split.
  - intros X HX. apply in_map_iff in HX as (Y & <- & HY). apply H. now apply I.
  - intros X HX. rewrite (conj_back C X HC) in HX |- *. apply H in HX.
    apply (generated_map (fun Y => mmul (mmul C Y) (minv1 C)) mmul mmul); [|now apply G].
    intros x y. now apply conj_hom.
Qed.
Lemma few_triclinic : few_gens (fun X => X = mid \/ X = mopp mid).
Proof.
  exists [mid; mopp mid]. split; [cbn; lia|]. split; [intros X [<-|[<-|[]]]; auto|].
  intros X [-> | ->]; apply Generator; cbn; auto.
Qed.
Lemma in_characters k : (1 <= k <= 44)%Z -> canonical_basis k <> None -> In k characters.
Proof.
  intros Hk HB. unfold characters. apply filter_In. split.
  - apply in_map_iff. exists (Z.to_nat k). split; [lia|]. apply in_seq. lia.
  - apply andb_true_iff. split; apply negb_true_iff, Z.eqb_neq; intros ->; now apply HB.
Qed.
Lemma few_change G C : unimodular C -> few_gens (isometry G) -> few_gens (isometry (mmul (mtr C) (mmul G C))).
Proof.
  intros U. apply (few_conj (minv1 C)); [exact (unimodular_inv C U)|].
  intros Y. rewrite isometry_change by exact U. rewrite minv1_inv by exact U.
  rewrite <- !mmul_assoc, minv1_r, mmul_id_r, mmul_assoc, minv1_r, mmul_id_l by exact U. reflexivity.
Qed.
Definition uni_check (k : Z) : bool := Z.eqb (mdet (canonical_C k) * mdet (canonical_C k)) 1.
Lemma uni_checked : forallb uni_check characters = true.
Proof. vm_compute. reflexivity. Qed.
Lemma uni_canonical k : In k characters -> unimodular (canonical_C k).
Proof. intros H. exact (proj1 (Z.eqb_eq _ _) (proj1 (forallb_forall _ _) uni_checked k H)). Qed.
Lemma niggli_gram_eq k : niggli_gram k = mmul (mtr (canonical_C k)) (mmul (gram_of k) (canonical_C k)).
Proof. reflexivity. Qed.
Lemma few_gens_intro (P : mat3 -> Prop) : (exists g, (length g <= 3)%nat /\ (forall X, In X g -> P X) /\ forall X, P X -> generated mmul g X) ->
  few_gens P.
Proof. exact (fun H => H). Qed.
Lemma few_canonical k : (1 <= k <= 44)%Z -> canonical_basis k <> None -> few_gens (isometry (niggli_gram k)).
Proof.
  intros Hk HB. pose proof (in_characters k Hk HB) as IC. rewrite (niggli_gram_eq k).
  apply few_change; [exact (uni_canonical k IC)|]. apply few_gens_intro. exact (few_generators k IC).
Qed.
Lemma id_exact_range M r : id_exact M = Some r -> (1 <= niggli_num r <= 44)%Z.
Proof.
  unfold id_exact, id_params_tol. cbv zeta. intros E.
  destruct (identify_consistent _ _ _ _ _ _ _ _ _ E) as (K & _). exact K.
Qed.
Lemma niggli_few M : qdet M <> 0%Qc -> is_niggli M -> few_gens (qisometry (qgram M)).
Proof.
  intros HD HN. destruct (id_exact M) as [r|] eqn:E.
  - pose proof (id_exact_group M r HD HN E) as S. pose proof (id_exact_range M r E) as R. clear E.
    generalize dependent (niggli_num r). clear r. intros k S R.
    destruct (canonical_basis k) as [B|] eqn:EB.
    + apply (few_ext (isometry (niggli_gram k))); [intros X; symmetry; apply S|].
      apply few_canonical; [exact R|rewrite EB; discriminate].
    + apply (few_ext (fun X => X = mid \/ X = mopp mid)); [intros X; symmetry; apply S|exact few_triclinic].
  - apply (few_ext (fun X => X = mid \/ X = mopp mid)); [|exact few_triclinic].
    intros X. symmetry. exact (id_hole_group M HD HN E X).
Qed.
Lemma lattice_few P : qdet P <> 0%Qc -> few_gens (qisometry (qgram P)).
Proof.
  intros HP. destruct (exact_success P HP) as (n & C & p & _ & _ & HC & HN & _).
  assert (U : unimodular C) by (unfold unimodular; now rewrite HC).
  assert (HD : qdet (qmul P (qof C)) <> 0%Qc).
  { rewrite qdet_mul, qof_det, HC. change (zq 1) with 1%Qc. now rewrite Qcmult_1_r. }
  apply (few_conj C (qisometry (qgram (qmul P (qof C))))); [exact U|intros Y; exact (qisometry_change P C Y U)|].
  exact (niggli_few _ HD HN).
Qed.

Lemma opp_iso G : qmul (qtr (qof (mopp mid))) (qmul G (qof (mopp mid))) = G.
Proof.
  destruct G as [a b c d e f g h i]. unfold qof, mopp, mid, qtr, qmul.
  cbn [q11 q12 q13 q21 q22 q23 q31 q32 q33 m11 m12 m13 m21 m22 m23 m31 m32 m33].
  change (zq (Z.opp 1)) with (-(1))%Qc. change (zq (Z.opp 0)) with 0%Qc. change (zq 0) with 0%Qc. f_equal; ring.
Qed.
(** ** find_pg_gens finds generators of the point group of every lattice *)
Lemma rotation_hom P x y : qdet P <> 0%Qc -> rotation P (mmul x y) = qmul (rotation P x) (rotation P y).
Proof.
  intros HP. unfold rotation. rewrite qof_mul, <- !qmul_assoc. do 2 f_equal.
  rewrite (qmul_assoc (qinv P)), qinv_l, qmul_id_l by exact HP. reflexivity.
Qed.
Lemma rotation_symmetry P X : qdet P <> 0%Qc -> qisometry (qgram P) X -> lattice_symmetry P (rotation P X).
Proof.
  intros HP HX. destruct (isometry_symmetry P X HP HX) as (HO & HR). fold (rotation P X) in *.
  split; [exact HO|]. intros x (v & ->). exists (mvec X v). now rewrite <- qmvec_mul, HR, qmvec_mul, qof_mvec.
Qed.
Lemma symmetry_rotation P R : qdet P <> 0%Qc -> lattice_symmetry P R -> exists X, R = rotation P X /\ qisometry (qgram P) X.
Proof.
  intros HP (HO & HR). destruct (symmetry_coords P R HP HR) as (X & E). exists X. split.
  - unfold rotation. rewrite <- E, <- qmul_assoc, qinv_r, qmul_id_r by exact HP. reflexivity.
  - now apply (symmetry_isometry P R X).
Qed.
Lemma coordinates_rotation P X : qdet P <> 0%Qc -> qmul (qinv P) (qmul (rotation P X) P) = qof X.
Proof.
  intros HP. unfold rotation. rewrite <- !qmul_assoc, qinv_l, qmul_id_r by exact HP.
  rewrite qmul_assoc, qinv_l, qmul_id_l by exact HP. reflexivity.
Qed.
Lemma lattice_found P pg equal zero beyond : qdet P <> 0%Qc -> point_group P pg -> NoDup pg -> exact_on equal pg ->
  (forall p x, In p pg -> In x (zero :: beyond) -> equal p x = false) ->
  exists g, find_pg_gens qmul equal zero beyond pg = Some g /\ generators qmul g pg /\ (length g = 2 \/ length g = 3)%nat.
Proof.
  intros HP Hpg Nd HE Hj.
  assert (L2 : (2 <= length pg)%nat).
  { assert (I : incl [rotation P mid; rotation P (mopp mid)] pg).
    { intros R [<-|[<-|[]]]; apply Hpg, rotation_symmetry; try exact HP; unfold qisometry.
      - rewrite qof_id, qmul_id_r. change (qtr qid) with qid. apply qmul_id_l.
      - apply opp_iso. }
    apply (NoDup_incl_length (l := [rotation P mid; rotation P (mopp mid)])) in I; [exact I|].
    constructor; [|repeat constructor; intros []]. intros [E|[]].
    apply (f_equal (fun R => qmul (qinv P) (qmul R P))) in E. rewrite !coordinates_rotation in E by exact HP.
    apply (f_equal q11) in E. vm_compute in E. discriminate. }
  pose proof (find_pg_gens_spec qmul equal pg (point_group_finite P pg Hpg Nd) HE zero beyond L2 Hj) as S.
  destruct (find_pg_gens qmul equal zero beyond pg) as [g|].
  - exists g. destruct S as (S & _ & HL). split; [reflexivity|]. split; [exact S|]. tauto.
  - exfalso. destruct (lattice_few P HP) as (g & L & I & G).
    assert (4 <= length (map (rotation P) g))%nat; [|rewrite map_length in *; lia].
    apply S. split.
    + intros R HR. apply in_map_iff in HR as (X & <- & HX). apply Hpg, rotation_symmetry; [exact HP|now apply I].
    + intros R HR. apply Hpg in HR. destruct (symmetry_rotation P R HP HR) as (X & -> & HX).
      apply (generated_map (rotation P) mmul qmul); [intros; now apply rotation_hom|now apply G].
Qed.

(** ** driver2.f90 *)
Lemma pg_main_spec P pg equal zero beyond e pg_of : qdet P <> 0%Qc -> point_group P pg -> NoDup pg -> exact_on equal pg ->
  (forall p x, In p pg -> In x (zero :: beyond) -> equal p x = false) ->
  e_lat e = P -> pg_of P = pg ->
  exists g, pg_main equal zero beyond pg_of (Ok e) = Ok (Some (map qof g)) /\ (length g = 2 \/ length g = 3)%nat /\
    forall X, qisometry (qgram P) X <-> generated mmul g X.
Proof.
  intros HP Hpg Nd HE Hj EP Epg. destruct (lattice_found P pg equal zero beyond HP Hpg Nd HE Hj) as (g & Eg & (I & G) & L).
  assert (R : exists h, g = map (rotation P) h /\ Forall (qisometry (qgram P)) h).
  { clear - HP Hpg I. induction g as [|R g IH]; [now exists []|].
    destruct (IH (fun x H => I x (or_intror H))) as (h & -> & Hh).
    destruct (symmetry_rotation P R HP) as (X & -> & HX); [apply Hpg, I; now left|].
    exists (X :: h). split; [reflexivity|now constructor]. }
  destruct R as (h & -> & Hh). rewrite Forall_forall in Hh. exists h. split; [|split].
  - unfold pg_main. cbn [bind]. rewrite EP, Epg, Eg. cbn [option_map]. rewrite map_map. do 2 f_equal.
    apply map_ext. intros X. now apply coordinates_rotation.
  - now rewrite map_length in L.
  - assert (INJ : forall X Y, rotation P X = rotation P Y -> X = Y).
    { intros X Y E. apply (f_equal (fun R => qmul (qinv P) (qmul R P))) in E. rewrite !coordinates_rotation in E by exact HP.
      now apply qof_inj. }
    intros X. split.
    + intros HX. assert (K : In (rotation P X) pg) by now apply Hpg, rotation_symmetry.
      apply G in K. assert (W : exists Y, rotation P X = rotation P Y /\ generated mmul h Y).
      { clear - HP K. induction K as [x Hx|x y Hx Hy IH].
        - apply in_map_iff in Hx as (Y & <- & HY). exists Y. split; [reflexivity|now apply Generator].
        - apply in_map_iff in Hx as (Z & <- & HZ). destruct IH as (Y & -> & HY). exists (mmul Z Y).
          split; [symmetry; now apply rotation_hom|now apply Product]. }
      destruct W as (Y & E & HY). apply INJ in E. now subst Y.
    + intros K. assert (W : In (rotation P X) pg).
      { destruct (point_group_finite P pg Hpg Nd) as (_ & CL & _).
        induction K as [x Hx|x y Hx Hy IH]; [apply I; now apply in_map|].
        rewrite rotation_hom by exact HP. apply CL; [apply I; now apply in_map|exact IH]. }
      apply Hpg in W. destruct (symmetry_rotation P _ HP W) as (Y & E & HY). apply INJ in E. now subst Y.
Qed.
