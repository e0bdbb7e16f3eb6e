(** The point group of a lattice, the whole brute-force computation, and witnesses. *)
From Coq Require Import ZArith List Bool Lia QArith Qcanon.
From Verif Require Import Mat3 Spec QMat PointGroup Bases Model_brute Spec_brute Proofs_brute1 Proofs_brute2.
Import ListNotations.

Lemma orthogonal_det R : orthogonal R -> qdet R <> 0%Qc.
Proof.
  intros HO E. unfold orthogonal in HO. assert (D : qdet (qmul (qtr R) R) = qdet qid) by now rewrite HO.
  rewrite qdet_mul, qdet_tr, E, qdet_id in D. vm_compute in D. discriminate.
Qed.
Lemma point_group_finite P pg : point_group P pg -> NoDup pg -> finite_group qmul pg.
Proof.
  intros Hpg Nd. split; [exact Nd|]. split.
  - intros x y Hx Hy. apply Hpg in Hx as (Ox & Lx), Hy as (Oy & Ly). apply Hpg. split.
    + unfold orthogonal in *. rewrite qtr_mul, <- qmul_assoc, (qmul_assoc (qtr x)), Ox, qmul_id_l. exact Oy.
    + intros v Hv. rewrite qmvec_mul. now apply Lx, Ly.
  - intros x y z Hx _ _ E. apply Hpg in Hx as (Ox & _). apply (qmul_cancel_l x); [now apply orthogonal_det|exact E].
Qed.
(** The point group from the integer isometries of the Gram matrix. *)
Definition rotation (P : qmat) (X : mat3) : qmat := qmul (qmul P (qof X)) (qinv P).
Lemma point_group_isometries P L : qdet P <> 0%Qc -> (forall X, In X L <-> qisometry (qgram P) X) ->
  point_group P (map (rotation P) L).
Proof.
  intros HP HL R. rewrite in_map_iff. split.
  - intros (X & <- & HX). apply HL in HX. destruct (isometry_symmetry P X HP HX) as (HO & HR). fold (rotation P X) in *.
    split; [exact HO|]. intros x (v & ->). exists (mvec X v). now rewrite <- qmvec_mul, HR, qmvec_mul, qof_mvec.
  - intros (HO & HR). destruct (symmetry_coords P R HP HR) as (X & E). exists X. split.
    + unfold rotation. rewrite <- E, <- qmul_assoc, qinv_r, qmul_id_r by exact HP. reflexivity.
    + apply HL. now apply (symmetry_isometry P R X).
Qed.

(** Generators from find_pg_gens instead of the group. *)
Lemma srHNFs_found eps equal P pg zero beyond gens n : qdet P <> 0%Qc -> tolerance eps equal -> (eps * zq n <= 1)%Qc ->
  point_group P pg -> NoDup pg -> exact_on equal pg -> (2 <= length pg)%nat ->
  (forall p x, In p pg -> In x (zero :: beyond) -> equal p x = false) ->
  find_pg_gens qmul equal zero beyond pg = Some gens -> get_srHNFs equal P gens n = get_srHNFs equal P pg n.
Proof.
  intros HP Ht He Hpg Nd HE L2 Hj E. apply (srHNFs_generators eps); try assumption.
  pose proof (find_pg_gens_spec qmul equal pg (point_group_finite P pg Hpg Nd) HE zero beyond L2 Hj) as S.
  rewrite E in S. apply S.
Qed.

(** *** Examples *)
Definition diag (a b c : Z) : mat3 := Mat3 a 0 0 0 b 0 0 0 c.
Definition orthorhombic : list mat3 :=
  [diag 1 1 1; diag (-1) (-1) (-1); diag (-1) 1 1; diag 1 (-1) (-1);
   diag 1 (-1) 1; diag (-1) 1 (-1); diag 1 1 (-1); diag (-1) (-1) 1].
Definition monoclinic : list mat3 :=
  [diag 1 1 1; diag (-1) (-1) (-1); diag 1 (-1) 1; diag (-1) 1 (-1)].
Definition zero3 : mat3 := diag 0 0 0.
Lemma meqb_exact pg : exact_on meqb pg.
Proof. intros x y _ _. apply meqb_eq. Qed.
Lemma list_group pg : NoDup pg -> forallb (fun x => negb (mdet x =? 0)%Z && forallb (fun y => existsb (meqb (mmul x y)) pg) pg) pg = true ->
  finite_group mmul pg.
Proof.
  intros Nd H. rewrite forallb_forall in H. split; [exact Nd|]. split.
  - intros x y Hx Hy. specialize (H x Hx). apply andb_true_iff in H as (_ & H). rewrite forallb_forall in H.
    specialize (H y Hy). apply existsb_exists in H as (z & Hz & E). apply meqb_eq in E. now rewrite E.
  - intros x y z Hx _ _ E. specialize (H x Hx). apply andb_true_iff in H as (H & _).
    apply negb_true_iff, Z.eqb_neq in H. apply (f_equal qof) in E. rewrite !qof_mul in E.
    apply qof_inj. apply (qmul_cancel_l (qof x)); [rewrite qof_det; now apply zq_neq0|exact E].
Qed.
Lemma monoclinic_group : finite_group mmul monoclinic.
Proof.
  apply list_group; [|vm_compute; reflexivity].
  assert (D : forall a b c a' b' c', diag a b c = diag a' b' c' -> a = a' /\ b = b' /\ c = c') by (intros a b c a' b' c' E; injection E; auto).
  constructor; [intros [E|[E|[E|[]]]]; apply D in E; lia|]. constructor; [intros [E|[E|[]]]; apply D in E; lia|].
  constructor; [intros [E|[]]; apply D in E; lia|]. constructor; [intros []|constructor].
Qed.
Lemma monoclinic_not : ~ generators mmul [diag 1 1 1; diag (-1) (-1) (-1)] monoclinic.
Proof.
  intros [_ H]. specialize (H (diag 1 (-1) 1)).
  assert (Hset : In (diag 1 (-1) 1) [diag 1 1 1; diag (-1) (-1) (-1)]).
  { apply (generated_set mmul [diag 1 1 1; diag (-1) (-1) (-1)]); [apply incl_refl| |apply H; cbn; auto].
    intros i j [<-|[<-|[]]] [<-|[<-|[]]]; vm_compute; auto. }
  destruct Hset as [E|[E|[]]]; discriminate E.
Qed.
Lemma memory_accepts : forms_group mmul meqb zero3 monoclinic [diag 1 1 1; diag (-1) (-1) (-1)] monoclinic = true /\
  find_pg_gens mmul meqb zero3 monoclinic monoclinic = Some [diag 1 1 1; diag (-1) (-1) (-1)].
Proof. vm_compute. auto. Qed.

Lemma first_only : py_forms_group mmul meqb 5 [diag (-1) (-1) (-1)] [diag 1 1 1; diag 1 (-1) 1] = Some true /\
  ~ generated mmul [diag (-1) (-1) (-1)] (diag 1 (-1) 1).
Proof.
  split; [vm_compute; reflexivity|]. intros H.
  assert (Hset : In (diag 1 (-1) 1) [diag 1 1 1; diag (-1) (-1) (-1)]).
  { apply (generated_set mmul [diag (-1) (-1) (-1)]); [intros x [<-|[]]; cbn; auto| |exact H].
    intros i j [<-|[]] [<-|[<-|[]]]; vm_compute; auto. }
  destruct Hset as [E|[E|[]]]; discriminate E.
Qed.

(** The simple cubic lattice. *)
Definition cubic : list mat3 := isometries mid 1.
Lemma cubic_isometries X : In X cubic <-> qisometry (qgram qid) X.
Proof.
  assert (E : qgram qid = qscale 1 (qof mid)).
  { unfold qgram, qscale, qof, mid, qid, qtr, qmul. cbn [q11 q12 q13 q21 q22 q23 q31 q32 q33]. f_equal; apply Qc_is_canon; reflexivity. }
  rewrite E, qisometry_scaled by discriminate. split.
  - intros H. assert (A : forallb (fun X => meqb (mmul (mtr X) (mmul mid X)) mid) cubic = true) by (vm_compute; reflexivity).
    rewrite forallb_forall in A. apply meqb_eq. now apply A.
  - apply isometries_complete; vm_compute; reflexivity.
Qed.
Definition cubic_pg : list qmat := map qof cubic.
Lemma cubic_point_group : point_group qid cubic_pg.
Proof.
  assert (E : cubic_pg = map (rotation qid) cubic).
  { apply map_ext. intros X. unfold rotation. rewrite qmul_id_l.
    assert (Ei : qinv qid = qid) by (symmetry; apply qinv_unique; [rewrite qdet_id; discriminate|apply qmul_id_l]).
    now rewrite Ei, qmul_id_r. }
  rewrite E. apply point_group_isometries; [rewrite qdet_id; discriminate|apply cubic_isometries].
Qed.
Definition same (A B : qmat) : bool := forallb (fun p => Qc_eq_bool (fst p) (snd p)) (combine (entries A) (entries B)).
Lemma same_tolerance : tolerance (Q2Qc (1 # 1000)) same.
Proof.
  split.
  - intros A. unfold same. apply forallb_forall. intros (x & y) H. cbn [fst snd].
    assert (E : x = y) by (destruct A; cbn in H; intuition congruence). subst y.
    unfold Qc_eq_bool. destruct (Qc_eq_dec x x); [reflexivity|contradiction].
  - intros A B H. unfold same in H. rewrite forallb_forall in H. apply Forall_forall. intros p Hp.
    specialize (H p Hp). apply Qc_eq_bool_correct in H. rewrite H.
    replace (snd p - snd p)%Qc with 0%Qc by ring. split; reflexivity.
Qed.

(** The 42 lattice characters that are not triclinic, and the triclinic lattices. *)
Fixpoint distinct (l : list mat3) : bool :=
  match l with [] => true | x :: l => negb (existsb (meqb x) l) && distinct l end.
Lemma distinct_NoDup l : distinct l = true -> NoDup l.
Proof.
  induction l as [|x l IH]; intros H; constructor; cbn in H; apply andb_true_iff in H as (H1 & H2); [|now apply IH].
  intros Hx. apply negb_true_iff in H1. assert (existsb (meqb x) l = true); [|congruence].
  apply existsb_exists. exists x. split; [exact Hx|now apply meqb_eq].
Qed.
Definition radius (G : mat3) : nat :=
  match find (fun r => box_ok G r) (seq 1 9) with Some r => r | None => 0 end.
Definition char_check (k : Z) : bool :=
  let G := gram_of k in let pg := isometries G (radius G) in
  posdef G && box_ok G (radius G) && distinct pg &&
  forallb (fun X => meqb (mmul (mtr X) (mmul G X)) G) pg &&
  forallb (fun x => negb (mdet x =? 0)%Z && forallb (fun y => existsb (meqb (mmul x y)) pg) pg) pg &&
  forallb (fun x => negb (meqb x zero3)) pg && (2 <=? length pg)%nat &&
  match find_pg_gens mmul meqb zero3 [] pg with Some _ => true | None => false end.
Definition characters : list Z :=
  filter (fun k => negb (k =? 31)%Z && negb (k =? 44)%Z) (map Z.of_nat (seq 1 44)).
Lemma char_checked : forallb char_check characters = true.
Proof. vm_compute. reflexivity. Qed.
Lemma few_generators k : In k characters -> exists g, (length g <= 3)%nat /\
  (forall X, In X g -> isometry (gram_of k) X) /\ forall X, isometry (gram_of k) X -> generated mmul g X.
Proof.
  intros Hk. pose proof char_checked as H. rewrite forallb_forall in H. specialize (H k Hk). unfold char_check in H. cbv zeta in H.
  set (G := gram_of k) in *. set (r := radius G) in *. clearbody G r. set (pg := isometries G r) in *.
  rewrite !andb_true_iff in H. destruct H as (((((((Hp & Hb) & Hd) & Hi) & Hc) & Hz) & H2) & Hf).
  apply distinct_NoDup in Hd. rewrite forallb_forall in Hi, Hz. apply Nat.leb_le in H2.
  pose proof (find_pg_gens_spec mmul meqb pg (list_group pg Hd Hc) (meqb_exact pg) zero3 [] H2) as S.
  destruct (find_pg_gens mmul meqb zero3 [] pg) as [g|]; [|discriminate].
  destruct S as ((HI & HG) & _ & HL).
  - intros p x Hp' [<-|[]]. specialize (Hz p Hp'). now apply negb_true_iff in Hz.
  - exists g. split; [destruct HL as [->|(-> & _)]; auto|]. split.
    + intros X HX. apply meqb_eq. apply Hi. now apply HI.
    + intros X HX. apply HG. now apply isometries_complete.
Qed.
Lemma characters_found k pg equal zero beyond : In k characters -> (forall X, In X pg <-> isometry (gram_of k) X) ->
  finite_group mmul pg -> exact_on equal pg -> (2 <= length pg)%nat ->
  (forall p x, In p pg -> In x (zero :: beyond) -> equal p x = false) ->
  find_pg_gens mmul equal zero beyond pg <> None.
Proof.
  intros Hk Hpg HG HE H2 Hj E. pose proof (find_pg_gens_spec mmul equal pg HG HE zero beyond H2 Hj) as S. rewrite E in S.
  destruct (few_generators k Hk) as (g & Hl & Hi & Hg). assert (4 <= length g)%nat; [|lia].
  apply S. split; [intros X HX; apply Hpg; now apply Hi|]. intros X HX. apply Hg. now apply Hpg.
Qed.
Definition inversion : mat3 := diag (-1) (-1) (-1).
Lemma triclinic_found pg equal zero beyond : (forall X, In X pg <-> X = mid \/ X = inversion) ->
  finite_group mmul pg -> exact_on equal pg -> (2 <= length pg)%nat ->
  (forall p x, In p pg -> In x (zero :: beyond) -> equal p x = false) ->
  find_pg_gens mmul equal zero beyond pg <> None.
Proof.
  intros Hpg HG HE H2 Hj E. pose proof (find_pg_gens_spec mmul equal pg HG HE zero beyond H2 Hj) as S. rewrite E in S.
  assert (4 <= length [mid; inversion])%nat; [|cbn in *; lia].
  apply S. split.
  - intros X [<-|[<-|[]]]; apply Hpg; auto.
  - intros X HX. apply Hpg in HX as [-> | ->]; apply Generator; cbn; auto.
Qed.
