(** What the reduction makes of the canonical bases. *)
From Coq Require Import ZArith QArith Qcanon Lqa List Bool Lia.
From Verif Require Import Mat3 Spec QMat QNum QcTac Spec_grid Bases Bases_niggli Model_pyniggli Model_niggli_id
  Proofs_pyniggli Proofs_pyniggli2 Proofs_niggli_term Proofs_gridcell Proofs_stable Proofs_stable_z
  Proofs_scale Proofs_enum.
Import ListNotations.
Open Scope Qc_scope.

(** An integer cube root by bisection, used only to choose the interval. *)
Fixpoint iroot (f : nat) (a b v : Z) : Z :=
  match f with
  | O => a
  | S f => let m := ((a + b) / 2)%Z in
           if (m * m * m <=? v)%Z then iroot f m b v else iroot f a m v
  end.

(** The cube root of the determinant of [B], which is 10^48 times that of the cell, to
    within a part in a thousand: [root B * 10^-16]. *)
Definition root (B : mat3) : Z := iroot 25 0 (10 ^ 17) (Z.abs (mdet B)).
(** For all tolerances between [lo] and [hi] the reduction of [B] ends with [K]. *)
Definition ends_in (a8 lo hi : Z) (B K : mat3) : bool :=
  match zfinal lo hi (mmul (mtr B) B) with
  | Some (C, p, c) =>
      meqb C K && Z.ltb c 1000 &&
      (let A := zq (zA p) in let B := zq (zB p) in let C := zq (zC p) in
       let x := zq (zx p) in let e := zq (ze p) in let z := zq (zz p) in
       stab_check (zq lo) (zq hi) A B C x e z && niggli_check_tol rtol (zq a8) A B C x e z (zq lo))
  | None => false
  end.

Lemma in_numbers k B : canonical_basis k = Some B -> In k lattice_numbers.
Proof.
  intros H. unfold canonical_basis in H. unfold lattice_numbers.
  repeat match type of H with
  | context [match ?x with _ => _ end] => destruct x; try discriminate H
  end; cbn [In]; tauto.
Qed.
(** Lengths in units of 10^-16, so that the numbers of the computation are integers. *)
Definition canon_facts (k : Z) (B : mat3) (r : Z) : bool :=
  let d := Z.abs (mdet B) in let lo := (r * 999)%Z in let hi := (r * 1001)%Z in
  ((lo * lo * lo <=? 998 * 10 ^ 6 * d) && (1002 * 10 ^ 6 * d <=? hi * hi * hi) && (0 <=? r) &&
   negb (d =? 0) && ends_in (10 ^ 24) (10 ^ 8 * lo) (10 ^ 8 * hi) B (canonical_C k))%Z.
Lemma and5 a b c d e : a && b && c && d && e = true ->
  a = true /\ b = true /\ c = true /\ d = true /\ e = true.
Proof. now destruct a, b, c, d, e. Qed.
Lemma canon_facts_and k B r : canon_facts k B r = true ->
  ((r * 999) * (r * 999) * (r * 999) <=? 998 * 10 ^ 6 * Z.abs (mdet B))%Z = true /\
  (1002 * 10 ^ 6 * Z.abs (mdet B) <=? (r * 1001) * (r * 1001) * (r * 1001))%Z = true /\
  (0 <=? r)%Z = true /\ negb (Z.abs (mdet B) =? 0)%Z = true /\
  ends_in (10 ^ 24) (10 ^ 8 * (r * 999)) (10 ^ 8 * (r * 1001)) B (canonical_C k) = true.
Proof. intros H. apply and5. exact H. Qed.
Lemma canon_cert k B : canonical_basis k = Some B -> canon_facts k B (root B) = true.
Proof.
  intros H. pose proof (in_numbers k B H) as Hk.
  unfold lattice_numbers in Hk. cbn [In] in Hk.
  repeat destruct Hk as [<-|Hk]; try destruct Hk;
    (injection H as <-; vm_compute; reflexivity).
Qed.

Lemma cube_lt (x y : Q) : (0 <= y -> y < x -> y * y * y < x * x * x)%Q.
Proof.
  intros Hy H. assert (P : (0 < (x - y) * (x * x))%Q) by (apply Qmult_lt_0_compat; nra).
  assert (P2 : (0 <= (x - y) * (x * y))%Q) by (apply Qmult_le_0_compat; nra).
  assert (P3 : (0 <= (x - y) * (y * y))%Q) by (apply Qmult_le_0_compat; nra). nra.
Qed.
Lemma cube_le (x y : Qc) : 0 <= x -> 0 <= y -> x * x * x <= y * y * y -> x <= y.
Proof.
  intros Hx Hy H. destruct (Qclt_le_dec y x) as [L|L]; [exfalso|exact L].
  pose proof (cube_lt (this x) (this y) Hy L) as K. qc2q. lra.
Qed.

Lemma dec_det B : zq (10 ^ 48) * qdet (dec_basis B) = zq (mdet B).
Proof.
  unfold dec_basis.
  assert (E : forall x M, qdet (qscale x M) = x * x * x * qdet M).
  { intros x M. unfold qdet, qscale. cbn. ring. }
  rewrite E, qof_det.
  transitivity (zq (10 ^ 48) * (qdec 1 16 * qdec 1 16 * qdec 1 16) * zq (mdet B)); [ring|].
  replace (zq (10 ^ 48) * (qdec 1 16 * qdec 1 16 * qdec 1 16)) with 1; [ring|].
  apply Qc_is_canon. vm_compute. reflexivity.
Qed.
Lemma dec_basis_det k B : canonical_basis k = Some B -> qdet (dec_basis B) <> 0.
Proof.
  intros H. destruct (canon_facts_and _ _ _ (canon_cert k B H)) as (_ & _ & _ & K & _). intros E.
  pose proof (dec_det B) as D. rewrite E, Qcmult_0_r in D.
  apply (zq_inj 0) in D. rewrite <- D in K. discriminate K.
Qed.

Lemma ends_in_ok a8 lo hi eps B K : zq lo <= eps -> eps <= zq hi -> ends_in a8 lo hi B K = true ->
  exists N, reduction_tol (zq a8) eps (qof B) = Reduced N K.
Proof.
  intros Hlo Hhi. unfold ends_in. destruct (zfinal lo hi (mmul (mtr B) B)) as [[[C p] c]|] eqn:E; [|discriminate].
  cbv zeta. rewrite !andb_true_iff. intros ((H1 & H2) & H3 & H4). apply meqb_eq in H1. subst C.
  apply Z.ltb_lt in H2. unfold reduction_tol. rewrite (zfinal_ok lo hi eps B Hlo Hhi K p c E).
  destruct (Z.leb_spec 1000 c) as [L|L]; [exfalso; lia|].
  unfold lift. cbn [pA pB pC pxi peta pzeta].
  rewrite (st_check_tol (zq lo) (zq hi) eps Hlo Hhi (zq a8) _ _ _ _ _ _ H3), H4. now eexists.
Qed.

Lemma dec_scaled B : qscale (zq (10 ^ 16)) (dec_basis B) = qof B.
Proof.
  assert (E : zq (10 ^ 16) * qdec 1 16 = 1) by (apply Qc_is_canon; vm_compute; reflexivity).
  unfold dec_basis, qscale, qof. cbn [q11 q12 q13 q21 q22 q23 q31 q32 q33].
  f_equal; rewrite Qcmult_assoc, E; ring.
Qed.

Lemma root_below r c v u : (0 <= r)%Z -> 0 <= c -> zq (10 ^ 48) * v = zq u ->
  ((r * 999) * (r * 999) * (r * 999) <= 998 * 10 ^ 6 * u)%Z -> qdec 998 3 * v <= c * c * c ->
  zq (r * 999) <= zq (10 ^ 19) * c.
Proof.
  intros Hr Hc Hv H1 H2. apply cube_le.
  - rewrite <- zq_0. apply zq_le. lia.
  - replace 0 with (0 * c) by ring. apply Qcmult_le_compat_r; [|exact Hc].
    rewrite <- zq_0. apply zq_le. lia.
  - apply zq_le in H1. rewrite !zq_mul in *. eapply Qcle_trans; [exact H1|]. clear H1 Hr.
    rewrite <- Hv.
    replace (zq 998 * zq (10 ^ 6) * (zq (10 ^ 48) * v)) with (zq (10 ^ 57) * (qdec 998 3 * v)).
    2: { replace (zq 998 * zq (10 ^ 6) * (zq (10 ^ 48) * v))
           with (zq 998 * zq (10 ^ 6) * zq (10 ^ 48) * v) by ring.
         rewrite Qcmult_assoc. f_equal. apply Qc_is_canon. vm_compute. reflexivity. }
    replace (zq (10 ^ 19) * c * (zq (10 ^ 19) * c) * (zq (10 ^ 19) * c))
      with (zq (10 ^ 19) * zq (10 ^ 19) * zq (10 ^ 19) * (c * c * c)) by ring.
    replace (zq (10 ^ 19) * zq (10 ^ 19) * zq (10 ^ 19)) with (zq (10 ^ 57)) by (apply Qc_is_canon; vm_compute; reflexivity).
    rewrite !(Qcmult_comm (zq (10 ^ 57))). apply Qcmult_le_compat_r; [exact H2|].
    vm_compute. discriminate.
Qed.
Lemma root_above r c v u : (0 <= r)%Z -> 0 <= c -> zq (10 ^ 48) * v = zq u ->
  (1002 * 10 ^ 6 * u <= (r * 1001) * (r * 1001) * (r * 1001))%Z -> c * c * c <= qdec 1002 3 * v ->
  zq (10 ^ 19) * c <= zq (r * 1001).
Proof.
  intros Hr Hc Hv H1 H2. apply cube_le.
  - replace 0 with (0 * c) by ring. apply Qcmult_le_compat_r; [|exact Hc].
    rewrite <- zq_0. apply zq_le. lia.
  - rewrite <- zq_0. apply zq_le. lia.
  - apply zq_le in H1. rewrite !zq_mul in *. eapply Qcle_trans; [|exact H1]. clear H1 Hr.
    rewrite <- Hv.
    replace (zq 1002 * zq (10 ^ 6) * (zq (10 ^ 48) * v)) with (zq (10 ^ 57) * (qdec 1002 3 * v)).
    2: { replace (zq 1002 * zq (10 ^ 6) * (zq (10 ^ 48) * v))
           with (zq 1002 * zq (10 ^ 6) * zq (10 ^ 48) * v) by ring.
         rewrite Qcmult_assoc. f_equal. apply Qc_is_canon. vm_compute. reflexivity. }
    replace (zq (10 ^ 19) * c * (zq (10 ^ 19) * c) * (zq (10 ^ 19) * c))
      with (zq (10 ^ 19) * zq (10 ^ 19) * zq (10 ^ 19) * (c * c * c)) by ring.
    replace (zq (10 ^ 19) * zq (10 ^ 19) * zq (10 ^ 19)) with (zq (10 ^ 57)) by (apply Qc_is_canon; vm_compute; reflexivity).
    rewrite !(Qcmult_comm (zq (10 ^ 57))). apply Qcmult_le_compat_r; [exact H2|].
    vm_compute. discriminate.
Qed.
Lemma e8_le x y : x <= y -> zq (10 ^ 8) * x <= zq (10 ^ 8) * y.
Proof.
  intros H. rewrite !(Qcmult_comm (zq (10 ^ 8))). apply Qcmult_le_compat_r; [exact H|].
  vm_compute. discriminate.
Qed.

Lemma canonical_reduced cbrt k B : canonical_basis k = Some B ->
  near_root (cbrt (qabs (qdet (dec_basis B)))) (qabs (qdet (dec_basis B))) ->
  mdet (canonical_C k) = 1%Z /\
  reduced_cell cbrt (rows_of (dec_basis B)) None =
    Reduced (qmul (dec_basis B) (qof (canonical_C k))) (canonical_C k).
Proof.
  intros HB. pose proof (dec_basis_det k B HB) as HD.
  destruct (canon_facts_and _ _ _ (canon_cert k B HB)) as (H1 & H2 & H3 & _ & H6).
  rewrite reduced_cell_eps by exact HD. unfold used_eps.
  pose proof (rep_abs (10 ^ 48) _ _ ltac:(lia) (dec_det B)) as HV. unfold rep in HV.
  generalize dependent (root B). intros r H1 H2 H3 H6.
  pose proof (dec_scaled B) as HS.
  generalize dependent (dec_basis B). intros M HD HV HS.
  generalize dependent (canonical_C k). intros K H6.
  generalize (cbrt (qabs (qdet M))). intros c (C1 & C2 & C3).
  apply Z.leb_le in H1, H2, H3.
  pose proof (root_below r c _ _ H3 C1 HV H1 C2) as Ha.
  pose proof (root_above r c _ _ H3 C1 HV H2 C3) as Hb.
  apply e8_le in Ha, Hb. rewrite <- zq_mul in Ha, Hb.
  destruct (ends_in_ok _ _ _ _ _ _ Ha Hb H6) as (N & HN). clear H6 Ha Hb H1 H2 C2 C3 HV.
  assert (P : 0 < zq (10 ^ 16)) by reflexivity.
  pose proof (s_reduction (zq (10 ^ 16)) P (qdec 1 5 * c) M (qdec 1 8)) as E.
  rewrite HS in E.
  replace (zq (10 ^ 16) * zq (10 ^ 16) * qdec 1 8) with (zq (10 ^ 24)) in E by (apply Qc_is_canon; vm_compute; reflexivity).
  replace (zq (10 ^ 16) * zq (10 ^ 16) * (qdec 1 5 * c)) with (zq (10 ^ 8) * (zq (10 ^ 19) * c)) in E.
  2: { rewrite !Qcmult_assoc. f_equal. apply Qc_is_canon. vm_compute. reflexivity. }
  rewrite HN, <- reduction_code in E.
  destruct (niggli_reduction (qdec 1 5 * c) M) as [| | | |N' C] eqn:R; try discriminate E.
  injection E as _ E. subst C.
  destruct (reduction_Reduced _ _ _ _ R) as (D & E & _). subst N'. split; [exact D|reflexivity].
Qed.
