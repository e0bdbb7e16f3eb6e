(** niggli_id: when it answers, what belongs together, and grid cells. *)
From Coq Require Import ZArith QArith Qcanon List Bool Lia String.
From Verif Require Import Mat3 Spec QMat QNum QcTac Spec_grid Bases Bases_niggli NearSym PointGroup Spec_niggli Spec_id
  Model_pyniggli Model_niggli_id Proofs_pyniggli Proofs_niggli_term Proofs_pyniggli2 Proofs_pyniggli3
  Proofs_enum Proofs_niggli_short Proofs_niggli_cand Proofs_niggli_group Proofs_niggli_id
  Proofs_niggli_id2 Proofs_transform Proofs_gridcell Proofs_gridcell2.
Import ListNotations.
Open Scope Qc_scope.

(** ** No answer *)
Section Unbound.
Variable cl : Qc -> Qc -> bool.
Variables (A B C D E F : Qc) (positive : bool).

Lemma identify_none : identify cl A B C D E F positive = None <->
  positive = true /\ cl E F = true /\ cl (A / qtwo) E = false /\ cl B C = false /\
  (cl A B = true -> cl D E = false).
Proof.
  unfold identify, block1, block2, block3, block4, found, found_tric.
  generalize (sum_test cl A B D E F). intros st.
  destruct positive.
  - destruct (cl A B), (cl B C), (cl D E), (cl D F), (cl E F), (cl (A / qtwo) E);
      rewrite ?andb_false_r, ?andb_true_r; cbn [andb];
      repeat match goal with |- context [if ?b then _ else _] => destruct b end;
      split; intros H; try discriminate H; try reflexivity; intuition congruence.
  - split; [|intros (H & _); discriminate H].
    destruct (cl A B), (cl B C), (cl D E), (cl D F), (cl E F);
      repeat match goal with |- context [if ?b then _ else _] => destruct b end;
      intros H; discriminate H.
Qed.
End Unbound.

Lemma unbound_iff rt eps A B C D E F : id_params_tol rt eps A B C D E F = None <->
  (0 < D - eps /\ 0 < E - eps /\ 0 < F - eps) /\
  allclose_r rt eps E F = true /\ allclose_r rt eps (A / qtwo) E = false /\
  allclose_r rt eps B C = false /\
  (allclose_r rt eps A B = true -> allclose_r rt eps D E = false).
Proof.
  unfold id_params_tol. cbv zeta. rewrite identify_none, !andb_true_iff, !qgtb_iff. tauto.
Qed.

(** ** What belongs together *)
Definition consistent (r : lattice_id) : Prop :=
  (1 <= niggli_num r <= 44)%Z /\
  lat_type r = bravais_name (character (niggli_num r)) /\
  lat_fam r = family (character (niggli_num r)) /\
  id_basis r = option_map dec_basis (canonical_basis (niggli_num r)).

Lemma identify_consistent cl A B C D E F positive r :
  identify cl A B C D E F positive = Some r -> consistent r.
Proof.
  unfold identify, block1, block2, block3, block4, found, found_tric. intros H.
  repeat match type of H with
  | context [if ?b then _ else _] => destruct b
  | context [match (if ?b then _ else _) with _ => _ end] => destruct b
  end; try discriminate H; injection H as <-;
  (split; [cbn; lia|]; repeat split).
Qed.
Lemma niggli_id_consistent cbrt lattice eps_ G r :
  niggli_id cbrt lattice eps_ G = Identified r -> consistent r.
Proof.
  unfold niggli_id, id_result, id_params, id_params_tol. cbv zeta. intros H.
  destruct G as [[[[[[a b] c] e] f] g]|].
  - destruct (identify _ _ _ _ _ _ _ _) eqn:I; [|discriminate H]. injection H as <-.
    exact (identify_consistent _ _ _ _ _ _ _ _ _ I).
  - destruct (reduced_cell cbrt lattice eps_) as [| | | |N K]; try discriminate H.
    destruct (identify _ _ _ _ _ _ _ _) eqn:I; [|discriminate H]. injection H as <-.
    exact (identify_consistent _ _ _ _ _ _ _ _ _ I).
Qed.

Lemma answer_otherwise cbrt rows eps_ N C :
  let eps := match eps_ with None => qdec 1 5 | Some e => e end in
  reduced_cell cbrt rows eps_ = Reduced N C ->
  (dot_bc N <= eps \/ dot_ca N <= eps \/ dot_ab N <= eps \/
   allclose eps (dot_ca N) (dot_ab N) = false \/ allclose eps (dot_aa N / qtwo) (dot_ca N) = true \/
   allclose eps (dot_bb N) (dot_cc N) = true) ->
  exists r, niggli_id cbrt rows eps_ None = Identified r.
Proof.
  unfold niggli_id. cbv zeta. intros -> H. unfold id_result.
  destruct (id_params _ _ _ _ _ _ _) as [r|] eqn:I; [now exists r|]. exfalso.
  unfold id_params in I. apply (proj1 (unbound_iff _ _ _ _ _ _ _ _)) in I.
  destruct I as ((I1 & I2 & I3) & I4 & I5 & I6 & _). unfold allclose in H.
  assert (P : forall x e : Qc, 0 < x - e -> x <= e -> False) by (intros x e; clear; intros; qclra).
  destruct H as [H|[H|[H|[H|[H|H]]]]]; try congruence; eauto.
Qed.

(** The canonical basis of an answer has the point group of its family. *)
Fixpoint nodupb (l : list mat3) : bool :=
  match l with [] => true | X :: r => negb (mem X r) && nodupb r end.
Lemma nodupb_NoDup l : nodupb l = true -> NoDup l.
Proof.
  induction l as [|X r IH]; intros H; [constructor|]. cbn [nodupb] in H.
  apply andb_true_iff in H. destruct H as [H1 H2]. constructor; [|now apply IH].
  intros I. apply mem_In in I. rewrite I in H1. discriminate.
Qed.

(** A box containing all vectors as short as the basis vectors. *)
Definition radius (k : Z) : nat :=
  if (k =? 9)%Z then 8 else
  if existsb (Z.eqb k) [18; 19; 26; 32; 38]%Z then 6 else 2.
Definition group_cert (k : Z) (B : mat3) : bool :=
  let G := gram B in let l := near_isometries G (radius k) eps3 in
  posdef G && near_box_ok G (radius k) eps3 && posdef (gram_of k) && box_ok (gram_of k) (radius k) &&
  forallb (near_isometryb G eps3) l && nodupb l &&
  Nat.eqb (List.length l) (holohedry_order (family (character k))) &&
  forallb (fun X => meqb (mmul (mtr X) (mmul (gram_of k) X)) (gram_of k)) l &&
  forallb (fun X => mem X l) (isometries (gram_of k) (radius k)).

Lemma group_cert_ok k B : canonical_basis k = Some B -> group_cert k B = true.
Proof.
  intros H.
  assert (Hk : In k lattice_numbers).
  { unfold canonical_basis in H. unfold lattice_numbers.
    repeat match type of H with
    | context [match ?x with _ => _ end] => destruct x; try discriminate H
    end; cbn [In]; tauto. }
  unfold lattice_numbers in Hk. cbn [In] in Hk.
  repeat destruct Hk as [<-|Hk]; try destruct Hk;
    (injection H as <-; vm_compute; reflexivity).
Qed.

Lemma basis_point_group k B : canonical_basis k = Some B ->
  exists l, NoDup l /\ List.length l = holohedry_order (family (character k)) /\
    (forall X, In X l <-> near_isometry (gram B) eps3 X) /\
    (forall X, In X l <-> isometry (gram_of k) X).
Proof.
  intros HB. apply group_cert_ok in HB. unfold group_cert in HB. cbv zeta in HB.
  rewrite !andb_true_iff in HB.
  destruct HB as ((((((((H1 & H2) & H3) & H4) & H5) & H6) & H7) & H8) & H9).
  rewrite forallb_forall in H5, H8, H9.
  exists (near_isometries (gram B) (radius k) eps3). split; [now apply nodupb_NoDup|].
  split; [now apply Nat.eqb_eq|]. split; intros X; split; intros HX.
  - apply near_isometryb_iff. now apply H5.
  - now apply near_isometries_complete.
  - apply meqb_eq. now apply H8.
  - apply mem_In, H9. now apply isometries_complete.
Qed.

(** ** Isometries of an identified cell *)
Lemma class_of_id r : consistent r -> forall X,
  isometry (class_gram (niggli_num r)) X <->
  (match canonical_basis (niggli_num r) with
   | Some _ => isometry (niggli_gram (niggli_num r)) X
   | None => X = mid \/ X = mopp mid
   end).
Proof.
  intros (Hk & _) X. set (k := niggli_num r) in *. clearbody k.
  assert (T : forall k', isometry mtric1 X \/ isometry mtric2 X -> k' = 31%Z \/ k' = 44%Z ->
     X = mid \/ X = mopp mid) by (intros k' H _; exact (mtric_iso X H)).
  assert (K : (k = 31 \/ k = 44 \/ (canonical_basis k <> None /\ k <> 31 /\ k <> 44 /\ k <> 0))%Z).
  { assert (I : In k (map Z.of_nat (seq 1 44))).
    { apply in_map_iff. exists (Z.to_nat k). split; [lia|]. apply in_seq. lia. }
    assert (FB : forallb (fun k => (k =? 31)%Z || (k =? 44)%Z ||
        (match canonical_basis k with Some _ => true | None => false end && negb (k =? 31)%Z
         && negb (k =? 44)%Z && negb (k =? 0)%Z)) (map Z.of_nat (seq 1 44)) = true)
      by (vm_compute; reflexivity).
    rewrite forallb_forall in FB. specialize (FB k I). clear I Hk.
    rewrite !orb_true_iff, !andb_true_iff, !negb_true_iff, !Z.eqb_eq, !Z.eqb_neq in FB.
    destruct FB as [[FB|FB]|(((FB & F1) & F2) & F3)]; [now left|now right; left|].
    right. right. repeat split; try assumption. intros Q. now rewrite Q in FB. }
  destruct K as [-> | [-> | (K1 & K2 & K3 & K4)]].
  - cbn. split; [intros H; exact (mtric_iso X (or_introl H))|].
    intros [-> | ->]; vm_compute; reflexivity.
  - cbn. split; [intros H; exact (mtric_iso X (or_intror H))|].
    intros [-> | ->]; vm_compute; reflexivity.
  - unfold class_gram. apply Z.eqb_neq in K2, K3, K4. rewrite K2, K3, K4. cbn [orb].
    destruct (canonical_basis k); [tauto|contradiction].
Qed.

Lemma id_exact_group M r : qdet M <> 0 -> is_niggli M -> id_exact M = Some r ->
  forall X, qisometry (qgram M) X <->
   (match canonical_basis (niggli_num r) with
   | Some _ => isometry (niggli_gram (niggli_num r)) X
   | None => X = mid \/ X = mopp mid
   end).
Proof.
  intros HM HN HI X. rewrite (id_group_all M HM HN X), HI. apply class_of_id.
  exact (identify_consistent _ _ _ _ _ _ _ _ _ HI).
Qed.
Lemma id_hole_group M : qdet M <> 0 -> is_niggli M -> id_exact M = None ->
  forall X, qisometry (qgram M) X <-> X = mid \/ X = mopp mid.
Proof.
  intros HM HN HI X. rewrite (id_group_all M HM HN X), HI. change (class_gram 0) with mtric1.
  split; [intros H; exact (mtric_iso X (or_introl H))|].
  intros [-> | ->]; vm_compute; reflexivity.
Qed.

Lemma niggli_id_too_many cbrt M :
  reduced_cell cbrt (rows_of M) None = TooManyIterations ->
  niggli_id cbrt (rows_of M) None None = ReductionFailed TooManyIterations.
Proof. intros H. unfold niggli_id. cbv zeta. now rewrite H. Qed.

Lemma mmul_opp_r A B : mmul A (mopp B) = mopp (mmul A B).
Proof. unfold mmul, mopp. cbn. f_equal; ring. Qed.
Lemma mmul_opp_l A B : mmul (mopp A) B = mopp (mmul A B).
Proof. unfold mmul, mopp. cbn. f_equal; ring. Qed.


(** ** A cell without an answer *)
Definition hole_cell : qmat := qof (Mat3 8 2 2 0 8 1 0 0 12).

Lemma hole_unbound : qdet hole_cell <> 0 /\ is_niggli hole_cell /\
  forall cbrt, 0 <= cbrt (qabs (qdet hole_cell)) <= zq 1000 ->
    reduced_cell cbrt (rows_of hole_cell) None = Reduced hole_cell mid /\
    niggli_id cbrt (rows_of hole_cell) None None = Unbound.
Proof.
  assert (HD : qdet hole_cell <> 0) by (vm_compute; discriminate).
  assert (HN : is_niggli hole_cell).
  { unfold is_niggli, cell_params. cbv zeta. apply check_exact. vm_compute. reflexivity. }
  split; [exact HD|]. split; [exact HN|]. intros cbrt (H1 & H2).
  assert (EN : qmul hole_cell (qof mid) = hole_cell) by (rewrite qof_id; apply qmul_id_r).
  assert (HR : reduced_cell cbrt (rows_of hole_cell) None = Reduced hole_cell mid).
  { rewrite reduced_cell_eps by exact HD. unfold used_eps.
    rewrite (grid_same 1 (gram (Mat3 8 2 2 0 8 1 0 0 12)) hole_cell _ (zq 149)).
    - rewrite <- EN at 2. vm_compute. reflexivity.
    - lia.
    - exact HD.
    - vm_compute. reflexivity.
    - unfold longest. vm_compute. repeat split; discriminate.
    - replace 0 with (qdec 1 5 * 0) by ring. apply pos_le; [discriminate|exact H1].
    - generalize dependent (cbrt (qabs (qdet hole_cell))). intros q H1 H2.
      unfold zq, inject_Z in *. qnum. }
  split; [exact HR|].
  unfold niggli_id. cbv zeta. rewrite HR.
  rewrite (id_grid 1 (gram (Mat3 8 2 2 0 8 1 0 0 12)) hole_cell (qdec 1 5) (zq 149)).
  - vm_compute. reflexivity.
  - lia.
  - exact HD.
  - vm_compute. reflexivity.
  - exact HN.
  - vm_compute. discriminate.
  - discriminate.
  - vm_compute. reflexivity.
Qed.
