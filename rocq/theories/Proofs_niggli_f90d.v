(** id_cell and the whole of find_grid for clear cells. *)
From Coq Require Import ZArith QArith Qcanon List Bool Lia.
From Verif Require Import Mat3 Spec QMat QNum QcTac Spec_grid Spec_niggli Spec_niggli_f90 Spec_id Spec_kgrids
  Bases Bases_niggli Model_pyniggli Model_niggli_id Model_niggli_f90 Model_find_kgrids Model_find_grid
  Model_find_grid_top Proofs_pyniggli Proofs_niggli_term Proofs_pyniggli2 Proofs_pyniggli3 Proofs_gridcell Proofs_gridcell2
  Proofs_niggli_id Proofs_niggli_id2 Proofs_niggli_id3 Proofs_niggli_canon Proofs_transform Proofs_volumes Proofs_supercells Proofs_enum_extra
  Proofs_find_supercells Proofs_search Proofs_find_grid3 Proofs_niggli_f90a Proofs_niggli_f90b Proofs_niggli_f90c
  Spec_clear Proofs_clear Proofs_clear2 Proofs_clear3 Proofs_clear4.
Import ListNotations.
Open Scope Qc_scope.

Lemma dots_same N : (f_dot11 N, f_dot22 N, f_dot33 N, f_dot23 N, f_dot13 N, f_dot12 N) =
  (dot_aa N, dot_bb N, dot_cc N, dot_bc N, dot_ca N, dot_ab N).
Proof.
  unfold f_dot11, f_dot22, f_dot33, f_dot23, f_dot13, f_dot12,
    dot_aa, dot_bb, dot_cc, dot_bc, dot_ca, dot_ab.
  destruct N as [a b c e f g h i j]. cbn. do 5 (apply f_equal2; [|ring]). ring.
Qed.

(** ** Any cell *)
Lemma id_params_some eps A B C D E F : exists r, f_id_params eps A B C D E F = Some r /\ f_consistent r.
Proof. unfold f_id_params. cbv zeta. apply f_identify_total. Qed.

Lemma id_cell_answers dep cbrt U eps_ : id_cell dep cbrt U eps_ <> Id_unset.
Proof.
  unfold id_cell. cbv zeta. destruct (reduce_cell dep cbrt U _) as [| | |Nu Cu]; try discriminate.
  destruct (id_params_some (match eps_ with Some e => e | None => qdec 1 5 end)
    (f_dot11 Nu) (f_dot22 Nu) (f_dot33 Nu) (f_dot23 Nu) (f_dot13 Nu) (f_dot12 Nu)) as (r & -> & _).
  destruct (reduce_cell _ _ _ _); discriminate.
Qed.
Lemma id_cell_form dep cbrt U eps_ Nu Cu O No Co k s_range :
  id_cell dep cbrt U eps_ = Id_cell Nu Cu O No Co k s_range ->
  let eps := match eps_ with Some e => e | None => qdec 1 5 end in
  (1 <= k <= 44)%Z /\
  reduce_cell dep cbrt U (Some eps) = FReduced Nu Cu /\
  reduce_cell dep cbrt O (Some eps) = FReduced No Co /\
  match f_canonical_basis k with
  | Some B => O = dec_basis B /\ (k <> 1 -> k <> 3 -> k <> 5 -> 10 <= s_range <= 25)%Z
  | None => O = U /\ s_range = 1%Z
  end.
Proof.
  unfold id_cell. cbv zeta. destruct (reduce_cell dep cbrt U _) as [| | |Nu' Cu'] eqn:RU; try discriminate.
  destruct (id_params_some (match eps_ with Some e => e | None => qdec 1 5 end)
    (f_dot11 Nu') (f_dot22 Nu') (f_dot33 Nu') (f_dot23 Nu') (f_dot13 Nu') (f_dot12 Nu'))
    as (r & -> & H1 & H2 & H3 & H4).
  destruct (reduce_cell _ _ (match i_basis r with Some _ => _ | None => _ end) _)
    as [| | |No' Co'] eqn:RO; try discriminate.
  intros E. inversion E; subst; clear E. split; [exact H1|]. split; [reflexivity|].
  split; [exact RO|]. rewrite <- H2. destruct (i_basis r) as [B|].
  - split; [reflexivity|]. now apply H4.
  - split; [reflexivity|]. now apply H3.
Qed.

(** ** Clear cells *)
Lemma f_id_clear U C L eps : qdet U <> 0 -> longest U L -> mdet C = 1%Z -> is_niggli (qmul U (qof C)) ->
  0 <= eps -> identification_clear (eps + rtol * (zq 6 * L)) U -> identification_clear (eps * (zq 6 * L)) U ->
  let M := qmul U (qof C) in
  option_map i_id (f_id_params eps (f_dot11 M) (f_dot22 M) (f_dot33 M) (f_dot23 M) (f_dot13 M) (f_dot12 M)) =
  Some (the_num (id_exact M)).
Proof.
  intros HU HL HD HN He HI HR. cbv zeta. pose proof (dots_same (qmul U (qof C))) as E.
  pose proof (identified_dots _ U C HI HD HN) as K1. pose proof (identified_dots _ U C HR HD HN) as K2.
  pose proof (id_clear_bounds U C L HU HL HD HN) as K3. cbv zeta in K1, K2, K3. unfold id_exact.
  set (M := qmul U (qof C)) in *. clearbody M.
  assert (E1 : f_dot11 M = dot_aa M) by congruence. assert (E2 : f_dot22 M = dot_bb M) by congruence.
  assert (E3 : f_dot33 M = dot_cc M) by congruence. assert (E4 : f_dot23 M = dot_bc M) by congruence.
  assert (E5 : f_dot13 M = dot_ca M) by congruence. assert (E6 : f_dot12 M = dot_ab M) by congruence.
  rewrite E1, E2, E3, E4, E5, E6.
  exact (f_id_params_clear eps (zq 6 * L) _ _ He (Qcle_refl _) _ _ _ _ _ _ K1 K3 (Qcle_refl _) K2).
Qed.

Lemma basis_kind k : match f_canonical_basis k with None => canonical_basis k = None | Some _ => canonical_basis k <> None end.
Proof.
  destruct (Z.eq_dec k 16) as [-> | Hk]; [cbn; discriminate|]. rewrite (f_bases k Hk).
  destruct (canonical_basis k); [discriminate|reflexivity].
Qed.
Lemma f_group N : qdet N <> 0 -> is_niggli N -> forall X, qisometry (qgram N) X <->
  match f_canonical_basis (the_num (id_exact N)) with
  | Some _ => isometry (niggli_gram (the_num (id_exact N))) X
  | None => X = mid \/ X = mopp mid
  end.
Proof.
  intros HD HN X. destruct (id_exact N) as [r|] eqn:I; cbn [the_num].
  - rewrite (id_exact_group N r HD HN I). pose proof (basis_kind (niggli_num r)) as K.
    destruct (f_canonical_basis (niggli_num r)), (canonical_basis (niggli_num r));
      try tauto; try discriminate; now contradiction K.
  - change (f_canonical_basis 31) with (@None mat3). now apply id_hole_group.
Qed.

Lemma f_clear_reduction cbrt e L U dep : f_clear_cell cbrt e L U -> dep (qdet U) = false ->
  let Cu := fst (fst (final 0 U)) in let N := qmul U (qof Cu) in
  if Z.leb 1000 (snd (final 0 U)) then reduce_cell dep cbrt U (Some e) = Gave_up
  else mdet Cu = 1%Z /\ is_niggli N /\ reduce_cell dep cbrt U (Some e) = FReduced N Cu.
Proof.
  intros [HM HL He Hc H1 H2 H3] Hdep. cbv zeta.
  rewrite reduce_cell_eps by exact Hdep. unfold used_eps.
  assert (Hp : 0 < e * cbrt (qabs (qdet U))).
  { replace 0 with (0 * cbrt (qabs (qdet U))) by ring. now apply Qcmult_lt_compat_r. }
  exact (f_clear_reduce _ L U HM HL Hp H1).
Qed.
Lemma f_clear_user cbrt e L U dep : f_clear_cell cbrt e L U -> dep (qdet U) = false ->
  reduce_cell dep cbrt U (Some e) = Gave_up \/
  let Cu := fst (fst (final 0 U)) in let N := qmul U (qof Cu) in
  mdet Cu = 1%Z /\ is_niggli N /\ qdet N <> 0 /\ reduce_cell dep cbrt U (Some e) = FReduced N Cu /\
  option_map i_id (f_id_params e (f_dot11 N) (f_dot22 N) (f_dot33 N) (f_dot23 N) (f_dot13 N) (f_dot12 N)) =
  Some (the_num (id_exact N)).
Proof.
  intros HC Hdep. pose proof (f_clear_reduction cbrt e L U dep HC Hdep) as K. cbv zeta in *.
  set (C := fst (fst (final 0 U))) in *. clearbody C.
  destruct (Z.leb 1000 (snd (final 0 U))); [now left|right].
  destruct K as (K1 & K2 & K3). destruct HC as [HM HL He Hc H1 H2 H3].
  assert (DN : qdet (qmul U (qof C)) <> 0) by now apply det_step.
  do 4 (split; [assumption|]).
  apply (f_id_clear U C L); try assumption. now apply Qclt_le_weak.
Qed.

Lemma basis_volume k B : f_canonical_basis k = Some B -> qdec 4 1 <= qabs (qdet (dec_basis B)).
Proof.
  intros H. pose proof (f_in_numbers k B H) as Hk.
  pose proof (rep_abs (10 ^ 48) _ _ ltac:(lia) (dec_det B)) as HV. unfold rep in HV.
  assert (K : (4 * 10 ^ 47 <= Z.abs (mdet B))%Z).
  { clear HV. unfold lattice_numbers in Hk. cbn [In] in Hk.
    repeat destruct Hk as [<-|Hk]; try destruct Hk; (injection H as <-; vm_compute; discriminate). }
  apply zq_le in K. rewrite <- HV in K. clear HV.
  generalize dependent (qabs (qdet (dec_basis B))). intros v K.
  apply (fun H => Qcmult_le_compat_r _ _ (qdec 1 48) H ltac:(discriminate)) in K.
  replace (zq (4 * 10 ^ 47) * qdec 1 48) with (qdec 4 1) in K by (apply Qc_is_canon; vm_compute; reflexivity).
  replace (zq (10 ^ 48) * v * qdec 1 48) with (zq (10 ^ 48) * qdec 1 48 * v) in K by ring.
  replace (zq (10 ^ 48) * qdec 1 48) with 1 in K by (apply Qc_is_canon; vm_compute; reflexivity).
  now rewrite Qcmult_1_l in K.
Qed.

(** What id_cell tells about a clear cell. *)
Record f_parts (U : qmat) (k : Z) (Cu Co : mat3) (O : qmat) (s_range : Z) : Prop := {
  fp_num : (1 <= k <= 44)%Z;
  fp_cu : mdet Cu = 1%Z;
  fp_co : mdet Co = 1%Z;
  fp_det : qdet O <> 0;
  fp_niggli : is_niggli (qmul U (qof Cu));
  fp_kind :
    match f_canonical_basis k with
    | Some B => O = dec_basis B /\ same_symmetries U Cu Co (gram_of k) /\
        (k <> 1 -> k <> 3 -> k <> 5 -> 10 <= s_range <= 25)%Z
    | None => O = U /\ Co = Cu /\
        forall X, qisometry (qgram (qmul U (qof Cu))) X <-> X = mid \/ X = mopp mid
    end }.

Lemma id_cell_step dep cbrt U e Nu Cu k :
  reduce_cell dep cbrt U (Some e) = FReduced Nu Cu ->
  option_map i_id (f_id_params e (f_dot11 Nu) (f_dot22 Nu) (f_dot33 Nu) (f_dot23 Nu) (f_dot13 Nu) (f_dot12 Nu)) = Some k ->
  let O := match f_canonical_basis k with Some B => dec_basis B | None => U end in
  exists s_range,
    id_cell dep cbrt U (Some e) =
      match reduce_cell dep cbrt O (Some e) with
      | FReduced No Co => Id_cell Nu Cu O No Co k s_range
      | f => Id_basis_failed f
      end /\ (1 <= k <= 44)%Z /\
    (f_canonical_basis k <> None -> k <> 1 -> k <> 3 -> k <> 5 -> 10 <= s_range <= 25)%Z.
Proof.
  intros RU HI. cbv zeta. unfold id_cell. cbv zeta. rewrite RU.
  destruct (id_params_some e (f_dot11 Nu) (f_dot22 Nu) (f_dot33 Nu) (f_dot23 Nu) (f_dot13 Nu) (f_dot12 Nu))
    as (r & Er & H1 & H2 & H3 & H4).
  rewrite Er in HI |- *. cbn [option_map] in HI. injection HI as <-.
  exists (i_range r). rewrite H2. split; [|split; [exact H1|]].
  - destruct (f_canonical_basis (i_id r)); reflexivity.
  - rewrite H2 in H4. exact H4.
Qed.

Lemma id_cell_clear dep cbrt e L U : cube_root cbrt -> dependence_test dep ->
  f_clear_cell cbrt e L U -> qdec 22 6 <= e -> e <= qdec 11 4 -> dep (qdet U) = false ->
  id_cell dep cbrt U (Some e) = Id_user_failed Gave_up \/
  exists Cu Co O s_range,
    let k := the_num (id_exact (qmul U (qof Cu))) in
    id_cell dep cbrt U (Some e) =
      Id_cell (qmul U (qof Cu)) Cu O (qmul O (qof Co)) Co k s_range /\
    Cu = fst (fst (final 0 U)) /\
    f_parts U k Cu Co O s_range.
Proof.
  intros HR HD HG L1 L2 Hdep. pose proof (fc_det _ _ _ _ HG) as HU.
  destruct (f_clear_user cbrt e L U dep HG Hdep) as [K|K].
  { left. unfold id_cell. cbv zeta. now rewrite K. }
  right. cbv zeta in K. remember (fst (fst (final 0 U))) as Cu eqn:ECu.
  destruct K as (K1 & K2 & K3 & K4 & K5).
  destruct (id_cell_step dep cbrt U e _ _ _ K4 K5) as (s_range & E & Hk & HS).
  pose proof (f_group _ K3 K2) as GR. remember (the_num (id_exact (qmul U (qof Cu)))) as k eqn:Ek.
  destruct (f_canonical_basis k) as [B|] eqn:EB.
  - pose proof (basis_volume k B EB) as HV. pose proof (f_basis_det k B EB) as HO.
    destruct (f_canonical_reduced dep cbrt e k B EB (HR _ (qabs_pos _ HO)) L1 L2 (HD _ HV)) as (C1 & C2).
    exists Cu, (f_canonical_C k), (dec_basis B), s_range. cbv zeta. rewrite <- Ek.
    rewrite C2 in E. split; [exact E|]. split; [reflexivity|].
    split; try assumption. rewrite EB. split; [reflexivity|]. split; [|apply HS; discriminate].
    intros X. rewrite (f_canonical_gram k B EB). apply GR.
  - exists Cu, Cu, U, s_range. cbv zeta. rewrite <- Ek.
    rewrite K4 in E. split; [exact E|]. split; [reflexivity|]. split; try assumption. rewrite EB.
    split; [reflexivity|]. split; [reflexivity|exact GR].
Qed.

(** ** The point group *)
Lemma same_order {A} (l l' : list A) : NoDup l -> NoDup l' -> (forall x, In x l <-> In x l') ->
  length l = length l'.
Proof.
  intros H1 H2 H. apply Nat.le_antisymm; apply NoDup_incl_length; try assumption; intros x; apply H.
Qed.
Lemma conj_inj C X Y : unimodular C ->
  mmul (mmul C X) (minv1 C) = mmul (mmul C Y) (minv1 C) -> X = Y.
Proof.
  intros HC H. apply (f_equal (fun Z => mmul (mmul (minv1 C) Z) C)) in H.
  assert (K : forall Z, mmul (mmul (minv1 C) (mmul (mmul C Z) (minv1 C))) C = Z).
  { intros Z. rewrite <- !mmul_assoc, minv1_l, mmul_id_r, mmul_assoc, minv1_l, mmul_id_l by exact HC.
    reflexivity. }
  now rewrite !K in H.
Qed.
Lemma NoDup_conj C l : unimodular C -> NoDup l ->
  NoDup (map (fun X => mmul (mmul C X) (minv1 C)) l).
Proof.
  intros HC. induction 1 as [|X l N ND IH]; [constructor|]. cbn [map]. constructor; [|exact IH].
  intros I. apply in_map_iff in I. destruct I as (Y & E & I). apply (conj_inj C) in E; [|exact HC].
  now subst.
Qed.
(** Orders do not depend on the basis. *)
Lemma order_change U C n : unimodular C -> point_group_order U n <-> point_group_order (qmul U (qof C)) n.
Proof.
  intros HC. split; intros (l & N & E & I).
  - exists (map (fun X => mmul (mmul (minv1 C) X) C) l).
    assert (HC' : unimodular (minv1 C)).
    { pose proof (minv1_det C HC) as Q. unfold unimodular in *. clear - Q HC. nia. }
    assert (EQ : map (fun X => mmul (mmul (minv1 C) X) C) l =
                 map (fun X => mmul (mmul (minv1 C) X) (minv1 (minv1 C))) l).
    { apply map_ext. intros X. f_equal. symmetry. now apply minv1_inv. }
    split; [rewrite EQ; now apply NoDup_conj|]. split; [now rewrite map_length|].
    intros X. rewrite in_map_iff. rewrite (qisometry_change U C X HC). rewrite <- I. split.
    + intros (Y & <- & IY). now rewrite conj_back.
    + intros IX. eexists. split; [|exact IX].
      rewrite <- !mmul_assoc, minv1_l, mmul_id_r, mmul_assoc, minv1_l, mmul_id_l by exact HC. reflexivity.
  - exists (map (fun X => mmul (mmul C X) (minv1 C)) l).
    split; [now apply NoDup_conj|]. split; [now rewrite map_length|].
    intros X. rewrite in_map_iff. split.
    + intros (Y & <- & IY). apply (proj1 (qisometry_change U C Y HC)). now apply I.
    + intros HX. exists (mmul (mmul (minv1 C) X) C). split; [now apply conj_back|].
      apply I. apply (proj2 (qisometry_change U C _ HC)). now rewrite conj_back.
Qed.

Lemma f_basis_order k B C : f_canonical_basis k = Some B -> unimodular C -> exists l, NoDup l /\
  length l = holohedry_order (family (character k)) /\
  forall X, In X l <-> isometry (mmul (mtr C) (mmul (gram_of k) C)) X.
Proof.
  intros H U. pose proof (basis_kind k) as K. rewrite H in K.
  destruct (canonical_basis k) as [B'|] eqn:E; [|now contradiction K].
  destruct (basis_point_group k B' E) as (l & N & EL & _ & I).
  exists (map (fun X => mmul (mmul (minv1 C) X) C) l).
  assert (HC' : unimodular (minv1 C)).
  { pose proof (minv1_det C U) as Q. unfold unimodular in *. clear - Q U. nia. }
  assert (EQ : map (fun X => mmul (mmul (minv1 C) X) C) l =
               map (fun X => mmul (mmul (minv1 C) X) (minv1 (minv1 C))) l).
  { apply map_ext. intros X. f_equal. symmetry. now apply minv1_inv. }
  split; [rewrite EQ; now apply NoDup_conj|]. split; [now rewrite map_length|].
  intros X. rewrite in_map_iff. rewrite (isometry_change (gram_of k) C X U). rewrite <- I. split.
  - intros (Y & <- & IY). now rewrite conj_back.
  - intros IX. eexists. split; [|exact IX].
    rewrite <- !mmul_assoc, minv1_l, mmul_id_r, mmul_assoc, minv1_l, mmul_id_l by exact U. reflexivity.
Qed.

Lemma no_basis k : (1 <= k <= 44)%Z -> f_canonical_basis k = None -> triclinic k.
Proof.
  intros Hk H. destruct (number_cases k Hk) as [C|[T|O]]; [|exact T|].
  - destruct C as [-> | [-> | ->]]; discriminate H.
  - assert (L : In k lattice_numbers) by (apply lattice_number_cases; now right).
    destruct (branch_basis k L) as (B & _ & E & _). pose proof (basis_kind k) as K. rewrite H in K. congruence.
Qed.
Lemma some_basis k B : f_canonical_basis k = Some B -> k <> 31%Z /\ k <> 44%Z.
Proof. intros H. split; intros ->; discriminate H. Qed.

Lemma parts_order U k Cu Co O s_range n : f_parts U k Cu Co O s_range -> point_group_order U n ->
  n = Z.of_nat (holohedry_order (family (character k))).
Proof.
  intros [P1 P2 P3 P4 P5 P6] HO. apply (order_change U Cu n (det1_unimodular _ P2)) in HO.
  destruct HO as (l & N & <- & I). f_equal.
  destruct (f_canonical_basis k) as [B|] eqn:EB.
  - destruct (f_basis_order k B Co EB (det1_unimodular _ P3)) as (l' & N' & <- & I').
    apply same_order; try assumption. intros X. rewrite I, I'. destruct P6 as (_ & P6 & _). apply P6.
  - destruct P6 as (_ & _ & P6). transitivity (length [mid; mopp mid]).
    + apply same_order; [exact N| |].
      * constructor; [|constructor; [easy|constructor]]. cbn [In]. intros [Q|[]]. discriminate Q.
      * intros X. rewrite I, P6. cbn [In]. split; intros [Q|Q]; auto; destruct Q as [Q|[]]; auto.
    + destruct (no_basis k P1 EB) as [-> | ->]; reflexivity.
Qed.

Lemma parts_check U k Cu Co O s_range n : f_parts U k Cu Co O s_range -> point_group_order U n ->
  check_sym k n = Some true.
Proof.
  intros P HO. apply (proj1 (check_sym_spec k n (fp_num _ _ _ _ _ _ P))).
  exact (parts_order U k Cu Co O s_range n P HO).
Qed.

(** ** The whole of find_grid *)
Section Top.
  Context (dep : Qc -> bool) (cbrt : Qc -> Qc) (pg_size : qmat -> Z) (norms : qmat -> Qc * Qc * Qc)
          (equal_norm : Qc -> Qc -> bool) (undefined : mat3 -> qmat) (mink : qmat -> qmat)
          (rmin : qmat -> Qc) (packed : qmat -> bool) (equal : Qc -> Qc -> bool)
          (irr1 irr2 : qmat -> offset -> option Z).
  Local Notation top := (find_grid_top dep cbrt pg_size norms equal_norm undefined mink rmin packed
                           equal irr1 irr2).

  Lemma tolerance_top eps_ e : tolerance eps_ e -> top_eps eps_ = e.
  Proof.
    destruct eps_ as [x|]; cbn; intros H; [now symmetry|].
    assert (E : zq 1000 * qdec 1 3 = 1) by (apply Qc_is_canon; vm_compute; reflexivity).
    rewrite <- E in H. apply (f_equal (Qcmult (qdec 1 3))) in H.
    rewrite !Qcmult_assoc, (Qcmult_comm (qdec 1 3)), E, !Qcmult_1_l in H. now symmetry.
  Qed.
  Lemma quarters4 z : zq 4 * (zq z / zq 4) = zq z.
  Proof. apply Qcmult_div_r. discriminate. Qed.
  Lemma top_allowed given k U s : In s (top_offsets norms equal_norm given k U) ->
    allowed_offset norms equal_norm given k U s.
  Proof.
    unfold top_offsets, allowed_offset. destruct given as [o|].
    - intros [H|[]]. now symmetry.
    - destruct (norms U) as [[n1 n2] n3]. intros H. apply in_map_iff in H.
      destruct H as (v & <- & H). exists n1, n2, n3, v. cbn [of_quarters fst snd].
      rewrite !quarters4. now repeat split.
  Qed.

  Lemma top_sound fuel root U eps_ e given kpd min_kpts L :
    tolerance eps_ e -> cube_root cbrt -> dependence_test dep -> positive irr1 ->
    (forall B, qdet B <> 0 -> exists Y, unimodular Y /\ mink B = qmul B (qof Y)) ->
    f_clear_cell cbrt e L U -> qdec 22 6 <= e -> e <= qdec 11 4 -> (1 <= kpd)%Z ->
    match top fuel root U eps_ given kpd min_kpts with
    | Not_identified o => (o = Id_user_failed Dependent /\ dep (qdet U) = true) \/
        o = Id_user_failed Gave_up
    | Symmetry_stop k => forall n, point_group_order U n -> pg_size U <> n
    | Searched k r => forall g o, r = Found g o ->
        exists n s, kgrid n U g /\ keeps_symmetry U g /\ o = Some s /\
          allowed_offset norms equal_norm given k U s /\
          (k <> 31 /\ k <> 44 -> kpd <= n)%Z /\
          (k = 31 \/ k = 44 -> exists m a, 1 <= m /\ n = m ^ 3 * a /\ kpd / m ^ 3 <= a)%Z
    end.
  Proof.
    intros HE HR HD HP HM HG L1 L2 Hk. pose proof (fc_det _ _ _ _ HG) as HU.
    unfold find_grid_top. cbv zeta. rewrite (tolerance_top _ _ HE). clear HE.
    destruct (dep (qdet U)) eqn:Hdep.
    { unfold id_cell. cbv zeta. rewrite (proj1 (reduce_cell_dep dep cbrt U (Some e)) Hdep). left. now split. }
    destruct (id_cell_clear dep cbrt e L U HR HD HG L1 L2 Hdep) as [K|(Cu & Co & O & sr & K)].
    { rewrite K. now right. }
    cbv zeta in K. destruct K as (K & _ & P). rewrite K. clear K.
    set (k := the_num (id_exact (qmul U (qof Cu)))) in *. clearbody k.
    destruct (check_sym k (pg_size U)) as [[|]|] eqn:CS.
    2, 3: intros n HO EN; rewrite EN, (parts_check _ _ _ _ _ _ _ P HO) in CS; discriminate CS.
    intros g o F. destruct P as [P1 P2 P3 P4 P5 P6].
    assert (W : exists n s, kgrid n U g /\ keeps_symmetry U g /\ o = Some s /\
      In s (top_offsets norms equal_norm given k U) /\ (k <> 31 /\ k <> 44 -> kpd <= n)%Z /\
      (k = 31 \/ k = 44 -> exists m a, 1 <= m /\ n = m ^ 3 * a /\ kpd / m ^ 3 <= a)%Z).
    2: { destruct W as (n & s & W1 & W2 & W3 & W4 & W5). exists n, s.
         repeat (split; [assumption|]). split; [now apply top_allowed|exact W5]. }
    refine (fg_sound _ _ _ _ _ _ _ _ _ U O Cu Co k fuel sr kpd root min_kpts g o HP HU P4
      (det1_unimodular _ P2) (det1_unimodular _ P3) P1 HM _ Hk F).
    destruct (f_canonical_basis k) as [B|] eqn:EB.
    - left. destruct (some_basis k B EB) as (N1 & N2). split; [exact N1|]. split; [exact N2|].
      destruct P6 as (_ & P6 & _). intros X HX. now apply P6.
    - right. split; [now apply no_basis|]. destruct P6 as (_ & _ & P6). intros X HX. now apply P6.
  Qed.
End Top.
