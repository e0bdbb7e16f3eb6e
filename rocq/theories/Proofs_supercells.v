(** [find_supercells]: which HNFs are used, for all 44 lattice numbers. *)
From Coq Require Import ZArith List Lia Bool Sorted Permutation.
From Verif Require Import Mat3 Spec PyNum Model_diag PyNumFacts Model_universal Bases HnfTheory.
From Verif Require Import Model_sc Model_bcc Model_fcc Model_so Model_stet Model_hx Model_body_tet
  Model_body_ortho Model_sm Model_face_ortho Model_base_mono Model_rhom Model_base_ortho.
From Verif Require Import Proofs_cubic Proofs_enum Proofs_nodup Proofs_enum_extra Proofs_two
  Proofs_volumes.
Import ListNotations.
Open Scope Z_scope.

(** ** [find_volumes] *)

Definition eleven (kpd : Z) : list Z :=
  [kpd; kpd + 1; kpd + 2; kpd + 3; kpd + 4; kpd + 5; kpd + 6; kpd + 7; kpd + 8; kpd + 9; kpd + 10].

Lemma range11 kpd : py_range kpd (kpd + 11) 1 = eleven kpd.
Proof.
  unfold py_range. replace ((kpd + 11 - kpd + 1 - 1) / 1) with 11 by (rewrite Z.div_1_r; lia).
  change (Z.to_nat 11) with 11%nat. cbn [seq map]. unfold eleven. repeat (apply (f_equal2 (@cons Z)); [lia|]). reflexivity.
Qed.

Lemma eleven_sorted kpd : StronglySorted Z.le (eleven kpd).
Proof. unfold eleven. repeat (constructor; [|repeat constructor; lia]). constructor. Qed.

Definition cubic (k : Z) : Prop := k = 1 \/ k = 3 \/ k = 5.
Definition triclinic (k : Z) : Prop := k = 31 \/ k = 44.

Lemma find_volumes_other k kpd nb :
  ~ cubic k -> ~ triclinic k -> find_volumes k kpd nb = Some (eleven kpd, None).
Proof.
  unfold cubic, triclinic. intros H1 H2. unfold find_volumes.
  destruct (Z.eqb_spec k 3); [lia|]. destruct (Z.eqb_spec k 5); [lia|].
  destruct (Z.eqb_spec k 1); [lia|]. destruct (Z.eqb_spec k 31); [lia|].
  destruct (Z.eqb_spec k 44); [lia|]. cbn [orb].
  rewrite range11, z_sort_fix by apply eleven_sorted. reflexivity.
Qed.

Lemma find_volumes_tric k kpd nb :
  triclinic k -> 1 <= kpd ->
  exists n m, find_volumes k kpd nb = Some ([n], Some m) /\
    1 <= m /\ kpd <= 100 * m ^ 3 /\ (forall s, 1 <= s < m -> 100 * s ^ 3 < kpd) /\
    1 <= n <= 100 /\ m ^ 3 * n <= kpd < m ^ 3 * n + m ^ 3.
Proof.
  intros [-> | ->] Hk; destruct (tric_volumes kpd Hk) as (n & m & E & H); exists n, m;
    (split; [|exact H]); unfold find_volumes; cbn [Z.eqb orb Pos.eqb]; rewrite E; reflexivity.
Qed.

Lemma find_volumes_35 k kpd nb : k = 3 \/ k = 5 ->
  find_volumes k kpd nb = Some (z_sort (cubic_volumes [1; 2; 4] kpd nb), None).
Proof. intros [-> | ->]; reflexivity. Qed.
Lemma find_volumes_1 kpd nb :
  find_volumes 1 kpd nb = Some (z_sort (cubic_volumes [1; 4; 16] kpd nb), None).
Proof. reflexivity. Qed.

Lemma cubic_usable ms kpd nb (enum : Z -> list mat3) :
  good_mults ms -> 1 <= kpd -> root_guess kpd nb ->
  (forall m b, In m ms -> 1 <= b -> enum (m * b ^ 3) <> []) ->
  exists x y z, Some (z_sort (cubic_volumes ms kpd nb), None) = Some ([x; y; z], @None Z) /\
    kpd <= x /\ x < y /\ y < z /\ enum x <> [] /\ enum y <> [] /\ enum z <> [].
Proof.
  intros HG Hk HR HE. destruct (cubic_volumes_spec ms kpd nb HG Hk HR) as (x & y & z & E & H1 & H2 & H3 & H4 & _).
  exists x, y, z. rewrite E. repeat (split; [reflexivity || assumption|]).
  assert (N : forall v, In v [x; y; z] -> enum v <> []).
  { intros v Hv. destruct (H4 v Hv) as (m & b & Hm & Hb & -> & _). now apply HE. }
  repeat split; apply N; cbn; tauto.
Qed.

Lemma cubic_volumes_usable kpd nb :
  1 <= kpd -> root_guess kpd nb ->
  (exists x y z, find_volumes 3 kpd nb = Some ([x; y; z], None) /\
     kpd <= x /\ x < y /\ y < z /\ sc_3 x <> [] /\ sc_3 y <> [] /\ sc_3 z <> []) /\
  (exists x y z, find_volumes 5 kpd nb = Some ([x; y; z], None) /\
     kpd <= x /\ x < y /\ y < z /\ bcc_5 x <> [] /\ bcc_5 y <> [] /\ bcc_5 z <> []) /\
  (exists x y z, find_volumes 1 kpd nb = Some ([x; y; z], None) /\
     kpd <= x /\ x < y /\ y < z /\ fcc_1 x <> [] /\ fcc_1 y <> [] /\ fcc_1 z <> []).
Proof.
  intros Hk HR. split; [|split].
  - apply (cubic_usable [1; 2; 4] kpd nb sc_3 good_124 Hk HR).
    intros m b Hm Hb. apply sc_3_nonempty. exists b. split; [exact Hb|]. cbn [In] in Hm. lia.
  - apply (cubic_usable [1; 2; 4] kpd nb bcc_5 good_124 Hk HR).
    intros m b Hm Hb. apply bcc_5_nonempty. exists b. split; [exact Hb|]. cbn [In] in Hm. lia.
  - apply (cubic_usable [1; 4; 16] kpd nb fcc_1 good_1416 Hk HR).
    intros m b Hm Hb. apply fcc_1_nonempty. exists b. split; [exact Hb|]. cbn [In] in Hm. lia.
Qed.

(** Among the sizes with base at least [nb] and cube below [kpd + 1000], the three
    smallest are returned. *)
Lemma cubic_volumes_closest kpd nb :
  1 <= kpd -> root_guess kpd nb ->
  (forall k, k = 3 \/ k = 5 -> exists x y z, find_volumes k kpd nb = Some ([x; y; z], None) /\
     forall m b, In m [1; 2; 4] -> nb <= b -> b ^ 3 < kpd + 1000 -> kpd <= m * b ^ 3 ->
       In (m * b ^ 3) [x; y; z] \/ z < m * b ^ 3) /\
  (exists x y z, find_volumes 1 kpd nb = Some ([x; y; z], None) /\
     forall m b, In m [1; 4; 16] -> nb <= b -> b ^ 3 < kpd + 1000 -> kpd <= m * b ^ 3 ->
       In (m * b ^ 3) [x; y; z] \/ z < m * b ^ 3).
Proof.
  intros Hk HR. split.
  - intros k Hkk. destruct (cubic_volumes_spec _ kpd nb good_124 Hk HR) as (x & y & z & E & _ & _ & _ & _ & H).
    exists x, y, z. rewrite (find_volumes_35 k) by exact Hkk. rewrite E. auto.
  - destruct (cubic_volumes_spec _ kpd nb good_1416 Hk HR) as (x & y & z & E & _ & _ & _ & _ & H).
    exists x, y, z. rewrite find_volumes_1, E. auto.
Qed.

(** For a density just above a cube the next cube is missed. *)
Lemma cubic_volumes_miss k nb :
  18 <= k -> k - 2 <= nb <= k - 1 ->
  exists x y z, find_volumes 3 (k ^ 3 + 1) nb = Some ([x; y; z], None) /\
    k ^ 3 + 1 <= (k + 1) ^ 3 < x.
Proof.
  intros Hk Hnb.
  assert (E1 : (k + 1) ^ 3 = k ^ 3 + 3 * (k * k) + 3 * k + 1) by ring.
  assert (E2 : (k - 2) ^ 3 = k ^ 3 - 6 * (k * k) + 12 * k - 8) by ring.
  assert (K2 : 18 * k <= k * k) by nia. assert (K3 : 18 * (k * k) <= k ^ 3) by (rewrite pow3; nia).
  destruct (cubic_volumes_spec _ (k ^ 3 + 1) nb good_124) as (x & y & z & E & _ & _ & _ & H & _);
    [lia|exists k; lia|].
  exists x, y, z. rewrite find_volumes_35, E by tauto. split; [reflexivity|]. split; [lia|].
  assert (X : In x [x; y; z]) by (now left).
  destruct (cubic_volumes_spec _ (k ^ 3 + 1) nb good_124) as (x' & y' & z' & E' & Hx & _);
    [lia|exists k; lia|]. rewrite E in E'. injection E' as <- <- <-.
  destruct (H x X) as (m & b & Hm & Hb & Ex & Hb1 & Hb2).
  assert (Hbk : b <= k).
  { destruct (Z_le_gt_dec b k); [assumption|].
    pose proof (cube_mono (k + 1) b). lia. }
  pose proof (cube_mono b k Hbk). pose proof (cube_mono (k - 2) b).
  cbn [In] in Hm. destruct Hm as [<-|[<-|[<-|[]]]]; lia.
Qed.

(** ** The branches of [find_supercells] *)

Definition branch (k : Z) (enum : Z -> list mat3) : Prop :=
  (forall ex ns m, select_hnfs k ex ns m = Some (collect enum ex ns 0 [])) /\
  enumerates_exactly (gram_of k) enum /\ (forall n, NoDup (enum n)) /\ two_at_4 enum.

Lemma branch_2 : branch 2 rhom_4_2.
Proof. split; [reflexivity|]. split; [exact exact_2|]. split; [exact rhom_4_2_nodup|exact rhom_4_2_two]. Qed.
Lemma branch_4 : branch 4 rhom_4_2.
Proof. split; [reflexivity|]. split; [exact exact_4|]. split; [exact rhom_4_2_nodup|exact rhom_4_2_two]. Qed.
Lemma branch_6 : branch 6 body_tet_6_7_15_18.
Proof. split; [reflexivity|]. split; [exact exact_6|]. split; [exact body_tet_6_7_15_18_nodup|exact body_tet_6_7_15_18_two]. Qed.
Lemma branch_7 : branch 7 body_tet_6_7_15_18.
Proof. split; [reflexivity|]. split; [exact exact_7|]. split; [exact body_tet_6_7_15_18_nodup|exact body_tet_6_7_15_18_two]. Qed.
Lemma branch_8 : branch 8 body_ortho_8.
Proof. split; [reflexivity|]. split; [exact exact_8|]. split; [exact body_ortho_8_nodup|exact body_ortho_8_two]. Qed.
Lemma branch_9 : branch 9 rhom_9_24.
Proof. split; [reflexivity|]. split; [exact exact_9|]. split; [exact rhom_9_24_nodup|exact rhom_9_24_two]. Qed.
Lemma branch_10 : branch 10 base_mono_10_14_17_27_37_39_41.
Proof. split; [reflexivity|]. split; [exact exact_10|]. split; [exact base_mono_10_14_17_27_37_39_41_nodup|exact base_mono_10_14_17_27_37_39_41_two]. Qed.
Lemma branch_11 : branch 11 stet_11.
Proof. split; [reflexivity|]. split; [exact exact_11|]. split; [exact stet_11_nodup|exact stet_11_two]. Qed.
Lemma branch_12 : branch 12 hex_12.
Proof. split; [reflexivity|]. split; [exact exact_12|]. split; [exact hex_12_nodup|exact hex_12_two]. Qed.
Lemma branch_13 : branch 13 base_ortho_38_13.
Proof. split; [reflexivity|]. split; [exact exact_13|]. split; [exact base_ortho_38_13_nodup|exact base_ortho_38_13_two]. Qed.
Lemma branch_14 : branch 14 base_mono_10_14_17_27_37_39_41.
Proof. split; [reflexivity|]. split; [exact exact_14|]. split; [exact base_mono_10_14_17_27_37_39_41_nodup|exact base_mono_10_14_17_27_37_39_41_two]. Qed.
Lemma branch_15 : branch 15 body_tet_6_7_15_18.
Proof. split; [reflexivity|]. split; [exact exact_15|]. split; [exact body_tet_6_7_15_18_nodup|exact body_tet_6_7_15_18_two]. Qed.
Lemma branch_16 : branch 16 face_ortho_16.
Proof. split; [reflexivity|]. split; [exact exact_16|]. split; [exact face_ortho_16_nodup|exact face_ortho_16_two]. Qed.
Lemma branch_17 : branch 17 base_mono_10_14_17_27_37_39_41.
Proof. split; [reflexivity|]. split; [exact exact_17|]. split; [exact base_mono_10_14_17_27_37_39_41_nodup|exact base_mono_10_14_17_27_37_39_41_two]. Qed.
Lemma branch_18 : branch 18 body_tet_6_7_15_18.
Proof. split; [reflexivity|]. split; [exact exact_18|]. split; [exact body_tet_6_7_15_18_nodup|exact body_tet_6_7_15_18_two]. Qed.
Lemma branch_19 : branch 19 body_ortho_19.
Proof. split; [reflexivity|]. split; [exact exact_19|]. split; [exact body_ortho_19_nodup|exact body_ortho_19_two]. Qed.
Lemma branch_20 : branch 20 base_mono_20_25.
Proof. split; [reflexivity|]. split; [exact exact_20|]. split; [exact base_mono_20_25_nodup|exact base_mono_20_25_two]. Qed.
Lemma branch_21 : branch 21 stet_21.
Proof. split; [reflexivity|]. split; [exact exact_21|]. split; [exact stet_21_nodup|exact stet_21_two]. Qed.
Lemma branch_22 : branch 22 hex_22.
Proof. split; [reflexivity|]. split; [exact exact_22|]. split; [exact hex_22_nodup|exact hex_22_two]. Qed.
Lemma branch_23 : branch 23 base_ortho_23.
Proof. split; [reflexivity|]. split; [exact exact_23|]. split; [exact base_ortho_23_nodup|exact base_ortho_23_two]. Qed.
Lemma branch_24 : branch 24 rhom_9_24.
Proof. split; [reflexivity|]. split; [exact exact_24|]. split; [exact rhom_9_24_nodup|exact rhom_9_24_two]. Qed.
Lemma branch_25 : branch 25 base_mono_20_25.
Proof. split; [reflexivity|]. split; [exact exact_25|]. split; [exact base_mono_20_25_nodup|exact base_mono_20_25_two]. Qed.
Lemma branch_26 : branch 26 face_ortho_26.
Proof. split; [reflexivity|]. split; [exact exact_26|]. split; [exact face_ortho_26_nodup|exact face_ortho_26_two]. Qed.
Lemma branch_27 : branch 27 base_mono_10_14_17_27_37_39_41.
Proof. split; [reflexivity|]. split; [exact exact_27|]. split; [exact base_mono_10_14_17_27_37_39_41_nodup|exact base_mono_10_14_17_27_37_39_41_two]. Qed.
Lemma branch_28 : branch 28 base_mono_28.
Proof. split; [reflexivity|]. split; [exact exact_28|]. split; [exact base_mono_28_nodup|exact base_mono_28_two]. Qed.
Lemma branch_29 : branch 29 base_mono_29_30.
Proof. split; [reflexivity|]. split; [exact exact_29|]. split; [exact base_mono_29_30_nodup|exact base_mono_29_30_two]. Qed.
Lemma branch_30 : branch 30 base_mono_29_30.
Proof. split; [reflexivity|]. split; [exact exact_30|]. split; [exact base_mono_29_30_nodup|exact base_mono_29_30_two]. Qed.
Lemma branch_32 : branch 32 so_32.
Proof. split; [reflexivity|]. split; [exact exact_32|]. split; [exact so_32_nodup|exact so_32_two]. Qed.
Lemma branch_33 : branch 33 sm_33.
Proof. split; [reflexivity|]. split; [exact exact_33|]. split; [exact sm_33_nodup|exact sm_33_two]. Qed.
Lemma branch_34 : branch 34 sm_34.
Proof. split; [reflexivity|]. split; [exact exact_34|]. split; [exact sm_34_nodup|exact sm_34_two]. Qed.
Lemma branch_35 : branch 35 sm_35.
Proof. split; [reflexivity|]. split; [exact exact_35|]. split; [exact sm_35_nodup|exact sm_35_two]. Qed.
Lemma branch_36 : branch 36 base_ortho_36.
Proof. split; [reflexivity|]. split; [exact exact_36|]. split; [exact base_ortho_36_nodup|exact base_ortho_36_two]. Qed.
Lemma branch_37 : branch 37 base_mono_10_14_17_27_37_39_41.
Proof. split; [reflexivity|]. split; [exact exact_37|]. split; [exact base_mono_10_14_17_27_37_39_41_nodup|exact base_mono_10_14_17_27_37_39_41_two]. Qed.
Lemma branch_38 : branch 38 base_ortho_38_13.
Proof. split; [reflexivity|]. split; [exact exact_38|]. split; [exact base_ortho_38_13_nodup|exact base_ortho_38_13_two]. Qed.
Lemma branch_39 : branch 39 base_mono_10_14_17_27_37_39_41.
Proof. split; [reflexivity|]. split; [exact exact_39|]. split; [exact base_mono_10_14_17_27_37_39_41_nodup|exact base_mono_10_14_17_27_37_39_41_two]. Qed.
Lemma branch_40 : branch 40 base_ortho_40.
Proof. split; [reflexivity|]. split; [exact exact_40|]. split; [exact base_ortho_40_nodup|exact base_ortho_40_two]. Qed.
Lemma branch_41 : branch 41 base_mono_10_14_17_27_37_39_41.
Proof. split; [reflexivity|]. split; [exact exact_41|]. split; [exact base_mono_10_14_17_27_37_39_41_nodup|exact base_mono_10_14_17_27_37_39_41_two]. Qed.
Lemma branch_42 : branch 42 body_ortho_42.
Proof. split; [reflexivity|]. split; [exact exact_42|]. split; [exact body_ortho_42_nodup|exact body_ortho_42_two]. Qed.
Lemma branch_43 : branch 43 base_mono_43.
Proof. split; [reflexivity|]. split; [exact exact_43|]. split; [exact base_mono_43_nodup|exact base_mono_43_two]. Qed.

Definition other_numbers : list Z :=
  [2; 4; 6; 7; 8; 9; 10; 11; 12; 13; 14; 15; 16; 17; 18; 19; 20; 21; 22; 23; 24; 25; 26; 27; 28; 29; 30; 32; 33; 34; 35; 36; 37; 38; 39; 40; 41; 42; 43].

Lemma branch_exists k : In k other_numbers -> exists enum, branch k enum.
Proof.
  unfold other_numbers. cbn [In]. intros H.
  repeat destruct H as [<-|H]; [..|destruct H]; eexists;
  first [ exact branch_2
        | exact branch_4
        | exact branch_6
        | exact branch_7
        | exact branch_8
        | exact branch_9
        | exact branch_10
        | exact branch_11
        | exact branch_12
        | exact branch_13
        | exact branch_14
        | exact branch_15
        | exact branch_16
        | exact branch_17
        | exact branch_18
        | exact branch_19
        | exact branch_20
        | exact branch_21
        | exact branch_22
        | exact branch_23
        | exact branch_24
        | exact branch_25
        | exact branch_26
        | exact branch_27
        | exact branch_28
        | exact branch_29
        | exact branch_30
        | exact branch_32
        | exact branch_33
        | exact branch_34
        | exact branch_35
        | exact branch_36
        | exact branch_37
        | exact branch_38
        | exact branch_39
        | exact branch_40
        | exact branch_41
        | exact branch_42
        | exact branch_43 ].
Qed.

Lemma branch_basis k : In k lattice_numbers -> exists B enum,
  canonical_basis k = Some B /\ enumerates_for_basis B eps3 enum /\
  forall n m, select_hnfs k true [n] m = Some (enum n).
Proof.
  unfold lattice_numbers. cbn [In]. intros H.
  repeat destruct H as [<-|H]; [..|destruct H];
  (eexists; eexists; split; [reflexivity|]; split;
   [first [ exact exact_basis_1
        | exact exact_basis_2
        | exact exact_basis_3
        | exact exact_basis_4
        | exact exact_basis_5
        | exact exact_basis_6
        | exact exact_basis_7
        | exact exact_basis_8
        | exact exact_basis_9
        | exact exact_basis_10
        | exact exact_basis_11
        | exact exact_basis_12
        | exact exact_basis_13
        | exact exact_basis_14
        | exact exact_basis_15
        | exact exact_basis_16
        | exact exact_basis_17
        | exact exact_basis_18
        | exact exact_basis_19
        | exact exact_basis_20
        | exact exact_basis_21
        | exact exact_basis_22
        | exact exact_basis_23
        | exact exact_basis_24
        | exact exact_basis_25
        | exact exact_basis_26
        | exact exact_basis_27
        | exact exact_basis_28
        | exact exact_basis_29
        | exact exact_basis_30
        | exact exact_basis_32
        | exact exact_basis_33
        | exact exact_basis_34
        | exact exact_basis_35
        | exact exact_basis_36
        | exact exact_basis_37
        | exact exact_basis_38
        | exact exact_basis_39
        | exact exact_basis_40
        | exact exact_basis_41
        | exact exact_basis_42
        | exact exact_basis_43 ]
   |intros n m; unfold select_hnfs, collect_all, py_for;
    cbn [Z.eqb Pos.eqb z_in existsb orb]; rewrite ?collect_exact by lia;
    cbn [flat_map app]; now rewrite app_nil_r]).
Qed.

Lemma cubic_branch k : cubic k -> exists enum,
  (forall ex ns m, select_hnfs k ex ns m = Some (collect_all enum ns)) /\
  enumerates_exactly (gram_of k) enum /\ (forall n, NoDup (enum n)).
Proof.
  intros [-> | [-> | ->]].
  - exists fcc_1. split; [reflexivity|]. split; [exact exact_1|exact fcc_1_nodup].
  - exists sc_3. split; [reflexivity|]. split; [exact exact_3|exact sc_3_nodup].
  - exists bcc_5. split; [reflexivity|]. split; [exact exact_5|exact bcc_5_nodup].
Qed.

Lemma number_cases k : 1 <= k <= 44 -> cubic k \/ triclinic k \/ In k other_numbers.
Proof.
  intros H. unfold cubic, triclinic, other_numbers. cbn [In]. lia.
Qed.

Lemma other_not k : In k other_numbers -> ~ cubic k /\ ~ triclinic k.
Proof. unfold cubic, triclinic, other_numbers. cbn [In]. intros H. split; lia. Qed.

Lemma lattice_number_cases k : In k lattice_numbers <-> cubic k \/ In k other_numbers.
Proof. unfold cubic, other_numbers, lattice_numbers. cbn [In]. intuition lia. Qed.

(** C22 *)
Lemma exact_mode k n nb :
  In k lattice_numbers ->
  exists l, find_hnfs k n true nb = Some l /\ NoDup l /\
    forall H, In H l <-> 1 <= n /\ is_hnf n H /\ symmetry_preserving (gram_of k) H.
Proof.
  intros Hk. apply lattice_number_cases in Hk. unfold find_hnfs. cbn [negb].
  destruct Hk as [Hk|Hk].
  - destruct (cubic_branch k Hk) as (enum & E & HE & ND). exists (enum n).
    rewrite E. unfold collect_all, py_for. cbn [flat_map]. rewrite app_nil_r.
    split; [reflexivity|]. split; [apply ND|]. intros H. apply HE.
  - destruct (branch_exists k Hk) as (enum & E & HE & ND & _). exists (enum n).
    rewrite E, collect_exact by lia. cbn [flat_map app]. rewrite app_nil_r.
    split; [reflexivity|]. split; [apply ND|]. intros H. apply HE.
Qed.

Lemma mscale_1 H : mscale 1 H = H.
Proof. destruct H as [x1 x2 x3 y1 y2 y3 z1 z2 z3]. unfold mscale. cbn [m11 m12 m13 m21 m22 m23 m31 m32 m33]. f_equal; ring. Qed.

Lemma exact_mode_triclinic k n nb :
  triclinic k ->
  exists l, find_hnfs k n true nb = Some l /\ NoDup l /\ forall H, In H l <-> is_hnf n H.
Proof.
  intros Hk. exists (triclinic_hnfs 1 n). split; [|split].
  - destruct Hk as [-> | ->]; unfold find_hnfs; cbn [negb]; unfold select_hnfs, py_for;
      cbn [Z.eqb Pos.eqb z_in existsb orb flat_map]; now rewrite app_nil_r.
  - apply triclinic_nodup. lia.
  - intros H. rewrite triclinic_exact by lia. split.
    + intros (K & HK & ->). now rewrite mscale_1.
    + intros HH. exists H. now rewrite mscale_1.
Qed.

(** C23 *)
Lemma default_mode_other k kpd nb :
  In k other_numbers -> 1 <= kpd ->
  exists l, find_hnfs k kpd false nb = Some l /\ l <> [] /\
    (forall H, In H l -> kpd <= mdet H <= kpd + 10 /\ is_hnf (mdet H) H /\
                         symmetry_preserving (gram_of k) H) /\
    exists vs, (length vs <= 5)%nat /\ StronglySorted Z.lt vs /\
      (forall v, In v vs -> kpd <= v <= kpd + 10) /\
      forall H, In H l <-> exists v, In v vs /\ is_hnf v H /\ symmetry_preserving (gram_of k) H.
Proof.
  intros Hk Hp. destruct (other_not k Hk) as (N1 & N2).
  destruct (branch_exists k Hk) as (enum & E & HE & ND & HT).
  unfold find_hnfs. cbn [negb]. rewrite (find_volumes_other k kpd nb N1 N2).
  rewrite E, collect_default by lia. cbn [app]. change (Z.to_nat (5 - 0)) with 5%nat.
  set (vs := firstn 5 (filter (usable enum) (eleven kpd))).
  assert (V : forall v, In v vs -> kpd <= v <= kpd + 10 /\ usable enum v = true).
  { intros v Hv. assert (Hv' : In v (filter (usable enum) (eleven kpd))).
    { rewrite <- (firstn_skipn 5). apply in_or_app. now left. }
    apply filter_In in Hv'. destruct Hv' as (Hv' & U). split; [|exact U].
    unfold eleven in Hv'. cbn [In] in Hv'. lia. }
  assert (S : StronglySorted Z.lt vs).
  { assert (F : forall l, StronglySorted Z.lt l -> StronglySorted Z.lt (filter (usable enum) l)).
    { induction 1 as [|x l HS IH HF]; cbn [filter]; [constructor|].
      destruct (usable enum x); [|exact IH]. constructor; [exact IH|].
      rewrite Forall_forall in *. intros y Hy. apply filter_In in Hy. apply HF. tauto. }
    assert (G : forall n l, StronglySorted Z.lt l -> StronglySorted Z.lt (firstn n l)).
    { intros n l HS. revert n. induction HS as [|x l HS IH HF]; intros [|n]; cbn [firstn]; try constructor; [apply IH|].
      rewrite Forall_forall in *. intros y Hy. apply HF. rewrite <- (firstn_skipn n l). apply in_or_app; auto. }
    apply G, F. unfold eleven. repeat (constructor; [|repeat constructor; lia]). constructor. }
  assert (M : forall H, In H (flat_map enum vs) <->
     exists v, In v vs /\ is_hnf v H /\ symmetry_preserving (gram_of k) H).
  { intros H. rewrite in_flat_map. split.
    - intros (v & Hv & HH). apply HE in HH. exists v. tauto.
    - intros (v & Hv & HH & HS). exists v. split; [exact Hv|]. apply HE.
      destruct (V v Hv). repeat split; [lia|exact HH|exact HS]. }
  eexists. split; [reflexivity|]. split; [|split].
  - destruct (window_usable enum kpd HT Hp) as (n & Hn & Un).
    destruct vs as [|v vs'] eqn:Evs.
    + exfalso. assert (I : In n (filter (usable enum) (eleven kpd))).
      { apply filter_In. split; [|exact Un]. unfold eleven. cbn [In]. lia. }
      destruct (filter (usable enum) (eleven kpd)); [destruct I|]. subst vs. discriminate Evs.
    + cbn [flat_map]. destruct (V v (or_introl eq_refl)) as (_ & U).
      unfold usable in U. destruct (enum v); [discriminate U|]. discriminate.
  - intros H HH. apply M in HH. destruct HH as (v & Hv & HH & HS).
    destruct (is_hnf_det v H HH) as (D & _). rewrite D. destruct (V v Hv). tauto.
  - exists vs. split; [unfold vs; apply firstn_le_length|]. split; [exact S|].
    split; [intros v Hv; now apply V|exact M].
Qed.

Lemma default_mode_cubic k kpd nb :
  cubic k -> 1 <= kpd -> root_guess kpd nb ->
  exists x y z l, find_volumes k kpd nb = Some ([x; y; z], None) /\
    find_hnfs k kpd false nb = Some l /\ l <> [] /\ kpd <= x < y /\ y < z /\
    forall H, In H l <-> exists v, In v [x; y; z] /\ is_hnf v H /\
                                   symmetry_preserving (gram_of k) H.
Proof.
  intros Hk Hp HR. destruct (cubic_branch k Hk) as (enum & E & HE & ND).
  assert (V : exists x y z, find_volumes k kpd nb = Some ([x; y; z], None) /\
    kpd <= x /\ x < y /\ y < z /\ (exists H, is_hnf x H /\ symmetry_preserving (gram_of k) H)).
  { destruct (cubic_volumes_usable kpd nb Hp HR) as (A & B & C).
    destruct Hk as [-> | [-> | ->]];
      [destruct C as (x & y & z & F & H1 & H2 & H3 & H4 & _)
      |destruct A as (x & y & z & F & H1 & H2 & H3 & H4 & _)
      |destruct B as (x & y & z & F & H1 & H2 & H3 & H4 & _)];
      exists x, y, z; repeat (split; [assumption|]);
      apply nonempty_in in H4; destruct H4 as (H & H4);
      [apply exact_1 in H4|apply exact_3 in H4|apply exact_5 in H4]; exists H; tauto. }
  destruct V as (x & y & z & F & H1 & H2 & H3 & (H & H4 & H5)).
  exists x, y, z, (collect_all enum [x; y; z]). split; [exact F|].
  unfold find_hnfs. cbn [negb]. rewrite F, E. split; [reflexivity|].
  assert (M : forall H, In H (collect_all enum [x; y; z]) <->
    exists v, In v [x; y; z] /\ is_hnf v H /\ symmetry_preserving (gram_of k) H).
  { intros K. unfold collect_all. rewrite in_py_for. split.
    - intros (v & Hv & HH). apply HE in HH. exists v. tauto.
    - intros (v & Hv & HH & HS). exists v. split; [exact Hv|]. apply HE.
      split; [cbn [In] in Hv; lia|]. tauto. }
  split; [|split; [lia|split; [lia|exact M]]].
  apply nonempty_in. exists H. apply M. exists x. cbn [In]. tauto.
Qed.

Lemma default_mode_triclinic k kpd nb :
  triclinic k -> 1 <= kpd ->
  exists n m l, find_volumes k kpd nb = Some ([n], Some m) /\
    find_hnfs k kpd false nb = Some l /\ l <> [] /\ NoDup l /\
    forall K, In K l <-> exists H, is_hnf n H /\ K = mscale m H.
Proof.
  intros Hk Hp. destruct (find_volumes_tric k kpd nb Hk Hp) as (n & m & F & Hm & _ & _ & Hn & _).
  exists n, m, (triclinic_hnfs m n). split; [exact F|].
  assert (M : forall K, In K (triclinic_hnfs m n) <-> exists H, is_hnf n H /\ K = mscale m H)
    by (intros K; now apply triclinic_exact).
  split; [|split; [|split; [now apply triclinic_nodup|exact M]]].
  - unfold find_hnfs. cbn [negb]. rewrite F. destruct Hk as [-> | ->]; unfold select_hnfs, py_for;
      cbn [Z.eqb Pos.eqb z_in existsb orb flat_map]; now rewrite app_nil_r.
  - apply nonempty_in. exists (mscale m (HNF 1 0 1 0 0 n)). apply M.
    exists (HNF 1 0 1 0 0 n). split; [|reflexivity]. exists 1, 0, 1, 0, 0, n. repeat split; lia.
Qed.

(** C21 *)
Lemma all_handled k kpt exact nb :
  1 <= k <= 44 -> 1 <= kpt -> find_hnfs k kpt exact nb <> None.
Proof.
  intros Hk Hp. destruct (number_cases k Hk) as [C|[T|O]].
  - destruct (cubic_branch k C) as (enum & E & _).
    unfold find_hnfs. destruct exact; cbn [negb].
    + rewrite E. discriminate.
    + destruct C as [-> | [-> | ->]]; [rewrite find_volumes_1|rewrite find_volumes_35 by auto|rewrite find_volumes_35 by auto];
        rewrite E; discriminate.
  - destruct exact.
    + destruct (exact_mode_triclinic k kpt nb T) as (l & -> & _). discriminate.
    + destruct (default_mode_triclinic k kpt nb T Hp) as (? & ? & l & _ & -> & _). discriminate.
  - destruct exact.
    + destruct (exact_mode k kpt nb) as (l & -> & _); [|discriminate].
      apply lattice_number_cases. now right.
    + destruct (default_mode_other k kpt nb O Hp) as (l & -> & _). discriminate.
Qed.

Lemma others_rejected k exact ns m : ~ 1 <= k <= 44 -> select_hnfs k exact ns m = None.
Proof.
  intros Hk. unfold select_hnfs.
  repeat match goal with
  | |- (if ?b then _ else _) = None =>
      let E := fresh in destruct b eqn:E;
      [exfalso; unfold z_in in E; cbn [existsb] in E;
       repeat rewrite orb_true_iff in E; rewrite ?Z.eqb_eq in E; try discriminate; lia|]
  end. reflexivity.
Qed.
