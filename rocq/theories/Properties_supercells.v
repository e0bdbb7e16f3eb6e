(** Properties C17-C23: candidate volumes and the HNFs used by [find_supercells].

    [nb] stands for [int(floor(nt**(1.0/3.0))-1)], the floating point cube root;
    [root_guess kpd nb] says that it is one or two below the integer cube root. *)
From Coq Require Import ZArith List Lia Bool Sorted.
From Verif Require Import Mat3 Spec PyNum Model_diag Model_universal Bases HnfTheory.
From Verif Require Import Model_sc Model_bcc Model_fcc.
From Verif Require Import Proofs_volumes Proofs_supercells Proofs_enum_extra.
Import ListNotations.
Open Scope Z_scope.

(** ** C17 Cubic volumes are usable *)
Theorem C17_cubic_volumes_usable : forall kpd nb,
  1 <= kpd -> root_guess kpd nb ->
  (exists x y z, find_volumes 3 kpd nb = Some ([x; y; z], None) /\
     kpd <= x /\ x < y /\ y < z /\ sc_3 x <> [] /\ sc_3 y <> [] /\ sc_3 z <> []) /\
  (exists x y z, find_volumes 5 kpd nb = Some ([x; y; z], None) /\
     kpd <= x /\ x < y /\ y < z /\ bcc_5 x <> [] /\ bcc_5 y <> [] /\ bcc_5 z <> []) /\
  (exists x y z, find_volumes 1 kpd nb = Some ([x; y; z], None) /\
     kpd <= x /\ x < y /\ y < z /\ fcc_1 x <> [] /\ fcc_1 y <> [] /\ fcc_1 z <> []).
Proof. exact cubic_volumes_usable. Qed.
Print Assumptions C17_cubic_volumes_usable.
Example C17_example : root_guess 1000 9 /\
  find_volumes 3 1000 9 = Some ([1000; 1331; 1458], None) /\
  find_volumes 1 1000 9 = Some ([1000; 1331; 1728], None).
Proof.
  split; [exists 10; lia|]. vm_compute. split; reflexivity.
Qed.

(** ** C18 Cubic volumes are the closest ones: false *)
Theorem C18_cubic_volumes_closest_refuted :
  exists kpd nb v l, 1 <= kpd /\ root_guess kpd nb /\
    find_volumes 3 kpd nb = Some (l, None) /\
    kpd <= v /\ sc_3 v <> [] /\ (forall x, In x l -> v < x).
Proof.
  exists 5833, 17, 6859, [9826; 11664; 19652]. split; [lia|].
  split; [exists 18; lia|]. split; [vm_compute; reflexivity|]. split; [lia|].
  split; [|cbn; lia]. apply Proofs_enum_extra.sc_3_nonempty. exists 19. lia.
Qed.
Print Assumptions C18_cubic_volumes_closest_refuted.

(** Not an isolated case: it happens just above every cube from 18^3 on. *)
Theorem C18_next_cube_missed_refuted : forall k nb,
  18 <= k -> k - 2 <= nb <= k - 1 ->
  exists x y z, find_volumes 3 (k ^ 3 + 1) nb = Some ([x; y; z], None) /\
    k ^ 3 + 1 <= (k + 1) ^ 3 < x.
Proof. exact cubic_volumes_miss. Qed.
Print Assumptions C18_next_cube_missed_refuted.

(** What does hold: the three smallest sizes among those built from a base of at least
    [nb] whose cube is below [kpd + 1000]. *)
Theorem C18_cubic_volumes_closest_partial : forall kpd nb,
  1 <= kpd -> root_guess kpd nb ->
  (forall k, k = 3 \/ k = 5 -> exists x y z, find_volumes k kpd nb = Some ([x; y; z], None) /\
     forall m b, In m [1; 2; 4] -> nb <= b -> b ^ 3 < kpd + 1000 -> kpd <= m * b ^ 3 ->
       In (m * b ^ 3) [x; y; z] \/ z < m * b ^ 3) /\
  (exists x y z, find_volumes 1 kpd nb = Some ([x; y; z], None) /\
     forall m b, In m [1; 4; 16] -> nb <= b -> b ^ 3 < kpd + 1000 -> kpd <= m * b ^ 3 ->
       In (m * b ^ 3) [x; y; z] \/ z < m * b ^ 3).
Proof. exact cubic_volumes_closest. Qed.
Print Assumptions C18_cubic_volumes_closest_partial.
Example C18_example : find_volumes 3 60 2 = Some ([64; 108; 125], None).
Proof. vm_compute. reflexivity. Qed.

(** ** C19 Triclinic volume and multiplier *)
Theorem C19_triclinic_volume : forall k kpd nb,
  triclinic k -> 1 <= kpd ->
  exists n m, find_volumes k kpd nb = Some ([n], Some m) /\
    1 <= m /\ kpd <= 100 * m ^ 3 /\ (forall s, 1 <= s < m -> 100 * s ^ 3 < kpd) /\
    1 <= n <= 100 /\ m ^ 3 * n <= kpd < m ^ 3 * n + m ^ 3.
Proof. exact find_volumes_tric. Qed.
Print Assumptions C19_triclinic_volume.
Example C19_example : find_volumes 44 5000 0 = Some ([78], Some 4).
Proof. vm_compute. reflexivity. Qed.

(** ** C20 Volumes for the other lattices *)
Theorem C20_other_volumes : forall k kpd nb,
  ~ cubic k -> ~ triclinic k ->
  find_volumes k kpd nb =
  Some ([kpd; kpd + 1; kpd + 2; kpd + 3; kpd + 4; kpd + 5; kpd + 6; kpd + 7; kpd + 8; kpd + 9;
         kpd + 10], None).
Proof. exact find_volumes_other. Qed.
Print Assumptions C20_other_volumes.
Example C20_example : find_volumes 12 20 0 =
  Some ([20; 21; 22; 23; 24; 25; 26; 27; 28; 29; 30], None).
Proof. reflexivity. Qed.

(** ** C21 Every identified lattice is handled *)
Theorem C21_all_handled : forall k kpt exact nb,
  1 <= k <= 44 -> 1 <= kpt -> find_hnfs k kpt exact nb <> None.
Proof. exact all_handled. Qed.
Print Assumptions C21_all_handled.
Theorem C21_others_rejected : forall k exact ns m,
  ~ 1 <= k <= 44 -> select_hnfs k exact ns m = None.
Proof. exact others_rejected. Qed.
Print Assumptions C21_others_rejected.
(** The enumerator used for number [k] is exact for the decimal basis of number [k]. *)
Theorem C21_right_enumerator : forall k, In k lattice_numbers -> exists B enum,
  canonical_basis k = Some B /\ enumerates_for_basis B eps3 enum /\
  forall n m, select_hnfs k true [n] m = Some (enum n).
Proof. exact branch_basis. Qed.
Print Assumptions C21_right_enumerator.
Example C21_example : select_hnfs 45 true [2] None = None /\
  select_hnfs 22 true [3] None = Some [HNF 1 0 1 0 2 3; HNF 3 0 1 0 0 1].
Proof. vm_compute. split; reflexivity. Qed.

(** ** C22 Exact mode returns everything *)
Theorem C22_exact_mode : forall k n nb, In k lattice_numbers ->
  exists l, find_hnfs k n true nb = Some l /\ NoDup l /\
    forall H, In H l <-> 1 <= n /\ is_hnf n H /\ symmetry_preserving (gram_of k) H.
Proof. exact exact_mode. Qed.
Print Assumptions C22_exact_mode.
Theorem C22_exact_mode_triclinic : forall k n nb, triclinic k ->
  exists l, find_hnfs k n true nb = Some l /\ NoDup l /\ forall H, In H l <-> is_hnf n H.
Proof. exact exact_mode_triclinic. Qed.
Print Assumptions C22_exact_mode_triclinic.
Example C22_example : find_hnfs 24 4 true 0 = Some [HNF 1 0 2 1 0 2; HNF 1 1 2 1 1 2].
Proof. vm_compute. reflexivity. Qed.

(** ** C23 Default mode returns something useful *)
Theorem C23_default_mode_other : forall k kpd nb,
  In k other_numbers -> 1 <= kpd ->
  exists l, find_hnfs k kpd false nb = Some l /\ l <> [] /\
    (forall H, In H l -> kpd <= mdet H <= kpd + 10 /\ is_hnf (mdet H) H /\
                         symmetry_preserving (gram_of k) H) /\
    exists vs, (length vs <= 5)%nat /\ StronglySorted Z.lt vs /\
      (forall v, In v vs -> kpd <= v <= kpd + 10) /\
      forall H, In H l <-> exists v, In v vs /\ is_hnf v H /\ symmetry_preserving (gram_of k) H.
Proof. exact default_mode_other. Qed.
Print Assumptions C23_default_mode_other.
Theorem C23_default_mode_cubic : forall k kpd nb,
  cubic k -> 1 <= kpd -> root_guess kpd nb ->
  exists x y z l, find_volumes k kpd nb = Some ([x; y; z], None) /\
    find_hnfs k kpd false nb = Some l /\ l <> [] /\ kpd <= x < y /\ y < z /\
    forall H, In H l <-> exists v, In v [x; y; z] /\ is_hnf v H /\
                                   symmetry_preserving (gram_of k) H.
Proof. exact default_mode_cubic. Qed.
Print Assumptions C23_default_mode_cubic.
Theorem C23_default_mode_triclinic : forall k kpd nb,
  triclinic k -> 1 <= kpd ->
  exists n m l, find_volumes k kpd nb = Some ([n], Some m) /\
    find_hnfs k kpd false nb = Some l /\ l <> [] /\ NoDup l /\
    forall K, In K l <-> exists H, is_hnf n H /\ K = mscale m H.
Proof. exact default_mode_triclinic. Qed.
Print Assumptions C23_default_mode_triclinic.
(** Every number with a canonical basis is covered. *)
Theorem C23_cases : forall k, 1 <= k <= 44 -> cubic k \/ triclinic k \/ In k other_numbers.
Proof. exact number_cases. Qed.
Print Assumptions C23_cases.
Example C23_example : exists l, find_hnfs 12 5 false 0 = Some l /\ length l = 13%nat.
Proof. eexists. split; vm_compute; reflexivity. Qed.
