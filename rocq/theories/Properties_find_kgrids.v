(** Properties C36, C37, C40, C41, C42, C49: the Fortran search of find_kgrids.f90. *)
From Coq Require Import ZArith List Sorted Qcanon Lia.
From Verif Require Import Mat3 Spec Spec_id Model_find_kgrids Spec_kgrids Proofs_kpd Proofs_search
  Proofs_offsets.
Import ListNotations.
Open Scope Z_scope.

(** ** C36 Densities tried for cubic lattices *)
(** Whatever the cube root: at most ten different sizes in increasing order, each at least
    [kpd] and a multiple of a cube by 1, 2, 4 (1, 4, 16); the other slots are 0. *)
Theorem C36_sorted_sizes_partial : forall lat_id kpd root, 1 <= kpd ->
  exists L : list Z, get_kpd_cubic lat_id kpd root = L ++ repeat 0 (10 - length L) /\
    (length L <= 10)%nat /\ StronglySorted Z.lt L /\
    forall x, In x L -> kpd <= x /\
      exists m b, In m (mults_of lat_id) /\ 1 <= b /\ x = m * b ^ 3.
Proof. exact kpd_cubic_sizes. Qed.
Print Assumptions C36_sorted_sizes_partial.
(** Up to 830583 k-points: exactly the ten smallest such sizes. *)
Theorem C36_ten_smallest_partial : forall lat_id kpd root,
  1 <= kpd <= 830583 -> root_approx kpd root ->
  exists L : list Z, get_kpd_cubic lat_id kpd root = L /\ length L = 10%nat /\
    StronglySorted Z.lt L /\
    (forall x, In x L -> kpd <= x /\
       exists m b, In m (mults_of lat_id) /\ 1 <= b /\ x = m * b ^ 3) /\
    (forall m b, In m (mults_of lat_id) -> 1 <= b -> kpd <= m * b ^ 3 ->
       In (m * b ^ 3) L \/ forall y, In y L -> y < m * b ^ 3).
Proof. exact kpd_cubic_ten. Qed.
Print Assumptions C36_ten_smallest_partial.
(** Above that the window of bases starts at a sixteenth of the cube root and is too short:
    the size k^3 itself is missed for every k >= 105. *)
Theorem C36_cube_missed_refuted : forall lat_id k root, 105 <= k -> k - 1 <= root <= k ->
  ~ In (k ^ 3) (get_kpd_cubic lat_id (k ^ 3) root).
Proof. exact kpd_cubic_misses. Qed.
Print Assumptions C36_cube_missed_refuted.
(** From 180^3 on nothing is found for simple and body-centred cubic lattices. *)
Theorem C36_nothing_refuted : forall lat_id kpd k root,
  lat_id <> 1 -> 180 <= k -> k ^ 3 <= kpd -> k - 1 <= root <= k ->
  get_kpd_cubic lat_id kpd root = repeat 0 10.
Proof. exact kpd_cubic_nothing. Qed.
Print Assumptions C36_nothing_refuted.
Example C36_example :
  get_kpd_cubic 3 1000 10 = [1000; 1024; 1331; 1372; 1458; 1728; 2000; 2048; 2197; 2662] /\
  get_kpd_cubic 1 1000 10 = [1000; 1024; 1331; 1372; 1728; 2000; 2048; 2197; 2744; 2916] /\
  root_approx 1000 10.
Proof.
  split; [vm_compute; reflexivity|]. split; [vm_compute; reflexivity|]. exists 10. lia.
Qed.

(** ** C37 Multiplier for triclinic lattices *)
(** The loop ends; the multiplier is the smallest one that brings the density to at most 100,
    and the density stays at least 1. *)
Theorem C37_least_multiplier : forall kpd, 1 <= kpd ->
  exists fuel0 mult, forall fuel, (fuel0 <= fuel)%nat ->
    get_kpd_tric fuel kpd = Some (kpd / mult ^ 3, mult) /\
    1 <= mult /\ 1 <= kpd / mult ^ 3 <= 100 /\
    forall t, 1 <= t < mult -> 100 < kpd / t ^ 3.
Proof. exact kpd_tric_spec. Qed.
Print Assumptions C37_least_multiplier.
Example C37_example : get_kpd_tric 10 5000 = Some (78, 4) /\ get_kpd_tric 10 801 = Some (100, 2).
Proof. split; reflexivity. Qed.

(** ** C40 Consistency of identification and point group *)
(** [check_sym] accepts exactly the size of the point group of the identified lattice type,
    and stops exactly for sizes that are no size of a holohedry. *)
Theorem C40_check_sym : forall k size, 1 <= k <= 44 ->
  (check_sym k size = Some true <->
     size = Z.of_nat (holohedry_order (family (character k)))) /\
  (check_sym k size = None <-> ~ In size [48; 24; 12; 16; 8; 4; 2]).
Proof. exact check_sym_spec. Qed.
Print Assumptions C40_check_sym.
Example C40_example : check_sym 3 48 = Some true /\ check_sym 11 48 = Some false /\
  check_sym 3 96 = None /\ holohedry_order (family (character 11)) = 16%nat.
Proof. repeat split; reflexivity. Qed.

(** ** C41 Offsets *)
(** The first offset is zero and all have components in [0, 1). *)
Theorem C41_starts_with_zero : forall equal k n1 n2 n3,
  (exists r, get_offsets equal k n1 n2 n3 = Vec3 0 0 0 :: r) /\
  forall s, In s (get_offsets equal k n1 n2 n3) -> unit_offset s.
Proof. exact offsets_zero_unit. Qed.
Print Assumptions C41_starts_with_zero.
(** No offset is listed twice unless the lattice is base-centred with a shortest third vector. *)
Theorem C41_distinct_partial : forall equal k n1 n2 n3,
  ~ In k base_centred \/ ~ ((n3 < n1)%Qc /\ (n3 < n2)%Qc) ->
  NoDup (get_offsets equal k n1 n2 n3).
Proof. exact offsets_nodup. Qed.
Print Assumptions C41_distinct_partial.
(** Inversion is kept unless the lattice is base-centred... *)
Theorem C41_inversion_partial : forall equal k n1 n2 n3 s, ~ In k base_centred ->
  In s (get_offsets equal k n1 n2 n3) -> offset_kept (mopp mid) s.
Proof. exact offsets_inversion. Qed.
Print Assumptions C41_inversion_partial.
(** ... so for triclinic lattices every symmetry is kept. *)
Theorem C41_triclinic_partial : forall equal k n1 n2 n3 s Gm, k = 31 \/ k = 44 ->
  (forall X, isometry Gm X -> X = mid \/ X = mopp mid) ->
  In s (get_offsets equal k n1 n2 n3) -> forall X, isometry Gm X -> offset_kept X s.
Proof. exact offsets_triclinic. Qed.
Print Assumptions C41_triclinic_partial.
(** Primitive orthorhombic and monoclinic grids, all of whose symmetries are changes of sign: the
    offsets listed are exactly those (in quarters) that every symmetry keeps. *)
Theorem C41_signs_partial : forall equal k n1 n2 n3 Gm s, In k [32; 33; 34; 35] ->
  (forall X, isometry Gm X -> signs X) ->
  In s (get_offsets equal k n1 n2 n3) <->
  unit_offset s /\ forall X, isometry Gm X -> offset_kept X s.
Proof. exact offsets_signs. Qed.
Print Assumptions C41_signs_partial.
Theorem C41_orthorhombic_partial : forall equal n1 n2 n3 a b c s, 0 < a -> 0 < b -> 0 < c ->
  a <> b -> a <> c -> b <> c ->
  In s (get_offsets equal 32 n1 n2 n3) <->
  unit_offset s /\ forall X, isometry (Mat3 a 0 0 0 b 0 0 0 c) X -> offset_kept X s.
Proof. exact ortho_offsets. Qed.
Print Assumptions C41_orthorhombic_partial.
(** The same for primitive tetragonal and hexagonal grids, whichever of the three vectors is the
    axis. *)
Theorem C41_tetragonal_partial : forall equal id n1 n2 n3 k A c s, In id [11; 21] ->
  In k [1; 2; 3] -> unique_axis equal n1 n2 n3 k -> 0 < A -> 0 < c -> A <> c ->
  In s (get_offsets equal id n1 n2 n3) <->
  unit_offset s /\ forall X, isometry (axis_gram k A 0 c) X -> offset_kept X s.
Proof. exact tetragonal_offsets. Qed.
Print Assumptions C41_tetragonal_partial.
Theorem C41_hexagonal_partial : forall equal id n1 n2 n3 k h B c s, In id [12; 22] ->
  In k [1; 2; 3] -> unique_axis equal n1 n2 n3 k -> 0 < h -> 0 < c -> Z.abs B = h ->
  In s (get_offsets equal id n1 n2 n3) <->
  unit_offset s /\ forall X, isometry (axis_gram k (2 * h) B c) X -> offset_kept X s.
Proof. exact hexagonal_offsets. Qed.
Print Assumptions C41_hexagonal_partial.
(** Base-centred lattices with a shortest third vector: rows 7 and 8 are the same. *)
Theorem C41_distinct_refuted : forall equal k n1 n2 n3, In k base_centred ->
  (n3 < n1)%Qc -> (n3 < n2)%Qc -> ~ NoDup (get_offsets equal k n1 n2 n3).
Proof. exact offsets_repeat. Qed.
Print Assumptions C41_distinct_refuted.
(** Cubic lattices: the offset (1/2, 0, 0) of a simple cubic grid is moved by a symmetry. *)
Theorem C41_symmetry_refuted : forall equal k n1 n2 n3, In k [1; 3; 5] ->
  exists s X, In s (get_offsets equal k n1 n2 n3) /\ isometry mid X /\ ~ offset_kept X s.
Proof. exact offsets_break_cubic. Qed.
Print Assumptions C41_symmetry_refuted.
(** Base-centred lattices with a unique shortest vector: an offset in quarters breaks even
    inversion, which every lattice has. *)
Theorem C41_inversion_refuted : forall equal k n1 n2 n3, In k base_centred ->
  (n1 < n2)%Qc -> (n1 < n3)%Qc ->
  exists s, In s (get_offsets equal k n1 n2 n3) /\ ~ offset_kept (mopp mid) s.
Proof. exact offsets_break_inversion. Qed.
Print Assumptions C41_inversion_refuted.
Example C41_example_axis :
  let equal x y := match Qccompare x y with Eq => true | _ => false end in
  unique_axis equal 1 (1 + 1)%Qc 1 2 /\
  get_offsets equal 11 1 (1 + 1)%Qc 1 = [Vec3 0 0 0; Vec3 0 2 0; Vec3 2 0 2; Vec3 2 2 2] /\
  axis_gram 2 1 0 4 = Mat3 1 0 0 0 4 0 0 0 1 /\
  get_offsets equal 12 1 1 (1 + 1)%Qc = [Vec3 0 0 0; Vec3 0 0 2] /\
  axis_gram 3 2 (-1) 5 = Mat3 2 (-1) 0 (-1) 2 0 0 0 5.
Proof. repeat split. Qed.
Example C41_example :
  length (get_offsets (fun _ _ => true) 3 1 1 1) = 8%nat /\
  get_offsets (fun _ _ => true) 44 1 1 1 = [Vec3 0 0 0; Vec3 2 2 2] /\
  offset_kept (mopp mid) (Vec3 2 2 2).
Proof. repeat split. exists (Vec3 (-1) (-1) (-1)). reflexivity. Qed.

(** ** C42 The search stays inside its arrays *)
(** Lattices that are neither cubic nor triclinic: after any number of iterations the loop has
    either ended with the candidates of the first N densities stored in the first slots, at
    least five of them and all N >= s_range densities tried, or it is still running because
    fewer than five candidates were found or fewer than s_range densities tried.  It never
    writes outside the arrays. *)
Theorem C42_general_loop : forall G (try : Z -> option (cand G)) s_range kpd fuel, 5 <= s_range ->
  (exists N, general try fuel s_range kpd =
       Slots (slots (Z.to_nat s_range) (successes try kpd N)) (length (successes try kpd N)) /\
     (5 <= length (successes try kpd N) <= Z.to_nat s_range)%nat /\ s_range <= Z.of_nat N /\
     forall n, (n < N)%nat -> (length (successes try kpd n) < 5)%nat \/ Z.of_nat n < s_range) \/
  (general try fuel s_range kpd =
       Running (slots (Z.to_nat s_range) (successes try kpd fuel))
         (length (successes try kpd fuel)) /\
     forall n, (n < fuel)%nat -> (length (successes try kpd n) < 5)%nat \/ Z.of_nat n < s_range).
Proof. exact @general_outcome. Qed.
Print Assumptions C42_general_loop.
(** It ends when five densities give a candidate. *)
Theorem C42_general_ends_partial : forall G (try : Z -> option (cand G)) s_range kpd N fuel,
  5 <= s_range -> (5 <= length (successes try kpd N))%nat ->
  (N < fuel)%nat -> s_range < Z.of_nat fuel ->
  exists a count, general try fuel s_range kpd = Slots a count.
Proof. exact @general_ends. Qed.
Print Assumptions C42_general_ends_partial.
(** Otherwise it never does. *)
Theorem C42_endless_refuted : forall G (try : Z -> option (cand G)) s_range kpd fuel, 5 <= s_range ->
  (forall n, (length (successes try kpd n) < 5)%nat) ->
  exists a count, general try fuel s_range kpd = Running a count.
Proof. exact @general_endless. Qed.
Print Assumptions C42_endless_refuted.
(** Triclinic lattices: the first density that gives a candidate is taken. *)
Theorem C42_triclinic_first : forall G (try : Z -> option (cand G)) n fuel kpd c,
  (forall i, (i < n)%nat -> try (kpd + Z.of_nat i) = None) -> try (kpd + Z.of_nat n) = Some c ->
  (n < fuel)%nat -> tric_search try fuel kpd = Slots [Some c] 1.
Proof. exact @tric_first. Qed.
Print Assumptions C42_triclinic_first.
(** Cubic lattices: in bounds when the first five densities give a candidate... *)
Theorem C42_cubic_partial : forall G (try : Z -> option (cand G))
    k1 k2 k3 k4 k5 r x1 x2 x3 x4 x5,
  try k1 = Some x1 -> try k2 = Some x2 -> try k3 = Some x3 -> try k4 = Some x4 ->
  try k5 = Some x5 ->
  cubic try (k1 :: k2 :: k3 :: k4 :: k5 :: r) = Slots (map Some [x1; x2; x3; x4; x5]) 5.
Proof. exact @cubic_five. Qed.
Print Assumptions C42_cubic_partial.
(** ... but when one of the first five does not and the sixth does, slot 6 of 5 is written. *)
Theorem C42_cubic_out_of_bounds_refuted : forall G (try : Z -> option (cand G))
    k1 k2 k3 k4 k5 k6 r x,
  In None [try k1; try k2; try k3; try k4; try k5] -> try k6 = Some x ->
  cubic try (k1 :: k2 :: k3 :: k4 :: k5 :: k6 :: r) = Out_of_bounds 5.
Proof. exact @cubic_out. Qed.
Print Assumptions C42_cubic_out_of_bounds_refuted.
(** Densities 3, 5, 7, ... give a candidate. *)
Definition odd_try (k : Z) : option (cand Z) := if Z.odd k then Some (Cand k (k - 1) k) else None.
Example C42_example :
  (exists a, general odd_try 100 10 2 = Slots a 5) /\
  cubic odd_try [1; 3; 4; 5; 7; 9; 11; 13; 15; 17] = Out_of_bounds 5 /\
  tric_search odd_try 100 4 = Slots [Some (Cand 5 4 5)] 1.
Proof. split; [eexists; reflexivity|]. split; reflexivity. Qed.

(** ** C49 The grid that is returned is the best one found *)
(** When the stored candidates fill the first slots of the arrays, the returned grid is one of
    them; it has the fewest irreducible k-points, or the smallest ratio of irreducible to all
    k-points when the density is above 500 and MIN_IRR_KPTS is not set. *)
Theorem C49_best : forall G min_kpts kpd (acc : list (cand G)) r,
  (forall c, In c acc -> 0 < c_irr c /\ 0 < c_tot c) -> acc <> [] ->
  exists c, select min_kpts kpd (map Some acc ++ repeat None r) (length acc) = Use (c_grid c) /\
    In c acc /\
    (min_kpts = true \/ kpd <= 500 -> forall d, In d acc -> c_irr c <= c_irr d) /\
    (min_kpts = false /\ 500 < kpd ->
       forall d, In d acc -> c_irr c * c_tot d <= c_irr d * c_tot c).
Proof. exact @select_best. Qed.
Print Assumptions C49_best.
(** Search and choice together, lattices neither cubic nor triclinic. *)
Theorem C49_general_partial : forall G (try : Z -> option (cand G)) min_kpts s_range kpd fuel a count,
  5 <= s_range -> (forall k c, try k = Some c -> 0 < c_irr c /\ 0 < c_tot c) ->
  general try fuel s_range kpd = Slots a count ->
  exists k c, kpd <= k /\ try k = Some c /\ select min_kpts kpd a count = Use (c_grid c) /\
    forall k' d, kpd <= k' < kpd + s_range -> try k' = Some d ->
      (min_kpts = true \/ kpd <= 500 -> c_irr c <= c_irr d) /\
      (min_kpts = false /\ 500 < kpd -> c_irr c * c_tot d <= c_irr d * c_tot c).
Proof. exact @general_best. Qed.
Print Assumptions C49_general_partial.
(** Cubic lattices can leave a hole: the first density gives nothing, the next four do, the
    last five do not; the slot that was never written is then read. *)
Theorem C49_hole_refuted : forall G (try : Z -> option (cand G)) kpd k1 k2 k3 k4 k5 r x2 x3 x4 x5,
  500 < kpd -> try k1 = None -> try k2 = Some x2 -> try k3 = Some x3 -> try k4 = Some x4 ->
  try k5 = Some x5 -> (forall k, In k r -> try k = None) ->
  exists a count, cubic try (k1 :: k2 :: k3 :: k4 :: k5 :: r) = Slots a count /\
    select false kpd a count = Unset.
Proof. exact @cubic_hole. Qed.
Print Assumptions C49_hole_refuted.
Example C49_example :
  let acc := [Cand 1 6 12; Cand 2 4 10; Cand 3 5 20] in
  select true 600 (map Some acc ++ repeat None 3) 3 = Use 2 /\
  select false 600 (map Some acc ++ repeat None 3) 3 = Use 3.
Proof. split; reflexivity. Qed.
