(** Properties C53, C54: find_grid of find_kgrids.f90 from the identified cell to the grid. *)
From Coq Require Import ZArith QArith Qcanon List.
From Verif Require Import Mat3 Spec QMat QNum Bases Spec_kgrids Model_transform Model_find_kgrids
  Model_grid_utils Model_find_grid Proofs_transform Proofs_niggli_id2 Proofs_find_grid3.
Import ListNotations.
Open Scope Z_scope.

(** In both properties the cell [U] was identified as number [k]: [U Cu] is the reduced cell,
    [O] the canonical cell of that number and [O Co] its reduced form.  The library is given by
    [mink] (Minkowski reduction: another basis of the same lattice), [irr1], [irr2] (number of
    irreducible k-points of a grid and an offset), [rmin] and [packed] (shortest vector, packing
    test) and [equal] (comparison with a tolerance). *)

(** ** C53 What find_grid returns *)
(** The grid contains the reciprocal lattice of the user's cell as a sublattice whose index is
    the number of k-points; it is mapped to itself by every symmetry of the cell; the offset is
    one of those allowed; there are at least [kpd] k-points, or for triclinic lattices
    [m^3 a] with [a >= kpd / m^3]. *)
Theorem C53_symmetric_grid : forall Off undefined mink rmin packed equal eps
    (irr1 irr2 : qmat -> Off -> option Z) offsets U O Cu Co k fuel s_range kpd root min_kpts g o,
  positive irr1 -> (qdet U <> 0)%Qc -> (qdet O <> 0)%Qc -> unimodular Cu -> unimodular Co ->
  1 <= k <= 44 ->
  (forall B, (qdet B <> 0)%Qc -> exists Y, unimodular Y /\ mink B = qmul B (qof Y)) ->
  (k <> 31 /\ k <> 44 /\ symmetries_within U Cu Co (gram_of k)) \/
  ((k = 31 \/ k = 44) /\
   forall X, qisometry (qgram (qmul U (qof Cu))) X -> X = mid \/ X = mopp mid) ->
  1 <= kpd ->
  find_grid (f_grid undefined (qmul O (qof Co)) (qmul U (qof Cu)) Co Cu O) mink rmin packed
    equal eps irr1 irr2 offsets fuel k s_range kpd root min_kpts = Found g o ->
  exists n s, kgrid n U g /\ keeps_symmetry U g /\ o = Some s /\ In s offsets /\
    (k <> 31 /\ k <> 44 -> kpd <= n) /\
    (k = 31 \/ k = 44 -> exists m a, 1 <= m /\ n = m ^ 3 * a /\ kpd / m ^ 3 <= a).
Proof. exact @fg_sound. Qed.
Print Assumptions C53_symmetric_grid.

(** ** C54 find_grid ends with a grid *)
(** Cubic lattices, up to 830583 k-points: always, if the library answers for every grid. *)
Theorem C54_cubic : forall Off undefined mink rmin packed equal eps
    (irr1 irr2 : qmat -> Off -> option Z) offsets U O Cu Co k,
  let grid_of := f_grid undefined (qmul O (qof Co)) (qmul U (qof Cu)) Co Cu O in
  positive irr1 -> 1 <= k <= 44 ->
  (forall H, mdet H <> 0 ->
     (exists s m, In s offsets /\ irr1 (mink (grid_of H)) s = Some m) /\
     (exists s m, In s offsets /\ irr1 (grid_of H) s = Some m)) ->
  forall fuel s_range kpd root min_kpts, In k [1; 3; 5] ->
  1 <= kpd <= 830583 -> root_approx kpd root ->
  exists g o, find_grid grid_of mink rmin packed equal eps irr1 irr2 offsets fuel k s_range kpd
    root min_kpts = Found g o.
Proof. exact @fg_ends_cubic. Qed.
Print Assumptions C54_cubic.
(** Triclinic lattices, if moreover every size has a grid that passes the packing test. *)
Theorem C54_triclinic : forall Off undefined mink rmin packed equal eps
    (irr1 irr2 : qmat -> Off -> option Z) offsets U O Cu Co k,
  let grid_of := f_grid undefined (qmul O (qof Co)) (qmul U (qof Cu)) Co Cu O in
  positive irr1 -> 1 <= k <= 44 ->
  (0 <= eps)%Qc -> (eps < 1)%Qc ->
  (forall t r, equal t r = true -> (t <= r + t * eps)%Qc) ->
  (forall H, mdet H <> 0 -> (0 < rmin (mink (grid_of H)))%Qc) ->
  (forall H, mdet H <> 0 ->
     (exists s m, In s offsets /\ irr1 (mink (grid_of H)) s = Some m) /\
     (exists s m, In s offsets /\ irr1 (grid_of H) s = Some m)) ->
  forall s_range kpd root min_kpts, k = 31 \/ k = 44 -> 1 <= kpd ->
  (forall n mult, 1 <= n -> 1 <= mult ->
     exists H, is_hnf n H /\ packed (mink (grid_of (mscale mult H))) = true) ->
  exists fuel1, forall fuel, (fuel1 <= fuel)%nat -> exists g o,
    find_grid grid_of mink rmin packed equal eps irr1 irr2 offsets fuel k s_range kpd
      root min_kpts = Found g o.
Proof. exact @fg_ends_tric. Qed.
Print Assumptions C54_triclinic.
(** The others: after at most max(21, s_range + 1) sizes, if every multiple of four among the
    first twenty sizes has a grid that passes the packing test. *)
Theorem C54_general : forall Off undefined mink rmin packed equal eps
    (irr1 irr2 : qmat -> Off -> option Z) offsets U O Cu Co k,
  let grid_of := f_grid undefined (qmul O (qof Co)) (qmul U (qof Cu)) Co Cu O in
  positive irr1 -> 1 <= k <= 44 ->
  (0 <= eps)%Qc -> (eps < 1)%Qc ->
  (forall t r, equal t r = true -> (t <= r + t * eps)%Qc) ->
  (forall H, mdet H <> 0 -> (0 < rmin (mink (grid_of H)))%Qc) ->
  (forall H, mdet H <> 0 ->
     (exists s m, In s offsets /\ irr1 (mink (grid_of H)) s = Some m) /\
     (exists s m, In s offsets /\ irr1 (grid_of H) s = Some m)) ->
  forall fuel s_range kpd root min_kpts enum, 1 <= kpd -> 5 <= s_range ->
  f_enumerator k = Some enum ->
  (forall n, kpd <= n < kpd + 20 -> (4 | n) ->
     exists H, In H (enum n) /\ packed (mink (grid_of H)) = true) ->
  (20 < fuel)%nat -> s_range < Z.of_nat fuel ->
  exists g o, find_grid grid_of mink rmin packed equal eps irr1 irr2 offsets fuel k s_range kpd
    root min_kpts = Found g o.
Proof. exact @fg_ends_general. Qed.
Print Assumptions C54_general.

(** A cubic cell with edge 1 and a tetragonal one with edges 1, 1, 2; every grid is accepted. *)
Definition entries (A : qmat) : list Q :=
  map this [q11 A; q12 A; q13 A; q21 A; q22 A; q23 A; q31 A; q32 A; q33 A].
Definition any_grid (U : qmat) (k kpd root : Z) : option (list Q * option Z) :=
  match find_grid (f_grid (fun _ => U) U U mid mid U) (fun B => B) (fun _ => 1%Qc) (fun _ => true)
          qeqb 0%Qc (fun _ o => Some (o + 1)) (fun _ _ => None) [0; 1] 100 k 10 kpd root false with
  | Found g o => Some (entries g, o)
  | _ => None
  end.
Example C53_example :
  any_grid qid 3 7 1 =
    Some ([1 # 2; 0 # 1; 0 # 1; 0 # 1; 1 # 2; 0 # 1; 0 # 1; 0 # 1; 1 # 2]%Q, Some 0) /\
  any_grid (QMat 1 0 0 0 1 0 0 0 (zq 2)) 11 3 1 =
    Some ([1 # 1; 0 # 1; 0 # 1; 0 # 1; 1 # 1; 0 # 1; 0 # 1; 0 # 1; 1 # 8]%Q, Some 0) /\
  symmetries_within qid mid mid (gram_of 3).
Proof.
  split; [vm_compute; reflexivity|]. split; [vm_compute; reflexivity|].
  intros X HX. change (mmul (mtr mid) (mmul (gram_of 3) mid)) with (gram_of 3).
  refine (proj1 (qisometry_scaled 1 _ (gram_of 3) X _ _) HX); [discriminate|].
  change (gram_of 3) with mid. unfold qgram. rewrite qof_id, !qmul_id_l.
  unfold qscale, qid. cbn [q11 q12 q13 q21 q22 q23 q31 q32 q33].
  change (zq 1) with 1%Qc. f_equal; ring.
Qed.
