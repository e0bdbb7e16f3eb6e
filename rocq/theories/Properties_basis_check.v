(** Properties C34, C35: sizes offered for the check of cubic cells; smallest prime factor. *)
From Coq Require Import ZArith List Znumtheory.
From Verif Require Import Model_basis_check Model_body_tet Proofs_basis_check.
Import ListNotations.
Open Scope Z_scope.

(** ** C34 Sizes for cubic cells *)
(** Both functions list, without repetition, the cubes of 0, ..., kmax-1 up to kmax. *)
Theorem C34_sc_bcc_partial : forall kmax, NoDup (sc_and_bcc_kps kmax) /\
  forall q, In q (sc_and_bcc_kps kmax) <-> exists k, 0 <= k < kmax /\ q = k ^ 3 /\ q <= kmax.
Proof. exact (fun kmax => conj (kps_loop_nodup _ kmax) (kps_cubes kmax)). Qed.
Print Assumptions C34_sc_bcc_partial.
Theorem C34_fcc_partial : forall kmax, NoDup (fcc_kps kmax) /\
  forall q, In q (fcc_kps kmax) <-> exists k, 0 <= k < kmax /\ q = k ^ 3 /\ q <= kmax.
Proof. exact (fun kmax => conj (kps_loop_nodup _ kmax) (kps_cubes kmax)). Qed.
Print Assumptions C34_fcc_partial.
(** The sizes 2k^3 and 4k^3 (4k^3 and 16k^3) are missing: no multiple of a cube by a number
    that is not a cube is ever listed, for instance. *)
Theorem C34_multiples_missing_refuted : forall kmax k, 1 <= k ->
  ~ In (2 * k ^ 3) (sc_and_bcc_kps kmax) /\ ~ In (4 * k ^ 3) (sc_and_bcc_kps kmax) /\
  ~ In (4 * k ^ 3) (fcc_kps kmax) /\ ~ In (16 * k ^ 3) (fcc_kps kmax).
Proof. exact kps_missing. Qed.
Print Assumptions C34_multiples_missing_refuted.
Example C34_example : sc_and_bcc_kps 30 = [0; 1; 8; 27] /\ fcc_kps 30 = [0; 1; 8; 27].
Proof. split; reflexivity. Qed.

(** ** C35 Smallest prime factor *)
Theorem C35_smallest_prime : forall a, 2 <= a ->
  exists p, smallest_prime a = Some p /\ prime p /\ (p | a) /\ forall q, prime q -> (q | a) -> p <= q.
Proof. exact smallest_prime_spec. Qed.
Print Assumptions C35_smallest_prime.
Example C35_example : smallest_prime 91 = Some 7 /\ smallest_prime 97 = Some 97.
Proof. split; reflexivity. Qed.
