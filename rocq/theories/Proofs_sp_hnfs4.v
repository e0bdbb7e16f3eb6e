(** Sizes of the work arrays of sp_hnfs.f90, and which enumerators find something. *)
From Coq Require Import ZArith List Lia Bool Permutation.
From Verif Require Import Mat3 Spec PyNum Model_diag PyNumFacts PointGroup Model_universal Bases HnfTheory
  Model_sp_hnfs FortFacts EnumTac Proofs_mono Proofs_ortho Proofs_tet Proofs_hex Proofs_cubic
  Proofs_nodup Proofs_enum_extra Proofs_sp_hnfs1 Proofs_sp_hnfs2 Proofs_sp_hnfs3.
Import ListNotations.
Open Scope Z_scope.

(** ** [tempDiag] has room for all diagonals *)

(** Two of the three factors, both at most [sqrt n], and which ones. *)
Definition diag_code (s : Z) (t : Z * Z * Z) : Z * Z * Z :=
  let '(i, j, k) := t in
  if i <=? s then if j <=? s then (0, i, j) else (1, i, k) else (2, j, k).

Definition code_space (s : Z) : list (Z * Z * Z) :=
  py_for (py_range 0 3 1) (fun t =>
  py_for (py_range 1 (s + 1) 1) (fun x =>
  py_for (py_range 1 (s + 1) 1) (fun y => (t, x, y) :: nil))).

Lemma length_range_1 hi : 0 <= hi -> Z.of_nat (length (py_range 1 (hi + 1) 1)) = hi.
Proof.
  intros H. unfold py_range. rewrite map_length, seq_length.
  replace (hi + 1 - 1 + 1 - 1) with hi by ring. rewrite Z.div_1_r. lia.
Qed.
Lemma length_code_space s : 0 <= s -> Z.of_nat (length (code_space s)) = 3 * (s * s).
Proof.
  intros Hs. unfold code_space.
  rewrite (length_py_for_const _ _
    (length (py_range 1 (s + 1) 1) * (length (py_range 1 (s + 1) 1) * 1))%nat).
  - rewrite !Nat2Z.inj_mul, !length_range_1, length_range1 by lia. lia.
  - intros t _. apply length_py_for_const. intros x _. apply length_py_for_const. reflexivity.
Qed.
Lemma in_code_space s t x y :
  In (t, x, y) (code_space s) <-> 0 <= t < 3 /\ 1 <= x <= s /\ 1 <= y <= s.
Proof.
  unfold code_space. rewrite in_py_for. split.
  - intros (t' & Ht & Hin). apply in_range1 in Ht.
    apply in_py_for in Hin. destruct Hin as (x' & Hx & Hin). apply in_py_range in Hx; [|lia].
    apply in_py_for in Hin. destruct Hin as (y' & Hy & Hin). apply in_py_range in Hy; [|lia].
    apply in_one in Hin. injection Hin as -> -> ->. lia.
  - intros (Ht & Hx & Hy). exists t. split; [now apply in_range1|].
    apply in_py_for. exists x. split; [apply in_py_range; [lia|]; split; [lia|apply Z.divide_1_l]|].
    apply in_py_for. exists y. split; [apply in_py_range; [lia|]; split; [lia|apply Z.divide_1_l]|].
    now apply in_one.
Qed.

Lemma big_factors n s i j k :
  n < (s + 1) * (s + 1) -> 0 <= s -> 1 <= j -> 1 <= k -> 1 <= i -> i * j * k = n -> s < i ->
  j * k <= s.
Proof. intros Hn Hs Hj Hk Hi E Hi'. assert (1 <= j * k) by nia. nia. Qed.
Lemma le_of_mul x y s : 1 <= x -> 1 <= y -> x * y <= s -> x <= s /\ y <= s.
Proof. intros; split; nia. Qed.

Lemma code_in n t : 1 <= n -> In t (get_HNF_diagonals n) ->
  In (diag_code (Z.sqrt n) t) (code_space (Z.sqrt n)).
Proof.
  intros Hn Hin. destruct t as [[i j] k]. apply in_diagonals in Hin.
  destruct Hin as (Hi & Hj & Hk & E).
  pose proof (Z.sqrt_spec n ltac:(lia)) as Hs. pose proof (Z.sqrt_nonneg n) as H0.
  set (s := Z.sqrt n) in *. unfold Z.succ in Hs. unfold diag_code.
  destruct (Z.leb_spec i s) as [Li|Li].
  - destruct (Z.leb_spec j s) as [Lj|Lj]; apply in_code_space.
    + lia.
    + destruct (le_of_mul i k s Hi Hk); [|lia].
      apply (big_factors n s j i k); lia.
  - apply in_code_space. destruct (le_of_mul j k s Hj Hk); [|lia].
    apply (big_factors n s i j k); lia.
Qed.

Lemma cancel_pos x y z : 1 <= x -> x * y = x * z -> y = z.
Proof. intros Hx E. apply (Z.mul_reg_l _ _ x); lia. Qed.

Lemma code_inj n t u : In t (get_HNF_diagonals n) -> In u (get_HNF_diagonals n) ->
  diag_code (Z.sqrt n) t = diag_code (Z.sqrt n) u -> t = u.
Proof.
  destruct t as [[i j] k]. destruct u as [[i' j'] k']. intros Ht Hu.
  apply in_diagonals in Ht, Hu. destruct Ht as (Hi & Hj & Hk & E).
  destruct Hu as (Hi' & Hj' & Hk' & E'). unfold diag_code.
  destruct (i <=? Z.sqrt n), (j <=? Z.sqrt n), (i' <=? Z.sqrt n), (j' <=? Z.sqrt n);
    intros EE; injection EE; clear EE; intros; try discriminate; subst.
  all: assert (P : 1 <= i' * j') by nia; assert (Q : 1 <= i' * k') by nia;
       assert (R : 1 <= j' * k') by nia; f_equal; try f_equal;
       first [ reflexivity
             | apply (cancel_pos (i' * j')); lia
             | apply (cancel_pos (i' * k')); lia
             | apply (cancel_pos (j' * k')); lia ].
Qed.

Lemma f_diagonals_fit n : 1 <= n ->
  Z.of_nat (length (f_diagonals n)) <= f_diagonals_room n.
Proof.
  intros Hn. rewrite f_diagonals_py. unfold f_diagonals_room.
  assert (L : (length (map (diag_code (Z.sqrt n)) (get_HNF_diagonals n)) <=
               length (code_space (Z.sqrt n)))%nat).
  { apply NoDup_incl_length.
    - assert (HI := code_inj n). pose proof (NoDup_diagonals n) as ND.
      revert HI ND. generalize (get_HNF_diagonals n). intros l HI ND.
      induction ND as [|t l Hnot ND IH]; cbn [map]; constructor.
      + intros Hin. apply in_map_iff in Hin. destruct Hin as (u & Eu & Hu).
        apply Hnot. replace t with u; [exact Hu|].
        apply HI; [now right|now left|exact Eu].
      + apply IH. intros t' u Ht Hu. apply HI; now right.
    - intros c Hc. apply in_map_iff in Hc. destruct Hc as (t & <- & Ht). now apply code_in. }
  rewrite map_length in L. apply Nat2Z.inj_le in L.
  pose proof (Z.sqrt_nonneg n). rewrite length_code_space in L by lia.
  pose proof (Z.sqrt_spec n ltac:(lia)) as SS. cbv zeta in SS. lia.
Qed.

(** ** [temp_HNFs] has room for all HNFs *)

Lemma mscale_1 H : mscale 1 H = H.
Proof.
  destruct H as [h1 h2 h3 h4 h5 h6 h7 h8 h9]. unfold mscale.
  cbn [m11 m12 m13 m21 m22 m23 m31 m32 m33]. rewrite !Z.mul_1_l. reflexivity.
Qed.

Lemma hnfs_fit n l : NoDup l -> (forall H, In H l -> is_hnf n H) ->
  Z.of_nat (length l) <= f_total_hnfs n.
Proof.
  intros ND HH. rewrite <- (triclinic_length 1). apply Nat2Z.inj_le.
  apply NoDup_incl_length; [exact ND|]. intros H Hin.
  apply triclinic_exact; [lia|]. exists H. split; [now apply HH|]. symmetry. apply mscale_1.
Qed.

Lemma correct_fit G B enum n : enumerator_correct G B enum -> 1 <= n ->
  Z.of_nat (length (enum n)) <= f_total_hnfs n.
Proof.
  intros (HE & _ & HO) Hn. apply hnfs_fit; [apply (HO n Hn)|].
  intros H Hin. apply HE in Hin. tauto.
Qed.

(** ** Every enumerator except the cubic ones finds something for every size *)

Lemma keeps_a X n : m12 X = 0 -> m13 X = 0 -> preserves X (HNF n 0 1 0 0 1).
Proof.
  destruct X as [x1 x2 x3 x4 x5 x6 x7 x8 x9]. cbn [m12 m13]. intros -> ->. pose proof I.
  pres_goal.
  - sol x1 (n * x4) (n * x7); ring.
  - sol 0 x5 x8; ring.
  - sol 0 x6 x9; ring.
Qed.
Lemma keeps_c X n : m21 X = 0 -> m23 X = 0 -> preserves X (HNF 1 0 n 0 0 1).
Proof.
  destruct X as [x1 x2 x3 x4 x5 x6 x7 x8 x9]. cbn [m21 m23]. intros -> ->.
  pres_goal.
  - sol x1 0 x7; ring.
  - sol (n * x2) x5 (n * x8); ring.
  - sol x3 0 x9; ring.
Qed.
Lemma keeps_f X n : m31 X = 0 -> m32 X = 0 -> preserves X (HNF 1 0 1 0 0 n).
Proof.
  destruct X as [x1 x2 x3 x4 x5 x6 x7 x8 x9]. cbn [m31 m32]. intros -> ->.
  pres_goal.
  - sol x1 x4 0; ring.
  - sol x2 x5 0; ring.
  - sol (n * x3) (n * x6) x9; ring.
Qed.

Lemma nonempty_gens gens enum n H :
  enumerates_gens gens enum -> is_hnf n H ->
  (forall g, In g gens -> preserves g H) -> enum n <> [].
Proof.
  intros HE HH HP E. assert (Hin : In H (enum n)) by (apply HE; auto). now rewrite E in Hin.
Qed.

Lemma hnf_a n : 1 <= n -> is_hnf n (HNF n 0 1 0 0 1).
Proof. intros Hn. exists n, 0, 1, 0, 0, 1. repeat split; lia. Qed.
Lemma hnf_c n : 1 <= n -> is_hnf n (HNF 1 0 n 0 0 1).
Proof. intros Hn. exists 1, 0, n, 0, 0, 1. repeat split; lia. Qed.
Lemma hnf_f n : 1 <= n -> is_hnf n (HNF 1 0 1 0 0 n).
Proof. intros Hn. exists 1, 0, 1, 0, 0, n. repeat split; lia. Qed.

Ltac ne_tac L hl kl :=
  intros Hn; eapply nonempty_gens; [apply L|apply hl; exact Hn|];
  let g := fresh "g" in let Hg := fresh "Hg" in
  intros g Hg; apply kl; cbn [In] in Hg;
  repeat (destruct Hg as [<-|Hg]; [reflexivity|]); destruct Hg.

Lemma f_hex_12_some n : 1 <= n -> f_hex_12 n <> [].
Proof. ne_tac f_hex_12_gens hnf_f keeps_f. Qed.
Lemma f_hex_22_some n : 1 <= n -> f_hex_22 n <> [].
Proof. ne_tac f_hex_22_gens hnf_a keeps_a. Qed.
Lemma f_st_11_some n : 1 <= n -> f_st_11 n <> [].
Proof. ne_tac f_st_11_gens hnf_f keeps_f. Qed.
Lemma f_st_21_some n : 1 <= n -> f_st_21 n <> [].
Proof. ne_tac f_st_21_gens hnf_a keeps_a. Qed.
Lemma f_bct_6_7_15_18_some n : 1 <= n -> f_bct_6_7_15_18 n <> [].
Proof. ne_tac f_bct_gens hnf_a keeps_a. Qed.
Lemma f_so_32_some n : 1 <= n -> f_so_32 n <> [].
Proof. ne_tac f_so_32_gens hnf_a keeps_a. Qed.
Lemma f_fco_26_some n : 1 <= n -> f_fco_26 n <> [].
Proof. ne_tac f_fco_26_gens hnf_a keeps_a. Qed.
Lemma f_fco_16_some n : 1 <= n -> f_fco_16 n <> [].
Proof. ne_tac f_fco_16_gens hnf_a keeps_a. Qed.
Lemma f_bco_19_some n : 1 <= n -> f_bco_19 n <> [].
Proof. ne_tac f_bco_19_gens hnf_a keeps_a. Qed.
Lemma f_bco_8_some n : 1 <= n -> f_bco_8 n <> [].
Proof. ne_tac f_bco_8_gens hnf_a keeps_a. Qed.
Lemma f_bco_42_some n : 1 <= n -> f_bco_42 n <> [].
Proof. ne_tac f_bco_42_gens hnf_a keeps_a. Qed.
Lemma f_baseco_38_13_some n : 1 <= n -> f_baseco_38_13 n <> [].
Proof. ne_tac f_baseco_38_13_gens hnf_f keeps_f. Qed.
Lemma f_baseco_23_some n : 1 <= n -> f_baseco_23 n <> [].
Proof. ne_tac f_baseco_23_gens hnf_c keeps_c. Qed.
Lemma f_baseco_40_some n : 1 <= n -> f_baseco_40 n <> [].
Proof. ne_tac f_baseco_40_gens hnf_a keeps_a. Qed.
Lemma f_baseco_36_some n : 1 <= n -> f_baseco_36 n <> [].
Proof. ne_tac f_baseco_36_gens hnf_c keeps_c. Qed.
Lemma f_sm_33_some n : 1 <= n -> f_sm_33 n <> [].
Proof. ne_tac f_sm_33_gens hnf_c keeps_c. Qed.
Lemma f_sm_34_35_some n : 1 <= n -> f_sm_34_35 n <> [].
Proof. ne_tac f_sm_34_35_gens hnf_f keeps_f. Qed.
Lemma f_basecm_10_14_17_27_37_39_41_some n : 1 <= n -> f_basecm_10_14_17_27_37_39_41 n <> [].
Proof. ne_tac f_basecm_10_gens hnf_a keeps_a. Qed.
Lemma f_basecm_20_25_some n : 1 <= n -> f_basecm_20_25 n <> [].
Proof. ne_tac f_basecm_20_25_gens hnf_a keeps_a. Qed.
Lemma f_basecm_28_some n : 1 <= n -> f_basecm_28 n <> [].
Proof. ne_tac f_basecm_28_gens hnf_a keeps_a. Qed.
Lemma f_basecm_29_30_some n : 1 <= n -> f_basecm_29_30 n <> [].
Proof. ne_tac f_basecm_29_30_gens hnf_a keeps_a. Qed.
Lemma f_basecm_43_some n : 1 <= n -> f_basecm_43 n <> [].
Proof. ne_tac f_basecm_43_gens hnf_a keeps_a. Qed.

(** Rhombohedral: the planes x + y + 2 z (x + y - 2 z) divisible by [n]. *)
Lemma f_rhom_9_24_some n : 1 <= n -> f_rhom_9_24 n <> [].
Proof.
  intros Hn. destruct (Z.Even_or_Odd n) as [(k & ->)|(k & ->)].
  - apply (nonempty_gens _ _ _ (HNF 1 1 2 (k - 1) (k - 1) k) f_rhom_9_24_gens).
    + exists 1, 1, 2, (k - 1), (k - 1), k. repeat split; lia.
    + intros g Hg. cbn [In] in Hg. destruct Hg as [<-|Hg]; [apply preserves_opp_id|].
      destruct Hg as [<-|[<-|[]]].
      * unfold X_bm20. pres_goal.
        -- sol 1 (-1) 1; ring.
        -- sol 0 (-1) 2; ring.
        -- sol 0 0 1; ring.
      * unfold X_r9. pres_goal.
        -- sol (1 - k) (k - 1) (-1); ring.
        -- sol (1 - k) k (-2); ring.
        -- sol (-k) k (-1); ring.
  - apply (nonempty_gens _ _ _ (HNF 1 0 1 k k (2 * k + 1)) f_rhom_9_24_gens).
    + exists 1, 0, 1, k, k, (2 * k + 1). repeat split; lia.
    + intros g Hg. cbn [In] in Hg. destruct Hg as [<-|Hg]; [apply preserves_opp_id|].
      destruct Hg as [<-|[<-|[]]].
      * unfold X_bm20. pres_goal.
        -- sol 1 0 0; ring.
        -- sol 0 (-1) 1; ring.
        -- sol 0 0 1; ring.
      * unfold X_r9. pres_goal.
        -- sol (-k) (k - 1) 0; ring.
        -- sol (-k) (1 + k) (-1); ring.
        -- sol (-2 * k - 1) (2 * k + 1) (-1); ring.
Qed.
Lemma mod_1_eq k : 1 <= k -> exists r, 0 <= r < k /\ exists j, r = 1 + j * k.
Proof.
  intros Hk. exists (1 mod k). split; [apply Z.mod_pos_bound; lia|].
  exists (- (1 / k)). pose proof (Z.div_mod 1 k). lia.
Qed.
Lemma f_rhom_4_2_some n : 1 <= n -> f_rhom_4_2 n <> [].
Proof.
  intros Hn. destruct (Z.Even_or_Odd n) as [(k & ->)|(k & ->)].
  - destruct (mod_1_eq k ltac:(lia)) as (r & Hr & j & Ej).
    apply (nonempty_gens _ _ _ (HNF 1 1 2 r r k) f_rhom_4_2_gens).
    + exists 1, 1, 2, r, r, k. repeat split; lia.
    + intros g Hg. cbn [In] in Hg. destruct Hg as [<-|Hg]; [apply preserves_opp_id|].
      destruct Hg as [<-|[<-|[]]].
      * unfold X_r4a. pres_goal.
        -- sol 1 (-1) j; rewrite Ej; ring.
        -- sol 0 (-1) (2 * j); rewrite Ej; ring.
        -- sol 0 0 1; ring.
      * unfold X_r4b. pres_goal.
        -- sol (- r) 0 (j * (r + 1)); rewrite Ej; ring.
        -- sol (- r) 1 (r * j); rewrite Ej; ring.
        -- sol (- k) 0 r; ring.
  - apply (nonempty_gens _ _ _ (HNF 1 0 1 ((k + 1) mod (2 * k + 1)) ((k + 1) mod (2 * k + 1)) (2 * k + 1)) f_rhom_4_2_gens).
    + pose proof (Z.mod_pos_bound (k + 1) (2 * k + 1)).
      exists 1, 0, 1, ((k + 1) mod (2 * k + 1)), ((k + 1) mod (2 * k + 1)), (2 * k + 1).
      repeat split; lia.
    + assert (Er : exists j, (k + 1) mod (2 * k + 1) = k + 1 + j * (2 * k + 1)).
      { exists (- ((k + 1) / (2 * k + 1))). pose proof (Z.div_mod (k + 1) (2 * k + 1)). lia. }
      destruct Er as (j & ->).
      intros g Hg. cbn [In] in Hg. destruct Hg as [<-|Hg]; [apply preserves_opp_id|].
      destruct Hg as [<-|[<-|[]]].
      * unfold X_r4a. pres_goal.
        -- sol 1 0 0; ring.
        -- sol 0 (-1) (1 + 2 * j); ring.
        -- sol 0 0 1; ring.
      * unfold X_r4b. pres_goal.
        -- sol (- (k + 1 + j * (2 * k + 1))) (-1 - (k + 1 + j * (2 * k + 1)))
             ((1 + 2 * j) * ((k + 1 + j * (2 * k + 1)) + 1)); ring.
        -- sol (- (k + 1 + j * (2 * k + 1))) (1 - (k + 1 + j * (2 * k + 1)))
             ((k + 1 + j * (2 * k + 1)) * (1 + 2 * j)); ring.
        -- sol (- (2 * k + 1)) (- (2 * k + 1)) (2 * (k + 1 + j * (2 * k + 1))); ring.
Qed.
