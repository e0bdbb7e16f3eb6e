(** A function computing cube roots as [Spec_grid.cube_root] asks. *)
From Coq Require Import ZArith QArith Qcanon Lia.
From Verif Require Import Mat3 QMat QNum QcTac Spec_grid Proofs_niggli_canon.
Open Scope Qc_scope.

Lemma zcube_lt a b : (0 <= a)%Z -> (a * a * a < b * b * b)%Z -> (a < b)%Z.
Proof.
  intros Ha H. destruct (Z.ltb_spec a b) as [L|L]; [exact L|]. exfalso.
  destruct (Z.leb_spec b 0).
  - assert (0 <= a * a * a)%Z by nia. assert (0 <= b * b)%Z by nia. nia.
  - assert (b * b <= a * a)%Z by nia. nia.
Qed.
Lemma iroot_spec f a b v : (0 <= a)%Z -> (a * a * a <= v < b * b * b)%Z -> (b - a <= 2 ^ Z.of_nat f)%Z ->
  (a <= iroot f a b v)%Z /\ (let r := iroot f a b v in r * r * r <= v < (r + 1) * (r + 1) * (r + 1))%Z.
Proof.
  revert a b. induction f as [|f IH]; intros a b Ha Hv Hf.
  - cbn [iroot]. cbn in Hf. pose proof (zcube_lt a b Ha (Z.le_lt_trans _ _ _ (proj1 Hv) (proj2 Hv))). assert (b = a + 1)%Z by lia. subst b. cbv zeta. lia.
  - cbn [iroot]. cbv zeta. rewrite Nat2Z.inj_succ, Z.pow_succ_r in Hf by lia.
    pose proof (Z.div_mod (a + b) 2 ltac:(lia)) as E. pose proof (Z.mod_pos_bound (a + b) 2 ltac:(lia)) as M.
    set (m := ((a + b) / 2)%Z) in *.
    pose proof (zcube_lt a b Ha (Z.le_lt_trans _ _ _ (proj1 Hv) (proj2 Hv))).
    destruct (Z.leb_spec (m * m * m) v) as [L|L].
    + destruct (IH m b ltac:(lia) ltac:(lia) ltac:(lia)) as (I1 & I2). split; [lia|exact I2].
    + destruct (IH a m ltac:(lia) ltac:(lia) ltac:(lia)) as (I1 & I2). split; [lia|exact I2].
Qed.

(** The cube root to four decimals at least. *)
Definition qcbrt (v : Qc) : Qc :=
  let n := (Qnum v * Zpos (Qden v) * Zpos (Qden v) * 10 ^ 12)%Z in
  Q2Qc (iroot (Z.to_nat (Z.log2_up (n + 1))) 0 (n + 1) n # (Qden v * 10000)).

Lemma qcbrt_root : cube_root qcbrt.
Proof.
  intros v Hv. unfold near_root, qcbrt. cbv zeta.
  destruct v as [[p q] Hc]. cbn [this Qnum Qden]. unfold Qclt in Hv. cbn [this] in Hv.
  unfold Qlt in Hv. cbn in Hv. rewrite Z.mul_1_r in Hv.
  set (n := (p * Zpos q * Zpos q * 10 ^ 12)%Z).
  assert (Hn : (10 ^ 12 <= n)%Z) by (unfold n; nia).
  destruct (iroot_spec (Z.to_nat (Z.log2_up (n + 1))) 0 (n + 1) n) as (I1 & I2 & I3);
    [lia|nia| |].
  { rewrite Z2Nat.id by apply Z.log2_up_nonneg.
    pose proof (Z.log2_up_spec (n + 1) ltac:(lia)). lia. }
  set (r := iroot _ _ _ _) in *. clearbody r.
  assert (Hr : (10000 <= r)%Z) by nia.
  assert (E : ((r # q * 10000) * (r # q * 10000) * (r # q * 10000) ==
               ((r * r * r) # (q * q * q * 1000000000000)))%Q).
  { unfold Qeq, Qmult. cbn [Qnum Qden]. rewrite !Pos2Z.inj_mul. ring. }
  assert (L1 : (998 * n <= 1000 * (r * r * r))%Z).
  { clear - I3 Hr. assert (10000 * r <= r * r)%Z by nia. assert (10000 * (r * r) <= r * r * r)%Z by nia. nia. }
  assert (L2 : (1000 * (r * r * r) <= 1002 * n)%Z) by lia.
  unfold qdec. change (10 ^ 3)%positive with 1000%positive. repeat split; qc2q.
  - unfold Qle. cbn. lia.
  - rewrite E. unfold Qle, Qmult. cbn [this Qnum Qden]. rewrite !Pos2Z.inj_mul.
    replace (998 * p * (Zpos q * Zpos q * Zpos q * 1000000000000))%Z with (998 * n * Zpos q)%Z
      by (unfold n; ring).
    clear - L1. nia.
  - rewrite E. unfold Qle, Qmult. cbn [this Qnum Qden]. rewrite !Pos2Z.inj_mul.
    replace (1002 * p * (Zpos q * Zpos q * Zpos q * 1000000000000))%Z with (1002 * n * Zpos q)%Z
      by (unfold n; ring).
    clear - L2. nia.
Qed.
