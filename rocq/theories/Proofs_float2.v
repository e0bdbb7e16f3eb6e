(** Rounding to the nearest double. *)
From Coq Require Import ZArith QArith Qabs Qround Qreduction Qpower Lqa Lia.
From Coq Require Import List Bool.
From Verif Require Import Mat3 Spec PyNum PyNumFacts Model_diag Model_bcc Model_universal Bases Proofs_supercells Model_float Spec_float Proofs_float.
Import ListNotations.
Open Scope Z_scope.

Local Notation p2 := (Qpower 2).
Lemma two_nz : ~ (2 == 0)%Q. Proof. discriminate. Qed.
Lemma p2_pos e : (0 < p2 e)%Q. Proof. apply Qpower_0_lt. reflexivity. Qed.
Lemma p2_add a b : (p2 (a + b) == p2 a * p2 b)%Q. Proof. apply Qpower_plus, two_nz. Qed.
Lemma p2_z e : 0 <= e -> (p2 e == inject_Z (2 ^ e))%Q.
Proof. intros H. symmetry. apply (Zpower_Qpower 2 e H). Qed.
Lemma p2_le a b : a <= b -> (p2 a <= p2 b)%Q.
Proof.
  intros H. replace b with (a + (b - a)) by ring. rewrite p2_add, (p2_z (b - a)) by lia.
  pose proof (p2_pos a). assert (H1 : (1 <= inject_Z (2 ^ (b - a)))%Q).
  { apply (iz_le 1). pose proof (Z.pow_pos_nonneg 2 (b - a)). lia. }
  setoid_replace (p2 a) with (1 * p2 a)%Q at 1 by ring. rewrite (Qmult_comm (p2 a)).
  apply Qmult_le_compat_r; lra.
Qed.
Lemma p2_lt a b : (p2 a < p2 b)%Q -> a < b.
Proof. intros H. destruct (Z.lt_ge_cases a b) as [K|K]; [exact K|]. apply p2_le in K. lra. Qed.
(** Doubles with one more digit. *)
Lemma is_double_le m e : Z.abs m <= 2 ^ 53 -> -1074 <= e <= 970 -> is_double (inject_Z m * p2 e).
Proof.
  intros Hm He. destruct (Z.eq_dec (Z.abs m) (2 ^ 53)) as [E|E].
  - exists (Z.sgn m * 2 ^ 52), (e + 1). split; [|split; [lia|]].
    + destruct m; cbn in *; lia.
    + rewrite p2_add. change (p2 1) with 2%Q.
      assert (Em : m = Z.sgn m * 2 ^ 52 * 2) by (destruct m; cbn in *; lia).
      rewrite Em at 1. rewrite (iz_mul _ 2). change (inject_Z 2) with 2%Q. ring.
  - exists m, e. split; [lia|]. split; [lia|reflexivity].
Qed.
(** The nearest integer. *)
Lemma floor_half x : (Qabs (inject_Z (Qfloor (x + (1 # 2))) - x) <= 1 # 2)%Q.
Proof.
  pose proof (Qfloor_le (x + (1 # 2))) as H1. pose proof (Qlt_floor (x + (1 # 2))) as H2.
  rewrite iz_add in H2. change (inject_Z 1) with 1%Q in H2. apply Qabs_Qle_condition. split; lra.
Qed.
Lemma nearest_int x j : (Qabs (inject_Z (Qfloor (x + (1 # 2))) - x) <= Qabs (inject_Z j - x))%Q.
Proof.
  pose proof (floor_half x) as H. set (n := Qfloor (x + (1 # 2))) in *.
  destruct (Z.eq_dec j n) as [->|N]; [apply Qle_refl|].
  assert (G : (1 <= Qabs (inject_Z j - inject_Z n))%Q).
  { setoid_replace (inject_Z j - inject_Z n)%Q with (inject_Z (j - n)).
    - rewrite iz_abs. apply (iz_le 1). lia.
    - unfold Z.sub. rewrite iz_add, inject_Z_opp. reflexivity. }
  assert (Tr : (Qabs (inject_Z j - inject_Z n) <= Qabs (inject_Z j - x) + Qabs (inject_Z n - x))%Q).
  { setoid_replace (inject_Z j - inject_Z n)%Q with ((inject_Z j - x) + - (inject_Z n - x))%Q by ring.
    eapply Qle_trans; [apply Qabs_triangle|]. rewrite Qabs_opp. apply Qle_refl. }
  lra.
Qed.
(** The place of the first digit. *)
Lemma ilog2_spec x : (0 < x)%Q -> (p2 (ilog2 x) <= x)%Q /\ (x < p2 (ilog2 x + 1))%Q.
Proof.
  destruct x as (p, q). intros Hx. assert (Hp : 0 < p) by (unfold Qlt in Hx; cbn in Hx; lia).
  unfold ilog2. cbn [Qnum Qden]. set (k := Z.log2 p - Z.log2 (Z.pos q)).
  destruct (Z.log2_spec p Hp) as (P1 & P2). destruct (Z.log2_spec (Z.pos q) eq_refl) as (Q1 & Q2).
  pose proof (Z.log2_nonneg p) as N1. pose proof (Z.log2_nonneg (Z.pos q)) as N2.
  apply iz_le in P1, Q1. assert (P3 : (inject_Z p < inject_Z (2 ^ Z.succ (Z.log2 p)))%Q) by (rewrite <- Zlt_Qlt; exact P2).
  assert (Q3 : (inject_Z (Z.pos q) < inject_Z (2 ^ Z.succ (Z.log2 (Z.pos q))))%Q) by (rewrite <- Zlt_Qlt; exact Q2).
  rewrite <- p2_z in P1, Q1, P3, Q3 by lia.
  assert (E : (p # q == inject_Z p / inject_Z (Z.pos q))%Q) by apply Qmake_Qdiv.
  assert (Qp : (0 < inject_Z (Z.pos q))%Q) by reflexivity.
  assert (Up : (p # q < p2 (k + 1))%Q).
  { rewrite E. apply Qlt_shift_div_r; [exact Qp|]. eapply Qlt_le_trans; [exact P3|].
    replace (Z.succ (Z.log2 p)) with (k + 1 + Z.log2 (Z.pos q)) by (unfold k; lia). rewrite p2_add.
    rewrite !(Qmult_comm (p2 (k + 1))). apply Qmult_le_compat_r; [exact Q1|]. pose proof (p2_pos (k + 1)); lra. }
  assert (Lo : (p2 (k - 1) <= p # q)%Q).
  { rewrite E. apply Qle_shift_div_l; [exact Qp|]. eapply Qle_trans; [|exact P1].
    replace (Z.log2 p) with (k - 1 + Z.succ (Z.log2 (Z.pos q))) by (unfold k; lia). rewrite p2_add.
    rewrite !(Qmult_comm (p2 (k - 1))). apply Qmult_le_compat_r; [lra|]. pose proof (p2_pos (k - 1)); lra. }
  destruct (Qle_bool (p2 k) (p # q)) eqn:C.
  - apply Qle_bool_iff in C. split; assumption.
  - split; [exact Lo|]. replace (k - 1 + 1) with k by ring. apply Qnot_le_lt. intros K. apply Qle_bool_iff in K. congruence.
Qed.

(** Every function that goes to a nearest double fulfils what the proofs use. *)
Lemma exists_close x : (Qabs x <= inject_Z (2 ^ 900))%Q ->
  exists y, is_double y /\ (Qabs (y - x) * inject_Z (2 ^ 53) <= Qabs x + 1)%Q.
Proof.
  intros Hx. set (k := if Qlt_le_dec (Qabs x) 1 then 0 else ilog2 (Qabs x)).
  assert (K : 0 <= k <= 900 /\ (Qabs x < p2 (k + 1))%Q /\ (p2 k <= Qabs x + 1)%Q).
  { unfold k. pose proof (Qabs_nonneg x) as Nx. destruct (Qlt_le_dec (Qabs x) 1) as [L|L].
    - split; [lia|]. split; [change (p2 (0 + 1)) with 2%Q; lra|]. change (p2 0) with 1%Q. lra.
    - destruct (ilog2_spec (Qabs x) ltac:(lra)) as (I1 & I2). split; [|split; [exact I2|lra]].
      assert (0 < ilog2 (Qabs x) + 1) by (apply p2_lt; change (p2 0) with 1%Q; lra).
      assert (ilog2 (Qabs x) < 901); [|lia]. apply p2_lt. rewrite (p2_z 901) by lia.
      assert ((inject_Z (2 ^ 900) < inject_Z (2 ^ 901))%Q) by (rewrite <- Zlt_Qlt; reflexivity). lra. }
  destruct K as (K0 & K1 & K2). set (e := k - 52). set (m := Qfloor (x / p2 e + (1 # 2))).
  pose proof (p2_pos e) as Pe. assert (Pn : ~ (p2 e == 0)%Q) by lra.
  exists (inject_Z m * p2 e)%Q.
  assert (Fm : (Qabs (inject_Z m - x / p2 e) <= 1 # 2)%Q) by apply floor_half.
  assert (Bx : (Qabs (x / p2 e) < inject_Z (2 ^ 53))%Q).
  { rewrite <- p2_z by lia. unfold Qdiv. rewrite Qabs_Qmult, (Qabs_pos (/ p2 e)) by (apply Qinv_le_0_compat; lra).
    apply Qlt_shift_div_r; [exact Pe|]. rewrite <- p2_add. replace (53 + e) with (k + 1) by (unfold e; lia). exact K1. }
  split.
  - apply is_double_le; [|unfold e; lia].
    assert (G : (inject_Z (Z.abs m) < inject_Z (2 ^ 53 + 1))%Q).
    { rewrite <- iz_abs, iz_add. change (inject_Z 1) with 1%Q.
      setoid_replace (inject_Z m) with (x / p2 e + (inject_Z m - x / p2 e))%Q by ring.
      pose proof (Qabs_triangle (x / p2 e) (inject_Z m - x / p2 e)). lra. }
    rewrite <- Zlt_Qlt in G. lia.
  - setoid_replace (inject_Z m * p2 e - x)%Q with ((inject_Z m - x / p2 e) * p2 e)%Q by (field; exact Pn).
    rewrite Qabs_Qmult, (Qabs_pos (p2 e)) by lra. rewrite <- p2_z by lia.
    setoid_replace (Qabs (inject_Z m - x / p2 e) * p2 e * p2 53)%Q with (Qabs (inject_Z m - x / p2 e) * (p2 (k + 1)))%Q.
    + rewrite p2_add. change (p2 1) with 2%Q. pose proof (p2_pos k).
      assert (Qabs (inject_Z m - x / p2 e) * (p2 k * 2) <= (1 # 2) * (p2 k * 2))%Q by (apply Qmult_le_compat_r; lra). lra.
    + rewrite <- Qmult_assoc, <- p2_add. replace (e + 53) with (k + 1) by (unfold e; lia). reflexivity.
Qed.
Lemma nearest_like_double rnd : rounds_to_nearest rnd -> like_double rnd.
Proof.
  intros (Pr & N). split; [exact Pr|]. split.
  - intros z Hz.
    assert (Bz : (Qabs (inject_Z z) <= inject_Z (2 ^ 900))%Q).
    { rewrite iz_abs. apply iz_le. eapply Z.le_trans; [exact Hz|]. apply Z.pow_le_mono_r; lia. }
    destruct (N _ Bz) as (_ & C). specialize (C (inject_Z z)).
    assert (D : is_double (inject_Z z)).
    { pose proof (is_double_le z 0 Hz ltac:(lia)) as (m & e & A & B & E). exists m, e. split; [exact A|]. split; [exact B|].
      rewrite <- E. change (p2 0) with 1%Q. ring. }
    specialize (C D). setoid_replace (inject_Z z - inject_Z z)%Q with 0%Q in C by ring. change (Qabs 0) with 0%Q in C.
    apply Qabs_Qle_condition in C. lra.
  - intros x Hx. destruct (exists_close x Hx) as (y & Dy & Cy). destruct (N x Hx) as (_ & C). specialize (C y Dy).
    eapply Qle_trans; [|exact Cy]. apply Qmult_le_compat_r; [exact C|]. apply (iz_le 0). discriminate.
Qed.

(** ** There is such a function *)
Lemma round64_proper x y : (x == y)%Q -> (round64 x == round64 y)%Q.
Proof. intros H. unfold round64. rewrite (Qred_complete x y H). reflexivity. Qed.
Lemma round64_nearest : rounds_to_nearest round64.
Proof.
  split; [exact round64_proper|]. intros x0 Hx0.
  assert (Ex : (Qred x0 == x0)%Q) by apply Qred_correct.
  enough (G : is_double (round64 x0) /\ forall y, is_double y -> (Qabs (round64 x0 - Qred x0) <= Qabs (y - Qred x0))%Q).
  { destruct G as (G1 & G2). split; [exact G1|]. intros y Hy. specialize (G2 y Hy). rewrite Ex in G2. exact G2. }
  unfold round64. set (x := Qred x0) in *. rewrite <- Ex in Hx0. clearbody x. clear x0 Ex.
  destruct (Qeq_bool x 0) eqn:E0.
  - apply Qeq_bool_iff in E0. split.
    + exists 0, 0. split; [lia|]. split; [lia|]. reflexivity.
    + intros y _. rewrite E0. change (Qabs (0 - 0)) with 0%Q. apply Qabs_nonneg.
  - assert (Nx : ~ (x == 0)%Q) by (intros K; apply Qeq_bool_iff in K; congruence).
    assert (Px : (0 < Qabs x)%Q).
    { destruct (Qlt_le_dec 0 (Qabs x)) as [L|L]; [exact L|]. exfalso. apply Nx.
      pose proof (Qabs_nonneg x). apply Qabs_Qle_condition in L. lra. }
    destruct (ilog2_spec (Qabs x) Px) as (I1 & I2). set (l := ilog2 (Qabs x)) in *. clearbody l.
    set (e := Z.max (-1074) (l - 52)). set (m := Qfloor (x / p2 e + (1 # 2))).
    pose proof (p2_pos e) as Pe. assert (Pn : ~ (p2 e == 0)%Q) by lra.
    assert (Ll : l <= 900).
    { assert (l < 901); [|lia]. apply p2_lt. rewrite (p2_z 901) by lia.
      assert ((inject_Z (2 ^ 900) < inject_Z (2 ^ 901))%Q) by (rewrite <- Zlt_Qlt; reflexivity). lra. }
    assert (Fm : (Qabs (inject_Z m - x / p2 e) <= 1 # 2)%Q) by apply floor_half.
    assert (Bx : (Qabs (x / p2 e) < inject_Z (2 ^ 53))%Q).
    { rewrite <- p2_z by lia. unfold Qdiv. rewrite Qabs_Qmult, (Qabs_pos (/ p2 e)) by (apply Qinv_le_0_compat; lra).
      apply Qlt_shift_div_r; [exact Pe|]. rewrite <- p2_add. eapply Qlt_le_trans; [exact I2|]. apply p2_le. unfold e. lia. }
    assert (Near : forall j, (Qabs (inject_Z m * p2 e - x) <= Qabs (inject_Z j * p2 e - x))%Q).
    { intros j.
      setoid_replace (inject_Z m * p2 e - x)%Q with ((inject_Z m - x / p2 e) * p2 e)%Q by (field; exact Pn).
      setoid_replace (inject_Z j * p2 e - x)%Q with ((inject_Z j - x / p2 e) * p2 e)%Q by (field; exact Pn).
      rewrite !Qabs_Qmult. apply Qmult_le_compat_r; [apply nearest_int|apply Qabs_nonneg]. }
    split.
    + apply is_double_le; [|unfold e; lia].
      assert (G : (inject_Z (Z.abs m) < inject_Z (2 ^ 53 + 1))%Q).
      { rewrite <- iz_abs, iz_add. change (inject_Z 1) with 1%Q.
        setoid_replace (inject_Z m) with (x / p2 e + (inject_Z m - x / p2 e))%Q by ring.
        pose proof (Qabs_triangle (x / p2 e) (inject_Z m - x / p2 e)). lra. }
      rewrite <- Zlt_Qlt in G. lia.
    + intros y (m' & e' & Hm' & He' & Ey). destruct (Z.le_gt_cases e e') as [L|L].
      * rewrite Ey. replace e' with (e' - e + e) by ring. rewrite p2_add, (p2_z (e' - e)) by lia.
        setoid_replace (inject_Z m' * (inject_Z (2 ^ (e' - e)) * p2 e))%Q with (inject_Z (m' * 2 ^ (e' - e)) * p2 e)%Q
          by (rewrite (iz_mul m'); ring). apply Near.
      * (* [y] is smaller than the power of two below [x] *)
        assert (El : e = l - 52) by (unfold e in *; lia).
        assert (By : (Qabs y <= p2 l)%Q).
        { rewrite Ey, Qabs_Qmult, iz_abs, (Qabs_pos (p2 e')) by (pose proof (p2_pos e'); lra).
          eapply Qle_trans; [apply Qmult_le_compat_r; [apply iz_le, (Z.lt_le_incl _ _ Hm')|pose proof (p2_pos e'); lra]|].
          rewrite <- p2_z, <- p2_add by lia. apply p2_le. lia. }
        assert (Dy : (Qabs x - p2 l <= Qabs (y - x))%Q).
        { setoid_replace x with (y - (y - x))%Q at 1 by ring.
          pose proof (Qabs_triangle y (- (y - x))) as Tr. rewrite Qabs_opp in Tr. unfold Qminus at 2. lra. }
        eapply Qle_trans; [|exact Dy].
        destruct (Qlt_le_dec x 0) as [S|S].
        -- eapply Qle_trans; [apply (Near (- 2 ^ 52))|]. rewrite inject_Z_opp, <- p2_z by lia.
           setoid_replace (- p2 52 * p2 e)%Q with (- p2 (52 + e))%Q by (rewrite p2_add; ring).
           replace (52 + e) with l by lia. rewrite (Qabs_neg x) in * by lra. rewrite Qabs_pos by lra. lra.
        -- eapply Qle_trans; [apply (Near (2 ^ 52))|]. rewrite <- p2_z by lia.
           rewrite <- p2_add. replace (52 + e) with l by lia. rewrite (Qabs_pos x) in * by lra. rewrite Qabs_neg by lra. lra.
Qed.

(** ** Sizes beyond the doubles *)
Lemma bcc_invented a f nb : 2 <= a -> f = 2 * a + 1 -> eq_round round64 (FZ f / a)%fexp 2 = true ->
  exists l, t_find_hnfs (test_round round64) (eq_round round64) 5 (a * a * f) true nb = Some l /\
  In (HNF a 0 a a a f) l /\ is_hnf (a * a * f) (HNF a 0 a a a f) /\ ~ symmetry_preserving (gram_of 5) (HNF a 0 a a a f).
Proof.
  intros Ha Ef Er. exists (collect_all (t_bcc_5 (eq_round round64)) [a * a * f]).
  assert (Hin : In (a, a, f) (get_HNF_diagonals (a * a * f))).
  { apply in_diagonals. split; [lia|]. split; [lia|]. split; [lia|reflexivity]. }
  assert (Hh : is_hnf (a * a * f) (HNF a 0 a a a f)).
  { exists a, 0, a, a, a, f. split; [reflexivity|]. lia. }
  split; [reflexivity|]. split; [|split; [exact Hh|]].
  - unfold collect_all, py_for at 1. apply in_flat_map. exists (a * a * f). split; [now left|].
    unfold t_bcc_5, py_for. apply in_flat_map. exists (a, a, f). split; [exact Hin|].
    rewrite Z.eqb_refl, Er. destruct (Z.eqb_spec a f) as [K|K]; [exfalso; lia|]. now left.
  - intros S. destruct (exact_mode 5 (a * a * f) nb) as (l & El & _ & X); [unfold lattice_numbers; cbn; tauto|].
    assert (K : In (HNF a 0 a a a f) l).
    { apply X. split; [nia|]. split; [exact Hh|exact S]. }
    assert (El' : l = collect_all bcc_5 [a * a * f]) by (change (Some (collect_all bcc_5 [a * a * f]) = Some l) in El; congruence).
    rewrite El' in K. unfold collect_all, py_for at 1 in K. apply in_flat_map in K. destruct K as (n & _ & K).
    unfold bcc_5, py_for in K. apply in_flat_map in K. destruct K as (((x, y), z) & _ & K).
    unfold feqz in K. cbn [fdiv fz fnum fden] in K. unfold HNF in K.
    destruct ((x =? y) && (x =? z)); [destruct K as [K|[]]; injection K; intros; lia|].
    match type of K with In _ (if ?b then _ else _) => destruct b eqn:B1 end.
    { destruct K as [K|[]]; injection K; intros; subst x z; apply andb_prop in B1; destruct B1 as (_ & B1); apply Z.eqb_eq in B1; lia. }
    match type of K with In _ (if ?b then _ else _) => destruct b eqn:B2 end; [|destruct K].
    destruct K as [K|[]]; injection K; intros; lia.
Qed.
(** [a = c = 2 ^ 60] and [f = 2 ^ 61 + 1]: the quotient is rounded to 2. *)
Lemma bcc_5_invented nb : exists n H l, t_find_hnfs (test_round round64) (eq_round round64) 5 n true nb = Some l /\
  In H l /\ is_hnf n H /\ ~ symmetry_preserving (gram_of 5) H.
Proof.
  assert (Er : eq_round round64 (FZ (2 * 2 ^ 60 + 1) / FZ (2 ^ 60))%fexp 2 = true) by (vm_compute; reflexivity).
  generalize (bcc_invented (2 ^ 60) (2 * 2 ^ 60 + 1) nb ltac:(lia) eq_refl Er).
  generalize (2 ^ 60) as a. intros a (l & H). exists (a * a * (2 * a + 1)), (HNF a 0 a a a (2 * a + 1)), l. exact H.
Qed.
Lemma nearest_exact rnd k n nb : rounds_to_nearest rnd -> In k lattice_numbers -> n <= 1000 ->
  exists l, t_find_hnfs (test_round rnd) (eq_round rnd) k n true nb = Some l /\ NoDup l /\
    forall H, In H l <-> 1 <= n /\ is_hnf n H /\ symmetry_preserving (gram_of k) H.
Proof. intros R. apply exact_double. now apply nearest_like_double. Qed.
Lemma exact_tests k kpt exact nb : t_find_hnfs test_exact eq_exact k kpt exact nb = find_hnfs k kpt exact nb.
Proof. reflexivity. Qed.
