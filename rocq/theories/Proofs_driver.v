(** Proofs about the edit descriptors and the file KPOINTS. *)
From Coq Require Import ZArith QArith Qcanon Qround List Bool Ascii String Lia Lqa.
From Verif Require Import Mat3 QMat QNum QcTac Spec_kgrids Spec_control Model_control Proofs_control
  Proofs_gridcell
  Model_find_grid_top Model_driver Spec_driver.
Import ListNotations.
Open Scope string_scope.

(** ** Text *)
Lemma sapp_assoc (a b c : string) : (a ++ b) ++ c = a ++ (b ++ c).
Proof. induction a as [|x a IH]; cbn; [reflexivity|now rewrite IH]. Qed.
Lemma sapp_nil (a : string) : a ++ "" = a.
Proof. induction a as [|x a IH]; cbn; [reflexivity|now rewrite IH]. Qed.
Lemma slen_app (a b : string) : length (a ++ b) = (length a + length b)%nat.
Proof. induction a as [|x a IH]; cbn; [reflexivity|now rewrite IH]. Qed.
Lemma slen_copies n c : length (copies n c) = n.
Proof. induction n as [|n IH]; cbn; [reflexivity|now rewrite IH]. Qed.
Lemma digits_length n : forall x, length (digits n x) = n.
Proof. induction n as [|n IH]; intros x; cbn; [reflexivity|]. rewrite slen_app, IH. cbn. lia. Qed.

Fixpoint no_blank (s : string) : Prop :=
  match s with "" => True | String c s => c <> " "%char /\ no_blank s end.
Lemma no_blank_app a b : no_blank a -> no_blank b -> no_blank (a ++ b).
Proof. induction a as [|x a IH]; cbn; [tauto|]. intros (H & Ha) Hb. split; [exact H|now apply IH]. Qed.

Lemma ten_cases (d : Z) : (0 <= d < 10)%Z -> In d [0;1;2;3;4;5;6;7;8;9]%Z.
Proof. intros H. cbn. lia. Qed.
Lemma digit_of_digit d : (0 <= d < 10)%Z -> digit_of (digit d) = Some d.
Proof.
  intros H. apply ten_cases in H. cbn in H.
  repeat (destruct H as [H|H]; [subst d; reflexivity|]). destruct H.
Qed.
Lemma digit_not_blank d : (0 <= d < 10)%Z -> digit d <> " "%char.
Proof.
  intros H. apply ten_cases in H. cbn in H.
  repeat (destruct H as [H|H]; [subst d; discriminate|]). destruct H.
Qed.
Lemma digit_not_minus d : (0 <= d < 10)%Z -> digit d <> "-"%char.
Proof.
  intros H. apply ten_cases in H. cbn in H.
  repeat (destruct H as [H|H]; [subst d; discriminate|]). destruct H.
Qed.
Lemma mod10 x : (0 <= x mod 10 < 10)%Z.
Proof. apply Z.mod_pos_bound. lia. Qed.

Lemma digits_no_blank n : forall x, no_blank (digits n x).
Proof.
  induction n as [|n IH]; intros x; cbn; [exact I|]. apply no_blank_app; [apply IH|].
  cbn. split; [apply digit_not_blank, mod10|exact I].
Qed.

Lemma whole_digits n : forall x acc r,
  whole acc (digits n x ++ r) = whole (acc * 10 ^ Z.of_nat n + x mod 10 ^ Z.of_nat n) r.
Proof.
  induction n as [|n IH]; intros x acc r.
  - cbn [digits append]. change (Z.of_nat 0) with 0%Z. rewrite Z.pow_0_r, Z.mod_1_r. f_equal. lia.
  - cbn [digits]. rewrite sapp_assoc, IH. cbn [append whole].
    rewrite digit_of_digit by apply mod10. f_equal.
    rewrite Nat2Z.inj_succ, Z.pow_succ_r by lia.
    rewrite (Z.rem_mul_r x 10 (10 ^ Z.of_nat n)) by (try lia; apply Z.pow_pos_nonneg; lia). ring.
Qed.

(** ** Numerals *)
Lemma ndigits_pos f x : (1 <= ndigits f x)%nat.
Proof. destruct f as [|f]; cbn; [lia|]. destruct (Z.ltb x 10); lia. Qed.
Lemma ndigits_bound f : forall x, (0 <= x)%Z -> (x < 10 * 2 ^ Z.of_nat f)%Z ->
  (x < 10 ^ Z.of_nat (ndigits f x))%Z.
Proof.
  induction f as [|f IH]; intros x H0 H; cbn [ndigits].
  - change (2 ^ Z.of_nat 0)%Z with 1%Z in H. change (10 ^ Z.of_nat 1)%Z with 10%Z. lia.
  - destruct (Z.ltb_spec x 10) as [L|L]; [exact L|].
    rewrite Nat2Z.inj_succ, Z.pow_succ_r by lia. rewrite Nat2Z.inj_succ, Z.pow_succ_r in H by lia.
    assert (B : (x / 10 < 10 ^ Z.of_nat (ndigits f (x / 10)))%Z).
    { apply IH; [apply Z.div_pos; lia|]. apply Z.div_lt_upper_bound; lia. }
    pose proof (Z.div_mod x 10 ltac:(lia)). pose proof (mod10 x). lia.
Qed.
(** The number of digits is the least possible. *)
Lemma ndigits_least f : forall x k, (0 <= x)%Z -> (1 <= k)%nat -> (x < 10 ^ Z.of_nat k)%Z ->
  (ndigits f x <= k)%nat.
Proof.
  induction f as [|f IH]; intros x k H0 Hk H; cbn [ndigits]; [exact Hk|].
  destruct (Z.ltb_spec x 10) as [L|L]; [exact Hk|].
  destruct k as [|[|k]]; [lia|change (10 ^ Z.of_nat 1)%Z with 10%Z in H; lia|].
  apply le_n_S. apply IH; [apply Z.div_pos; lia|lia|].
  rewrite Nat2Z.inj_succ, Z.pow_succ_r in H by lia. apply Z.div_lt_upper_bound; lia.
Qed.
Lemma log2_enough x : (0 <= x)%Z -> (x < 10 * 2 ^ Z.of_nat (Z.to_nat (Z.log2 x)))%Z.
Proof.
  intros H. rewrite Z2Nat.id by apply Z.log2_nonneg.
  destruct (Z.eq_dec x 0) as [->|N]; [reflexivity|].
  pose proof (Z.log2_spec x ltac:(lia)) as (_ & B). rewrite Z.pow_succ_r in B by apply Z.log2_nonneg.
  lia.
Qed.
Lemma numeral_whole x r : (0 <= x)%Z -> whole 0 (numeral x ++ r) = whole x r.
Proof.
  intros H. unfold numeral. rewrite whole_digits. f_equal.
  rewrite Z.mul_0_l, Z.add_0_l. apply Z.mod_small. split; [exact H|].
  apply ndigits_bound; [exact H|now apply log2_enough].
Qed.
Lemma numeral_length x k : (0 <= x)%Z -> (1 <= k)%nat ->
  ((length (numeral x) <= k)%nat <-> (x < 10 ^ Z.of_nat k)%Z).
Proof.
  intros H Hk. unfold numeral. rewrite digits_length. split; intros L.
  - pose proof (ndigits_bound _ x H (log2_enough x H)) as B.
    apply Z.lt_le_trans with (1 := B). apply Z.pow_le_mono_r; lia.
  - now apply ndigits_least.
Qed.
Lemma numeral_nonempty x : (1 <= length (numeral x))%nat.
Proof. unfold numeral. rewrite digits_length. apply ndigits_pos. Qed.
Lemma numeral_no_blank x : no_blank (numeral x).
Proof. apply digits_no_blank. Qed.

(** The first character of a numeral is a digit. *)
Lemma digits_head n : forall x, exists d r, (0 <= d < 10)%Z /\ digits (S n) x = String (digit d) r.
Proof.
  induction n as [|n IH]; intros x.
  - exists (x mod 10)%Z, "". split; [apply mod10|reflexivity].
  - destruct (IH (x / 10)%Z) as (d & r & Hd & E).
    change (digits (S (S n)) x) with (digits (S n) (x / 10) ++ String (digit (x mod 10)) "").
    rewrite E. exists d, (r ++ String (digit (x mod 10)) ""). split; [exact Hd|reflexivity].
Qed.
Lemma numeral_head x : exists d r, (0 <= d < 10)%Z /\ numeral x = String (digit d) r.
Proof.
  unfold numeral. pose proof (ndigits_pos (Z.to_nat (Z.log2 x)) x) as P.
  destruct (ndigits (Z.to_nat (Z.log2 x)) x) as [|n]; [lia|]. apply digits_head.
Qed.
Lemma sign_of_numeral x r : sign_of (numeral x ++ r) = (1%Z, numeral x ++ r).
Proof.
  destruct (numeral_head x) as (d & t & Hd & ->). cbn [append sign_of].
  destruct (Ascii.eqb_spec (digit d) "-") as [E|E]; [|reflexivity].
  now apply digit_not_minus in E.
Qed.

(** ** Fields *)
Lemma integer_text n :
  integer ((if Z.ltb n 0 then "-" else "") ++ numeral (Z.abs n)) = Some n.
Proof.
  destruct (numeral_head (Z.abs n)) as (d & t & Hd & E).
  pose proof (numeral_whole (Z.abs n) "" (Z.abs_nonneg n)) as W. rewrite sapp_nil in W.
  cbn [whole] in W.
  destruct (Z.ltb_spec n 0) as [L|L]; cbn [append].
  - unfold integer. change (sign_of (String "-" (numeral (Z.abs n)))) with ((-1)%Z, numeral (Z.abs n)).
    cbn iota beta. rewrite W, E. cbn iota beta. f_equal. lia.
  - unfold integer. pose proof (sign_of_numeral (Z.abs n) "") as S. rewrite sapp_nil in S.
    rewrite S. cbn iota beta. rewrite W, E. cbn iota beta. f_equal. lia.
Qed.
Lemma int_length n k : (1 <= k)%nat -> (0 <= n)%Z ->
  ((length ((if Z.ltb n 0 then "-" else "") ++ numeral (Z.abs n)) <= k)%nat <->
   (n < 10 ^ Z.of_nat k)%Z).
Proof.
  intros Hk H. destruct (Z.ltb_spec n 0) as [L|L]; [lia|]. cbn [append].
  rewrite Z.abs_eq by lia. now apply numeral_length.
Qed.
Lemma i_edit_fits w n : (1 <= w)%nat -> (0 <= n < 10 ^ Z.of_nat w)%Z ->
  exists k t, i_edit w n = copies k " " ++ t /\ integer t = Some n /\ no_blank t /\ t <> "".
Proof.
  intros Hw (H0 & H). unfold i_edit, justify.
  pose proof (proj2 (int_length n w Hw H0) H) as L. apply Nat.leb_le in L. rewrite L.
  eexists _, _. split; [reflexivity|]. split; [apply integer_text|]. split.
  - destruct (Z.ltb n 0); cbn [append]; [|apply numeral_no_blank].
    split; [discriminate|apply numeral_no_blank].
  - destruct (numeral_head (Z.abs n)) as (d & t & _ & ->). destruct (Z.ltb n 0); discriminate.
Qed.
Lemma i_edit_stars w n : (1 <= w)%nat -> (10 ^ Z.of_nat w <= n)%Z -> i_edit w n = copies w "*".
Proof.
  intros Hw H. assert (0 < 10 ^ Z.of_nat w)%Z by (apply Z.pow_pos_nonneg; lia).
  unfold i_edit, justify. destruct (Nat.leb_spec (length ((if Z.ltb n 0 then "-" else "") ++ numeral (Z.abs n))) w)
    as [L|L]; [|reflexivity].
  apply (int_length n w Hw) in L; lia.
Qed.

(** The text of [F] before justification. *)
Definition f_text (d : nat) (x : Qc) : string :=
  let ten := (10 ^ Z.of_nat d)%Z in
  let a := nint (qabs x * zq ten)%Qc in
  (if qltb x 0 then "-" else "") ++ numeral (a / ten) ++ "." ++ digits d (a mod ten).

Lemma qabs_nonneg x : (0 <= qabs x)%Qc.
Proof. unfold qabs. destruct (qltb x 0) eqn:E; [apply qltb_iff in E|apply qltb_false in E]; qclra. Qed.
Lemma nint_nonneg q : (0 <= q)%Qc -> (0 <= nint q)%Z.
Proof.
  intros H. unfold nint.
  assert (E : Qle_bool 0 (this q) = true) by (apply Qle_bool_iff; exact H). rewrite E.
  rewrite <- (Qfloor_Z 0). apply Qfloor_resp_le. unfold Qcle in H. cbn in H.
  apply Qle_trans with (this q + 0)%Q; [rewrite Qplus_0_r; exact H|].
  apply Qplus_le_compat; [apply Qle_refl|discriminate].
Qed.

Lemma decimal_text d x : (1 <= d)%nat ->
  let ten := (10 ^ Z.of_nat d)%Z in
  let a := nint (qabs x * zq ten)%Qc in
  decimal (f_text d x) = Some (zq (if qltb x 0 then (-1) else 1) * (zq a / zq ten))%Qc.
Proof.
  intros Hd ten a.
  assert (Ht : (0 < ten)%Z) by (apply Z.pow_pos_nonneg; lia).
  assert (Hq : (0 <= zq ten)%Qc) by (rewrite <- zq_0; apply zq_le; lia).
  assert (Ha : (0 <= a)%Z).
  { apply nint_nonneg. pose proof (qabs_nonneg x) as Hx. apply (Qcmult_le_compat_r 0 (qabs x) (zq ten)) in Hx; [|exact Hq].
    rewrite Qcmult_0_l in Hx. exact Hx. }
  assert (Hi : (0 <= a / ten)%Z) by (apply Z.div_pos; lia).
  assert (Hm : (0 <= a mod ten < ten)%Z) by (apply Z.mod_pos_bound; lia).
  assert (W : forall g, (let '(n, r) := whole 0 (numeral (a / ten) ++ "." ++ digits d (a mod ten)) in
    match r with
    | String c f => if Ascii.eqb c "." then
        match whole 0 f with
        | (m, "") => Some (zq g * (zq n + zq m / zq (10 ^ Z.of_nat (length f))))%Qc
        | _ => None end else None
    | "" => None end) = Some (zq g * (zq a / zq ten))%Qc).
  { intros g. rewrite numeral_whole by exact Hi. cbn [append whole]. change (digit_of ".") with (@None Z).
    cbn iota beta. change (Ascii.eqb "." ".") with true. cbn iota.
    pose proof (whole_digits d (a mod ten) 0 "") as E. rewrite sapp_nil in E. rewrite E.
    cbn [whole]. cbn iota beta. rewrite digits_length. fold ten.
    rewrite Z.mul_0_l, Z.add_0_l, (Z.mod_small (a mod ten)) by exact Hm.
    f_equal. f_equal. rewrite (Z.div_mod a ten) at 3 by lia.
    rewrite zq_add, zq_mul. field. intros E0. rewrite <- zq_0 in E0. apply zq_inj in E0. lia. }
  unfold decimal, f_text. fold ten. fold a.
  destruct (qltb x 0) eqn:Ex.
  - cbn [append sign_of]. change (Ascii.eqb "-" "-") with true. cbn iota. apply W.
  - cbn [append]. rewrite sign_of_numeral. apply W.
Qed.

Lemma f_text_close d x : (1 <= d)%nat -> exists v, decimal (f_text d x) = Some v /\
  (zq 2 * (qabs (v - x) * zq (10 ^ Z.of_nat d)) <= 1)%Qc.
Proof.
  intros Hd. eexists. split; [apply decimal_text, Hd|].
  set (ten := (10 ^ Z.of_nat d)%Z).
  assert (Ht : (0 < zq ten)%Qc).
  { rewrite <- zq_0. apply zq_lt. apply Z.pow_pos_nonneg; lia. }
  pose proof (nint_nearest (qabs x * zq ten)) as N. unfold nearest in N. cbv zeta in N.
  set (a := nint (qabs x * zq ten)%Qc) in *.
  assert (B : (zq 2 * qabs (zq a - qabs x * zq ten) <= 1)%Qc).
  { change (zq 2) with (1 + 1)%Qc. destruct N as [N|(N & _)]; qclra. }
  assert (E : (qabs (zq (if qltb x 0 then -1 else 1) * (zq a / zq ten) - x) * zq ten
              = qabs (zq a - qabs x * zq ten))%Qc).
  { assert (H1 : (zq a / zq ten * zq ten = zq a)%Qc).
    { field. intros E0. rewrite E0 in Ht. exact (Qlt_irrefl _ Ht). }
    rewrite Qcmult_comm, <- (qabs_pmul (zq ten)) by exact Ht.
    unfold qabs at 3. destruct (qltb x 0) eqn:Ex.
    - replace (zq ten * (zq (-1) * (zq a / zq ten) - x))%Qc with (- (zq a / zq ten * zq ten - - x * zq ten))%Qc
        by (change (zq (-1)) with (- (1))%Qc; ring).
      rewrite H1. unfold qabs.
      destruct (qltb (- (zq a - - x * zq ten)) 0) eqn:E1, (qltb (zq a - - x * zq ten) 0) eqn:E2;
        try apply qltb_iff in E1; try apply qltb_iff in E2; try apply qltb_false in E1;
        try apply qltb_false in E2; qclra.
    - replace (zq ten * (zq 1 * (zq a / zq ten) - x))%Qc with (zq a / zq ten * zq ten - x * zq ten)%Qc
        by (change (zq 1) with 1%Qc; ring).
      rewrite H1. reflexivity. }
  rewrite E. exact B.
Qed.

Lemma nint_lt q N : (0 <= q)%Qc -> ((nint q < N)%Z <-> (q + qdec 5 1 < zq N)%Qc).
Proof.
  intros H. unfold nint.
  assert (E : Qle_bool 0 (this q) = true) by (apply Qle_bool_iff; exact H). rewrite E.
  assert (T : (this (q + qdec 5 1)%Qc == this q + (1 # 2))%Q).
  { rewrite this_plus. apply Qplus_comp; [reflexivity|]. reflexivity. }
  assert (TN : (this (zq N) == inject_Z N)%Q) by apply this_Q2Qc.
  split; intros L.
  - unfold Qclt. rewrite T, TN. apply Qlt_le_trans with (inject_Z (Qfloor (this q + (1 # 2)) + 1)).
    + apply Qlt_floor.
    + rewrite <- Zle_Qle. lia.
  - unfold Qclt in L. rewrite T, TN in L. rewrite Zlt_Qlt.
    apply Qle_lt_trans with (this q + (1 # 2))%Q; [apply Qfloor_le|exact L].
Qed.

Lemma f_text_length x : (length (f_text 12 x) <= 15)%nat <-> fits x.
Proof.
  unfold f_text, fits. change (10 ^ Z.of_nat 12)%Z with 1000000000000%Z.
  change (qdec (-99999999999995) 13) with (Q2Qc (-99999999999995 # 10000000000000)).
  change (qdec 999999999999995 13) with (Q2Qc (999999999999995 # 10000000000000)).
  set (ten := 1000000000000%Z). set (q := (qabs x * zq ten)%Qc).
  assert (Hq : (0 <= q)%Qc).
  { unfold q. pose proof (qabs_nonneg x) as Hx. apply (Qcmult_le_compat_r 0 (qabs x) (zq ten)) in Hx.
    - rewrite Qcmult_0_l in Hx. exact Hx.
    - rewrite <- zq_0. apply zq_le. unfold ten. lia. }
  pose proof (nint_nonneg q Hq) as Ha.
  assert (Hi : (0 <= nint q / ten)%Z) by (apply Z.div_pos; [exact Ha|reflexivity]).
  rewrite !slen_app, digits_length. cbn [length].
  destruct (qltb x 0) eqn:Ex.
  - apply qltb_iff in Ex.
    transitivity (length (numeral (nint q / ten)) <= 1)%nat; [cbn; lia|].
    rewrite (numeral_length _ 1 Hi) by lia. change (10 ^ Z.of_nat 1)%Z with 10%Z.
    transitivity (nint q < 10000000000000)%Z.
    { split; intros L.
      - pose proof (Z.div_mod (nint q) ten ltac:(discriminate)).
        pose proof (Z.mod_pos_bound (nint q) ten ltac:(reflexivity)). unfold ten in *. lia.
      - apply Z.div_lt_upper_bound; [reflexivity|unfold ten in *; lia]. }
    rewrite (nint_lt _ _ Hq). unfold q, qabs.
    assert (Ex' : qltb x 0 = true) by now apply qltb_iff. rewrite Ex'.
    change (qdec 5 1) with (Q2Qc (5 # 10)). unfold ten, zq in *. clear - Ex. split; intros L; [split|destruct L as (L & _)]; qc2q; unfold inject_Z in *; lra.
  - apply qltb_false in Ex.
    transitivity (length (numeral (nint q / ten)) <= 2)%nat; [cbn; lia|].
    rewrite (numeral_length _ 2 Hi) by lia. change (10 ^ Z.of_nat 2)%Z with 100%Z.
    transitivity (nint q < 100000000000000)%Z.
    { split; intros L.
      - pose proof (Z.div_mod (nint q) ten ltac:(discriminate)).
        pose proof (Z.mod_pos_bound (nint q) ten ltac:(reflexivity)). unfold ten in *. lia.
      - apply Z.div_lt_upper_bound; [reflexivity|unfold ten in *; lia]. }
    rewrite (nint_lt _ _ Hq). unfold q, qabs.
    assert (Ex' : qltb x 0 = false) by now apply qltb_false. rewrite Ex'.
    change (qdec 5 1) with (Q2Qc (5 # 10)). unfold ten, zq in *. clear - Ex. split; intros L; [split|destruct L as (_ & L)]; qc2q; unfold inject_Z in *; lra.
Qed.

Lemma f_text_no_blank d x : no_blank (f_text d x).
Proof.
  unfold f_text. apply no_blank_app; [destruct (qltb x 0); cbn; [split; [discriminate|exact I]|exact I]|].
  apply no_blank_app; [apply numeral_no_blank|]. cbn [append no_blank].
  split; [discriminate|apply digits_no_blank].
Qed.
Lemma f_text_nonempty d x : f_text d x <> "".
Proof.
  unfold f_text. destruct (numeral_head (nint (qabs x * zq (10 ^ Z.of_nat d)) / 10 ^ Z.of_nat d)) as (c & r & _ & ->).
  destruct (qltb x 0); discriminate.
Qed.

Lemma f_edit_eq x : f_edit 15 12 x = justify 15 (f_text 12 x).
Proof.
  unfold f_edit. cbv zeta.
  fold (f_text 12 x).
  destruct (Nat.leb_spec (length (f_text 12 x)) 15) as [L|L]; [reflexivity|].
  destruct (Z.eqb_spec (nint (qabs x * zq (10 ^ Z.of_nat 12)) / 10 ^ Z.of_nat 12) 0) as [E|E]; [|reflexivity].
  exfalso. revert L. unfold f_text. cbv zeta. rewrite E, !slen_app, digits_length.
  destruct (qltb x 0); cbn; lia.
Qed.

Lemma within_12 v x : (zq 2 * (qabs (v - x) * zq (10 ^ Z.of_nat 12)) <= 1)%Qc -> within v x.
Proof.
  change (10 ^ Z.of_nat 12)%Z with 1000000000000%Z. unfold within.
  generalize (qabs (v - x)). intros d H. change (qdec 5 13) with (Q2Qc (5 # 10000000000000)). unfold zq in *. qc2q; unfold inject_Z in *; lra.
Qed.

Lemma field_fits x : fits x -> exists k t v, f_edit 15 12 x = copies k " " ++ t /\
  decimal t = Some v /\ within v x /\ no_blank t /\ t <> "".
Proof.
  intros H. apply f_text_length in H. rewrite f_edit_eq. unfold justify.
  apply Nat.leb_le in H. rewrite H.
  destruct (f_text_close 12 x ltac:(lia)) as (v & Ev & Hv).
  exists (15 - length (f_text 12 x))%nat, (f_text 12 x), v.
  split; [reflexivity|]. split; [exact Ev|]. split; [now apply within_12|].
  split; [apply f_text_no_blank|apply f_text_nonempty].
Qed.
Lemma field_stars x : ~ fits x -> f_edit 15 12 x = copies 15 "*".
Proof.
  intros H. rewrite f_edit_eq. unfold justify.
  destruct (Nat.leb_spec (length (f_text 12 x)) 15) as [L|L]; [|reflexivity].
  now apply f_text_length in L.
Qed.
Lemma stars_no_number : decimal (copies 15 "*") = None /\ integer (copies 6 "*") = None.
Proof. split; reflexivity. Qed.

(** ** Lines *)
Lemma words_spaces k s : words (copies k " " ++ s) = words s.
Proof. induction k as [|k IH]; cbn; [reflexivity|exact IH]. Qed.
Lemma words_after_word t : forall w s, no_blank t -> words_after w (t ++ s) = words_after (w ++ t) s.
Proof.
  induction t as [|c t IH]; intros w s H; cbn [append]; [now rewrite sapp_nil|].
  cbn [no_blank] in H. destruct H as (Hc & Ht). cbn [words_after].
  destruct (Ascii.eqb_spec c " ") as [E|_]; [contradiction|].
  rewrite (IH _ _ Ht), sapp_assoc. reflexivity.
Qed.
Lemma flush_word t : t <> "" -> flush t = [t].
Proof. intros H. unfold flush. destruct (String.eqb_spec t ""); [contradiction|reflexivity]. Qed.
Lemma words_field k t s : no_blank t -> t <> "" ->
  words ((copies k " " ++ t) ++ " " ++ s) = t :: words s.
Proof.
  intros H H0. rewrite sapp_assoc, words_spaces. unfold words. rewrite (words_after_word t _ _ H).
  cbn [append words_after]. change (Ascii.eqb " " " ") with true. cbn iota.
  rewrite (flush_word t H0). reflexivity.
Qed.
Lemma words_last k t : no_blank t -> t <> "" -> words (copies k " " ++ t) = [t].
Proof.
  intros H H0. rewrite words_spaces. unfold words. rewrite <- (sapp_nil t) at 1.
  rewrite (words_after_word t _ _ H). cbn [append words_after]. apply (flush_word t H0).
Qed.

Lemma line_reads x w : fits (w1 x) -> fits (w2 x) -> fits (w3 x) -> (0 <= w < 100000)%Z ->
  reads_point (point_line x w) x w.
Proof.
  intros H1 H2 H3 Hw.
  destruct (field_fits _ H1) as (k1 & a & va & E1 & Da & Wa & Ba & Na).
  destruct (field_fits _ H2) as (k2 & b & vb & E2 & Db & Wb & Bb & Nb).
  destruct (field_fits _ H3) as (k3 & c & vc & E3 & Dc & Wc & Bc & Nc).
  destruct (i_edit_fits 5 w ltac:(lia) Hw) as (k4 & d & E4 & Dd & Bd & Nd).
  exists a, b, c, d, va, vb, vc. split; [|repeat split; assumption].
  unfold point_line. rewrite E1, E2, E3, E4.
  rewrite (words_field _ a _ Ba Na), (words_field _ b _ Bb Nb), (words_field _ c _ Bc Nc).
  rewrite (words_last _ d Bd Nd). reflexivity.
Qed.
