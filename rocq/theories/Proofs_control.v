(** The control file. *)
From Coq Require Import ZArith QArith Qcanon Qround List Bool Ascii String Lia Lqa.
From Verif Require Import Mat3 QMat QNum QcTac Model_control Spec_control
  Proofs_find_supercells Proofs_niggli_id2 Proofs_gridcell.
Import ListNotations.
Open Scope string_scope.

(** ** Text *)
Lemma app_nil_r s : s ++ "" = s.
Proof. induction s; cbn; congruence. Qed.
Lemma app_assoc a b c : (a ++ b) ++ c = a ++ (b ++ c).
Proof. induction a; cbn; congruence. Qed.
Lemma blank_iff c : blank c = true <-> c = " "%char.
Proof. apply Ascii.eqb_eq. Qed.

Lemma rtrim_end s : no_blank_end (rtrim s).
Proof.
  induction s as [|c s IH]; intros t E.
  - destruct t; discriminate E.
  - cbn [rtrim] in E. cbv zeta in E. destruct (blank c && (rtrim s =? "")) eqn:B.
    + destruct t; discriminate E.
    + destruct t as [|c' t]; cbn in E.
      * injection E as Ec Es. rewrite Es in B. cbn in B. rewrite Ec in B. discriminate B.
      * injection E as _ Es. exact (IH t Es).
Qed.
Lemma no_blank_tail c s : no_blank_end (String c s) -> no_blank_end s.
Proof. intros H t E. apply (H (String c t)). cbn. now rewrite E. Qed.
Lemma rtrim_blanks b : blanks b -> rtrim b = "".
Proof. induction b as [|c b IH]; [reflexivity|]. intros (-> & H). cbn. now rewrite IH. Qed.
Lemma rtrim_app a b : no_blank_end a -> blanks b -> rtrim (a ++ b) = a.
Proof.
  intros Ha Hb. induction a as [|c a IH]; [now apply rtrim_blanks|].
  cbn [append rtrim]. cbv zeta. rewrite IH by exact (no_blank_tail c a Ha).
  destruct (blank c && (a =? "")) eqn:B; [|reflexivity]. exfalso.
  apply andb_prop in B. destruct B as (B1 & B2). apply blank_iff in B1. apply String.eqb_eq in B2.
  subst. now apply (Ha "").
Qed.
Lemma rtrim_rest s : exists b, blanks b /\ s = rtrim s ++ b.
Proof.
  induction s as [|c s (b & Hb & E)]; [exists ""; now split|].
  cbn [rtrim]. cbv zeta. destruct (blank c && (rtrim s =? "")) eqn:B.
  - apply andb_prop in B. destruct B as (B1 & B2). apply blank_iff in B1. apply String.eqb_eq in B2.
    exists (String c s). split; [|reflexivity]. subst c. split; [reflexivity|].
    rewrite B2 in E. cbn in E. now rewrite E.
  - exists b. split; [exact Hb|]. cbn. now rewrite <- E.
Qed.

Lemma scan_eq_iff s a b : scan_eq s = Some (a, b) <-> s = a ++ "=" ++ b /\ no_equals a.
Proof.
  revert a. induction s as [|c s IH]; intros a.
  - cbn. split; [discriminate|]. intros (E & _). destruct a; discriminate E.
  - cbn [scan_eq]. destruct (Ascii.eqb_spec c "="%char) as [->|N].
    + split.
      * intros [= <- <-]. now split.
      * intros (E & H). destruct a as [|c' a]; cbn in E; [now injection E as ->|].
        injection E as <- _. now destruct H.
    + destruct (scan_eq s) as [[l r]|] eqn:Es.
      * split.
        -- intros [= <- <-]. destruct (proj1 (IH l) eq_refl) as (-> & H). split; [reflexivity|now split].
        -- intros (E & H). destruct a as [|c' a]; cbn in E; [injection E as ->; now destruct N|].
           injection E as <- E. destruct H as (_ & H). pose proof (proj2 (IH a) (conj E H)) as Q.
           injection Q as -> ->. reflexivity.
      * split; [discriminate|]. intros (E & H). destruct a as [|c' a]; cbn in E; [injection E as ->; now destruct N|].
        injection E as <- E. destruct H as (_ & H). pose proof (proj2 (IH a) (conj E H)) as Q. discriminate Q.
Qed.
Lemma no_equals_app a b : no_equals a -> no_equals b -> no_equals (a ++ b).
Proof. induction a; [auto|]. intros (H1 & H2) Hb. split; [exact H1|now apply IHa]. Qed.
Lemma no_equals_left a b : no_equals (a ++ b) -> no_equals a.
Proof. induction a; [easy|]. intros (H1 & H2). split; [exact H1|now apply IHa]. Qed.
Lemma blanks_no_equals b : blanks b -> no_equals b.
Proof. induction b; [easy|]. intros (-> & H). split; [discriminate|now apply IHb]. Qed.
Lemma no_blank_end_app a b : b <> "" -> no_blank_end (a ++ b) <-> no_blank_end b.
Proof.
  intros Hb. split; intros H t E.
  - apply (H (a ++ t)). now rewrite app_assoc, E.
  - revert t E. induction a as [|c a IH]; intros t E; [exact (H t E)|].
    destruct t as [|c' t]; cbn in E; injection E as _ E; [|exact (IH _ E)].
    destruct a; [|discriminate E]. cbn in E. now apply Hb.
Qed.
Lemma no_blank_end_eq v : no_blank_end ("=" ++ v) <-> no_blank_end v.
Proof.
  split; intros H t E.
  - apply (H ("=" ++ t)). now rewrite app_assoc, E.
  - destruct t as [|c t]; cbn in E; [discriminate E|]. injection E as _ E. exact (H t E).
Qed.

Lemma substring_all n s : (String.length s <= n)%nat -> substring 0 n s = s.
Proof.
  revert s. induction n as [|n IH]; intros [|c s] H; try reflexivity; cbn in H; [lia|].
  cbn. rewrite IH by lia. reflexivity.
Qed.

Definition key (line : string) : string := fst (split_line (fixed 100 line)).
Definition val (line : string) : string := snd (split_line (fixed 100 line)).

Lemma says_iff line k v : (String.length line <= 100)%nat -> k <> "" ->
  says line k v <-> key line = k /\ val line = v.
Proof.
  intros HL Hk. unfold key, val, split_line, fixed. rewrite substring_all by exact HL. split.
  - intros (b1 & b2 & E & H1 & H2 & H3 & H4 & H5).
    assert (R : rtrim line = (k ++ b1) ++ "=" ++ v).
    { subst line. replace (k ++ b1 ++ "=" ++ v ++ b2) with (((k ++ b1) ++ "=" ++ v) ++ b2)
        by now rewrite !app_assoc. apply rtrim_app; [|exact H2].
      apply no_blank_end_app; [discriminate|]. now apply no_blank_end_eq. }
    rewrite R. rewrite (proj2 (scan_eq_iff _ (k ++ b1) v)).
    + cbn [fst snd]. split; [now apply rtrim_app|reflexivity].
    + split; [reflexivity|]. apply no_equals_app; [exact H3|now apply blanks_no_equals].
  - destruct (scan_eq (rtrim line)) as [[a r]|] eqn:Es; cbn [fst snd]; [|intros (E & _); now destruct Hk].
    intros (Ek & Ev). subst r. apply scan_eq_iff in Es. destruct Es as (Es & Ha).
    destruct (rtrim_rest a) as (b1 & H1 & E1). destruct (rtrim_rest line) as (b2 & H2 & E2).
    rewrite Ek in E1. exists b1, b2. repeat split.
    + rewrite E2, Es, E1. now rewrite !app_assoc.
    + exact H1.
    + exact H2.
    + rewrite E1 in Ha. exact (no_equals_left _ _ Ha).
    + rewrite <- Ek. apply rtrim_end.
    + pose proof (rtrim_end line) as H. rewrite Es in H. apply no_blank_end_app in H; [|discriminate].
      now apply no_blank_end_eq.
Qed.

Lemma adjustl_iff v c w : c <> " "%char ->
  adjustl v = String c w <-> exists b, blanks b /\ v = b ++ String c w.
Proof.
  intros Hc. split.
  - induction v as [|d v IH]; [discriminate|]. cbn [adjustl]. destruct (blank d) eqn:B.
    + intros E. destruct (IH E) as (b & Hb & ->). exists (String d b). split; [|reflexivity].
      split; [now apply blank_iff|exact Hb].
    + intros ->. exists "". now split.
  - intros (b & Hb & ->). induction b as [|d b IH].
    + cbn. destruct (blank c) eqn:B; [|reflexivity]. apply blank_iff in B. contradiction.
    + destruct Hb as (-> & Hb). cbn. now apply IH.
Qed.
Lemma says_word_iff line k c w : (String.length line <= 100)%nat -> k <> "" -> c <> " "%char ->
  says_word line k (String c w) <-> key line = k /\ adjustl (val line) = String c w.
Proof.
  intros HL Hk Hc. unfold says_word. rewrite (adjustl_iff _ _ _ Hc). split.
  - intros (b & Hb & H). apply says_iff in H; [|exact HL|exact Hk]. destruct H as (H1 & H2).
    split; [exact H1|]. exists b. now split.
  - intros (H1 & b & Hb & H2). exists b. split; [exact Hb|]. apply says_iff; [exact HL|exact Hk|]. now split.
Qed.

(** ** NINT *)
Lemma Qfloor_bounds q : (inject_Z (Qfloor q) <= q /\ q < inject_Z (Qfloor q) + 1)%Q.
Proof.
  split; [apply Qfloor_le|]. pose proof (Qlt_floor q) as H. rewrite inject_Z_plus in H. exact H.
Qed.
Lemma nint_nearest q : nearest (nint q) q.
Proof.
  unfold nearest, nint. cbv zeta.
  destruct (Qle_bool 0 (this q)) eqn:E.
  - apply Qle_bool_iff in E. destruct (Qfloor_bounds (this q + (1 # 2))%Q) as (F1 & F2).
    set (n := Qfloor _) in *. clearbody n.
    assert (N1 : (zq n <= q + Q2Qc (1 # 2))%Qc) by (unfold zq; qc2q; lra).
    assert (N2 : (q + Q2Qc (1 # 2) < zq n + 1)%Qc) by (unfold zq; qc2q; lra).
    assert (Q0 : (0 <= q)%Qc) by exact E. clear F1 F2 E.
    destruct (Qc_dec (zq n) (q + Q2Qc (1 # 2))) as [[L|L]|L].
    + left. assert (qabs (zq n - q) < Q2Qc (1 # 2))%Qc.
      { apply Qcnot_le_lt. intros H. apply Qcle_lt_or_eq in H.
        destruct (qltb (zq n - q) 0) eqn:S; unfold qabs in H; rewrite S in H;
          [apply qltb_iff in S|apply qltb_false in S]; destruct H as [H|H]; qclra. }
      qclra.
    + exfalso. qclra.
    + right. split.
      * unfold qabs. destruct (qltb (zq n - q) 0) eqn:S; [apply qltb_iff in S|apply qltb_false in S]; qclra.
      * destruct (qabs_bounds (zq n)). apply Qcle_trans with (zq n); [|assumption].
        apply qabs_le. split; qclra.
  - assert (Q0 : (q < 0)%Qc).
    { apply Qcnot_le_lt. intros H. assert (T : Qle_bool 0 (this q) = true) by (apply Qle_bool_iff; exact H).
      rewrite T in E. discriminate E. }
    clear E. destruct (Qfloor_bounds (- this q + (1 # 2))%Q) as (F1 & F2).
    set (n := Qfloor _) in *. clearbody n.
    assert (N1 : (zq n <= - q + Q2Qc (1 # 2))%Qc) by (unfold zq; qc2q; lra).
    assert (N2 : (- q + Q2Qc (1 # 2) < zq n + 1)%Qc) by (unfold zq; qc2q; lra). clear F1 F2.
    rewrite zq_opp. destruct (Qc_dec (zq n) (- q + Q2Qc (1 # 2))) as [[L|L]|L].
    + left. assert (qabs (- zq n - q) < Q2Qc (1 # 2))%Qc.
      { apply Qcnot_le_lt. intros H. apply Qcle_lt_or_eq in H.
        destruct (qltb (- zq n - q) 0) eqn:S; unfold qabs in H; rewrite S in H;
          [apply qltb_iff in S|apply qltb_false in S]; destruct H as [H|H]; qclra. }
      qclra.
    + exfalso. qclra.
    + right. split.
      * unfold qabs. destruct (qltb (- zq n - q) 0) eqn:S; [apply qltb_iff in S|apply qltb_false in S]; qclra.
      * destruct (qabs_bounds (- zq n)). apply Qcle_trans with (zq n); [|qclra].
        apply qabs_le. split; qclra.
Qed.

(** ** Volumes *)
Section Control.
  Context (read_int : string -> io Z) (read_real : string -> io Qc)
          (read_3 : string -> io (Qc * Qc * Qc)).
  Context (sqrt2 : Qc) (natoms : Z) (lat_param : Qc) (lat : qmat).
  Context (Hs : lat_param <> 0%Qc) (Hd : qdet lat <> 0%Qc).
  Local Notation vol := (c_vol lat_param lat).
  Local Notation r_vol := (c_r_vol lat_param lat).
  Local Notation step := (do_line read_int read_real read_3 sqrt2 natoms lat_param lat).
  Local Notation steps := (do_lines read_int read_real read_3 sqrt2 natoms lat_param lat).


  Lemma qabs_inv x : x <> 0%Qc -> qabs (1 / x) = (1 / qabs x)%Qc.
  Proof.
    intros Hx. unfold qabs. destruct (qltb x 0) eqn:S.
    - apply qltb_iff in S. assert (L : (1 / x < 0)%Qc).
      { apply Qcnot_le_lt. intros H. assert (K : (1 / x * x <= 0 * x)%Qc -> False).
        { replace (1 / x * x)%Qc with 1%Qc by now field. replace (0 * x)%Qc with 0%Qc by ring. intros K.
          revert K. apply Qclt_not_le. reflexivity. }
        apply K. replace (1 / x * x)%Qc with (- (1 / x * - x))%Qc by ring.
        replace (0 * x)%Qc with (- (0 * - x))%Qc by ring. apply Qcopp_le_compat.
        apply Qcmult_le_compat_r; [exact H|qclra]. }
      apply qltb_iff in L. rewrite L. field. split; [|exact Hx].
      intros E. apply Hx. replace x with (- - x)%Qc by ring. rewrite E. ring.
    - apply qltb_false in S. assert (L : (0 <= 1 / x)%Qc).
      { apply Qcnot_lt_le. intros H. apply Qcle_lt_or_eq in S. destruct S as [S|S]; [|now destruct Hx].
        pose proof (Qcmult_lt_compat_r _ _ _ S H) as K.
        replace (1 / x * x)%Qc with 1%Qc in K by now field. replace (0 * x)%Qc with 0%Qc in K by ring.
        revert K. apply Qcle_not_lt. discriminate. }
      apply qltb_false in L. now rewrite L.
  Qed.
  Lemma qabs_pmul p x : (0 < p)%Qc -> qabs (p * x) = (p * qabs x)%Qc.
  Proof.
    intros Hp. unfold qabs. destruct (qltb x 0) eqn:S.
    - apply qltb_iff in S. assert (L : (p * x < 0)%Qc).
      { pose proof (Qcmult_lt_compat_r _ _ _ Hp S) as K. rewrite Qcmult_comm in K.
        replace (0 * p)%Qc with 0%Qc in K by ring. exact K. }
      apply qltb_iff in L. rewrite L. ring.
    - apply qltb_false in S. assert (L : (0 <= p * x)%Qc).
      { pose proof (Qcmult_le_compat_r _ _ _ S (Qclt_le_weak _ _ Hp)) as K. rewrite (Qcmult_comm x p) in K.
        replace (0 * p)%Qc with 0%Qc in K by ring. exact K. }
      apply qltb_false in L. now rewrite L.
  Qed.
  Lemma qdet_scale s A : qdet (qscale s A) = (s * s * s * qdet A)%Qc.
  Proof. unfold qdet, qscale. cbn. ring. Qed.
  Lemma cell_det : qdet (qscale lat_param lat) <> 0%Qc.
  Proof. rewrite qdet_scale. repeat apply Qc_mul_neq0; assumption. Qed.
  Lemma vol_pos : (0 < vol)%Qc.
  Proof. apply qabs_pos. exact cell_det. Qed.
  Lemma r_vol_eq : let p := ((1 + 1) * f_pi)%Qc in r_vol = (p * p * p / vol)%Qc.
  Proof.
    cbv zeta. unfold c_r_vol, c_vol. rewrite qdet_scale. set (M := qscale lat_param lat).
    assert (DM : qdet M <> 0%Qc) by exact cell_det.
    assert (DI : qdet (qinv (qtr M)) = (1 / qdet M)%Qc).
    { assert (DT : qdet (qtr M) <> 0%Qc) by now rewrite qdet_tr.
      pose proof (f_equal qdet (qinv_r _ DT)) as E. rewrite qdet_mul, qdet_id, qdet_tr in E.
      rewrite <- E. field. exact DM. }
    rewrite DI. clear DI. set (p := ((1 + 1) * f_pi)%Qc). assert (Hp : (0 < p)%Qc) by reflexivity. clearbody p.
    rewrite <- !Qcmult_assoc, !qabs_pmul by exact Hp. rewrite qabs_inv by exact DM.
    assert (HV : qabs (qdet M) <> 0%Qc) by (intros E; apply (Qclt_not_eq _ _ (qabs_pos _ DM)); now symmetry).
    revert HV. generalize (qabs (qdet M)). intros w HV. now field.
  Qed.
  Lemma spacing_eq x : x <> 0%Qc ->
    (let y := 1 / ((1 + 1) * f_pi * x) in y * y * y * r_vol)%Qc = (1 / (x * x * x * vol))%Qc.
  Proof.
    intros Hx. rewrite r_vol_eq. cbv zeta. assert (Hp : ((1 + 1) * f_pi <> 0)%Qc)
      by (apply not_eq_sym, Qclt_not_eq; reflexivity).
    revert Hp. generalize ((1 + 1) * f_pi)%Qc. intros p Hp.
    assert (HV : vol <> 0%Qc) by (intros E; apply (Qclt_not_eq _ _ vol_pos); now symmetry).
    revert HV. generalize vol. intros w HV. field. now repeat split.
  Qed.
End Control.
