(** reduce_cell of niggli.f90: the same loop as the Python class, and when the final check
    can fail. *)
From Coq Require Import ZArith QArith Qcanon List Bool Lia.
From Verif Require Import Mat3 QMat QNum QcTac Spec_niggli Spec_niggli_f90 Model_pyniggli Model_niggli_f90
  Proofs_pyniggli Proofs_pyniggli2.
Import ListNotations.
Open Scope Qc_scope.

Definition to_f (p : params) : fparams :=
  FParams (pA p) (pB p) (pC p) (pxi p) (peta p) (pzeta p) (pl p) (pm p) (pn p).
Lemma get_params_f eps IN C : f_get_params eps (qmul IN (qof C)) = to_f (get_params eps IN C).
Proof.
  unfold f_get_params, to_f, get_params. generalize (qmul IN (qof C)). intros m. cbv zeta.
  cbn [pA pB pC pxi peta pzeta pl pm pn].
  unfold f_dot11, f_dot22, f_dot33, f_dot23, f_dot31, f_dot12, f_two, f_sign_eps,
    dot_aa, dot_bb, dot_cc, dot_bc, dot_ca, dot_ab, qtwo, sign_eps. reflexivity.
Qed.
Lemma f_c1 eps p : f_cond1 eps (to_f p) = cond1 eps p.
Proof. unfold f_cond1, cond1, to_f. cbn [fA fB fC fxi feta fzeta]. reflexivity. Qed.
Lemma f_c2 eps p : f_cond2 eps (to_f p) = cond2 eps p.
Proof. unfold f_cond2, cond2, to_f. cbn [fA fB fC fxi feta fzeta]. reflexivity. Qed.
Lemma f_c5 eps p : f_cond5 eps (to_f p) = cond5 eps p.
Proof. unfold f_cond5, cond5, to_f, f_two, qtwo. cbn [fA fB fC fxi feta fzeta]. reflexivity. Qed.
Lemma f_c6 eps p : f_cond6 eps (to_f p) = cond6 eps p.
Proof. unfold f_cond6, cond6, to_f, f_two, qtwo. cbn [fA fB fC fxi feta fzeta]. reflexivity. Qed.
Lemma f_c7 eps p : f_cond7 eps (to_f p) = cond7 eps p.
Proof. unfold f_cond7, cond7, to_f, f_two, qtwo. cbn [fA fB fC fxi feta fzeta]. reflexivity. Qed.
Lemma f_c8 eps p : f_cond8 eps (to_f p) = cond8 eps p.
Proof. unfold f_cond8, cond8, to_f, f_two, qtwo. cbn [fA fB fC fxi feta fzeta]. reflexivity. Qed.
Lemma get_sign_f x : f_get_sign x = qsign x.
Proof.
  unfold f_get_sign, qsign, qgtb. destruct (qltb 0 x) eqn:E, (qltb x 0) eqn:F; try reflexivity.
  apply qltb_iff in E, F. exfalso. exact (Qclt_not_le _ _ E (Qclt_le_weak _ _ F)).
Qed.
Lemma apply_f eps IN r C M :
  f_apply eps IN r C M = FState r (fst (upd eps IN C M)) (to_f (snd (upd eps IN C M))).
Proof. unfold f_apply, upd. cbv zeta. rewrite get_params_f. reflexivity. Qed.

Lemma body_f eps IN r C p :
  f_body eps IN (FState r C (to_f p)) =
  let '(C', p', r') := pass eps IN (C, p) in FState r' C' (to_f p').
Proof.
  rewrite pass_stages. unfold f_body, stage1, stage3, stage4, stage58. cbv zeta.
  cbn [s_reduced s_trans s_par fst snd].
  rewrite f_c1.
  assert (K : forall C p rr,
    (let s := FState rr C (to_f p) in
     if f_cond2 eps (s_par s)
     then f_apply eps IN false (s_trans s) (Mat3 (-1) 0 0 0 0 (-1) 0 (-1) 0) else
     let s := if f_cond3 (s_par s) then
             let temp_M := f_find_C3 (fl (s_par s)) (fm (s_par s)) (fn (s_par s)) in
             f_apply eps IN (if negb (meqb temp_M mid) then false else s_reduced s)
               (s_trans s) temp_M
           else s in
     let s := if f_cond4 (s_par s) then
             let temp_M := f_find_C4 (fl (s_par s)) (fm (s_par s)) (fn (s_par s)) in
             f_apply eps IN (if negb (meqb temp_M mid) then false else s_reduced s)
               (s_trans s) temp_M
           else s in
     if f_cond5 eps (s_par s) then
       f_apply eps IN false (s_trans s) (Mat3 1 0 0 0 1 (- f_get_sign (fxi (s_par s))) 0 0 1) else
     if f_cond6 eps (s_par s) then
       f_apply eps IN false (s_trans s) (Mat3 1 0 (- f_get_sign (feta (s_par s))) 0 1 0 0 0 1) else
     if f_cond7 eps (s_par s) then
       f_apply eps IN false (s_trans s) (Mat3 1 (- f_get_sign (fzeta (s_par s))) 0 0 1 0 0 0 1) else
     if f_cond8 eps (s_par s) then
       f_apply eps IN false (s_trans s) (Mat3 1 0 1 0 1 1 0 0 1) else s) =
    let '(C', p', r') :=
      (if cond2 eps p then (upd eps IN C step2, false) else
       stage58 eps IN (stage4 eps IN (stage3 eps IN (C, p, rr)))) in FState r' C' (to_f p')).
  { clear. intros C p rr. cbv zeta. cbn [s_reduced s_trans s_par].
    rewrite f_c2. destruct (cond2 eps p).
    { rewrite apply_f. destruct (upd eps IN C step2) as [C' p'] eqn:E.
      unfold step2 in E. rewrite E. reflexivity. }
    assert (K5 : forall C p rr,
      (let s := FState rr C (to_f p) in
       if f_cond5 eps (s_par s) then
         f_apply eps IN false (s_trans s) (Mat3 1 0 0 0 1 (- f_get_sign (fxi (s_par s))) 0 0 1) else
       if f_cond6 eps (s_par s) then
         f_apply eps IN false (s_trans s) (Mat3 1 0 (- f_get_sign (feta (s_par s))) 0 1 0 0 0 1) else
       if f_cond7 eps (s_par s) then
         f_apply eps IN false (s_trans s) (Mat3 1 (- f_get_sign (fzeta (s_par s))) 0 0 1 0 0 0 1) else
       if f_cond8 eps (s_par s) then
         f_apply eps IN false (s_trans s) (Mat3 1 0 1 0 1 1 0 0 1) else s) =
      let '(C', p', r') := stage58 eps IN (C, p, rr) in FState r' C' (to_f p')).
    { clear. intros C p rr. cbv zeta. unfold stage58. cbv zeta. cbn [s_par s_trans fst snd].
      rewrite !get_sign_f.
      rewrite f_c5, f_c6, f_c7, f_c8.
      change (fxi (to_f p)) with (pxi p). change (feta (to_f p)) with (peta p).
      change (fzeta (to_f p)) with (pzeta p).
      destruct (cond5 eps p); [rewrite apply_f; fold (step5 (pxi p)); destruct (upd _ _ _ _); reflexivity|].
      destruct (cond6 eps p); [rewrite apply_f; fold (step6 (peta p)); destruct (upd _ _ _ _); reflexivity|].
      destruct (cond7 eps p); [rewrite apply_f; fold (step7 (pzeta p)); destruct (upd _ _ _ _); reflexivity|].
      destruct (cond8 eps p); [rewrite apply_f; fold step8; destruct (upd _ _ _ _); reflexivity|].
      reflexivity. }
    assert (K4 : forall C p rr,
      (if f_cond4 (to_f p) then
         let temp_M := f_find_C4 (fl (to_f p)) (fm (to_f p)) (fn (to_f p)) in
         f_apply eps IN (if negb (meqb temp_M mid) then false else rr) C temp_M
       else FState rr C (to_f p)) =
      let '(C', p', r') := stage4 eps IN (C, p, rr) in FState r' C' (to_f p')).
    { clear. intros C p rr. unfold stage4. cbv zeta. cbn [fst snd].
      change (f_cond4 (to_f p)) with (cond4 p). destruct (cond4 p); [|reflexivity].
      change (f_find_C4 (fl (to_f p)) (fm (to_f p)) (fn (to_f p))) with (find_C4 (pl p) (pm p) (pn p)).
      rewrite apply_f. destruct (upd _ _ _ _), (meqb _ _); reflexivity. }
    assert (K3 : forall C p rr,
      (if f_cond3 (to_f p) then
         let temp_M := f_find_C3 (fl (to_f p)) (fm (to_f p)) (fn (to_f p)) in
         f_apply eps IN (if negb (meqb temp_M mid) then false else rr) C temp_M
       else FState rr C (to_f p)) =
      let '(C', p', r') := stage3 eps IN (C, p, rr) in FState r' C' (to_f p')).
    { clear. intros C p rr. unfold stage3. cbv zeta. cbn [fst snd].
      change (f_cond3 (to_f p)) with (cond3 p). destruct (cond3 p); [|reflexivity].
      change (f_find_C3 (fl (to_f p)) (fm (to_f p)) (fn (to_f p))) with (find_C3 (pl p) (pm p) (pn p)).
      rewrite apply_f. destruct (upd _ _ _ _), (meqb _ _); reflexivity. }
    cbv zeta in K3, K4, K5. rewrite K3. destruct (stage3 eps IN (C, p, rr)) as [[C3 p3] r3].
    cbn [s_reduced s_trans s_par]. rewrite K4. destruct (stage4 eps IN (C3, p3, r3)) as [[C4 p4] r4].
    apply K5. }
  cbv zeta in K. cbn [s_reduced s_trans s_par] in K.
  destruct (cond1 eps p).
  - rewrite apply_f. fold step1. destruct (upd eps IN C step1) as [C' p']. cbn [fst snd].
    cbn [s_reduced s_trans s_par]. rewrite (K C' p' false).
    destruct (cond2 eps p'); reflexivity.
  - cbn [fst snd s_reduced s_trans s_par]. rewrite (K C p true). destruct (cond2 eps p); reflexivity.
Qed.

Lemma loop_f eps IN fuel : forall r count C p,
  f_loop eps IN fuel count (FState r C (to_f p)) =
  let '(C', p', count') := loop eps IN fuel r count (C, p) in
  (FState (s_reduced (fst (f_loop eps IN fuel count (FState r C (to_f p))))) C' (to_f p'), count').
Proof.
  induction fuel as [|f IH]; intros r count C p; cbn [f_loop loop s_reduced].
  - destruct (_ && _); reflexivity.
  - destruct (negb r && Z.leb count 1000); [|reflexivity].
    rewrite body_f. destruct (pass eps IN (C, p)) as [[C' p'] r']. apply IH.
Qed.

Lemma reduce_final eps IN :
  f_reduce eps IN =
  let '(C, p, count) := final eps IN in
  if Z.leb 1000 count then Gave_up else
  if negb (f_condition_check (pA p) (pB p) (pC p) (pxi p) (peta p) (pzeta p) eps)
  then Not_niggli else FReduced (qmul IN (qof C)) C.
Proof.
  unfold f_reduce, final.
  replace (f_get_params eps IN) with (to_f (get_params eps IN mid))
    by (rewrite <- get_params_f, qof_id, qmul_id_r; reflexivity).
  rewrite loop_f. change f_fuel with loop_fuel.
  destruct (loop eps IN loop_fuel false 0 (mid, get_params eps IN mid)) as [[C p] count].
  reflexivity.
Qed.

(** ** The loop and the Python class *)
Lemma f_gave_up eps M : f_reduce eps M = Gave_up <-> niggli_reduction eps M = TooManyIterations.
Proof.
  rewrite reduce_final, reduction_final. destruct (final eps M) as [[C p] count].
  destruct (Z.leb 1000 count); [tauto|].
  destruct (negb _), (negb _); split; intros H; discriminate H.
Qed.
Lemma f_same eps M N C N' C' : f_reduce eps M = FReduced N C ->
  niggli_reduction eps M = Reduced N' C' -> N = N' /\ C = C'.
Proof.
  rewrite reduce_final, reduction_final. destruct (final eps M) as [[D p] count].
  destruct (Z.leb 1000 count); [discriminate|].
  destruct (negb _); [discriminate|]. destruct (negb _); [discriminate|].
  intros [= <- <-] [= <- <-]. split; reflexivity.
Qed.
Lemma f_reduced eps M N C : f_reduce eps M = FReduced N C ->
  mdet C = 1%Z /\ N = qmul M (qof C) /\ settled eps (get_params eps M C).
Proof.
  rewrite reduce_final. pose proof (final_good eps M) as HG. pose proof (final_settled eps M) as HS.
  destruct (final eps M) as [[D p] count]. cbn [fst snd] in HG, HS.
  destruct (Z.leb 1000 count) eqn:E; [discriminate|]. apply Z.leb_gt in E.
  destruct HG as (HD & HP). cbn [fst snd] in HD, HP. destruct (negb _); [discriminate|].
  intros [= <- <-]. split; [exact HD|]. split; [reflexivity|]. rewrite <- HP. apply HS. lia.
Qed.

(** ** When the check fails *)
Lemma leq_pass e x y : 0 <= e -> x <= y + e -> ~ (x - y = e \/ x - y = - e) ->
  qltb x (y - e) || qltb (qabs (x - y)) e = true.
Proof.
  intros He H T. apply orb_true_iff. rewrite !qltb_iff.
  destruct (Qclt_le_dec x (y - e)) as [L|L]; [now left|right].
  assert (x - y <= e /\ - e <= x - y) as [P Q] by (split; qclra).
  apply Qcle_lt_or_eq in P, Q.
  destruct P as [P|P]; [|exfalso; tauto]. destruct Q as [Q|Q]; [|exfalso; apply T; right; now symmetry].
  unfold qabs. destruct (qltb (x - y) 0); qclra.
Qed.
Lemma near_within e x y : qltb (qabs (x - y)) e = true -> within (x - y) e.
Proof.
  rewrite qltb_iff. intros H. destruct (qabs_bounds (x - y)) as [P Q].
  split; qclra.
Qed.
Lemma zero_strict e x : - e <= x -> x <= e -> ~ (x = e \/ x = - e) -> qltb (qabs x) e = true.
Proof.
  intros P Q T. apply Qcle_lt_or_eq in P, Q.
  destruct P as [P|P]; [|exfalso; apply T; right; now symmetry].
  destruct Q as [Q|Q]; [|exfalso; tauto].
  apply qltb_iff. unfold qabs. destruct (qltb x 0); qclra.
Qed.

Lemma ncn b : negb (negb b) = b.
Proof. apply negb_involutive. Qed.
Lemma imp_b a b : negb (a && negb b) = true <-> (a = true -> b = true).
Proof. destruct a, b; cbn; intuition congruence. Qed.

Lemma check_passes e A B C xi eta zeta : 0 <= e -> e < A ->
  niggli_cell_upto e A B C xi eta zeta -> ~ at_tolerance e A B C xi eta zeta ->
  f_condition_check A B C xi eta zeta e = true.
Proof.
  intros He HA [K1 K2 K3 K4 K5 K6 K7 K8 K9 K10 K11 K12 K13 K14 K15 K16] HT.
  assert (T : forall v, In v (compared A B C xi eta zeta) -> ~ (v = e \/ v = - e)).
  { intros v Hv Hc. apply HT. exists v. now split. }
  clear HT. unfold compared in T. cbn [In] in T.
  assert (TAB := T (A - B) ltac:(tauto)). assert (TBC := T (B - C) ltac:(tauto)).
  assert (Txe := T (qabs xi - qabs eta) ltac:(tauto)).
  assert (Tez := T (qabs eta - qabs zeta) ltac:(tauto)).
  assert (Tx := T xi ltac:(tauto)). assert (Te := T eta ltac:(tauto)).
  assert (Tz := T zeta ltac:(tauto)).
  assert (TxB := T (qabs xi - B) ltac:(tauto)). assert (TeA := T (qabs eta - A) ltac:(tauto)).
  assert (TzA := T (qabs zeta - A) ltac:(tauto)).
  assert (TS := T (A + B + xi + eta + zeta) ltac:(tauto)).
  assert (Tze := T (zeta - (eta + eta)) ltac:(tauto)).
  assert (Tzx := T (zeta - (xi + xi)) ltac:(tauto)).
  assert (Tex := T (eta - (xi + xi)) ltac:(tauto)).
  assert (T2 := T (A + A + (eta + eta) + zeta) ltac:(tauto)). clear T.
  assert (HB : 0 < B) by (clear - He HA K1; qclra).
  unfold f_condition_check. cbv zeta. rewrite !ncn, !andb_true_iff.
  unfold f_two. replace ((1 + 1) * eta) with (eta + eta) by ring.
  replace ((1 + 1) * xi) with (xi + xi) by ring. replace ((1 + 1) * A) with (A + A) by ring.
  assert (ES : forall x, C - (A + B + C + xi + eta + zeta) = - x -> x = A + B + xi + eta + zeta).
  { intros x E. replace x with (- (C - (A + B + C + xi + eta + zeta))) by (rewrite E; ring). ring. }
  assert (Near : forall x y, qltb (qabs (x - y)) e = true -> within (x - y) e /\ within (y - x) e).
  { clear. intros x y H. apply qltb_iff in H. destruct (qabs_bounds (x - y)) as [P Q].
    unfold within. repeat split; qclra. }
  assert (Zero : forall x, qltb (qabs x) e = true -> - e < x /\ x < e).
  { clear. intros x H. apply qltb_iff in H. destruct (qabs_bounds x) as [P Q]. split; qclra. }
  refine (conj (conj (conj (conj (conj (conj (conj (conj (conj (conj (conj (conj (conj _ _) _) _) _)
    _) _) _) _) _) _) _) _) _).
  - rewrite qgtb_iff. repeat split.
    + clear - HA. qclra.
    + now apply leq_pass.
    + now apply leq_pass.
  - rewrite imp_b. intros N. apply Near in N. destruct N as [N _].
    apply leq_pass; [exact He| |exact Txe]. apply abs_le_upto_qabs, qgtb_false in K8; assumption.
  - rewrite imp_b. intros N. apply Near in N. destruct N as [_ N].
    apply leq_pass; [exact He| |exact Tez]. apply abs_le_upto_qabs, qgtb_false in K9; assumption.
  - rewrite orb_true_iff, !andb_true_iff, !qgtb_iff. destruct K6 as [(P & Q & R)|(P & Q & R)].
    + left. clear - P Q R. repeat split; qclra.
    + right. assert (X : forall x, x <= e -> ~ (x = e \/ x = - e) ->
                 qltb x 0 || qltb (qabs x) e = true).
      { clear - He. intros x P T. apply orb_true_iff.
        destruct (Qclt_le_dec x 0) as [L|L]; [left; now apply qltb_iff|right].
        apply zero_strict; [qclra|exact P|exact T]. }
      repeat split; now apply X.
  - apply leq_pass; [exact He| |exact TxB]. apply qabs_le. exact K3.
  - split; apply leq_pass; try assumption; apply qabs_le; assumption.
  - apply leq_pass; [exact He| |].
    + clear - K7. qclra.
    + intros [E|E]; apply TS; [right|left].
      * rewrite <- E. ring.
      * symmetry. apply ES. rewrite E. ring.
  - rewrite imp_b. intros N. apply Near in N. destruct N as [_ N]. specialize (K10 N).
    apply leq_pass; [exact He| |exact Tze]. clear - K10. qclra.
  - rewrite imp_b. intros N. apply Near in N. destruct N as [_ N]. specialize (K11 N).
    apply leq_pass; [exact He| |exact Tzx]. clear - K11. qclra.
  - rewrite imp_b. intros N. apply Near in N. destruct N as [_ N]. specialize (K12 N).
    apply leq_pass; [exact He| |exact Tex]. clear - K12. qclra.
  - rewrite imp_b. intros N. apply Zero in N. destruct N as [N1 N2].
    assert (W : within (B + xi) e) by (clear - N1 N2; split; qclra). specialize (K13 W).
    destruct K6 as [(P & Q & R)|(P & Q & R)]; [exfalso; clear - N2 P HB He; qclra|].
    now apply zero_strict.
  - rewrite imp_b. intros N. apply Zero in N. destruct N as [N1 N2].
    assert (W : within (A + eta) e) by (clear - N1 N2; split; qclra). specialize (K14 W).
    destruct K6 as [(P & Q & R)|(P & Q & R)]; [exfalso; clear - N2 Q HA He; qclra|].
    now apply zero_strict.
  - rewrite imp_b. intros N. apply Zero in N. destruct N as [N1 N2].
    assert (W : within (A + zeta) e) by (clear - N1 N2; split; qclra). specialize (K15 W).
    destruct K6 as [(P & Q & R)|(P & Q & R)]; [exfalso; clear - N2 R HA He; qclra|].
    now apply zero_strict.
  - rewrite imp_b. intros N. apply Near in N. destruct N as [N _].
    assert (W : within (A + B + xi + eta + zeta) e) by (clear - N; destruct N; split; qclra).
    specialize (K16 W). replace (- e) with (0 - e) by ring.
    replace (qabs (A + A + (eta + eta) + zeta)) with (qabs (A + A + (eta + eta) + zeta - 0))
      by (f_equal; ring).
    apply leq_pass; [exact He|clear - K16; qclra|].
    replace (A + A + (eta + eta) + zeta - 0) with (A + A + (eta + eta) + zeta) by ring. exact T2.
Qed.

Lemma at_tolerance_dec e A B C xi eta zeta :
  {at_tolerance e A B C xi eta zeta} + {~ at_tolerance e A B C xi eta zeta}.
Proof.
  unfold at_tolerance.
  generalize (compared A B C xi eta zeta).
  intros l. destruct (Exists_dec (fun v => v = e \/ v = - e) l) as [H|H].
  - intros v. destruct (Qc_eq_dec v e); [left; now left|]. destruct (Qc_eq_dec v (- e)); [left; now right|].
    right. tauto.
  - left. apply Exists_exists in H. exact H.
  - right. intros (v & Hv). apply H, Exists_exists. now exists v.
Defined.

Lemma get_params_six eps M C p : get_params eps M C = p ->
  let G := qgram (qmul M (qof C)) in
  pA p = q11 G /\ pB p = q22 G /\ pC p = q33 G /\
  pxi p = q23 G + q23 G /\ peta p = q13 G + q13 G /\ pzeta p = q12 G + q12 G.
Proof.
  intros <-. unfold get_params. generalize (qmul M (qof C)). intros m. cbv zeta.
  cbn [pA pB pC pxi peta pzeta].
  unfold dot_aa, dot_bb, dot_cc, dot_bc, dot_ca, dot_ab, qtwo, qgram, qmul, qtr. qcbn.
  repeat split; ring.
Qed.

Lemma f_refused eps M : 0 <= eps -> f_reduce eps M = Not_niggli ->
  exists C, mdet C = 1%Z /\ is_niggli_upto eps (qmul M (qof C)) /\
    (q11 (qgram (qmul M (qof C))) <= eps \/ cell_params (at_tolerance eps) (qmul M (qof C))).
Proof.
  intros He. rewrite reduce_final. pose proof (final_good eps M) as HG.
  pose proof (final_settled eps M) as HS.
  destruct (final eps M) as [[D p] count]. cbn [fst snd] in HG, HS.
  destruct (Z.leb 1000 count) eqn:E; [discriminate|]. apply Z.leb_gt in E.
  destruct HG as (HD & HP). cbn [fst snd] in HD, HP.
  assert (HS' : settled eps p) by (apply HS; lia). clear HS.
  rewrite HP in HS'. apply (settled_iff eps M D He) in HS'.
  destruct (negb _) eqn:EC; [intros _|discriminate]. apply negb_true_iff in EC.
  exists D. split; [exact HD|]. split; [exact HS'|].
  destruct (Qclt_le_dec eps (q11 (qgram (qmul M (qof D))))) as [L|L]; [right|now left].
  destruct (get_params_six eps M D p (eq_sym HP)) as (E1 & E2 & E3 & E4 & E5 & E6).
  rewrite E1, E2, E3, E4, E5, E6 in EC.
  unfold is_niggli_upto, cell_params in *. cbv zeta in *.
  destruct (at_tolerance_dec eps (q11 (qgram (qmul M (qof D)))) (q22 (qgram (qmul M (qof D))))
    (q33 (qgram (qmul M (qof D))))
    (q23 (qgram (qmul M (qof D))) + q23 (qgram (qmul M (qof D))))
    (q13 (qgram (qmul M (qof D))) + q13 (qgram (qmul M (qof D))))
    (q12 (qgram (qmul M (qof D))) + q12 (qgram (qmul M (qof D))))) as [T|T]; [exact T|exfalso].
  rewrite (check_passes _ _ _ _ _ _ _ He L HS' T) in EC. discriminate EC.
Qed.

(** A cell that passes Python's check but not the Fortran one, and conversely, is at a tie:
    away from ties the Fortran program accepts what the loop produces. *)
Lemma f_accepts eps M N C : 0 <= eps -> niggli_reduction eps M = Reduced N C ->
  eps < q11 (qgram N) -> ~ cell_params (at_tolerance eps) N -> f_reduce eps M = FReduced N C.
Proof.
  intros He HR HA HT. destruct (f_reduce eps M) as [| | |N' C'] eqn:E.
  - exfalso. revert E. rewrite reduce_final. destruct (final eps M) as [[D p] count].
    destruct (Z.leb 1000 count); [discriminate|]. destruct (negb _); discriminate.
  - apply f_gave_up in E. congruence.
  - exfalso. rewrite reduce_final in E. rewrite reduction_final in HR.
    pose proof (final_good eps M) as HG. pose proof (final_settled eps M) as HS.
    destruct (final eps M) as [[D p] count]. cbn [fst snd] in HG, HS.
    destruct (Z.leb 1000 count) eqn:EL; [discriminate|]. apply Z.leb_gt in EL.
    destruct HG as (HD & HP). cbn [fst snd] in HD, HP.
    assert (HS' : settled eps p) by (apply HS; lia). clear HS.
    rewrite HP in HS'. apply (settled_iff eps M D He) in HS'.
    destruct (negb (niggli_check _ _ _ _ _ _ _)); [discriminate|]. injection HR as <- <-.
    destruct (negb _) eqn:EC; [|discriminate]. apply negb_true_iff in EC.
    destruct (get_params_six eps M D p (eq_sym HP)) as (E1 & E2 & E3 & E4 & E5 & E6).
    rewrite E1, E2, E3, E4, E5, E6 in EC.
    unfold is_niggli_upto, cell_params in *. cbv zeta in *.
    rewrite (check_passes _ _ _ _ _ _ _ He HA HS' HT) in EC. discriminate EC.
  - destruct (f_same _ _ _ _ _ _ E HR) as [-> ->]. reflexivity.
Qed.

(** With a tolerance of zero every comparison of equal numbers fails. *)
Lemma zero_strict_lengths M N C : f_reduce 0 M = FReduced N C ->
  q11 (qgram N) < q22 (qgram N) /\ q22 (qgram N) < q33 (qgram N) /\
  q23 (qgram N) <> 0 /\ q13 (qgram N) <> 0 /\ q12 (qgram N) <> 0.
Proof.
  rewrite reduce_final. pose proof (final_good 0 M) as HG.
  destruct (final 0 M) as [[D p] count]. cbn [fst snd] in HG. destruct HG as (HD & HP).
  cbn [fst snd] in HD, HP. destruct (Z.leb 1000 count); [discriminate|].
  destruct (negb _) eqn:EC; [discriminate|]. intros [= <- <-]. apply negb_false_iff in EC.
  destruct (get_params_six 0 M D p (eq_sym HP)) as (E1 & E2 & E3 & E4 & E5 & E6). cbv zeta in *.
  rewrite <- E1, <- E2, <- E3. unfold f_condition_check in EC. cbv zeta in EC.
  rewrite !ncn, !andb_true_iff in EC.
  destruct EC as (((((((((((((((_ & H1) & H2) & _) & _) & H3) & _) & _) & _) & _) & _) & _) & _) & _) & _) & _).
  assert (X : forall x y, qltb x (y - 0) || qltb (qabs (x - y)) 0 = true -> x < y).
  { clear. intros x y H. apply orb_true_iff in H. rewrite !qltb_iff in H. destruct H as [H|H]; [qclra|].
    exfalso. destruct (qabs_bounds (x - y)). qclra. }
  split; [now apply X|]. split; [now apply X|].
  assert (Y : pxi p <> 0 /\ peta p <> 0 /\ pzeta p <> 0).
  { clear - H3. apply orb_true_iff in H3. unfold qgtb in H3.
    rewrite !andb_true_iff, !orb_true_iff, !qltb_iff in H3.
    destruct H3 as [((P1 & P2) & P3)|((P1 & P2) & P3)].
    - repeat split; intros E; rewrite E in *; qclra.
    - destruct (qabs_bounds (pxi p)). destruct (qabs_bounds (peta p)). destruct (qabs_bounds (pzeta p)).
      repeat split; intros E; [destruct P1 as [P|P]|destruct P2 as [P|P]|destruct P3 as [P|P]];
        rewrite E in *; qclra. }
  rewrite E4, E5, E6 in Y. destruct Y as (Y1 & Y2 & Y3).
  repeat split; intros E; [apply Y1|apply Y2|apply Y3]; rewrite E; ring.
Qed.
Lemma zero_cube : f_reduce 0 (qof mid) = Not_niggli.
Proof. vm_compute. reflexivity. Qed.

(** ** reduce_cell *)
Lemma reduce_cell_eps dep cbrt M eps_ : dep (qdet M) = false ->
  reduce_cell dep cbrt M eps_ = f_reduce (used_eps cbrt M eps_) M.
Proof. unfold reduce_cell, used_eps. intros ->. destruct eps_; reflexivity. Qed.
Lemma reduce_cell_dep dep cbrt M eps_ : dep (qdet M) = true <->
  reduce_cell dep cbrt M eps_ = Dependent.
Proof.
  destruct (dep (qdet M)) eqn:E.
  - unfold reduce_cell. rewrite E. tauto.
  - rewrite reduce_cell_eps by exact E. rewrite reduce_final.
    destruct (final (used_eps cbrt M eps_) M) as [[D p] count].
    split; [discriminate|]. destruct (Z.leb 1000 count); [discriminate|].
    destruct (negb _); discriminate.
Qed.
