(** Facts about the model of [reduced_cell]. *)
From Coq Require Import ZArith QArith Qcanon List Bool Lia.
From Verif Require Import Mat3 QMat QNum QcTac Spec_niggli Model_pyniggli.
Import ListNotations.
Open Scope Qc_scope.

(** ** Determinants of the steps *)
Lemma sign_eps_cases eps x :
  sign_eps eps x = (-1)%Z \/ sign_eps eps x = 0%Z \/ sign_eps eps x = 1%Z.
Proof. unfold sign_eps. destruct (qltb _ _); auto. destruct (qgtb _ _); auto. Qed.

Definition tri (z : Z) : Prop := (z = -1 \/ z = 0 \/ z = 1)%Z.

Lemma find_C3_det l m n : tri l -> tri m -> tri n ->
  (Z.eqb (l * m * n) 1)%Z = true -> mdet (find_C3 l m n) = 1%Z.
Proof.
  intros [ -> | [ -> | -> ]] [ -> | [ -> | -> ]] [ -> | [ -> | -> ]];
  cbv; intros E; try discriminate; reflexivity.
Qed.

Lemma find_C4_det l m n : tri l -> tri m -> tri n ->
  (Z.eqb (l * m * n) 0 || Z.eqb (l * m * n) (-1))%Z = true -> mdet (find_C4 l m n) = 1%Z.
Proof.
  intros [ -> | [ -> | -> ]] [ -> | [ -> | -> ]] [ -> | [ -> | -> ]];
  cbv; intros E; try discriminate; reflexivity.
Qed.

Lemma step5_det x : mdet (step5 x) = 1%Z.
Proof. unfold mdet, step5; cbn [m11 m12 m13 m21 m22 m23 m31 m32 m33]; ring. Qed.
Lemma step6_det x : mdet (step6 x) = 1%Z.
Proof. unfold mdet, step6; cbn [m11 m12 m13 m21 m22 m23 m31 m32 m33]; ring. Qed.
Lemma step7_det x : mdet (step7 x) = 1%Z.
Proof. unfold mdet, step7; cbn [m11 m12 m13 m21 m22 m23 m31 m32 m33]; ring. Qed.

(** Invariant of the loop: [self.C] has determinant 1 and the parameters are current. *)
Definition good (eps : Qc) (orig : qmat) (st : mat3 * params) : Prop :=
  mdet (fst st) = 1%Z /\ snd st = get_params eps orig (fst st).

Lemma good_upd eps orig C M : mdet C = 1%Z -> mdet M = 1%Z ->
  good eps orig (mmul C M, get_params eps orig (mmul C M)).
Proof. intros HC HM. split; [|reflexivity]. cbn [fst]. rewrite mdet_mul, HC, HM. reflexivity. Qed.

(** The pass as a sequence of stages (a plain restatement of [pass]). *)
Definition upd (eps : Qc) (orig : qmat) (C M : mat3) : mat3 * params :=
  (mmul C M, get_params eps orig (mmul C M)).
Definition stage1 eps orig (st : mat3 * params) : mat3 * params * bool :=
  if cond1 eps (snd st) then (upd eps orig (fst st) step1, false) else (st, true).
Definition stage3 eps orig (s : mat3 * params * bool) : mat3 * params * bool :=
  let st := fst s in let p := snd st in
  if cond3 p then
    let M := find_C3 (pl p) (pm p) (pn p) in
    (upd eps orig (fst st) M, if meqb M mid then snd s else false)
  else s.
Definition stage4 eps orig (s : mat3 * params * bool) : mat3 * params * bool :=
  let st := fst s in let p := snd st in
  if cond4 p then
    let M := find_C4 (pl p) (pm p) (pn p) in
    (upd eps orig (fst st) M, if meqb M mid then snd s else false)
  else s.
Definition stage58 eps orig (s : mat3 * params * bool) : mat3 * params * bool :=
  let C := fst (fst s) in let p := snd (fst s) in
  if cond5 eps p then (upd eps orig C (step5 (pxi p)), false) else
  if cond6 eps p then (upd eps orig C (step6 (peta p)), false) else
  if cond7 eps p then (upd eps orig C (step7 (pzeta p)), false) else
  if cond8 eps p then (upd eps orig C step8, false) else s.

Lemma pass_stages eps orig st :
  pass eps orig st =
  (let s1 := stage1 eps orig st in
   if cond2 eps (snd (fst s1)) then (upd eps orig (fst (fst s1)) step2, false) else
   stage58 eps orig (stage4 eps orig (stage3 eps orig s1))).
Proof.
  destruct st as [C p]. unfold pass, stage1, upd. cbv zeta.
  unfold stage3, stage4, stage58, upd. cbv zeta.
  generalize (get_params eps orig). intros g. cbn [fst snd].
  generalize dependent (cond1 eps). generalize (cond2 eps), cond3, cond4, (cond5 eps),
    (cond6 eps), (cond7 eps), (cond8 eps). intros c2 c3 c4 c5 c6 c7 c8 c1.
  generalize mmul, find_C3, find_C4. intros mm F3 F4.
  destruct (c1 p); cbn [fst snd].
  - destruct (c2 _); [reflexivity|]. destruct (c3 _); cbn [fst snd].
    + destruct (c4 _); cbn [fst snd]; reflexivity.
    + destruct (c4 _); cbn [fst snd]; reflexivity.
  - destruct (c2 _); [reflexivity|]. destruct (c3 _); cbn [fst snd].
    + destruct (c4 _); cbn [fst snd]; reflexivity.
    + destruct (c4 _); cbn [fst snd]; reflexivity.
Qed.

Lemma good_tri eps orig st : good eps orig st ->
  tri (pl (snd st)) /\ tri (pm (snd st)) /\ tri (pn (snd st)).
Proof.
  intros (_ & ->). unfold get_params. cbn [pl pm pn].
  split; [|split]; apply sign_eps_cases.
Qed.

Lemma good_stage1 eps orig st : good eps orig st -> good eps orig (fst (stage1 eps orig st)).
Proof.
  intros H. unfold stage1. destruct (cond1 _ _); [|exact H].
  apply good_upd; [apply H|reflexivity].
Qed.
Lemma good_stage3 eps orig s : good eps orig (fst s) -> good eps orig (fst (stage3 eps orig s)).
Proof.
  intros H. unfold stage3. cbv zeta. destruct (cond3 _) eqn:E; [|exact H].
  apply good_upd; [apply H|]. destruct (good_tri eps orig (fst s) H) as (H1 & H2 & H3).
  now apply find_C3_det.
Qed.
Lemma good_stage4 eps orig s : good eps orig (fst s) -> good eps orig (fst (stage4 eps orig s)).
Proof.
  intros H. unfold stage4. cbv zeta. destruct (cond4 _) eqn:E; [|exact H].
  apply good_upd; [apply H|]. destruct (good_tri eps orig (fst s) H) as (H1 & H2 & H3).
  now apply find_C4_det.
Qed.
Lemma good_stage58 eps orig s : good eps orig (fst s) -> good eps orig (fst (stage58 eps orig s)).
Proof.
  intros H. unfold stage58. cbv zeta.
  destruct (cond5 _ _); [apply good_upd; [apply H|apply step5_det]|].
  destruct (cond6 _ _); [apply good_upd; [apply H|apply step6_det]|].
  destruct (cond7 _ _); [apply good_upd; [apply H|apply step7_det]|].
  destruct (cond8 _ _); [apply good_upd; [apply H|reflexivity]|]. exact H.
Qed.

Lemma good_pass eps orig st : good eps orig st -> good eps orig (fst (pass eps orig st)).
Proof.
  intros H. rewrite pass_stages. cbv zeta.
  pose proof (good_stage1 eps orig st H) as H1.
  destruct (cond2 _ _); [apply good_upd; [apply H1|reflexivity]|].
  now apply good_stage58, good_stage4, good_stage3.
Qed.

(** ** What a pass that changes nothing says *)
Definition settled (eps : Qc) (p : params) : Prop :=
  cond1 eps p = false /\ cond2 eps p = false /\
  ((cond3 p = true /\ find_C3 (pl p) (pm p) (pn p) = mid) \/
   (cond4 p = true /\ find_C4 (pl p) (pm p) (pn p) = mid)) /\
  cond5 eps p = false /\ cond6 eps p = false /\ cond7 eps p = false /\ cond8 eps p = false.

Lemma cond34 eps orig st : good eps orig st ->
  (cond3 (snd st) = true /\ cond4 (snd st) = false) \/
  (cond3 (snd st) = false /\ cond4 (snd st) = true).
Proof.
  intros H. destruct (good_tri eps orig st H) as (H1 & H2 & H3).
  unfold cond3, cond4. destruct H1 as [ -> | [ -> | -> ]], H2 as [ -> | [ -> | -> ]],
    H3 as [ -> | [ -> | -> ]]; cbv; auto.
Qed.

Lemma good_same eps orig st : good eps orig st ->
  upd eps orig (fst st) mid = st.
Proof.
  intros (_ & H). destruct st as [C p]. cbn [fst snd] in *. unfold upd.
  rewrite mmul_id_r. now rewrite H.
Qed.

(** A pass reports [reduced] exactly when the state is settled, and then leaves it alone. *)
Lemma pass_reduced eps orig st : good eps orig st ->
  snd (pass eps orig st) = true -> settled eps (snd st) /\ fst (pass eps orig st) = st.
Proof.
  intros HG. rewrite pass_stages. cbv zeta. unfold stage1.
  destruct (cond1 eps (snd st)) eqn:C1; cbn [fst snd].
  - destruct (cond2 _ _); [discriminate|].
    assert (F3 : forall s, snd s = false -> snd (stage3 eps orig s) = false).
    { intros s Hs. unfold stage3. cbv zeta. destruct (cond3 _); [|exact Hs]. cbn [snd].
      rewrite Hs. now destruct (meqb _ _). }
    assert (F4 : forall s, snd s = false -> snd (stage4 eps orig s) = false).
    { intros s Hs. unfold stage4. cbv zeta. destruct (cond4 _); [|exact Hs]. cbn [snd].
      rewrite Hs. now destruct (meqb _ _). }
    assert (F5 : forall s, snd s = false -> snd (stage58 eps orig s) = false).
    { intros s Hs. unfold stage58. cbv zeta.
      destruct (cond5 _ _); [reflexivity|]. destruct (cond6 _ _); [reflexivity|].
      destruct (cond7 _ _); [reflexivity|]. destruct (cond8 _ _); [reflexivity|exact Hs]. }
    rewrite F5; [discriminate|]. apply F4, F3. reflexivity.
  - destruct (cond2 eps (snd st)) eqn:C2; [discriminate|].
    set (s34 := stage4 eps orig (stage3 eps orig (st, true))).
    intros HR.
    assert (R34 : snd s34 = true).
    { revert HR. unfold stage58. cbv zeta.
      destruct (cond5 _ _); [discriminate|]. destruct (cond6 _ _); [discriminate|].
      destruct (cond7 _ _); [discriminate|]. destruct (cond8 _ _); [discriminate|auto]. }
    assert (S34 : s34 = (st, true) /\
       ((cond3 (snd st) = true /\ find_C3 (pl (snd st)) (pm (snd st)) (pn (snd st)) = mid) \/
        (cond4 (snd st) = true /\ find_C4 (pl (snd st)) (pm (snd st)) (pn (snd st)) = mid))).
    { unfold s34, stage3 in *. cbv zeta in *. cbn [fst snd] in *.
      destruct (cond34 eps orig st HG) as [(E3 & E4)|(E3 & E4)]; rewrite E3 in *.
      - destruct (meqb (find_C3 (pl (snd st)) (pm (snd st)) (pn (snd st))) mid) eqn:EM.
        + apply meqb_eq in EM. rewrite EM. rewrite good_same by exact HG.
          unfold stage4. cbv zeta. cbn [fst snd]. rewrite E4. split; [reflexivity|]. left. auto.
        + exfalso. revert R34. unfold stage4. cbv zeta. cbn [fst snd].
          match goal with |- context [if cond4 ?x then _ else _] => destruct (cond4 x) end;
            cbn [snd]; [|discriminate].
          match goal with |- context [if ?x then false else false] => destruct x end;
            discriminate.
      - unfold stage4 in *. cbv zeta in *. cbn [fst snd] in *. rewrite E4 in *. cbn [snd] in R34.
        destruct (meqb (find_C4 (pl (snd st)) (pm (snd st)) (pn (snd st))) mid) eqn:EM;
          [|discriminate].
        apply meqb_eq in EM. rewrite EM. rewrite good_same by exact HG.
        split; [reflexivity|]. right. auto. }
    destruct S34 as (S34 & HC). rewrite S34 in *.
    revert HR. unfold stage58, settled. cbv zeta. cbn [fst snd].
    destruct (cond5 _ _); [discriminate|]. destruct (cond6 _ _); [discriminate|].
    destruct (cond7 _ _); [discriminate|]. destruct (cond8 _ _); [discriminate|].
    intros _. cbn [fst]. auto 10.
Qed.

Lemma settled_pass eps orig st : good eps orig st -> settled eps (snd st) ->
  pass eps orig st = (st, true).
Proof.
  intros HG (C1 & C2 & C34 & C5 & C6 & C7 & C8). rewrite pass_stages. cbv zeta.
  unfold stage1. rewrite C1. cbn [fst snd]. rewrite C2.
  assert (S : stage4 eps orig (stage3 eps orig (st, true)) = (st, true)).
  { unfold stage3. cbv zeta. cbn [fst snd].
    destruct (cond34 eps orig st HG) as [(E3 & E4)|(E3 & E4)]; rewrite E3.
    - destruct C34 as [(_ & EM)|(E & _)]; [|congruence].
      rewrite EM, good_same by exact HG. cbn [fst snd].
      unfold stage4. cbv zeta. cbn [fst snd]. rewrite E4. reflexivity.
    - destruct C34 as [(E & _)|(_ & EM)]; [congruence|].
      unfold stage4. cbv zeta. cbn [fst snd].
      rewrite E4, EM, good_same by exact HG. reflexivity. }
  rewrite S. unfold stage58. cbv zeta. cbn [fst snd]. rewrite C5, C6, C7, C8. reflexivity.
Qed.

(** ** The loop *)
Lemma loop_good eps orig fuel r count st : good eps orig st ->
  good eps orig (fst (loop eps orig fuel r count st)).
Proof.
  revert r count st. induction fuel as [|f IH]; intros r count st H; cbn [loop].
  - destruct (_ && _); exact H.
  - destruct (_ && _); [|exact H].
    pose proof (good_pass eps orig st H) as HP.
    destruct (pass eps orig st) as [st' r']. now apply IH.
Qed.

(** The counter after the loop: at most 1001, and below 1001 only if settled. *)
Lemma loop_exit eps orig fuel r count st : good eps orig st ->
  (Z.of_nat fuel + count = 1001)%Z -> (r = true -> settled eps (snd st)) ->
  let res := loop eps orig fuel r count st in
  (snd res <= 1001)%Z /\ (snd res <= 1000 -> settled eps (snd (fst res)))%Z.
Proof.
  revert r count st. induction fuel as [|f IH]; intros r count st HG HF HS; cbn [loop].
  - destruct (negb r && Z.leb count 1000) eqn:E; cbn [fst snd].
    + apply andb_true_iff in E. destruct E as (_ & E). apply Z.leb_le in E. lia.
    + split; [lia|]. intros H. lia.
  - destruct (negb r && Z.leb count 1000) eqn:E.
    + pose proof (good_pass eps orig st HG) as HP.
      pose proof (pass_reduced eps orig st HG) as HR.
      destruct (pass eps orig st) as [st' r']. cbn [fst snd] in *.
      apply IH; [exact HP|lia|]. intros Hr. destruct (HR Hr) as (H1 & H2). now rewrite H2.
    + cbn [fst snd]. split; [lia|]. intros H. apply andb_false_iff in E.
      destruct E as [E|E]; [|apply Z.leb_gt in E; lia].
      apply negb_false_iff in E. now apply HS.
Qed.

Lemma good_init eps orig : good eps orig (mid, get_params eps orig mid).
Proof. split; reflexivity. Qed.

Definition final eps orig : mat3 * params * Z :=
  loop eps orig loop_fuel false 0 (mid, get_params eps orig mid).

Lemma final_good eps orig : good eps orig (fst (final eps orig)).
Proof. apply loop_good. apply good_init. Qed.

Lemma final_settled eps orig : (snd (final eps orig) <= 1000)%Z ->
  settled eps (snd (fst (final eps orig))).
Proof.
  apply (loop_exit eps orig loop_fuel false 0 _ (good_init eps orig)).
  - unfold loop_fuel. rewrite Z2Nat.id; lia.
  - discriminate.
Qed.

Lemma reduction_final eps orig :
  niggli_reduction eps orig =
  let '(C, p, count) := final eps orig in
  if Z.leb 1000 count then TooManyIterations else
  if negb (niggli_check (pA p) (pB p) (pC p) (pxi p) (peta p) (pzeta p) eps)
  then ReductionIncorrect
  else Reduced (qmul orig (qof C)) C.
Proof. unfold niggli_reduction, final. reflexivity. Qed.

Lemma reduction_Reduced eps orig N C :
  niggli_reduction eps orig = Reduced N C ->
  mdet C = 1%Z /\ N = qmul orig (qof C) /\ settled eps (get_params eps orig C) /\
  (let p := get_params eps orig C in
   niggli_check (pA p) (pB p) (pC p) (pxi p) (peta p) (pzeta p) eps = true).
Proof.
  rewrite reduction_final. pose proof (final_good eps orig) as HG.
  pose proof (final_settled eps orig) as HS.
  destruct (final eps orig) as [[C' p] count]. cbn [fst snd] in *.
  destruct (Z.leb 1000 count) eqn:E; [discriminate|]. apply Z.leb_gt in E.
  destruct HG as (HD & HP). cbn [fst snd] in HD, HP. cbv zeta.
  destruct (niggli_check _ _ _ _ _ _ _) eqn:K; cbn [negb]; [|discriminate].
  intros [= <- <-]. split; [exact HD|]. split; [reflexivity|].
  rewrite <- HP. split; [apply HS; lia|exact K].
Qed.

(** ** Settled parameters are Niggli up to the tolerance *)
Lemma qabs_within x y : qgtb (qabs x) y = false <-> within x y.
Proof. rewrite qgtb_false. apply qabs_le. Qed.

Lemma within_dec x y : within x y -> negb (qgtb (qabs x) y) = true.
Proof. intros H. apply negb_true_iff. now apply qabs_within. Qed.

Lemma abs_le_upto_qabs e x y : qgtb (qabs x) (qabs y + e) = false <-> abs_le_upto e x y.
Proof.
  rewrite qabs_within. unfold abs_le_upto, qabs, within.
  destruct (qltb y 0) eqn:E.
  - apply qltb_iff in E. split.
    + intros (H1 & H2). split; intros H; [|split; qclra].
      exfalso. apply (Qclt_not_le _ _ E H).
    + intros (_ & H). apply H. now apply Qclt_le_weak.
  - apply qltb_false in E. split.
    + intros (H1 & H2). split; intros H; [split; assumption|].
      split; qclra.
    + intros (H & _). now apply H.
Qed.

Lemma tri_type l m n : tri l -> tri m -> tri n ->
  ((Z.eqb (l * m * n) 1 = true /\ find_C3 l m n = mid) \/
   ((Z.eqb (l * m * n) 0 || Z.eqb (l * m * n) (-1))%bool = true /\ find_C4 l m n = mid)) <->
  (l = 1 /\ m = 1 /\ n = 1)%Z \/ (l <> 1 /\ m <> 1 /\ n <> 1)%Z.
Proof.
  intros [ -> | [ -> | -> ]] [ -> | [ -> | -> ]] [ -> | [ -> | -> ]]; cbv;
  (split; intros HH;
   [ try (left; repeat split; congruence); try (right; repeat split; congruence);
     exfalso; destruct HH as [(?&?)|(?&?)]; congruence
   | try (left; split; reflexivity); try (right; split; reflexivity);
     exfalso; destruct HH as [(?&?&?)|(?&?&?)]; congruence ]).
Qed.

Lemma sign_eps_1 eps x : 0 <= eps -> (sign_eps eps x = 1%Z <-> eps < x).
Proof.
  intros He. unfold sign_eps. destruct (qltb x (- eps)) eqn:E.
  - apply qltb_iff in E. split; [discriminate|]. intros H. exfalso.
    assert (x < x) by qclra. now apply (Qclt_not_eq x x).
  - destruct (qgtb x eps) eqn:E2; [apply qgtb_iff in E2|apply qgtb_false in E2]; split; auto.
    + discriminate.
    + intros H. exfalso. apply (Qclt_not_le _ _ H E2).
Qed.

Lemma or_false a b : a || b = false -> a = false /\ b = false.
Proof. apply orb_false_iff. Qed.

Lemma special x y b : negb (qgtb (qabs x) y) && b = false -> within x y -> b = false.
Proof. intros H W. rewrite within_dec in H by exact W. exact H. Qed.

Lemma settled_iff eps orig C : 0 <= eps ->
  settled eps (get_params eps orig C) <-> is_niggli_upto eps (qmul orig (qof C)).
Proof.
  intros He. unfold is_niggli_upto, cell_params. cbv zeta.
  set (p := get_params eps orig C). set (M := qmul orig (qof C)).
  assert (TA : q11 (qgram M) = pA p) by reflexivity.
  assert (TB : q22 (qgram M) = pB p) by reflexivity.
  assert (TC : q33 (qgram M) = pC p) by reflexivity.
  assert (Tx : q23 (qgram M) + q23 (qgram M) = pxi p).
  { unfold p, get_params. cbn [pxi]. fold M. unfold qgram, qmul, qtr, dot_bc, qtwo. qcbn. ring. }
  assert (Te : q13 (qgram M) + q13 (qgram M) = peta p).
  { unfold p, get_params. cbn [peta]. fold M. unfold qgram, qmul, qtr, dot_ca, qtwo. qcbn. ring. }
  assert (Tz : q12 (qgram M) + q12 (qgram M) = pzeta p).
  { unfold p, get_params. cbn [pzeta]. fold M. unfold qgram, qmul, qtr, dot_ab, qtwo. qcbn. ring. }
  rewrite TA, TB, TC, Tx, Te, Tz.
  assert (Hl : pl p = sign_eps eps (pxi p)) by reflexivity.
  assert (Hm : pm p = sign_eps eps (peta p)) by reflexivity.
  assert (Hn : pn p = sign_eps eps (pzeta p)) by reflexivity.
  clear TA TB TC Tx Te Tz. clearbody p M.
  assert (TT : ((cond3 p = true /\ find_C3 (pl p) (pm p) (pn p) = mid) \/
                (cond4 p = true /\ find_C4 (pl p) (pm p) (pn p) = mid)) <->
               (eps < pxi p /\ eps < peta p /\ eps < pzeta p) \/
               (pxi p <= eps /\ peta p <= eps /\ pzeta p <= eps)).
  { unfold cond3, cond4. rewrite Hl, Hm, Hn.
    rewrite tri_type by apply sign_eps_cases.
    rewrite !sign_eps_1 by exact He.
    assert (NL : forall x, ~ eps < x <-> x <= eps).
    { intros x. split; [apply Qcnot_lt_le|intros H H'; apply (Qclt_not_le _ _ H' H)]. }
    rewrite !NL. reflexivity. }
  unfold settled. rewrite TT. clear TT Hl Hm Hn.
  destruct p as [A B Cc xi eta zeta l m n]. cbn [pA pB pC pxi peta pzeta].
  unfold cond1, cond2, cond5, cond6, cond7, cond8. cbn [pA pB pC pxi peta pzeta].
  unfold qtwo.
  split.
  - intros (C1 & C2 & CT & C5 & C6 & C7 & C8).
    apply or_false in C1, C2, C8. destruct C1 as (C1 & C1'), C2 as (C2 & C2'), C8 as (C8 & C8').
    apply or_false in C5, C6, C7. destruct C5 as (C5 & C5''), C6 as (C6 & C6''), C7 as (C7 & C7'').
    apply or_false in C5, C6, C7. destruct C5 as (C5 & C5'), C6 as (C6 & C6'), C7 as (C7 & C7').
    constructor.
    + now apply qgtb_false.
    + now apply qgtb_false.
    + now apply qabs_within.
    + now apply qabs_within.
    + now apply qabs_within.
    + exact CT.
    + apply qltb_false in C8. qclra.
    + intros W. apply (special _ _ _ C1') in W. now apply abs_le_upto_qabs.
    + intros W. apply (special _ _ _ C2') in W. now apply abs_le_upto_qabs.
    + intros W. apply (special _ _ _ C5') in W. apply qltb_false in W. qclra.
    + intros W. apply (special _ _ _ C6') in W. apply qltb_false in W. qclra.
    + intros W. apply (special _ _ _ C7') in W. apply qltb_false in W. qclra.
    + intros W. apply (special _ _ _ C5'') in W. now apply qltb_false in W.
    + intros W. apply (special _ _ _ C6'') in W. now apply qltb_false in W.
    + intros W. apply (special _ _ _ C7'') in W. now apply qltb_false in W.
    + intros W. assert (W' : within (xi + eta + zeta + A + B) eps).
      { replace (xi + eta + zeta + A + B) with (A + B + xi + eta + zeta) by ring. exact W. }
      apply (special _ _ _ C8') in W'. apply qgtb_false in W'. qclra.
  - assert (SP : forall x y b, (within x y -> b = false) -> negb (qgtb (qabs x) y) && b = false).
    { intros x y b H. destruct (qgtb (qabs x) y) eqn:E; [reflexivity|]. cbn.
      apply H. now apply qabs_within. }
    intros [K1 K2 K3 K4 K5 K6 K7 K8 K9 K10 K11 K12 K13 K14 K15 K16].
    refine (conj _ (conj _ (conj K6 (conj _ (conj _ (conj _ _)))))).
    + apply orb_false_intro; [now apply qgtb_false|]. apply SP. intros W.
      apply abs_le_upto_qabs. exact (K8 W).
    + apply orb_false_intro; [now apply qgtb_false|]. apply SP. intros W.
      apply abs_le_upto_qabs. exact (K9 W).
    + apply orb_false_intro; [apply orb_false_intro; [now apply qabs_within|]|]; apply SP;
        intros W; apply qltb_false; [specialize (K10 W)|specialize (K13 W)].
      * clear - K10. qclra.
      * exact K13.
    + apply orb_false_intro; [apply orb_false_intro; [now apply qabs_within|]|]; apply SP;
        intros W; apply qltb_false; [specialize (K11 W)|specialize (K14 W)].
      * clear - K11. qclra.
      * exact K14.
    + apply orb_false_intro; [apply orb_false_intro; [now apply qabs_within|]|]; apply SP;
        intros W; apply qltb_false; [specialize (K12 W)|specialize (K15 W)].
      * clear - K12. qclra.
      * exact K15.
    + apply orb_false_intro; [apply qltb_false; clear - K7; qclra|]. apply SP. intros W.
      apply qgtb_false.
      assert (W' : within (A + B + xi + eta + zeta) eps).
      { replace (A + B + xi + eta + zeta) with (xi + eta + zeta + A + B) by ring. exact W. }
      specialize (K16 W'). clear - K16. qclra.
Qed.
