(** The reduction does not depend on the tolerance within an interval on which no comparison
    along its path changes.  This is decidable. *)
From Coq Require Import ZArith QArith Qcanon List Bool Lia.
From Verif Require Import Mat3 QMat QNum QcTac Model_pyniggli Proofs_pyniggli.
Import ListNotations.
Open Scope Qc_scope.

Section Stable.
Variables (lo hi eps : Qc).
Hypothesis (Hlo : lo <= eps) (Hhi : eps <= hi).

(** A comparison that can only become false when the tolerance grows. *)
Definition anti (f : Qc -> bool) : Prop := forall a b, a <= b -> f b = true -> f a = true.
Definition same (f : Qc -> bool) : bool := Bool.eqb (f lo) (f hi).
Lemma anti_same f : anti f -> same f = true -> f eps = f lo.
Proof.
  intros HA HS. apply eqb_prop in HS.
  pose proof (HA lo eps Hlo) as H1. pose proof (HA eps hi Hhi) as H2.
  destruct (f lo), (f eps), (f hi); intuition congruence.
Qed.

Definition gt_plus (x y e : Qc) : bool := qgtb x (y + e).
Definition gt_e (x e : Qc) : bool := qgtb x e.
Definition lt_minus (x y e : Qc) : bool := qltb x (y - e).
Definition lt_opp (x e : Qc) : bool := qltb x (- e).
Definition pos_minus (x e : Qc) : bool := qgtb (x - e) 0.
Definition far (r x y e : Qc) : bool := qltb (e + r * qabs y) (qabs (x - y)).
Lemma anti_gt_plus x y : anti (gt_plus x y).
Proof. intros a b H. unfold gt_plus. rewrite !qgtb_iff. intros. qclra. Qed.
Lemma anti_gt_e x : anti (gt_e x).
Proof. intros a b H. unfold gt_e. rewrite !qgtb_iff. intros. qclra. Qed.
Lemma anti_lt_minus x y : anti (lt_minus x y).
Proof. intros a b H. unfold lt_minus. rewrite !qltb_iff. intros. qclra. Qed.
Lemma anti_lt_opp x : anti (lt_opp x).
Proof. intros a b H. unfold lt_opp. rewrite !qltb_iff. intros. qclra. Qed.
Lemma anti_pos_minus x : anti (pos_minus x).
Proof. intros a b H. unfold pos_minus. rewrite !qgtb_iff. intros. qclra. Qed.
Lemma anti_far r x y : anti (far r x y).
Proof.
  intros a b H. unfold far. rewrite !qltb_iff. generalize (r * qabs y), (qabs (x - y)).
  intros. qclra.
Qed.

Lemma st_gt_plus x y : same (gt_plus x y) = true -> qgtb x (y + eps) = qgtb x (y + lo).
Proof. exact (anti_same _ (anti_gt_plus x y)). Qed.
Lemma st_gt_e x : same (gt_e x) = true -> qgtb x eps = qgtb x lo.
Proof. exact (anti_same _ (anti_gt_e x)). Qed.
Lemma st_lt_minus x y : same (lt_minus x y) = true -> qltb x (y - eps) = qltb x (y - lo).
Proof. exact (anti_same _ (anti_lt_minus x y)). Qed.
Lemma st_lt_opp x : same (lt_opp x) = true -> qltb x (- eps) = qltb x (- lo).
Proof. exact (anti_same _ (anti_lt_opp x)). Qed.
Lemma st_pos_minus x : same (pos_minus x) = true -> qgtb (x - eps) 0 = qgtb (x - lo) 0.
Proof. exact (anti_same _ (anti_pos_minus x)). Qed.
Lemma st_far r x y : same (far r x y) = true -> allclose_r r eps x y = allclose_r r lo x y.
Proof. intros H. unfold allclose_r. f_equal. exact (anti_same _ (anti_far r x y) H). Qed.

(** All comparisons of a pass with given parameters. *)
Definition stab_pass (A B C xi eta zeta : Qc) : bool :=
  forallb same
   [lt_opp xi; gt_e xi; lt_opp eta; gt_e eta; lt_opp zeta; gt_e zeta;
    gt_plus A B; gt_e (qabs (A - B)); gt_plus (qabs xi) (qabs eta);
    gt_plus B C; gt_e (qabs (C - B)); gt_plus (qabs eta) (qabs zeta);
    gt_plus (qabs xi) B; gt_e (qabs (B - xi)); lt_minus (qtwo * eta) zeta; gt_e (qabs (B + xi));
    gt_plus (qabs eta) A; gt_e (qabs (A - eta)); lt_minus (qtwo * xi) zeta; gt_e (qabs (A + eta));
    gt_plus (qabs zeta) A; gt_e (qabs (A - zeta)); lt_minus (qtwo * xi) eta; gt_e (qabs (A + zeta));
    lt_opp (xi + eta + zeta + A + B); gt_e (qabs (xi + eta + zeta + A + B));
    gt_e (qtwo * (A + eta) + zeta)].
Definition stab_check (A B C xi eta zeta : Qc) : bool :=
  let s := A + B + C + xi + eta + zeta in
  forallb same
   [pos_minus A; lt_minus A B; far rtol A B; lt_minus B C; far rtol B C;
    lt_minus (qabs xi) (qabs eta); far rtol (qabs xi) (qabs eta);
    lt_minus (qabs eta) (qabs zeta); far rtol (qabs eta) (qabs zeta);
    pos_minus xi; pos_minus eta; pos_minus zeta;
    lt_minus xi 0; far rtol xi 0; lt_minus eta 0; far rtol eta 0; lt_minus zeta 0; far rtol zeta 0;
    lt_minus (qabs xi) B; far rtol (qabs xi) B; lt_minus (qabs eta) A; far rtol (qabs eta) A;
    lt_minus (qabs zeta) A; far rtol (qabs zeta) A; lt_minus C s; far rtol C s;
    far rtol xi B; lt_minus zeta (qtwo * eta); far rtol zeta (qtwo * eta);
    far rtol eta A; lt_minus zeta (qtwo * xi); far rtol zeta (qtwo * xi);
    far rtol zeta A; lt_minus eta (qtwo * xi); far rtol eta (qtwo * xi);
    far rtol xi (- B); far rtol eta (- A); far rtol zeta (- A);
    lt_minus (qtwo * A + qtwo * eta + zeta) 0; far rtol (qtwo * A + qtwo * eta + zeta) 0].

Ltac conjs H :=
  unfold stab_pass, stab_check in H; cbv zeta in H; cbn [forallb] in H; rewrite !andb_true_iff in H;
  decompose [and] H; clear H.
Ltac use :=
  repeat match goal with
  | H : same (gt_plus ?x ?y) = true |- context [qgtb ?x (?y + eps)] => rewrite (st_gt_plus x y H)
  | H : same (lt_minus ?x ?y) = true |- context [qltb ?x (?y - eps)] => rewrite (st_lt_minus x y H)
  | H : same (lt_opp ?x) = true |- context [qltb ?x (- eps)] => rewrite (st_lt_opp x H)
  | H : same (pos_minus ?x) = true |- context [qgtb (?x - eps) 0] => rewrite (st_pos_minus x H)
  | H : same (far ?r ?x ?y) = true |- context [allclose_r ?r eps ?x ?y] => rewrite (st_far r x y H)
  | H : same (gt_e ?x) = true |- context [qgtb ?x eps] => rewrite (st_gt_e x H)
  end.

Lemma st_check_tol a8 A B C xi eta zeta : stab_check A B C xi eta zeta = true ->
  niggli_check_tol rtol a8 A B C xi eta zeta eps = niggli_check_tol rtol a8 A B C xi eta zeta lo.
Proof.
  intros H. conjs H. unfold niggli_check_tol. cbv zeta. use. reflexivity.
Qed.
Lemma st_check A B C xi eta zeta : stab_check A B C xi eta zeta = true ->
  niggli_check A B C xi eta zeta eps = niggli_check A B C xi eta zeta lo.
Proof. apply st_check_tol. Qed.
Definition stab_p (p : params) : bool := stab_pass (pA p) (pB p) (pC p) (pxi p) (peta p) (pzeta p).
Lemma st_sign x : same (lt_opp x) = true -> same (gt_e x) = true -> sign_eps eps x = sign_eps lo x.
Proof. intros. unfold sign_eps. use. reflexivity. Qed.
Lemma st_signs p : stab_p p = true ->
  sign_eps eps (pxi p) = sign_eps lo (pxi p) /\ sign_eps eps (peta p) = sign_eps lo (peta p) /\
  sign_eps eps (pzeta p) = sign_eps lo (pzeta p).
Proof.
  unfold stab_p. generalize (pA p) (pB p) (pC p) (pxi p) (peta p) (pzeta p).
  intros A B C xi eta zeta H. conjs H. repeat split; apply st_sign; assumption.
Qed.
Lemma st_conds p : stab_p p = true ->
  cond1 eps p = cond1 lo p /\ cond2 eps p = cond2 lo p /\ cond5 eps p = cond5 lo p /\
  cond6 eps p = cond6 lo p /\ cond7 eps p = cond7 lo p /\ cond8 eps p = cond8 lo p.
Proof.
  unfold stab_p, cond1, cond2, cond5, cond6, cond7, cond8.
  generalize (pA p) (pB p) (pC p) (pxi p) (peta p) (pzeta p).
  intros A B C xi eta zeta H. conjs H.
  repeat split; use; reflexivity.
Qed.

Variable orig : qmat.
Local Opaque stab_p stab_pass stab_check.
Definition stab (C : mat3) : bool := stab_p (get_params lo orig C).
Lemma st_params C : stab C = true -> get_params eps orig C = get_params lo orig C.
Proof.
  unfold stab, get_params. cbv zeta. generalize (qmul orig (qof C)). intros m.
  generalize (dot_aa m), (dot_bb m), (dot_cc m), (qtwo * dot_bc m), (qtwo * dot_ca m),
    (qtwo * dot_ab m). intros a b c xi eta zeta H.
  apply st_signs in H. cbn [pxi peta pzeta] in H. destruct H as (-> & -> & ->). reflexivity.
Qed.
Lemma st_upd C M : stab (mmul C M) = true -> upd eps orig C M = upd lo orig C M.
Proof. intros H. unfold upd. now rewrite st_params. Qed.

(** One pass, with the cells it goes through. *)
Definition stab_step (st : mat3 * params) : bool :=
  let s1 := stage1 lo orig st in
  let s3 := stage3 lo orig s1 in
  let s4 := stage4 lo orig s3 in
  stab (fst st) && stab (fst (fst s1)) &&
  (if cond2 lo (snd (fst s1)) then true else stab (fst (fst s3)) && stab (fst (fst s4))) &&
  stab (fst (fst (pass lo orig st))).

Lemma st_pass st : good lo orig st -> stab_step st = true -> pass eps orig st = pass lo orig st.
Proof.
  intros HG H. unfold stab_step in H. cbv zeta in H. rewrite !andb_true_iff in H.
  destruct H as (((H0 & H1) & H2) & H3). rewrite pass_stages in H3. rewrite !pass_stages. cbv zeta in *.
  pose proof (good_stage1 lo orig st HG) as G1.
  assert (T : forall st, good lo orig st -> stab (fst st) = true -> stab_p (snd st) = true).
  { intros st' (_ & E) HS. rewrite E. unfold stab in HS. exact HS. }
  assert (E1 : stage1 eps orig st = stage1 lo orig st).
  { unfold stage1 in *. destruct (st_conds (snd st) (T st HG H0)) as (-> & _).
    destruct (cond1 lo (snd st)); [|reflexivity]. now rewrite st_upd. }
  rewrite E1. clear E1. generalize dependent (stage1 lo orig st). intros s1 H1 H2 H3 G1.
  destruct (st_conds _ (T _ G1 H1)) as (_ & C2 & _). rewrite C2.
  destruct (cond2 lo (snd (fst s1))).
  { f_equal. apply st_upd. exact H3. }
  apply andb_true_iff in H2. destruct H2 as (S3 & S4).
  pose proof (good_stage3 lo orig s1 G1) as G3.
  assert (E3 : stage3 eps orig s1 = stage3 lo orig s1).
  { unfold stage3 in *. cbv zeta in *. destruct (cond3 (snd (fst s1))); [|reflexivity].
    now rewrite st_upd. }
  rewrite E3. clear E3. generalize dependent (stage3 lo orig s1). intros s3 S3 S4 H3 G3.
  pose proof (good_stage4 lo orig s3 G3) as G4.
  assert (E4 : stage4 eps orig s3 = stage4 lo orig s3).
  { unfold stage4 in *. cbv zeta in *. destruct (cond4 (snd (fst s3))); [|reflexivity].
    now rewrite st_upd. }
  rewrite E4. clear E4. generalize dependent (stage4 lo orig s3). intros s4 S4 H3 G4.
  unfold stage58 in *. cbv zeta in *.
  destruct (st_conds _ (T _ G4 S4)) as (_ & _ & -> & -> & -> & ->).
  destruct (cond5 lo (snd (fst s4))); [now rewrite st_upd|].
  destruct (cond6 lo (snd (fst s4))); [now rewrite st_upd|].
  destruct (cond7 lo (snd (fst s4))); [now rewrite st_upd|].
  destruct (cond8 lo (snd (fst s4))); [now rewrite st_upd|]. reflexivity.
Qed.

Fixpoint stab_loop (fuel : nat) (reduced : bool) (count : Z) (st : mat3 * params) : bool :=
  if negb reduced && Z.leb count 1000 then
    match fuel with
    | O => true
    | S f => stab_step st &&
             (let '(st', r) := pass lo orig st in stab_loop f r (count + 1)%Z st')
    end
  else true.

Lemma st_loop fuel : forall r count st, good lo orig st -> stab_loop fuel r count st = true ->
  loop eps orig fuel r count st = loop lo orig fuel r count st.
Proof.
  induction fuel as [|f IH]; intros r count st HG H; [reflexivity|].
  cbn [loop stab_loop] in *. destruct (negb r && Z.leb count 1000); [|reflexivity].
  apply andb_true_iff in H. destruct H as (H1 & H2).
  rewrite st_pass by assumption. pose proof (good_pass lo orig st HG) as HP.
  destruct (pass lo orig st) as [st' r']. now apply IH.
Qed.

Definition stab_all : bool :=
  stab mid && stab_loop loop_fuel false 0 (mid, get_params lo orig mid) &&
  (let p := snd (fst (final lo orig)) in
   stab_check (pA p) (pB p) (pC p) (pxi p) (peta p) (pzeta p)).

Lemma st_final : stab_all = true -> final eps orig = final lo orig.
Proof.
  unfold stab_all. rewrite !andb_true_iff. intros ((H1 & H2) & _).
  unfold final. rewrite st_params by exact H1. apply st_loop; [apply good_init|exact H2].
Qed.
Lemma st_last a8 : stab_all = true ->
  let '(C, p, c) := final lo orig in
  niggli_check_tol rtol a8 (pA p) (pB p) (pC p) (pxi p) (peta p) (pzeta p) eps =
  niggli_check_tol rtol a8 (pA p) (pB p) (pC p) (pxi p) (peta p) (pzeta p) lo.
Proof.
  intros H. unfold stab_all in H. rewrite !andb_true_iff in H. destruct H as (_ & H3).
  destruct (final lo orig) as [[C p] c]. cbn [fst snd] in H3. cbv zeta in H3.
  now apply st_check_tol.
Qed.
Lemma st_reduction : stab_all = true -> niggli_reduction eps orig = niggli_reduction lo orig.
Proof.
  intros H. rewrite !reduction_final, (st_final H).
  unfold stab_all in H. rewrite !andb_true_iff in H. destruct H as (_ & H3).
  destruct (final lo orig) as [[C p] c]. cbn [fst snd] in H3. cbv zeta in H3.
  now rewrite st_check.
Qed.
End Stable.
