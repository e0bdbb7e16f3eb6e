(** The decision of Proofs_stable.v for cells with integer entries, computed with integers: the
    scalar products follow from those of the original cell, and every cell on the path is looked
    at once. *)
From Coq Require Import ZArith QArith Qcanon List Bool Lia.
From Verif Require Import Mat3 QMat QNum QcTac Model_pyniggli Proofs_pyniggli Proofs_stable Proofs_gridcell.
Import ListNotations.
Open Scope Z_scope.

Record zpar : Type := ZPar { zA : Z; zB : Z; zC : Z; zx : Z; ze : Z; zz : Z }.
Definition zget (G C : mat3) : zpar :=
  let D := mmul (mtr C) (mmul G C) in
  ZPar (m11 D) (m22 D) (m33 D) (2 * m23 D) (2 * m31 D) (2 * m12 D).
Definition zsign (lo x : Z) : Z := if x <? - lo then -1 else if lo <? x then 1 else 0.
Definition lift (lo : Z) (p : zpar) : params :=
  Params (zq (zA p)) (zq (zB p)) (zq (zC p)) (zq (zx p)) (zq (ze p)) (zq (zz p))
         (zsign lo (zx p)) (zsign lo (ze p)) (zsign lo (zz p)).

Lemma qltb_zq x y : qltb (zq x) (zq y) = (x <? y).
Proof.
  destruct (Z.ltb_spec x y) as [H|H].
  - apply qltb_iff, zq_lt. exact H.
  - apply qltb_false, zq_le. exact H.
Qed.
Lemma qabs_zq x : qabs (zq x) = zq (Z.abs x).
Proof.
  unfold qabs. rewrite <- zq_0, qltb_zq. destruct (Z.ltb_spec x 0) as [H|H].
  - rewrite <- zq_opp. f_equal. lia.
  - f_equal. lia.
Qed.
Lemma qtwo_zq : qtwo = zq 2. Proof. reflexivity. Qed.
Lemma qsign_zq x : qsign (zq x) = if x <? 0 then -1 else if 0 <? x then 1 else 0.
Proof. unfold qsign. rewrite <- zq_0, !qltb_zq. reflexivity. Qed.
Lemma sign_zq lo x : sign_eps (zq lo) (zq x) = zsign lo x.
Proof. unfold sign_eps, zsign, qgtb. rewrite <- zq_opp, !qltb_zq. reflexivity. Qed.

Lemma zget_ok lo B C : get_params (zq lo) (qof B) C = lift lo (zget (mmul (mtr B) B) C).
Proof.
  assert (E : mmul (mtr C) (mmul (mmul (mtr B) B) C) = mmul (mtr (mmul B C)) (mmul B C)).
  { destruct B as [b1 b2 b3 b4 b5 b6 b7 b8 b9], C as [c1 c2 c3 c4 c5 c6 c7 c8 c9].
    unfold mmul, mtr. cbn [m11 m12 m13 m21 m22 m23 m31 m32 m33]. f_equal; ring. }
  unfold get_params, zget. rewrite E, <- qof_mul. cbv zeta. generalize (mmul B C). intros N.
  unfold lift. cbn [zA zB zC zx ze zz]. rewrite <- !sign_zq.
  destruct N as [a b c d e f g h i]. unfold mmul, mtr, qof, dot_aa, dot_bb, dot_cc, dot_bc, dot_ca, dot_ab.
  cbn [m11 m12 m13 m21 m22 m23 m31 m32 m33 q11 q12 q13 q21 q22 q23 q31 q32 q33].
  rewrite qtwo_zq, <- !zq_mul, <- !zq_add, <- !zq_mul. reflexivity.
Qed.

(** ** The conditions *)
Definition zcond1 (e : Z) (p : zpar) : bool :=
  (zB p + e <? zA p) || (negb (e <? Z.abs (zA p - zB p)) && (Z.abs (ze p) + e <? Z.abs (zx p))).
Definition zcond2 (e : Z) (p : zpar) : bool :=
  (zC p + e <? zB p) || (negb (e <? Z.abs (zC p - zB p)) && (Z.abs (zz p) + e <? Z.abs (ze p))).
Definition zcond5 (e : Z) (p : zpar) : bool :=
  (zB p + e <? Z.abs (zx p)) ||
  (negb (e <? Z.abs (zB p - zx p)) && (2 * ze p <? zz p - e)) ||
  (negb (e <? Z.abs (zB p + zx p)) && (zz p <? - e)).
Definition zcond6 (e : Z) (p : zpar) : bool :=
  (zA p + e <? Z.abs (ze p)) ||
  (negb (e <? Z.abs (zA p - ze p)) && (2 * zx p <? zz p - e)) ||
  (negb (e <? Z.abs (zA p + ze p)) && (zz p <? - e)).
Definition zcond7 (e : Z) (p : zpar) : bool :=
  (zA p + e <? Z.abs (zz p)) ||
  (negb (e <? Z.abs (zA p - zz p)) && (2 * zx p <? ze p - e)) ||
  (negb (e <? Z.abs (zA p + zz p)) && (ze p <? - e)).
Definition zcond8 (e : Z) (p : zpar) : bool :=
  let s := zx p + ze p + zz p + zA p + zB p in
  (s <? - e) || (negb (e <? Z.abs s) && (e <? 2 * (zA p + ze p) + zz p)).

Ltac toz := rewrite ?qtwo_zq;
  repeat first [rewrite qltb_zq | rewrite qabs_zq | rewrite <- zq_add | rewrite <- zq_sub |
                rewrite <- zq_mul | rewrite <- zq_opp].
Lemma zconds lo e p :
  cond1 (zq e) (lift lo p) = zcond1 e p /\ cond2 (zq e) (lift lo p) = zcond2 e p /\
  cond5 (zq e) (lift lo p) = zcond5 e p /\ cond6 (zq e) (lift lo p) = zcond6 e p /\
  cond7 (zq e) (lift lo p) = zcond7 e p /\ cond8 (zq e) (lift lo p) = zcond8 e p.
Proof.
  unfold cond1, cond2, cond5, cond6, cond7, cond8, zcond1, zcond2, zcond5, zcond6, zcond7, zcond8,
    qgtb, lift. cbn [pA pB pC pxi peta pzeta]. cbv zeta. toz. repeat split; reflexivity.
Qed.

(** ** Comparisons that do not change between [lo] and [hi] *)
Section Z.
Variables (lo hi : Z).
(** [x > e], [x < -e] and so on: all are of the form [e < v]. *)
Definition zsame (v : Z) : bool := Bool.eqb (lo <? v) (hi <? v).
Definition zstab (p : zpar) : bool :=
  let A := zA p in let B := zB p in let C := zC p in
  let x := zx p in let e := ze p in let z := zz p in
  let ax := Z.abs x in let ae := Z.abs e in let az := Z.abs z in
  let s := x + e + z + A + B in
  forallb zsame
   [- x; x; - e; e; - z; z;
    A - B; Z.abs (A - B); ax - ae;
    B - C; Z.abs (C - B); ae - az;
    ax - B; Z.abs (B - x); z - 2 * e; Z.abs (B + x);
    ae - A; Z.abs (A - e); z - 2 * x; Z.abs (A + e);
    az - A; Z.abs (A - z); e - 2 * x; Z.abs (A + z);
    - s; Z.abs s; 2 * (A + e) + z].
Lemma zstab_ok l p : zstab p = true -> stab_p (zq lo) (zq hi) (lift l p) = true.
Proof.
  assert (T : forall f v, (forall e, f (zq e) = (e <? v)) ->
    zsame v = true -> same (zq lo) (zq hi) f = true).
  { intros f v Hf H. unfold same. now rewrite !Hf. }
  unfold zstab, stab_p, stab_pass, lift. cbn [pA pB pC pxi peta pzeta]. cbv zeta. cbn [forallb].
  rewrite !andb_true_iff. intros H.
  repeat (let H0 := fresh in destruct H as [H0 H]; split; [refine (T _ _ _ H0); intros w; clear H0 H;
    unfold lt_opp, gt_e, gt_plus, lt_minus, qgtb; toz;
    apply eq_true_iff_eq; rewrite !Z.ltb_lt; lia|clear H0]).
  reflexivity.
Qed.

(** ** One pass *)
Variable G : mat3.
Definition zupd (C M : mat3) : option (mat3 * zpar) :=
  let C' := mmul C M in let p := zget G C' in
  if zstab p then Some (C', p) else None.
Definition zflag (o : option (mat3 * zpar)) (b : bool) : option (mat3 * zpar * bool) :=
  match o with Some st => Some (st, b) | None => None end.
Definition zsg (x : Z) : Z := if x <? 0 then -1 else if 0 <? x then 1 else 0.
Definition zstage1 (st : mat3 * zpar) : option (mat3 * zpar * bool) :=
  if zcond1 lo (snd st) then zflag (zupd (fst st) step1) false else Some (st, true).
Definition zlmn (p : zpar) : Z := zsign lo (zx p) * zsign lo (ze p) * zsign lo (zz p).
Definition zstage3 (s : mat3 * zpar * bool) : option (mat3 * zpar * bool) :=
  let '(C, p, b) := s in
  if zlmn p =? 1 then
    let M := find_C3 (zsign lo (zx p)) (zsign lo (ze p)) (zsign lo (zz p)) in
    if meqb M mid then Some s else zflag (zupd C M) false
  else Some s.
Definition zstage4 (s : mat3 * zpar * bool) : option (mat3 * zpar * bool) :=
  let '(C, p, b) := s in
  let t := zlmn p in
  if (t =? 0) || (t =? -1) then
    let M := find_C4 (zsign lo (zx p)) (zsign lo (ze p)) (zsign lo (zz p)) in
    if meqb M mid then Some s else zflag (zupd C M) false
  else Some s.
Definition zstage58 (s : mat3 * zpar * bool) : option (mat3 * zpar * bool) :=
  let '(C, p, b) := s in
  if zcond5 lo p then zflag (zupd C (Mat3 1 0 0 0 1 (- zsg (zx p)) 0 0 1)) false else
  if zcond6 lo p then zflag (zupd C (Mat3 1 0 (- zsg (ze p)) 0 1 0 0 0 1)) false else
  if zcond7 lo p then zflag (zupd C (Mat3 1 (- zsg (zz p)) 0 0 1 0 0 0 1)) false else
  if zcond8 lo p then zflag (zupd C step8) false else Some s.
Definition zpass (st : mat3 * zpar) : option (mat3 * zpar * bool) :=
  match zstage1 st with
  | None => None
  | Some s1 =>
    if zcond2 lo (snd (fst s1)) then zflag (zupd (fst (fst s1)) step2) false else
    match zstage3 s1 with
    | None => None
    | Some s3 => match zstage4 s3 with None => None | Some s4 => zstage58 s4 end
    end
  end.
Fixpoint zloop (fuel : nat) (reduced : bool) (count : Z) (st : mat3 * zpar) :
    option (mat3 * zpar * Z) :=
  if negb reduced && (count <=? 1000) then
    match fuel with
    | O => None
    | S f => match zpass st with
             | None => None
             | Some (st', r) => zloop f r (count + 1) st'
             end
    end
  else Some (st, count).
Definition zfinal : option (mat3 * zpar * Z) :=
  let p := zget G mid in
  if zstab p then zloop loop_fuel false 0 (mid, p) else None.
End Z.

Section Correct.
Variables (lo hi : Z) (eps : Qc) (B : mat3).
Hypothesis (Hlo : (zq lo <= eps)%Qc) (Hhi : (eps <= zq hi)%Qc).
Let G := mmul (mtr B) B.
Definition zgood (st : mat3 * zpar) : Prop :=
  snd st = zget (mmul (mtr B) B) (fst st) /\ zstab lo hi (snd st) = true.
Definition zst (st : mat3 * zpar) : mat3 * params := (fst st, lift lo (snd st)).

Lemma zpar_ok C : zstab lo hi (zget G C) = true -> get_params eps (qof B) C = lift lo (zget G C).
Proof.
  intros H. rewrite (st_params (zq lo) (zq hi) eps Hlo Hhi (qof B) C), zget_ok; [reflexivity|].
  unfold stab. rewrite zget_ok. now apply zstab_ok.
Qed.
Lemma zupd_ok C M st : zupd lo hi G C M = Some st -> upd eps (qof B) C M = zst st /\ zgood st.
Proof.
  unfold zupd, upd. cbv zeta. destruct (zstab _ _ _) eqn:E; [|discriminate]. intros [= <-].
  unfold zst, zgood. cbn [fst snd]. rewrite zpar_ok by exact E. now repeat split.
Qed.
Lemma zflag_ok C M b s : zflag (zupd lo hi G C M) b = Some s ->
  (upd eps (qof B) C M, b) = (zst (fst s), snd s) /\ zgood (fst s).
Proof.
  unfold zflag. destruct (zupd _ _ _ _ _) as [st|] eqn:E; [|discriminate]. intros [= <-].
  destruct (zupd_ok _ _ _ E) as (-> & H). now split.
Qed.
Lemma zcond_ok p : zstab lo hi p = true ->
  cond1 eps (lift lo p) = zcond1 lo p /\ cond2 eps (lift lo p) = zcond2 lo p /\
  cond5 eps (lift lo p) = zcond5 lo p /\ cond6 eps (lift lo p) = zcond6 lo p /\
  cond7 eps (lift lo p) = zcond7 lo p /\ cond8 eps (lift lo p) = zcond8 lo p.
Proof.
  intros H. pose proof (zstab_ok lo hi lo p H) as S.
  destruct (st_conds (zq lo) (zq hi) eps Hlo Hhi _ S) as (-> & -> & -> & -> & -> & ->).
  apply zconds.
Qed.
Lemma upd_mid C p : p = zget G C -> zstab lo hi p = true -> upd eps (qof B) C mid = (C, lift lo p).
Proof.
  intros -> H. unfold upd. replace (mmul C mid) with C by (symmetry; apply mmul_id_r).
  now rewrite zpar_ok.
Qed.

Lemma zstage1_ok st s : zgood st -> zstage1 lo hi G st = Some s ->
  stage1 eps (qof B) (zst st) = (zst (fst s), snd s) /\ zgood (fst s).
Proof.
  intros HG H. unfold zstage1 in H. unfold stage1. cbn [zst fst snd] in *.
  destruct (zcond_ok _ (proj2 HG)) as (-> & _). destruct (zcond1 lo (snd st)).
  - now apply zflag_ok.
  - injection H as <-. now split.
Qed.
Lemma zstage3_ok s s' : zgood (fst s) -> zstage3 lo hi G s = Some s' ->
  stage3 eps (qof B) (zst (fst s), snd s) = (zst (fst s'), snd s') /\ zgood (fst s').
Proof.
  destruct s as [[C p] b]. cbn [fst snd]. intros HG H. unfold zstage3 in H. change (zst (C, p)) with (C, lift lo p).
  unfold stage3. cbv zeta in *. cbn [fst snd]. unfold cond3. cbn [lift pl pm pn]. fold (zlmn lo p).
  destruct (zlmn lo p =? 1).
  - destruct (meqb _ mid) eqn:E.
    + injection H as <-. apply meqb_eq in E. rewrite E. cbn [fst snd].
      rewrite (upd_mid C p (proj1 HG) (proj2 HG)). now split.
    + apply zflag_ok in H. exact H.
  - injection H as <-. now split.
Qed.
Lemma zstage4_ok s s' : zgood (fst s) -> zstage4 lo hi G s = Some s' ->
  stage4 eps (qof B) (zst (fst s), snd s) = (zst (fst s'), snd s') /\ zgood (fst s').
Proof.
  destruct s as [[C p] b]. cbn [fst snd]. intros HG H. unfold zstage4 in H. change (zst (C, p)) with (C, lift lo p).
  unfold stage4. cbv zeta in *. cbn [fst snd]. unfold cond4. cbn [lift pl pm pn]. fold (zlmn lo p).
  destruct ((zlmn lo p =? 0) || (zlmn lo p =? -1)).
  - destruct (meqb _ mid) eqn:E.
    + injection H as <-. apply meqb_eq in E. rewrite E. cbn [fst snd].
      rewrite (upd_mid C p (proj1 HG) (proj2 HG)). now split.
    + apply zflag_ok in H. exact H.
  - injection H as <-. now split.
Qed.
Lemma zstage58_ok s s' : zgood (fst s) -> zstage58 lo hi G s = Some s' ->
  stage58 eps (qof B) (zst (fst s), snd s) = (zst (fst s'), snd s') /\ zgood (fst s').
Proof.
  destruct s as [[C p] b]. cbn [fst snd]. intros HG H. unfold zstage58 in H. change (zst (C, p)) with (C, lift lo p).
  unfold stage58. cbv zeta in *. cbn [fst snd].
  destruct (zcond_ok _ (proj2 HG)) as (_ & _ & E5 & E6 & E7 & E8). cbn [fst snd] in E5, E6, E7, E8.
  rewrite E5, E6, E7, E8.
  unfold step5, step6, step7. cbn [lift pxi peta pzeta]. rewrite !qsign_zq. fold (zsg (zx p)) (zsg (ze p)) (zsg (zz p)).
  destruct (zcond5 lo p); [now apply zflag_ok|].
  destruct (zcond6 lo p); [now apply zflag_ok|].
  destruct (zcond7 lo p); [now apply zflag_ok|].
  destruct (zcond8 lo p); [now apply zflag_ok|]. injection H as <-. now split.
Qed.
Lemma zpass_ok st s : zgood st -> zpass lo hi G st = Some s ->
  pass eps (qof B) (zst st) = (zst (fst s), snd s) /\ zgood (fst s).
Proof.
  intros HG H. unfold zpass in H. rewrite pass_stages. cbv zeta.
  destruct (zstage1 lo hi G st) as [s1|] eqn:E1; [|discriminate].
  destruct (zstage1_ok _ _ HG E1) as (-> & G1). cbn [fst snd].
  destruct (zcond_ok _ (proj2 G1)) as (_ & E2 & _). unfold zst at 1. cbn [fst snd]. rewrite E2.
  destruct (zcond2 lo (snd (fst s1))); [now apply zflag_ok|].
  destruct (zstage3 lo hi G s1) as [s3|] eqn:E3; [|discriminate].
  destruct (zstage3_ok _ _ G1 E3) as (-> & G3).
  destruct (zstage4 lo hi G s3) as [s4|] eqn:E4; [|discriminate].
  destruct (zstage4_ok _ _ G3 E4) as (-> & G4). now apply zstage58_ok.
Qed.
Lemma zloop_ok fuel : forall r count st C p c, zgood st ->
  zloop lo hi G fuel r count st = Some (C, p, c) ->
  loop eps (qof B) fuel r count (zst st) = (C, lift lo p, c).
Proof.
  induction fuel as [|f IH]; intros r count st C p c HG H; cbn [loop zloop] in *.
  - destruct (negb r && (count <=? 1000)); [discriminate|]. injection H as -> <-. reflexivity.
  - destruct (negb r && (count <=? 1000)).
    + destruct (zpass lo hi G st) as [[st' r']|] eqn:E; [|discriminate].
      destruct (zpass_ok _ _ HG E) as (-> & G'). cbn [fst snd]. now apply IH.
    + injection H as -> <-. reflexivity.
Qed.
Lemma zfinal_ok C p c : zfinal lo hi (mmul (mtr B) B) = Some (C, p, c) ->
  final eps (qof B) = (C, lift lo p, c).
Proof.
  unfold zfinal, final. cbv zeta. fold G. destruct (zstab lo hi (zget G mid)) eqn:E; [|discriminate].
  intros H. rewrite zpar_ok by exact E. apply (zloop_ok _ _ _ (mid, zget G mid)); [|exact H].
  now split.
Qed.
End Correct.
