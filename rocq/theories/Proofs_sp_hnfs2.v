(** The Fortran enumerators for hexagonal, rhombohedral, cubic and triclinic lattices. *)
From Coq Require Import ZArith List Lia Bool.
From Verif Require Import Mat3 Spec PyNum Model_diag PyNumFacts PointGroup EnumTac.
From Verif Require Import Model_universal Model_sc Model_bcc Model_fcc Model_sp_hnfs FortFacts
  Proofs_mono Proofs_hex Proofs_cubic Proofs_enum_extra.
Import ListNotations.
Open Scope Z_scope.

(** ** Hexagonal *)

Lemma f_hex_12_gens : enumerates_gens [mopp mid; X_h12a; X_h12b; X_h12c] f_hex_12.
Proof.
  apply enum_intro.
  - intros n H Hin. unfold f_hex_12 in Hin. fd_diag Hin. d_if Hin T. fd_step Hin b kb.
    d_if Hin T1. d_if Hin T2. fd_half Hin e ke. d_if Hin T0. d_if Hin T3. fd_range Hin d.
    d_if Hin T9. d_if Hin T4. d_end Hin a b c d e f.
    destruct T2 as (T2 & T5). destruct T4 as (((T4 & T6) & T7) & T8). clear T9 T0 T1.
    d_rem T kc. d_rem T2 k2. fq T5 (kb * b). d_rem T5 k5. fq T3 (k2 * e). d_rem T3 k3.
    fq T4 (kb * d). fq T4 (kb * b). fq T4 (e * k5). d_rem T4 k4.
    fq T6 (kb * d). fq T6 (kb * b). fq T6 (e * k5). d_rem T6 k6.
    fq T7 (kc * d). fq T7 (kb * e). d_rem T7 k7. fq T8 (kc * d - kb * e). d_rem T8 k8.
    gens_cases.
    + unfold X_h12a; pres_goal.
      * solved (-1) k2 (-k3).
      * solved 0 1 (-ke).
      * solved 0 0 (-1).
    + unfold X_h12b; pres_goal.
      * solved (-1 - kb) k5 k6.
      * solved (-kc) (1 + kb) k8.
      * solved 0 0 1.
    + unfold X_h12c; pres_goal.
      * solved (-1 - kb) k5 k4.
      * solved (-kc) (1 + kb) k7.
      * solved 0 0 (-1).
  - intros a b c d e f Ha Hc Hf Hb Hd He HP.
    use_gen HP X_h12a x1 x2 x3 y1 y2 y3 w1 w2 w3.
    zc x1 (-1) a. zc y1 0 a. zc y2 1 c.
    use_gen HP X_h12b u1 u2 u3 r1 r2 r3 t1 t2 t3.
    zc r2 (- u1) c.
    use_gen HP X_h12c o1 o2 o3 p1 p2 p3 q1 q2 q3.
    zc o1 u1 a. zc o2 u2 c. zc p1 r1 a. zc p2 (-u1) c.
    unfold f_hex_12. fenc (a,c,f). encif; [e_rem (-r1); ez|].
    fenc b; [exists (-1 - u1); lia|]. encif; [e_rem ((-1 - u1) * b); ez|]. encif.
    + split; [e_rem x2; ez|]. gq ((-1 - u1) * b). e_rem u2; ez.
    + fenc e; [exists (-y3); lia|]. encif; [e_rem (x2 * e); ez|].
      encif; [gq (x2 * e); e_rem (-x3); ez|].
      fenc d. encif.
      { gq ((-1 - u1) * b). repeat split.
        - e_rem ((-1 - u1) * d); ez.
        - e_rem (e * u2); ez.
        - e_rem ((-1 - u1) * e); ez.
        - e_rem (-r1 * d); ez.
        - e_rem (-r1 * d - (-1 - u1) * e); ez. }
      encif; [|enc1]. split; [split; [split|]|].
      * gq ((-1 - u1) * d). gq ((-1 - u1) * b). gq (e * u2). e_rem o3; ez.
      * gq ((-1 - u1) * d). gq ((-1 - u1) * b). gq (e * u2). e_rem u3; ez.
      * gq ((-r1) * d). gq ((-1 - u1) * e). e_rem p3; ez.
      * gq ((-r1) * d - (-1 - u1) * e). e_rem r3; ez.
Qed.

Lemma f_hex_22_gens : enumerates_gens [mopp mid; X_h22a; X_h22b] f_hex_22.
Proof.
  apply enum_intro.
  - intros n H Hin. unfold f_hex_22 in Hin. fd_diag Hin. d_if Hin T. fd_step Hin e ke.
    d_if Hin T1. d_if Hin T2. fd_range Hin b. fd_step Hin d kd. d_if Hin T0. d_if Hin T4.
    d_end Hin a b c d e f.
    destruct T2 as (T2 & T3). destruct T4 as (T4 & T5).
    d_rem T kf. d_rem T2 k2. fq T3 (ke * e). d_rem T3 k3. d_rem T4 k4.
    fq T5 (kd * e). d_rem T5 k5.
    gens_cases.
    + unfold X_h22a; pres_goal.
      * solved (-1) 0 k4.
      * solved 0 (-1) k2.
      * solved 0 0 1.
    + unfold X_h22b; pres_goal.
      * solved (-1) kd k5.
      * solved 0 (-1 + ke) k3.
      * solved 0 kf (-ke).
  - intros a b c d e f Ha Hc Hf Hb Hd He HP.
    use_gen HP X_h22a x1 x2 x3 y1 y2 y3 w1 w2 w3.
    zc x1 (-1) a. zc x2 0 c. zc y1 0 a. zc y2 (-1) c.
    use_gen HP X_h22b u1 u2 u3 r1 r2 r3 t1 t2 t3.
    zc u1 (-1) a. zc r1 0 a. zc t1 0 a.
    unfold f_hex_22. fenc (a,c,f). encif; [e_rem t2; ez|].
    fenc e; [exists (1 + r2); lia|]. encif; [e_rem ((1 + r2) * e); ez|]. encif.
    + split.
      * e_rem y3; ez.
      * gq ((1 + r2) * e). e_rem r3; ez.
    + fenc b. fenc d; [exists u2; lia|]. encif; [e_rem (u2 * e); ez|]. encif; [|enc1]. split.
      * e_rem x3; ez.
      * gq (u2 * e). e_rem u3; ez.
Qed.

(** ** Rhombohedral *)

Lemma f_rhom_9_24_gens : enumerates_gens [mopp mid; X_bm20; X_r9] f_rhom_9_24.
Proof.
  apply enum_intro.
  - intros n H Hin. unfold f_rhom_9_24 in Hin. fd_diag Hin. d_if Hin T. fd_half Hin b kb.
    d_if Hin T2. fd_step Hin e ke. d_if Hin T3. fd_step Hin d kd. d_if Hin T4. d_if Hin T7.
    d_end Hin a b c d e f. destruct T3 as ((T3 & T5) & T6). destruct T7 as (T7 & T8).
    d_rem T kf. fq T2 (b * kf). d_rem T2 k2. fq T3 (b * ke). d_rem T3 k3. d_rem T5 k5.
    fq T6 (kb * e). d_rem T6 k6. fq T4 (kd * b). d_rem T4 k4.
    fq T7 (kd * d). fq T7 (kd * b). fq T7 (e * k4). d_rem T7 k7.
    fq T8 (d * ke). fq T8 (b * ke). fq T8 (e * k3). d_rem T8 k8.
    gens_cases.
    + unfold X_bm20; pres_goal.
      * solved 1 (-kb) k6.
      * solved 0 (-1) k5.
      * solved 0 0 1.
    + unfold X_r9; pres_goal.
      * solved (-kd) k4 k7.
      * solved (-ke) (1 + k3) k8.
      * assert (e * k2 = f * k3) by (apply (cancel_fac c); [assumption|ns]).
        solved (-kf) k2 (-1 + kd - k3).
  - intros a b c d e f Ha Hc Hf Hb Hd He HP.
    use_gen HP X_bm20 x1 x2 x3 y1 y2 y3 w1 w2 w3.
    zc x1 1 a. zc y1 0 a. zc y2 (-1) c.
    use_gen HP X_r9 u1 u2 u3 r1 r2 r3 t1 t2 t3.
    unfold f_rhom_9_24. fenc (a,c,f). encif; [e_rem (-t1); ez|].
    fenc b; [exists (-x2); lia|]. encif; [gq (- b * t1); e_rem t2; ez|].
    fenc e; [exists (-r1); lia|]. encif.
    + split; [split|].
      * gq (- b * r1). e_rem (-1 + r2); ez.
      * e_rem y3; ez.
      * gq (- x2 * e). e_rem x3; ez.
    + fenc d; [exists (-u1); lia|]. encif; [gq (- u1 * b); e_rem u2; ez|].
      encif; [|enc1]. split.
      * gq (- u1 * d). gq (- u1 * b). gq (e * u2). e_rem u3; ez.
      * gq (- d * r1). gq (- b * r1). gq (e * (-1 + r2)). e_rem r3; ez.
Qed.

Lemma f_rhom_4_2_gens : enumerates_gens [mopp mid; X_r4a; X_r4b] f_rhom_4_2.
Proof.
  apply enum_intro.
  - intros n H Hin. unfold f_rhom_4_2 in Hin. fd_diag Hin. d_if Hin T. fd_half Hin b kb.
    d_if Hin T1. d_if Hin T2. fd_range Hin e. d_if Hin T10. d_if Hin T3. fd_range Hin d.
    d_if Hin T11. d_if Hin T12. d_if Hin T4.
    d_end Hin a b c d e f. destruct T3 as (((T0 & T3) & T5) & T6).
    destruct T4 as (((T9 & T4) & T7) & T8). clear T1 T10 T11 T12.
    d_rem T kf. d_rem T0 ke. d_rem T9 kd. fq T2 (b * kf). d_rem T2 k2.
    fq T3 (b * ke). d_rem T3 k3. fq T5 (kb * e). d_rem T5 k5. d_rem T6 k6.
    fq T4 (kd * b). d_rem T4 k4.
    fq T7 (kd * d). fq T7 (kd * b). fq T7 (e * k4). d_rem T7 k7.
    fq T8 (d * ke). fq T8 (b * ke). fq T8 (e * k3). d_rem T8 k8.
    gens_cases.
    + unfold X_r4a; pres_goal.
      * solved 1 (-kb) (-k5).
      * solved 0 (-1) (-k6).
      * solved 0 0 1.
    + unfold X_r4b; pres_goal.
      * solved (-kd) k4 k7.
      * solved (-ke) (1 + k3) k8.
      * assert (e * k2 = f * k3) by (apply (cancel_fac c); [assumption|ns]).
        solved (-kf) k2 (kd - k3).
  - intros a b c d e f Ha Hc Hf Hb Hd He HP.
    use_gen HP X_r4a x1 x2 x3 y1 y2 y3 w1 w2 w3.
    zc x1 1 a. zc y1 0 a. zc y2 (-1) c.
    use_gen HP X_r4b u1 u2 u3 r1 r2 r3 t1 t2 t3.
    unfold f_rhom_4_2. fenc (a,c,f). encif; [e_rem (-t1); ez|].
    fenc b; [exists (-x2); lia|]. encif; [e_rem (- b * t1); ez|].
    encif; [gq (- b * t1); e_rem t2; ez|].
    fenc e. encif; [split; [e_rem (- b * r1)|e_rem (- x2 * e)]; ez|]. encif.
    + split; [split; [split|]|].
      * e_rem (-r1); ez.
      * gq (- b * r1). e_rem (-1 + r2); ez.
      * gq (- x2 * e). e_rem (-x3); ez.
      * e_rem (-y3); ez.
    + fenc d. encif; [e_rem (- u1 * b); ez|].
      encif; [gq (- u1 * b); split; [split|]; [e_rem (e * u2)|e_rem (- u1 * d)|e_rem (- r1 * d)]; ez|].
      encif; [|enc1]. split; [split; [split|]|].
      * e_rem (-u1); ez.
      * gq (- u1 * b). e_rem u2; ez.
      * gq (- u1 * d). gq (- u1 * b). gq (e * u2). e_rem u3; ez.
      * gq (- d * r1). gq (- b * r1). gq (e * (-1 + r2)). e_rem r3; ez.
Qed.

(** ** Cubic *)

(** The quotient test of the Fortran code and that of the Python code. *)
Lemma quot_feqz f a k : 1 <= a -> 1 <= f ->
  (Z.quot f a =? k) && rem0 f a = feqz (fz f / fz a)%frac k.
Proof.
  intros Ha Hf. apply eq_true_iff_eq.
  rewrite feqz_quot, andb_true_iff, Z.eqb_eq. rewrite rem0_true by lia. split.
  - intros (E & (j & ->)). rewrite Z.quot_mul in E by lia. lia.
  - intros ->. split; [apply Z.quot_mul; lia|exists k; reflexivity].
Qed.

Definition bcc_sel (a c f : Z) : option mat3 :=
  if (a =? c) && (a =? f) then Some (HNF a 0 c 0 0 f)
  else if (a =? c) && feqz (fz f / a)%frac 2 then Some (HNF a 0 c a a f)
  else if (a =? c) && feqz (fz f / a)%frac 4 then Some (HNF a 0 c (3 * a) (3 * a) f)
  else None.
Definition fcc_sel (a c f : Z) : option mat3 :=
  if (a =? c) && (a =? f) then Some (HNF a 0 c 0 0 f)
  else if (c =? f) && (feqz (fz f / a)%frac 2 || feqz (fz f / a)%frac 4)
       then Some (HNF a a c a 0 f)
  else None.

Fixpoint first_sel (sel : Z -> Z -> Z -> option mat3) (l : list (Z * Z * Z)) : option mat3 :=
  match l with
  | [] => None
  | (a, c, f) :: r =>
      match sel a c f with Some H => Some H | None => first_sel sel r end
  end.
Definition opt_list (o : option mat3) : list mat3 :=
  match o with Some H => H :: nil | None => nil end.

Definition pos_triples (l : list (Z * Z * Z)) :=
  forall a c f, In (a, c, f) l -> 1 <= a /\ 1 <= c /\ 1 <= f.
Lemma pos_cons a c f l : pos_triples ((a, c, f) :: l) -> 1 <= a /\ 1 <= f /\ pos_triples l.
Proof.
  intros HP. destruct (HP a c f (or_introl eq_refl)) as (A & _ & F).
  split; [exact A|split; [exact F|]]. intros a' c' f' Hin. apply (HP a' c' f'). now right.
Qed.

Lemma f_sc_3_first l : pos_triples l -> f_sc_3_loop l = first_sel sc_sel l.
Proof.
  induction l as [|[[a c] f] l IH]; intros HP; [reflexivity|].
  apply pos_cons in HP. destruct HP as (A & F & HP).
  cbn [f_sc_3_loop first_sel]. rewrite !quot_feqz by assumption. rewrite (IH HP).
  unfold sc_sel.
  repeat match goal with |- context [if ?b then _ else _] => destruct b end; reflexivity.
Qed.
Lemma f_bcc_5_first l : pos_triples l -> f_bcc_5_loop l = first_sel bcc_sel l.
Proof.
  induction l as [|[[a c] f] l IH]; intros HP; [reflexivity|].
  apply pos_cons in HP. destruct HP as (A & F & HP).
  cbn [f_bcc_5_loop first_sel]. rewrite !quot_feqz by assumption. rewrite (IH HP).
  unfold bcc_sel.
  repeat match goal with |- context [if ?b then _ else _] => destruct b end; reflexivity.
Qed.
Lemma f_fcc_1_first l : pos_triples l -> f_fcc_1_loop l = first_sel fcc_sel l.
Proof.
  induction l as [|[[a c] f] l IH]; intros HP; [reflexivity|].
  apply pos_cons in HP. destruct HP as (A & F & HP).
  cbn [f_fcc_1_loop first_sel]. rewrite !quot_feqz by assumption. rewrite (IH HP).
  unfold fcc_sel.
  repeat match goal with |- context [if ?b then _ else _] => destruct b end; reflexivity.
Qed.

Lemma first_sel_in sel l H : first_sel sel l = Some H ->
  exists a c f, In (a, c, f) l /\ sel a c f = Some H.
Proof.
  induction l as [|[[a c] f] l IH]; cbn [first_sel]; [discriminate|].
  destruct (sel a c f) as [H'|] eqn:E.
  - intros E'. injection E' as <-. exists a, c, f. split; [now left|exact E].
  - intros E'. destruct (IH E') as (a' & c' & f' & Hin & Hs).
    exists a', c', f'. split; [now right|exact Hs].
Qed.
Lemma first_sel_none sel l : first_sel sel l = None ->
  forall a c f, In (a, c, f) l -> sel a c f = None.
Proof.
  induction l as [|[[a c] f] l IH]; cbn [first_sel]; [intros _ a c f []|].
  destruct (sel a c f) as [H'|] eqn:E; [discriminate|].
  intros E' a' c' f' [Hin|Hin]; [|now apply IH].
  injection Hin as <- <- <-. exact E.
Qed.

(** The first hit is the only one when the whole scan has at most one value. *)
Lemma first_sel_all sel l enum :
  (forall H, In H enum <-> exists a c f, In (a, c, f) l /\ sel a c f = Some H) ->
  (forall H H', In H enum -> In H' enum -> H = H') ->
  forall H, In H (opt_list (first_sel sel l)) <-> In H enum.
Proof.
  intros HE HU H. destruct (first_sel sel l) as [K|] eqn:E; cbn [opt_list].
  - assert (HK : In K enum) by (apply HE, first_sel_in, E).
    split; [intros [<-|[]]; exact HK|]. intros HH. left. now apply HU.
  - split; [intros []|]. intros HH. apply HE in HH. destruct HH as (a & c & f & Hin & Hs).
    rewrite (first_sel_none _ _ E _ _ _ Hin) in Hs. discriminate.
Qed.

Lemma cubic_all_opt o :
  (forall H, o = Some H -> 1 <= m11 H) -> cubic_all o = opt_list o.
Proof.
  intros HP. unfold cubic_all. destruct o as [H|]; [|reflexivity]. cbn [temp_hnf opt_list].
  specialize (HP H eq_refl). unfold all_zero.
  replace (m11 H =? 0) with false by (symmetry; apply Z.eqb_neq; lia). reflexivity.
Qed.

Lemma diag_pos n : pos_triples (get_HNF_diagonals n).
Proof. intros a c f Hin. apply in_diagonals in Hin. tauto. Qed.

Lemma bcc_5_sel n H :
  In H (bcc_5 n) <-> exists a c f, In (a, c, f) (get_HNF_diagonals n) /\ bcc_sel a c f = Some H.
Proof.
  unfold bcc_5. rewrite in_py_for. unfold bcc_sel. split.
  - intros (((a & c) & f) & Hd & Hin). exists a, c, f. split; [exact Hd|].
    repeat match type of Hin with context [if ?b then _ else _] => destruct b end;
      destruct Hin as [->|[]] || destruct Hin; reflexivity.
  - intros (a & c & f & Hd & Hs). exists (a, c, f). split; [exact Hd|].
    repeat match type of Hs with context [if ?b then _ else _] => destruct b end;
      try discriminate Hs; injection Hs as <-; now left.
Qed.
Lemma fcc_1_sel n H :
  In H (fcc_1 n) <-> exists a c f, In (a, c, f) (get_HNF_diagonals n) /\ fcc_sel a c f = Some H.
Proof.
  unfold fcc_1. rewrite in_py_for. unfold fcc_sel. split.
  - intros (((a & c) & f) & Hd & Hin). exists a, c, f. split; [exact Hd|].
    repeat match type of Hin with context [if ?b then _ else _] => destruct b end;
      destruct Hin as [->|[]] || destruct Hin; reflexivity.
  - intros (a & c & f & Hd & Hs). exists (a, c, f). split; [exact Hd|].
    repeat match type of Hs with context [if ?b then _ else _] => destruct b end;
      try discriminate Hs; injection Hs as <-; now left.
Qed.
Lemma sc_3_sel n H :
  In H (sc_3 n) <-> exists a c f, In (a, c, f) (get_HNF_diagonals n) /\ sc_sel a c f = Some H.
Proof.
  split; [apply sc_loop_sound|].
  intros (a & c & f & Hd & Hs). apply (sc_loop_complete _ a c f); [|exact Hd|exact Hs].
  intros a' c' f' H' Hd' Hs'. apply in_diagonals in Hd, Hd'.
  apply (sc_sel_unique a' c' f' H' a c f H); [tauto|tauto| |exact Hs'|exact Hs].
  destruct Hd as (_ & _ & _ & ->). tauto.
Qed.

Lemma sc_3_unique n H H' : In H (sc_3 n) -> In H' (sc_3 n) -> H = H'.
Proof.
  rewrite !in_sc_3. intros (a & Ha & HH) (b & Hb & HH').
  destruct HH as [(E & ->)|[(E & ->)|(E & ->)]];
  destruct HH' as [(E' & ->)|[(E' & ->)|(E' & ->)]];
  first [ rewrite (cube_inj a b) by lia; reflexivity
        | exfalso; first [ apply (cube2 a b); lia | apply (cube4 a b); lia
                         | apply (cube2 b a); lia | apply (cube4 b a); lia ] ].
Qed.
Lemma bcc_5_unique n H H' : In H (bcc_5 n) -> In H' (bcc_5 n) -> H = H'.
Proof.
  rewrite !in_bcc_5. intros (a & Ha & HH) (b & Hb & HH').
  destruct HH as [(E & ->)|[(E & ->)|(E & ->)]];
  destruct HH' as [(E' & ->)|[(E' & ->)|(E' & ->)]];
  first [ rewrite (cube_inj a b) by lia; reflexivity
        | exfalso; first [ apply (cube2 a b); lia | apply (cube4 a b); lia
                         | apply (cube2 b a); lia | apply (cube4 b a); lia ] ].
Qed.
Lemma cube16 x y : 1 <= y -> x * x * x <> 16 * (y * y * y).
Proof. intros Hy H. apply (cube2 x (2 * y)); lia. Qed.
Lemma fcc_1_unique n H H' : In H (fcc_1 n) -> In H' (fcc_1 n) -> H = H'.
Proof.
  rewrite !in_fcc_1. intros (a & Ha & HH) (b & Hb & HH').
  destruct HH as [(E & ->)|[(E & ->)|(E & ->)]];
  destruct HH' as [(E' & ->)|[(E' & ->)|(E' & ->)]];
  first [ rewrite (cube_inj a b) by lia; reflexivity
        | exfalso; first [ apply (cube4 a b); lia | apply (cube4 b a); lia
                         | apply (cube16 a b); lia | apply (cube16 b a); lia ] ].
Qed.

Lemma in_cubic sel n enum :
  (forall H, In H enum <-> exists a c f, In (a, c, f) (get_HNF_diagonals n) /\ sel a c f = Some H) ->
  (forall H H', In H enum -> In H' enum -> H = H') ->
  (forall H, In H enum -> 1 <= m11 H) ->
  forall H, In H (cubic_all (first_sel sel (get_HNF_diagonals n))) <-> In H enum.
Proof.
  intros HE HU HP H. rewrite cubic_all_opt.
  - apply first_sel_all; assumption.
  - intros K E. apply HP, HE, first_sel_in, E.
Qed.

Lemma in_f_sc_3 n H : In H (f_sc_3 n) <-> In H (sc_3 n).
Proof.
  unfold f_sc_3. rewrite f_diagonals_py, f_sc_3_first by apply diag_pos.
  apply in_cubic; [apply sc_3_sel|apply sc_3_unique|].
  intros K HK. apply in_sc_3 in HK. destruct HK as (a & Ha & HK).
  destruct HK as [(_ & ->)|[(_ & ->)|(_ & ->)]]; cbn [HNF m11]; lia.
Qed.
Lemma in_f_bcc_5 n H : In H (f_bcc_5 n) <-> In H (bcc_5 n).
Proof.
  unfold f_bcc_5. rewrite f_diagonals_py, f_bcc_5_first by apply diag_pos.
  apply in_cubic; [apply bcc_5_sel|apply bcc_5_unique|].
  intros K HK. apply in_bcc_5 in HK. destruct HK as (a & Ha & HK).
  destruct HK as [(_ & ->)|[(_ & ->)|(_ & ->)]]; cbn [HNF m11]; lia.
Qed.
Lemma in_f_fcc_1 n H : In H (f_fcc_1 n) <-> In H (fcc_1 n).
Proof.
  unfold f_fcc_1. rewrite f_diagonals_py, f_fcc_1_first by apply diag_pos.
  apply in_cubic; [apply fcc_1_sel|apply fcc_1_unique|].
  intros K HK. apply in_fcc_1 in HK. destruct HK as (a & Ha & HK).
  destruct HK as [(_ & ->)|[(_ & ->)|(_ & ->)]]; cbn [HNF m11]; lia.
Qed.

Lemma f_sc_3_gens : enumerates_gens gens_sc f_sc_3.
Proof. intros n H. rewrite in_f_sc_3. apply sc_3_gens. Qed.
Lemma f_bcc_5_gens : enumerates_gens gens_bcc f_bcc_5.
Proof. intros n H. rewrite in_f_bcc_5. apply bcc_5_gens. Qed.
Lemma f_fcc_1_gens : enumerates_gens gens_fcc f_fcc_1.
Proof. intros n H. rewrite in_f_fcc_1. apply fcc_1_gens. Qed.

Lemma cubic_single o : (length (cubic_all o) <= 1)%nat.
Proof. unfold cubic_all. destruct (negb _); cbn; lia. Qed.

(** When not all HNFs are asked for, the zero matrix is handed on if there is no HNF. *)
Lemma cubic_one_spec o :
  (forall H, o = Some H -> 1 <= m11 H) ->
  (cubic_all o = [] -> cubic_one o = zero_mat) /\
  (forall H, In H (cubic_all o) -> cubic_one o = H).
Proof.
  intros HP. rewrite cubic_all_opt by assumption. unfold cubic_one.
  destruct o as [H|]; cbn [opt_list temp_hnf]; split.
  - discriminate.
  - intros K [->|[]]. reflexivity.
  - reflexivity.
  - intros K [].
Qed.

(** ** Triclinic *)

Lemma do_range1_py hi : 1 <= hi -> do_range 0 (hi - 1) 1 = py_range 0 hi 1.
Proof. intros _. apply do_range_py. Qed.

Lemma f_tric_loop_py m n : f_tric_loop m n = triclinic_hnfs m n.
Proof.
  unfold f_tric_loop, triclinic_hnfs. rewrite f_diagonals_py.
  apply py_for_ext. intros [[a c] f] Hd. apply in_diagonals in Hd.
  destruct Hd as (Ha & Hc & Hf & _). rewrite !do_range1_py by lia. reflexivity.
Qed.

Lemma length_py_for {A B} (l : list A) (g : A -> list B) :
  length (py_for l g) = list_sum (map (fun x => length (g x)) l).
Proof.
  induction l as [|x l IH]; [reflexivity|].
  unfold py_for in *. cbn [flat_map map]. rewrite app_length, IH. reflexivity.
Qed.

Lemma length_py_for_const {A B} (l : list A) (g : A -> list B) k :
  (forall x, In x l -> length (g x) = k) -> length (py_for l g) = (length l * k)%nat.
Proof.
  intros HL. induction l as [|x l IH]; [reflexivity|].
  unfold py_for in *. cbn [flat_map length]. rewrite app_length, IH.
  - rewrite HL by now left. reflexivity.
  - intros y Hy. apply HL. now right.
Qed.
Lemma length_range1 hi : 0 <= hi -> Z.of_nat (length (py_range 0 hi 1)) = hi.
Proof.
  intros H. unfold py_range. rewrite map_length, seq_length.
  replace (hi - 0 + 1 - 1) with hi by ring. rewrite Z.div_1_r. lia.
Qed.

(** The number of HNFs of size [n]. *)
Lemma total_fold (l : list (Z * Z * Z)) t :
  fold_left (fun t '(_, c, f) => t + c * f ^ 2) l t =
  t + fold_left (fun t '(_, c, f) => t + c * f ^ 2) l 0.
Proof.
  revert t. induction l as [|[[a c] f] l IH]; intros t; cbn [fold_left]; [lia|].
  rewrite IH. rewrite (IH (0 + c * f ^ 2)). lia.
Qed.

Lemma triclinic_length m n :
  Z.of_nat (length (triclinic_hnfs m n)) = f_total_hnfs n.
Proof.
  unfold triclinic_hnfs, f_total_hnfs. rewrite f_diagonals_py.
  generalize (diag_pos n). generalize (get_HNF_diagonals n). intros l.
  induction l as [|[[a c] f] l IH]; intros HP; [reflexivity|].
  assert (HX : 1 <= c /\ 1 <= f).
  { specialize (HP a c f (or_introl eq_refl)). tauto. }
  apply pos_cons in HP. destruct HP as (_ & _ & HP). specialize (IH HP).
  destruct HX as (Hc & Hf).
  cbn [fold_left]. rewrite total_fold, <- IH. unfold py_for at 1. cbn [flat_map].
  rewrite app_length, Nat2Z.inj_add. f_equal.
  rewrite (length_py_for_const _ _ (length (py_range 0 f 1) * (length (py_range 0 f 1) * 1))%nat).
  - rewrite !Nat2Z.inj_mul, !length_range1 by lia. lia.
  - intros b _. apply length_py_for_const. intros d _. apply length_py_for_const. reflexivity.
Qed.

(** The [stop] of line 4490 is never reached. *)
Lemma f_tric_always m n : f_tric_31_44 m n = Some (triclinic_hnfs m n).
Proof.
  unfold f_tric_31_44. rewrite f_tric_loop_py, triclinic_length, Z.eqb_refl. reflexivity.
Qed.
