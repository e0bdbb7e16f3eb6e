(** Proofs about delinter.f90. *)
From Coq Require Import Reals ZArith List Bool Lra Psatz.
From Verif Require Import Model_delinter Spec_delinter.
Import ListNotations.
Open Scope R_scope.

(** ** Matrices *)
Lemma rmul_assoc a b c : rmul a (rmul b c) = rmul (rmul a b) c.
Proof. unfold rmul; cbn. f_equal; ring. Qed.
Lemma rmul_id_r a : rmul a rid = a.
Proof. destruct a; unfold rmul; cbn. f_equal; ring. Qed.
Lemma rmul_id_l a : rmul rid a = a.
Proof. destruct a; unfold rmul; cbn. f_equal; ring. Qed.
Lemma rtr_mul a b : rtr (rmul a b) = rmul (rtr b) (rtr a).
Proof. unfold rtr, rmul; cbn. f_equal; ring. Qed.
Lemma rinv_some a : rdet a <> 0 -> exists i, rinv a = Some i /\ rmul a i = rid /\ rmul i a = rid.
Proof.
  intros H. unfold rinv. destruct (Req_EM_T (rdet a) 0); [contradiction|].
  eexists. split; [reflexivity|].
  unfold rmul, rid; cbn [r11 r12 r13 r21 r22 r23 r31 r32 r33].
  revert H n. unfold rdet. intros H n.
  split; f_equal; field; exact H.
Qed.
Lemma rinv_spec a i : rinv a = Some i -> rmul a i = rid /\ rmul i a = rid.
Proof.
  intros E. assert (H : rdet a <> 0) by (intros H; unfold rinv in E; destruct (Req_EM_T (rdet a) 0); [discriminate|contradiction]).
  destruct (rinv_some a H) as (j & E' & H1 & H2). rewrite E in E'. injection E' as <-. now split.
Qed.
Lemma gram_rotation V K Ki : rmul (rtr V) V = rmul (rtr K) K -> rmul K Ki = rid -> rmul Ki K = rid ->
  rmul (rtr (rmul V Ki)) (rmul V Ki) = rid.
Proof.
  intros G H1 H2. rewrite rtr_mul, rmul_assoc, <- (rmul_assoc (rtr Ki)), G.
  rewrite rmul_assoc, <- rtr_mul, H1, <- rmul_assoc, H1. unfold rtr, rid, rmul; cbn. f_equal; ring.
Qed.
Lemma gram_rotation' V Vi K Ki : rmul (rtr V) V = rmul (rtr K) K -> rmul K Ki = rid -> rmul Ki K = rid ->
  rmul V Vi = rid -> rmul (rmul V Ki) (rtr (rmul V Ki)) = rid.
Proof.
  intros G H1 H2 H3.
  assert (E : rmul (rmul (rmul V Ki) (rtr (rmul V Ki))) V = V).
  { rewrite rtr_mul. rewrite <- !rmul_assoc, G. rewrite (rmul_assoc (rtr Ki)), <- rtr_mul, H1.
    replace (rtr rid) with rid by reflexivity. now rewrite rmul_id_l, H2, rmul_id_r. }
  rewrite <- (rmul_id_r (rmul _ (rtr _))), <- H3, rmul_assoc, E. reflexivity.
Qed.
Lemma products_gram P V W : rmul (rtr V) V = rmul (rtr W) W -> products P V -> products P W.
Proof.
  intros G. unfold products. unfold rmul, rtr in G. cbn in G.
  injection G as G11 G12 G13 _ G22 G23 _ _ G33.
  unfold rdot, rcol1, rcol2, rcol3. cbn. now rewrite G11, G12, G13, G22, G23, G33.
Qed.

(** ** Cell parameters *)
Lemma r_acos_some x y : r_acos x = Some y -> -1 <= x <= 1 /\ y = acos x.
Proof. unfold r_acos. destruct (Rle_dec (-1) x); [|discriminate]. destruct (Rle_dec x 1); [|discriminate]. intros [= <-]. lra. Qed.
Lemma r_acos_ok x : -1 <= x <= 1 -> r_acos x = Some (acos x).
Proof. intros [H1 H2]. unfold r_acos. destruct (Rle_dec (-1) x); [|contradiction]. now destruct (Rle_dec x 1). Qed.
Lemma acos_div_some x y al : acos_div x y = Some al -> y <> 0 /\ cos al = x / y.
Proof.
  unfold acos_div, r_div, bind. destruct (Req_EM_T y 0); [discriminate|]. intros E.
  apply r_acos_some in E as [H ->]. split; [assumption|]. now apply cos_acos.
Qed.
Lemma acos_div_ok x y q : y <> 0 -> x = q * y -> -1 <= q <= 1 -> acos_div x y = Some (acos q).
Proof.
  intros Hy E Hq. unfold acos_div, r_div, bind. destruct (Req_EM_T y 0); [contradiction|].
  replace (x / y) with q by (rewrite E; now field). now apply r_acos_ok.
Qed.
(** The scalar products of the vectors with given cell parameters. *)
Definition cell_products (P : R -> R -> R -> R -> R -> R -> Prop) (p : cell) : Prop :=
  P (ca p * ca p) (cb p * cb p) (cc p * cc p) (cb p * cc p * cos (calpha p))
    (ca p * cc p * cos (cbeta p)) (ca p * cb p * cos (cgamma p)).
Lemma cell2basis_gram P p K : cell2basis p = Some K -> (products P K <-> cell_products P p).
Proof.
  destruct p as [a b c al be ga]. unfold cell2basis, r_div, r_sqrt, bind.
  destruct (Req_EM_T (sin ga) 0) as [|Hs]; [discriminate|].
  set (t := (cos al - cos be * cos ga) / sin ga).
  destruct (Rle_dec 0 (1 - cos be ^ 2 - t ^ 2)) as [Hn|]; [|discriminate].
  pose proof (sqrt_sqrt _ Hn) as Hq. pose proof (sin2_cos2 ga) as Hsc. unfold Rsqr in Hsc.
  set (q := sqrt (1 - cos be ^ 2 - t ^ 2)) in *.
  assert (Ht : t * sin ga = cos al - cos be * cos ga) by (unfold t; now field).
  clearbody t q. intros [= <-]. unfold products, cell_products, rdot, rcol1, rcol2, rcol3.
  cbn [r11 r12 r13 r21 r22 r23 r31 r32 r33 x1 x2 x3 ca cb cc calpha cbeta cgamma].
  replace (a * a + 0 * 0 + 0 * 0) with (a * a) by ring.
  replace (b * cos ga * (b * cos ga) + b * sin ga * (b * sin ga) + 0 * 0) with (b * b).
  2:{ transitivity (b * b * (sin ga * sin ga + cos ga * cos ga)); [rewrite Hsc; ring|ring]. }
  replace (c * cos be * (c * cos be) + c * t * (c * t) + c * q * (c * q)) with (c * c).
  2:{ transitivity (c * c * (cos be ^ 2 + t ^ 2 + q * q)); [rewrite Hq; ring|ring]. }
  replace (b * cos ga * (c * cos be) + b * sin ga * (c * t) + 0 * (c * q)) with (b * c * cos al).
  2:{ transitivity (b * c * (cos ga * cos be + t * sin ga)); [rewrite Ht; ring|ring]. }
  replace (a * (c * cos be) + 0 * (c * t) + 0 * (c * q)) with (a * c * cos be) by ring.
  replace (a * (b * cos ga) + 0 * (b * sin ga) + 0 * 0) with (a * b * cos ga) by ring.
  reflexivity.
Qed.

(** ** A basis and its cell parameters *)
Section basis.
  Context (V : rmat) (HV : rdet V <> 0).
  Let a := rcol1 V. Let b := rcol2 V. Let c := rcol3 V.
  Lemma det_gram : rdet V * rdet V = rdot a a * (rdot b b * rdot c c - rdot b c * rdot b c)
     - rdot a b * (rdot a b * rdot c c - rdot b c * rdot a c) + rdot a c * (rdot a b * rdot b c - rdot b b * rdot a c).
  Proof. unfold rdet, rdot, a, b, c, rcol1, rcol2, rcol3; cbn. ring. Qed.
  Lemma sq_pos x y z : 0 < x * x + y * y + z * z \/ (x = 0 /\ y = 0 /\ z = 0).
  Proof.
    destruct (Req_dec x 0) as [->|Hx]; [|left; nra]. destruct (Req_dec y 0) as [->|Hy]; [|left; nra].
    destruct (Req_dec z 0) as [->|Hz]; [right; lra|left; nra].
  Qed.
  Lemma aa_pos : 0 < rdot a a.
  Proof.
    unfold rdot. destruct (sq_pos (x1 a) (x2 a) (x3 a)) as [H|(E1 & E2 & E3)]; [exact H|exfalso].
    apply HV. unfold rdet. cbn in *. rewrite E1, E2, E3. ring.
  Qed.
  Lemma bb_pos : 0 < rdot b b.
  Proof.
    unfold rdot. destruct (sq_pos (x1 b) (x2 b) (x3 b)) as [H|(E1 & E2 & E3)]; [exact H|exfalso].
    apply HV. unfold rdet. cbn in *. rewrite E1, E2, E3. ring.
  Qed.
  Lemma cc_pos : 0 < rdot c c.
  Proof.
    unfold rdot. destruct (sq_pos (x1 c) (x2 c) (x3 c)) as [H|(E1 & E2 & E3)]; [exact H|exfalso].
    apply HV. unfold rdet. cbn in *. rewrite E1, E2, E3. ring.
  Qed.
  Lemma lagrange u v : rdot u u * rdot v v - rdot u v * rdot u v =
    (x2 u * x3 v - x3 u * x2 v) * (x2 u * x3 v - x3 u * x2 v)
    + (x3 u * x1 v - x1 u * x3 v) * (x3 u * x1 v - x1 u * x3 v)
    + (x1 u * x2 v - x2 u * x1 v) * (x1 u * x2 v - x2 u * x1 v).
  Proof. unfold rdot. ring. Qed.
  Lemma ab_pos : 0 < rdot a a * rdot b b - rdot a b * rdot a b.
  Proof.
    rewrite lagrange. match goal with |- 0 < ?x * _ + ?y * _ + ?z * _ => destruct (sq_pos x y z) as [H|(E1 & E2 & E3)] end; [exact H|exfalso].
    apply HV. unfold rdet. unfold a, b in *. cbn in *.
    transitivity (r13 V * (r21 V * r32 V - r31 V * r22 V) + r23 V * (r31 V * r12 V - r11 V * r32 V) + r33 V * (r11 V * r22 V - r21 V * r12 V)); [ring|].
    rewrite E1, E2, E3. ring.
  Qed.
  Lemma cauchy u v : 0 < rdot u u -> 0 < rdot v v -> -1 <= rdot u v / (sqrt (rdot u u) * sqrt (rdot v v)) <= 1.
  Proof.
    intros Hu Hv. pose proof (sqrt_lt_R0 _ Hu) as Su. pose proof (sqrt_lt_R0 _ Hv) as Sv.
    pose proof (sqrt_sqrt _ (Rlt_le _ _ Hu)) as Eu. pose proof (sqrt_sqrt _ (Rlt_le _ _ Hv)) as Ev.
    pose proof (lagrange u v) as L.
    set (s := sqrt (rdot u u)) in *. set (t := sqrt (rdot v v)) in *.
    assert (L' : rdot u v * rdot u v <= rdot u u * rdot v v).
    { assert (0 <= rdot u u * rdot v v - rdot u v * rdot u v); [rewrite L|lra].
      pose proof (Rle_0_sqr (x2 u * x3 v - x3 u * x2 v)). pose proof (Rle_0_sqr (x3 u * x1 v - x1 u * x3 v)).
      pose proof (Rle_0_sqr (x1 u * x2 v - x2 u * x1 v)). unfold Rsqr in *. lra. }
    clear L. rewrite <- Eu, <- Ev in L'. set (q := rdot u v) in *. clearbody q s t. clear Eu Ev Hu Hv.
    assert (P : 0 < s * t) by nra. set (p := s * t) in *. assert (Q : q * q <= p * p) by (unfold p; nra). clearbody p.
    assert (-p <= q <= p) by nra.
    split; [apply Rmult_le_reg_r with p|apply Rmult_le_reg_r with p]; try assumption; unfold Rdiv; rewrite Rmult_assoc, Rinv_l; lra.
  Qed.
  (** The parameters of a basis, with [x], [y], [z] the cosines of its angles. *)
  Definition cosine (u v : rvec) : R := rdot u v / (sqrt (rdot u u) * sqrt (rdot v v)).
  Definition params_of : cell :=
    Cell (sqrt (rdot a a)) (sqrt (rdot b b)) (sqrt (rdot c c)) (acos (cosine b c)) (acos (cosine a c)) (acos (cosine a b)).
  Lemma cosangs_ok u v : 0 < rdot u u -> 0 < rdot v v -> cosangs u v = Some (cosine u v).
  Proof.
    intros Hu Hv. unfold cosangs, r_div. pose proof (sqrt_lt_R0 _ Hu) as Su. pose proof (sqrt_lt_R0 _ Hv) as Sv.
    destruct (Req_EM_T _ 0) as [E|]; [|reflexivity]. exfalso. nra.
  Qed.
  Lemma basis2cell_ok : basis2cell V = Some params_of.
  Proof.
    pose proof aa_pos as Ha. pose proof bb_pos as Hb. pose proof cc_pos as Hc.
    unfold basis2cell. fold a b c. rewrite !cosangs_ok by assumption. cbn [bind].
    rewrite !r_acos_ok by (now apply cauchy). reflexivity.
  Qed.
  Lemma cosine_mul u v : 0 < rdot u u -> 0 < rdot v v ->
    sqrt (rdot u u) * sqrt (rdot v v) * cosine u v = rdot u v.
  Proof.
    intros Hu Hv. unfold cosine. pose proof (sqrt_lt_R0 _ Hu) as Su. pose proof (sqrt_lt_R0 _ Hv) as Sv.
    field. split; lra.
  Qed.
  Lemma params_products P : cell_products P params_of <-> products P V.
  Proof.
    pose proof aa_pos as Ha. pose proof bb_pos as Hb. pose proof cc_pos as Hc.
    unfold cell_products, products, params_of. cbn [ca cb cc calpha cbeta cgamma].
    rewrite !cos_acos by (now apply cauchy). rewrite !cosine_mul by assumption.
    rewrite !sqrt_sqrt by lra. reflexivity.
  Qed.
  Lemma canonical_ok : exists K, cell2basis params_of = Some K /\ rdet K <> 0.
  Proof.
    pose proof aa_pos as Ha. pose proof bb_pos as Hb. pose proof cc_pos as Hc. pose proof ab_pos as Hab.
    pose proof det_gram as Hd. assert (Hd0 : 0 < rdet V * rdet V) by nra. rewrite Hd in Hd0. clear Hd.
    pose proof (cosine_mul b c Hb Hc) as Ex. pose proof (cosine_mul a c Ha Hc) as Ey. pose proof (cosine_mul a b Ha Hb) as Ez.
    pose proof (cauchy b c Hb Hc) as Bx. pose proof (cauchy a c Ha Hc) as By. pose proof (cauchy a b Ha Hb) as Bz.
    change (rdot b c / _) with (cosine b c) in Bx. change (rdot a c / _) with (cosine a c) in By. change (rdot a b / _) with (cosine a b) in Bz.
    pose proof (sqrt_lt_R0 _ Ha) as Sa. pose proof (sqrt_lt_R0 _ Hb) as Sb. pose proof (sqrt_lt_R0 _ Hc) as Sc.
    pose proof (sqrt_sqrt _ (Rlt_le _ _ Ha)) as Ea. pose proof (sqrt_sqrt _ (Rlt_le _ _ Hb)) as Eb. pose proof (sqrt_sqrt _ (Rlt_le _ _ Hc)) as Ec.
    unfold params_of. set (sa := sqrt (rdot a a)) in *. set (sb := sqrt (rdot b b)) in *. set (sc := sqrt (rdot c c)) in *.
    set (x := cosine b c) in *. set (y := cosine a c) in *. set (z := cosine a b) in *.
    rewrite <- Ex, <- Ey, <- Ez, <- Ea, <- Eb, <- Ec in Hd0. rewrite <- Ez, <- Ea, <- Eb in Hab.
    clear Ex Ey Ez Ea Eb Ec Ha Hb Hc. clearbody sa sb sc x y z.
    assert (Hz : 0 < 1 - z * z).
    { assert (E : 0 < (sa * sa) * (sb * sb) * (1 - z * z)) by (eapply Rlt_le_trans; [exact Hab|right; ring]).
      assert (0 < sa * sa * (sb * sb)) by (repeat apply Rmult_lt_0_compat; assumption). nra. }
    assert (Hg : 0 < 1 - x * x - y * y - z * z + 2 * x * y * z).
    { assert (E : 0 < (sa * sa) * (sb * sb) * (sc * sc) * (1 - x * x - y * y - z * z + 2 * x * y * z)) by (eapply Rlt_le_trans; [exact Hd0|right; ring]).
      assert (0 < sa * sa * (sb * sb) * (sc * sc)) by (repeat apply Rmult_lt_0_compat; assumption). nra. }
    unfold cell2basis. rewrite !cos_acos by assumption. rewrite (sin_acos z) by assumption. unfold r_div, r_sqrt, Rsqr.
    pose proof (sqrt_lt_R0 _ Hz) as Ss. pose proof (sqrt_sqrt _ (Rlt_le _ _ Hz)) as Es.
    set (s := sqrt (1 - z * z)) in *. clearbody s.
    destruct (Req_EM_T s 0) as [|Hs]; [lra|]. cbn [bind].
    assert (Hq : 0 < 1 - y ^ 2 - ((x - y * z) / s) ^ 2).
    { assert (E : (s * s) * (1 - y ^ 2 - ((x - y * z) / s) ^ 2) = 1 - x * x - y * y - z * z + 2 * x * y * z).
      { transitivity ((s * s) * (1 - y ^ 2) - (x - y * z) ^ 2); [field; lra|rewrite Es; ring]. }
      assert (0 < s * s) by nra. nra. }
    destruct (Rle_dec 0 (1 - y ^ 2 - ((x - y * z) / s) ^ 2)) as [|Hn]; [|lra]. cbn [bind].
    eexists. split; [reflexivity|]. pose proof (sqrt_lt_R0 _ Hq) as Sq.
    unfold rdet. cbn. set (q := sqrt _) in *.
    replace (sa * (sb * s * (sc * q) - sc * ((x - y * z) / s) * 0) - sb * z * (0 * (sc * q) - sc * ((x - y * z) / s) * 0) + sc * y * (0 * 0 - sb * s * 0))
      with (sa * sb * sc * s * q) by ring.
    apply Rgt_not_eq. repeat apply Rmult_lt_0_compat; assumption.
  Qed.
End basis.

(** ** delint *)
Section delint.
  Context (equal : R -> R -> bool) (equal_mat : rmat -> rmat -> bool).
  Hypothesis equal_mat_refl : forall M, equal_mat M M = true.
  Lemma delint_eq V n : rdet V <> 0 -> exists R K Ki,
    cell2basis (params_of V) = Some K /\ rmul Ki K = rid /\ R = rmul V Ki /\ rmul (rtr R) R = rid /\
    delint equal equal_mat V n =
      match bind (symmetrize equal (params_of V) n) cell2basis with
      | None => Not_a_number | Some F => Delinted (rmul R F) end.
  Proof.
    intros HV. destruct (canonical_ok V HV) as (K & EK & HK). destruct (rinv_some K HK) as (Ki & Ei & H1 & H2).
    destruct (rinv_some V HV) as (Vi & _ & H3 & _).
    assert (G : rmul (rtr V) V = rmul (rtr K) K).
    { unfold rmul, rtr. cbn.
      pose proof (proj2 (cell2basis_gram (fun A B C D E F => rdot (rcol1 V) (rcol1 V) = A /\ rdot (rcol2 V) (rcol2 V) = B /\ rdot (rcol3 V) (rcol3 V) = C /\
        rdot (rcol2 V) (rcol3 V) = D /\ rdot (rcol1 V) (rcol3 V) = E /\ rdot (rcol1 V) (rcol2 V) = F) _ _ EK)) as HG.
      destruct HG as (G1 & G2 & G3 & G4 & G5 & G6).
      { apply params_products; [exact HV|]. unfold products. repeat split. }
      unfold rdot, rcol1, rcol2, rcol3 in *. cbn in *. f_equal; lra. }
    exists (rmul V Ki), K, Ki. split; [exact EK|]. split; [exact H2|]. split; [reflexivity|].
    split; [now apply gram_rotation with K|].
    unfold delint. rewrite (basis2cell_ok V HV). cbn [bind]. rewrite EK. cbn [bind]. rewrite Ei. cbn [bind].
    rewrite (gram_rotation' V Vi K Ki G H1 H2 H3), equal_mat_refl. cbn [negb].
    now destruct (bind _ cell2basis).
  Qed.
  Lemma delint_products P V n out : rdet V <> 0 -> delint equal equal_mat V n = Delinted out ->
    exists q, symmetrize equal (params_of V) n = Some q /\ (products P out <-> cell_products P q).
  Proof.
    intros HV E. destruct (delint_eq V n HV) as (R & K & Ki & _ & _ & _ & HR & E'). rewrite E in E'. clear E.
    destruct (symmetrize equal (params_of V) n) as [q|]; [|discriminate]. cbn [bind] in E'.
    destruct (cell2basis q) as [F|] eqn:EF; [|discriminate]. injection E' as ->.
    exists q. split; [reflexivity|].
    rewrite <- (cell2basis_gram P q F EF).
    assert (G : rmul (rtr (rmul R F)) (rmul R F) = rmul (rtr F) F).
    { rewrite rtr_mul, rmul_assoc, <- (rmul_assoc (rtr F)), HR, rmul_id_r. reflexivity. }
    split; apply products_gram; [exact G|now symmetry].
  Qed.
  Lemma delint_fixed V n : rdet V <> 0 -> symmetrize equal (params_of V) n = Some (params_of V) ->
    delint equal equal_mat V n = Delinted V.
  Proof.
    intros HV E. destruct (delint_eq V n HV) as (R & K & Ki & EK & HK & -> & _ & E'). rewrite E', E. cbn [bind]. rewrite EK.
    rewrite <- rmul_assoc, HK, rmul_id_r. reflexivity.
  Qed.
  Lemma delint_no_rotation_stop V n : rdet V <> 0 -> delint equal equal_mat V n <> Rotation_stop.
  Proof.
    intros HV. destruct (delint_eq V n HV) as (R & K & Ki & _ & _ & _ & _ & ->).
    now destruct (bind _ _).
  Qed.
End delint.
