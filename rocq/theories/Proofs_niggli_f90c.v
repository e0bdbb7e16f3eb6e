(** reduce_cell of niggli.f90 on cells with grid scalar products and on the canonical bases. *)
From Coq Require Import ZArith QArith Qcanon List Bool Lia.
From Verif Require Import Mat3 Spec QMat QNum QcTac Bases Bases_niggli Spec_grid Spec_niggli
  Spec_niggli_f90 Model_pyniggli Model_niggli_id Model_niggli_f90 Proofs_pyniggli Proofs_pyniggli2
  Proofs_niggli_term Proofs_niggli_id2 Proofs_gridcell Proofs_gridcell2 Proofs_stable Proofs_stable_z Proofs_scale Proofs_niggli_canon
  Proofs_niggli_f90a.
Import ListNotations.
Open Scope Qc_scope.

(** ** Cells on a grid *)
Lemma grid_small d x e : (0 < d)%Z -> grid d x -> 0 < e -> zq d * e < 1 -> x = e \/ x = - e -> False.
Proof.
  intros Hd (u & Hu) He Hs H. unfold rep in Hu.
  assert (P : 0 < zq d * e).
  { replace 0 with (0 * e) by ring. apply Qcmult_lt_compat_r; [exact He|].
    rewrite <- zq_0. apply zq_lt. lia. }
  destruct H as [-> | ->].
  - rewrite Hu in P, Hs. rewrite <- zq_0 in P. change 1 with (zq 1) in Hs.
    apply (proj1 (zq_lt _ _)) in P, Hs. lia.
  - replace (zq d * - e) with (- (zq d * e)) in Hu by ring.
    assert (E : zq d * e = zq (- u)) by (rewrite zq_opp, <- Hu; ring).
    rewrite E in P, Hs. rewrite <- zq_0 in P. change 1 with (zq 1) in Hs.
    apply (proj1 (zq_lt _ _)) in P, Hs. lia.
Qed.

Lemma compared_grid d A B C xi eta zeta : (0 < d)%Z -> grid d A -> grid d B -> grid d C ->
  grid d xi -> grid d eta -> grid d zeta -> forall v, In v (compared A B C xi eta zeta) -> grid d v.
Proof.
  intros Hd GA GB GC GX GE GZ v H. unfold compared in H. cbn [In] in H.
  decompose [or] H; clear H; try contradiction; subst v; gr Hd.
Qed.

Lemma f_grid_reduce d G M eps : (0 < d)%Z -> qdet M <> 0 ->
  qscale (zq d) (qgram M) = qof G -> 0 < eps -> zq d * eps < 1 ->
  let C := fst (fst (final 0 M)) in
  if Z.leb 1000 (snd (final 0 M)) then f_reduce eps M = Gave_up
  else mdet C = 1%Z /\ is_niggli (qmul M (qof C)) /\ f_reduce eps M = FReduced (qmul M (qof C)) C.
Proof.
  intros Hd HM HG He Hs. cbv zeta.
  assert (He' : 0 <= eps) by now apply Qclt_le_weak.
  rewrite reduce_final. pose proof (final_settled eps M) as HSe.
  rewrite (g_final d eps Hd He' Hs M G HG) in *.
  pose proof (final_good 0 M) as HF. pose proof (final_settled 0 M) as HS.
  destruct (final 0 M) as [[C p] count]. cbn [fst snd] in HF, HS, HSe.
  cbn [fst snd]. destruct (Z.leb_spec 1000 count) as [K|K]; [reflexivity|].
  destruct HF as (HC & HP). cbn [fst snd] in HC, HP. split; [exact HC|].
  specialize (HS ltac:(lia)). specialize (HSe ltac:(lia)).
  assert (DN : qdet (qmul M (qof C)) <> 0).
  { rewrite qdet_mul, qof_det, HC. apply Qc_mul_neq0; [exact HM|discriminate]. }
  assert (HN : is_niggli (qmul M (qof C))).
  { apply is_niggli_upto_0; [exact DN|].
    apply settled_iff; [apply Qcle_refl|]. now rewrite <- HP. }
  split; [exact HN|].
  assert (HU : is_niggli_upto eps (qmul M (qof C))).
  { apply settled_iff; [exact He'|]. rewrite (g_params d eps Hd He' Hs M G HG C). now rewrite <- HP. }
  pose proof (grid_params d Hd M G HG C) as GP. rewrite <- HP in GP.
  destruct GP as (GA & GB & GC & GX & GE & GZ).
  destruct (get_params_six 0 M C p (eq_sym HP)) as (E1 & E2 & E3 & E4 & E5 & E6). cbv zeta in *.
  rewrite E1, E2, E3, E4, E5, E6 in *.
  rewrite check_passes; [reflexivity|exact He'| |exact HU|].
  - pose proof (col_pos _ DN) as P. destruct GA as (u & Hu). unfold rep in Hu.
    assert (R0 : zq d * 0 = zq 0) by (rewrite zq_0; ring).
    apply (scale_lt d 0 _ 0 u Hd R0 Hu) in P.
    destruct (Qclt_le_dec eps (q11 (qgram (qmul M (qof C))))) as [L|L]; [exact L|exfalso].
    assert (Z1 : zq u < zq 1).
    { rewrite <- Hu. eapply Qcle_lt_trans; [|exact Hs]. apply pos_le; [|exact L].
      rewrite <- zq_0. apply zq_le. lia. }
    apply (proj1 (zq_lt _ _)) in Z1. lia.
  - intros (v & Hv & T). apply (grid_small d v eps Hd); try assumption.
    exact (compared_grid d _ _ _ _ _ _ Hd GA GB GC GX GE GZ v Hv).
Qed.

(** ** Changing the unit of length *)
Section FScale.
Variable s : Qc.
Hypothesis Hs : 0 < s.
Let k := s * s.

Lemma sf_check A B C xi eta zeta eps :
  f_condition_check (k * A) (k * B) (k * C) (k * xi) (k * eta) (k * zeta) (k * eps) =
  f_condition_check A B C xi eta zeta eps.
Proof.
  unfold f_condition_check, qgtb. cbv zeta. change f_two with qtwo. unfold k.
  repeat first [rewrite s_add | rewrite s_sub | rewrite s_sub0 | rewrite s_opp | rewrite s_two |
                rewrite (s_abs s Hs) | rewrite (s_ltb s Hs) |
                rewrite (s_ltb_0r s Hs) | rewrite (s_ltb_0l s Hs) ]. reflexivity.
Qed.

Definition f_scaled (o : f_reduction) : f_reduction :=
  match o with FReduced N C => FReduced (qscale s N) C | o => o end.
Lemma sf_reduce eps M : f_reduce (k * eps) (qscale s M) = f_scaled (f_reduce eps M).
Proof.
  rewrite !reduce_final. unfold k. rewrite (s_final s Hs). destruct (final eps M) as [[C p] c].
  unfold kst. cbn [fst snd]. unfold kp. cbn [pA pB pC pxi peta pzeta]. fold k. rewrite sf_check.
  destruct (Z.leb 1000 c); [reflexivity|].
  destruct (negb _); [reflexivity|]. cbn [f_scaled]. f_equal.
  unfold qmul, qscale, qof. cbn [q11 q12 q13 q21 q22 q23 q31 q32 q33]. f_equal; ring.
Qed.
End FScale.

(** ** Intervals of tolerances *)
Definition no_tie (lo hi A B C xi eta zeta : Qc) : bool :=
  qltb hi A && forallb (fun v => qltb (qabs v) lo || qltb hi (qabs v)) (compared A B C xi eta zeta).
Definition zno_tie (lo hi : Z) (p : zpar) : bool :=
  let A := zA p in let B := zB p in let C := zC p in
  let x := zx p in let e := ze p in let z := zz p in
  let ax := Z.abs x in let ae := Z.abs e in let az := Z.abs z in
  (Z.ltb hi A && forallb (fun v => let a := Z.abs v in Z.ltb a lo || Z.ltb hi a)
    [A - B; B - C; ax - ae; ae - az; x; e; z; ax - B; ae - A; az - A; A + B + x + e + z;
     z - (e + e); z - (x + x); e - (x + x); A + A + (e + e) + z])%Z.
Lemma zno_tie_ok lo hi p : zno_tie lo hi p = true ->
  no_tie (zq lo) (zq hi) (zq (zA p)) (zq (zB p)) (zq (zC p)) (zq (zx p)) (zq (ze p)) (zq (zz p)) = true.
Proof.
  intros H. rewrite <- H. unfold no_tie, zno_tie, compared. cbv zeta. cbn [forallb]. toz. reflexivity.
Qed.
(** For all tolerances between [lo] and [hi] the reduction of [B] ends with [K], and no
    comparison is at the tolerance. *)
Definition f_last (lo hi : Z) (K B : mat3) : bool :=
  match zfinal lo hi (mmul (mtr B) B) with
  | Some (C, p, c) => meqb C K && Z.ltb c 1000 && zno_tie lo hi p
  | None => false
  end.

Lemma no_tie_ok lo hi eps A B C xi eta zeta : 0 <= lo -> lo <= eps -> eps <= hi ->
  no_tie lo hi A B C xi eta zeta = true ->
  eps < A /\ ~ at_tolerance eps A B C xi eta zeta.
Proof.
  intros H0 Hlo Hhi H. unfold no_tie in H. apply andb_true_iff in H. destruct H as [H1 H2].
  apply qltb_iff in H1. split; [eapply Qcle_lt_trans; eassumption|].
  rewrite forallb_forall in H2. intros (v & Hv & T). specialize (H2 v Hv).
  assert (E : qabs v = eps).
  { destruct T as [-> | ->]; rewrite ?qabs_opp; unfold qabs;
      destruct (qltb eps 0) eqn:Q; try reflexivity; apply qltb_iff in Q; exfalso;
      clear - Q H0 Hlo; qclra. }
  rewrite E, orb_true_iff, !qltb_iff in H2. clear - H2 Hlo Hhi. destruct H2; qclra.
Qed.

Lemma f_end lo hi eps M K C p c : 0 <= lo -> lo <= eps -> eps <= hi ->
  good eps M (C, p) -> ((c <= 1000)%Z -> settled eps p) ->
  meqb C K && Z.ltb c 1000 && no_tie lo hi (pA p) (pB p) (pC p) (pxi p) (peta p) (pzeta p) = true ->
  mdet K = 1%Z /\
  (if Z.leb 1000 c then Gave_up else
   if negb (f_condition_check (pA p) (pB p) (pC p) (pxi p) (peta p) (pzeta p) eps)
   then Not_niggli else FReduced (qmul M (qof C)) C) = FReduced (qmul M (qof K)) K.
Proof.
  intros H0 Hlo Hhi (HD & HP) HS H3. assert (He : 0 <= eps) by (eapply Qcle_trans; eassumption).
  rewrite !andb_true_iff in H3. destruct H3 as ((E & E2) & H4). apply meqb_eq in E. subst C.
  apply Z.ltb_lt in E2. cbn [fst snd] in HD, HP. split; [exact HD|].
  assert (E2' : (c <= 1000)%Z) by (clear - E2; lia). specialize (HS E2').
  destruct (Z.leb_spec 1000 c) as [L|L]; [exfalso; clear - L E2; lia|].
  destruct (no_tie_ok lo hi eps _ _ _ _ _ _ H0 Hlo Hhi H4) as [HA HT].
  rewrite HP in HS. apply (settled_iff eps M K He) in HS.
  destruct (get_params_six eps M K p (eq_sym HP)) as (E1 & E3 & E4 & E5 & E6 & E7). cbv zeta in *.
  rewrite E1, E3, E4, E5, E6, E7 in *.
  rewrite (check_passes eps _ _ _ _ _ _ He HA HS HT). reflexivity.
Qed.

Lemma f_stab_reduce lo hi eps K B : 0 <= zq lo -> zq lo <= eps -> eps <= zq hi ->
  f_last lo hi K B = true ->
  mdet K = 1%Z /\ f_reduce eps (qof B) = FReduced (qmul (qof B) (qof K)) K.
Proof.
  intros H0 Hlo Hhi. unfold f_last.
  destruct (zfinal lo hi (mmul (mtr B) B)) as [[[C p] c]|] eqn:E; [|discriminate].
  rewrite !andb_true_iff. intros ((H1 & H2) & H3). apply zno_tie_ok in H3.
  pose proof (final_good eps (qof B)) as HG. pose proof (final_settled eps (qof B)) as HS.
  rewrite reduce_final. rewrite (zfinal_ok lo hi eps B Hlo Hhi C p c E) in *. clear E.
  cbn [fst snd] in HG, HS. apply (f_end (zq lo) (zq hi) eps (qof B) K C _ c H0 Hlo Hhi HG HS).
  rewrite H1, H2. exact H3.
Qed.

(** ** The canonical bases *)
(** Lengths in units of 10^-16. *)
Definition f_facts (a b : Z) (K B : mat3) (r : Z) : bool :=
  let d := Z.abs (mdet B) in let lo := (r * 999)%Z in let hi := (r * 1001)%Z in
  ((lo * lo * lo <=? 998 * 10 ^ 6 * d) && (1002 * 10 ^ 6 * d <=? hi * hi * hi) && (0 <=? r) &&
   negb (d =? 0) && f_last (a * lo) (b * hi) K B)%Z.

Lemma f_facts_and a b K B r : f_facts a b K B r = true ->
  ((r * 999) * (r * 999) * (r * 999) <=? 998 * 10 ^ 6 * Z.abs (mdet B))%Z = true /\
  (1002 * 10 ^ 6 * Z.abs (mdet B) <=? (r * 1001) * (r * 1001) * (r * 1001))%Z = true /\
  (0 <=? r)%Z = true /\ negb (Z.abs (mdet B) =? 0)%Z = true /\
  f_last (a * (r * 999)) (b * (r * 1001)) K B = true.
Proof. intros H. apply and5. exact H. Qed.
Lemma f_in_numbers k B : f_canonical_basis k = Some B -> In k lattice_numbers.
Proof.
  intros H. unfold f_canonical_basis in H. unfold lattice_numbers.
  repeat match type of H with
  | context [match ?x with _ => _ end] => destruct x; try discriminate H
  end; cbn [In]; tauto.
Qed.
Lemma f_cert k B : f_canonical_basis k = Some B ->
  f_facts (22 * 10 ^ 7) (11 * 10 ^ 9) (f_canonical_C k) B (root B) = true.
Proof.
  intros H. pose proof (f_in_numbers k B H) as Hk.
  unfold lattice_numbers in Hk. cbn [In] in Hk.
  repeat destruct Hk as [<-|Hk]; try destruct Hk;
    (injection H as <-; vm_compute; reflexivity).
Qed.

Lemma f_basis_det k B : f_canonical_basis k = Some B -> qdet (dec_basis B) <> 0.
Proof.
  intros H. destruct (f_facts_and _ _ _ _ _ (f_cert k B H)) as (_ & _ & _ & K & _). intros E.
  pose proof (dec_det B) as D. rewrite E, Qcmult_0_r in D.
  apply (zq_inj 0) in D. rewrite <- D in K. discriminate K.
Qed.
Lemma mul_le a x y : 0 <= a -> x <= y -> a * x <= a * y.
Proof. intros Ha H. rewrite !(Qcmult_comm a). now apply Qcmult_le_compat_r. Qed.

(** Tolerances between [a] and [b] units of 10^-13. *)
Lemma f_basis_reduced a b dep cbrt e K B : f_facts a b K B (root B) = true -> (0 <= a)%Z -> (0 <= b)%Z ->
  near_root (cbrt (qabs (qdet (dec_basis B)))) (qabs (qdet (dec_basis B))) ->
  zq a <= zq (10 ^ 13) * e -> zq (10 ^ 13) * e <= zq b -> dep (qdet (dec_basis B)) = false ->
  mdet K = 1%Z /\
  reduce_cell dep cbrt (dec_basis B) (Some e) = FReduced (qmul (dec_basis B) (qof K)) K.
Proof.
  intros HF Ha0 Hb0 HR L1 L2 Hdep. 
  destruct (f_facts_and _ _ _ _ _ HF) as (H1 & H2 & H3 & _ & H6). clear HF.
  rewrite reduce_cell_eps by exact Hdep. unfold used_eps.
  pose proof (rep_abs (10 ^ 48) _ _ ltac:(lia) (dec_det B)) as HV. unfold rep in HV.
  generalize dependent (root B). intros r H1 H2 H3 H6.
  pose proof (dec_scaled B) as HS. clear Hdep.
  generalize dependent (dec_basis B). intros M HR HV HS.
  generalize dependent (cbrt (qabs (qdet M))). intros c (C1 & C2 & C3).
  apply Z.leb_le in H1, H2, H3.
  pose proof (root_below r c _ _ H3 C1 HV H1 C2) as Ha.
  pose proof (root_above r c _ _ H3 C1 HV H2 C3) as Hb.
  assert (P : 0 < zq (10 ^ 16)) by reflexivity.
  assert (P19 : 0 <= zq (10 ^ 19)) by (vm_compute; discriminate).
  assert (Na : 0 <= zq a) by (rewrite <- zq_0; now apply zq_le).
  assert (Nb : 0 <= zq b) by (rewrite <- zq_0; now apply zq_le).
  assert (ET : zq (10 ^ 16) * zq (10 ^ 16) * (e * c) = zq (10 ^ 13) * e * (zq (10 ^ 19) * c)).
  { replace (zq (10 ^ 16) * zq (10 ^ 16)) with (zq (10 ^ 13) * zq (10 ^ 19))
      by (apply Qc_is_canon; vm_compute; reflexivity). ring. }
  assert (N19 : 0 <= zq (10 ^ 19) * c).
  { replace 0 with (zq (10 ^ 19) * 0) by ring. now apply mul_le. }
  assert (Q1 : zq (a * (r * 999)) <= zq (10 ^ 16) * zq (10 ^ 16) * (e * c)).
  { rewrite zq_mul, ET. eapply Qcle_trans; [exact (mul_le _ _ _ Na Ha)|].
    now apply Qcmult_le_compat_r. }
  assert (Q2 : zq (10 ^ 16) * zq (10 ^ 16) * (e * c) <= zq (b * (r * 1001))).
  { rewrite (zq_mul b), ET. eapply Qcle_trans; [|exact (mul_le _ _ _ Nb Hb)].
    now apply Qcmult_le_compat_r. }
  assert (Q0 : 0 <= zq (a * (r * 999))) by (rewrite <- zq_0; apply zq_le; clear - Ha0 H3; nia).
  destruct (f_stab_reduce _ _ _ _ _ Q0 Q1 Q2 H6) as [HD HF]. split; [exact HD|].
  rewrite <- HS, sf_reduce in HF by exact P.
  revert HF. generalize (qmul (qscale (zq (10 ^ 16)) M) (qof K)). intros N' HF.
  destruct (f_reduce (e * c) M) as [| | |N C] eqn:R; try discriminate HF.
  cbn [f_scaled] in HF.
  assert (E : C = K) by exact (f_equal (fun o => match o with FReduced _ C => C | _ => K end) HF).
  clear HF. subst C. destruct (f_reduced _ _ _ _ R) as (_ & -> & _). reflexivity.
Qed.

Lemma f_canonical_reduced dep cbrt e k B : f_canonical_basis k = Some B ->
  near_root (cbrt (qabs (qdet (dec_basis B)))) (qabs (qdet (dec_basis B))) ->
  qdec 22 6 <= e -> e <= qdec 11 4 -> dep (qdet (dec_basis B)) = false ->
  mdet (f_canonical_C k) = 1%Z /\
  reduce_cell dep cbrt (dec_basis B) (Some e) =
    FReduced (qmul (dec_basis B) (qof (f_canonical_C k))) (f_canonical_C k).
Proof.
  intros HB HR L1 L2 Hdep.
  apply (f_basis_reduced (22 * 10 ^ 7) (11 * 10 ^ 9)); try assumption; try lia.
  - exact (f_cert k B HB).
  - apply (mul_le (zq (10 ^ 13))) in L1; [|vm_compute; discriminate].
    replace (zq (10 ^ 13) * qdec 22 6) with (zq (22 * 10 ^ 7)) in L1
      by (apply Qc_is_canon; vm_compute; reflexivity). exact L1.
  - apply (mul_le (zq (10 ^ 13))) in L2; [|vm_compute; discriminate].
    replace (zq (10 ^ 13) * qdec 11 4) with (zq (11 * 10 ^ 9)) in L2
      by (apply Qc_is_canon; vm_compute; reflexivity). exact L2.
Qed.

Lemma f_canonical_gram k B : f_canonical_basis k = Some B ->
  mmul (mtr (f_canonical_C k)) (mmul (gram_of k) (f_canonical_C k)) = niggli_gram k.
Proof.
  intros H. pose proof (f_in_numbers k B H) as Hk. clear H.
  unfold lattice_numbers in Hk. cbn [In] in Hk.
  repeat destruct Hk as [<-|Hk]; try destruct Hk; vm_compute; reflexivity.
Qed.

(** The bases are those of the Python program, except one digit of number 16. *)
Lemma f_bases k : (k <> 16)%Z -> f_canonical_basis k = canonical_basis k.
Proof.
  intros H. destruct k as [|p|p]; [reflexivity| |reflexivity].
  repeat (destruct p as [p|p|]; try reflexivity). now contradiction H.
Qed.
