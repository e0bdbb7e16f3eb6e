(** driver.f90: the file n_srHNFs.out. *)
From Coq Require Import ZArith QArith Qcanon List Bool Lia Ascii String Sorted.
From Verif Require Import Mat3 Spec QMat PyNum FortFacts Model_control Model_driver Model_sp_hnfs Model_brute Model_brute_main
  Spec_brute Spec_driver Spec_brute_main Proofs_gridcell Proofs_driver Proofs_brute1 Proofs_brute2.
Import ListNotations.
Open Scope string_scope.

(** ** Bound for the number of Hermite normal forms *)
Definition zseq (a n : Z) : list Z := map (fun i => a + Z.of_nat i)%Z (seq 0 (Z.to_nat n)).
Lemma in_zseq a n x : (a <= x < a + n)%Z -> In x (zseq a n).
Proof.
  intros H. unfold zseq. apply in_map_iff. exists (Z.to_nat (x - a)). split; [lia|]. apply in_seq. lia.
Qed.
Lemma zseq_length a n : (0 <= n)%Z -> Z.of_nat (List.length (zseq a n)) = n.
Proof. intros H. unfold zseq. rewrite map_length, seq_length. lia. Qed.
Definition code (H : mat3) : Z * Z * (Z * Z) :=
  ((m22 H, m33 H), (m21 H * m33 H + m31 H, m32 H))%Z.
Lemma hnf_code n H H' : is_hnf n H -> is_hnf n H' -> code H = code H' -> H = H'.
Proof.
  intros (a & b & c & d & e & f & -> & Ha & Hc & Hf & En & Hb & Hd & He)
    (a' & b' & c' & d' & e' & f' & -> & Ha' & Hc' & Hf' & En' & Hb' & Hd' & He') E.
  unfold code, HNF in *. cbn [m22 m33 m21 m31 m32] in E. injection E as <- <- E <-.
  assert (a = a') as <- by nia. assert (b = b') as <- by nia. assert (d = d') as <- by lia. reflexivity.
Qed.
Lemma hnf_count n l : (1 <= n)%Z -> NoDup l -> (forall H, In H l -> is_hnf n H) ->
  (Z.of_nat (List.length l) <= n * n * (n * n))%Z.
Proof.
  intros Hn Nd Hl.
  pose proof (NoDup_incl_length (l := map code l)
    (l' := list_prod (list_prod (zseq 1 n) (zseq 1 n)) (list_prod (zseq 0 n) (zseq 0 n)))) as K.
  rewrite map_length, !prod_length in K.
  assert (B : (Z.of_nat (List.length l) <= Z.of_nat (List.length (zseq 1 n) * List.length (zseq 1 n) *
                (List.length (zseq 0 n) * List.length (zseq 0 n))))%Z).
  { apply inj_le. apply K.
    - clear K. induction Nd as [|H l Hx Nd IH]; [constructor|]. cbn [map].
      constructor; [|apply IH; intros; apply Hl; now right].
      intros I. apply in_map_iff in I as (H' & E & I). apply Hx. replace H with H'; [exact I|].
      apply (hnf_code n); [apply Hl; now right|apply Hl; now left|exact E].
    - intros x I. apply in_map_iff in I as (H & <- & I). apply Hl in I.
      destruct I as (a & b & c & d & e & f & -> & Ha & Hc & Hf & En & Hb & Hd & He).
      unfold code, HNF. cbn [m22 m33 m21 m31 m32].
      assert (c * f <= n)%Z by (clear - Ha Hc Hf En; nia).
      apply in_prod; apply in_prod; apply in_zseq; clear - H Hb Hc Hd He Hf; nia. }
  rewrite !Nat2Z.inj_mul, !zseq_length in B by lia. exact B.
Qed.

(** ** Lines *)
Lemma justify_more w s : (String.length s <= w)%nat -> justify (S w) s = " " ++ justify w s.
Proof.
  intros H. unfold justify. rewrite (proj2 (Nat.leb_le _ _) H), (proj2 (Nat.leb_le (String.length s) (S w))) by lia.
  replace (S w - String.length s)%nat with (S (w - String.length s)) by lia. reflexivity.
Qed.
Lemma count_line_reads n c : (0 <= n < 10 ^ 16)%Z -> (0 <= c < 10 ^ 15)%Z -> reads_two (count_line (n, c)) (n, c).
Proof.
  intros Hn Hc. unfold count_line, reads_two. cbn [fst snd].
  destruct (i_edit_fits 16 n ltac:(lia) Hn) as (k & s & E1 & I1 & B1 & N1).
  destruct (i_edit_fits 15 c ltac:(lia) Hc) as (k' & t & E2 & I2 & B2 & N2).
  exists s, t. split; [|now split]. assert (E : i_edit 16 c = " " ++ i_edit 15 c).
  { unfold i_edit. apply justify_more. apply int_length; [lia|exact (proj1 Hc)|exact (proj2 Hc)]. }
  rewrite E, E1, E2, (words_field k s _ B1 N1), (words_last k' t B2 N2). reflexivity.
Qed.

(** ** The rows *)
Lemma range_sorted lo hi : StronglySorted Z.lt (do_range lo hi 1).
Proof.
  unfold do_range, py_range. generalize (Z.to_nat ((hi + 1 - lo + 1 - 1) / 1)). intros m. generalize 0%nat.
  induction m as [|m IH]; intros k; cbn [seq map]; constructor; [apply IH|].
  apply Forall_forall. intros x I. apply in_map_iff in I as (j & <- & I). apply in_seq in I. lia.
Qed.
Lemma counts_sorted equal P pg n : StronglySorted (fun a b => fst a < fst b)%Z (counts equal P pg n).
Proof.
  unfold counts. generalize (range_sorted 1 n). generalize (do_range 1 n 1). intros l S.
  induction S as [|i l S IH F]; [constructor|]. cbn [flat_map]. cbv zeta.
  destruct (Z.eqb _ _); [exact IH|]. cbn [app]. constructor; [exact IH|].
  apply Forall_forall. intros (j, c) I. apply in_flat_map in I as (j' & I' & I). cbv zeta in I.
  destruct (Z.eqb _ _) in I; [destruct I|]. destruct I as [E|[]]. injection E as <- <-. cbn [fst].
  rewrite Forall_forall in F. exact (F j' I').
Qed.
Lemma in_range1 n i : In i (do_range 1 n 1) <-> (1 <= i <= n)%Z.
Proof.
  unfold do_range, py_range. rewrite Z.div_1_r, in_map_iff. split.
  - intros (j & <- & I). apply in_seq in I. lia.
  - intros H. exists (Z.to_nat (i - 1)). split; [lia|]. apply in_seq. lia.
Qed.
Lemma in_counts equal P pg n i c : In (i, c) (counts equal P pg n) <->
  (1 <= i <= n)%Z /\ (1 <= c)%Z /\ c = Z.of_nat (List.length (get_srHNFs equal P pg i)).
Proof.
  unfold counts. rewrite in_flat_map. cbv zeta. split.
  - intros (j & Hj & I). apply in_range1 in Hj. destruct (Z.eqb_spec (Z.of_nat (List.length (get_srHNFs equal P pg j))) 0) as [E|E];
      [destruct I|]. destruct I as [I|[]]. injection I as <- <-. split; [exact Hj|]. split; [lia|reflexivity].
  - intros (Hi & Hc & ->). exists i. split; [now apply in_range1|].
    destruct (Z.eqb_spec (Z.of_nat (List.length (get_srHNFs equal P pg i))) 0) as [E|E]; [lia|]. now left.
Qed.
Lemma superlattices_unique P n c c' : superlattices P n c -> superlattices P n c' -> c = c'.
Proof.
  intros (l & N & L & H) (l' & N' & L' & H'). subst. f_equal. apply Nat.le_antisymm; apply NoDup_incl_length; try assumption;
  intros x I; [apply H', H|apply H, H']; exact I.
Qed.
Lemma srHNFs_number eps equal P pg n : qdet P <> 0%Qc -> tolerance eps equal -> (eps * zq n <= 1)%Qc -> point_group P pg ->
  (1 <= n)%Z -> superlattices P n (Z.of_nat (List.length (get_srHNFs equal P pg n))).
Proof.
  intros HP Ht He Hpg Hn. exists (get_srHNFs equal P pg n). split; [apply NoDup_get_srHNFs|]. split; [reflexivity|].
  intros H. rewrite (srHNFs_exact eps equal P pg n H HP Ht He Hpg). tauto.
Qed.
Lemma eps_smaller eps i n : (0 <= eps)%Qc -> (eps * zq n <= 1)%Qc -> (i <= n)%Z -> (eps * zq i <= 1)%Qc.
Proof.
  intros H0 H Hi. apply Qcle_trans with (2 := H). rewrite !(Qcmult_comm eps). apply Qcmult_le_compat_r; [|exact H0].
  now apply zq_le.
Qed.
Lemma fold_sum l : forall a, fold_left Z.add l a = (a + fold_right Z.add 0 l)%Z.
Proof. induction l as [|x l IH]; intros a; cbn; [lia|]. rewrite IH. lia. Qed.

Lemma main_counts eps equal pg_of e : let P := e_lat e in
  qdet P <> 0%Qc -> (0 <= eps)%Qc -> tolerance eps equal -> (eps * zq (e_max e) <= 1)%Qc -> point_group P (pg_of P) ->
  (e_max e <= 5000)%Z ->
  exists rows lines, srHNF_main equal pg_of (Ok e) = Ok (lines, fold_right Z.add 0%Z (map snd rows)) /\
    Forall2 reads_two lines rows /\ StronglySorted (fun a b => fst a < fst b)%Z rows /\
    forall n c, In (n, c) rows <-> (1 <= n <= e_max e)%Z /\ (1 <= c)%Z /\ superlattices P n c.
Proof.
  intros P HP H0 Ht He Hpg Hm.
  assert (R : forall n c, In (n, c) (counts equal P (pg_of P) (e_max e)) <->
            (1 <= n <= e_max e)%Z /\ (1 <= c)%Z /\ superlattices P n c).
  { intros n c. rewrite in_counts. split; intros (Hn & Hc & E); (split; [exact Hn|split; [exact Hc|]]);
      pose proof (srHNFs_number eps equal P (pg_of P) n HP Ht (eps_smaller _ _ _ H0 He (proj2 Hn)) Hpg (proj1 Hn)) as S.
    - now rewrite E.
    - exact (superlattices_unique _ _ _ _ E S). }
  exists (counts equal P (pg_of P) (e_max e)), (map count_line (counts equal P (pg_of P) (e_max e))).
  split; [|split; [|split; [apply counts_sorted|exact R]]].
  - unfold srHNF_main. cbn [bind]. fold P. cbv zeta. now rewrite fold_sum.
  - assert (F : Forall (fun r => reads_two (count_line r) r) (counts equal P (pg_of P) (e_max e))).
    { apply Forall_forall. intros (n, c) I. apply R in I as (Hn & Hc & (l & N & L & HL)).
      apply count_line_reads; [lia|]. split; [lia|]. rewrite <- L.
      apply Z.le_lt_trans with (n * n * (n * n))%Z; [|clear - Hn Hm; assert (0 <= n * n <= 25000000)%Z by nia; change (10 ^ 15)%Z with 1000000000000000%Z; nia].
      apply hnf_count; [lia|exact N|]. intros H I. now apply HL in I. }
    clear - F. induction F as [|r l H F IH]; cbn [map]; constructor; assumption.
Qed.
