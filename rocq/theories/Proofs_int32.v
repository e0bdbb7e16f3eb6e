(** The Fortran enumerators with the machine's integers. *)
From Coq Require Import ZArith Znumtheory Zpow_facts List Bool Lia.
From Verif Require Import Mat3 Spec Bases PyNum PyNumFacts Model_universal Model_sp_hnfs Model_find_grid Model_int32 FortFacts Spec_int32
  Proofs_sp_hnfs2 Proofs_find_grid3.
Import ListNotations.
Open Scope Z_scope.

Section fits.
Context (w : Z -> Z) (Hw : forall x, - 2 ^ 31 <= x < 2 ^ 31 -> w x = x).

Lemma if_ext {B} (c : bool) (x y : list B) : x = y -> py_if c x = py_if c y.
Proof. now intros ->. Qed.
Lemma w_small x : -2147483648 <= x < 2147483648 -> w x = x.
Proof. intros H. apply Hw. exact H. Qed.
Lemma quot_small p q : 1 <= q -> Z.abs (Z.quot p q) <= Z.abs p /\ (0 <= p -> 0 <= Z.quot p q <= p).
Proof.
  intros Hq. assert (K : forall p, 0 <= p -> 0 <= Z.quot p q <= p).
  { intros r Hr. split; [apply Z.quot_pos; lia|]. apply Z.quot_le_upper_bound; nia. }
  split; [|apply K]. destruct (Z.le_gt_cases 0 p) as [H|H]; [specialize (K p H); lia|].
  specialize (K (- p) ltac:(lia)). rewrite Z.quot_opp_l in K by lia. lia.
Qed.
Lemma diag_bounds n a c f : n <= 46340 -> 1 <= a -> 1 <= c -> 1 <= f -> a * c * f = n ->
  (a <= 46340 /\ c <= 46340 /\ f <= 46340) /\ 0 <= a * c <= 46340 /\ 0 <= a * f <= 46340 /\ 0 <= c * f <= 46340.
Proof. intros. assert (a * c <= n) by nia. assert (a * f <= n) by nia. assert (c * f <= n) by nia. nia. Qed.
Lemma below_mul p q x m : 0 <= p -> p <= q -> 0 <= x -> 0 <= q * x <= m -> 0 <= p * x <= m.
Proof. nia. Qed.
Lemma below_mul2 p x q y : 0 <= p <= q -> 0 <= x <= y -> 0 <= p * x <= q * y.
Proof. nia. Qed.
Lemma pair_small x y c f m : 0 <= x <= c -> 0 <= y <= f -> 0 <= c * f <= m -> 0 <= x * y <= m.
Proof. intros. assert (x * y <= c * f) by (apply Z.mul_le_mono_nonneg; lia). nia. Qed.
Lemma square_small2 x y : 0 <= x <= 46340 -> 0 <= y <= 46340 -> 0 <= x * y <= 2147395600.
Proof. intros. nia. Qed.
Lemma square_small x y : 0 <= x <= 46339 -> 0 <= y <= 46339 -> 0 <= x * y <= 2147302921.
Proof. intros. nia. Qed.
Lemma half_small c x : 1 <= c -> 0 <= x < c -> (c | 2 * x) -> 2 * x <= c.
Proof. intros Hc Hx (k & Hk). assert (k < 2) by nia. nia. Qed.

(** Bounds of the products of two variables. *)
Ltac bprod x y :=
  lazymatch goal with
  | _ : 0 <= x * y <= _ |- _ => idtac
  | _ : 0 <= y * x <= _ |- _ => idtac
  | F : 0 <= ?a * ?c <= 46340, G : 0 <= ?a * ?f <= 46340, K : 0 <= ?c * ?f <= 46340 |- _ =>
      first [ assert (0 <= x * y <= 46340) by (apply (pair_small x y c f); [lia|lia|exact K])
            | assert (0 <= x * y <= 46340) by (apply (pair_small x y f c); [lia|lia|rewrite Z.mul_comm; exact K])
            | assert (0 <= x * y <= 46340) by (apply (pair_small x y a c); [lia|lia|exact F])
            | assert (0 <= x * y <= 46340) by (apply (pair_small x y c a); [lia|lia|rewrite Z.mul_comm; exact F])
            | assert (0 <= x * y <= 46340) by (apply (pair_small x y a f); [lia|lia|exact G])
            | assert (0 <= x * y <= 46340) by (apply (pair_small x y f a); [lia|lia|rewrite Z.mul_comm; exact G])
            | assert (0 <= x * y <= 2147302921) by (apply square_small; lia)
            | assert (0 <= x * y <= 2147395600) by (apply square_small2; lia) ]
  end.
Ltac numeral x := let y := eval cbv in (match x with Z0 => true | Zpos _ => true | Zneg _ => true end) in
  match x with Z0 => idtac | Zpos _ => idtac | Zneg _ => idtac end.
Ltac prods t :=
  lazymatch t with
  | (?u + ?v) * ?y => prods (u * y); prods (v * y)
  | (?u - ?v) * ?y => prods (u * y); prods (v * y)
  | ?y * (?u + ?v) => prods (u * y); prods (v * y)
  | ?y * (?u - ?v) => prods (u * y); prods (v * y)
  | ?x * ?y => tryif (numeral x) then prods y else tryif (numeral y) then prods x else
      (prods x; prods y; (lazymatch x with ?k * ?z => (tryif (numeral k) then prods (z * y) else idtac) | _ => idtac end); try bprod x y)
  | ?x + ?y => prods x; prods y
  | ?x - ?y => prods x; prods y
  | - ?x => prods x
  | _ => idtac
  end.
(** Quotients become variables of known size. *)
Ltac quots :=
  repeat match goal with
  | |- context [Z.quot ?p ?q] =>
      lazymatch p with context [Z.quot _ _] => fail | _ => idtac end;
      prods p;
      let H := fresh "Q" in
      assert (H : 1 <= q) by nia;
      apply (quot_small p) in H;
      let v := fresh "q" in
      set (v := Z.quot p q) in *; clearbody v;
      first [ assert (0 <= v <= p) by (apply H; lia) | idtac ]; destruct H as (H & _)
  end.
Ltac fit :=
  quots;
  match goal with |- _ <= ?t < _ => prods t end; lia.
Ltac unw := repeat match goal with
  | |- context [w ?x] => lazymatch x with context [w _] => fail | _ => idtac end; rewrite (w_small x) by fit
  end.
Ltac loops :=
  unw;
  lazymatch goal with
  | |- ?x = ?x => reflexivity
  | |- py_if _ _ = py_if _ _ => apply if_ext; loops
  | |- py_for (f_halves ?c) _ = _ =>
      apply py_for_ext; let x := fresh "x" in let Hx := fresh in let Hd := fresh in
      intros x Hx; apply in_f_halves in Hx; [|lia]; destruct Hx as (Hx & Hd); apply half_small in Hd; [|lia|exact Hx]; loops
  | |- py_for (f_halves_rev ?c) _ = _ =>
      apply py_for_ext; let x := fresh "x" in let Hx := fresh in let Hd := fresh in
      intros x Hx; apply in_f_halves_rev2 in Hx; [|lia]; destruct Hx as (Hx & Hd); apply half_small in Hd; [|lia|exact Hx]; loops
  | |- py_for (do_range 0 (_ - 1) 1) _ = _ =>
      apply py_for_ext; let x := fresh "x" in let Hx := fresh in
      intros x Hx; apply in_do_range1 in Hx; loops
  | |- py_for (do_range 0 (_ - 1) _) _ = _ =>
      apply py_for_ext; let x := fresh "x" in let Hx := fresh in
      intros x Hx; apply in_do_range_mult in Hx; [|lia]; destruct Hx as (Hx & _); loops
  | |- py_for (do_while _ _) _ = _ =>
      apply py_for_ext; let x := fresh "x" in let Hx := fresh in
      intros x Hx; apply in_do_while in Hx; [|lia]; destruct Hx as (Hx & _); loops
  | |- _ => idtac
  end.
Ltac start m g :=
  intros Hn; unfold m, g; apply py_for_ext; intros [[a c] f] Hin; apply in_f_diagonals in Hin;
  destruct Hin as (Ha & Hc & Hf & Hp);
  destruct (diag_bounds _ a c f Hn Ha Hc Hf Hp) as ((La & Lc & Lf) & Fac & Faf & Fcf); clear Hp; cbv zeta.
Lemma hex_12_fits n : n <= 46340 -> m_hex_12 w n = f_hex_12 n.
Proof. start m_hex_12 f_hex_12. loops. Qed.
Lemma hex_22_fits n : n <= 46340 -> m_hex_22 w n = f_hex_22 n.
Proof. start m_hex_22 f_hex_22. loops. Qed.
Lemma rhom_9_24_fits n : n <= 46340 -> m_rhom_9_24 w n = f_rhom_9_24 n.
Proof. start m_rhom_9_24 f_rhom_9_24. loops. Qed.
Lemma rhom_4_2_fits n : n <= 46340 -> m_rhom_4_2 w n = f_rhom_4_2 n.
Proof. start m_rhom_4_2 f_rhom_4_2. loops. Qed.
Lemma st_11_fits n : n <= 46340 -> m_st_11 w n = f_st_11 n.
Proof. start m_st_11 f_st_11. loops. Qed.
Lemma st_21_fits n : n <= 46340 -> m_st_21 w n = f_st_21 n.
Proof. start m_st_21 f_st_21. loops. Qed.
Lemma bct_6_7_15_18_fits n : n <= 46340 -> m_bct_6_7_15_18 w n = f_bct_6_7_15_18 n.
Proof. start m_bct_6_7_15_18 f_bct_6_7_15_18. loops. Qed.
Lemma so_32_fits n : n <= 46340 -> m_so_32 w n = f_so_32 n.
Proof. start m_so_32 f_so_32. loops. Qed.
Lemma fco_26_fits n : n <= 46340 -> m_fco_26 w n = f_fco_26 n.
Proof. start m_fco_26 f_fco_26. loops. Qed.
Lemma fco_16_fits n : n <= 46340 -> m_fco_16 w n = f_fco_16 n.
Proof. start m_fco_16 f_fco_16. loops. Qed.
Lemma bco_19_fits n : n <= 46340 -> m_bco_19 w n = f_bco_19 n.
Proof. start m_bco_19 f_bco_19. loops. Qed.
Lemma bco_8_fits n : n <= 46340 -> m_bco_8 w n = f_bco_8 n.
Proof. start m_bco_8 f_bco_8. loops. Qed.
Lemma bco_42_fits n : n <= 46340 -> m_bco_42 w n = f_bco_42 n.
Proof. start m_bco_42 f_bco_42. loops. Qed.
Lemma baseco_38_13_fits n : n <= 46340 -> m_baseco_38_13 w n = f_baseco_38_13 n.
Proof. start m_baseco_38_13 f_baseco_38_13. loops. Qed.
Lemma baseco_23_fits n : n <= 46340 -> m_baseco_23 w n = f_baseco_23 n.
Proof. start m_baseco_23 f_baseco_23. loops. Qed.
Lemma baseco_40_fits n : n <= 46340 -> m_baseco_40 w n = f_baseco_40 n.
Proof. start m_baseco_40 f_baseco_40. loops. Qed.
Lemma baseco_36_fits n : n <= 46340 -> m_baseco_36 w n = f_baseco_36 n.
Proof. start m_baseco_36 f_baseco_36. loops. Qed.
Lemma sm_33_fits n : n <= 46340 -> m_sm_33 w n = f_sm_33 n.
Proof. start m_sm_33 f_sm_33. loops. Qed.
Lemma sm_34_35_fits n : m_sm_34_35 n = f_sm_34_35 n.
Proof. reflexivity. Qed.
Lemma basecm_10_14_17_27_37_39_41_fits n : n <= 46340 -> m_basecm_10_14_17_27_37_39_41 w n = f_basecm_10_14_17_27_37_39_41 n.
Proof. start m_basecm_10_14_17_27_37_39_41 f_basecm_10_14_17_27_37_39_41. loops. Qed.
Lemma basecm_20_25_fits n : n <= 46340 -> m_basecm_20_25 w n = f_basecm_20_25 n.
Proof. start m_basecm_20_25 f_basecm_20_25. loops. Qed.
Lemma basecm_28_fits n : n <= 46340 -> m_basecm_28 w n = f_basecm_28 n.
Proof. start m_basecm_28 f_basecm_28. loops. Qed.
Lemma basecm_29_30_fits n : n <= 46340 -> m_basecm_29_30 w n = f_basecm_29_30 n.
Proof. start m_basecm_29_30 f_basecm_29_30. loops. Qed.
Lemma basecm_43_fits n : n <= 46340 -> m_basecm_43 w n = f_basecm_43 n.
Proof. start m_basecm_43 f_basecm_43. loops. Qed.
End fits.


Lemma enumerator_fits w k : fits32 w ->
  match f_enumerator k, m_enumerator w k with
  | Some f, Some m => forall n, n <= 46340 -> m n = f n
  | None, None => True
  | _, _ => False
  end.
Proof.
  intros Hw. unfold f_enumerator, m_enumerator.
  repeat match goal with
  | |- context [if ?b then _ else _] => destruct b
  end; try exact I; intros n Hn;
  lazymatch goal with
  | |- m_sm_34_35 _ = _ => apply sm_34_35_fits
  | |- m_rhom_4_2 _ _ = _ => now apply rhom_4_2_fits
  | |- m_bct_6_7_15_18 _ _ = _ => now apply bct_6_7_15_18_fits
  | |- m_bco_8 _ _ = _ => now apply bco_8_fits
  | |- m_rhom_9_24 _ _ = _ => now apply rhom_9_24_fits
  | |- m_basecm_10_14_17_27_37_39_41 _ _ = _ => now apply basecm_10_14_17_27_37_39_41_fits
  | |- m_st_11 _ _ = _ => now apply st_11_fits
  | |- m_hex_12 _ _ = _ => now apply hex_12_fits
  | |- m_baseco_38_13 _ _ = _ => now apply baseco_38_13_fits
  | |- m_fco_16 _ _ = _ => now apply fco_16_fits
  | |- m_bco_19 _ _ = _ => now apply bco_19_fits
  | |- m_basecm_20_25 _ _ = _ => now apply basecm_20_25_fits
  | |- m_st_21 _ _ = _ => now apply st_21_fits
  | |- m_hex_22 _ _ = _ => now apply hex_22_fits
  | |- m_baseco_23 _ _ = _ => now apply baseco_23_fits
  | |- m_fco_26 _ _ = _ => now apply fco_26_fits
  | |- m_basecm_28 _ _ = _ => now apply basecm_28_fits
  | |- m_basecm_29_30 _ _ = _ => now apply basecm_29_30_fits
  | |- m_so_32 _ _ = _ => now apply so_32_fits
  | |- m_sm_33 _ _ = _ => now apply sm_33_fits
  | |- m_baseco_36 _ _ = _ => now apply baseco_36_fits
  | |- m_baseco_40 _ _ = _ => now apply baseco_40_fits
  | |- m_bco_42 _ _ = _ => now apply bco_42_fits
  | |- m_basecm_43 _ _ = _ => now apply basecm_43_fits
  end.
Qed.
(** What the enumerators list, with the machine's integers. *)
Lemma machine_exact w k m : fits32 w -> 1 <= k <= 44 -> m_enumerator w k = Some m ->
  forall n H, n <= 46340 -> (In H (m n) <-> 1 <= n /\ is_hnf n H /\ symmetry_preserving (gram_of k) H).
Proof.
  intros Hw Hk Em n H Hn. pose proof (enumerator_fits w k Hw) as F. rewrite Em in F.
  destruct (f_enumerator k) as [f|] eqn:Ef; [|contradiction].
  destruct (f_enumerator_correct k f Hk Ef) as (B & _ & Ex & _). rewrite (F n Hn). apply Ex.
Qed.
Lemma machine_handles w k : fits32 w -> (m_enumerator w k = None <-> f_enumerator k = None).
Proof.
  intros Hw. pose proof (enumerator_fits w k Hw) as F.
  destruct (f_enumerator k), (m_enumerator w k); split; intros E; try reflexivity; try discriminate; contradiction.
Qed.

(** ** The sizes of the arrays *)
Lemma fold_same {A} (f g : Z -> A -> Z) l : (forall t x, In x l -> f t x = g t x) ->
  forall t, fold_left f l t = fold_left g l t.
Proof.
  induction l as [|x l IH]; intros H t; [reflexivity|]. cbn. rewrite (H t x) by (now left).
  apply IH. intros u y Hy. apply H. now right.
Qed.
Lemma term_bound a c f n : 1 <= a -> 1 <= c -> 1 <= f -> a * c * f = n -> f <= n /\ f ^ 2 <= c * f ^ 2 <= n * f.
Proof. intros Ha Hc Hf E. rewrite Z.pow_2_r. assert (c * f <= n) by nia. nia. Qed.
Lemma total_fits w n : fits32 w -> n <= 46340 -> m_total_hnfs w n = f_total_hnfs n.
Proof.
  intros Hw Hn. unfold m_total_hnfs, f_total_hnfs. apply fold_same. intros t ((a, c), f) Hin.
  apply in_f_diagonals in Hin. destruct Hin as (Ha & Hc & Hf & E).
  destruct (term_bound a c f n Ha Hc Hf E) as (B1 & B2). assert (n * f <= 46340 * 46340) by nia.
  rewrite (Hw (f ^ 2)) by nia. rewrite (Hw (c * f ^ 2)) by nia. reflexivity.
Qed.
Lemma wrap32_fits : fits32 wrap32.
Proof. intros x Hx. unfold wrap32. rewrite Z.mod_small; [ring|]. change (2 ^ 32) with (2 ^ 31 + 2 ^ 31). lia. Qed.
Lemma wrap32_range x : - 2 ^ 31 <= wrap32 x < 2 ^ 31.
Proof. unfold wrap32. pose proof (Z.mod_pos_bound (x + 2 ^ 31) (2 ^ 32) eq_refl). lia. Qed.
Lemma wrap32_le x : - 2 ^ 31 <= x -> wrap32 x <= x.
Proof. intros H. unfold wrap32. pose proof (Z.mod_le (x + 2 ^ 31) (2 ^ 32)). lia. Qed.
Lemma fold_plus {A} (g : A -> Z) l : forall t, fold_left (fun t x => t + g x) l t = t + fold_left (fun t x => t + g x) l 0.
Proof.
  induction l as [|x l IH]; intros t; cbn [fold_left]; [lia|]. rewrite (IH (t + g x)), (IH (0 + g x)). lia.
Qed.
Lemma fold_le {A} (g h : A -> Z) l : (forall x, In x l -> g x <= h x) ->
  fold_left (fun t x => t + g x) l 0 <= fold_left (fun t x => t + h x) l 0.
Proof.
  induction l as [|x l IH]; intros H; cbn [fold_left]; [lia|].
  rewrite (fold_plus g l (0 + g x)), (fold_plus h l (0 + h x)).
  pose proof (H x (or_introl eq_refl)). pose proof (IH (fun y Hy => H y (or_intror Hy))). lia.
Qed.
Lemma fold_lt {A} (g h : A -> Z) l : (forall x, In x l -> g x <= h x) -> (exists x, In x l /\ g x < h x) ->
  fold_left (fun t x => t + g x) l 0 < fold_left (fun t x => t + h x) l 0.
Proof.
  induction l as [|x l IH]; intros H (y & Hy & Ly); cbn [fold_left]; [contradiction|].
  rewrite (fold_plus g l (0 + g x)), (fold_plus h l (0 + h x)).
  pose proof (H x (or_introl eq_refl)). destruct Hy as [->|Hy].
  - pose proof (fold_le g h l (fun z Hz => H z (or_intror Hz))). lia.
  - pose proof (IH (fun z Hz => H z (or_intror Hz)) (ex_intro _ y (conj Hy Ly))). lia.
Qed.
Definition term (x : Z * Z * Z) : Z := let '(_, c, f) := x in c * f ^ 2.
Definition wterm (x : Z * Z * Z) : Z := let '(_, c, f) := x in wrap32 (c * wrap32 (f ^ 2)).
Lemma total_terms n : f_total_hnfs n = fold_left (fun t x => t + term x) (f_diagonals n) 0.
Proof. unfold f_total_hnfs. apply fold_same. intros t ((a, c), f) _. reflexivity. Qed.
Lemma wtotal_terms n : m_total_hnfs wrap32 n = fold_left (fun t x => t + wterm x) (f_diagonals n) 0.
Proof. unfold m_total_hnfs. apply fold_same. intros t ((a, c), f) _. reflexivity. Qed.
Lemma wrap32_mod x : wrap32 x mod 2 ^ 32 = x mod 2 ^ 32.
Proof.
  unfold wrap32. rewrite Zminus_mod, Zmod_mod, <- Zminus_mod. f_equal. ring.
Qed.
Lemma wrap32_cong x y : x mod 2 ^ 32 = y mod 2 ^ 32 -> wrap32 x = wrap32 y.
Proof. intros H. unfold wrap32. rewrite (Zplus_mod x), H, <- Zplus_mod. reflexivity. Qed.
Lemma wterm_wrap x : wterm x = wrap32 (term x).
Proof.
  destruct x as ((a, c), f). cbn [wterm term]. apply wrap32_cong.
  rewrite Z.mul_mod, wrap32_mod, <- Z.mul_mod by lia. reflexivity.
Qed.
Lemma term_pos n x : In x (f_diagonals n) -> 1 <= term x.
Proof. destruct x as ((a, c), f). intros H. apply in_f_diagonals in H. cbn [term]. rewrite Z.pow_2_r. nia. Qed.
(** From 46341 on the number of HNFs, hence the room in the array, comes out too small. *)
Lemma total_short n : 46341 <= n -> m_total_hnfs wrap32 n < f_total_hnfs n.
Proof.
  intros Hn. rewrite total_terms, wtotal_terms. apply fold_lt.
  - intros x Hx. rewrite wterm_wrap. apply wrap32_le. pose proof (term_pos n x Hx). lia.
  - exists (1, 1, n). split; [apply in_f_diagonals; lia|]. rewrite wterm_wrap.
    pose proof (wrap32_range (term (1, 1, n))). cbn [term] in *. rewrite Z.pow_2_r in *. nia.
Qed.
Lemma tric_total_wrap n : m_tric_total wrap32 n = wrap32 (f_total_hnfs n).
Proof.
  rewrite total_terms. unfold m_tric_total.
  enough (G : forall l t u, t = wrap32 u ->
    fold_left (fun t '(_, c, f) => wrap32 (t + wrap32 (c * wrap32 (f ^ 2)))) l t =
    wrap32 (fold_left (fun t x => t + term x) l u)).
  { apply G. reflexivity. }
  induction l as [|x l IH]; intros t u ->; [reflexivity|]. cbn [fold_left]. apply IH.
  destruct x as ((a, c), f). change (wrap32 (c * wrap32 (f ^ 2))) with (wterm (a, c, f)). rewrite wterm_wrap.
  apply wrap32_cong. rewrite Z.add_mod, !wrap32_mod, <- Z.add_mod by lia. reflexivity.
Qed.
Lemma tric_total_exact n : 1 <= n -> (m_tric_total wrap32 n = f_total_hnfs n <-> f_total_hnfs n < 2 ^ 31).
Proof.
  intros Hn. rewrite tric_total_wrap. split; intros H.
  - pose proof (wrap32_range (f_total_hnfs n)). lia.
  - apply wrap32_fits. rewrite total_terms in *.
    pose proof (fold_le (fun _ => 0) term (f_diagonals n) (fun x Hx => Z.le_trans _ _ _ Z.le_0_1 (term_pos n x Hx))) as P.
    assert (Q0 : forall l : list (Z * Z * Z), fold_left (fun t _ => t + 0) l 0 = 0).
    { induction l as [|y l IH]; [reflexivity|exact IH]. }
    rewrite Q0 in P. lia.
Qed.
(** ** Triclinic lattices *)
Lemma tric_loop_fits w mult n : fits32 w -> 1 <= mult -> mult * n < 2 ^ 31 ->
  m_tric_loop w mult n = f_tric_loop mult n.
Proof.
  intros Hw Hm Hb. unfold m_tric_loop, f_tric_loop. apply py_for_ext. intros ((a, c), f) Hin.
  apply in_f_diagonals in Hin. destruct Hin as (Ha & Hc & Hf & E).
  assert (a <= n /\ c <= n /\ f <= n) as (A1 & C1 & F1) by (clear - Ha Hc Hf E; assert (a * c <= n) by nia; assert (c * f <= n) by nia; assert (a * f <= n) by nia; nia).
  assert (S : forall x, 0 <= x <= n -> w (mult * x) = mult * x).
  { intros x Hx. apply Hw. clear - Hx Hm Hb. nia. }
  apply py_for_ext. intros j Hj. apply in_do_range1 in Hj.
  apply py_for_ext. intros k Hk. apply in_do_range1 in Hk.
  apply py_for_ext. intros l Hl. apply in_do_range1 in Hl.
  rewrite !S by lia. unfold mscale, HNF. cbn. rewrite !Z.mul_0_r. reflexivity.
Qed.
Lemma tric_fits w mult n : fits32 w -> 1 <= mult -> mult * n < 2 ^ 31 -> f_total_hnfs n < 2 ^ 31 ->
  m_tric_31_44 w mult n = f_tric_31_44 mult n.
Proof.
  intros Hw Hm Hb Ht. unfold m_tric_31_44, f_tric_31_44. rewrite tric_loop_fits by assumption.
  rewrite f_tric_loop_py, triclinic_length.
  assert (P : forall l, (forall x, In x l -> 1 <= term x) -> forall t, 0 <= t ->
     fold_left (fun t x => t + term x) l t < 2 ^ 31 ->
     fold_left (fun t '(_, c, f) => w (t + w (c * w (f ^ 2)))) l t = fold_left (fun t x => t + term x) l t /\
     t <= fold_left (fun t x => t + term x) l t).
  { induction l as [|x l IH]; intros Hl t H0 H1; [split; [reflexivity|apply Z.le_refl]|]. cbn [fold_left] in *.
    pose proof (Hl x (or_introl eq_refl)) as T1.
    assert (L0 : t + term x <= fold_left (fun t x => t + term x) l (t + term x)).
    { rewrite fold_plus. pose proof (fold_le (fun _ => 0) term l (fun y Hy => Z.le_trans _ _ _ Z.le_0_1 (Hl y (or_intror Hy)))) as P0.
      assert (Q0 : forall l : list (Z * Z * Z), fold_left (fun t _ => t + 0) l 0 = 0) by (clear; induction l as [|y l IH]; [reflexivity|exact IH]).
      rewrite Q0 in P0. lia. }
    destruct x as ((a, c), f). cbn [term] in *.
    assert (Fb : 0 <= f ^ 2 /\ f ^ 2 <= c * f ^ 2) by (clear - T1; pose proof (Z.pow_nonneg f 2); rewrite Z.pow_2_r in *; assert (0 <= f * f) by nia; assert (1 <= c) by nia; nia).
    rewrite (Hw (f ^ 2)) by lia. rewrite (Hw (c * f ^ 2)) by lia. rewrite (Hw (t + c * f ^ 2)) by lia.
    destruct (IH (fun y Hy => Hl y (or_intror Hy)) (t + c * f ^ 2) ltac:(lia) H1) as (E1 & E2).
    split; [exact E1|lia]. }
  rewrite total_terms in *. unfold m_tric_total.
  destruct (P (f_diagonals n) (term_pos n) 0 (Z.le_refl 0) Ht) as (E1 & E2). rewrite E1, (Hw (fold_left _ _ _)) by lia.
  reflexivity.
Qed.
(** ** Cubic lattices: no overflow at all *)
Lemma bcc_loop_fits w n l : fits32 w -> n < 2 ^ 31 -> (forall x, In x l -> In x (f_diagonals n)) ->
  m_bcc_5_loop w l = f_bcc_5_loop l.
Proof.
  intros Hw Hn. induction l as [|((a, c), f) l IH]; intros Hl; [reflexivity|]. cbn [m_bcc_5_loop f_bcc_5_loop].
  rewrite IH by (intros x Hx; apply Hl; now right).
  destruct ((a =? c) && (a =? f)); [reflexivity|].
  destruct ((a =? c) && ((Z.quot f a =? 2) && rem0 f a)); [reflexivity|].
  destruct ((a =? c) && ((Z.quot f a =? 4) && rem0 f a)) eqn:E; [|reflexivity].
  apply andb_prop in E. destruct E as (E1 & E2). apply andb_prop in E2. destruct E2 as (E2 & E3).
  apply Z.eqb_eq in E1, E2. unfold rem0 in E3. apply Z.eqb_eq in E3. subst c.
  pose proof (Hl _ (or_introl eq_refl)) as D. apply in_f_diagonals in D. destruct D as (Ha & _ & Hf & En).
  pose proof (Z.quot_rem' f a) as Q. rewrite E2, E3 in Q. assert (Ef : f = 4 * a) by lia. clear E2 E3 Q.
  assert (B : 3 * a <= n) by (subst f; clear - Ha En; nia). rewrite (Hw (3 * a)) by lia. reflexivity.
Qed.
Lemma cubic_fits w k n : fits32 w -> n < 2 ^ 31 ->
  m_cubic_loop w k (f_diagonals n) = f_cubic_loop k (f_diagonals n).
Proof.
  intros Hw Hn. unfold m_cubic_loop, f_cubic_loop. destruct (k =? 3); [reflexivity|]. destruct (k =? 5); [|reflexivity].
  apply (bcc_loop_fits w n _ Hw Hn). auto.
Qed.
Lemma cubic_machine w k : fits32 w -> In k [1; 3; 5] -> forall n H, n < 2 ^ 31 ->
  (In H (cubic_all (m_cubic_loop w k (f_diagonals n))) <->
   1 <= n /\ is_hnf n H /\ symmetry_preserving (gram_of k) H).
Proof.
  intros Hw Hk n H Hn. rewrite (cubic_fits w k n Hw Hn).
  destruct (f_cubic_correct k Hk) as (B & _ & Ex & _). apply Ex.
Qed.
(** ** Too large numbers *)
(** A base-centred monoclinic supercell which keeps the symmetry and is not found. *)
Lemma not_divides n : 46343 <= n < 65536 -> ~ (n | 2 ^ 32).
Proof.
  intros Hn D. destruct (Zdivide_power_2 n 2 32 ltac:(lia) ltac:(lia) prime_2 D) as (m & E).
  assert (~ m < 0) by (intros H; rewrite (Z.pow_neg_r 2 m H) in E; lia).
  destruct (Z.le_gt_cases m 15) as [H1|H1].
  - pose proof (Z.pow_le_mono_r 2 m 15 ltac:(lia) H1). change (2 ^ 15) with 32768 in *. lia.
  - pose proof (Z.pow_le_mono_r 2 16 m ltac:(lia) ltac:(lia)). change (2 ^ 16) with 65536 in *. lia.
Qed.
Lemma monoclinic_spec n a b c d e f :
  (In (HNF a b c d e f) (f_basecm_28 n) <->
     In (a, c, f) (f_diagonals n) /\ rem0 f c = true /\ In e (do_range 0 (f - 1) c) /\
     rem0 (2 * e + Z.quot (e * e) c) f = true /\ In d (do_range 0 (f - 1) c) /\
     rem0 (2 * d + Z.quot (d * e) c) f = true /\ In b (do_range 0 (c - 1) 1)) /\
  forall w, (In (HNF a b c d e f) (m_basecm_28 w n) <->
     In (a, c, f) (f_diagonals n) /\ rem0 f c = true /\ In e (do_range 0 (f - 1) c) /\
     rem0 (w (w (2 * e) + Z.quot (w (e * e)) c)) f = true /\ In d (do_range 0 (f - 1) c) /\
     rem0 (w (w (2 * d) + Z.quot (w (d * e)) c)) f = true /\ In b (do_range 0 (c - 1) 1)).
Proof.
  split; [|intros w]; (split; [intros H|intros (D & H1 & H2 & H3 & H4 & H5 & H6)]).
  1, 3: unfold f_basecm_28, m_basecm_28 in H; apply in_py_for in H; destruct H as (((a', c'), f') & D & H);
    apply in_py_if in H; destruct H as (H1 & H); apply in_py_for in H; destruct H as (e' & H2 & H);
    apply in_py_if in H; destruct H as (H3 & H); apply in_py_for in H; destruct H as (d' & H4 & H);
    apply in_py_if in H; destruct H as (H5 & H); apply in_py_for in H; destruct H as (b' & H6 & H);
    destruct H as [H|H]; [|contradiction]; injection H as -> -> -> -> -> ->;
    exact (conj D (conj H1 (conj H2 (conj H3 (conj H4 (conj H5 H6)))))).
  all: unfold f_basecm_28, m_basecm_28; apply in_py_for; exists (a, c, f); split; [exact D|];
    apply in_py_if; split; [exact H1|]; apply in_py_for; exists e; split; [exact H2|];
    apply in_py_if; split; [exact H3|]; apply in_py_for; exists d; split; [exact H4|];
    apply in_py_if; split; [exact H5|]; apply in_py_for; exists b; split; [exact H6|]; now left.
Qed.
Lemma lost n : 46343 <= n < 65536 ->
  In (HNF 1 0 1 0 (n - 2) n) (f_basecm_28 n) /\ ~ In (HNF 1 0 1 0 (n - 2) n) (m_basecm_28 wrap32 n).
Proof.
  intros Hn. destruct (monoclinic_spec n 1 0 1 0 (n - 2) n) as (S1 & S2). split.
  - apply S1. split; [apply in_f_diagonals; lia|]. split; [unfold rem0; now rewrite Z.rem_1_r|].
    split; [apply in_do_range_mult; [lia|]; split; [lia|apply Z.divide_1_l]|].
    split; [unfold rem0; rewrite Z.quot_1_r; apply Z.eqb_eq; apply Z.rem_divide; [lia|]; exists (n - 2); ring|].
    split; [apply in_do_range_mult; [lia|]; split; [lia|apply Z.divide_1_l]|].
    split; [unfold rem0; cbn [Z.mul]; rewrite Z.quot_1_r; apply Z.eqb_eq; apply Z.rem_divide; [lia|]; now exists 0|].
    apply in_do_range1. lia.
  - intros H. apply S2 in H. destruct H as (_ & _ & _ & H & _). unfold rem0 in H. apply Z.eqb_eq in H.
    rewrite Z.quot_1_r in H.
    assert (E : wrap32 ((n - 2) * (n - 2)) = (n - 2) * (n - 2) - 2 ^ 32).
    { transitivity (wrap32 ((n - 2) * (n - 2) - 2 ^ 32)).
      - apply wrap32_cong. rewrite <- (Z_mod_plus_full ((n - 2) * (n - 2) - 2 ^ 32) 1). f_equal. lia.
      - apply wrap32_fits. change (2 ^ 31) with 2147483648. change (2 ^ 32) with 4294967296. nia. }
    rewrite E, (wrap32_fits (2 * (n - 2))) in H by lia.
    rewrite wrap32_fits in H by (change (2 ^ 31) with 2147483648; change (2 ^ 32) with 4294967296; nia).
    apply Z.rem_divide in H; [|lia]. apply (not_divides n Hn).
    replace (2 ^ 32) with ((n - 2) * n - (2 * (n - 2) + ((n - 2) * (n - 2) - 2 ^ 32))) by ring.
    apply Z.divide_sub_r; [apply Z.divide_factor_r|exact H].
Qed.
(** One which does not keep the symmetry and is accepted. *)
Lemma invented : In (HNF 1 0 1 0 46621 46729) (m_basecm_28 wrap32 46729) /\
  ~ In (HNF 1 0 1 0 46621 46729) (f_basecm_28 46729).
Proof.
  destruct (monoclinic_spec 46729 1 0 1 0 46621 46729) as (S1 & S2). split.
  - apply S2. split; [apply in_f_diagonals; lia|]. split; [reflexivity|].
    split; [apply in_do_range_mult; [lia|]; split; [lia|apply Z.divide_1_l]|].
    split; [vm_compute; reflexivity|].
    split; [apply in_do_range_mult; [lia|]; split; [lia|apply Z.divide_1_l]|].
    split; [vm_compute; reflexivity|]. apply in_do_range1. lia.
  - intros H. apply S1 in H. destruct H as (_ & _ & _ & H & _). vm_compute in H. discriminate.
Qed.
Lemma fco28 : f_enumerator 28 = Some f_basecm_28. Proof. reflexivity. Qed.
Lemma lost_lattice n : 46343 <= n < 65536 -> exists m H, m_enumerator wrap32 28 = Some m /\
  is_hnf n H /\ symmetry_preserving (gram_of 28) H /\ ~ In H (m n).
Proof.
  intros Hn. destruct (lost n Hn) as (A & B). exists (m_basecm_28 wrap32), (HNF 1 0 1 0 (n - 2) n).
  destruct (f_enumerator_correct 28 _ ltac:(lia) fco28) as (b & _ & Ex & _). apply Ex in A.
  split; [reflexivity|]. split; [apply A|]. split; [apply A|exact B].
Qed.
Lemma invented_lattice : exists m H, m_enumerator wrap32 28 = Some m /\
  is_hnf 46729 H /\ In H (m 46729) /\ ~ symmetry_preserving (gram_of 28) H.
Proof.
  destruct invented as (A & B). exists (m_basecm_28 wrap32), (HNF 1 0 1 0 46621 46729).
  destruct (f_enumerator_correct 28 _ ltac:(lia) fco28) as (b & _ & Ex & _).
  assert (Hh : is_hnf 46729 (HNF 1 0 1 0 46621 46729)).
  { exists 1, 0, 1, 0, 46621, 46729. split; [reflexivity|]. lia. }
  split; [reflexivity|]. split; [exact Hh|]. split; [exact A|].
  intros S. apply B. apply Ex. split; [lia|]. split; assumption.
Qed.
