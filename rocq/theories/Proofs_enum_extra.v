(** Non-emptiness of the cubic enumerators, the triclinic branch, lattice examples. *)
From Coq Require Import ZArith List Lia Bool.
From Verif Require Import Mat3 Spec PyNum Model_diag Model_universal PyNumFacts HnfTheory
  Model_sc Model_bcc Model_fcc Proofs_cubic.
From Verif Require EnumTac.
Import ListNotations.
Open Scope Z_scope.

Lemma nonempty_in {A} (l : list A) : l <> [] <-> exists x, In x l.
Proof.
  destruct l as [|x l]; split.
  - intros H; now destruct H.
  - intros (x & []).
  - intros _. exists x. now left.
  - discriminate.
Qed.

Lemma sc_3_nonempty n :
  sc_3 n <> [] <-> exists k, 1 <= k /\ (n = k ^ 3 \/ n = 2 * k ^ 3 \/ n = 4 * k ^ 3).
Proof.
  rewrite nonempty_in. split.
  - intros (H & HH). apply in_sc_3 in HH. destruct HH as (a & Ha & HH). exists a.
    split; [exact Ha|]. replace (a ^ 3) with (a * a * a) by ring. intuition lia.
  - intros (k & Hk & HH). replace (k ^ 3) with (k * k * k) in HH by ring.
    destruct HH as [-> | [-> | ->]]; eexists; apply in_sc_3; exists k; (split; [exact Hk|]).
    + left; split; reflexivity.
    + right; left; split; reflexivity.
    + right; right; split; reflexivity.
Qed.

Lemma bcc_5_nonempty n :
  bcc_5 n <> [] <-> exists k, 1 <= k /\ (n = k ^ 3 \/ n = 2 * k ^ 3 \/ n = 4 * k ^ 3).
Proof.
  rewrite nonempty_in. split.
  - intros (H & HH). apply in_bcc_5 in HH. destruct HH as (a & Ha & HH). exists a.
    split; [exact Ha|]. replace (a ^ 3) with (a * a * a) by ring. intuition lia.
  - intros (k & Hk & HH). replace (k ^ 3) with (k * k * k) in HH by ring.
    destruct HH as [-> | [-> | ->]]; eexists; apply in_bcc_5; exists k; (split; [exact Hk|]).
    + left; split; reflexivity.
    + right; left; split; reflexivity.
    + right; right; split; reflexivity.
Qed.

Lemma fcc_1_nonempty n :
  fcc_1 n <> [] <-> exists k, 1 <= k /\ (n = k ^ 3 \/ n = 4 * k ^ 3 \/ n = 16 * k ^ 3).
Proof.
  rewrite nonempty_in. split.
  - intros (H & HH). apply in_fcc_1 in HH. destruct HH as (a & Ha & HH). exists a.
    split; [exact Ha|]. replace (a ^ 3) with (a * a * a) by ring. intuition lia.
  - intros (k & Hk & HH). replace (k ^ 3) with (k * k * k) in HH by ring.
    destruct HH as [-> | [-> | ->]]; eexists; apply in_fcc_1; exists k; (split; [exact Hk|]).
    + left; split; reflexivity.
    + right; left; split; reflexivity.
    + right; right; split; reflexivity.
Qed.

Lemma sc_3_single n : (length (sc_3 n) <= 1)%nat.
Proof.
  unfold sc_3. induction (get_HNF_diagonals n) as [|[[a c] f] l IH]; cbn [sc_3_loop]; [cbn; lia|].
  repeat match goal with |- (length (if ?b then _ else _) <= 1)%nat => destruct b end;
    first [exact IH | cbn; lia].
Qed.

Lemma triclinic_exact m n K :
  1 <= m -> (In K (triclinic_hnfs m n) <-> exists H, is_hnf n H /\ K = mscale m H).
Proof.
  intros Hm. unfold triclinic_hnfs. rewrite in_py_for. split.
  - intros ([[a c] f] & Hd & HH). apply in_diagonals in Hd.
    apply in_py_for in HH. destruct HH as (b & Hb & HH). apply in_range1 in Hb.
    apply in_py_for in HH. destruct HH as (d & Hd' & HH). apply in_range1 in Hd'.
    apply in_py_for in HH. destruct HH as (e & He & HH). apply in_range1 in He.
    apply in_one in HH. exists (HNF a b c d e f). split; [|exact HH].
    exists a, b, c, d, e, f. tauto.
  - intros (H & (a & b & c & d & e & f & -> & Ha & Hc & Hf & Hn & Hb & Hd & He) & ->).
    exists (a, c, f). split; [apply in_diagonals; tauto|].
    apply in_py_for. exists b. split; [now apply in_range1|].
    apply in_py_for. exists d. split; [now apply in_range1|].
    apply in_py_for. exists e. split; [now apply in_range1|]. now apply in_one.
Qed.

Lemma same_lattice_example : same_lattice (HNF 1 1 2 0 0 1) (Mat3 1 0 0 3 2 0 5 0 (-1)).
Proof.
  apply same_lattice_sym.
  replace (Mat3 1 0 0 3 2 0 5 0 (-1)) with (mmul (HNF 1 1 2 0 0 1) (Mat3 1 0 0 1 1 0 5 0 (-1)))
    by reflexivity.
  apply same_lattice_mul with (V := Mat3 1 0 0 (-1) 1 0 5 0 (-1)); reflexivity.
Qed.

Lemma inversion_preserves H : preserves (mopp mid) H.
Proof. apply EnumTac.preserves_opp_id. Qed.
