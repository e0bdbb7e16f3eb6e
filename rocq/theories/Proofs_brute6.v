(** io_utils.f90: blank lines and comments in struct_enum.in. *)
From Coq Require Import ZArith QArith Qcanon List Bool Lia Ascii String.
From Verif Require Import Mat3 QMat QNum Model_control Model_driver Model_brute_main Spec_brute_main.
Import ListNotations.
Open Scope string_scope.

Lemma blank_true c : blank c = true <-> c = " "%char.
Proof. unfold blank. apply Ascii.eqb_eq. Qed.
Lemma rtrim_cons c s : rtrim (String c s) = if (blank c && String.eqb (rtrim s) "")%bool then "" else String c (rtrim s).
Proof. reflexivity. Qed.
Lemma rtrim_blanks s : rtrim s = "" <-> exists n, s = blanks n.
Proof.
  split.
  - induction s as [|c s IH]; [now exists O|]. rewrite rtrim_cons.
    destruct (blank c) eqn:B; cbn [andb]; [|discriminate].
    destruct (String.eqb_spec (rtrim s) "") as [E|]; [|discriminate].
    destruct (IH E) as (n & ->). apply blank_true in B. subst c. now exists (S n).
  - intros (n & ->). induction n as [|n IH]; [reflexivity|]. change (blanks (S n)) with (String " " (blanks n)).
    rewrite rtrim_cons, IH. reflexivity.
Qed.
Definition hollow (s : string) : Prop :=
  exists n rest, s = blanks n ++ rest /\ (rest = "" \/ exists c, rest = "#" ++ c).
Lemma hollow_blank s : hollow (String " " s) <-> hollow s.
Proof.
  split.
  - intros ([|n] & rest & E & H).
    + cbn in E. subst rest. destruct H as [H|(c & H)]; discriminate H.
    + cbn in E. injection E as ->. now exists n, rest.
  - intros (n & rest & -> & H). now exists (S n), rest.
Qed.
Lemma hollow_iff s : String.eqb (rtrim (upto "#" (rtrim s))) "" = true <-> hollow s.
Proof.
  rewrite String.eqb_eq. induction s as [|c s IH].
  - split; [intros _; exists O, ""; split; [reflexivity|now left]|reflexivity].
  - rewrite rtrim_cons. destruct (blank c) eqn:B; cbn [andb].
    + apply blank_true in B. subst c. rewrite hollow_blank, <- IH.
      destruct (String.eqb_spec (rtrim s) "") as [E|E]; [rewrite E; tauto|].
      cbn [upto]. change (Ascii.eqb " " "#") with false. cbn iota. rewrite rtrim_cons. change (blank " ") with true. cbn [andb].
      destruct (String.eqb_spec (rtrim (upto "#" (rtrim s))) "") as [F|F]; [tauto|]. split; [discriminate|now intros G].
    + cbn [upto]. destruct (Ascii.eqb_spec c "#") as [->|N].
      * split; [intros _|reflexivity]. exists O, (String "#" s). split; [reflexivity|right; now exists s].
      * rewrite rtrim_cons, B. cbn [andb]. split; [discriminate|]. intros ([|n] & rest & E & H).
        -- cbn in E. subst rest. destruct H as [H|(t & H)]; [discriminate|]. injection H as ->. contradiction.
        -- cbn in E. injection E as -> _. discriminate B.
Qed.
Lemma passed_iff line : passed line = true <-> blank_or_comment line.
Proof. unfold passed, fixed. rewrite hollow_iff. reflexivity. Qed.

(** ** Files that differ only by such lines *)
Definition strip (lines : list string) : list string := filter (fun l => negb (passed l)) lines.
Definition alike (a b : list string) : Prop := strip a = strip b.
Lemma co_ca_strip lines : strip lines = match co_ca lines with [] => [] | l :: rest => l :: strip rest end.
Proof.
  induction lines as [|l lines IH]; [reflexivity|]. cbn [strip filter co_ca]. destruct (passed l); cbn [negb]; [exact IH|reflexivity].
Qed.
Lemma co_ca_alike a b : alike a b -> match co_ca a, co_ca b with
  | [], [] => True | l :: r, l' :: r' => l = l' /\ alike r r' | _, _ => False end.
Proof.
  unfold alike. rewrite (co_ca_strip a), (co_ca_strip b). destruct (co_ca a), (co_ca b); intros E; try discriminate E; [exact I|].
  injection E as -> E. now split.
Qed.
Lemma alike_co_ca a b : alike a b -> alike (co_ca a) (co_ca b).
Proof.
  assert (K : forall l, strip (co_ca l) = strip l).
  { intros l. induction l as [|x l IH]; [reflexivity|]. cbn [co_ca strip filter]. destruct (passed x) eqn:E; cbn [negb]; [exact IH|].
    cbn [strip filter]. now rewrite E. }
  intros H. unfold alike. now rewrite !K.
Qed.
Definition same_step {A} (x y : step (A * list string)) : Prop :=
  match x, y with
  | Ok (a, r), Ok (b, r') => a = b /\ alike r r'
  | Unread, Unread => True
  | Stopped, Stopped => True
  | _, _ => False
  end.
Lemma read_line_alike {A} (read : string -> io A) a b : alike a b -> same_step (read_line read a) (read_line read b).
Proof.
  intros H. apply co_ca_alike in H. unfold read_line. destruct (co_ca a), (co_ca b); try contradiction; [exact I|].
  destruct H as (-> & H). destruct (read _); [split; [reflexivity|exact H]|exact I|exact I].
Qed.
Lemma bind_alike {A B} (x y : step (A * list string)) (f g : A * list string -> step B) :
  same_step x y -> (forall a r r', alike r r' -> f (a, r) = g (a, r')) -> bind x f = bind y g.
Proof.
  intros H E. destruct x as [| |(a, r)], y as [| |(b, r')]; try contradiction; [reflexivity|reflexivity|].
  destruct H as (-> & H). now apply E.
Qed.
Lemma bind_same {A B} (x y : step (A * list string)) (f g : A * list string -> step (B * list string)) :
  same_step x y -> (forall a r r', alike r r' -> same_step (f (a, r)) (g (a, r'))) -> same_step (bind x f) (bind y g).
Proof.
  intros H E. destruct x as [| |(a, r)], y as [| |(b, r')]; try contradiction; [exact I|exact I|].
  destruct H as (-> & H). now apply E.
Qed.

Section input.
  Context (read_int : string -> io Z) (read_2 : string -> io (Z * Z)) (read_i3 : string -> io (Z * Z * Z))
          (read_ints : nat -> string -> io (list Z)) (read_real : string -> io Qc)
          (read_3 : string -> io (Qc * Qc * Qc)) (read_word : string -> io string) (flat : Qc -> Qc -> Qc -> bool).
  Lemma d_vectors_alike n k : forall a b, alike a b ->
    same_step (d_vectors read_int read_real n k a) (d_vectors read_int read_real n k b).
  Proof.
    induction n as [|n IH]; intros a b H; cbn [d_vectors]; [now split|].
    apply co_ca_alike in H. destruct (co_ca a), (co_ca b); try contradiction; [exact I|]. destruct H as (-> & H).
    destruct (d_vector read_int read_real k s0); cbn [bind]; [exact I|exact I|].
    apply bind_same; [now apply IH|]. intros x r r' Hr. now split.
  Qed.
  Lemma get_eq_alike nd a b : alike a b -> same_step (get_eq read_ints read_word nd a) (get_eq read_ints read_word nd b).
  Proof.
    intros H. unfold get_eq. apply bind_same; [now apply read_line_alike|]. intros w r r' Hr.
    assert (K : same_step (Ok (Model_sp_hnfs.do_range 1 nd 1, co_ca a)) (Ok (Model_sp_hnfs.do_range 1 nd 1, co_ca b))).
    { split; [reflexivity|now apply alike_co_ca]. }
    assert (L : same_step (read_line (read_ints (Z.to_nat nd)) r) (read_line (read_ints (Z.to_nat nd)) r')) by now apply read_line_alike.
    revert K L. generalize (read_line (read_ints (Z.to_nat nd)) r) (read_line (read_ints (Z.to_nat nd)) r').
    intros x y K L. destruct (ucase (fixed 100 w)) as [|c s]; [exact K|].
    destruct c as [[] [] [] [] [] [] [] []]; assumption.
  Qed.
  Lemma get_ranges_alike n : forall a b, alike a b -> get_ranges read_i3 n a = get_ranges read_i3 n b.
  Proof.
    induction n as [|n IH]; intros a b H; cbn [get_ranges]; [reflexivity|].
    apply co_ca_alike in H. destruct (co_ca a), (co_ca b); try contradiction; [reflexivity|]. destruct H as (-> & H).
    destruct (read_i3 _); try reflexivity. now rewrite (IH _ _ H).
  Qed.
  Let input := read_input read_int read_2 read_i3 read_ints read_real read_3 read_word flat.
  Lemma input_alike a b : alike a b -> input a = input b.
  Proof.
    intros H. unfold input, read_input. apply co_ca_alike in H. destruct (co_ca a) as [|l1 a1], (co_ca b) as [|? b1]; try contradiction; [reflexivity|].
    destruct H as (<- & H). apply co_ca_alike in H. destruct (co_ca a1) as [|l2 a2], (co_ca b1) as [|? b2]; try contradiction; [reflexivity|].
    destruct H as (<- & H). cbv zeta.
    apply bind_alike; [now apply read_line_alike|]. clear H. intros ((x1, x2), x3) r1 r1' H.
    apply bind_alike; [now apply read_line_alike|]. clear H. intros ((y1, y2), y3) r2 r2' H.
    apply bind_alike; [now apply read_line_alike|]. clear H. intros ((z1, z2), z3) r3 r3' H.
    apply bind_alike; [now apply read_line_alike|]. clear H. intros k r4 r4' H.
    apply bind_alike; [now apply read_line_alike|]. clear H. intros nd r5 r5' H.
    apply bind_alike; [now apply d_vectors_alike|]. clear H. intros ds r6 r6' H.
    destruct (check (all_used _ _)); cbn [bind]; try reflexivity.
    destruct (check (none_twice _ _)); cbn [bind]; try reflexivity.
    apply bind_alike; [now apply get_eq_alike|]. clear H. intros eq r7 r7' H.
    apply bind_alike; [now apply read_line_alike|]. clear H. intros (m1, m2) r8 r8' H.
    apply bind_alike; [now apply read_line_alike|]. clear H. intros eps r9 r9' H.
    apply bind_alike; [now apply read_line_alike|]. clear H. intros w r10 r10' H.
    now rewrite (get_ranges_alike _ _ _ H).
  Qed.
  Lemma input_comment a c b : blank_or_comment c -> input (a ++ c :: b)%list = input (a ++ b)%list.
  Proof.
    intros H. apply input_alike. unfold alike, strip. rewrite !filter_app. cbn [filter]. apply passed_iff in H. now rewrite H.
  Qed.
End input.
