(** Examples for the main programs of support/brute_force. *)
From Coq Require Import ZArith QArith Qcanon List Bool Lia Ascii String.
From Verif Require Import Mat3 QMat PointGroup Model_control Model_brute Spec_brute Model_brute_main Spec_driver Spec_brute_main
  Proofs_brute3 Proofs_brute6 Proofs_brute7.
Import ListNotations.
Open Scope string_scope.

(** ** Readers that understand the digits, signs and points of the examples *)
Definition plain_word (s : string) : io string := match words s with t :: _ => Value t | [] => Failed end.
Definition plain_int (s : string) : io Z :=
  match words (upto "/" s) with t :: _ => match integer t with Some n => Value n | None => Failed end | [] => Failed end.
Definition number (t : string) : option Qc :=
  match integer t with Some n => Some (zq n) | None => decimal t end.
Definition plain_real (s : string) : io Qc :=
  match words s with t :: _ => match number t with Some x => Value x | None => Failed end | [] => Failed end.
Definition plain_ints (n : nat) (s : string) : io (list Z) :=
  if Nat.ltb (List.length (words s)) n then Failed
  else fold_right (fun t r => match integer t, r with Some x, Value l => Value (x :: l) | _, _ => Failed end)
         (Value []) (firstn n (words s)).
Definition plain_2 (s : string) : io (Z * Z) := match plain_ints 2 s with Value [a; b] => Value (a, b) | _ => Failed end.
Definition plain_i3 (s : string) : io (Z * Z * Z) := match plain_ints 3 s with Value [a; b; c] => Value (a, b, c) | _ => Failed end.
Definition plain_3 (s : string) : io (Qc * Qc * Qc) :=
  match words s with
  | a :: b :: c :: _ => match number a, number b, number c with Some x, Some y, Some z => Value (x, y, z) | _, _, _ => Failed end
  | _ => Failed
  end.
(** struct_enum.in of the repository *)
Definition enum_lines : list string :=
  ["System "; "bulk "; "0 1 1"; "1 0 1"; "1 1 0"; "2"; "1 "; "0.0 0.0 0.0  0/1 "; "1 10"; "0.00001 ";
   "part list of labelings (including incomplete labelings) is used "; "# Concentration ranges "; "5 5 10 "; "5 5 10"].
Definition enum_read : enum_input :=
  EnumInput "System" 3 (QMat 0 1 1 1 0 1 1 1 0) 2 [QVec 0 0 0] [[0; 1]%Z] [2%Z] [1%Z] 1 10
    (Q2Qc (1 # 100000)) false true [(5, 5, 10); (5, 5, 10)]%Z.

(** ** The simple cubic lattice *)
Definition cubic_input (n : Z) : enum_input :=
  EnumInput "" 3 qid 0 [] [] [] [] 1 n (Q2Qc (1 # 100000)) true true [].
Lemma cubic_once : NoDup cubic_pg.
Proof.
  unfold cubic_pg. apply FinFun.Injective_map_NoDup; [|apply distinct_NoDup; vm_compute; reflexivity].
  intros A B E. now apply qof_inj.
Qed.
Lemma same_iff A B : same A B = true <-> A = B.
Proof.
  split; [|intros <-; apply (proj1 same_tolerance)]. intros H. unfold same in H.
  destruct A as [a1 a2 a3 a4 a5 a6 a7 a8 a9], B as [b1 b2 b3 b4 b5 b6 b7 b8 b9]. cbn in H.
  rewrite !andb_true_iff in H. destruct H as (H1 & H2 & H3 & H4 & H5 & H6 & H7 & H8 & H9 & _).
  apply Qc_eq_bool_correct in H1, H2, H3, H4, H5, H6, H7, H8, H9. now subst.
Qed.
Lemma cubic_not_zero p x : In p cubic_pg -> In x [qof zero3] -> same p x = false.
Proof.
  intros Hp [<-|[]]. destruct (same p (qof zero3)) eqn:E; [|reflexivity]. apply same_iff in E. subst p. exfalso.
  unfold cubic_pg in Hp. apply in_map_iff in Hp as (X & E & H). apply qof_inj in E. subst X.
  assert (K : existsb (meqb zero3) cubic = false) by (vm_compute; reflexivity).
  assert (existsb (meqb zero3) cubic = true); [|congruence]. apply existsb_exists. exists zero3. split; [exact H|reflexivity].
Qed.

(** ** The file of the repository *)
Lemma value_pair x y z x' y' z' : x = x' -> y = y' -> z = z' -> Value (x, y, z) = Value (x', y', z') :> io (Qc * Qc * Qc).
Proof. intros <- <- <-. reflexivity. Qed.
Ltac numbers := apply value_pair; apply Qc_is_canon; vm_compute; reflexivity.
Lemma enum_d_line : d_line plain_int plain_real "0.0 0.0 0.0  0/1 " (QVec 0 0 0) [0; 1]%Z.
Proof.
  exists "0.0", "0.0", "0.0", ["0"; "1"], 0%nat, 0%nat, 0%nat, 1%nat, 1%nat, "".
  split; [reflexivity|]. split; [now left|]. split; [vm_compute; lia|]. do 4 (split; [discriminate|]).
  assert (F : free_of [" "%char] "0.0") by (cbn; repeat split; intros [K|[]]; discriminate K).
  split; [exact F|]. split; [exact F|]. split; [exact F|].
  assert (R : forall r, plain_real ("0.0" ++ " " ++ r) = Value 0%Qc).
  { intros r. unfold plain_real. change (words ("0.0" ++ " " ++ r)) with ("0.0" :: words_after "" r).
    cbv iota. change (number "0.0") with (Some (zq 1 * (zq 0 + zq 0 / zq 10))%Qc). cbv iota. apply f_equal.
    apply Qc_is_canon. vm_compute. reflexivity. }
  split; [exact R|]. split; [exact R|]. split; [exact R|].
  repeat constructor; try discriminate; try (intros [K|[K|[K|[]]]]; discriminate K).
Qed.
Lemma item l : passed l = false -> ~ blank_or_comment l.
Proof. intros E H. apply passed_iff in H. congruence. Qed.
Lemma enum_lines_read :
  read_input plain_int plain_2 plain_i3 plain_ints plain_real plain_3 plain_word (fun _ _ _ => true) enum_lines = Ok enum_read.
Proof.
  set (mode := "part list of labelings (including incomplete labelings) is used ").
  set (before := ["System "; "bulk "; "0 1 1"; "1 0 1"; "1 1 0"; "2"; "1 "; "0.0 0.0 0.0  0/1 "; "1 10"; "0.00001 "; mode]).
  change enum_lines with (before ++ "# Concentration ranges " :: ["5 5 10 "; "5 5 10"])%list.
  rewrite input_comment by (apply passed_iff; reflexivity).
  pose proof (input_read plain_int plain_2 plain_i3 plain_ints plain_real plain_3 plain_word (fun _ _ _ => true)
    "System " "bulk " "0 1 1" "1 0 1" "1 1 0" "2" "1 " ["0.0 0.0 0.0  0/1 "] [] "1 10" "0.00001 " mode ["5 5 10 "; "5 5 10"]
    (QVec 0 1 1) (QVec 1 0 1) (QVec 1 1 0) 2 [(QVec 0 0 0, [0; 1]%Z)] [1]%Z 1 10 (Q2Qc (1 # 100000)) "part" false false true
    [(5, 5, 10); (5, 5, 10)]%Z []) as H.
  cbv zeta in H. rewrite app_nil_r in H. refine (H _ _ _ _ _ _ _ _ _ _ _ _ _ _ _ _ _); clear H.
  - repeat constructor; apply item; reflexivity.
  - exists "bulk", " ". split; [now left|reflexivity].
  - discriminate.
  - numbers.
  - numbers.
  - numbers.
  - reflexivity.
  - lia.
  - reflexivity.
  - constructor; [exact enum_d_line|constructor].
  - split.
    + constructor; [|constructor]. cbn [snd]. split; [|repeat constructor; lia].
      repeat constructor; [intros [K|[]]; discriminate K|intros []].
    + intros i Hi. exists [0; 1]%Z. split; [now left|]. cbn. lia.
  - left. split; [reflexivity|]. exists "1". split; [reflexivity|]. split; [|reflexivity].
    intros (w & r & I & E). repeat (destruct I as [<-|I]; [discriminate E|]). destruct I.
  - reflexivity.
  - unfold plain_real. change (words "0.00001 ") with ["0.00001"]. cbv iota.
    change (number "0.00001") with (Some (zq 1 * (zq 0 + zq 1 / zq 100000))%Qc). cbv iota. apply f_equal.
    apply Qc_is_canon. vm_compute. reflexivity.
  - reflexivity.
  - exists "part", "". split; [now left|reflexivity].
  - split; [repeat constructor; lia|reflexivity].
Qed.
