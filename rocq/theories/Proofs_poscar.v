(** The POSCAR. *)
From Coq Require Import ZArith QArith Qcanon List Bool Ascii String Lia.
From Verif Require Import Mat3 QMat QNum Model_control Spec_control Proofs_control Proofs_find_supercells.
Import ListNotations.
Open Scope string_scope.

(** ** Words *)
Lemma blanks_adjustl b s : blanks b -> adjustl (b ++ s) = adjustl s.
Proof. induction b; [reflexivity|]. intros (-> & H). cbn. now apply IHb. Qed.
Lemma is_word_cons w : is_word w -> exists c w', w = String c w' /\ c <> " "%char /\ blank c = false.
Proof.
  intros (H1 & H2). destruct w as [|c w]; [now destruct H1|]. exists c, w. split; [reflexivity|].
  assert (N : c <> " "%char) by (apply H2; now left). split; [exact N|].
  destruct (blank c) eqn:B; [|reflexivity]. apply blank_iff in B. contradiction.
Qed.
Lemma word_end w : is_word w -> no_blank_end w.
Proof.
  intros (_ & H) t E. subst w. apply (H " "%char); [|reflexivity].
  clear H. induction t; cbn; [now left|right; exact IHt].
Qed.
Lemma adjustl_word w s : is_word w -> adjustl (w ++ s) = w ++ s.
Proof. intros H. destruct (is_word_cons w H) as (c & w' & -> & _ & B). cbn. now rewrite B. Qed.
Lemma rtrim_word a r : no_blank_end a -> a <> "" -> rtrim (a ++ r) = a ++ rtrim r.
Proof.
  induction a as [|c a IH]; intros H N; [now destruct N|]. cbn [append rtrim]. cbv zeta.
  destruct a as [|c' a].
  - cbn [append]. destruct (blank c) eqn:B; [|reflexivity]. exfalso. apply blank_iff in B. subst c. now apply (H "").
  - rewrite IH by (discriminate || exact (no_blank_tail _ _ H)). cbn [append String.eqb].
    now rewrite andb_false_r.
Qed.
Lemma rtrim_blanks_app b s : blanks b -> rtrim (b ++ s) = if String.eqb (rtrim s) "" then "" else b ++ rtrim s.
Proof.
  intros H. induction b as [|c b IH].
  - cbn. destruct (String.eqb_spec (rtrim s) ""); congruence.
  - destruct H as (-> & H). cbn [append rtrim]. cbv zeta. rewrite (IH H).
    destruct (String.eqb_spec (rtrim s) "") as [E|N]; [reflexivity|].
    destruct (String.eqb_spec (b ++ rtrim s) "") as [E|N']; [|reflexivity].
    exfalso. apply N. destruct b; [exact E|discriminate E].
Qed.
Lemma word_split w rest : is_word w -> (rest = "" \/ exists r, rest = " " ++ r) ->
  word (w ++ rest) = (w, match rest with "" => "" | String _ r => r end).
Proof.
  intros (_ & H) Hr. induction w as [|c w IH].
  - destruct Hr as [->|(r & ->)]; reflexivity.
  - cbn [append word]. assert (B : blank c = false).
    { destruct (blank c) eqn:B; [|reflexivity]. apply blank_iff in B. exfalso. apply (H c); [now left|exact B]. }
    rewrite B, IH; [reflexivity|]. intros d Hd. apply H. now right.
Qed.

Lemma words_adjustl s ws : line_words s ws -> line_words (adjustl s) ws.
Proof.
  intros H. destruct H as [b Hb|b w rest ws Hb Hw Hr H].
  - replace b with (b ++ "") by apply app_nil_r. rewrite blanks_adjustl by exact Hb. now constructor.
  - rewrite blanks_adjustl by exact Hb. rewrite adjustl_word by exact Hw.
    change (w ++ rest) with ("" ++ w ++ rest). now constructor.
Qed.
Lemma words_rtrim s ws : line_words s ws -> line_words (rtrim s) ws.
Proof.
  induction 1 as [b Hb|b w rest ws Hb Hw Hr H IH].
  - rewrite rtrim_blanks by exact Hb. now constructor.
  - rewrite rtrim_blanks_app by exact Hb.
    rewrite rtrim_word by (apply Hw || now apply word_end).
    destruct (String.eqb_spec (w ++ rtrim rest) "") as [E|_].
    { exfalso. destruct (is_word_cons w Hw) as (c & w' & -> & _). discriminate E. }
    constructor; [exact Hb|exact Hw| |exact IH].
    destruct Hr as [->|(r & ->)]; [now left|]. change (" " ++ r) with (String " " r). cbn [rtrim]. cbv zeta.
    destruct (blank " " && (rtrim r =? "")); [now left|right]. now exists (rtrim r).
Qed.
Lemma words_tail s c ws : line_words (String c s) ws -> c = " "%char -> line_words s ws.
Proof.
  intros H ->. inversion H as [b Hb E|b w rest ws' Hb Hw Hr H' E]; subst.
  - constructor. apply Hb.
  - destruct b as [|d b]; cbn in E.
    + exfalso. destruct (is_word_cons w Hw) as (d & w' & -> & N & _). cbn in E. injection E as Ec _. now destruct N.
    + injection E as _ <-. now constructor; [apply Hb| | |].
Qed.
Lemma words_empty s ws : line_words s ws -> rtrim (adjustl s) = "" <-> ws = [].
Proof.
  intros H. destruct H as [b Hb|b w rest ws Hb Hw Hr H].
  - replace b with (b ++ "") by apply app_nil_r. rewrite blanks_adjustl by exact Hb. now split.
  - rewrite blanks_adjustl, adjustl_word, rtrim_word; try assumption; [|now apply word_end|apply Hw].
    split; [|discriminate]. destruct (is_word_cons w Hw) as (c & w' & -> & _). discriminate.
Qed.
Lemma str_app_length a b : String.length (a ++ b) = (String.length a + String.length b)%nat.
Proof. induction a; cbn; congruence. Qed.
Lemma words_length s ws : line_words s ws -> (List.length ws <= String.length s)%nat.
Proof.
  induction 1 as [b Hb|b w rest ws Hb Hw Hr H IH]; [cbn; lia|].
  rewrite !str_app_length. destruct (is_word_cons w Hw) as (c & w' & -> & _). cbn [List.length String.length]. lia.
Qed.
Lemma split_words s w ws : line_words s (w :: ws) ->
  exists rest, split_str s = (w, rtrim (adjustl rest)) /\ line_words rest ws.
Proof.
  intros H. inversion H as [|b w' rest ws' Hb Hw Hr H' E1 [E2 E3]]; subst.
  unfold split_str. rewrite blanks_adjustl, adjustl_word, word_split by assumption.
  destruct rest as [|c r]; [exists ""; now split|].
  exists r. split; [reflexivity|]. destruct Hr as [Hr|(r' & Hr)]; [discriminate Hr|].
  injection Hr as -> _. now apply words_tail with " "%char.
Qed.

(** ** parse_line_for_numbers *)
Section Parse.
  Context (read_int : string -> io Z).
  Lemma parse_words good bad ns : Forall2 (fun w n => read_int w = Value n) good ns ->
    (bad = [] \/ exists w r, bad = w :: r /\ read_int w = Failed) ->
    forall fuel s acc, (good ++ bad <> [])%list -> (List.length (good ++ bad) <= fuel)%nat ->
    line_words s (good ++ bad)%list ->
    parse_numbers read_int fuel s acc = (Z.of_nat (List.length (acc ++ ns)), acc ++ ns)%list.
  Proof.
    intros HF Hb. induction HF as [|w n good ns E HF IH]; intros fuel s acc NE Hf Hw.
    - cbn [app] in *. destruct Hb as [->|(w & r & -> & E)]; [now destruct NE|].
      destruct fuel as [|fuel]; [cbn in Hf; lia|].
      destruct (split_words s w r Hw) as (rest & Es & Hr). cbn [parse_numbers]. rewrite Es.
      destruct (String.eqb_spec w "") as [Q|_].
      { exfalso. inversion Hw as [|b w' rest' ws' _ Hw' _ _ E1 [E2 E3]]; subst. now apply Hw'. }
      rewrite E, List.app_nil_r. reflexivity.
    - cbn [app] in *. destruct fuel as [|fuel]; [cbn in Hf; lia|].
      destruct (split_words s w _ Hw) as (rest & Es & Hr). cbn [parse_numbers]. rewrite Es.
      destruct (String.eqb_spec w "") as [Q|_].
      { exfalso. inversion Hw as [|b w' rest' ws' _ Hw' _ _ E1 [E2 E3]]; subst. now apply Hw'. }
      rewrite E. destruct (String.eqb_spec (rtrim (adjustl rest)) "") as [Q|Q].
      + apply (words_empty _ _ Hr) in Q. apply app_eq_nil in Q. destruct Q as (-> & ->).
        inversion HF; subst. reflexivity.
      + rewrite IH.
        * now rewrite <- List.app_assoc.
        * intros Q'. apply Q. now apply (words_empty _ _ Hr).
        * cbn in Hf. lia.
        * apply words_rtrim, words_adjustl, Hr.
  Qed.
  Lemma parse_line good bad ns line : (String.length line <= 300)%nat ->
    line_words line (good ++ bad)%list -> Forall2 (fun w n => read_int w = Value n) good ns ->
    (bad = [] \/ exists w r, bad = w :: r /\ read_int w = Failed) ->
    parse_line_for_numbers read_int line = (Z.of_nat (List.length ns), ns).
  Proof.
    intros HL HW HF Hb. unfold parse_line_for_numbers, fixed. cbv zeta. rewrite substring_all by exact HL.
    apply words_rtrim in HW. set (s := rtrim line) in *. clearbody s.
    destruct (String.eqb_spec (rtrim (adjustl s)) "") as [E|N].
    - apply (words_empty _ _ HW) in E. apply app_eq_nil in E. destruct E as (-> & ->).
      inversion HF; subst. reflexivity.
    - pose proof (words_rtrim _ _ (words_adjustl _ _ HW)) as HW'.
      rewrite (parse_words good bad ns HF Hb _ _ []); [reflexivity| | |exact HW'].
      + intros Q. apply N. now apply (words_empty _ _ HW).
      + pose proof (words_length _ _ HW'). lia.
  Qed.
End Parse.

(** ** Types and positions *)
Lemma types_length concs i : Forall (Z.le 0) concs -> Z.of_nat (List.length (atom_types i concs)) = total concs.
Proof.
  intros H. revert i. induction H as [|c concs Hc H IH]; intros i; [reflexivity|].
  cbn [atom_types total fold_right]. fold (total concs). rewrite List.app_length, repeat_length, Nat2Z.inj_add, IH. lia.
Qed.
Lemma types_nth concs i j z : Forall (Z.le 0) concs -> (j < List.length concs)%nat ->
  (total (firstn j concs) <= Z.of_nat z < total (firstn (S j) concs))%Z ->
  nth_error (atom_types i concs) z = Some (i - 1 + Z.of_nat j)%Z.
Proof.
  intros H. revert i j z. induction H as [|c concs Hc H IH]; intros i j z Hj Hz; [cbn in Hj; lia|].
  cbn [atom_types]. destruct j as [|j].
  - cbn in Hz. rewrite nth_error_app1 by (rewrite repeat_length; clear - Hz; lia).
    rewrite nth_error_repeat by lia. f_equal. lia.
  - rewrite firstn_cons in Hz. change (firstn (S (S j)) (c :: concs)) with (c :: firstn (S j) concs) in Hz.
    cbn [total fold_right] in Hz. fold (total (firstn j concs)) (total (firstn (S j) concs)) in Hz.
    cbn in Hj. assert (Hn : (0 <= total (firstn j concs))%Z).
    { clear - H. revert j. induction H; intros [|j]; cbn; try lia. specialize (IHForall j). unfold total in *. lia. }
    rewrite nth_error_app2 by (rewrite repeat_length; lia). rewrite repeat_length.
    rewrite (IH (i + 1)%Z j) by lia. f_equal. lia.
Qed.

Lemma direct_position s lat kind x : is_cartesian kind = false -> atom_position s lat kind x = x.
Proof. unfold atom_position. now intros ->. Qed.
Lemma qmvec_inv M x : qdet M <> 0%Qc -> qmvec M (qmvec (qinv M) x) = x.
Proof.
  intros H. rewrite <- qmvec_mul, qinv_r by exact H. destruct x as [a b c].
  unfold qmvec, qid. cbn [q11 q12 q13 q21 q22 q23 q31 q32 q33 w1 w2 w3]. f_equal; ring.
Qed.
Lemma cartesian_position s lat kind x : is_cartesian kind = true -> s <> 0%Qc -> qdet lat <> 0%Qc ->
  qmvec (qscale s lat) (atom_position s lat kind x) = x.
Proof.
  intros E Hs Hd. unfold atom_position. rewrite E. apply qmvec_inv. rewrite (qdet_scale s lat).
  repeat apply Qc_mul_neq0; assumption.
Qed.

(** ** The whole file *)
Section File.
  Context (read_int : string -> io Z) (read_real : string -> io Qc)
          (read_3 : string -> io (Qc * Qc * Qc)).
  Lemma rows_read atoms xs rest : Forall2 (fun line x => read_3 line = Value x) atoms xs ->
    rows read_3 (List.length xs) (atoms ++ rest)%list = Some (map (fun '(x, y, z) => QVec x y z) xs).
  Proof.
    induction 1 as [|l x atoms xs E H IH]; [reflexivity|]. cbn [app List.length rows map].
    rewrite IH. unfold row. rewrite E. cbn [value]. destruct x as [[x y] z]. reflexivity.
  Qed.
  Lemma poscar_read title l l1 l2 l3 species counts kind atoms rest s a b c good bad ns xs :
    read_real l = Value s ->
    read_3 l1 = Value a -> read_3 l2 = Value b -> read_3 l3 = Value c ->
    (species = [] \/ exists line w r, species = [line] /\ (String.length line <= 300)%nat /\
       line_words line (w :: r) /\ read_int w = Failed) ->
    (String.length counts <= 300)%nat -> line_words counts (good ++ bad)%list ->
    Forall2 (fun w n => read_int w = Value n) good ns ->
    (bad = [] \/ exists w r, bad = w :: r /\ read_int w = Failed) ->
    ns <> [] -> Z.of_nat (List.length xs) = total ns ->
    Forall2 (fun line x => read_3 line = Value x) atoms xs ->
    let lat := qtr (QMat (fst (fst a)) (snd (fst a)) (snd a) (fst (fst b)) (snd (fst b)) (snd b)
                         (fst (fst c)) (snd (fst c)) (snd c)) in
    read_POSCAR read_int read_real read_3
      (title :: l :: l1 :: l2 :: l3 :: species ++ counts :: kind :: atoms ++ rest)%list =
    Some (Poscar s lat (atom_types 1 ns) (total ns)
            (map (fun '(x, y, z) => atom_position s lat kind (QVec x y z)) xs)).
  Proof.
    intros Es Ea Eb Ec Hsp HL HW HF Hbad Hns Hxs Hat. cbv zeta.
    pose proof (parse_line read_int good bad ns counts HL HW HF Hbad) as EP.
    destruct a as [[a1 a2] a3], b as [[b1 b2] b3], c as [[c1 c2] c3].
    assert (K : read_POSCAR read_int read_real read_3
      (title :: l :: l1 :: l2 :: l3 :: counts :: kind :: atoms ++ rest)%list =
      Some (Poscar s (QMat a1 b1 c1 a2 b2 c2 a3 b3 c3) (atom_types 1 ns) (total ns)
            (map (fun '(x, y, z) => atom_position s (QMat a1 b1 c1 a2 b2 c2 a3 b3 c3) kind (QVec x y z)) xs)) /\
      forall line w r, (String.length line <= 300)%nat -> line_words line (w :: r) -> read_int w = Failed ->
      read_POSCAR read_int read_real read_3
      (title :: l :: l1 :: l2 :: l3 :: line :: counts :: kind :: atoms ++ rest)%list =
      Some (Poscar s (QMat a1 b1 c1 a2 b2 c2 a3 b3 c3) (atom_types 1 ns) (total ns)
            (map (fun '(x, y, z) => atom_position s (QMat a1 b1 c1 a2 b2 c2 a3 b3 c3) kind (QVec x y z)) xs))).
    { assert (R : rows read_3 (Z.to_nat (n_atoms ns)) (atoms ++ rest)%list =
        Some (map (fun '(x, y, z) => QVec x y z) xs)).
      { change (n_atoms ns) with (total ns). rewrite <- Hxs, Nat2Z.id. now apply rows_read. }
      assert (E0 : Z.eqb (Z.of_nat (List.length ns)) 0 = false).
      { apply Z.eqb_neq. destruct ns; [now destruct Hns|cbn; lia]. }
      assert (M : forall lat, map (atom_position s lat kind) (map (fun '(x, y, z) => QVec x y z) xs) =
        map (fun '(x, y, z) => atom_position s lat kind (QVec x y z)) xs).
      { intros lat. rewrite map_map. apply map_ext. now intros [[x y] z]. }
      split.
      - unfold read_POSCAR, row. rewrite Es, Ea, Eb, Ec. cbn [value w1 w2 w3]. cbv zeta. rewrite EP, E0, R, M.
        rewrite Nat2Z.id, firstn_all. reflexivity.
      - intros line w r HL' HW' EF. unfold read_POSCAR, row. rewrite Es, Ea, Eb, Ec. cbn [value w1 w2 w3]. cbv zeta.
        rewrite (parse_line read_int [] (w :: r) [] line HL' HW' (Forall2_nil _)) by (right; now exists w, r).
        cbn [List.length Z.of_nat Z.eqb]. rewrite EP, R, M, Nat2Z.id, firstn_all. reflexivity. }
    destruct K as (K1 & K2). unfold qtr. cbn [q11 q12 q13 q21 q22 q23 q31 q32 q33 fst snd].
    destruct Hsp as [->|(line & w & r & -> & H1 & H2 & H3)]; cbn [app]; [exact K1|exact (K2 line w r H1 H2 H3)].
  Qed.
End File.

(** ** Two deviations *)
Lemma scaled_wrong s lat kind x : is_cartesian kind = true -> s <> 0%Qc -> s <> 1%Qc -> qdet lat <> 0%Qc ->
  x <> QVec 0 0 0 ->
  qmvec (qscale s lat) (atom_position s lat kind x) <> QVec (s * w1 x) (s * w2 x) (s * w3 x).
Proof.
  intros HC Hs H1 Hd Hx. rewrite cartesian_position by assumption. intros E.
  assert (S : (s - 1 <> 0)%Qc).
  { intros Q. apply H1. replace s with (s - 1 + 1)%Qc by ring. rewrite Q. ring. }
  assert (Z : forall y, y = (s * y)%Qc -> y = 0%Qc).
  { intros y Hy. destruct (Qc_eq_dec y 0) as [|N]; [assumption|exfalso].
    apply (Qc_mul_neq0 _ _ S N). transitivity (s * y - y)%Qc; [ring|]. rewrite <- Hy. ring. }
  destruct x as [x y z]. cbn [w1 w2 w3] in E. apply Hx.
  pose proof (f_equal w1 E) as E1. pose proof (f_equal w2 E) as E2. pose proof (f_equal w3 E) as E3.
  cbn [w1 w2 w3] in E1, E2, E3. now rewrite (Z _ E1), (Z _ E2), (Z _ E3).
Qed.
Lemma negative_count : (total [3; -1] < Z.of_nat (List.length (atom_types 1 [3; -1])))%Z.
Proof. reflexivity. Qed.
Lemma types_spec concs : Forall (Z.le 0) concs ->
  Z.of_nat (List.length (atom_types 1 concs)) = total concs /\
  forall j z, (j < List.length concs)%nat ->
    (total (firstn j concs) <= Z.of_nat z < total (firstn (S j) concs))%Z ->
    nth_error (atom_types 1 concs) z = Some (Z.of_nat j).
Proof. intros H. split; [now apply types_length|]. intros j z Hj Hz. now apply (types_nth concs 1 j z). Qed.
Lemma positions s lat kind x : s <> 0%Qc -> qdet lat <> 0%Qc ->
  if is_cartesian kind then qmvec (qscale s lat) (atom_position s lat kind x) = x
  else atom_position s lat kind x = x.
Proof.
  intros Hs Hd. destruct (is_cartesian kind) eqn:E; [now apply cartesian_position|now apply direct_position].
Qed.
