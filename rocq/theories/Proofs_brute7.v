(** io_utils.f90: what is read from a file without comments. *)
From Coq Require Import ZArith QArith Qcanon List Bool Lia Ascii String.
From Verif Require Import Mat3 QMat QNum Model_control Model_driver Model_sp_hnfs Model_brute_main Spec_brute_main Proofs_driver Proofs_brute5 Proofs_brute6.
Import ListNotations.
Open Scope string_scope.

(** ** Text *)
Lemma blank_false c : c <> " "%char -> blank c = false.
Proof. intros H. destruct (blank c) eqn:E; [|reflexivity]. now apply blank_true in E. Qed.
Lemma free_trim s : free_of [" "%char] s -> rtrim s = s.
Proof.
  induction s as [|c s IH]; [reflexivity|]. intros (H & F). rewrite rtrim_cons, (IH F), blank_false; [reflexivity|].
  intros E. apply H. now left.
Qed.
Lemma trim_app a s : rtrim s <> "" -> rtrim (a ++ s) = a ++ rtrim s.
Proof.
  intros N. induction a as [|c a IH]; [reflexivity|]. cbn [append]. rewrite rtrim_cons, IH.
  destruct (String.eqb_spec (a ++ rtrim s) "") as [E|E]; [|now rewrite andb_false_r].
  destruct a; [contradiction|discriminate].
Qed.
Lemma adjustl_free s r : s <> "" -> free_of [" "%char] s -> adjustl (s ++ r) = s ++ r.
Proof.
  destruct s as [|c s]; [easy|]. intros _ (H & _). cbn [append adjustl]. rewrite blank_false; [reflexivity|].
  intros E. apply H. now left.
Qed.
Lemma word_free s r : free_of [" "%char] s -> word (s ++ " " ++ r) = (s, r).
Proof.
  induction s as [|c s IH]; [reflexivity|]. intros (H & F). cbn [append word]. rewrite blank_false; [|intros E; apply H; now left].
  change (word (s ++ String " " r)) with (word (s ++ " " ++ r)). now rewrite (IH F).
Qed.
Lemma substring_all s : forall n, (String.length s <= n)%nat -> substring 0 n s = s.
Proof.
  induction s as [|c s IH]; intros [|n] H; cbn in *; try reflexivity; [lia|]. f_equal. apply IH. lia.
Qed.
Lemma upto_free c s : free_of [c] s -> upto c s = s.
Proof.
  induction s as [|d s IH]; [reflexivity|]. intros (H & F). cbn [upto]. destruct (Ascii.eqb_spec d c) as [E|E].
  - exfalso. apply H. left. now symmetry.
  - now rewrite (IH F).
Qed.
Lemma upto_app c s r : free_of [c] s -> upto c (s ++ String c r) = s.
Proof.
  induction s as [|d s IH]; [intros _; cbn; now rewrite Ascii.eqb_refl|]. intros (H & F). cbn [append upto].
  destruct (Ascii.eqb_spec d c) as [E|E].
  - exfalso. apply H. left. now symmetry.
  - now rewrite (IH F).
Qed.
Lemma free_app bad a b : free_of bad a -> free_of bad b -> free_of bad (a ++ b).
Proof. induction a as [|c a IH]; cbn; [tauto|]. intros (H & F) G. split; [exact H|now apply IH]. Qed.
Lemma free_less bad good s : incl good bad -> free_of bad s -> free_of good s.
Proof. intros I. induction s as [|c s IH]; cbn; [tauto|]. intros (H & F). split; [intros K; apply H; now apply I|now apply IH]. Qed.
Lemma substring_drop t : forall r n, (String.length r <= n)%nat -> substring (String.length t) n (t ++ r) = r.
Proof.
  induction t as [|c t IH]; intros r n H; cbn [append String.length]; [now apply substring_all|]. cbn [substring]. now apply IH.
Qed.
Lemma slength a b : String.length (a ++ b) = (String.length a + String.length b)%nat.
Proof. induction a as [|c a IH]; cbn; [reflexivity|now rewrite IH]. Qed.

Lemma substring_drop1 t c r n : (String.length r <= n)%nat -> substring (S (String.length t)) n (t ++ String c r) = r.
Proof.
  intros H. pose proof (substring_drop (t ++ String c "") r n H) as K.
  rewrite slength in K. cbn [String.length] in K. rewrite Nat.add_comm in K. rewrite sapp_assoc in K. exact K.
Qed.

Section input.
  Context (read_int : string -> io Z) (read_2 : string -> io (Z * Z)) (read_i3 : string -> io (Z * Z * Z))
          (read_ints : nat -> string -> io (list Z)) (read_real : string -> io Qc)
          (read_3 : string -> io (Qc * Qc * Qc)) (read_word : string -> io string) (flat : Qc -> Qc -> Qc -> bool).

  (** ** Labels *)
  Definition label_text (t : string) (l : Z) : Prop :=
    t <> "" /\ free_of [" "; "/"; "#"]%char t /\ forall r, read_int (t ++ "/" ++ r) = Value l.
  Lemma slashed_cons t u ts : slashed (t :: u :: ts) = t ++ "/" ++ slashed (u :: ts).
  Proof. reflexivity. Qed.
  Lemma slashed_free ts ls bad : incl bad [" "; "#"]%char -> Forall2 label_text ts ls -> free_of bad (slashed ts).
  Proof.
    intros B F. induction F as [|t l ts ls (N & H & R) F IH]; [exact I|]. destruct ts as [|u ts].
    - apply (free_less [" "; "/"; "#"]%char); [|exact H]. intros x I. apply B in I. destruct I as [<-|[<-|[]]]; cbn; auto.
    - rewrite slashed_cons. apply free_app; [|apply free_app; [|exact IH]].
      + apply (free_less [" "; "/"; "#"]%char); [|exact H]. intros x I. apply B in I. destruct I as [<-|[<-|[]]]; cbn; auto.
      + split; [|exact I]. intros K. apply B in K. destruct K as [K|[K|[]]]; discriminate K.
  Qed.
  Lemma slashed_nonempty ts ls : ts <> [] -> Forall2 label_text ts ls -> slashed ts <> "".
  Proof.
    intros N F. destruct F as [|t l ts ls (Nt & _) F]; [contradiction|]. destruct ts; [exact Nt|].
    rewrite slashed_cons. destruct t; [contradiction|discriminate].
  Qed.
  Lemma get_labels_read k ls : Forall (fun i => 0 <= i < k)%Z ls -> forall ts n, ts <> [] -> Forall2 label_text ts ls ->
    (List.length ls <= n)%nat -> get_labels read_int n k (slashed ts ++ "/") = Ok (ls, true).
  Proof.
    intros HK. induction HK as [|l ls Hl HK IH]; intros ts n N F Hn; [inversion F; now subst|].
    inversion F as [|t ? ts' ? (Nt & Ft & Rt) F']; subst. destruct n as [|n]; [cbn in Hn; lia|]. cbn [List.length] in Hn.
    assert (FS : free_of ["/"%char] t) by (apply (free_less [" "; "/"; "#"]%char); [intros x [<-|[]]; cbn; auto|exact Ft]).
    set (r := match ts' with [] => "" | _ => slashed ts' ++ "/" end).
    assert (E : slashed (t :: ts') ++ "/" = t ++ String "/" r).
    { unfold r. destruct ts' as [|u ts']; [reflexivity|]. rewrite slashed_cons, sapp_assoc. reflexivity. }
    rewrite E. cbn [get_labels]. rewrite (upto_app _ _ r FS).
    assert (NE : String.eqb t (t ++ String "/" r) = false).
    { apply String.eqb_neq. intros K. apply (f_equal String.length) in K. rewrite slength in K. cbn in K. lia. }
    rewrite NE. change (t ++ String "/" r) with (t ++ "/" ++ r). rewrite (Rt r). cbv zeta.
    replace ((k - 1 <? l)%Z || (l <? 0)%Z)%bool with false by (symmetry; apply orb_false_iff; split; apply Z.ltb_ge; lia).
    change (t ++ "/" ++ r) with (t ++ String "/" r).
    rewrite (substring_drop1 t "/" r) by (rewrite slength; cbn; lia).
    assert (T : rtrim (adjustl r) = r).
    { unfold r. destruct ts' as [|u ts']; [reflexivity|].
      assert (SF : free_of [" "%char] (slashed (u :: ts'))) by (apply (slashed_free _ ls); [intros x [<-|[]]; cbn; auto|exact F']).
      rewrite adjustl_free; [|apply (slashed_nonempty _ ls); [discriminate|exact F']|exact SF].
      apply free_trim. apply free_app; [exact SF|]. split; [intros [K|[]]; discriminate K|exact I]. }
    rewrite T. unfold r. destruct ts' as [|u ts'].
    - inversion F'; subst. reflexivity.
    - assert (X : String.eqb (slashed (u :: ts') ++ "/") "" = false).
      { apply String.eqb_neq. intros K. apply (f_equal String.length) in K. rewrite slength in K. cbn in K. lia. }
      rewrite X, (IH (u :: ts') n); [reflexivity|discriminate|exact F'|lia].
  Qed.
  Lemma rest_trim b r : r <> "" -> free_of [" "%char] r -> rtrim (b ++ r) = b ++ r.
  Proof. intros N F. rewrite trim_app; rewrite (free_trim r F); [reflexivity|exact N]. Qed.
  Lemma adjustl_blanks n s : adjustl (blanks n ++ s) = adjustl s.
  Proof. induction n as [|n IH]; [reflexivity|exact IH]. Qed.
  Lemma rtrim_idem s : rtrim (rtrim s) = rtrim s.
  Proof.
    induction s as [|c s IH]; [reflexivity|]. rewrite rtrim_cons. destruct (blank c && _)%bool eqn:E; [reflexivity|].
    now rewrite rtrim_cons, IH, E.
  Qed.
  Lemma trim_free s r : s <> "" -> free_of [" "%char] s -> rtrim (s ++ r) = s ++ rtrim r.
  Proof.
    intros N F. induction s as [|c s IH]; [contradiction|]. destruct F as (H & F). cbn [append]. rewrite rtrim_cons.
    rewrite (blank_false c) by (intros E; apply H; now left). cbn [andb]. f_equal. destruct s as [|d s]; [reflexivity|].
    apply IH; [discriminate|exact F].
  Qed.
  Lemma upto_free_app c s r : free_of [c] s -> upto c (s ++ r) = s ++ upto c r.
  Proof.
    induction s as [|d s IH]; [reflexivity|]. intros (H & F). cbn [append upto]. destruct (Ascii.eqb_spec d c) as [E|E].
    - exfalso. apply H. left. now symmetry.
    - now rewrite (IH F).
  Qed.
  Lemma blanks_free n : free_of ["#"%char] (blanks n).
  Proof. induction n as [|n IH]; [exact I|]. split; [intros [K|[]]; discriminate K|exact IH]. Qed.
  Lemma tail_upto n comment : (comment = "" \/ exists r, comment = "#" ++ r) ->
    exists m, upto "#" (rtrim (blanks n ++ comment)) = blanks m.
  Proof.
    intros [->|(r & ->)].
    - exists 0%nat. rewrite sapp_nil. now rewrite (proj2 (rtrim_blanks (blanks n)) (ex_intro _ n eq_refl)).
    - exists n. assert (E : rtrim ("#" ++ r) = "#" ++ rtrim r) by (cbn [append]; now rewrite rtrim_cons).
      rewrite trim_app; rewrite E; [|discriminate]. rewrite (upto_free_app _ _ _ (blanks_free n)). cbn. apply sapp_nil.
  Qed.
  Lemma length_trim s : (String.length (rtrim s) <= String.length s)%nat.
  Proof. induction s as [|c s IH]; [cbn; lia|]. rewrite rtrim_cons. destruct (_ && _)%bool; cbn [String.length]; lia. Qed.
  (** One coordinate: the word, blanks and a rest that starts with no blank. *)
  Lemma coordinate_read a n r x : free_of [" "%char] a -> adjustl r = r -> rtrim r = r ->
    (forall r, read_real (a ++ " " ++ r) = Value x) -> coordinate read_real (a ++ " " ++ blanks n ++ r) = Ok (x, r).
  Proof.
    intros F A T R. unfold coordinate. now rewrite R, (word_free a _ F); cbn [snd]; rewrite adjustl_blanks, A, T.
  Qed.
  Lemma d_vector_read k line x ls : d_line read_int read_real line x ls -> Forall (fun i => 0 <= i < k)%Z ls ->
    (Z.of_nat (List.length ls) <= k)%Z -> d_vector read_int read_real k line = Ok (x, ls, Z.of_nat (List.length ls)).
  Proof.
    intros (a & b & c & ts & n0 & n1 & n2 & n3 & n4 & comment & E & HC & L & Na & Nb & Nc & Nt & Fa & Fb & Fc & Ra & Rb & Rc & FT) HK HL.
    pose proof (slashed_nonempty ts ls Nt FT) as NS.
    assert (FS : free_of [" "%char] (slashed ts)) by (apply (slashed_free _ ls); [intros y [<-|[]]; cbn; auto|exact FT]).
    assert (FH : free_of ["#"%char] (slashed ts)) by (apply (slashed_free _ ls); [intros y [<-|[]]; cbn; auto|exact FT]).
    unfold d_vector. cbv zeta. set (tail := rtrim (blanks n4 ++ comment)).
    set (r3 := slashed ts ++ tail). set (r2 := c ++ " " ++ blanks n3 ++ r3). set (r1 := b ++ " " ++ blanks n2 ++ r2).
    assert (N3 : r3 <> "") by (unfold r3; destruct (slashed ts); [contradiction|discriminate]).
    assert (T3 : rtrim r3 = r3) by (unfold r3; rewrite (trim_free _ _ NS FS); unfold tail; now rewrite rtrim_idem).
    assert (T2 : rtrim r2 = r2) by (unfold r2; rewrite <- !sapp_assoc, trim_app; rewrite T3; [reflexivity|exact N3]).
    assert (T1 : rtrim r1 = r1).
    { unfold r1. rewrite <- !sapp_assoc, trim_app; rewrite T2; [reflexivity|]. unfold r2. destruct c; [contradiction|discriminate]. }
    assert (N1 : r1 <> "") by (unfold r1; destruct b; [contradiction|discriminate]).
    assert (T : rtrim (adjustl (fixed 100 line)) = a ++ " " ++ blanks n1 ++ r1).
    { unfold fixed. rewrite substring_all by lia.
      assert (RT : rtrim line = blanks n0 ++ a ++ " " ++ blanks n1 ++ r1).
      { assert (E2 : line = (blanks n0 ++ a ++ " " ++ blanks n1 ++ b ++ " " ++ blanks n2 ++ c ++ " " ++ blanks n3) ++
                     slashed ts ++ blanks n4 ++ comment) by (rewrite E, !sapp_assoc; reflexivity).
        rewrite E2, trim_app; rewrite (trim_free _ _ NS FS); fold tail; fold r3; [|exact N3].
        unfold r1, r2. now rewrite !sapp_assoc. }
      rewrite RT, adjustl_blanks, (adjustl_free a _ Na Fa). rewrite <- !sapp_assoc, trim_app; rewrite T1; [reflexivity|exact N1]. }
    rewrite T, (coordinate_read a n1 r1 (w1 x) Fa (adjustl_free b _ Nb Fb) T1 Ra). cbn [bind].
    unfold r1. rewrite (coordinate_read b n2 r2 (w2 x) Fb (adjustl_free c _ Nc Fc) T2 Rb). cbn [bind].
    unfold r2. rewrite (coordinate_read c n3 r3 (w3 x) Fc (adjustl_free _ _ NS FS) T3 Rc). cbn [bind].
    rewrite substring_all.
    2:{ unfold r3. rewrite slength. pose proof (length_trim (blanks n4 ++ comment)) as LT. fold tail in LT.
        rewrite slength in LT. rewrite E, !slength in L. cbn in L. lia. }
    unfold r3. rewrite (upto_free_app _ _ _ FH). destruct (tail_upto n4 comment HC) as (m & Em). fold tail in Em. rewrite Em.
    rewrite (trim_free _ _ NS FS), (proj2 (rtrim_blanks (blanks m)) (ex_intro _ m eq_refl)), sapp_nil.
    rewrite (get_labels_read k ls HK ts _ Nt FT) by lia. cbn [bind]. destruct x; reflexivity.
  Qed.

  (** ** The file *)
  Lemma co_ca_item l rest : ~ blank_or_comment l -> co_ca (l :: rest) = l :: rest.
  Proof. intros H. cbn [co_ca]. destruct (passed l) eqn:E; [apply passed_iff in E; contradiction|reflexivity]. Qed.
  Lemma read_line_item {A} (read : string -> io A) l rest v : ~ blank_or_comment l -> read l = Value v ->
    read_line read (l :: rest) = Ok (v, rest).
  Proof. intros H E. unfold read_line. now rewrite (co_ca_item l rest H), E. Qed.
  Lemma few_labels k ls : NoDup ls -> Forall (fun i => 0 <= i < k)%Z ls -> (Z.of_nat (List.length ls) <= Z.max 0 k)%Z.
  Proof.
    intros N F. rewrite <- (zseq_length 0 (Z.max 0 k)) by lia. apply inj_le. apply NoDup_incl_length; [exact N|].
    intros x I. rewrite Forall_forall in F. specialize (F x I). apply in_zseq. lia.
  Qed.
  Lemma d_vectors_read k dl ds : Forall2 (fun l d => d_line read_int read_real l (fst d) (snd d)) dl ds ->
    Forall (fun l => ~ blank_or_comment l) dl -> Forall (fun d => NoDup (snd d) /\ Forall (fun i => 0 <= i < k)%Z (snd d)) ds ->
    (0 <= k)%Z -> forall rest,
    d_vectors read_int read_real (List.length dl) k (dl ++ rest)%list =
    Ok (map (fun d => (fst d, snd d, Z.of_nat (List.length (snd d)))) ds, rest).
  Proof.
    intros F B G Hk rest. induction F as [|l (x, ls) dl ds H F IH]; [reflexivity|].
    inversion B as [|? ? B1 B2]; subst. inversion G as [|? ? (G1 & G2) G3]; subst. cbn [fst snd] in *.
    cbn [List.length app d_vectors]. rewrite (co_ca_item l _ B1), (d_vector_read k l x ls H G2).
    - cbn [bind]. rewrite (IH B2 G3). reflexivity.
    - pose proof (few_labels k ls G1 G2). lia.
  Qed.
  Lemma in_range0 k i : In i (do_range 0 (k - 1) 1) <-> (0 <= i < k)%Z.
  Proof. apply FortFacts.in_do_range1. Qed.
  Lemma labels_used k labels : good_labels k labels -> all_used k labels = true.
  Proof.
    intros (_ & H). apply forallb_forall. intros i Hi. apply in_range0 in Hi. destruct (H i Hi) as (l & Hl & Hil).
    apply existsb_exists. exists i. split; [apply in_concat; now exists l|apply Z.eqb_refl].
  Qed.
  Lemma labels_once k labels : good_labels k labels -> none_twice k labels = true.
  Proof.
    intros (H & _). apply forallb_forall. intros l Hl. apply forallb_forall. intros i _. apply Nat.leb_le.
    rewrite Forall_forall in H. destruct (H l Hl) as (N & _). now apply NoDup_count_occ.
  Qed.
  Lemma get_ranges_read ranges rs : Forall2 (range_line read_i3) ranges rs -> Forall (fun l => ~ blank_or_comment l) ranges ->
    forall rest, get_ranges read_i3 (List.length rs) (ranges ++ rest)%list = Some rs.
  Proof.
    intros F. induction F as [|l r ranges rs H F IH]; intros B rest; [reflexivity|].
    inversion B as [|? ? B1 B2]; subst. cbn [List.length app get_ranges]. rewrite (co_ca_item l _ B1).
    destruct r as ((a, b), c). destruct H as (-> & _). now rewrite (IH B2).
  Qed.
  Lemma ranges_ok ranges rs : Forall2 (range_line read_i3) ranges rs -> forallb range_ok rs = true.
  Proof.
    intros F. induction F as [|l r ranges rs H F IH]; [reflexivity|]. cbn [forallb]. rewrite IH, andb_true_r.
    destruct r as ((a, b), c). destruct H as (_ & H1 & H2). unfold range_ok. rewrite !andb_true_iff, !Z.leb_le. lia.
  Qed.
  Lemma eq_numbers n : do_range 1 (Z.of_nat n) 1 = map Z.of_nat (seq 1 n).
  Proof.
    unfold do_range, PyNum.py_range. replace (Z.to_nat ((Z.of_nat n + 1 - 1 + 1 - 1) / 1)) with n by (rewrite Z.div_1_r; lia).
    rewrite <- seq_shift, map_map. apply map_ext. intros i. lia.
  Qed.
  Lemma is_E w (X : Type) (a b : X) : starts_with ["e"; "E"] w ->
    match ucase (fixed 100 w) with String "E" _ => a | _ => b end = a.
  Proof.
    intros (v & r & I & ->). unfold fixed.
    repeat (destruct I as [<-|I]; [cbn [append substring]; rewrite rtrim_cons; reflexivity|]). destruct I.
  Qed.
  Lemma not_E w (X : Type) (a b : X) : ~ starts_with ["e"; "E"] w ->
    match ucase (fixed 100 w) with String "E" _ => a | _ => b end = b.
  Proof.
    intros H. destruct w as [|c w]; [reflexivity|].
    assert (N : c <> "e"%char /\ c <> "E"%char).
    { split; intros ->; apply H; [exists "e", w|exists "E", w]; cbn; auto. }
    assert (U : upper c <> "E"%char).
    { destruct N as (N1 & N2). clear - N1 N2. intros K. revert N1 N2 K.
      destruct c as [[] [] [] [] [] [] [] []]; vm_compute; intros; congruence. }
    unfold fixed. cbn [substring]. rewrite rtrim_cons. destruct (blank c && _)%bool; [reflexivity|].
    cbn [ucase]. clear - U. destruct (upper c) as [[] [] [] [] [] [] [] []]; try reflexivity. exfalso. now apply U.
  Qed.

  Lemma kind_word (surface : bool) s :
    starts_with (if surface then ["surf"; "Surf"; "SURF"] else ["bulk"; "Bulk"; "BULK"]) s ->
    ucase (fixed 4 s) = if surface then "SURF" else "BULK".
  Proof.
    intros (w & r & I & ->). unfold fixed.
    destruct surface; repeat (destruct I as [<-|I]; [destruct r; reflexivity|]); destruct I.
  Qed.
  Lemma mode_word (full : bool) s :
    starts_with (if full then ["full"; "Full"; "FULL"] else ["part"; "Part"; "PART"]) s ->
    fixed 4 (ucase (adjustl (fixed 80 s))) = if full then "FULL" else "PART".
  Proof.
    intros (w & r & I & ->). unfold fixed.
    destruct full; repeat (destruct I as [<-|I]; [cbn [append substring]; rewrite !rtrim_cons; cbn [blank Ascii.eqb Bool.eqb andb adjustl ucase];
       cbn [substring]; destruct (ucase _); reflexivity|]); destruct I.
  Qed.

  Let input := read_input read_int read_2 read_i3 read_ints read_real read_3 read_word flat.
  Lemma get_eq_read el dl eqs sizes rest :
    equivalences read_ints read_word el (List.length dl) sizes eqs -> Forall (fun l => ~ blank_or_comment l) (el ++ [sizes])%list ->
    get_eq read_ints read_word (Z.of_nat (@List.length string dl)) ((el ++ [sizes]) ++ rest)%list = Ok (eqs, sizes :: rest).
  Proof.
    intros H B. unfold get_eq. destruct H as [(-> & w & RW & NW & ->)|(l1 & l2 & w & -> & RW & EW & RE)].
    - cbn [app] in *. inversion B as [|? ? B1 B2]; subst. rewrite (read_line_item _ sizes _ _ B1 RW). cbn [bind].
      now rewrite (not_E w _ _ _ NW), (co_ca_item sizes _ B1), eq_numbers.
    - cbn [app] in *. inversion B as [|? ? B1 B']; subst. inversion B' as [|? ? B2 B3]; subst.
      rewrite (read_line_item _ l1 _ _ B1 RW). cbn [bind]. rewrite (is_E w _ _ _ EW), Nat2Z.id.
      exact (read_line_item _ l2 _ _ B2 RE).
  Qed.
  Lemma no_ranges n : n <> 0%nat -> get_ranges read_i3 n [] = None.
  Proof. now destruct n. Qed.
  Lemma zero_ranges n : forallb range_ok (repeat (0, 0, 0)%Z n) = true.
  Proof. induction n as [|n IH]; [reflexivity|exact IH]. Qed.
  Lemma input_read title kind t1 t2 t3 tk tn dl el sizes te mode ranges a b c k ds eqs nmin nmax eps m (surface full conc : bool) rs rest :
    let items := ([title; kind; t1; t2; t3; tk; tn] ++ dl ++ (el ++ [sizes]) ++ [te; mode] ++ ranges)%list in
    Forall (fun l => ~ blank_or_comment l) items ->
    starts_with (if surface then ["surf"; "Surf"; "SURF"] else ["bulk"; "Bulk"; "BULK"]) kind ->
    (surface = true -> flat (w2 a) (w3 a) eps = true) ->
    read_3 t1 = Value (w1 a, w2 a, w3 a) -> read_3 t2 = Value (w1 b, w2 b, w3 b) -> read_3 t3 = Value (w1 c, w2 c, w3 c) ->
    read_int tk = Value k -> (0 < k)%Z -> read_int tn = Value (Z.of_nat (List.length dl)) ->
    Forall2 (fun l d => d_line read_int read_real l (fst d) (snd d)) dl ds -> good_labels k (map snd ds) ->
    equivalences read_ints read_word el (List.length dl) sizes eqs -> read_2 sizes = Value (nmin, nmax) ->
    read_real te = Value eps -> read_word mode = Value m -> starts_with (if full then ["full"; "Full"; "FULL"] else ["part"; "Part"; "PART"]) m ->
    (if conc then Forall2 (range_line read_i3) ranges rs /\ Z.of_nat (List.length rs) = k
     else ranges = [] /\ rest = [] /\ rs = repeat (0, 0, 0)%Z (Z.to_nat k)) ->
    input (items ++ rest)%list =
    Ok (EnumInput (fixed 80 title) (if surface then 2 else 3)
          (QMat (w1 a) (w1 b) (w1 c) (w2 a) (w2 b) (w2 c) (w3 a) (w3 b) (w3 c))
          k (map fst ds) (map snd ds) (map (fun d => Z.of_nat (List.length (snd d))) ds) eqs nmin nmax eps full conc rs).
  Proof.
    intros items HB HK HS R1 R2 R3 Rk Hk Rn FD GL HE R22 RE RM KM HR. subst items.
    apply Forall_app in HB as (HB & HB4). apply Forall_app in HB4 as (HD & HB4). apply Forall_app in HB4 as (HBe & HB4).
    apply Forall_app in HB4 as (HB2 & HBR).
    rewrite !Forall_cons_iff in HB. destruct HB as (B1 & B2 & B3 & B4 & B5 & B6 & B7 & _).
    rewrite !Forall_cons_iff in HB2. destruct HB2 as (B9 & B10 & _).
    assert (B8 : ~ blank_or_comment sizes) by (apply Forall_app in HBe as (_ & HBe); now inversion HBe).
    rewrite <- (app_assoc _ _ rest), <- (app_assoc dl _ rest), <- (app_assoc (el ++ [sizes])%list _ rest), <- (app_assoc _ ranges rest).
    cbn [app]. unfold input, read_input.
    rewrite (co_ca_item title _ B1), (co_ca_item kind _ B2). cbv zeta.
    rewrite (read_line_item _ t1 _ _ B3 R1). cbn [bind]. rewrite (read_line_item _ t2 _ _ B4 R2). cbn [bind].
    rewrite (read_line_item _ t3 _ _ B5 R3). cbn [bind]. rewrite (read_line_item _ tk _ _ B6 Rk). cbn [bind].
    rewrite (read_line_item _ tn _ _ B7 Rn). cbn [bind]. rewrite Nat2Z.id.
    rewrite (d_vectors_read k dl ds FD HD).
    2:{ destruct GL as (GL & _). rewrite Forall_map in GL. exact GL. }
    2: lia.
    cbn [bind].
    assert (EL : map (fun '(_, l, _) => l) (map (fun d : qvec * list Z => (fst d, snd d, Z.of_nat (List.length (snd d)))) ds) = map snd ds)
      by (rewrite map_map; reflexivity).
    rewrite EL, (labels_used _ _ GL), (labels_once _ _ GL). cbn [check bind].
    rewrite (get_eq_read el dl eqs sizes _ HE HBe). cbn [bind]. rewrite (read_line_item _ sizes _ _ B8 R22). cbn [bind].
    rewrite (read_line_item _ te _ _ B9 RE). cbn [bind]. rewrite (read_line_item _ mode _ _ B10 RM). cbn [bind].
    rewrite (kind_word surface kind HK), (mode_word full m KM).
    assert (EK : (if String.eqb (if surface then "SURF" else "BULK") "SURF" then bind (check (flat (w2 a) (w3 a) eps)) (fun _ => Ok 2%Z)
                  else if String.eqb (if surface then "SURF" else "BULK") "BULK" then Ok 3%Z else Stopped) = Ok (if surface then 2 else 3)%Z)
      by (destruct surface; [rewrite (HS eq_refl)|]; reflexivity).
    rewrite EK. cbn [bind].
    assert (EF : (if String.eqb (if full then "FULL" else "PART") "FULL" then Ok true
                  else if String.eqb (if full then "FULL" else "PART") "PART" then Ok false else Stopped) = Ok full)
      by now destruct full.
    rewrite EF. cbn [bind]. destruct conc.
    - destruct HR as (FR & LR). rewrite <- LR, Nat2Z.id, (get_ranges_read ranges rs FR HBR), (ranges_ok ranges rs FR). cbn [check bind].
      rewrite !map_map. reflexivity.
    - destruct HR as (-> & -> & ->). cbn [app]. rewrite (no_ranges (Z.to_nat k)) by lia. rewrite zero_ranges. cbn [check bind].
      rewrite !map_map. reflexivity.
  Qed.
  (** ** What has been checked *)
  Lemma get_labels_checked k : forall n line l e, get_labels read_int n k line = Ok (l, e) -> Forall (fun i => 0 <= i < k)%Z l.
  Proof.
    induction n as [|n IH]; intros line l e; cbn [get_labels]; [intros [= <- <-]; constructor|].
    destruct (String.eqb _ line); [discriminate|]. cbv zeta.
    assert (K : forall x, (if ((k - 1 <? x)%Z || (x <? 0)%Z)%bool then Stopped else
        if String.eqb (rtrim (adjustl (substring (S (String.length (upto "/" line))) (String.length line) line))) "" then Ok ([x], true)
        else bind (get_labels read_int n k (rtrim (adjustl (substring (S (String.length (upto "/" line))) (String.length line) line))))
               (fun '(l, e) => Ok (x :: l, e))) = Ok (l, e) -> Forall (fun i => 0 <= i < k)%Z l).
    { intros x. destruct (_ || _)%bool eqn:R; [discriminate|]. apply orb_false_iff in R. rewrite !Z.ltb_ge in R.
      destruct (String.eqb _ ""); [intros [= <- <-]; constructor; [lia|constructor]|].
      destruct (get_labels _ n k _) as [| |(l', e')] eqn:G; cbn [bind]; try discriminate. intros [= <- <-].
      constructor; [lia|exact (IH _ _ _ G)]. }
    destruct (read_int line); [apply K|apply K|discriminate].
  Qed.
  Lemma d_vectors_checked k : forall n lines ds rest, d_vectors read_int read_real n k lines = Ok (ds, rest) ->
    List.length ds = n /\ Forall (fun d => Forall (fun i => 0 <= i < k)%Z (snd (fst d))) ds.
  Proof.
    induction n as [|n IH]; intros lines ds rest; cbn [d_vectors]; [intros [= <- <-]; repeat constructor|].
    destruct (co_ca lines) as [|line r]; [discriminate|].
    destruct (d_vector read_int read_real k line) as [| |d] eqn:D; cbn [bind]; try discriminate.
    destruct (d_vectors read_int read_real n k r) as [| |(ds', r')] eqn:Ds; cbn [bind]; try discriminate. intros [= <- <-].
    destruct (IH _ _ _ Ds) as (<- & F). split; [reflexivity|]. constructor; [|exact F].
    unfold d_vector in D. cbv zeta in D.
    destruct (coordinate read_real _) as [| |(x, l1)]; cbn [bind] in D; try discriminate.
    destruct (coordinate read_real l1) as [| |(y, l2)]; cbn [bind] in D; try discriminate.
    destruct (coordinate read_real l2) as [| |(z, l3)]; cbn [bind] in D; try discriminate.
    destruct (get_labels read_int _ k _) as [| |(ls, e)] eqn:G; cbn [bind] in D; try discriminate.
    injection D as <-. exact (get_labels_checked k _ _ _ _ G).
  Qed.
  Lemma labels_checked k labels : Forall (Forall (fun i => 0 <= i < k)%Z) labels -> all_used k labels = true -> none_twice k labels = true ->
    good_labels k labels.
  Proof.
    intros F U T. unfold all_used in U. unfold none_twice in T. rewrite forallb_forall in U, T. split.
    - apply Forall_forall. intros l Hl. split; [|rewrite Forall_forall in F; exact (F l Hl)].
      apply (NoDup_count_occ Z.eq_dec). intros i. specialize (T l Hl). rewrite forallb_forall in T.
      destruct (in_dec Z.eq_dec i l) as [I|I].
      + rewrite Forall_forall in F. pose proof (F l Hl) as G. rewrite Forall_forall in G. specialize (G i I).
        apply Nat.leb_le, T, in_range0. exact G.
      + apply (count_occ_not_In Z.eq_dec) in I. rewrite I. lia.
    - intros i Hi. specialize (U i (proj2 (in_range0 k i) Hi)). apply existsb_exists in U as (j & Hj & E).
      apply Z.eqb_eq in E. subst j. apply in_concat in Hj as (l & Hl & I). now exists l.
  Qed.
  Lemma get_ranges_length : forall n lines rs, get_ranges read_i3 n lines = Some rs -> List.length rs = n.
  Proof.
    induction n as [|n IH]; intros lines rs; cbn [get_ranges]; [intros [= <-]; reflexivity|].
    destruct (co_ca lines) as [|l r]; [discriminate|]. destruct (read_i3 l) as [x| |]; try discriminate.
    destruct (get_ranges read_i3 n r) as [rs'|] eqn:E; [|discriminate]. intros [= <-]. cbn. f_equal. exact (IH _ _ E).
  Qed.
  Lemma check_ok b x : check b = Ok x -> b = true.
  Proof. now destruct b. Qed.
  Lemma input_checked lines e : input lines = Ok e ->
    (e_dim e = 2 \/ e_dim e = 3)%Z /\ good_labels (e_k e) (e_labels e) /\
    List.length (e_d e) = List.length (e_labels e) /\ List.length (e_digit e) = List.length (e_labels e) /\
    Z.of_nat (List.length (e_ranges e)) = Z.max 0 (e_k e) /\
    Forall (fun r => let '(a, b, c) := r in 0 <= a <= c /\ 0 <= b <= c)%Z (e_ranges e).
  Proof.
    unfold input, read_input. destruct (co_ca lines) as [|l1 r1]; [discriminate|]. destruct (co_ca r1) as [|l2 r2]; [discriminate|].
    cbv zeta. destruct (read_line read_3 r2) as [| |(((x1, x2), x3), r3)]; cbn [bind]; try discriminate.
    destruct (read_line read_3 r3) as [| |(((y1, y2), y3), r4)]; cbn [bind]; try discriminate.
    destruct (read_line read_3 r4) as [| |(((z1, z2), z3), r5)]; cbn [bind]; try discriminate.
    destruct (read_line read_int r5) as [| |(k, r6)]; cbn [bind]; try discriminate.
    destruct (read_line read_int r6) as [| |(nd, r7)]; cbn [bind]; try discriminate.
    destruct (d_vectors read_int read_real (Z.to_nat nd) k r7) as [| |(ds, r8)] eqn:D; cbn [bind]; try discriminate.
    destruct (check (all_used k _)) as [| |[]] eqn:U; cbn [bind]; try discriminate.
    destruct (check (none_twice k _)) as [| |[]] eqn:T; cbn [bind]; try discriminate.
    destruct (get_eq _ _ _ _) as [| |(eqs, r9)]; cbn [bind]; try discriminate.
    destruct (read_line read_2 r9) as [| |((nmin, nmax), r10)]; cbn [bind]; try discriminate.
    destruct (read_line read_real r10) as [| |(eps, r11)]; cbn [bind]; try discriminate.
    destruct (read_line read_word r11) as [| |(w, r12)]; cbn [bind]; try discriminate.
    match goal with |- bind ?X _ = _ -> _ => assert (HD : forall dim, X = Ok dim -> (dim = 2 \/ dim = 3)%Z);
      [|destruct X as [| |dim]; cbn [bind]; try discriminate; specialize (HD dim eq_refl)] end.
    { intros dim. destruct (String.eqb _ "SURF"); [destruct (check (flat _ _ _)); cbn [bind]; intros K; try discriminate K; injection K as <-; now left|].
      destruct (String.eqb _ "BULK"); intros K; [|discriminate K]. injection K as <-. now right. }
    match goal with |- bind ?X _ = _ -> _ => destruct X as [| |full]; cbn [bind]; try discriminate end.
    apply check_ok in U, T. destruct (d_vectors_checked _ _ _ _ _ D) as (LD & FD).
    assert (G : good_labels k (map (fun '(_, l, _) => l) ds)).
    { apply labels_checked; [|exact U|exact T]. apply Forall_map. eapply Forall_impl; [|exact FD]. intros ((?, ?), ?) H. exact H. }
    assert (LR : List.length (match get_ranges read_i3 (Z.to_nat k) r12 with Some l => l | None => repeat (0, 0, 0)%Z (Z.to_nat k) end) = Z.to_nat k).
    { destruct (get_ranges read_i3 (Z.to_nat k) r12) as [rs|] eqn:R; [exact (get_ranges_length _ _ _ R)|apply repeat_length]. }
    assert (K : forall conc rs, List.length rs = Z.to_nat k ->
      bind (check (forallb range_ok rs)) (fun _ => Ok (EnumInput (fixed 80 l1) dim (QMat x1 y1 z1 x2 y2 z2 x3 y3 z3) k (map (fun '(d, _, _) => d) ds)
         (map (fun '(_, l, _) => l) ds) (map (fun '(_, _, n) => n) ds) eqs nmin nmax eps full conc rs)) = Ok e -> 
      (e_dim e = 2 \/ e_dim e = 3)%Z /\ good_labels (e_k e) (e_labels e) /\
      List.length (e_d e) = List.length (e_labels e) /\ List.length (e_digit e) = List.length (e_labels e) /\
      Z.of_nat (List.length (e_ranges e)) = Z.max 0 (e_k e) /\
      Forall (fun r => let '(a, b, c) := r in 0 <= a <= c /\ 0 <= b <= c)%Z (e_ranges e)).
    { intros conc rs L. destruct (check (forallb range_ok rs)) as [| |[]] eqn:R; cbn [bind]; try discriminate. intros [= <-].
      cbn [e_dim e_k e_labels e_d e_digit e_ranges]. rewrite !map_length, L. apply check_ok in R. rewrite forallb_forall in R.
      split; [exact HD|]. split; [exact G|]. split; [reflexivity|]. split; [reflexivity|]. split; [lia|].
      apply Forall_forall. intros ((a, b), c) I. specialize (R _ I). unfold range_ok in R. rewrite !andb_true_iff, !Z.leb_le in R. lia. }
    destruct (get_ranges read_i3 (Z.to_nat k) r12) as [rs|]; intros E; exact (K _ _ LR E).
  Qed.
End input.
