(** The control file: what each variable holds after the loop. *)
From Coq Require Import ZArith QArith Qcanon List Bool Ascii String Lia.
From Verif Require Import Mat3 QMat QNum Model_control Spec_control Proofs_control.
Import ListNotations.
Open Scope string_scope.

Lemma last_snoc_yes (P : string -> Prop) lines l : P l -> last_line P (lines ++ [l])%list l.
Proof. intros H. exists lines, []. split; [reflexivity|]. split; [exact H|]. now intros x []. Qed.
Lemma last_snoc_no (P : string -> Prop) lines x l : ~ P x -> last_line P lines l ->
  last_line P (lines ++ [x])%list l.
Proof.
  intros N (b & a & -> & H & K). exists b, (a ++ [x])%list. rewrite <- List.app_assoc. split; [reflexivity|].
  split; [exact H|]. intros y Hy. apply in_app_iff in Hy. destruct Hy as [Hy|[<-|[]]]; [now apply K|exact N].
Qed.
Lemma none_snoc (P : string -> Prop) lines x : (forall l, In l lines -> ~ P l) -> ~ P x ->
  forall l, In l (lines ++ [x])%list -> ~ P l.
Proof. intros H N l Hl. apply in_app_iff in Hl. destruct Hl as [Hl|[<-|[]]]; [now apply H|exact N]. Qed.

Section Control.
  Context (read_int : string -> io Z) (read_real : string -> io Qc)
          (read_3 : string -> io (Qc * Qc * Qc)).
  Context (sqrt2 : Qc) (natoms : Z) (lat_param : Qc) (lat : qmat).
  Context (Hs : lat_param <> 0%Qc) (Hd : qdet lat <> 0%Qc).
  Local Notation vol := (c_vol lat_param lat).
  Local Notation step := (do_line read_int read_real read_3 sqrt2 natoms lat_param lat).
  Local Notation steps := (do_lines read_int read_real read_3 sqrt2 natoms lat_param lat).
  Local Notation dens := (density read_int read_real f_pi sqrt2 vol natoms).
  Local Notation fine := (readable read_int read_real read_3).

  Definition gives_density (l : string) : Prop := exists k v, In k density_words /\ says l k v.
  Definition gives_shift (l : string) : Prop := exists v, says l "SHIFT" v.
  Definition gives_eps (l : string) : Prop := exists v, says l "EPS" v.
  Definition gives_symmetry (l : string) : Prop := exists w n, symmetry_word w n /\ says_word l "USE_SYMMETRY" w.
  Definition gives_min (l : string) : Prop := says_word l "MIN_IRR_KPTS" "TRUE".

  Record after (lines : list string) (v : vars) : Prop := {
    a_ios : v_ios v = true;
    a_set : if v_set v
      then exists n l k w, v_nkpts v = Some n /\ last_line gives_density lines l /\ says l k w /\ dens k w n
      else forall l, In l lines -> ~ gives_density l;
    a_shift : if v_find v
      then v_offset v = None /\ forall l, In l lines -> ~ gives_shift l
      else exists o l w, v_offset v = Some o /\ last_line gives_shift lines l /\ says l "SHIFT" w /\
        read_3 w = Value o;
    a_eps : if v_def_eps v
      then forall l, In l lines -> ~ gives_eps l
      else exists e l w, v_eps v = Some e /\ last_line gives_eps lines l /\ says l "EPS" w /\
        read_real w = Value e;
    a_symm : (v_symm v = 0%Z /\ forall l, In l lines -> ~ gives_symmetry l) \/
      exists l w, last_line gives_symmetry lines l /\ says_word l "USE_SYMMETRY" w /\
        symmetry_word w (v_symm v);
    a_min : v_min v = true <-> exists l, In l lines /\ gives_min l }.

  Lemma after_nil : after [] vars0.
  Proof.
    split; cbn; try reflexivity.
    - easy.
    - easy.
    - easy.
    - left. easy.
    - split; [discriminate|]. now intros (l & [] & _).
  Qed.

  Section Line.
    Context (l : string) (HL : (String.length l <= 100)%nat).
    Lemma density_key : gives_density l <-> In (key l) density_words.
    Proof.
      split.
      - intros (k & v & Hk & H). assert (N : k <> "") by (intros ->; cbn in Hk; intuition discriminate).
        apply says_iff in H; [|exact HL|exact N]. destruct H as (-> & _). exact Hk.
      - intros H. exists (key l), (val l). split; [exact H|]. apply says_iff; [exact HL| |now split].
        intros E. rewrite E in H. cbn in H. intuition discriminate.
    Qed.
    Lemma shift_key : gives_shift l <-> key l = "SHIFT".
    Proof.
      split.
      - intros (v & H). apply says_iff in H; [|exact HL|discriminate]. apply H.
      - intros H. exists (val l). apply says_iff; [exact HL|discriminate|now split].
    Qed.
    Lemma eps_key : gives_eps l <-> key l = "EPS".
    Proof.
      split.
      - intros (v & H). apply says_iff in H; [|exact HL|discriminate]. apply H.
      - intros H. exists (val l). apply says_iff; [exact HL|discriminate|now split].
    Qed.
    Lemma symm_key : gives_symmetry l -> key l = "USE_SYMMETRY".
    Proof.
      intros (w & n & Hw & H). destruct Hw; apply says_word_iff in H;
        solve [apply H | exact HL | discriminate].
    Qed.
    Lemma min_key : gives_min l <-> key l = "MIN_IRR_KPTS" /\ adjustl (val l) = "TRUE".
    Proof. apply says_word_iff; [exact HL|discriminate|discriminate]. Qed.
  End Line.

  (** A line leaves the variables of the other keywords alone. *)
  Lemma keep_set lines l v v' : (String.length l <= 100)%nat -> ~ In (key l) density_words ->
    v_set v' = v_set v -> v_nkpts v' = v_nkpts v ->
    (if v_set v
      then exists n l k w, v_nkpts v = Some n /\ last_line gives_density lines l /\ says l k w /\ dens k w n
      else forall l, In l lines -> ~ gives_density l) ->
    (if v_set v'
      then exists n l' k w, v_nkpts v' = Some n /\ last_line gives_density (lines ++ [l])%list l' /\ says l' k w /\ dens k w n
      else forall l', In l' (lines ++ [l])%list -> ~ gives_density l').
  Proof.
    intros HL N -> -> H. rewrite <- (density_key l HL) in N. destruct (v_set v).
    - destruct H as (n & l' & k & w & H1 & H2 & H3). exists n, l', k, w. split; [exact H1|].
      split; [now apply last_snoc_no|exact H3].
    - now apply none_snoc.
  Qed.
  Lemma keep_shift lines l v v' : (String.length l <= 100)%nat -> key l <> "SHIFT" ->
    v_find v' = v_find v -> v_offset v' = v_offset v ->
    (if v_find v
      then v_offset v = None /\ forall l, In l lines -> ~ gives_shift l
      else exists o l w, v_offset v = Some o /\ last_line gives_shift lines l /\ says l "SHIFT" w /\
        read_3 w = Value o) ->
    (if v_find v'
      then v_offset v' = None /\ forall l', In l' (lines ++ [l])%list -> ~ gives_shift l'
      else exists o l' w, v_offset v' = Some o /\ last_line gives_shift (lines ++ [l])%list l' /\ says l' "SHIFT" w /\
        read_3 w = Value o).
  Proof.
    intros HL N -> -> H. rewrite <- (shift_key l HL) in N. destruct (v_find v).
    - split; [apply H|]. now apply none_snoc.
    - destruct H as (o & l' & w & H1 & H2 & H3). exists o, l', w. split; [exact H1|].
      split; [now apply last_snoc_no|exact H3].
  Qed.
  Lemma keep_eps lines l v v' : (String.length l <= 100)%nat -> key l <> "EPS" ->
    v_def_eps v' = v_def_eps v -> v_eps v' = v_eps v ->
    (if v_def_eps v
      then forall l, In l lines -> ~ gives_eps l
      else exists e l w, v_eps v = Some e /\ last_line gives_eps lines l /\ says l "EPS" w /\
        read_real w = Value e) ->
    (if v_def_eps v'
      then forall l', In l' (lines ++ [l])%list -> ~ gives_eps l'
      else exists e l' w, v_eps v' = Some e /\ last_line gives_eps (lines ++ [l])%list l' /\ says l' "EPS" w /\
        read_real w = Value e).
  Proof.
    intros HL N -> -> H. rewrite <- (eps_key l HL) in N. destruct (v_def_eps v).
    - now apply none_snoc.
    - destruct H as (o & l' & w & H1 & H2 & H3). exists o, l', w. split; [exact H1|].
      split; [now apply last_snoc_no|exact H3].
  Qed.
  Lemma keep_symm lines l v v' : ~ gives_symmetry l -> v_symm v' = v_symm v ->
    (v_symm v = 0%Z /\ forall l, In l lines -> ~ gives_symmetry l) \/
      (exists l w, last_line gives_symmetry lines l /\ says_word l "USE_SYMMETRY" w /\
        symmetry_word w (v_symm v)) ->
    (v_symm v' = 0%Z /\ forall l', In l' (lines ++ [l])%list -> ~ gives_symmetry l') \/
      (exists l' w, last_line gives_symmetry (lines ++ [l])%list l' /\ says_word l' "USE_SYMMETRY" w /\
        symmetry_word w (v_symm v')).
  Proof.
    intros N -> [H|H].
    - left. split; [apply H|]. now apply none_snoc.
    - right. destruct H as (l' & w & H1 & H2). exists l', w. split; [now apply last_snoc_no|exact H2].
  Qed.
  Lemma keep_min lines l v v' : ~ gives_min l -> v_min v' = v_min v ->
    (v_min v = true <-> exists l, In l lines /\ gives_min l) ->
    (v_min v' = true <-> exists l', In l' (lines ++ [l])%list /\ gives_min l').
  Proof.
    intros N -> H. rewrite H. split; intros (l' & H1 & H2); exists l'.
    - split; [apply in_app_iff; now left|exact H2].
    - split; [|exact H2]. apply in_app_iff in H1. destruct H1 as [H1|[<-|[]]]; [exact H1|contradiction].
  Qed.

  (** The new value after a line of the keyword. *)
  Lemma new_set lines l v' n : (String.length l <= 100)%nat -> In (key l) density_words ->
    v_set v' = true -> v_nkpts v' = Some n -> dens (key l) (val l) n ->
    (if v_set v'
      then exists n l' k w, v_nkpts v' = Some n /\ last_line gives_density (lines ++ [l])%list l' /\ says l' k w /\ dens k w n
      else forall l', In l' (lines ++ [l])%list -> ~ gives_density l').
  Proof.
    intros HL N -> E D. exists n, l, (key l), (val l). split; [exact E|].
    split; [apply last_snoc_yes; now apply density_key|]. split; [|exact D].
    apply says_iff; [exact HL| |now split]. intros Q. rewrite Q in N. cbn in N. intuition discriminate.
  Qed.

  Ltac others HL K HA :=
    first
    [ reflexivity
    | apply (keep_set _ _ _ _ HL) with (4 := a_set _ _ HA); [rewrite K; cbn; intuition discriminate| |]; reflexivity
    | apply (keep_shift _ _ _ _ HL) with (4 := a_shift _ _ HA); [rewrite K; discriminate| |]; reflexivity
    | apply (keep_eps _ _ _ _ HL) with (4 := a_eps _ _ HA); [rewrite K; discriminate| |]; reflexivity
    | apply keep_symm with (3 := a_symm _ _ HA); [intros G; apply symm_key in G; [rewrite K in G; discriminate G|exact HL]|reflexivity]
    | apply keep_min with (3 := a_min _ _ HA); [intros G; apply min_key in G; [rewrite K in G; destruct G as (G & _); discriminate G|exact HL]|reflexivity] ].

  Lemma after_step lines l v : (String.length l <= 100)%nat ->
    (forall k w, says l k w -> fine k w) -> after lines v -> after (lines ++ [l])%list (step l v).
  Proof.
    intros HL HF HA.
    assert (HF' : key l <> "" -> fine (key l) (val l)).
    { intros N. apply HF. apply says_iff; [exact HL|exact N|now split]. }
    clear HF.
    destruct v as [ios nkpts set kpd lkpd kppra rmin off find symm mn eps de].
    pose proof (a_ios _ _ HA) as Hi. cbn in Hi. subst ios.
    unfold do_line. rewrite (surjective_pairing (split_line (fixed 100 l))).
    fold (key l) (val l).
    destruct (String.eqb_spec (key l) "SHIFT") as [K|N1].
    { rewrite K in HF'. destruct (proj1 (proj2 (proj2 (HF' ltac:(discriminate)))) eq_refl) as (o & Eo).
      rewrite Eo. split; cbn [ok]; try others HL K HA.
      cbn [v_find v_offset assign]. exists o, l, (val l). split; [reflexivity|].
      split; [apply last_snoc_yes; now apply shift_key|]. split; [|exact Eo].
      apply says_iff; [exact HL|discriminate|now split]. }
    destruct (String.eqb_spec (key l) "NKPTS") as [K|N2].
    { rewrite K in HF'. destruct (proj1 (HF' ltac:(discriminate)) ltac:(cbn; auto)) as (n & En).
      rewrite En. split; cbn [ok]; try others HL K HA.
      apply (new_set _ _ _ n HL); try reflexivity; rewrite K; [cbn; auto|now constructor]. }
    destruct (String.eqb_spec (key l) "KPDENSITY") as [K|N3].
    { rewrite K in HF'. destruct (proj1 (proj2 (HF' ltac:(discriminate))) ltac:(cbn; auto)) as (x & Ex).
      rewrite Ex. split; cbn [ok]; try others HL K HA.
      eapply (new_set _ _ _ _ HL); try reflexivity; rewrite K; [cbn; auto|].
      apply by_density with x; [exact Ex|]. rewrite (r_vol_eq lat_param lat Hs Hd). apply nint_nearest. }
    destruct (String.eqb_spec (key l) "KSPACING") as [K|N4].
    { rewrite K in HF'. destruct (proj1 (proj2 (HF' ltac:(discriminate))) ltac:(cbn; auto)) as (x & Ex).
      assert (Hx : x <> 0%Qc).
      { intros ->. exact (proj2 (proj2 (proj2 (HF' ltac:(discriminate)))) eq_refl Ex). }
      rewrite Ex. split; cbn [ok]; try others HL K HA.
      eapply (new_set _ _ _ _ HL); try reflexivity; rewrite K; [cbn; auto|].
      apply by_spacing with x; [exact Ex|].
      rewrite <- (spacing_eq lat_param lat Hs Hd x Hx). apply nint_nearest. }
    destruct (String.eqb_spec (key l) "KPPRA") as [K|N5].
    { rewrite K in HF'. destruct (proj1 (HF' ltac:(discriminate)) ltac:(cbn; auto)) as (n & En).
      rewrite En. split; cbn [ok]; try others HL K HA.
      eapply (new_set _ _ _ _ HL); try reflexivity; rewrite K; [cbn; auto|now constructor]. }
    destruct (String.eqb_spec (key l) "RMIN") as [K|N6].
    { rewrite K in HF'. destruct (proj1 (proj2 (HF' ltac:(discriminate))) ltac:(cbn; auto)) as (x & Ex).
      rewrite Ex. split; cbn [ok]; try others HL K HA.
      eapply (new_set _ _ _ _ HL); try reflexivity; rewrite K; [cbn; tauto|].
      apply by_distance with x; [exact Ex|]. apply nint_nearest. }
    destruct (String.eqb_spec (key l) "USE_SYMMETRY") as [K|N7].
    { split; try others HL K HA.
      assert (W : forall c w n, c <> " "%char -> adjustl (val l) = String c w -> symmetry_word (String c w) n ->
        forall x, x = n -> (x = 0%Z /\ forall l', In l' (lines ++ [l])%list -> ~ gives_symmetry l') \/
          (exists l' w, last_line gives_symmetry (lines ++ [l])%list l' /\ says_word l' "USE_SYMMETRY" w /\
             symmetry_word w x)).
      { intros c w n Hc E Hw x ->. right. exists l, (String c w).
        assert (S : says_word l "USE_SYMMETRY" (String c w)) by (apply says_word_iff; [exact HL|discriminate|exact Hc|now split]).
        split; [|now split]. apply last_snoc_yes. exists (String c w), n. now split. }
      cbn [v_symm].
      destruct (String.eqb_spec (adjustl (val l)) "NONE") as [E|M1].
      { refine (W _ _ _ _ E use_none _ eq_refl). discriminate. }
      destruct (String.eqb_spec (adjustl (val l)) "TIME_REVERSAL") as [E|M2].
      { refine (W _ _ _ _ E use_time_reversal _ eq_refl). discriminate. }
      destruct (String.eqb_spec (adjustl (val l)) "STRUCTURAL") as [E|M3].
      { refine (W _ _ _ _ E use_structural _ eq_refl). discriminate. }
      destruct (String.eqb_spec (adjustl (val l)) "ALL") as [E|M4].
      { refine (W _ _ _ _ E use_all _ eq_refl). discriminate. }
      pose proof (a_symm _ _ HA) as HS. cbn [v_symm] in HS.
      assert (NG : ~ gives_symmetry l).
      { intros (w & n & Hw & H). destruct Hw; apply says_word_iff in H;
          try exact HL; try discriminate; destruct H as (_ & H); contradiction. }
      exact (keep_symm lines l _ (Vars true nkpts set kpd lkpd kppra rmin off find symm mn eps de) NG eq_refl HS). }
    destruct (String.eqb_spec (key l) "MIN_IRR_KPTS") as [K|N8].
    { split; try others HL K HA. cbn [v_min].
      pose proof (a_min _ _ HA) as HM. cbn [v_min] in HM.
      destruct (String.eqb_spec (adjustl (val l)) "TRUE") as [E|M].
      - split; [intros _|reflexivity]. exists l. split; [apply in_app_iff; right; now left|].
        apply min_key; [exact HL|now split].
      - assert (NG : ~ gives_min l) by (intros G; apply min_key in G; [now destruct G|exact HL]).
        exact (keep_min lines l _ (Vars true nkpts set kpd lkpd kppra rmin off find symm mn eps de) NG eq_refl HM). }
    destruct (String.eqb_spec (key l) "EPS") as [K|N9].
    { rewrite K in HF'. destruct (proj1 (proj2 (HF' ltac:(discriminate))) ltac:(cbn; auto)) as (x & Ex).
      rewrite Ex. split; cbn [ok]; try others HL K HA.
      cbn [v_def_eps v_eps assign]. exists x, l, (val l). split; [reflexivity|].
      split; [apply last_snoc_yes; now apply eps_key|]. split; [|exact Ex].
      apply says_iff; [exact HL|discriminate|now split]. }
    assert (ND : ~ In (key l) density_words) by (cbn; intuition congruence).
    split.
    - reflexivity.
    - now apply (keep_set lines l _ _ HL ND eq_refl eq_refl), HA.
    - now apply (keep_shift lines l _ _ HL N1 eq_refl eq_refl), HA.
    - now apply (keep_eps lines l _ _ HL N9 eq_refl eq_refl), HA.
    - apply (keep_symm lines l _ _) with (3 := a_symm _ _ HA); [|reflexivity]. intros G. now apply N7, symm_key.
    - apply (keep_min lines l _ _) with (3 := a_min _ _ HA); [|reflexivity]. intros G.
      now apply N8, (proj1 (min_key l HL)).
  Qed.
End Control.
