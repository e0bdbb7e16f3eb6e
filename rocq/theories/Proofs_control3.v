(** The control file: results; the POSCAR. *)
From Coq Require Import ZArith QArith Qcanon List Bool Ascii String Lia.
From Verif Require Import Mat3 QMat QNum Model_control Spec_control Proofs_control Proofs_control2
  Proofs_find_supercells.
Import ListNotations.
Open Scope string_scope.

Section Control.
  Context (read_int : string -> io Z) (read_real : string -> io Qc)
          (read_3 : string -> io (Qc * Qc * Qc)).
  Context (sqrt2 : Qc) (natoms : Z) (lat_param : Qc) (lat : qmat).
  Local Notation vol := (c_vol lat_param lat).
  Local Notation step := (do_line read_int read_real read_3 sqrt2 natoms lat_param lat).
  Local Notation steps := (do_lines read_int read_real read_3 sqrt2 natoms lat_param lat).
  Local Notation run := (get_inputs read_int read_real read_3 sqrt2 natoms lat_param lat).
  Local Notation dens := (density read_int read_real f_pi sqrt2 vol natoms).
  Local Notation fine := (readable read_int read_real read_3).
  Local Notation state := (after read_int read_real read_3 sqrt2 natoms lat_param lat).

  Lemma steps_app l1 l2 v : steps (l1 ++ l2)%list v = steps l2 (steps l1 v).
  Proof.
    revert v. induction l1 as [|l l1 IH]; intros v; [reflexivity|]. cbn [app do_lines].
    destruct (v_ios v) eqn:E; [apply IH|]. destruct l2; [reflexivity|]. cbn [do_lines]. now rewrite E.
  Qed.
  Lemma steps_stopped l v : v_ios v = false -> steps l v = v.
  Proof. intros E. destruct l; [reflexivity|]. cbn. now rewrite E. Qed.

  Lemma after_all lines : lat_param <> 0%Qc -> qdet lat <> 0%Qc ->
    (forall l, In l lines -> (String.length l <= 100)%nat /\ forall k w, says l k w -> fine k w) ->
    state lines (steps lines vars0).
  Proof.
    intros Hs Hd. induction lines as [|l lines IH] using rev_ind; intros H.
    - apply after_nil.
    - assert (HA : state lines (steps lines vars0)).
      { apply IH. intros x Hx. apply H. apply in_app_iff. now left. }
      rewrite steps_app. cbn [do_lines]. rewrite (a_ios _ _ _ _ _ _ _ _ _ HA).
      destruct (H l) as (H1 & H2); [apply in_app_iff; right; now left|].
      now apply after_step.
  Qed.

  Lemma result lines : lat_param <> 0%Qc -> qdet lat <> 0%Qc ->
    (forall l, In l lines -> (String.length l <= 100)%nat /\ forall k w, says l k w -> fine k w) ->
    match run lines with
    | Not_set => forall l k v, In l lines -> In k density_words -> ~ says l k v
    | Inputs nkpts off find symm mn eps =>
      (exists n l k v, nkpts = Some n /\
         last_line (fun l => exists k v, In k density_words /\ says l k v) lines l /\ says l k v /\ dens k v n) /\
      (if find then off = None /\ forall l v, In l lines -> ~ says l "SHIFT" v
       else exists o l v, off = Some o /\ last_line (fun l => exists v, says l "SHIFT" v) lines l /\
         says l "SHIFT" v /\ read_3 v = Value o) /\
      ((symm = 0%Z /\ forall l w n, In l lines -> symmetry_word w n -> ~ says_word l "USE_SYMMETRY" w) \/
       exists l w, last_line (fun l => exists w n, symmetry_word w n /\ says_word l "USE_SYMMETRY" w) lines l /\
         says_word l "USE_SYMMETRY" w /\ symmetry_word w symm) /\
      (mn = true <-> exists l, In l lines /\ says_word l "MIN_IRR_KPTS" "TRUE") /\
      ((eps = Some (qdec 1 3) /\ forall l v, In l lines -> ~ says l "EPS" v) \/
       exists e l v, eps = Some e /\ last_line (fun l => exists v, says l "EPS" v) lines l /\
         says l "EPS" v /\ read_real v = Value e)
    end.
  Proof.
    intros Hs Hd H. destruct (after_all lines Hs Hd H) as [A1 A2 A3 A4 A5 A6].
    unfold get_inputs. cbv zeta. set (v := steps lines vars0) in *. clearbody v.
    destruct (v_set v).
    - split; [exact A2|]. split; [|split; [|split]].
      + destruct (v_find v); [|exact A3]. destruct A3 as (A3 & A3'). split; [exact A3|].
        intros l w Hl Hw. apply (A3' l Hl). now exists w.
      + destruct A5 as [(A5 & A5')|A5]; [left|right; exact A5]. split; [exact A5|].
        intros l w n Hl Hw Hn. apply (A5' l Hl). exists w, n. now split.
      + exact A6.
      + destruct (v_def_eps v); [left|right; exact A4]. split; [reflexivity|].
        intros l w Hl Hw. apply (A4 l Hl). now exists w.
    - intros l k w Hl Hk Hw. apply (A2 l Hl). exists k, w. now split.
  Qed.

  (** The first number that cannot be read ends the loop. *)
  Definition unreadable (l : string) : Prop := exists k v, says l k v /\
    ((In k ["NKPTS"; "KPPRA"] /\ read_int v = Failed) \/
     (In k ["KPDENSITY"; "KSPACING"; "RMIN"; "EPS"] /\ read_real v = Failed) \/
     (k = "SHIFT" /\ read_3 v = Failed)).
  Lemma unreadable_stops l v : (String.length l <= 100)%nat -> unreadable l -> v_ios (step l v) = false.
  Proof.
    intros HL (k & w & HS & H).
    assert (N : k <> "") by (intros ->; cbn in H; intuition discriminate).
    apply says_iff in HS; [|exact HL|exact N]. destruct HS as (K1 & K2).
    unfold do_line. rewrite (surjective_pairing (split_line (fixed 100 l))).
    fold (key l) (val l). rewrite K1, K2. destruct v.
    destruct H as [(Hk & E)|[(Hk & E)|(-> & E)]].
    - cbn [In] in Hk. destruct Hk as [<-|[<-|[]]]; cbn [String.eqb Ascii.eqb Bool.eqb]; now rewrite E.
    - cbn [In] in Hk. destruct Hk as [<-|[<-|[<-|[<-|[]]]]]; cbn [String.eqb Ascii.eqb Bool.eqb]; now rewrite E.
    - cbn [String.eqb Ascii.eqb Bool.eqb]. now rewrite E.
  Qed.
  Lemma rest_ignored before l rest : (String.length l <= 100)%nat -> unreadable l ->
    run (before ++ l :: rest)%list = run (before ++ [l])%list.
  Proof.
    intros HL HU. unfold get_inputs. cbv zeta. rewrite !steps_app. set (v := steps before vars0). clearbody v.
    assert (E : steps (l :: rest) v = steps [l] v).
    { cbn [do_lines]. destruct (v_ios v); [|reflexivity]. apply steps_stopped. now apply unreadable_stops. }
    now rewrite E.
  Qed.
End Control.

(** ** The three consequences, for every runtime that refuses the text "x". *)
Lemma refused_later read_int read_real read_3 sqrt2 natoms lat_param lat :
  read_real "x" = Failed -> read_int "10" = Value 10%Z ->
  exists off find symm mn eps,
  get_inputs read_int read_real read_3 sqrt2 natoms lat_param lat ["NKPTS=10"; "EPS=x"; "NKPTS=20"] =
    Inputs (Some 10%Z) off find symm mn eps.
Proof.
  intros E1 E2. unfold get_inputs. cbn. rewrite E2. cbn. rewrite E1. cbn. do 5 eexists. reflexivity.
Qed.
Lemma refused_first read_int read_real read_3 sqrt2 natoms lat_param lat : read_real "x" = Failed ->
  get_inputs read_int read_real read_3 sqrt2 natoms lat_param lat ["EPS=x"; "NKPTS=10"] = Not_set.
Proof. intros E1. unfold get_inputs. cbn. rewrite E1. reflexivity. Qed.
Lemma refused_number read_int read_real read_3 sqrt2 natoms lat_param lat : read_int "x" = Failed ->
  exists off find symm mn eps,
  get_inputs read_int read_real read_3 sqrt2 natoms lat_param lat ["NKPTS=x"] =
    Inputs None off find symm mn eps.
Proof. intros E1. unfold get_inputs. cbn. rewrite E1. cbn. do 5 eexists. reflexivity. Qed.
Lemma last_ignored read_int read_real read_3 sqrt2 natoms lat_param lat :
  read_real "x" = Failed -> read_int "10" = Value 10%Z ->
  last_line (fun l => exists k v, In k density_words /\ says l k v) ["NKPTS=10"; "EPS=x"; "NKPTS=20"] "NKPTS=20" /\
  exists off find symm mn eps,
  get_inputs read_int read_real read_3 sqrt2 natoms lat_param lat ["NKPTS=10"; "EPS=x"; "NKPTS=20"] =
    Inputs (Some 10%Z) off find symm mn eps.
Proof.
  intros E1 E2. split; [|now apply refused_later].
  exists ["NKPTS=10"; "EPS=x"], []. split; [reflexivity|]. split; [|now intros x []].
  exists "NKPTS", "20". split; [now left|]. apply says_iff; [cbn; lia|discriminate|now split].
Qed.
Lemma present_ignored : In "NKPTS=10" ["EPS=x"; "NKPTS=10"] /\ says "NKPTS=10" "NKPTS" "10" /\
  forall read_int read_real read_3 sqrt2 natoms lat_param lat, read_real "x" = Failed ->
  get_inputs read_int read_real read_3 sqrt2 natoms lat_param lat ["EPS=x"; "NKPTS=10"] = Not_set.
Proof.
  split; [right; now left|]. split; [|exact refused_first].
  apply says_iff; [cbn; lia|discriminate|now split].
Qed.
