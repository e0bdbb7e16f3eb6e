(** The line of the POSCAR that tells the kind of coordinates. *)
From Coq Require Import ZArith QArith Qcanon List Bool Ascii String Lia.
From Verif Require Import Mat3 QMat QNum Model_control Spec_control Proofs_control Proofs_poscar.
Import ListNotations.
Open Scope string_scope.

Lemma substring_all s : forall n, (String.length s <= n)%nat -> substring 0 n s = s.
Proof.
  induction s as [|c s IH]; intros [|n] H; cbn in *; try reflexivity; [lia|]. rewrite IH by lia. reflexivity.
Qed.
Lemma blank_iff c : blank c = true <-> c = " "%char.
Proof. unfold blank. apply Ascii.eqb_eq. Qed.
(** The first character of a line that is no blank. *)
Definition first (s : string) : option ascii := match adjustl s with String c _ => Some c | "" => None end.
Lemma first_rtrim s : first (rtrim s) = first s.
Proof.
  unfold first. induction s as [|c s IH]; [reflexivity|]. cbn [rtrim adjustl].
  destruct (blank c) eqn:B; cbn [andb].
  - destruct (String.eqb_spec (rtrim s) "") as [E|E].
    + rewrite E in IH. exact IH.
    + cbn [adjustl]. rewrite B. exact IH.
  - cbn [adjustl]. rewrite B. reflexivity.
Qed.
Lemma first_iff s c : first s = Some c <-> exists b r, blanks b /\ s = b ++ String c r /\ c <> " "%char.
Proof.
  unfold first. induction s as [|d s IH]; cbn [adjustl].
  - split; [discriminate|]. intros (b & r & _ & E & _). destruct b; discriminate E.
  - destruct (blank d) eqn:B.
    + apply blank_iff in B. rewrite IH. split.
      * intros (b & r & Hb & -> & Hc). exists (String d b), r. split; [split; assumption|]. split; [reflexivity|exact Hc].
      * intros (b & r & Hb & E & Hc). destruct b as [|e b].
        -- cbn in E. injection E as E1 E2. congruence.
        -- cbn in E. injection E as E1 E2. exists b, r. split; [apply Hb|]. split; assumption.
    + split.
      * intros E. injection E as <-. exists "", s. split; [exact I|]. split; [reflexivity|].
        intros K. apply blank_iff in K. congruence.
      * intros (b & r & Hb & E & Hc). destruct b as [|e b]; cbn in E; injection E as E1 E2; [now subst|].
        destruct Hb as (He & _). subst. discriminate B.
Qed.
Lemma cartesian_iff line : (String.length line <= 300)%nat ->
  (is_cartesian line = true <->
   exists b c r, blanks b /\ line = b ++ String c r /\ In c ["c"; "C"; "k"; "K"]%char).
Proof.
  intros Hl.
  assert (F : is_cartesian line = match first line with
    | Some c => (Ascii.eqb c "c" || Ascii.eqb c "C" || Ascii.eqb c "k" || Ascii.eqb c "K")%char | None => false end).
  { rewrite <- (first_rtrim line). unfold is_cartesian, first, fixed. rewrite substring_all by exact Hl.
    destruct (adjustl (rtrim line)); reflexivity. }
  rewrite F. split.
  - destruct (first line) as [c|] eqn:E; [|discriminate]. apply first_iff in E. destruct E as (b & r & Hb & Er & _).
    intros H. exists b, c, r. split; [exact Hb|]. split; [exact Er|].
    rewrite !orb_true_iff, !Ascii.eqb_eq in H. cbn. intuition congruence.
  - intros (b & c & r & Hb & Er & Hc).
    assert (E : first line = Some c).
    { apply first_iff. exists b, r. split; [exact Hb|]. split; [exact Er|]. cbn in Hc. intuition (subst; discriminate). }
    rewrite E, !orb_true_iff, !Ascii.eqb_eq. cbn in Hc. intuition congruence.
Qed.
Lemma coordinates s lat line x : (String.length line <= 300)%nat -> s <> 0%Qc -> qdet lat <> 0%Qc ->
  ((exists b c r, blanks b /\ line = b ++ String c r /\ In c ["c"; "C"; "k"; "K"]%char) ->
     qmvec (qscale s lat) (atom_position s lat line x) = x) /\
  ((forall b c r, blanks b -> line = b ++ String c r -> ~ In c ["c"; "C"; "k"; "K"]%char) ->
     atom_position s lat line x = x).
Proof.
  intros Hl Hs Hd. split.
  - intros H. apply cartesian_iff in H; [|exact Hl]. now apply cartesian_position.
  - intros H. apply direct_position. destruct (is_cartesian line) eqn:E; [|reflexivity].
    apply cartesian_iff in E; [|exact Hl]. destruct E as (b & c & r & Hb & Er & Hc). destruct (H b c r Hb Er Hc).
Qed.

(** ** The constants of the control file *)
Lemma pi_close : (qabs (f_pi - Q2Qc (314159265358979323846 # 100000000000000000000)) <= Q2Qc (1 # 1000000000000000000))%Qc.
Proof. vm_compute. discriminate. Qed.
Lemma volume_of s lat : c_vol s lat = qabs (s * s * s * qdet lat)%Qc.
Proof. unfold c_vol. now rewrite qdet_scale. Qed.
