(** Proofs about forms_group and find_pg_gens / find_gens_of_pg. *)
From Coq Require Import List Bool Arith Lia.
From Verif Require Import Model_brute Spec_brute.
Import ListNotations.

Lemma fold_nested {A B C} (f : A -> B -> C -> A) (l : list B) (m : list C) (a : A) :
  fold_left (fun a i => fold_left (fun a j => f a i j) m a) l a =
  fold_left (fun a p => f a (fst p) (snd p)) (list_prod l m) a.
Proof.
  revert a. induction l as [|i l IH]; intros a; cbn [fold_left list_prod]; [reflexivity|].
  rewrite fold_left_app, <- IH. f_equal.
  clear IH. revert a. induction m as [|j m IHm]; intros a; cbn [fold_left map]; [reflexivity|]. apply IHm.
Qed.

Section combos.
  Context {M : Type}.
  Lemma combinations_spec r (l : list M) g : In g (combinations r l) ->
    length g = r /\ incl g l /\ (NoDup l -> NoDup g).
  Proof.
    revert r g. induction l as [|x l IH]; intros [|r] g Hg; cbn [combinations In] in Hg.
    - destruct Hg as [<-|[]]. repeat split; [apply incl_nil_l|constructor].
    - contradiction.
    - destruct Hg as [<-|[]]. repeat split; [apply incl_nil_l|constructor].
    - apply in_app_or in Hg as [Hg|Hg].
      + apply in_map_iff in Hg as (h & <- & Hh). destruct (IH r h Hh) as (H1 & H2 & H3).
        repeat split.
        * cbn. now rewrite H1.
        * intros y [<-|Hy]; [now left|right; now apply H2].
        * intros N. inversion N; subst. constructor; [|now apply H3]. intros Hx. now apply H2 in Hx.
      + destruct (IH (S r) g Hg) as (H1 & H2 & H3). repeat split; [exact H1|intros y Hy; right; now apply H2|].
        intros N. inversion N; subst. now apply H3.
  Qed.
  Lemma combinations_filter (p : M -> bool) (l : list M) : In (filter p l) (combinations (length (filter p l)) l).
  Proof.
    induction l as [|x l IH]; cbn [filter]; [now left|]. destruct (p x) eqn:Ex; cbn [length combinations].
    - apply in_or_app. left. apply in_map. exact IH.
    - destruct (filter p l) as [|y f] eqn:Ef; cbn [length combinations] in *; [now left|].
      apply in_or_app. right. exact IH.
  Qed.
End combos.

Section groups.
  Context {M : Type} (mul : M -> M -> M) (equal : M -> M -> bool) (pg : list M)
          (HG : finite_group mul pg) (HE : exact_on equal pg).
  Let Hnd := proj1 HG. Let Hclosed := proj1 (proj2 HG). Let Hcancel := proj2 (proj2 HG).

  Lemma generated_in gens x : incl gens pg -> generated mul gens x -> In x pg.
  Proof. intros Hi H. induction H as [x Hx|x y Hx Hy IH]; [now apply Hi|]. apply Hclosed; [now apply Hi|assumption]. Qed.
  Lemma generated_mono gens gens' x : incl gens gens' -> generated mul gens x -> generated mul gens' x.
  Proof. intros Hi H. induction H as [x Hx|x y Hx Hy IH]; [now apply Generator, Hi|]. apply Product; [now apply Hi|assumption]. Qed.
  Lemma generated_set gens set x : incl gens set -> (forall i j, In i gens -> In j set -> In (mul i j) set) ->
    generated mul gens x -> In x set.
  Proof. intros Hi Hc H. induction H as [x Hx|x y Hx Hy IH]; [now apply Hi|now apply Hc]. Qed.

  Section with_gens.
    Context (gens : list M) (Hin : incl gens pg).
    (** What the sets built by the program satisfy. *)
    Definition good (set : list M) : Prop := NoDup set /\ forall x, In x set -> In x pg /\ generated mul gens x.
    Lemma good_length set : good set -> length set <= length pg.
    Proof. intros [N H]. apply NoDup_incl_length; [exact N|]. intros x Hx. now apply H. Qed.
    Lemma good_snoc set t : good set -> In t pg -> generated mul gens t -> ~ In t set -> good (set ++ [t]) /\ length set < length pg.
    Proof.
      intros G Ht Hg Hn. assert (G' : good (set ++ [t])).
      { destruct G as [N H]. split.
        - apply NoDup_Add with (a := t) (l := set); [|now split].
          replace set with (set ++ []) at 1 by apply app_nil_r. apply Add_app.
        - intros x Hx. apply in_app_or in Hx as [Hx|[<-|[]]]; [now apply H|now split]. }
      split; [exact G'|]. apply good_length in G'. rewrite app_length in G'. cbn in G'. lia.
    Qed.
    Lemma member set t : good set -> In t pg -> existsb (equal t) set = true <-> In t set.
    Proof.
      intros [_ H] Ht. rewrite existsb_exists. split.
      - intros (x & Hx & E). apply HE in E; [now subst|exact Ht|now apply H].
      - intros Hi. exists t. split; [exact Hi|]. now apply HE.
    Qed.

    (** *** Fortran *)
    Section fortran.
      Context (zero : M) (beyond : list M)
              (Hjunk : forall p x, In p pg -> In x (zero :: beyond) -> equal p x = false).
      Let room := length pg.
      Lemma in_set_iff set t : good set -> In t pg -> in_set equal zero beyond room t set = true <-> In t set.
      Proof.
        intros G Ht. unfold in_set. rewrite existsb_app.
        replace (existsb (equal t) (repeat zero (room - length set) ++ beyond)) with false.
        - rewrite orb_false_r. now apply member.
        - symmetry. apply not_true_is_false. rewrite existsb_exists. intros (x & Hx & E).
          rewrite Hjunk in E; [discriminate|exact Ht|].
          apply in_app_or in Hx as [Hx|Hx]; [left; symmetry; now apply repeat_spec in Hx|now right].
      Qed.
      Lemma f_add_spec set t : good set -> In t pg -> generated mul gens t ->
        exists l, f_add equal zero beyond room (set, true) t = (set ++ l, true) /\ good (set ++ l) /\ In t (set ++ l).
      Proof.
        intros G Ht Hg. unfold f_add. cbn [negb]. destruct (in_set equal zero beyond room t set) eqn:E.
        - exists []. rewrite app_nil_r. apply in_set_iff in E; [|exact G|exact Ht]. now split.
        - assert (Hn : ~ In t set) by (intros Hi; apply in_set_iff in Hi; [congruence|exact G|exact Ht]).
          destruct (good_snoc set t G Ht Hg Hn) as (G' & L). fold room in L. apply Nat.ltb_lt in L. rewrite L.
          exists [t]. split; [reflexivity|]. split; [exact G'|]. apply in_or_app. right. now left.
      Qed.
      Lemma f_adds_spec tests set : good set -> (forall t, In t tests -> In t pg /\ generated mul gens t) ->
        exists l, fold_left (f_add equal zero beyond room) tests (set, true) = (set ++ l, true) /\ good (set ++ l) /\ incl tests (set ++ l).
      Proof.
        revert set. induction tests as [|t tests IH]; intros set G Ht; cbn [fold_left].
        - exists []. rewrite app_nil_r. split; [reflexivity|]. split; [exact G|apply incl_nil_l].
        - destruct (Ht t (or_introl eq_refl)) as (H1 & H2).
          destruct (f_add_spec set t G H1 H2) as (l & E & G' & Hi). rewrite E.
          destruct (IH (set ++ l) G' (fun u Hu => Ht u (or_intror Hu))) as (l' & E' & G'' & Hi').
          exists (l ++ l'). rewrite app_assoc. split; [exact E'|]. split; [exact G''|].
          intros u [<-|Hu]; [apply in_or_app; now left|now apply Hi'].
      Qed.
      Lemma fold_products l m st : fold_left (fun st i => fold_left (fun st j => f_add equal zero beyond room st (mul i j)) m st) l st =
        fold_left (f_add equal zero beyond room) (map (fun p => mul (fst p) (snd p)) (list_prod l m)) st.
      Proof.
        rewrite (fold_nested (fun st i j => f_add equal zero beyond room st (mul i j))).
        generalize (list_prod l m). clear. intros ps. revert st. induction ps as [|p ps IH]; intros st; cbn [fold_left map]; [reflexivity|apply IH].
      Qed.
      Lemma products_spec set t : incl set pg -> (forall x, In x set -> generated mul gens x) ->
        In t (map (fun p => mul (fst p) (snd p)) (list_prod gens set)) -> In t pg /\ generated mul gens t.
      Proof.
        intros H1 H2 Ht. apply in_map_iff in Ht as ((i & j) & <- & Hp). apply in_prod_iff in Hp as (Hi & Hj). cbn [fst snd].
        split; [apply Hclosed; [now apply Hin|now apply H1]|apply Product; [exact Hi|now apply H2]].
      Qed.
      Lemma f_pass_spec set : good set -> exists l, f_pass mul equal zero beyond room gens (set, true) = (set ++ l, true) /\
        good (set ++ l) /\ forall i j, In i gens -> In j set -> In (mul i j) (set ++ l).
      Proof.
        intros G. unfold f_pass. rewrite fold_products.
        destruct (f_adds_spec (map (fun p => mul (fst p) (snd p)) (list_prod gens set)) set G) as (l & E & G' & Hi).
        { intros t. apply products_spec; intros x Hx; now apply G. }
        exists l. split; [exact E|]. split; [exact G'|]. intros i j H1 H2. apply Hi.
        apply (in_map (fun p => mul (fst p) (snd p)) _ (i, j)). now apply in_prod.
      Qed.
      Lemma f_grow_spec fuel set : good set -> room < fuel + length set -> exists l,
        f_grow mul equal zero beyond room fuel gens (set, true) = (set ++ l, true) /\ good (set ++ l) /\
        forall i j, In i gens -> In j (set ++ l) -> In (mul i j) (set ++ l).
      Proof.
        revert set. induction fuel as [|fuel IH]; intros set G L.
        - apply good_length in G. fold room in G. lia.
        - cbn [f_grow]. destruct (f_pass_spec set G) as (l & E & G' & Hc). rewrite E. cbn [fst snd negb]. rewrite orb_false_r, app_length.
          destruct l as [|x l].
          + cbn [length]. rewrite Nat.add_0_r, Nat.eqb_refl. exists []. split; [reflexivity|]. split; [exact G'|].
            intros i j Hi Hj. rewrite app_nil_r in Hj. now apply Hc.
          + destruct (Nat.eqb_spec (length set + length (x :: l)) (length set)) as [E1|_]; [cbn in E1; lia|].
            destruct (IH (set ++ x :: l) G') as (l' & E' & G'' & Hc'); [rewrite app_length; cbn; lia|].
            exists ((x :: l) ++ l'). rewrite app_assoc. now split.
      Qed.
      Lemma forms_group_iff : NoDup gens ->
        forms_group mul equal zero beyond gens pg = true <-> generators mul gens pg.
      Proof.
        intros Nd. unfold forms_group. fold room.
        assert (G0 : good gens) by (split; [exact Nd|intros x Hx; split; [now apply Hin|now apply Generator]]).
        assert (E0 : exists l, f_first mul equal zero beyond room gens = (gens ++ l, true) /\ good (gens ++ l)).
        { unfold f_first. rewrite fold_products.
          destruct (f_adds_spec (map (fun p => mul (fst p) (snd p)) (list_prod gens gens)) gens G0) as (l & E & G' & _).
          - intros t. apply products_spec; [exact Hin|intros x Hx; now apply Generator].
          - now exists l. }
        destruct E0 as (l & -> & G1). destruct (f_grow_spec (S room) (gens ++ l) G1) as (l' & -> & G2 & Hc); [lia|].
        rewrite forallb_forall. split.
        - intros H. split; [exact Hin|]. intros x Hx. apply G2. apply (in_set_iff _ _ G2 Hx). now apply H.
        - intros [_ H] x Hx. apply (in_set_iff _ _ G2 Hx). apply (generated_set gens); [|exact Hc|now apply H].
          intros y Hy. apply in_or_app. left. apply in_or_app. now left.
      Qed.
    End fortran.

    (** *** Python *)
    Lemma py_add_spec set t : good set -> In t pg -> generated mul gens t ->
      exists l, py_add equal set t = set ++ l /\ good (set ++ l) /\ In t (set ++ l).
    Proof.
      intros G Ht Hg. unfold py_add. destruct (existsb (equal t) set) eqn:E.
      - exists []. rewrite app_nil_r. apply member in E; [|exact G|exact Ht]. now split.
      - assert (Hn : ~ In t set) by (intros Hi; apply member in Hi; [congruence|exact G|exact Ht]).
        destruct (good_snoc set t G Ht Hg Hn) as (G' & _). exists [t]. split; [reflexivity|]. split; [exact G'|].
        apply in_or_app. right. now left.
    Qed.
    Lemma py_adds_spec tests set : good set -> (forall t, In t tests -> In t pg /\ generated mul gens t) ->
      good (fold_left (py_add equal) tests set) /\ incl tests (fold_left (py_add equal) tests set) /\
      incl set (fold_left (py_add equal) tests set).
    Proof.
      revert set. induction tests as [|t tests IH]; intros set G Ht; cbn [fold_left].
      - split; [exact G|]. split; [apply incl_nil_l|apply incl_refl].
      - destruct (Ht t (or_introl eq_refl)) as (H1 & H2).
        destruct (py_add_spec set t G H1 H2) as (l & E & G' & Hi). rewrite E.
        destruct (IH (set ++ l) G' (fun u Hu => Ht u (or_intror Hu))) as (G'' & Hi' & Hs).
        split; [exact G''|]. split.
        + intros u [<-|Hu]; [now apply Hs|now apply Hi'].
        + intros u Hu. apply Hs. apply in_or_app. now left.
    Qed.
    Lemma py_first_spec : good (py_first mul equal gens) /\
      forall i j, In i gens -> In j gens -> In (mul i j) (py_first mul equal gens).
    Proof.
      unfold py_first. rewrite (fold_nested (fun g i j => py_add equal g (mul i j))).
      assert (E : forall ps g, fold_left (fun a p => py_add equal a (mul (fst p) (snd p))) ps g =
        fold_left (py_add equal) (map (fun p => mul (fst p) (snd p)) ps) g).
      { induction ps as [|p ps IH]; intros g; cbn [fold_left map]; [reflexivity|apply IH]. }
      rewrite E. destruct (py_adds_spec (map (fun p => mul (fst p) (snd p)) (list_prod gens gens)) []) as (G & Hi & _).
      - split; [constructor|intros x []].
      - intros t Ht. apply in_map_iff in Ht as ((i & j) & <- & Hp). apply in_prod_iff in Hp as (H1 & H2). cbn [fst snd].
        split; [apply Hclosed; now apply Hin|apply Product; [exact H1|now apply Generator]].
      - split; [exact G|]. intros i j H1 H2. apply Hi. apply (in_map (fun p => mul (fst p) (snd p)) _ (i, j)). now apply in_prod.
    Qed.
    Lemma py_inner_spec i : In i gens -> forall fuel n set, good set -> length pg < fuel + n -> n <= length set ->
      (forall k x, k < n -> nth_error set k = Some x -> In (mul i x) set) ->
      exists l, py_inner mul equal fuel i n set = Some (set ++ l) /\ good (set ++ l) /\ forall x, In x (set ++ l) -> In (mul i x) (set ++ l).
    Proof.
      intros Hi. induction fuel as [|fuel IH]; intros n set G L Ln Hn.
      - pose proof (good_length set G). lia.
      - cbn [py_inner]. destruct (nth_error set n) as [x|] eqn:E.
        + assert (Hx : In x set) by (eapply nth_error_In; exact E). destruct G as [N G].
          destruct (py_add_spec set (mul i x)) as (l & -> & G' & Hm).
          { now split. } { apply Hclosed; [now apply Hin|now apply G]. } { apply Product; [exact Hi|now apply G]. }
          destruct (IH (S n) (set ++ l) G') as (l' & E' & G'' & Hc).
          * lia.
          * rewrite app_length. assert (n < length set) by (apply nth_error_Some; congruence). lia.
          * intros k y Hk Ey. assert (Hk' : k < length set) by (assert (n < length set) by (apply nth_error_Some; congruence); lia).
            rewrite nth_error_app1 in Ey by exact Hk'.
            destruct (Nat.eq_dec k n) as [->|Hkn]; [rewrite E in Ey; injection Ey as <-; exact Hm|].
            apply in_or_app. left. apply (Hn k); [lia|exact Ey].
          * exists (l ++ l'). rewrite app_assoc. now split.
        + exists []. rewrite app_nil_r. split; [reflexivity|]. split; [exact G|]. apply nth_error_None in E.
          intros x Hx. apply In_nth_error in Hx as (k & Ek). apply (Hn k); [|exact Ek].
          assert (k < length set) by (apply nth_error_Some; congruence). lia.
    Qed.
    Lemma py_pass_spec fuel : length pg < fuel -> forall is set, incl is gens -> good set ->
      exists l, py_pass mul equal fuel is set = Some (set ++ l) /\ good (set ++ l) /\
        (l = [] -> forall i x, In i is -> In x set -> In (mul i x) set).
    Proof.
      intros L. induction is as [|i is IH]; intros set Hi G; cbn [py_pass].
      - exists []. rewrite app_nil_r. split; [reflexivity|]. split; [exact G|]. intros _ i x [].
      - destruct (py_inner_spec i (Hi i (or_introl eq_refl)) fuel 0 set G) as (l & -> & G' & Hc); [lia|lia|intros; lia|].
        destruct (IH (set ++ l) (fun j Hj => Hi j (or_intror Hj)) G') as (l' & E & G'' & Hc').
        exists (l ++ l'). rewrite app_assoc. split; [exact E|]. split; [exact G''|].
        intros El. apply app_eq_nil in El as (-> & El'). rewrite app_nil_r in Hc, Hc'.
        intros j x [<-|Hj] Hx; [now apply Hc|now apply (Hc' El')].
    Qed.
    Lemma py_grow_spec inner fuel set : length pg < inner -> good set -> length pg < fuel + length set -> exists l,
      py_grow mul equal inner fuel gens set = Some (set ++ l) /\ good (set ++ l) /\
      forall i x, In i gens -> In x (set ++ l) -> In (mul i x) (set ++ l).
    Proof.
      intros Li. revert set. induction fuel as [|fuel IH]; intros set G L.
      - apply good_length in G. lia.
      - cbn [py_grow]. destruct (py_pass_spec inner Li gens set (incl_refl _) G) as (l & -> & G' & Hc).
        rewrite app_length. destruct l as [|x l].
        + cbn [length]. rewrite Nat.add_0_r, Nat.eqb_refl. exists []. split; [reflexivity|]. split; [exact G'|].
          rewrite app_nil_r. now apply Hc.
        + destruct (Nat.eqb_spec (length set + length (x :: l)) (length set)) as [E1|_]; [cbn in E1; lia|].
          destruct (IH (set ++ x :: l) G') as (l' & E' & G'' & Hc'); [rewrite app_length; cbn; lia|].
          exists ((x :: l) ++ l'). rewrite app_assoc. now split.
    Qed.
    (** A finite set closed under multiplication by [g] contains [g] if it contains [g g]. *)
    Lemma root_in g set : good set -> In g gens -> (forall x, In x set -> In (mul g x) set) -> In (mul g g) set -> In g set.
    Proof.
      intros [N G] Hg Hc Hgg.
      assert (Hi : incl (map (mul g) set) set) by (intros y Hy; apply in_map_iff in Hy as (x & <- & Hx); now apply Hc).
      assert (Nd : NoDup (map (mul g) set)).
      { assert (Hsub : forall l, NoDup l -> incl l set -> NoDup (map (mul g) l)).
        { induction l as [|x l IH]; intros Nl Hl; cbn [map]; constructor.
          - inversion Nl; subst. intros Hx. apply in_map_iff in Hx as (y & E & Hy).
            assert (y = x). { apply (Hcancel g); [now apply Hin|apply G, Hl; now right|apply G, Hl; now left|exact E]. }
            now subst.
          - inversion Nl; subst. apply IH; [assumption|]. intros y Hy. apply Hl. now right. }
        apply Hsub; [exact N|apply incl_refl]. }
      assert (Hs : incl set (map (mul g) set)).
      { apply NoDup_length_incl; [exact Nd|rewrite map_length; lia|exact Hi]. }
      apply Hs in Hgg. apply in_map_iff in Hgg as (y & E & Hy).
      replace g with y; [exact Hy|]. apply (Hcancel g); [now apply Hin|now apply G|now apply Hin|exact E].
    Qed.
    Lemma py_correct_true l group : py_correct equal true l group = true.
    Proof. induction l as [|x l IH]; cbn; [reflexivity|exact IH]. Qed.
    Lemma py_forms_group_iff fuel : length pg < fuel -> pg <> [] -> exists r,
      py_forms_group mul equal fuel gens pg = Some r /\ (r = true <-> generators mul gens pg).
    Proof.
      intros L Hne. unfold py_forms_group. destruct py_first_spec as (G0 & H0).
      destruct (py_grow_spec fuel fuel (py_first mul equal gens) L G0) as (l & -> & G & Hc); [lia|].
      set (group := py_first mul equal gens ++ l) in *.
      eexists. split; [reflexivity|].
      assert (Hg : incl gens group).
      { intros g Hg. apply root_in; [exact G|exact Hg|intros x Hx; now apply Hc|].
        apply in_or_app. left. now apply H0. }
      assert (Hinc : incl group pg) by (intros x Hx; now apply G).
      destruct (Nat.eqb_spec (length pg) (length group)) as [E|E]; cbn [negb].
      - assert (Hp : incl pg group) by (apply NoDup_length_incl; [apply G|lia|exact Hinc]).
        split; intros _.
        + split; [exact Hin|]. intros x Hx. apply G. now apply Hp.
        + destruct pg as [|p q] eqn:Ep; [contradiction|]. cbn [py_correct]. cbn [orb].
          replace (existsb (equal p) group) with true; [cbn [negb]; apply py_correct_true|].
          symmetry. apply existsb_exists. exists p. split; [apply Hp; now left|]. apply HE; [now left|now left|reflexivity].
      - split; [discriminate|]. intros [_ H]. exfalso. apply E. apply Nat.le_antisymm.
        + apply NoDup_incl_length; [exact Hnd|]. intros x Hx. apply (generated_set gens); [exact Hg|exact Hc|now apply H].
        + apply NoDup_incl_length; [apply G|exact Hinc].
    Qed.
  End with_gens.

  (** *** The searches *)
  Lemma py_search_spec fuel tests : length pg < fuel -> pg <> [] -> (forall t, In t tests -> incl t pg) ->
    exists r, py_search mul equal fuel pg tests = Some r /\
      match r with
      | Some g => In g tests /\ generators mul g pg
      | None => forall t, In t tests -> ~ generators mul t pg
      end.
  Proof.
    intros L Hne. induction tests as [|t tests IH]; intros Ht; cbn [py_search].
    - exists None. split; [reflexivity|]. intros t [].
    - destruct (py_forms_group_iff t (Ht t (or_introl eq_refl)) fuel L Hne) as (b & -> & Hb).
      destruct b.
      + exists (Some t). split; [reflexivity|]. split; [now left|now apply Hb].
      + destruct (IH (fun u Hu => Ht u (or_intror Hu))) as (r & -> & Hr). exists r. split; [reflexivity|].
        destruct r as [g|].
        * destruct Hr as (H1 & H2). split; [now right|exact H2].
        * intros u [<-|Hu]; [|now apply Hr]. intros Hg. apply Hb in Hg. discriminate.
  Qed.
  (** Any generators can be listed in the order of [pg] without repetition. *)
  Lemma sublist_generators gens : generators mul gens pg -> pg <> [] ->
    exists r h, In h (combinations r pg) /\ generators mul h pg /\ 1 <= r <= length gens /\ r <= length pg /\ (NoDup gens -> r = length gens).
  Proof.
    intros [Hi Hg] Hne. set (p := fun x => existsb (equal x) gens). exists (length (filter p pg)), (filter p pg).
    assert (Hm : forall x, In x (filter p pg) <-> In x gens).
    { intros x. rewrite filter_In. unfold p. rewrite existsb_exists. split.
      - intros (Hx & y & Hy & E). apply HE in E; [now subst|exact Hx|now apply Hi].
      - intros Hx. split; [now apply Hi|]. exists x. split; [exact Hx|]. apply HE; [now apply Hi|now apply Hi|reflexivity]. }
    split; [apply combinations_filter|]. split; [|split; [split|split]].
    - split; [intros x Hx; apply Hi; now apply Hm|]. intros x Hx. apply (generated_mono gens); [|now apply Hg].
      intros y Hy. now apply Hm.
    - destruct pg as [|x q] eqn:Ep; [contradiction|]. pose proof (Hg x (or_introl eq_refl)) as Gx.
      destruct (filter p (x :: q)) as [|y f] eqn:Ef; [exfalso|cbn; lia].
      assert (H0 : forall y, ~ In y gens) by (intros y Hy; now apply Hm in Hy). inversion Gx; subst; eapply H0; eassumption.
    - apply NoDup_incl_length; [apply NoDup_filter, Hnd|]. intros x Hx. now apply Hm.
    - apply NoDup_incl_length; [apply NoDup_filter, Hnd|]. intros x Hx. now apply filter_In in Hx.
    - intros Ng. apply Nat.le_antisymm; (apply NoDup_incl_length; [first [exact Ng|apply NoDup_filter, Hnd]|]); intros x Hx; now apply Hm.
  Qed.
  Lemma find_gens_spec fuel : length pg < fuel -> pg <> [] ->
    exists g, find_gens_of_pg mul equal fuel pg = Some g /\ generators mul g pg /\
      forall h, generators mul h pg -> length g <= length h.
  Proof.
    intros L Hne. unfold find_gens_of_pg.
    assert (H : forall f n, length pg < f + n -> 1 <= n -> (forall r h, r < n -> In h (combinations r pg) -> 1 <= r -> ~ generators mul h pg) ->
      exists g, py_gens_loop mul equal fuel f n pg = Some g /\ generators mul g pg /\ forall h, generators mul h pg -> length g <= length h).
    { induction f as [|f IH]; intros n Ln Hn Hno.
      - exfalso. assert (Hgen : generators mul pg pg) by (split; [apply incl_refl|intros x Hx; now apply Generator]).
        destruct (sublist_generators pg Hgen Hne) as (r & h & Hh & Hg & Hr & Hr' & _). apply (Hno r h); [lia|exact Hh|lia|exact Hg].
      - cbn [py_gens_loop].
        destruct (py_search_spec fuel (combinations n pg) L Hne) as (r & -> & Hr).
        { intros t Ht. now apply combinations_spec in Ht. }
        destruct r as [g|].
        + destruct Hr as (Hg & Hgen). exists g. split; [reflexivity|]. split; [exact Hgen|]. intros h Hh.
          apply combinations_spec in Hg as (-> & _).
          destruct (sublist_generators h Hh Hne) as (r & k & Hk & Hkg & Hr & _).
          destruct (le_lt_dec n r); [lia|]. exfalso. apply (Hno r k); [assumption|exact Hk|lia|exact Hkg].
        + apply IH; [lia|lia|]. intros r h Hrn Hh Hr1. destruct (Nat.eq_dec r n) as [->|]; [now apply Hr|apply (Hno r h); [lia|exact Hh|exact Hr1]]. }
    apply H; [lia|lia|]. intros r h Hr _ Hr1. lia.
  Qed.
  Lemma find_pg_gens_spec zero beyond : 2 <= length pg ->
    (forall p x, In p pg -> In x (zero :: beyond) -> equal p x = false) ->
    match find_pg_gens mul equal zero beyond pg with
    | Some g => generators mul g pg /\ NoDup g /\
        (length g = 2 \/ length g = 3 /\ forall h, generators mul h pg -> 3 <= length h)
    | None => forall h, generators mul h pg -> 4 <= length h
    end.
  Proof.
    intros L2 Hj. unfold find_pg_gens.
    assert (Hiff : forall r h, In h (combinations r pg) -> forms_group mul equal zero beyond h pg = true <-> generators mul h pg).
    { intros r h Hh. apply combinations_spec in Hh as (_ & Hi & Nd). apply forms_group_iff; [exact Hi|exact Hj|now apply Nd]. }
    assert (Hne : pg <> []) by (intros E; rewrite E in L2; cbn in L2; lia).
    assert (Hlow : (forall h, In h (combinations 2 pg) -> ~ generators mul h pg) -> forall h, generators mul h pg -> 3 <= length h).
    { intros Hno h Hh. destruct (sublist_generators h Hh Hne) as (r & k & Hk & Hkg & Hr & _).
      destruct (le_lt_dec 3 r) as [|Hr3]; [lia|]. exfalso.
      assert (Hr2 : r = 1 \/ r = 2) by lia. destruct Hr2 as [->| ->]; [|now apply (Hno k)].
      pose proof Hk as Hk'. apply combinations_spec in Hk' as (Lk & Ik & _).
      destruct k as [|x [|? ?]]; cbn in Lk; try lia.
      assert (Hz : exists z, In z pg /\ z <> x).
      { assert (Hx : In x pg) by (apply Ik; now left). clear - Hnd L2 HE Hx. destruct pg as [|y [|z q]]; cbn in L2; try lia.
        inversion Hnd as [|? ? Hy _]; subst.
        destruct (equal y x) eqn:Eyx; [apply HE in Eyx; [subst y|now left|exact Hx]|exists y; split; [now left|]; intros ->; assert (equal x x = true) by (apply HE; [now left|now left|reflexivity]); congruence].
        exists z. split; [right; now left|]. intros ->. apply Hy. now left. }
      destruct Hz as (z & Hz & Hzx).
      assert (Hxz : generators mul [x; z] pg).
      { split; [intros y [<-|[<-|[]]]; [apply Ik; now left|exact Hz]|].
        intros y Hy. apply (generated_mono [x]); [intros w [<-|[]]; now left|now apply Hkg]. }
      destruct (sublist_generators [x; z] Hxz Hne) as (r & k & Hk2 & Hkg2 & _ & _ & Er).
      assert (Nxz : NoDup [x; z]) by (constructor; [intros [E|[]]; congruence|constructor; [intros []|constructor]]).
      rewrite (Er Nxz) in Hk2. now apply (Hno k). }
    destruct (find _ (combinations 2 pg)) as [g|] eqn:E2.
    - apply find_some in E2 as (Hg & E). split; [now apply (Hiff 2)|]. apply combinations_spec in Hg as (Lg & _ & Ng). split; [now apply Ng|now left].
    - assert (H2 : forall h, In h (combinations 2 pg) -> ~ generators mul h pg).
      { intros h Hh Hgen. apply (Hiff 2 h Hh) in Hgen. pose proof (find_none _ _ E2 h Hh) as Hf. cbn beta in Hf. congruence. }
      destruct (find _ (combinations 3 pg)) as [g|] eqn:E3.
      + apply find_some in E3 as (Hg & E). split; [now apply (Hiff 3)|]. apply combinations_spec in Hg as (Lg & _ & Ng).
        split; [now apply Ng|]. right. split; [exact Lg|now apply Hlow].
      + intros h Hgen. pose proof (Hlow H2 h Hgen).
        destruct (Nat.eq_dec (length h) 3) as [E|]; [|lia]. exfalso.
        destruct (sublist_generators h Hgen Hne) as (r & k & Hk & Hkg & Hr & _).
        pose proof (Hlow H2 k Hkg) as Hk3. pose proof (combinations_spec _ _ _ Hk) as (Lk & _). assert (r = 3) by lia. subst r.
        rewrite H0 in Hk. apply (Hiff 3 k Hk) in Hkg. pose proof (find_none _ _ E3 k Hk) as Hf. cbn beta in Hf. congruence.
  Qed.
End groups.
