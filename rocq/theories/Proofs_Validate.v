(** Proofs about the validator model. *)
From Verif Require Import Py Num Model_Validate Spec_Validate.

Lemma get_column_ok f c col : get_column f c = Ok col <-> column_named f c col.
Proof.
  unfold get_column, column_named. split.
  - destruct (filter _ f) as [|[n x] [|]] eqn:E; try discriminate.
    intro H; injection H as ->.
    revert E. induction f as [|[n' x'] f IH]; simpl; [discriminate|].
    destruct (String.eqb_spec (lower n') c).
    + intro H; injection H as -> -> E0. exists n, [], f. repeat split; auto.
      intros n'' y [[]|H] K.
      assert (In (n'', y) (filter (fun nc => String.eqb (lower (fst nc)) c) f)).
      { apply filter_In. simpl. rewrite K. split; auto. apply String.eqb_refl. }
      rewrite E0 in H0. destruct H0.
    + intro H. destruct (IH H) as (nn & b & a & -> & H1 & H2).
      exists nn, ((n', x') :: b), a. repeat split; auto.
      intros n'' y [[K|K]|K]; eauto. injection K as -> ->. auto.
  - intros (n & b & a & -> & H1 & H2).
    rewrite filter_app; simpl. rewrite H1, String.eqb_refl.
    assert (N : forall l, (forall n' x, In (n', x) l -> lower n' <> c) ->
            filter (fun nc : string * column => String.eqb (lower (fst nc)) c) l = []).
    { induction l as [|[n' y] l IH]; simpl; auto. intro K.
      destruct (String.eqb_spec (lower n') c).
      - exfalso. eapply K; eauto.
      - apply IH. intros. eapply K; eauto. }
    rewrite !N; eauto.
Qed.

Lemma nums_of_ok l xs : nums_of l = Ok xs <-> l = map CNum xs.
Proof.
  revert xs. induction l as [|[x|s] l IH]; intro xs; simpl.
  - split; intro H; [injection H as <-; reflexivity | destruct xs; [reflexivity|discriminate]].
  - destruct (nums_of l) as [ys|e] eqn:E; simpl.
    + split; intro H.
      * injection H as <-. simpl. f_equal. apply IH. reflexivity.
      * destruct xs as [|y xs]; [discriminate|]. injection H as -> ->.
        assert (K : Ok ys = Ok xs) by (apply IH; reflexivity). injection K as ->. reflexivity.
    + split; [discriminate|]. intro H. destruct xs as [|y xs]; [discriminate|].
      injection H as -> ->. assert (K : Err e = Ok xs) by (apply IH; reflexivity). discriminate.
  - split; [discriminate|]. destruct xs; discriminate.
Qed.
Lemma nums_of_map xs : nums_of (map CNum xs) = Ok xs.
Proof. apply nums_of_ok. reflexivity. Qed.

Lemma numeric_cells_ok col : numeric_cells col <-> exists xs, nums_of (c_cells col) = Ok xs.
Proof.
  unfold numeric_cells. split.
  - generalize (c_cells col). induction l as [|x l IH]; intro H; simpl.
    + eauto.
    + destruct (H x (or_introl eq_refl)) as [v ->].
      destruct IH as [xs ->]. { intros; apply H; right; auto. } simpl. eauto.
  - intros [xs H] x Hx. apply nums_of_ok in H. rewrite H in Hx.
    apply in_map_iff in Hx as (v & <- & _). eauto.
Qed.

Lemma first_bad_none bad i l : first_bad bad i l = None <-> forall x, In x l -> bad x = false.
Proof.
  revert i. induction l as [|x l IH]; intro i; simpl.
  - split; auto. intros _ ? [].
  - destruct (bad x) eqn:E.
    + split; [discriminate|]. intro H. rewrite H in E by auto. discriminate.
    + rewrite IH. split; intros H y; [intros [<-|]; auto|auto].
Qed.
Lemma first_bad_some bad i l j v : first_bad bad i l = Some (j, v) ->
  exists k, j = (i + k)%nat /\ nth_error l k = Some v /\ bad v = true /\
            forall m x, (m < k)%nat -> nth_error l m = Some x -> bad x = false.
Proof.
  revert i. induction l as [|x l IH]; intro i; simpl; [discriminate|].
  destruct (bad x) eqn:E.
  - intro H; injection H as <- <-. exists 0%nat. repeat split; auto. intros; lia.
  - intro H. destruct (IH _ H) as (k & -> & H1 & H2 & H3). exists (S k).
    repeat split; auto; try lia. intros [|m] y Hm; simpl; [congruence|].
    apply H3. lia.
Qed.

Lemma is_integer_iff q : is_integer q = true <-> exists z, q == inject_Z z.
Proof.
  unfold is_integer. rewrite Qeq_bool_iff. split; intro H.
  - exists (Qfloor q). rewrite H. reflexivity.
  - destruct H as [z H]. rewrite H at 2. rewrite H, Qfloor_Z. reflexivity.
Qed.

Lemma in_map_num xs v : In (CNum v) (map CNum xs) <-> In v xs.
Proof.
  rewrite in_map_iff. split; [intros (x & H & ?); injection H as ->; auto | eauto].
Qed.

(** ** check_type *)
Lemma check_type_ok col t : check_type col t = Ok None <-> type_holds t col.
Proof.
  unfold check_type, type_holds.
  assert (V : str_in t ["integer"; "float"; "numeric"; "string"]%string = false ->
              t <> "integer"%string /\ t <> "float"%string /\ t <> "numeric"%string /\ t <> "string"%string).
  { intro H. repeat split; intros ->; vm_compute in H; discriminate. }
  destruct (str_in t _) eqn:E; simpl.
  2:{ split; [discriminate|]. intros [[K _]|[[K _]|[[K _]|[K _]]]]; destruct (V eq_refl) as (?&?&?&?); congruence. }
  clear V.
  destruct (String.eqb_spec t "integer") as [->|N1].
  { assert (X : (let! xs := nums_of (c_cells col) in
        match first_bad non_integer 0 xs with
        | Some (i, v) => Ok (Some (NotInteger i v)) | None => Ok None end) = Ok None <->
      forall x, In x (c_cells col) -> exists z : Z, exists q, x = CNum (Some q) /\ q == inject_Z z).
    { split.
      - destruct (nums_of _) as [xs|] eqn:N; simpl; [|discriminate].
        apply nums_of_ok in N. rewrite N.
        destruct (first_bad _ _ _) as [[? ?]|] eqn:F; [discriminate|]. intros _ x Hx.
        apply in_map_iff in Hx as (v & <- & Hv).
        rewrite first_bad_none in F. specialize (F _ Hv). destruct v as [q|]; simpl in F; [|discriminate].
        apply negb_false_iff, is_integer_iff in F as [z Hz]. eauto.
      - intro H. assert (NC : numeric_cells col).
        { intros x Hx. destruct (H x Hx) as (z & q & -> & _). eauto. }
        apply numeric_cells_ok in NC as [xs N]. rewrite N; simpl. apply nums_of_ok in N. rewrite N in H.
        replace (first_bad non_integer 0 xs) with (@None (nat * num)); [reflexivity|].
        symmetry. apply first_bad_none. intros v Hv.
        destruct (H (CNum v)) as (z & q & K & Hz). { apply in_map_iff; eauto. }
        injection K as ->. simpl. apply negb_false_iff, is_integer_iff. eauto. }
    destruct (c_dtype col) eqn:D.
    - rewrite X. split; [intro; left; repeat split; auto; discriminate|].
      intros [(_&_&H)|[[K _]|[[K _]|[K _]]]]; auto; discriminate.
    - rewrite X. split; [intro; left; repeat split; auto; discriminate|].
      intros [(_&_&H)|[[K _]|[[K _]|[K _]]]]; auto; discriminate.
    - destruct (c_cells col) as [|x l] eqn:C.
      + simpl. split; auto. intros _. left. repeat split; auto. intros ? [].
      + split; [discriminate|]. intros [(_&H&_)|[[K _]|[[K _]|[K _]]]]; try discriminate.
        specialize (H eq_refl). discriminate.
    - rewrite X. split; [intro; left; repeat split; auto; discriminate|].
      intros [(_&_&H)|[[K _]|[[K _]|[K _]]]]; auto; discriminate. }
  destruct (String.eqb_spec t "float") as [->|N2].
  { destruct (c_dtype col); split; try discriminate; auto;
      intros [[K _]|[[_ K]|[[K _]|[K _]]]]; discriminate. }
  destruct (String.eqb_spec t "numeric") as [->|N3].
  { destruct (c_dtype col); split; try discriminate; auto.
    1,2: intros _; right; right; left; auto.
    all: intros [[K _]|[[K _]|[[_ [K|K]]|[K _]]]]; discriminate. }
  assert (t = "string"%string) as ->.
  { unfold str_in in E; simpl in E.
    repeat (apply orb_true_iff in E as [E|E]; [apply String.eqb_eq in E; congruence|]).
    discriminate. }
  destruct (c_dtype col); split; try discriminate; auto;
    try (intros [[K _]|[[K _]|[[K _]|[_ K]]]]; discriminate).
Qed.

Lemma has_decrease_false l : has_decrease l = false <->
  forall i a b, nth_error l i = Some (Some a) -> nth_error l (S i) = Some (Some b) -> a <= b.
Proof.
  induction l as [|x l IH].
  - simpl. split; auto. intros _ [|i]; discriminate.
  - destruct l as [|y l].
    + simpl. split; auto. intros _ [|[|i]]; simpl; discriminate.
    + change (has_decrease (x :: y :: l)) with
        (match x, y with Some a, Some b => Qlt_bool b a || has_decrease (y :: l)
                       | _, _ => has_decrease (y :: l) end).
      assert (S1 : has_decrease (y :: l) = false <->
        forall i a b, nth_error (x :: y :: l) (S i) = Some (Some a) ->
                      nth_error (x :: y :: l) (S (S i)) = Some (Some b) -> a <= b).
      { rewrite IH. reflexivity. }
      destruct x as [a|]; [destruct y as [b|]|].
      * rewrite orb_false_iff, Qlt_bool_false, S1. split.
        -- intros [H1 H2] [|i] u v; [simpl; intros E F; injection E as <-; injection F as <-; auto|apply H2].
        -- intro H. split; [apply (H 0%nat); reflexivity|]. intros i; apply (H (S i)).
      * rewrite S1. split; [intros H [|i] u v; [simpl; discriminate|apply H]|intros H i; apply (H (S i))].
      * rewrite S1. split; [intros H [|i] u v; [simpl; discriminate|apply H]|intros H i; apply (H (S i))].
Qed.

Lemma nth_map_num xs i v : nth_error (map CNum xs) i = Some (CNum v) <-> nth_error xs i = Some v.
Proof.
  revert xs. induction i; intros [|x xs]; simpl; try (split; discriminate).
  - split; intro H; injection H as ->; auto.
  - apply IHi.
Qed.

(** ** The six rules: passing, and what a rejection says. *)
Lemma do_type_ok f c r : do_type f c r = Ok None <-> forall k, In k (opt KType (r_type r)) -> met f (c, k).
Proof.
  unfold do_type. destruct (r_type r) as [t|]; simpl; [|split; auto; intros _ ? []].
  split.
  - destruct (get_column f c) eqn:G; simpl; [|discriminate]. intros H k [<-|[]].
    destruct (check_type a t) as [[|]|] eqn:E; simpl in H; try discriminate.
    exists a. split; [apply get_column_ok|apply check_type_ok]; auto.
  - intro H. destruct (H _ (or_introl eq_refl)) as (col & H1 & H2); simpl in *.
    apply get_column_ok in H1. rewrite H1; simpl. apply check_type_ok in H2. rewrite H2. reflexivity.
Qed.

Lemma do_max_ok f c r : do_max f c r = Ok None <-> forall k, In k (opt KMax (r_max r)) -> met f (c, k).
Proof.
  unfold do_max. destruct (r_max r) as [m|]; simpl; [|split; auto; intros _ ? []].
  split.
  - destruct (get_column f c) eqn:G; simpl; [|discriminate].
    destruct (nums_of (c_cells a)) as [xs|] eqn:N; simpl; [|discriminate].
    destruct (first_bad _ _ _) as [[? ?]|] eqn:F; [discriminate|]. intros _ k [<-|[]].
    exists a. split; [apply get_column_ok; auto|]. simpl. split; [apply numeric_cells_ok; eauto|].
    apply nums_of_ok in N. rewrite N. intros q Hq. apply in_map_num in Hq.
    rewrite first_bad_none in F. specialize (F _ Hq). simpl in F. apply Qlt_bool_false in F. auto.
  - intro H. destruct (H _ (or_introl eq_refl)) as (col & H1 & H2 & H3); simpl in *.
    apply get_column_ok in H1. rewrite H1; simpl. apply numeric_cells_ok in H2 as [xs N].
    rewrite N; simpl. apply nums_of_ok in N. rewrite N in H3.
    match goal with |- context [first_bad ?b ?i ?l] =>
      replace (first_bad b i l) with (@None (nat * num)); [reflexivity|symmetry; apply first_bad_none] end.
    intros [q|] Hq; auto. apply Qlt_bool_false, H3, in_map_num; auto.
Qed.
Lemma do_min_ok f c r : do_min f c r = Ok None <-> forall k, In k (opt KMin (r_min r)) -> met f (c, k).
Proof.
  unfold do_min. destruct (r_min r) as [m|]; simpl; [|split; auto; intros _ ? []].
  split.
  - destruct (get_column f c) eqn:G; simpl; [|discriminate].
    destruct (nums_of (c_cells a)) as [xs|] eqn:N; simpl; [|discriminate].
    destruct (first_bad _ _ _) as [[? ?]|] eqn:F; [discriminate|]. intros _ k [<-|[]].
    exists a. split; [apply get_column_ok; auto|]. simpl. split; [apply numeric_cells_ok; eauto|].
    apply nums_of_ok in N. rewrite N. intros q Hq. apply in_map_num in Hq.
    rewrite first_bad_none in F. specialize (F _ Hq). simpl in F. apply Qlt_bool_false in F. auto.
  - intro H. destruct (H _ (or_introl eq_refl)) as (col & H1 & H2 & H3); simpl in *.
    apply get_column_ok in H1. rewrite H1; simpl. apply numeric_cells_ok in H2 as [xs N].
    rewrite N; simpl. apply nums_of_ok in N. rewrite N in H3.
    match goal with |- context [first_bad ?b ?i ?l] =>
      replace (first_bad b i l) with (@None (nat * num)); [reflexivity|symmetry; apply first_bad_none] end.
    intros [q|] Hq; auto. apply Qlt_bool_false, H3, in_map_num; auto.
Qed.

Lemma first_cell_ok col xs q : nums_of (c_cells col) = Ok xs -> In (Some q) xs -> exists v, first_cell col = Ok v.
Proof.
  intros N H. apply nums_of_ok in N. unfold first_cell. rewrite N.
  destruct xs; [destruct H|simpl; eauto].
Qed.

Lemma do_max_at_least_ok f c r :
  do_max_at_least f c r = Ok None <-> forall k, In k (opt KMaxAtLeast (r_max_at_least r)) -> met f (c, k).
Proof.
  unfold do_max_at_least. destruct (r_max_at_least r) as [m|]; simpl; [|split; auto; intros _ ? []].
  split.
  - destruct (get_column f c) eqn:G; simpl; [|discriminate].
    destruct (nums_of (c_cells a)) as [xs|] eqn:N; simpl; [|discriminate].
    pose proof (col_max_spec xs) as M. pose proof N as N'. apply nums_of_ok in N'.
    intros H k [<-|[]].
    exists a. split; [apply get_column_ok; auto|]. simpl. split; [apply numeric_cells_ok; eauto|].
    rewrite N'. destruct (col_max xs) as [q|].
    + destruct (Qlt_bool q m) eqn:E.
      { destruct (first_cell a); discriminate. }
      right. exists q. rewrite in_map_num. split; [tauto|]. apply Qlt_bool_false; auto.
    + left. intros q. rewrite in_map_num. auto.
  - intro H. destruct (H _ (or_introl eq_refl)) as (col & H1 & H2 & H3); simpl in *.
    apply get_column_ok in H1. rewrite H1; simpl. apply numeric_cells_ok in H2 as [xs N].
    rewrite N; simpl. apply nums_of_ok in N. rewrite N in H3.
    pose proof (col_max_spec xs) as M. destruct (col_max xs) as [q|]; auto.
    destruct M as [M1 M2]. destruct (Qlt_bool q m) eqn:E; auto.
    apply Qlt_bool_iff in E. exfalso. destruct H3 as [H3|(p & P1 & P2)].
    + apply (H3 q), in_map_num. auto.
    + rewrite in_map_num in P1. specialize (M2 _ P1). lra.
Qed.
Lemma do_min_is_below_ok f c r :
  do_min_is_below f c r = Ok None <-> forall k, In k (opt KMinBelow (r_min_is_below r)) -> met f (c, k).
Proof.
  unfold do_min_is_below. destruct (r_min_is_below r) as [m|]; simpl; [|split; auto; intros _ ? []].
  split.
  - destruct (get_column f c) eqn:G; simpl; [|discriminate].
    destruct (nums_of (c_cells a)) as [xs|] eqn:N; simpl; [|discriminate].
    pose proof (col_min_spec xs) as M. pose proof N as N'. apply nums_of_ok in N'.
    intros H k [<-|[]].
    exists a. split; [apply get_column_ok; auto|]. simpl. split; [apply numeric_cells_ok; eauto|].
    rewrite N'. destruct (col_min xs) as [q|].
    + destruct (Qlt_bool m q) eqn:E.
      { destruct (first_cell a); discriminate. }
      right. exists q. rewrite in_map_num. split; [tauto|]. apply Qlt_bool_false; auto.
    + left. intros q. rewrite in_map_num. auto.
  - intro H. destruct (H _ (or_introl eq_refl)) as (col & H1 & H2 & H3); simpl in *.
    apply get_column_ok in H1. rewrite H1; simpl. apply numeric_cells_ok in H2 as [xs N].
    rewrite N; simpl. apply nums_of_ok in N. rewrite N in H3.
    pose proof (col_min_spec xs) as M. destruct (col_min xs) as [q|]; auto.
    destruct M as [M1 M2]. destruct (Qlt_bool m q) eqn:E; auto.
    apply Qlt_bool_iff in E. exfalso. destruct H3 as [H3|(p & P1 & P2)].
    + apply (H3 q), in_map_num. auto.
    + rewrite in_map_num in P1. specialize (M2 _ P1). lra.
Qed.

Definition incr_rules (r : rules) : list rule :=
  match r_monotonic r with
  | Some m => if String.eqb m "increasing" then [KIncreasing] else []
  | None => []
  end.
Lemma do_monotonic_ok f c r :
  do_monotonic f c r = Ok None <-> forall k, In k (incr_rules r) -> met f (c, k).
Proof.
  unfold do_monotonic, incr_rules. destruct (r_monotonic r) as [m|]; simpl; [|split; auto; intros _ ? []].
  destruct (String.eqb m "increasing"); [|split; auto; intros _ ? []].
  assert (X : forall col, column_named f c col ->
    (match c_cells col with
        | [] | [_] => Ok None
        | cells => let! xs := nums_of cells in
                   if has_decrease xs then Ok (Some (RMonotonic c)) else Ok None
     end = Ok None <-> increasing_holds col)).
  { intros col _. unfold increasing_holds, numeric_cells.
    destruct (c_cells col) as [|x [|y l]] eqn:C.
    - split; auto. intros _. split; [simpl; lia|]. intros [|i]; discriminate.
    - split; auto. intros _. split; [simpl; lia|]. intros [|[|i]]; discriminate.
    - split.
      + destruct (nums_of (x :: y :: l)) as [xs|] eqn:N; cbn [bind]; [|discriminate].
        destruct (has_decrease xs) eqn:HD; [discriminate|]. intros _.
        apply nums_of_ok in N. rewrite N. split.
        * intros _ z Hz. apply in_map_iff in Hz as (v & <- & _); eauto.
        * rewrite has_decrease_false in HD. intros i a b. rewrite !nth_map_num. apply HD.
      + intros [H1 H2]. specialize (H1 ltac:(simpl; lia)).
        assert (NC : exists xs, nums_of (x :: y :: l) = Ok xs).
        { rewrite <- C. apply numeric_cells_ok. unfold numeric_cells. rewrite C. auto. }
        destruct NC as [xs N]. rewrite N; cbn [bind]. apply nums_of_ok in N. rewrite N in H2.
        assert (HD : has_decrease xs = false).
        { apply has_decrease_false. intros i a b Ha Hb.
          apply (H2 i); apply nth_map_num; auto. }
        rewrite HD. reflexivity. }
  split.
  - destruct (get_column f c) eqn:G; cbn [bind]; [|discriminate]. intros H k [<-|[]].
    apply get_column_ok in G. exists a. split; auto. apply X; auto.
  - intro H. destruct (H _ (or_introl eq_refl)) as (col & H1 & H2); simpl in *.
    pose proof H1 as H1'. apply get_column_ok in H1. rewrite H1; cbn [bind]. apply X; auto.
Qed.

Lemma and_then_none a b : and_then a b = Ok None <-> a = Ok None /\ b = Ok None.
Proof.
  destruct a as [[|]|]; simpl; split; try tauto; try discriminate; intros [? ?]; try discriminate.
Qed.

Lemma in_app_all {A} (P : A -> Prop) l1 l2 :
  (forall k, In k (l1 ++ l2) -> P k) <-> (forall k, In k l1 -> P k) /\ (forall k, In k l2 -> P k).
Proof.
  split; [intro H; split; intros; apply H, in_or_app; auto|].
  intros [H1 H2] k Hk. apply in_app_or in Hk as [|]; auto.
Qed.

Lemma validate_column_ok f c r :
  validate_column f c r = Ok None <-> forall k, In k (rules_of r) -> met f (c, k).
Proof.
  unfold validate_column, rules_of. fold (incr_rules r).
  rewrite !and_then_none, !in_app_all, do_type_ok, do_max_ok, do_min_ok, do_max_at_least_ok,
    do_min_is_below_ok, do_monotonic_ok. reflexivity.
Qed.

Lemma validate_ok s f : validate s f = Ok None <-> conforms f s.
Proof.
  unfold conforms, obligations. induction s as [|[c r] s IH]; simpl.
  - split; auto. intros _ ? [].
  - rewrite and_then_none, in_app_all, IH, validate_column_ok.
    split; intros [H1 H2]; split; auto.
    + intros o Ho. apply in_map_iff in Ho as (k & <- & Hk). auto.
    + intros k Hk. apply H1. apply in_map_iff; eauto.
Qed.

(** ** Rejections *)
Lemma and_then_some a b r : and_then a b = Ok (Some r) ->
  a = Ok (Some r) \/ (a = Ok None /\ b = Ok (Some r)).
Proof. destruct a as [[|]|]; simpl; auto; discriminate. Qed.

(** [Expl f c ks r]: the reason [r] names the first unmet rule of [ks]. *)
Definition expl (f : frame) (os : list (string * rule)) (r : reason) : Prop :=
  exists before o after, os = before ++ o :: after /\
    (forall o', In o' before -> met f o') /\ ~ met f o /\ about r o /\ cites_offender f r.

Lemma expl_app_l f l1 l2 r : expl f l1 r -> expl f (l1 ++ l2) r.
Proof.
  intros (b & o & a & -> & H). exists b, o, (a ++ l2). rewrite <- app_assoc. split; auto.
Qed.
Lemma expl_app_r f l1 l2 r : (forall o, In o l1 -> met f o) -> expl f l2 r -> expl f (l1 ++ l2) r.
Proof.
  intros M (b & o & a & -> & H1 & H). exists (l1 ++ b), o, a. rewrite <- app_assoc. split; auto.
  split; auto. intros o' Ho. apply in_app_or in Ho as [|]; auto.
Qed.
Lemma expl_single f o r : ~ met f o -> about r o -> cites_offender f r -> expl f [o] r.
Proof. intros. exists [], o, []. repeat split; auto. intros ? []. Qed.

Lemma not_met_of f c r (doit : frame -> string -> rules -> result (option reason)) k rs reason0 :
  rs = [k] ->
  (doit f c r = Ok None <-> forall k, In k rs -> met f (c, k)) ->
  doit f c r = Ok (Some reason0) -> ~ met f (c, k).
Proof.
  intros -> H E M. assert (doit f c r = Ok None) by (apply H; intros ? [<-|[]]; auto). congruence.
Qed.

Lemma do_type_some f c r x : do_type f c r = Ok (Some x) -> expl f (map (fun k => (c, k)) (opt KType (r_type r))) x.
Proof.
  intro H. pose proof (fun k E => not_met_of f c r do_type k _ x E (do_type_ok f c r) H) as NM.
  revert NM H. unfold do_type. destruct (r_type r) as [t|]; [|discriminate]. cbn [opt map]. intro NM.
  destruct (get_column f c) eqn:G; cbn [bind]; [|discriminate].
  destruct (check_type a t) as [[tr|]|] eqn:E; cbn [bind option_map]; try discriminate.
  intro H; injection H as <-. apply expl_single; [auto|simpl; auto|]. simpl.
  destruct tr; auto. apply get_column_ok in G.
  unfold check_type in E. destruct (negb _); [discriminate|].
  destruct (String.eqb t "integer").
  2:{ destruct (String.eqb t "float"); [destruct (c_dtype a); discriminate|].
      destruct (String.eqb t "numeric"); destruct (c_dtype a); discriminate. }
  assert (E' : (let! xs := nums_of (c_cells a) in
        match first_bad non_integer 0 xs with
        | Some (i, v) => Ok (Some (NotInteger i v)) | None => Ok None end) = Ok (Some (NotInteger index value))).
  { destruct (c_dtype a); auto. destruct (c_cells a); [auto|discriminate]. }
  clear E. destruct (nums_of (c_cells a)) as [xs|] eqn:N; cbn [bind] in E'; [|discriminate].
  destruct (first_bad _ _ _) as [[i v]|] eqn:F; [|discriminate]. injection E' as -> ->.
  apply first_bad_some in F as (k & -> & F1 & F2 & F3). apply nums_of_ok in N.
  exists a. split; auto. rewrite N. split; [apply nth_map_num; auto|]. split.
  - intros q z -> K. simpl in F2. apply negb_true_iff in F2.
    assert (is_integer q = true) by (apply is_integer_iff; eauto). congruence.
  - intros j y Hj Hy. assert (exists v, y = CNum v) as [v ->].
    { apply nth_error_In in Hy. apply in_map_iff in Hy as (v & <- & _). eauto. }
    apply nth_map_num in Hy. specialize (F3 _ _ Hj Hy). destruct v as [q|]; simpl in F3; [|discriminate].
    apply negb_false_iff, is_integer_iff in F3 as [z Hz]. eauto.
Qed.

Lemma do_max_some f c r x : do_max f c r = Ok (Some x) -> expl f (map (fun k => (c, k)) (opt KMax (r_max r))) x.
Proof.
  intro H. pose proof (fun k E => not_met_of f c r do_max k _ x E (do_max_ok f c r) H) as NM.
  revert NM H. unfold do_max. destruct (r_max r) as [m|]; [|discriminate]. cbn [opt map]. intro NM.
  destruct (get_column f c) eqn:G; cbn [bind]; [|discriminate].
  destruct (nums_of (c_cells a)) as [xs|] eqn:N; cbn [bind]; [|discriminate].
  destruct (first_bad _ _ _) as [[i v]|] eqn:F; [|discriminate].
  intro H; injection H as <-. apply expl_single; simpl; auto.
  apply first_bad_some in F as (k & -> & F1 & F2 & F3). destruct v as [q|]; [|discriminate].
  apply nums_of_ok in N. apply get_column_ok in G.
  exists a, q. rewrite N. repeat split; auto.
  - apply Qlt_bool_iff; auto.
  - apply nth_map_num; auto.
  - intros j q' Hj Hq. apply nth_map_num in Hq. specialize (F3 _ _ Hj Hq). simpl in F3.
    apply Qlt_bool_false; auto.
Qed.
Lemma do_min_some f c r x : do_min f c r = Ok (Some x) -> expl f (map (fun k => (c, k)) (opt KMin (r_min r))) x.
Proof.
  intro H. pose proof (fun k E => not_met_of f c r do_min k _ x E (do_min_ok f c r) H) as NM.
  revert NM H. unfold do_min. destruct (r_min r) as [m|]; [|discriminate]. cbn [opt map]. intro NM.
  destruct (get_column f c) eqn:G; cbn [bind]; [|discriminate].
  destruct (nums_of (c_cells a)) as [xs|] eqn:N; cbn [bind]; [|discriminate].
  destruct (first_bad _ _ _) as [[i v]|] eqn:F; [|discriminate].
  intro H; injection H as <-. apply expl_single; simpl; auto.
  apply first_bad_some in F as (k & -> & F1 & F2 & F3). destruct v as [q|]; [|discriminate].
  apply nums_of_ok in N. apply get_column_ok in G.
  exists a, q. rewrite N. repeat split; auto.
  - apply Qlt_bool_iff; auto.
  - apply nth_map_num; auto.
  - intros j q' Hj Hq. apply nth_map_num in Hq. specialize (F3 _ _ Hj Hq). simpl in F3.
    apply Qlt_bool_false; auto.
Qed.
Lemma do_max_at_least_some f c r x : do_max_at_least f c r = Ok (Some x) ->
  expl f (map (fun k => (c, k)) (opt KMaxAtLeast (r_max_at_least r))) x.
Proof.
  intro H. pose proof (fun k E => not_met_of f c r do_max_at_least k _ x E (do_max_at_least_ok f c r) H) as NM.
  revert NM H. unfold do_max_at_least. destruct (r_max_at_least r) as [m|]; [|discriminate]. cbn [opt map]. intro NM.
  destruct (get_column f c) eqn:G; cbn [bind]; [|discriminate].
  destruct (nums_of (c_cells a)) as [xs|] eqn:N; cbn [bind]; [|discriminate].
  destruct (col_max xs); [|discriminate]. destruct (Qlt_bool _ _); [|discriminate].
  destruct (first_cell a); [|discriminate]. cbn [bind].
  intro H; injection H as <-. apply expl_single; simpl; auto.
Qed.
Lemma do_min_is_below_some f c r x : do_min_is_below f c r = Ok (Some x) ->
  expl f (map (fun k => (c, k)) (opt KMinBelow (r_min_is_below r))) x.
Proof.
  intro H. pose proof (fun k E => not_met_of f c r do_min_is_below k _ x E (do_min_is_below_ok f c r) H) as NM.
  revert NM H. unfold do_min_is_below. destruct (r_min_is_below r) as [m|]; [|discriminate]. cbn [opt map]. intro NM.
  destruct (get_column f c) eqn:G; cbn [bind]; [|discriminate].
  destruct (nums_of (c_cells a)) as [xs|] eqn:N; cbn [bind]; [|discriminate].
  destruct (col_min xs); [|discriminate]. destruct (Qlt_bool _ _); [|discriminate].
  destruct (first_cell a); [|discriminate]. cbn [bind].
  intro H; injection H as <-. apply expl_single; simpl; auto.
Qed.
Lemma do_monotonic_some f c r x : do_monotonic f c r = Ok (Some x) ->
  expl f (map (fun k => (c, k)) (incr_rules r)) x.
Proof.
  intro H. pose proof (fun k E => not_met_of f c r do_monotonic k _ x E (do_monotonic_ok f c r) H) as NM.
  revert NM H. unfold do_monotonic, incr_rules. destruct (r_monotonic r) as [m|]; [|discriminate].
  destruct (String.eqb m "increasing"); [|discriminate]. cbn [map]. intros NM H.
  assert (x = RMonotonic c) as ->.
  { clear NM. destruct (get_column f c) as [a|]; cbn [bind] in H; [|discriminate].
    destruct (c_cells a) as [|? [|? ?]]; try discriminate.
    destruct (nums_of _); cbn [bind] in H; [|discriminate]. destruct (has_decrease _); [|discriminate].
    injection H as <-. reflexivity. }
  apply expl_single; simpl; auto.
Qed.

Lemma validate_column_some f c r x : validate_column f c r = Ok (Some x) ->
  expl f (map (fun k => (c, k)) (rules_of r)) x.
Proof.
  unfold validate_column, rules_of. fold (incr_rules r). rewrite !map_app.
  assert (M : forall ks, (forall k, In k ks -> met f (c, k)) ->
                 forall o, In o (map (fun k => (c, k)) ks) -> met f o).
  { intros ks H o Ho. apply in_map_iff in Ho as (k & <- & Hk). auto. }
  intro H. apply and_then_some in H as [H|[H0 H]].
  { apply expl_app_l, do_type_some; auto. }
  apply expl_app_r; [apply M, do_type_ok; auto|].
  apply and_then_some in H as [H|[H1 H]].
  { apply expl_app_l, do_max_some; auto. }
  apply expl_app_r; [apply M, do_max_ok; auto|].
  apply and_then_some in H as [H|[H2 H]].
  { apply expl_app_l, do_min_some; auto. }
  apply expl_app_r; [apply M, do_min_ok; auto|].
  apply and_then_some in H as [H|[H3 H]].
  { apply expl_app_l, do_max_at_least_some; auto. }
  apply expl_app_r; [apply M, do_max_at_least_ok; auto|].
  apply and_then_some in H as [H|[H4 H]].
  { apply expl_app_l, do_min_is_below_some; auto. }
  apply expl_app_r; [apply M, do_min_is_below_ok; auto|].
  apply do_monotonic_some; auto.
Qed.

Lemma validate_some s f x : validate s f = Ok (Some x) -> expl f (obligations s) x.
Proof.
  unfold obligations. induction s as [|[c r] s IH]; cbn [validate flat_map fst snd]; [discriminate|].
  intro H. apply and_then_some in H as [H|[H0 H]].
  - apply expl_app_l, validate_column_some; auto.
  - apply expl_app_r; auto. intros o Ho. apply in_map_iff in Ho as (k & <- & Hk).
    apply (proj1 (validate_column_ok f c r)); auto.
Qed.

(** ** Columns the schema does not mention are irrelevant. *)
Lemma validate_column_frame f f' c r : get_column f c = get_column f' c ->
  validate_column f c r = validate_column f' c r.
Proof.
  intro H. unfold validate_column, do_type, do_max, do_min, do_max_at_least, do_min_is_below, do_monotonic.
  rewrite H. reflexivity.
Qed.
Lemma validate_frame s f f' :
  (forall c r, In (c, r) s -> forall n col, lower n = c -> In (n, col) f <-> In (n, col) f') ->
  NoDup (map (fun nc => lower (fst nc)) f) -> NoDup (map (fun nc => lower (fst nc)) f') ->
  validate s f = validate s f'.
Proof.
  intros H D1 D2.
  assert (G : forall g c, NoDup (map (fun nc : string * column => lower (fst nc)) g) ->
            match get_column g c with
            | Ok col => exists n, lower n = c /\ In (n, col) g
            | Err e => e = KeyError /\ forall n col, In (n, col) g -> lower n <> c
            end).
  { intros g c. unfold get_column. induction g as [|[n col] g IHg]; simpl.
    - intros _. split; auto.
    - intro D. inversion D; subst. specialize (IHg H3).
      destruct (String.eqb_spec (lower n) c).
      + replace (filter (fun nc => String.eqb (lower (fst nc)) c) g) with (@nil (string * column)).
        * exists n; auto.
        * symmetry.
          destruct (filter _ g) as [|[n2 c2] l] eqn:E; auto. exfalso. apply H2.
          assert (In (n2, c2) (filter (fun nc => String.eqb (lower (fst nc)) c) g)) by (rewrite E; left; auto).
          apply filter_In in H0 as [H0 K]. simpl in K. apply String.eqb_eq in K.
          apply in_map_iff. exists (n2, c2). simpl. split; congruence.
      + destruct (filter _ g) as [|[n2 c2] [|]] eqn:E.
        * destruct IHg as [_ K]. split; auto. intros n' col' [X|X]; [injection X as <- <-; auto|eauto].
        * destruct IHg as (n3 & K1 & K2). eauto.
        * destruct IHg as [K _]; discriminate. }
  assert (U : forall g n1 c1 n2 c2, NoDup (map (fun nc : string * column => lower (fst nc)) g) ->
    In (n1, c1) g -> In (n2, c2) g -> lower n1 = lower n2 -> c1 = c2).
  { induction g as [|[n col] g IHg]; simpl; intros n1 c1 n2 c2 D; [tauto|].
    inversion D; subst. intros [X|X] [Y|Y] L.
    - congruence.
    - injection X as -> ->. exfalso. apply H2. apply in_map_iff. exists (n2, c2). auto.
    - injection Y as -> ->. exfalso. apply H2. apply in_map_iff. exists (n1, c1). auto.
    - eapply IHg; eauto. }
  induction s as [|[c r] s IH]; simpl; auto.
  rewrite (validate_column_frame f f' c r).
  - rewrite IH; auto. intros; eapply H; eauto. right; eauto.
  - pose proof (G f c D1) as A. pose proof (G f' c D2) as B.
    assert (Hc : forall n col, lower n = c -> In (n, col) f <-> In (n, col) f').
    { intros. eapply H; eauto. left; eauto. }
    destruct (get_column f c) as [col|e], (get_column f' c) as [col'|e'].
    + destruct A as (n1 & A1 & A2), B as (n2 & B1 & B2). apply Hc in A2; auto.
      f_equal. apply (U f' n1 col n2 col'); auto; congruence.
    + destruct A as (n1 & A1 & A2), B as [B1 B2]. apply Hc in A2; auto. exfalso. eapply B2; eauto.
    + destruct B as (n1 & A1 & A2), A as [B1 B2]. apply Hc in A2; auto. exfalso. eapply B2; eauto.
    + destruct A as [-> _], B as [-> _]. reflexivity.
Qed.

(** Without NaN, the consecutive-difference check is global monotonicity. *)
Lemma increasing_global xs :
  increasing_holds {| c_dtype := DFloat; c_cells := map (fun q => CNum (Some q)) xs |} <->
  forall i j a b, (i < j)%nat -> nth_error xs i = Some a -> nth_error xs j = Some b -> a <= b.
Proof.
  unfold increasing_holds, numeric_cells; cbn [c_cells].
  assert (N : forall i a, nth_error (map (fun q => CNum (Some q)) xs) i = Some (CNum (Some a)) <-> nth_error xs i = Some a).
  { induction xs as [|x xs IH]; intros [|i] a; simpl; try (split; discriminate); [|apply IH].
    split; intro H; injection H as ->; auto. }
  split.
  - intros [_ H] i j a b L. remember (j - i)%nat as d. revert i j a b L Heqd.
    induction d as [|d IH]; intros i j a b L D Ha Hb; [lia|].
    destruct (Nat.eq_dec j (S i)) as [->|NE].
    { apply (H i); apply N; auto. }
    destruct (nth_error xs (S i)) as [m|] eqn:M.
    + apply Qle_trans with m.
      * apply (H i); apply N; auto.
      * apply (IH (S i) j); auto; lia.
    + apply nth_error_None in M. assert (nth_error xs j <> None) by congruence. apply nth_error_Some in H0. lia.
  - intro H. split.
    + intros _ x Hx. apply in_map_iff in Hx as (q & <- & _). eauto.
    + intros i a b. rewrite !N. intros. eapply (H i (S i)); eauto.
Qed.
