(** Lemmas about the cycle statistics and fast charge features. *)
From Verif Require Import Py Num Model_Summary Model_Features Model_Stats Spec_Stats.

Lemma filter_filter {A} (f g : A -> bool) l : filter f (filter g l) = filter (fun x => g x && f x) l.
Proof. induction l as [|x l IH]; cbn; [reflexivity|]. destruct (g x); cbn; [destruct (f x); rewrite IH; reflexivity|exact IH]. Qed.
Lemma np_sub_same a b : length a = length b -> np_sub a b = Ok (map (fun p => nsub (fst p) (snd p)) (combine a b)).
Proof.
  unfold np_sub. intro L. destruct a as [|x [|x' a]], b as [|y [|y' b]]; try discriminate; try reflexivity.
  rewrite L, Nat.eqb_refl. reflexivity.
Qed.
Lemma dropna_change a b : dropna (map (fun p => nsub (fst p) (snd p)) (combine a b)) = change a b.
Proof.
  unfold change. induction (combine a b) as [|[[x|] [y|]] l IH]; cbn; [reflexivity|..]; rewrite IH; reflexivity.
Qed.

Lemma combine_map_fst {A B} (a : list A) (b : list B) : length a = length b -> map fst (combine a b) = a.
Proof. revert b. induction a as [|x a IH]; intros [|y b] L; try discriminate; [reflexivity|]. cbn. f_equal. apply IH. injection L as L. exact L. Qed.
Section S.
  Variables (log10 : Q -> cell) (skew kurtosis : list num -> num).
  Notation statistic := (statistic log10 skew kurtosis).
  Lemma statistic_is s l c : In s supported -> statistic s l = Ok c -> is_statistic log10 skew kurtosis s l c.
  Proof.
    intros I E. unfold is_statistic.
    assert (MEAN : forall l : list Q, l <> [] -> mean (map Some l) = Some (average l)).
    { clear. intros l N. unfold mean, average.
      assert (D : dropna (map Some l) = l) by (induction l as [|x l IH]; cbn; [reflexivity|f_equal; destruct l; [reflexivity|apply IH; discriminate]]).
      rewrite D. destruct l; [congruence|reflexivity]. }
    assert (MIN : l <> [] -> exists m, In m l /\ (forall x, In x l -> m <= x) /\ col_min (map Some l) = Some m).
    { intro N. pose proof (col_min_spec (map Some l)) as S. destruct (col_min (map Some l)) as [m|].
      - exists m. destruct S as [S1 S2]. split; [|split; [|reflexivity]].
        + apply in_map_iff in S1 as (y & Y & K). injection Y as ->. exact K.
        + intros x X. apply S2. apply in_map. exact X.
      - destruct l as [|x l']; [congruence|]. destruct (S x). left. reflexivity. }
    repeat destruct I as [<-|I]; try destruct I; cbn in E; repeat split; try discriminate; intros _; try (injection E as <-).
    - intro N. unfold log_abs, variance. rewrite (MEAN _ N). cbn.
      rewrite <- (map_map (fun x => (x - average l) * (x - average l)) Some), MEAN; [reflexivity|]. destruct l; [congruence|discriminate].
    - destruct l as [|x l']; [discriminate|]. injection E as <-. destruct MIN as (m & M1 & M2 & M3); [discriminate|].
      exists m. split; [exact M1|split; [exact M2|]]. cbn in M3. rewrite M3. reflexivity.
    - intro N. rewrite (MEAN _ N). reflexivity.
    - reflexivity.
    - reflexivity.
    - reflexivity.
    - reflexivity.
  Qed.

  Lemma all_supported l : get_summary_statistics log10 skew kurtosis supported l = mapM (fun s => statistic s l) supported.
  Proof. reflexivity. Qed.
  Lemma seven_shape l c : seven l = Ok c -> exists c1 c2 c3 c4 c5 c6 c7, c = [c1; c2; c3; c4; c5; c6; c7] /\ l = c.
  Proof.
    unfold seven. destruct l as [|c1 [|c2 [|c3 [|c4 [|c5 [|c6 [|c7 [|? ?]]]]]]]]; try discriminate.
    injection 1 as <-. repeat eexists.
  Qed.
  Lemma block_points names first second kind f data c :
    block log10 skew kurtosis names first second kind f data = Ok c ->
    length (points second kind f data) = length (points first kind f data) ->
    get_summary_statistics log10 skew kurtosis names (change (points second kind f data) (points first kind f data)) = Ok c /\ length c = 7%nat.
  Proof.
    unfold block. intros E L. rewrite !filter_filter in E.
    change (np_sub (points second kind f data) (points first kind f data)) with
      (np_sub (map f (filter (fun x => (r_cycle x =? second)%Z && String.eqb (r_step x) kind) data)) (map f (filter (fun x => (r_cycle x =? first)%Z && String.eqb (r_step x) kind) data))) in *.
    fold (points second kind f data) in E. fold (points first kind f data) in E. rewrite (np_sub_same _ _ L) in E. cbn [bind] in E.
    rewrite dropna_change in E. destruct get_summary_statistics as [s|] in E |- *; [|discriminate]. cbn [bind] in E.
    apply seven_shape in E as (c1 & c2 & c3 & c4 & c5 & c6 & c7 & -> & ->). split; reflexivity.
  Qed.
  Lemma mapM_nth {A B} (g : A -> result B) l c i x : mapM g l = Ok c -> nth_error l i = Some x -> exists y, nth_error c i = Some y /\ g x = Ok y.
  Proof.
    revert c i. induction l as [|a l IH]; intros c i E N; [destruct i; discriminate|]. cbn in E.
    destruct (g a) as [b|] eqn:G; [|discriminate]. cbn in E. destruct (mapM g l) as [r|]; [|discriminate]. injection E as <-.
    destruct i; cbn in *; [injection N as ->; eauto|]. eauto.
  Qed.
End S.

Lemma skipn_nth {A} (l : list A) a r : nth_error l a = Some r -> skipn a l = r :: skipn (S a) l.
Proof. revert l. induction a as [|a IH]; intros [|x l] H; try discriminate; [injection H as ->; reflexivity|]. cbn in H. cbn [skipn]. rewrite (IH _ H). destruct l; reflexivity. Qed.
Lemma firstn_cycles {A} (f : urow -> option A) k : forall (l : list urow) a, (a + k <= length l)%nat ->
  firstn k (skipn a (map f l)) = map (cycle_no f l) (seq (a + 1) k).
Proof.
  induction k as [|k IH]; intros l a H; [reflexivity|].
  destruct (nth_error l a) as [r|] eqn:N; [|apply nth_error_None in N; lia].
  rewrite (skipn_nth (map f l) a (f r)) by (rewrite nth_error_map, N; reflexivity). cbn [firstn seq map]. f_equal.
  - unfold cycle_no. replace (a + 1 - 1)%nat with a by lia. rewrite N. reflexivity.
  - rewrite (IH l (S a)) by lia. replace (S (a + 1)) with (S a + 1)%nat by lia. reflexivity.
Qed.
Lemma positions_cycles (f : urow -> num) l a b p : positions a b (map f l) = Ok p -> p = cycles f l (a + 1) b.
Proof.
  unfold positions, cycles. destruct (Nat.leb_spec b a) as [L|L].
  - injection 1 as <-. replace (b + 1 - (a + 1))%nat with 0%nat by lia. reflexivity.
  - destruct (Nat.leb_spec b (length (map f l))) as [K|K]; [|discriminate]. injection 1 as <-. rewrite map_length in K.
    etransitivity; [apply (@firstn_cycles Q f); lia|]. f_equal. f_equal. lia.
Qed.
Lemma at_pos_cycle (f : urow -> num) l i x : at_pos i (map f l) = Ok x -> x = cycle_no f l (i + 1).
Proof.
  unfold at_pos, cycle_no. rewrite nth_error_map. replace (i + 1 - 1)%nat with i by lia.
  destruct (nth_error l i); cbn; [injection 1 as <-; reflexivity|discriminate].
Qed.
Lemma py_max_largest l m : Forall (fun x => x <> None) l -> py_max l = Ok m -> is_largest l m /\ m <> None.
Proof.
  unfold py_max. destruct l as [|x r]; [discriminate|]. intros F. injection 1 as <-.
  inversion F as [|? ? X R]; subst. clear F.
  assert (G : forall r x, x <> None -> Forall (fun x => x <> None) r ->
     exists m, fold_left (fun m x => match m, x with Some a, Some b => if Qlt_bool a b then x else m | _, _ => m end) r x = Some m /\
               In (Some m) (x :: r) /\ forall y, In (Some y) (x :: r) -> y <= m).
  { clear. induction r as [|y r IH]; intros x X F.
    - destruct x as [q|]; [|congruence]. exists q. split; [reflexivity|]. split; [left; reflexivity|]. intros y [Y|[]]. injection Y as ->. apply Qle_refl.
    - inversion F as [|? ? Y R]; subst. destruct x as [q|]; [|congruence]. destruct y as [w|]; [|congruence]. cbn [fold_left].
      destruct (Qlt_bool q w) eqn:E.
      + apply Qlt_bool_iff in E. destruct (IH (Some w)) as (m & M1 & M2 & M3); [discriminate|exact R|]. exists m. split; [exact M1|].
        split; [right; exact M2|]. intros z [Z|Z]; [|apply M3; exact Z]. injection Z as ->. specialize (M3 w (or_introl eq_refl)). lra.
      + apply Qlt_bool_false in E. destruct (IH (Some q)) as (m & M1 & M2 & M3); [discriminate|exact R|]. exists m. split; [exact M1|].
        split; [destruct M2 as [M2|M2]; [left; exact M2|right; right; exact M2]|].
        intros z [Z|[Z|Z]]; [apply M3; left; exact Z| |apply M3; right; exact Z].
        injection Z as ->. specialize (M3 q (or_introl eq_refl)). lra. }
  destruct (G r x X R) as (m & M1 & M2 & M3). rewrite M1. cbn. split; [split; assumption|discriminate].
Qed.
