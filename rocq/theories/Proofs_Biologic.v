(** Lemmas for C20 - C23, C59, C60. *)
From Verif Require Import Py Num Model_Biologic Spec_Biologic Proofs_Datapath.

Lemma pair_eqb_iff p q : pair_eqb p q = true <-> p = q.
Proof.
  destruct p as [a b], q as [c d]. unfold pair_eqb; simpl. rewrite andb_true_iff, !Z.eqb_eq. split.
  - intros [-> ->]; reflexivity.
  - intro H; injection H as -> ->; auto.
Qed.
Lemma pget_some (d : transitions) p n : d_get pair_eqb d p = Some n -> In (p, n) d.
Proof.
  induction d as [|[k v] d IH]; simpl; [discriminate|]. destruct (pair_eqb p k) eqn:E; [|auto].
  apply pair_eqb_iff in E. subst k. intro H; injection H as ->; auto.
Qed.
Lemma pget_none (d : transitions) p n : d_get pair_eqb d p = None -> ~ In (p, n) d.
Proof.
  induction d as [|[k v] d IH]; simpl; [auto|]. destruct (pair_eqb p k) eqn:E; [discriminate|].
  intros H [K|K]; [|exact (IH H K)]. injection K as -> ->. assert (pair_eqb p p = true) by (apply pair_eqb_iff; reflexivity). congruence.
Qed.

(** The increment the loop applies. *)
Definition step_up (r : rules) (p q : Z * Z) : Z :=
  if negb (Z.eqb (snd q) (snd p)) then adv_cycle_on_tech_loop r
  else if negb (Z.eqb (fst q) (fst p)) then count_of r (fst p, fst q) else 0%Z.
Lemma step_up_advance r p q : advance r p q (step_up r p q).
Proof.
  destruct p as [s l], q as [s' l']. unfold step_up; simpl.
  destruct (Z.eqb_spec l' l) as [->|N]; simpl; [|apply advance_loop; auto].
  destruct (Z.eqb_spec s' s) as [->|N]; simpl; [apply advance_same|].
  unfold count_of. destruct (d_get pair_eqb (adv_cycle_seq_transitions r) (s, s')) as [n|] eqn:E.
  - apply advance_declared; auto. apply pget_some; exact E.
  - apply advance_undeclared; auto. intro n. apply pget_none. exact E.
Qed.
Lemma number_loop_cons r c s0 l0 s l rest :
  number_loop r c s0 l0 ((s, l) :: rest) =
  (c + step_up r (s0, l0) (s, l))%Z :: number_loop r (c + step_up r (s0, l0) (s, l)) s l rest.
Proof.
  cbn [number_loop]. unfold step_up; simpl.
  destruct (Z.eqb l l0); simpl; [|reflexivity]. destruct (Z.eqb s s0); simpl; [|reflexivity].
  rewrite Z.add_0_r. reflexivity.
Qed.
Lemma number_loop_length r recs : forall c s l, length (number_loop r c s l recs) = length recs.
Proof. induction recs as [|[s' l'] recs IH]; intros; [reflexivity|]. rewrite number_loop_cons. simpl. rewrite IH. reflexivity. Qed.
Lemma number_loop_next r recs : forall c s l i p q a b,
  nth_error recs i = Some p -> nth_error recs (S i) = Some q ->
  nth_error (number_loop r c s l recs) i = Some a -> nth_error (number_loop r c s l recs) (S i) = Some b ->
  b = (a + step_up r p q)%Z.
Proof.
  induction recs as [|[s' l'] recs IH]; intros c s l i p q a b P Q A B; [destruct i; discriminate|].
  rewrite number_loop_cons in A, B. destruct i as [|i].
  - simpl in P, A. injection P as <-. injection A as <-. cbn [nth_error] in Q, B.
    destruct recs as [|[s2 l2] recs]; [discriminate|]. rewrite number_loop_cons in B. simpl in Q, B. injection Q as <-. injection B as <-. reflexivity.
  - cbn [nth_error] in P, Q, A, B. eapply IH; eauto.
Qed.
Lemma step_up_self r p : step_up r p p = 0%Z.
Proof. unfold step_up. rewrite !Z.eqb_refl. reflexivity. Qed.
Lemma loop_numbered r start n0 l0 rest : numbered r start ((n0, l0) :: rest) (number_loop r start n0 l0 ((n0, l0) :: rest)).
Proof.
  split; [apply number_loop_length|]. split.
  - intros c H. rewrite number_loop_cons, step_up_self in H. simpl in H. injection H as <-. lia.
  - intros i p q c c' P Q A B. exists (step_up r p q). split; [apply step_up_advance|]. eapply number_loop_next; eauto.
Qed.
Lemma number_seq_loop r ns : forall c s, number_seq r c s ns = number_loop r c s 0 (map (fun x => (x, 0%Z)) ns).
Proof. induction ns as [|x ns IH]; intros c s; [reflexivity|]. cbn. rewrite IH. reflexivity. Qed.
Lemma map_fst_combine {A B} (a : list A) : forall b : list B, (length a <= length b)%nat -> map fst (combine a b) = a.
Proof. induction a; intros [|y b] L; simpl in *; try reflexivity; [lia|]. rewrite IHa by lia. reflexivity. Qed.
Lemma map_snd_combine {A B} (a : list A) : forall b : list B, (length a <= length b)%nat -> map snd (combine a b) = firstn (length a) b.
Proof. induction a; intros [|y b] L; simpl in *; try reflexivity; rewrite IHa by lia; reflexivity. Qed.
Lemma cycle_index_numbered ns r loops nums : get_cycle_index ns r loops = Ok nums ->
  exists recs, recorded ns loops recs /\ numbered r (1 + adv_cycle_on_start r) recs nums.
Proof.
  unfold get_cycle_index. destruct ns as [|n0 ns]; [discriminate|].
  assert (G : Ok (number_seq r (1 + adv_cycle_on_start r) n0 (n0 :: ns)) = Ok nums ->
     exists recs, (map fst recs = n0 :: ns /\ (forall p, In p recs -> snd p = 0%Z)) /\ numbered r (1 + adv_cycle_on_start r) recs nums).
  { intro H. assert (E0 : nums = number_seq r (1 + adv_cycle_on_start r) n0 (n0 :: ns)) by congruence. clear H. subst nums.
    exists (map (fun x => (x, 0%Z)) (n0 :: ns)). split; [split|].
    - rewrite map_map. apply map_id.
    - intros p I. apply in_map_iff in I. destruct I as (x & <- & _). reflexivity.
    - rewrite number_seq_loop. apply (loop_numbered r _ n0 0%Z). }
  destruct loops as [[|l0 loops]|]; try exact G.
  destruct (Nat.ltb_spec (length (l0 :: loops)) (length (n0 :: ns))) as [L|L]; [discriminate|].
  intro H. assert (E0 : nums = number_loop r (1 + adv_cycle_on_start r) n0 l0 (combine (n0 :: ns) (l0 :: loops))) by congruence. clear H. subst nums.
  exists (combine (n0 :: ns) (l0 :: loops)). split; [split|].
  - apply map_fst_combine. exact L.
  - apply map_snd_combine. exact L.
  - apply loop_numbered.
Qed.
Lemma cycle_index_total ns r loops : ns <> [] ->
  (forall l, loops = Some l -> l = [] \/ (length ns <= length l)%nat) ->
  exists nums, get_cycle_index ns r loops = Ok nums.
Proof.
  intros N H. unfold get_cycle_index. destruct ns as [|n0 ns]; [contradiction|].
  destruct loops as [[|l0 loops]|]; try (eexists; reflexivity).
  destruct (H _ eq_refl) as [K|K]; [discriminate|].
  destruct (Nat.ltb_spec (length (l0 :: loops)) (length (n0 :: ns))); [lia|]. eexists; reflexivity.
Qed.
Lemma advance_nonneg r p q n : no_negative r -> advance r p q n -> (0 <= n)%Z.
Proof. intros (_ & B & C) H. destruct H; eauto; lia. Qed.
Lemma advance_one r p q n : at_most_one r -> advance r p q n -> (n <= 1)%Z.
Proof. intros (B & C) H. destruct H; eauto; lia. Qed.
Lemma numbered_mono r start recs nums : no_negative r -> numbered r start recs nums -> non_decreasing nums.
Proof.
  intros NN (L & _ & H) i j a b Lij A B. revert j b Lij B.
  assert (G : forall d b, nth_error nums (i + d) = Some b -> (a <= b)%Z).
  { induction d as [|d IH]; intros b B; [rewrite Nat.add_0_r in B; rewrite A in B; injection B as <-; lia|].
    rewrite Nat.add_succ_r in B.
    assert (L2 : (S (i + d) < length nums)%nat) by (apply nth_error_Some; congruence).
    destruct (nth_error nums (i + d)) as [m|] eqn:M; [|apply nth_error_None in M; lia].
    destruct (nth_error recs (i + d)) as [p|] eqn:P; [|apply nth_error_None in P; lia].
    destruct (nth_error recs (S (i + d))) as [q|] eqn:Q'; [|apply nth_error_None in Q'; lia].
    destruct (H _ _ _ _ _ P Q' M B) as (n & Ad & ->). specialize (IH _ eq_refl). pose proof (advance_nonneg _ _ _ _ NN Ad). lia. }
  intros j b Lij B. apply (G (j - i)%nat). replace (i + (j - i))%nat with j by lia. exact B.
Qed.
Lemma cycle_index_mono ns r loops nums : no_negative r -> get_cycle_index ns r loops = Ok nums ->
  non_decreasing nums /\ (forall c, In c nums -> (1 <= c)%Z).
Proof.
  intros NN H. destruct (cycle_index_numbered _ _ _ _ H) as (recs & _ & K). pose proof (numbered_mono _ _ _ _ NN K) as M.
  split; [exact M|]. intros c I. apply In_nth_error in I. destruct I as (k & E).
  destruct K as (L & S0 & _). destruct (nth_error nums 0) as [c0|] eqn:E0.
  - specialize (S0 _ eq_refl). pose proof (M 0%nat k _ _ ltac:(lia) E0 E). destruct NN as (? & _). lia.
  - destruct nums; [destruct k; discriminate|discriminate].
Qed.
Lemma cycle_index_no_skip ns r loops nums : no_negative r -> at_most_one r -> get_cycle_index ns r loops = Ok nums ->
  forall i c c', nth_error nums i = Some c -> nth_error nums (S i) = Some c' -> c' = c \/ c' = (c + 1)%Z.
Proof.
  intros NN A1 H i c c' E1 E2. destruct (cycle_index_numbered _ _ _ _ H) as (recs & _ & L & _ & K).
  assert (S i < length nums)%nat by (apply nth_error_Some; congruence).
  destruct (nth_error recs i) as [p|] eqn:P; [|apply nth_error_None in P; lia].
  destruct (nth_error recs (S i)) as [q|] eqn:Q'; [|apply nth_error_None in Q'; lia].
  destruct (K _ _ _ _ _ P Q' E1 E2) as (n & Ad & ->). pose proof (advance_nonneg _ _ _ _ NN Ad). pose proof (advance_one _ _ _ _ A1 Ad). lia.
Qed.

(** ** C21 *)
Lemma combine_split_id {A B} (l : list (A * B)) : combine (map fst l) (map snd l) = l.
Proof. induction l as [|[a b] l IH]; simpl; [|rewrite IH]; reflexivity. Qed.
Lemma csv_agrees r recs nums :
  add_cycle_nums_to_csvs [(r, recs)] = Ok [nums] <-> get_cycle_index (map fst recs) r (Some (map snd recs)) = Ok nums.
Proof.
  unfold add_cycle_nums_to_csvs. cbn [add_cycle_nums]. destruct recs as [|[n0 l0] recs]; [simpl; split; discriminate|].
  unfold get_cycle_index. cbn [map fst snd]. cbn [length]. rewrite !map_length, Nat.ltb_irrefl.
  change (n0 :: map fst recs) with (map fst ((n0, l0) :: recs)). change (l0 :: map snd recs) with (map snd ((n0, l0) :: recs)).
  rewrite combine_split_id. cbn [bind]. split; intro H; injection H as <-; reflexivity.
Qed.
Lemma last_error_last {A} (l : list A) d : l <> [] -> last_error l = Some (last l d).
Proof. induction l as [|x [|y l] IH]; intro N; [contradiction|reflexivity|]. cbn [last_error last] in *. apply IH. discriminate. Qed.
Lemma csv_continued techs : forall c out, add_cycle_nums c techs = Ok out -> continued c techs out.
Proof.
  induction techs as [|[r recs] techs IH]; intros c out H; simpl in H.
  - injection H as <-. constructor.
  - destruct recs as [|[n0 l0] recs]; [discriminate|].
    set (nums := number_loop _ _ _ _ _) in *. fold nums in H.
    destruct (add_cycle_nums (last nums c) techs) as [more|] eqn:E; [|discriminate]. simpl in H. injection H as <-.
    apply continued_cons with (last nums c).
    + apply loop_numbered.
    + apply last_error_last. unfold nums. rewrite number_loop_cons. discriminate.
    + apply IH. exact E.
Qed.
Lemma nd_app a b : non_decreasing a -> non_decreasing b -> (forall x y, In x a -> In y b -> (x <= y)%Z) -> non_decreasing (a ++ b).
Proof.
  intros Ha Hb C i j x y L X Y. destruct (Nat.lt_ge_cases j (length a)) as [K|K].
  - rewrite nth_error_app1 in X by lia. rewrite nth_error_app1 in Y by lia. exact (Ha i j x y L X Y).
  - rewrite nth_error_app2 in Y by lia. destruct (Nat.lt_ge_cases i (length a)) as [K2|K2].
    + rewrite nth_error_app1 in X by lia. apply C; eapply nth_error_In; eauto.
    + rewrite nth_error_app2 in X by lia. apply (Hb (i - length a)%nat (j - length a)%nat x y); [lia|exact X|exact Y].
Qed.
Lemma last_error_nth {A} (l : list A) x : last_error l = Some x -> nth_error l (length l - 1) = Some x /\ l <> [].
Proof.
  induction l as [|y [|z l] IH]; [discriminate|simpl; intro H; injection H as ->; split; [reflexivity|discriminate]|].
  intro H. change (last_error (z :: l) = Some x) in H. destruct (IH H) as (K & _). split; [|discriminate].
  simpl in *. rewrite Nat.sub_0_r in K. exact K.
Qed.
Lemma continued_mono c techs out : continued c techs out -> (forall r recs, In (r, recs) techs -> no_negative r) ->
  non_decreasing (concat out) /\ forall x, In x (concat out) -> (c <= x)%Z.
Proof.
  induction 1 as [c|c r recs rest nums more c' N L _ IH]; intro NN.
  - split; [intros i j a b _ A; destruct i; discriminate A|intros x []].
  - destruct IH as (M & G); [intros; eapply NN; right; eauto|].
    assert (NR : no_negative r) by (eapply NN; left; reflexivity).
    pose proof (numbered_mono _ _ _ _ NR N) as M0. destruct (last_error_nth _ _ L) as (E & NE).
    assert (U : forall x, In x nums -> (x <= c')%Z).
    { intros x I. apply In_nth_error in I. destruct I as (k & K). apply (M0 k (length nums - 1)%nat x c'); auto.
      assert (k < length nums)%nat by (apply nth_error_Some; congruence). lia. }
    assert (Lo : forall x, In x nums -> (c <= x)%Z).
    { intros x I. apply In_nth_error in I. destruct I as (k & K). destruct N as (_ & S0 & _).
      destruct nums as [|c0 nums]; [contradiction|]. specialize (S0 c0 eq_refl).
      pose proof (M0 0%nat k c0 x ltac:(lia) eq_refl K). destruct NR as (? & _). lia. }
    assert (c <= c')%Z by (apply Lo; eapply nth_error_In; eauto).
    simpl. split.
    + apply nd_app; auto. intros x y Ix Iy. specialize (U _ Ix). specialize (G _ Iy). lia.
    + intros x I. apply in_app_iff in I. destruct I as [I|I]; auto. specialize (G _ I). lia.
Qed.
Lemma csv_mono techs out : (forall r recs, In (r, recs) techs -> no_negative r) ->
  add_cycle_nums_to_csvs techs = Ok out -> non_decreasing (concat out).
Proof. intros NN H. eapply continued_mono; eauto. apply csv_continued. exact H. Qed.

(** ** C22 *)
Lemma pset_new (d : transitions) p n : (forall m, ~ In (p, m) d) -> d_set pair_eqb d p n = d ++ [(p, n)].
Proof.
  induction d as [|[k v] d IH]; intro H; [reflexivity|]. simpl. destruct (pair_eqb p k) eqn:E.
  - apply pair_eqb_iff in E. subst. exfalso. apply (H v). left; reflexivity.
  - rewrite IH; [reflexivity|]. intros m I. apply (H m). right; exact I.
Qed.
Lemma parse_transitions_ok l : forall acc, NoDup (map fst (acc ++ l)) ->
  parse_transitions acc (map transition_obj l) = Ok (acc ++ l).
Proof.
  induction l as [|[[s t] n] l IH]; intros acc N; simpl; [rewrite app_nil_r; reflexivity|].
  rewrite pset_new.
  - rewrite IH by (rewrite <- app_assoc; exact N). rewrite <- app_assoc. reflexivity.
  - intros m I. rewrite map_app in N. apply NoDup_remove_2 in N. apply N. apply in_or_app. left. apply in_map_iff. exists (s, t, m). auto.
Qed.
Lemma rules_roundtrip r : dicts r -> rules_of_json (json_of_rules r) = Ok r.
Proof.
  intros (D1 & D2). unfold rules_of_json, json_of_rules. cbn [field sget d_get String.eqb Ascii.eqb Bool.eqb bind as_int as_bool as_list].
  rewrite (parse_transitions_ok _ [] D1). cbn [bind]. rewrite (parse_transitions_ok _ [] D2). cbn [bind]. destruct r; reflexivity.
Qed.

(** ** C23 *)
Lemma search_spec is_header n : is_header ""%string = false -> forall fuel i lines, (n < i + fuel)%nat -> (1 <= i)%nat ->
  match search_header is_header n i fuel lines with
  | Ok k => (i <= k < n)%nat /\ (exists l, nth_error lines (k - i) = Some l /\ is_header l = true) /\
            forall j l, (i <= j < k)%nat -> nth_error lines (j - i) = Some l -> is_header l = false
  | Err e => e = LookupError /\ forall j l, (i <= j < n)%nat -> nth_error lines (j - i) = Some l -> is_header l = false
  end.
Proof.
  intro E0. induction fuel as [|fuel IH]; intros i lines F I; cbn [search_header].
  - split; [reflexivity|]. intros; lia.
  - destruct (Nat.ltb_spec n (S i)) as [L|L]; [split; [reflexivity|intros; lia]|].
    destruct lines as [|l lines]; cbn [tl].
    + rewrite E0. specialize (IH (S i) [] ltac:(lia) ltac:(lia)).
      destruct (search_header is_header n (S i) fuel []) as [k|e].
      * destruct IH as (_ & (l & A & _) & _). destruct (k - S i)%nat; discriminate.
      * destruct IH as (A & B). split; [exact A|]. intros j l _ H. destruct (j - i)%nat; discriminate.
    + destruct (is_header l) eqn:E.
      * split; [lia|]. split; [exists l; rewrite Nat.sub_diag; auto|]. intros; lia.
      * specialize (IH (S i) lines ltac:(lia) ltac:(lia)).
        destruct (search_header is_header n (S i) fuel lines) as [k|e].
        -- destruct IH as (A & (l' & B & C) & D). split; [lia|]. split.
           ++ exists l'. replace (k - i)%nat with (S (k - S i)) by lia. auto.
           ++ intros j x R H. destruct (Nat.eq_dec j i) as [->|N]; [rewrite Nat.sub_diag in H; injection H as <-; exact E|].
              apply (D j); [lia|]. replace (j - i)%nat with (S (j - S i)) in H by lia. exact H.
        -- destruct IH as (A & D). split; [exact A|].
           intros j x R H. destruct (Nat.eq_dec j i) as [->|N]; [rewrite Nat.sub_diag in H; injection H as <-; exact E|].
           apply (D j); [lia|]. replace (j - i)%nat with (S (j - S i)) in H by lia. exact H.
Qed.
Lemma search_found is_header n lines : is_header ""%string = false ->
  forall k, search_header is_header n 1 n lines = Ok k <-> first_header is_header lines k /\ (k < n)%nat.
Proof.
  intros E0 k. pose proof (search_spec is_header n E0 n 1 lines ltac:(lia) ltac:(lia)) as H.
  split.
  - intro E. rewrite E in H. destruct H as (A & B & C). split; [|lia]. split; [lia|]. split; [exact B|]. intros; eapply C; eauto; lia.
  - intros ((A & (l & B & C) & D) & L). destruct (search_header is_header n 1 n lines) as [k'|e].
    + destruct H as (A' & (l' & B' & C') & D').
      destruct (Nat.lt_trichotomy k k') as [K|[->|K]]; [|reflexivity|].
      * rewrite (D' k l) in C; [discriminate|lia|exact B].
      * rewrite (D k' l') in C'; [discriminate|lia|exact B'].
    + destruct H as (_ & D'). rewrite (D' k l) in C; [discriminate|lia|exact B].
Qed.
Lemma search_fails is_header n lines : is_header ""%string = false ->
  forall e, search_header is_header n 1 n lines = Err e <->
    e = LookupError /\ (forall k, first_header is_header lines k -> (n <= k)%nat).
Proof.
  intros E0 e. pose proof (search_spec is_header n E0 n 1 lines ltac:(lia) ltac:(lia)) as H. split.
  - intro E. rewrite E in H. destruct H as (-> & D). split; [reflexivity|]. intros k (A & (l & B & C) & _).
    destruct (Nat.le_gt_cases n k) as [K|K]; [exact K|]. rewrite (D k l) in C; [discriminate|lia|exact B].
  - intros (-> & D). destruct (search_header is_header n 1 n lines) as [k|e] eqn:E.
    + apply (search_found is_header n lines E0) in E. destruct E as (F & L). specialize (D _ F). lia.
    + destruct H as (-> & _). reflexivity.
Qed.
Lemma last_line_missed is_header n pre l : is_header ""%string = false -> length pre = (n - 1)%nat -> (1 <= n)%nat ->
  (forall x, In x pre -> is_header x = false) -> is_header l = true ->
  first_header is_header (pre ++ [l]) n /\ search_header is_header n 1 n (pre ++ [l]) = Err LookupError.
Proof.
  intros E0 L N P Hl.
  assert (F : first_header is_header (pre ++ [l]) n).
  { split; [exact N|]. split; [exists l; split; [|exact Hl]; rewrite nth_error_app2, L, Nat.sub_diag by lia; reflexivity|].
    intros j x R H. rewrite nth_error_app1 in H by lia. apply P. eapply nth_error_In; eauto. }
  split; [exact F|]. apply (search_fails is_header n _ E0). split; [reflexivity|]. intros k F'.
  destruct (Nat.le_gt_cases n k) as [K|K]; [exact K|]. destruct F as (_ & _ & D). destruct F' as (A & (x & B & C) & _).
  rewrite (D k x) in C; [discriminate|lia|exact B].
Qed.

(** ** C59: the table *)
Section Table.
  Context {V : Type} (conv : string -> string -> result V).
  Lemma sget_sset' (d : list (string * list V)) k k' v : sget (sset d k v) k' = if String.eqb k' k then Some v else sget d k'.
  Proof. apply sget_sset. Qed.
  Definition old_of (raw : list (string * list V)) c := match sget raw c with Some l => l | None => [] end.
  Lemma append_items_spec columns : NoDup columns -> forall items raw raw', append_items conv raw columns items = Ok raw' ->
    (forall c, ~ In c columns -> sget raw' c = sget raw c) /\
    forall j c, nth_error columns j = Some c ->
      match nth_error items j with
      | Some s => exists v, conv c s = Ok v /\ sget raw' c = Some (old_of raw c ++ [v])
      | None => sget raw' c = sget raw c
      end.
  Proof.
    induction columns as [|c0 columns IH]; intros N [|s items] raw raw' H; simpl in H; try discriminate.
    - injection H as <-. split; [auto|]. intros j c E. destruct j; discriminate.
    - injection H as <-. split; [auto|]. intros j c E. destruct j; reflexivity.
    - destruct (conv c0 s) as [v|] eqn:Ev; [|discriminate]. simpl in H. inversion N as [|? ? N1 N2]; subst.
      destruct (IH N2 _ _ _ H) as (A & B). split.
      + intros c I. rewrite A by (intro K; apply I; right; exact K). rewrite sget_sset'.
        destruct (String.eqb_spec c c0) as [->|]; [exfalso; apply I; left; reflexivity|reflexivity].
      + intros [|j] c E; cbn [nth_error] in E |- *.
        * injection E as <-. exists v. split; [exact Ev|]. rewrite A by exact N1. rewrite sget_sset', String.eqb_refl. reflexivity.
        * specialize (B _ _ E). assert (NE : String.eqb c c0 = false).
          { apply String.eqb_neq. intros ->. apply N1. eapply nth_error_In; eauto. }
          destruct (nth_error items j) as [s'|].
          -- destruct B as (v' & B1 & B2). exists v'. split; [exact B1|]. rewrite B2. unfold old_of. rewrite sget_sset', NE. reflexivity.
          -- rewrite B, sget_sset', NE. reflexivity.
  Qed.
  Definition has_item (j : nat) (items : list string) : bool := (j <? length items)%nat.
  Lemma append_rows_spec columns : NoDup columns -> forall rows raw raw', append_rows conv raw columns rows = Ok raw' ->
    forall j c, nth_error columns j = Some c -> (exists l, sget raw c = Some l) ->
    exists vals, sget raw' c = Some (old_of raw c ++ vals) /\ column_values conv c j (filter (has_item j) rows) vals.
  Proof.
    intro N. induction rows as [|items rows IH]; intros raw raw' H j c E (l & El); simpl in H.
    - injection H as <-. exists []. rewrite app_nil_r. unfold old_of. rewrite El. split; [reflexivity|constructor].
    - destruct (append_items conv raw columns items) as [r1|] eqn:E1; [|discriminate]. simpl in H.
      destruct (append_items_spec columns N _ _ _ E1) as (_ & B). specialize (B _ _ E). cbn [filter].
      destruct (nth_error items j) as [s|] eqn:Es.
      + destruct B as (v & Bv & B). destruct (IH _ _ H j c E (ex_intro _ _ B)) as (vals & G & F).
        exists (v :: vals). unfold old_of in G at 1. rewrite B in G. rewrite G, <- app_assoc. split; [reflexivity|].
        assert (HI : has_item j items = true) by (apply Nat.ltb_lt, nth_error_Some; congruence). rewrite HI.
        constructor; [exists s; auto|exact F].
      + assert (HI : has_item j items = false) by (apply Nat.ltb_ge, nth_error_None; exact Es). rewrite HI.
        rewrite <- B in El. destruct (IH _ _ H j c E (ex_intro _ _ El)) as (vals & G & F). exists vals. split; [|exact F].
        rewrite G. unfold old_of. rewrite B. reflexivity.
  Qed.
  Lemma init_columns columns : forall d c, (In c columns \/ exists l, sget d c = Some l /\ l = []) ->
    sget (fold_left (fun d c => sset d c ([] : list V)) columns d) c = Some [].
  Proof.
    induction columns as [|c0 columns IH]; intros d c H; simpl.
    - destruct H as [[]|(l & H & ->)]; exact H.
    - apply IH. destruct (String.eqb_spec c c0) as [->|N].
      + right. exists []. rewrite sget_sset', String.eqb_refl. auto.
      + destruct H as [[->|H]|(l & H & ->)]; [contradiction|left; exact H|].
        right. exists []. rewrite sget_sset'. destruct (String.eqb_spec c c0); [contradiction|]. auto.
  Qed.
  Lemma table_columns columns rows raw : NoDup columns -> read_table conv columns rows = Ok raw ->
    forall j c, nth_error columns j = Some c ->
    exists vals, sget raw c = Some vals /\ column_values conv c j (filter (has_item j) rows) vals.
  Proof.
    intros N H j c E. unfold read_table in H.
    assert (I : sget (fold_left (fun d c => sset d c ([] : list V)) columns []) c = Some []).
    { apply init_columns. left. eapply nth_error_In; eauto. }
    destruct (append_rows_spec columns N _ _ _ H j c E (ex_intro _ _ I)) as (vals & A & B).
    exists vals. split; [|exact B]. unfold old_of in A. rewrite I in A. exact A.
  Qed.
  Lemma cv_length c j lines vals : column_values conv c j lines vals -> length vals = length lines.
  Proof. induction 1; simpl; auto. Qed.
  Lemma filter_le {A} (f g : A -> bool) l : (forall x, f x = true -> g x = true) ->
    (length (filter f l) <= length (filter g l))%nat /\ (length (filter f l) = length (filter g l) -> filter f l = filter g l).
  Proof.
    intro H. induction l as [|x l (IH1 & IH2)]; simpl; [auto|].
    destruct (f x) eqn:F.
    - rewrite (H _ F). simpl. split; [lia|]. intro K. rewrite IH2 by lia. reflexivity.
    - destruct (g x); simpl; [split; [lia|intro K; exfalso; lia]|auto].
  Qed.
  Lemma table_aligned columns rows raw j1 j2 c1 c2 v1 v2 : NoDup columns -> read_table conv columns rows = Ok raw ->
    nth_error columns j1 = Some c1 -> nth_error columns j2 = Some c2 ->
    sget raw c1 = Some v1 -> sget raw c2 = Some v2 -> length v1 = length v2 ->
    exists lines, column_values conv c1 j1 lines v1 /\ column_values conv c2 j2 lines v2.
  Proof.
    intros N H E1 E2 G1 G2 L.
    destruct (table_columns _ _ _ N H _ _ E1) as (w1 & A1 & B1). rewrite G1 in A1. injection A1 as <-.
    destruct (table_columns _ _ _ N H _ _ E2) as (w2 & A2 & B2). rewrite G2 in A2. injection A2 as <-.
    rewrite (cv_length _ _ _ _ B1), (cv_length _ _ _ _ B2) in L.
    exists (filter (has_item j1) rows). split; [exact B1|].
    enough (E : filter (has_item j1) rows = filter (has_item j2) rows) by (rewrite E; exact B2).
    unfold has_item in *. destruct (Nat.le_gt_cases j1 j2) as [K|K].
    - symmetry. apply filter_le; [|auto]. intros x X. apply Nat.ltb_lt in X. apply Nat.ltb_lt. lia.
    - apply filter_le; [|auto]. intros x X. apply Nat.ltb_lt in X. apply Nat.ltb_lt. lia.
  Qed.
  Lemma table_complete columns rows : NoDup columns ->
    (forall items, In items rows -> (length items <= length columns)%nat) ->
    (forall items j c s, In items rows -> nth_error columns j = Some c -> nth_error items j = Some s -> exists v, conv c s = Ok v) ->
    exists raw, read_table conv columns rows = Ok raw.
  Proof.
    intros N. unfold read_table. generalize (fold_left (fun d c => sset d c ([] : list V)) columns []).
    assert (G : forall cols items raw, (length items <= length cols)%nat ->
       (forall j c s, nth_error cols j = Some c -> nth_error items j = Some s -> exists v, conv c s = Ok v) ->
       exists raw', append_items conv raw cols items = Ok raw').
    { induction cols as [|c cols IH]; intros [|s items] raw L C; simpl in *; try (eexists; reflexivity); [lia|].
      destruct (C 0%nat c s eq_refl eq_refl) as (v & ->). simpl. apply IH; [lia|]. intros j. exact (C (S j)). }
    induction rows as [|items rows IH]; intros raw L C; simpl; [eexists; reflexivity|].
    destruct (G columns items raw) as (raw' & ->); [apply L; left; reflexivity|intros; eapply C; eauto; left; reflexivity|].
    simpl. apply IH; intros; [apply L; right; assumption|eapply C; eauto; right; assumption].
  Qed.
End Table.

(** ** C60: channel ids *)
Lemma pow10_above_spec fuel : forall n k, (0 <= k)%Z -> (n < 10 ^ (k + 1) * 10 ^ Z.of_nat fuel)%Z -> (k = 0 \/ 10 ^ k <= n)%Z ->
  exists k', (k <= k')%Z /\ pow10_above fuel n (10 ^ (k + 1)) = (10 ^ (k' + 1))%Z /\ (n < 10 ^ (k' + 1))%Z /\ (k' = 0 \/ 10 ^ k' <= n)%Z.
Proof.
  induction fuel as [|fuel IH]; intros n k K B Lo; cbn [pow10_above].
  - exists k. change (Z.of_nat 0) with 0%Z in B. rewrite Z.pow_0_r, Z.mul_1_r in B. repeat split; auto; lia.
  - destruct (Z.ltb_spec n (10 ^ (k + 1))) as [L|L].
    + exists k. repeat split; auto; lia.
    + rewrite <- (Z.pow_succ_r 10 (k + 1)) by lia.
      replace (Z.succ (k + 1)) with (k + 1 + 1)%Z by lia.
      destruct (IH n (k + 1)%Z) as (k' & A & E & C & D); [lia| |right; exact L|].
      * replace (10 ^ (k + 1 + 1))%Z with (10 * 10 ^ (k + 1))%Z by (rewrite <- Z.pow_succ_r by lia; f_equal; lia).
        rewrite Nat2Z.inj_succ, Z.pow_succ_r in B by lia. nia.
      * exists k'. repeat split; auto; lia.
Qed.
Lemma pow10_gt n : (0 <= n)%Z -> (n < 10 ^ n)%Z.
Proof. intro H. apply Z.pow_gt_lin_r; lia. Qed.
Lemma digits_factor_spec n : (1 <= n)%Z -> exists k, (0 <= k)%Z /\ digits_factor n = (10 ^ (k + 1))%Z /\ (10 ^ k <= n < 10 ^ (k + 1))%Z.
Proof.
  intro H. destruct (pow10_above_spec (Z.to_nat n) n 0) as (k & A & E & B & C); [lia| |left; reflexivity|].
  - rewrite Z2Nat.id by lia. pose proof (pow10_gt n ltac:(lia)). change (10 ^ (0 + 1))%Z with 10%Z. lia.
  - exists k. split; [lia|]. split; [exact E|]. split; [|exact B]. destruct C as [->|C]; [simpl; lia|exact C].
Qed.
Lemma channel_inj a n b m : (1 <= a <= 9)%Z -> (1 <= b <= 9)%Z -> (1 <= n)%Z -> (1 <= m)%Z ->
  channel_id a n = channel_id b m -> a = b /\ n = m.
Proof.
  intros A B N M. unfold channel_id.
  destruct (digits_factor_spec n N) as (k & K0 & -> & K1 & K2). destruct (digits_factor_spec m M) as (j & J0 & -> & J1 & J2).
  assert (P : forall x, (0 <= x)%Z -> (10 ^ (x + 1) = 10 * 10 ^ x)%Z) by (intros; rewrite <- Z.pow_succ_r by lia; reflexivity).
  rewrite !P in * by lia. intro E.
  assert (k = j) as <-.
  { destruct (Z.lt_trichotomy k j) as [L|[L|L]]; [|exact L|]; exfalso.
    - assert (10 ^ (k + 1) <= 10 ^ j)%Z by (apply Z.pow_le_mono_r; lia). rewrite P in H by lia.
      assert (0 < 10 ^ k)%Z by (apply Z.pow_pos_nonneg; lia). nia.
    - assert (10 ^ (j + 1) <= 10 ^ k)%Z by (apply Z.pow_le_mono_r; lia). rewrite P in H by lia.
      assert (0 < 10 ^ j)%Z by (apply Z.pow_pos_nonneg; lia). nia. }
  assert (0 < 10 ^ k)%Z by (apply Z.pow_pos_nonneg; lia).
  assert (a = b) by nia. subst. split; [reflexivity|]. lia.
Qed.
