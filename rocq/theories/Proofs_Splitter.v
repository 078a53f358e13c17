(** The splitter's data, column by column and sample by sample. *)
From Coq Require Import Permutation.
From Verif Require Import Py Num Model_Summary Model_Features Spec_Features Proofs_Diagnostic Proofs_Structure Proofs_Frames Model_Splitter Spec_Splitter Proofs_Tab.

Lemma cleaned_value M s n : cleaned M s n = no_inf (value M s n).
Proof. unfold cleaned, value. destruct (entry M s n); reflexivity. Qed.
Lemma count_labels m : count (m_rows m) = count (labels m).
Proof. unfold count, labels. rewrite map_length. reflexivity. Qed.
Lemma filter_true {A} (p : A -> bool) l : existsb (fun x => negb (p x)) l = false -> filter p l = l.
Proof.
  intro H. apply filter_all. intros x X. destruct (p x) eqn:E; [reflexivity|]. assert (K : existsb (fun x => negb (p x)) l = true) by (apply existsb_exists; exists x; rewrite E; auto). congruence.
Qed.
Lemma existsb_forallb {A} (p : A -> bool) l : existsb (fun x => negb (p x)) l = negb (forallb p l).
Proof. induction l as [|x l IH]; cbn; [reflexivity|]. rewrite IH. destruct (p x); reflexivity. Qed.

Section Construct.
  Variables (str : cell -> string) (c : config) (m : matrix) (sp : splitter).
  Let M := homogenized c m.
  Hypothesis PM : proper M.
  Hypothesis DC : distinct_columns c.
  Hypothesis OK : construct str c m = Ok sp.

  Definition with_exclusions (s n : string) : cell :=
    match exclusion_columns c with
    | Some es => if str_in n es then fillna (Flag false) (cleaned M s n) else cleaned M s n
    | None => cleaned M s n
    end.
  Definition imputed (fill : string -> cell) (s n : string) : cell := fillna (fill n) (with_exclusions s n).
  Definition final (fill : string -> cell) : string -> string -> cell :=
    match split_columns c with Some ss => grouped str ss (imputed fill) | None => imputed fill end.
  Definition final_columns : list string := kept_columns c M ++ match split_columns c with Some _ => ["grouping_column"%string] | None => [] end.
  Definition samples1 : list string := filter (enoughb c M) (labels M).
  Definition share_ok (fill : string -> cell) (s : string) : bool :=
    match split_columns c, exclusion_columns c with
    | Some ss, Some _ => Qle_bool (drop_split_threshold c) (share str ss (imputed fill) (includedb c M) samples1 s)
    | _, _ => true
    end.
  Definition targets_there (s : string) : bool := forallb (there M s) (targets c).
  Definition samples2 (fill : string -> cell) : list string := filter (fun s => includedb c M s && share_ok fill s) samples1.
  Definition samples3 (fill : string -> cell) : list string := filter targets_there (samples2 fill).

  Lemma truth_excl s e : In e (opt_list (exclusion_columns c)) -> truth (with_exclusions s e) = match entry M s e with Some (Flag true) => true | _ => false end.
  Proof.
    unfold with_exclusions. destruct (exclusion_columns c) as [es|]; [|intros []]. cbn [opt_list]. intro E. rewrite (proj2 (str_in_iff e es) E). unfold cleaned.
    destruct (entry M s e) as [x|]; [|reflexivity]. destruct x as [| | |b|]; try reflexivity. cbn. destruct b; reflexivity.
  Qed.
  Lemma excl_not_nan s e : In e (opt_list (exclusion_columns c)) -> is_nan (with_exclusions s e) = false.
  Proof.
    unfold with_exclusions. destruct (exclusion_columns c) as [es|]; [|intros []]. cbn [opt_list]. intro E. rewrite (proj2 (str_in_iff e es) E). unfold fillna.
    destruct (is_nan (cleaned M s e)) eqn:N; [reflexivity|exact N].
  Qed.
  Lemma imputed_excl fill s e : In e (opt_list (exclusion_columns c)) -> imputed fill s e = with_exclusions s e.
  Proof. intro E. unfold imputed, fillna. rewrite (excl_not_nan s e E). reflexivity. Qed.
  Lemma final_wanted fill s n : In n (wanted c) -> final fill s n = imputed fill s n.
  Proof.
    intro N. unfold final. destruct (split_columns c); [|reflexivity]. unfold grouped. destruct (String.eqb_spec n "grouping_column") as [->|]; [|reflexivity].
    exfalso. apply (proj1 (proj2 DC)). exact N.
  Qed.
  Lemma kept_wanted n : In n (kept_columns c M) -> In n (wanted c).
  Proof. intro H. apply filter_In in H. apply H. Qed.
  Lemma kept_nodup : NoDup (kept_columns c M).
  Proof. apply nodup_filter, DC. Qed.

  Lemma construct_spec :
    exists fill,
      (impute_strategy c = "none"%string -> forall n, fill n = NaN) /\
      (impute_strategy c <> "none"%string -> forall n, In n (kept_columns c M) -> filler (impute_strategy c) (map (fun s => with_exclusions s n) samples1) = Ok (fill n)) /\
      s_X sp = tab final_columns (samples3 fill) (final fill) /\ s_y sp = tab (targets c) (samples3 fill) (cleaned M) /\
      s_labels sp = filter (fun l => str_in l (features c)) final_columns /\ s_config sp = c /\ s_matrix sp = M /\
      (forall n, In n (targets c ++ wanted c) -> In n (m_columns M)) /\
      (forall n, In n (opt_list (split_columns c)) -> In n (kept_columns c M)) /\
      (forall e, In e (opt_list (exclusion_columns c)) -> In e (kept_columns c M)) /\
      (drop_nan_targets c = false -> samples3 fill = samples2 fill) /\ (2 <= length (samples3 fill))%nat /\
      (forall s e, In s samples1 -> In e (opt_list (exclusion_columns c)) -> exists b, with_exclusions s e = Flag b).
  Proof.
    pose proof OK as H. unfold construct in H. fold (homogenized c m) in H. fold M in H.
    match type of H with (if ?b then _ else _) = _ => destruct b eqn:REQ; [discriminate|] end.
    assert (IN : forall n, In n (targets c ++ wanted c) -> In n (m_columns M)).
    { intros n N. apply str_in_iff. destruct (str_in n (m_columns M)) eqn:E; [reflexivity|]. exfalso.
      assert (K : existsb (fun t => negb (str_in t (m_columns M))) (targets c ++ features c ++ opt_list (split_columns c) ++ opt_list (exclusion_columns c)) = true)
        by (apply existsb_exists; exists n; rewrite E; split; [exact N|reflexivity]). congruence. }
    pose proof (proper_tab M PM) as TM. destruct PM as (NC & NL & _).
    rewrite TM in H. change (labels (tab (m_columns M) (labels M) (value M))) with (labels (tab (m_columns M) (labels M) (value M))) in H.
    cbv zeta in H. fold (wanted c) in H.
    rewrite tab_select in H; [|exact NC|intros n N; apply IN, in_or_app; right; exact N].
    rewrite tab_select in H; [|exact NC|intros n N; apply IN, in_or_app; left; exact N].
    rewrite !tab_cells in H. rewrite count_labels, tab_labels in H. rewrite tab_drop_columns in H.
    assert (KC : filter (fun n => Qle_bool (feature_thresh c * count (labels M)) (count (filter (fun s => nonnan (no_inf (value M s n))) (labels M)))) (wanted c) = kept_columns c M).
    { unfold kept_columns. apply filter_ext. intro n. do 2 f_equal. apply filter_ext. intro s. unfold there, nonnan. rewrite cleaned_value. reflexivity. }
    rewrite KC in H. rewrite tab_drop_rows in H. cbn [m_columns tab] in H.
    fold (tab (kept_columns c M)) in H.
    assert (S1 : filter (fun s => Qle_bool (sample_thresh c * count (kept_columns c M)) (count (filter (fun n => nonnan (no_inf (value M s n))) (kept_columns c M)))) (labels M) = samples1).
    { unfold samples1, enoughb. apply filter_ext. intro s. do 2 f_equal. apply filter_ext. intro n. unfold there, nonnan. rewrite cleaned_value. reflexivity. }
    change {| m_columns := ?a; m_rows := map (fun s => (s, map (?v s) ?a)) ?l |} with (tab a l v) in H.
    rewrite S1 in H.
    rewrite (tab_ext _ _ _ (cleaned M) (fun s n _ _ => eq_sym (cleaned_value M s n))) in H.
    rewrite (tab_ext (targets c) _ _ (cleaned M) (fun s n _ _ => eq_sym (cleaned_value M s n))) in H.
    (* exclusions *)
    assert (EX : match exclusion_columns c with
                 | Some es => if existsb (fun e => negb (str_in e (kept_columns c M))) es then Err KeyError else Ok (fill_exclusions es (tab (kept_columns c M) samples1 (cleaned M)))
                 | None => Ok (tab (kept_columns c M) samples1 (cleaned M))
                 end = Ok (tab (kept_columns c M) samples1 with_exclusions) /\ (forall e, In e (opt_list (exclusion_columns c)) -> In e (kept_columns c M)) \/
                 match exclusion_columns c with
                 | Some es => if existsb (fun e => negb (str_in e (kept_columns c M))) es then Err KeyError else Ok (fill_exclusions es (tab (kept_columns c M) samples1 (cleaned M)))
                 | None => Ok (tab (kept_columns c M) samples1 (cleaned M))
                 end = Err KeyError).
    { unfold with_exclusions. destruct (exclusion_columns c) as [es|]; [|left; split; [reflexivity|intros e []]].
      destruct (existsb _ es) eqn:EE; [right; reflexivity|left]. split; [rewrite tab_fill; reflexivity|]. cbn [opt_list]. intros e E. apply str_in_iff.
      destruct (str_in e (kept_columns c M)) eqn:SI; [reflexivity|]. assert (K : existsb (fun e => negb (str_in e (kept_columns c M))) es = true) by (apply existsb_exists; exists e; rewrite SI; auto). congruence. }
    destruct EX as [[EX EIN]|EX]; [|rewrite EX in H; discriminate]. rewrite EX in H. cbn [bind] in H.
    destruct (impute _ _) as [Xi|] eqn:IM; cbn [bind] in H; [|discriminate].
    destruct (tab_impute _ _ _ _ _ kept_nodup IM) as (fill & -> & FN & FF). change (fun s n => fillna (fill n) (with_exclusions s n)) with (imputed fill) in H.
    exists fill. split; [exact FN|]. split; [exact FF|].
    (* groups *)
    assert (NG : ~ In "grouping_column"%string (kept_columns c M)) by (intro N; apply kept_wanted in N; apply (proj1 (proj2 DC)), N).
    destruct (match split_columns c with Some ss => add_groups str ss (tab (kept_columns c M) samples1 (imputed fill)) | None => Ok (tab (kept_columns c M) samples1 (imputed fill)) end) as [Xg|] eqn:GR;
      cbn [bind] in H; [|discriminate].
    assert (GG : Xg = tab final_columns samples1 (final fill) /\ forall n, In n (opt_list (split_columns c)) -> In n (kept_columns c M)).
    { unfold final_columns, final. destruct (split_columns c) as [ss|].
      - destruct (tab_groups str ss _ _ _ _ kept_nodup NG GR) as [SUB ->]. split; [reflexivity|exact SUB].
      - injection GR as <-. rewrite app_nil_r. split; [reflexivity|intros n []]. }
    destruct GG as [-> SIN]. clear GR.
    assert (FC : NoDup final_columns).
    { unfold final_columns. destruct (split_columns c); [|rewrite app_nil_r; apply kept_nodup]. apply NoDup_app_iff. split; [apply kept_nodup|]. split; [repeat constructor; intros []|]. intros x X [<-|[]]. tauto. }
    (* inclusion *)
    match type of H with (let! _ := ?e in _) = _ => destruct e as [Xe|] eqn:IE end; cbn [bind] in H; [|discriminate].
    assert (GI : Xe = tab final_columns (samples2 fill) (final fill) /\ forall s e, In s samples1 -> In e (opt_list (exclusion_columns c)) -> exists b, with_exclusions s e = Flag b).
    { assert (TR : forall s, forallb (fun e => truth (final fill s e)) (opt_list (exclusion_columns c)) = includedb c M s).
      { intro s. unfold includedb. apply Bool.eq_iff_eq_true. rewrite !forallb_forall. split; intros G e E; specialize (G e E);
        (rewrite final_wanted in * by (apply kept_wanted, EIN, E)); rewrite imputed_excl, truth_excl in * by exact E; exact G. }
      unfold samples2, share_ok. destruct (exclusion_columns c) as [es|] eqn:XC.
      - destruct (mask_of es _) as [mask|] eqn:MK; cbn [bind] in IE; [|discriminate]. destruct (tab_mask _ _ _ _ _ FC MK) as [-> FL]. cbn [opt_list] in *.
        rewrite (map_ext _ _ TR) in IE. rewrite tab_keep in IE.
        split.
        + unfold final, final_columns in *. destruct (split_columns c) as [ss|].
          * rewrite tab_drop_groups in IE. injection IE as <-. reflexivity.
          * injection IE as <-. f_equal. apply filter_ext. intro s. rewrite andb_true_r. reflexivity.
        + intros s e S E. destruct (FL s e S E) as [b B]. exists b. rewrite final_wanted in B by (apply kept_wanted, EIN, E). rewrite imputed_excl in B by (rewrite XC; exact E). exact B.
      - injection IE as <-. split; [|intros s e _ []]. f_equal. symmetry. apply filter_all. intros s _. unfold includedb. rewrite XC. cbn. destruct (split_columns c); reflexivity. }
    destruct GI as [-> FL]. clear IE.
    match type of H with (if ?b then _ else _) = _ => destruct b; [discriminate|] end.
    rewrite tab_labels in H.
    assert (N1 : NoDup samples1) by (apply nodup_filter, NL). assert (N2 : NoDup (samples2 fill)) by (apply nodup_filter, N1).
    rewrite tab_loc in H; [|exact NL|intros s S; apply filter_In in S; destruct S as [S _]; apply filter_In in S; apply S].
    (* targets *)
    match type of H with (let! _ := ?e in _) = _ => destruct e as [Xy|] eqn:TE end; cbn [bind] in H; [|discriminate].
    assert (TY : Xy = tab (targets c) (samples3 fill) (cleaned M) /\ (drop_nan_targets c = false -> samples3 fill = samples2 fill)).
    { rewrite tab_nan in TE. unfold samples3.
      assert (TT : forall s, targets_there s = negb (existsb (fun n => is_nan (cleaned M s n)) (targets c))).
      { intro s. unfold targets_there, there. clear. induction (targets c) as [|t ts IH]; cbn; [reflexivity|]. rewrite IH. destruct (is_nan (cleaned M s t)); reflexivity. }
      destruct (existsb _ (samples2 fill)) eqn:EN.
      - destruct (drop_nan_targets c); [|discriminate]. injection TE as <-. split; [|discriminate]. unfold tab. cbn [m_columns m_rows]. f_equal. rewrite filter_map. f_equal. apply filter_ext. intro s.
        rewrite TT. f_equal. cbn [snd]. clear. induction (targets c) as [|t ts IH]; cbn; [reflexivity|]. rewrite IH. reflexivity.
      - injection TE as <-. assert (E : filter targets_there (samples2 fill) = samples2 fill).
        { apply filter_true. rewrite <- EN. clear - TT. induction (samples2 fill) as [|s l IH]; cbn; [reflexivity|]. rewrite IH, TT, negb_involutive. reflexivity. }
        rewrite E. auto. }
    destruct TY as [-> TN]. clear TE. rewrite tab_labels, tab_rows in H.
    destruct (length (samples3 fill) <? 2)%nat eqn:L2; [discriminate|]. apply Nat.ltb_ge in L2.
    rewrite tab_loc in H; [|exact N2|intros s S; apply filter_In in S; apply S]. injection H as <-. cbn [s_X s_y s_labels s_config s_matrix].
    repeat split; try assumption; try reflexivity. symmetry. exact TM.
  Qed.
End Construct.
