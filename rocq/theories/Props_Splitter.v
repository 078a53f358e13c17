(** Training and test sets (C48, C49). *)
From Coq Require Import Permutation.
From Verif Require Import Py Num Model_Summary Model_Features Spec_Features Proofs_Strings Proofs_Diagnostic Proofs_Structure Proofs_Frames Model_Splitter Spec_Splitter Proofs_Tab Proofs_Splitter Proofs_Kfold.

Lemma texts_differ (ss : list string) (f g : string -> string) : (exists n, In n ss /\ f n <> g n) \/ (forall n, In n ss -> f n = g n).
Proof.
  induction ss as [|n ss IH]; [right; intros ? []|]. destruct (string_dec (f n) (g n)) as [E|E]; [|left; exists n; split; [left; reflexivity|exact E]].
  destruct IH as [(k & K & N)|H]; [left; exists k; split; [right; exact K|exact N]|]. right. intros k [<-|K]; [exact E|apply H, K].
Qed.

Section Data.
  Variables (str : cell -> string) (c : config) (m : matrix) (sp : splitter).
  Let M := homogenized c m.
  Hypothesis PM : proper M.
  Hypothesis DC : distinct_columns c.
  Hypothesis OK : construct str c m = Ok sp.

  (** ** C49: the samples a splitter keeps *)
  (** Features and targets have the same samples, each once, and at least two. *)
  Theorem C49_same_samples : labels (s_X sp) = labels (s_y sp) /\ NoDup (labels (s_X sp)) /\ (2 <= length (labels (s_X sp)))%nat.
  Proof.
    destruct (construct_spec str c m sp PM DC OK) as (fill & _ & _ & -> & -> & _ & _ & _ & _ & _ & _ & _ & L & _). rewrite !tab_labels. split; [reflexivity|]. split; [|exact L].
    apply nodup_filter, nodup_filter, nodup_filter. apply PM.
  Qed.
  (** A sample is kept exactly when it has enough of the columns that are present often enough, is
      included by every exclusion column, belongs to a group of which enough is included, and has its
      targets.  The groups are those of the values in the splitter's data, which are the matrix's
      wherever it has one. *)
  Theorem C49_samples : exists value,
    (forall s n, there M s n = true -> value s n = cleaned M s n) /\
    (forall s n, In s (labels (s_X sp)) -> In n (opt_list (split_columns c)) -> entry (s_X sp) s n = Some (value s n)) /\
    forall s, In s (labels (s_X sp)) <->
      In s (labels M) /\ enough c M s /\ included c M s /\ group_kept str c M value s /\ has_targets c M s.
  Proof.
    destruct (construct_spec str c m sp PM DC OK) as (fill & _ & _ & EX & EY & _ & _ & _ & _ & SIN & _ & _ & _ & _). rewrite EX, tab_labels. exists (imputed c m fill).
    split; [|split].
    - intros s n T. unfold there in T. apply negb_true_iff in T. unfold imputed, with_exclusions, fillna. fold M. destruct (exclusion_columns c) as [es|]; [destruct (str_in n es)|]; rewrite ?T; reflexivity.
    - intros s n S N. rewrite tab_entry; [|exact S|unfold final_columns; apply in_or_app; left; apply SIN, N]. f_equal. apply final_wanted; [exact DC|]. eapply kept_wanted. apply SIN, N.
    - intro s. unfold samples3, samples2, samples1. rewrite !filter_In, andb_true_iff. unfold enough, enoughb. rewrite Qle_bool_iff.
      assert (TT : targets_there c m s = true <-> has_targets c M s) by (unfold targets_there, has_targets; rewrite forallb_forall; reflexivity).
      assert (II : includedb c M s = true <-> included c M s).
      { unfold includedb, included. rewrite forallb_forall. split; intros H e E; specialize (H e E).
        - destruct (entry M s e) as [x|]; [|discriminate]. destruct x as [| | |[]|]; try discriminate. reflexivity.
        - rewrite H. reflexivity. }
      assert (GG : share_ok str c m fill s = true <-> group_kept str c M (imputed c m fill) s).
      { unfold share_ok, group_kept. destruct (split_columns c) as [ss|] eqn:SS; [|tauto]. destruct (exclusion_columns c) as [es|] eqn:ES; [|tauto]. rewrite Qle_bool_iff.
        unfold group_share, share, group. rewrite SS. cbn [opt_list]. unfold samples1. fold M. rewrite !filter_filter. unfold group_text.
        match goal with |- _ <= count ?A / _ <-> _ <= count ?B / _ => assert (A = B) as -> by (apply filter_ext; intro; rewrite ?andb_assoc; reflexivity) end. reflexivity. }
      rewrite TT, <- II, <- GG. fold M. tauto.
  Qed.
  (** In particular a sample whose flag is false or missing in one exclusion column is not in the data. *)
  Theorem C49_excluded_never_used s e : In e (opt_list (exclusion_columns c)) -> entry M s e <> Some (Flag true) -> ~ In s (labels (s_X sp)) /\ ~ In s (labels (s_y sp)).
  Proof.
    intros E N. destruct C49_same_samples as [<- _]. destruct C49_samples as (v & _ & _ & H). assert (G : ~ In s (labels (s_X sp))); [|tauto].
    intro S. apply H in S. destruct S as (_ & _ & I & _). exact (N (I e E)).
  Qed.
  (** The features of the data are the wanted ones that are present often enough. *)
  Theorem C49_features n : In n (s_labels sp) <-> In n (features c) /\ In n (kept_columns c M).
  Proof.
    destruct (construct_spec str c m sp PM DC OK) as (fill & _ & _ & _ & _ & -> & _). rewrite filter_In, str_in_iff. unfold final_columns. rewrite in_app_iff. split.
    - intros [[K|K] F]; [auto|]. exfalso. destruct (split_columns c); [|destruct K]. destruct K as [<-|[]]. apply (proj1 (proj2 DC)). unfold wanted. apply in_or_app. left. exact F.
    - intros [F K]. auto.
  Qed.
  (** Every value is the matrix's own where it has one; targets are always the matrix's own. *)
  Theorem C49_values s n : In s (labels (s_X sp)) ->
    (In n (s_labels sp) -> there M s n = true -> entry (s_X sp) s n = Some (cleaned M s n)) /\
    (In n (targets c) -> there M s n = true /\ entry (s_y sp) s n = Some (cleaned M s n)).
  Proof.
    intro S. split.
    - intros N T. apply C49_features in N. destruct N as [F K].
      destruct (construct_spec str c m sp PM DC OK) as (fill & _ & _ & EX & _). rewrite EX in *. rewrite tab_labels in S. rewrite tab_entry; [|exact S|unfold final_columns; apply in_or_app; left; exact K].
      f_equal. rewrite final_wanted by (try exact DC; unfold wanted; apply in_or_app; left; exact F). unfold imputed, with_exclusions, fillna. fold M. unfold there in T. apply negb_true_iff in T.
      destruct (exclusion_columns c) as [es|]; [destruct (str_in n es)|]; rewrite ?T; reflexivity.
    - intro N. destruct (construct_spec str c m sp PM DC OK) as (fill & _ & _ & EX & EY & _). rewrite EX, tab_labels in S. split; [|rewrite EY; apply tab_entry; assumption].
      unfold samples3 in S. apply filter_In in S. destruct S as [_ S]. unfold targets_there in S. rewrite forallb_forall in S. apply S, N.
  Qed.
  (** A missing value is filled with the median (or mean) of its column over the samples with enough
      columns, and stays missing only if there is no number to take it from. *)
  Theorem C49_imputed s n : In s (labels (s_X sp)) -> In n (s_labels sp) -> ~ In n (opt_list (exclusion_columns c)) -> there M s n = false -> impute_strategy c <> "none"%string ->
    exists x, filler (impute_strategy c) (map (fun t => cleaned M t n) (filter (enoughb c M) (labels M))) = Ok x /\ entry (s_X sp) s n = Some x.
  Proof.
    intros S N NE T IS. apply C49_features in N. destruct N as [F K].
    destruct (construct_spec str c m sp PM DC OK) as (fill & _ & FF & EX & _). specialize (FF IS n K). rewrite EX in *. rewrite tab_labels in S.
    assert (W : forall t, with_exclusions c m t n = cleaned M t n).
    { intro t. unfold with_exclusions. fold M. destruct (exclusion_columns c) as [es|]; [|reflexivity]. cbn [opt_list] in NE. apply str_in_false in NE. rewrite NE. reflexivity. }
    exists (fill n). split.
    - rewrite <- FF. unfold samples1. fold M. f_equal. apply map_ext. intro t. symmetry. apply W.
    - rewrite tab_entry; [|exact S|unfold final_columns; apply in_or_app; left; exact K]. f_equal. rewrite final_wanted by (try exact DC; unfold wanted; apply in_or_app; left; exact F).
      unfold imputed. rewrite W. unfold fillna. unfold there in T. apply negb_false_iff in T. rewrite T. reflexivity.
  Qed.

  (** ** C48: folds *)
  Variable shuffle : nat -> list nat.
  Hypothesis SH : forall n, Permutation (shuffle n) (seq 0 n).
  Variable ds : list dataset.
  Hypothesis SP : split shuffle sp = Ok ds.

  Definition fold_shape (L : list string) (fill : string -> cell) (tr te : list string) (d : dataset) : Prop :=
    train_X d = tab (s_labels sp) tr (final str c m fill) /\ train_y d = tab (targets c) tr (cleaned M) /\
    test_X d = tab (s_labels sp) te (final str c m fill) /\ test_y d = tab (targets c) te (cleaned M) /\ Permutation (tr ++ te) L.
  Lemma split_spec : exists fill, s_X sp = tab (final_columns c m) (samples3 str c m fill) (final str c m fill) /\ s_y sp = tab (targets c) (samples3 str c m fill) (cleaned M) /\
    let L := samples3 str c m fill in NoDup L /\
    length ds = n_splits c /\ Forall (fun d => fold_shape L fill (labels (train_X d)) (labels (test_X d)) d) ds /\
    Permutation (concat (map (fun d => labels (test_X d)) ds)) L /\
    (forall ss, split_columns c = Some ss -> forall d a b, In d ds -> In a (labels (train_X d)) -> In b (labels (test_X d)) ->
       group_text str ss (imputed c m fill) a <> group_text str ss (imputed c m fill) b).
  Proof.
    destruct (construct_spec str c m sp PM DC OK) as (fill & _ & _ & EX & EY & EL & EC & _ & _ & SIN & _). exists fill. split; [exact EX|]. split; [exact EY|]. intro L.
    assert (NL : NoDup L) by (apply nodup_filter, nodup_filter, nodup_filter; apply PM). split; [exact NL|].
    assert (FC : NoDup (final_columns c m)).
    { unfold final_columns. destruct (split_columns c); [|rewrite app_nil_r; apply kept_nodup, DC]. apply NoDup_app_iff. split; [apply kept_nodup, DC|]. split; [repeat constructor; intros []|].
      intros x X [<-|[]]. apply kept_wanted in X. apply (proj1 (proj2 DC)), X. }
    assert (SUB : forall n, In n (s_labels sp) -> In n (final_columns c m)) by (rewrite EL; intros n N; apply filter_In in N; apply N).
    pose proof SP as H. unfold split in H. rewrite EC, EX, EY in H. destruct (split_columns c) as [ss|] eqn:SS.
    - cbn [m_rows tab] in H. rewrite map_map in H. fold L in H.
      assert (GE : map (fun s => group_of (s, map (final str c m fill s) (final_columns c m))) L = map (group_text str ss (imputed c m fill)) L).
      { apply map_ext. intro s. unfold final, final_columns. rewrite SS. apply group_of_tab. }
      rewrite GE in H. set (G := uniq_s _) in H.
      destruct (kfold shuffle (n_splits c) (length G)) as [fs|] eqn:K; cbn [bind] in H; [|discriminate]. injection H as <-.
      destruct (kfold_spec shuffle SH _ _ _ K) as (K1 & K2 & K3). rewrite map_length. split; [exact K1|].
      assert (SEL : forall gs, select (s_labels sp) (in_groups gs (tab (final_columns c m) L (final str c m fill))) = tab (s_labels sp) (filter (fun s => str_in (group_text str ss (imputed c m fill) s) gs) L) (final str c m fill)).
      { intro gs. rewrite <- (tab_select (s_labels sp) (final_columns c m)) by assumption. f_equal. unfold in_groups, tab. cbn [m_columns m_rows]. f_equal. rewrite filter_map. f_equal. apply filter_ext. intro s.
        f_equal. unfold final, final_columns. rewrite SS. apply group_of_tab. }
      assert (NG : NoDup G) by apply uniq_nodup.
      assert (GIN : forall s, In s L -> In (group_text str ss (imputed c m fill) s) G) by (intros s S; apply uniq_in, in_map, S).
      assert (APP : forall tr te, In (tr, te) fs -> Permutation (at_indices G tr ++ at_indices G te) G).
      { intros tr te I. rewrite <- at_indices_app. etransitivity; [apply at_indices_perm, (K2 _ _ I)|]. rewrite at_indices_all. reflexivity. }
      split; [|split].
      + apply Forall_forall. intros d D. apply in_map_iff in D. destruct D as ([tr te] & <- & I). cbn [fst snd]. unfold fold_shape. cbn [train_X train_y test_X test_y]. rewrite !SEL, !tab_labels.
        split; [reflexivity|]. split; [apply tab_loc; [exact NL|intros s S; apply filter_In in S; apply S]|]. split; [reflexivity|]. split; [apply tab_loc; [exact NL|intros s S; apply filter_In in S; apply S]|].
        apply filter_partition. intros s S. specialize (APP _ _ I). pose proof (Permutation_in _ (Permutation_sym APP) (GIN s S)) as J.
        pose proof (Permutation_NoDup (Permutation_sym APP) NG) as ND. apply NoDup_app_iff in ND. destruct ND as (_ & _ & D). apply in_app_or in J.
        destruct (str_in (group_text str ss (imputed c m fill) s) (at_indices G tr)) eqn:E1.
        * apply str_in_false. apply D. apply str_in_iff, E1.
        * apply str_in_iff. apply str_in_false in E1. destruct J as [J|J]; [tauto|exact J].
      + rewrite map_map. cbn [test_X].
        assert (E : map (fun f => labels (select (s_labels sp) (in_groups (at_indices G (snd f)) (tab (final_columns c m) L (final str c m fill))))) fs =
                    map (fun g => filter (fun s => str_in (group_text str ss (imputed c m fill) s) g) L) (map (fun f => at_indices G (snd f)) fs)).
        { rewrite map_map. apply map_ext. intros [tr te]. cbn [snd]. rewrite SEL, tab_labels. reflexivity. }
        rewrite E. apply (group_folds _ L G); [exact NL|exact NG|exact GIN|]. replace (map (fun f => at_indices G (snd f)) fs) with (map (at_indices G) (map snd fs)) by (rewrite map_map; reflexivity).
        rewrite <- at_indices_concat. etransitivity; [apply at_indices_perm, K3|]. rewrite at_indices_all. reflexivity.
      + intros ss' [= <-] d a b D A B E. apply in_map_iff in D. destruct D as ([tr te] & <- & I). cbn [fst snd train_X test_X] in A, B. rewrite SEL, tab_labels in A, B.
        apply filter_In in A. apply filter_In in B. destruct A as [_ A]. destruct B as [_ B]. apply str_in_iff in A. apply str_in_iff in B. rewrite <- E in B.
        pose proof (Permutation_NoDup (Permutation_sym (APP _ _ I)) NG) as ND. apply NoDup_app_iff in ND. destruct ND as (_ & _ & X). exact (X _ A B).
    - rewrite tab_rows in H. fold L in H. destruct (kfold shuffle (n_splits c) (length L)) as [fs|] eqn:K; cbn [bind] in H; [|discriminate]. injection H as <-.
      destruct (kfold_spec shuffle SH _ _ _ K) as (K1 & K2 & K3). rewrite map_length. split; [exact K1|]. split; [|split; [|discriminate]].
      + apply Forall_forall. intros d D. apply in_map_iff in D. destruct D as ([tr te] & <- & I). cbn [fst snd]. unfold fold_shape. cbn [train_X train_y test_X test_y].
        rewrite tab_select by assumption. rewrite !tab_iloc, !tab_labels. repeat split. rewrite <- at_indices_app. etransitivity; [apply at_indices_perm, (K2 _ _ I)|]. rewrite at_indices_all. reflexivity.
      + rewrite map_map. cbn [test_X].
        replace (map (fun f => labels (iloc (snd f) (select (s_labels sp) (tab (final_columns c m) L (final str c m fill))))) fs) with (map (at_indices L) (map snd fs)).
        2:{ rewrite map_map. apply map_ext. intros [tr te]. cbn [snd]. rewrite tab_select by assumption. rewrite tab_iloc, tab_labels. reflexivity. }
        rewrite <- at_indices_concat. etransitivity; [apply at_indices_perm, K3|]. rewrite at_indices_all. reflexivity.
  Qed.
  (** As many folds as asked for; in each the training and test samples together are all samples once,
      features and targets have the same samples, and over the folds each sample is tested once. *)
  Theorem C48_partition : length ds = n_splits c /\ NoDup (labels (s_X sp)) /\
    Forall (fun d => labels (train_y d) = labels (train_X d) /\ labels (test_y d) = labels (test_X d) /\ Permutation (labels (train_X d) ++ labels (test_X d)) (labels (s_X sp))) ds /\
    Permutation (concat (map (fun d => labels (test_X d)) ds)) (labels (s_X sp)).
  Proof.
    destruct split_spec as (fill & EX & EY & NL & LEN & F & P & _). rewrite EX, tab_labels. split; [exact LEN|]. split; [exact NL|]. split; [|exact P].
    rewrite Forall_forall in *. intros d D. destruct (F d D) as (H1 & H2 & H3 & H4 & H5). rewrite H2, H4. rewrite !tab_labels. auto.
  Qed.
  (** No sample is in both parts of a fold. *)
  Theorem C48_disjoint d s : In d ds -> In s (labels (train_X d)) -> ~ In s (labels (test_X d)).
  Proof.
    intros D A B. destruct C48_partition as (_ & ND & F & _). rewrite Forall_forall in F. destruct (F d D) as (_ & _ & P).
    apply (Permutation_NoDup (Permutation_sym P)) in ND. apply NoDup_app_iff in ND. destruct ND as (_ & _ & X). exact (X s A B).
  Qed.
  (** Folds hold the splitter's values under the splitter's features and targets. *)
  Theorem C48_contents d : In d ds ->
    m_columns (train_X d) = s_labels sp /\ m_columns (test_X d) = s_labels sp /\ m_columns (train_y d) = targets c /\ m_columns (test_y d) = targets c /\
    (forall s n, In s (labels (train_X d)) -> In n (s_labels sp) -> entry (train_X d) s n = entry (s_X sp) s n) /\
    (forall s n, In s (labels (test_X d)) -> In n (s_labels sp) -> entry (test_X d) s n = entry (s_X sp) s n) /\
    (forall s n, In s (labels (train_X d)) -> In n (targets c) -> entry (train_y d) s n = entry (s_y sp) s n) /\
    (forall s n, In s (labels (test_X d)) -> In n (targets c) -> entry (test_y d) s n = entry (s_y sp) s n).
  Proof.
    intro D. destruct split_spec as (fill & EX & EY & NL & LEN & F & P & _). rewrite Forall_forall in F. destruct (F d D) as (H1 & H2 & H3 & H4 & H5).
    assert (SUB : forall n, In n (s_labels sp) -> In n (final_columns c m)).
    { destruct (construct_spec str c m sp PM DC OK) as (? & _ & _ & _ & _ & EL & _). rewrite EL. intros n N. apply filter_In in N. apply N. }
    assert (INL : forall s, In s (labels (train_X d)) \/ In s (labels (test_X d)) -> In s (samples3 str c m fill)) by (intros s S; apply (Permutation_in _ H5), in_or_app; exact S).
    rewrite EX, EY. revert H1 H2 H3 H4 INL. generalize (labels (train_X d)) (labels (test_X d)). intros tr te H1 H2 H3 H4 INL. rewrite H1, H2, H3, H4. cbn [m_columns tab].
    do 4 (split; [reflexivity|]). repeat split; intros s n S N; rewrite !tab_entry; auto.
  Qed.
  (** Samples with the same values in all split columns are never on both sides. *)
  Theorem C48_groups d a b : split_columns c <> None -> In d ds -> In a (labels (train_X d)) -> In b (labels (test_X d)) ->
    exists n, In n (opt_list (split_columns c)) /\ entry (s_X sp) a n <> entry (s_X sp) b n.
  Proof.
    intros NS D A B. destruct (split_columns c) as [ss|] eqn:SS; [|congruence]. cbn [opt_list].
    destruct split_spec as (fill & EX & EY & NL & LEN & F & P & G). specialize (G ss SS d a b D A B). rewrite Forall_forall in F. destruct (F d D) as (_ & _ & _ & _ & H5).
    assert (SIN : forall n, In n ss -> In n (kept_columns c M)).
    { destruct (construct_spec str c m sp PM DC OK) as (? & _ & _ & _ & _ & _ & _ & _ & _ & SIN & _). rewrite SS in SIN. exact SIN. }
    assert (IA : In a (samples3 str c m fill)) by (apply (Permutation_in _ H5), in_or_app; auto). assert (IB : In b (samples3 str c m fill)) by (apply (Permutation_in _ H5), in_or_app; auto).
    assert (EN : forall s n, In s (samples3 str c m fill) -> In n ss -> entry (s_X sp) s n = Some (imputed c m fill s n)).
    { intros s n S N. rewrite EX, tab_entry; [|exact S|unfold final_columns; apply in_or_app; left; apply SIN, N]. f_equal. apply final_wanted; [exact DC|]. eapply kept_wanted, SIN, N. }
    destruct (texts_differ ss (fun n => str (imputed c m fill a n)) (fun n => str (imputed c m fill b n))) as [(n & N & E)|E].
    - exists n. split; [exact N|]. rewrite !EN by assumption. intros [= K]. apply E. rewrite K. reflexivity.
    - exfalso. apply G. unfold group_text. f_equal. apply map_ext_in. exact E.
  Qed.
End Data.

(** ** When splitting succeeds *)
Section Succeeds.
  Variables (str : cell -> string) (c : config) (m : matrix) (sp : splitter) (shuffle : nat -> list nat).
  Let M := homogenized c m.
  Hypothesis PM : proper M.
  Hypothesis DC : distinct_columns c.
  Hypothesis OK : construct str c m = Ok sp.
  (** Splitting needs at least two folds and a sample for each of them; with split columns, a group. *)
  Theorem C48_succeeds : split_columns c = None -> (exists ds, split shuffle sp = Ok ds) <-> (2 <= n_splits c <= length (labels (s_X sp)))%nat.
  Proof.
    intro SS. destruct (construct_spec str c m sp PM DC OK) as (fill & _ & _ & EX & _ & _ & EC & _). rewrite <- (kfold_iff shuffle). unfold split. rewrite EC, SS, EX, tab_rows, tab_labels.
    destruct (kfold _ _ _) as [fs|e]; cbn [bind]; split; intros [x X]; try discriminate X; eauto.
  Qed.
  Theorem C48_succeeds_groups ss : split_columns c = Some ss -> exists gs, NoDup gs /\
    (forall g, In g gs <-> exists s, In s (labels (s_X sp)) /\ g = join "::" (map (fun n => match entry (s_X sp) s n with Some x => str x | None => EmptyString end) ss)) /\
    ((exists ds, split shuffle sp = Ok ds) <-> (2 <= n_splits c <= length gs)%nat).
  Proof.
    intro SS. destruct (construct_spec str c m sp PM DC OK) as (fill & _ & _ & EX & _ & _ & EC & _ & _ & SIN & _). rewrite SS in SIN. cbn [opt_list] in SIN.
    exists (uniq_s (map group_of (m_rows (s_X sp)))). split; [apply uniq_nodup|]. split.
    - intro g. rewrite uniq_in, EX, tab_labels. cbn [m_rows tab]. rewrite map_map, in_map_iff.
      assert (E : forall s, In s (samples3 str c m fill) ->
        group_of (s, map (final str c m fill s) (final_columns c m)) = join "::" (map (fun n => match entry (tab (final_columns c m) (samples3 str c m fill) (final str c m fill)) s n with Some x => str x | None => EmptyString end) ss)).
      { intros s S. replace (group_of _) with (group_text str ss (imputed c m fill) s) by (unfold final, final_columns; rewrite SS; symmetry; apply group_of_tab).
        unfold group_text. f_equal. apply map_ext_in. intros n N. rewrite tab_entry; [|exact S|unfold final_columns; apply in_or_app; left; apply SIN, N].
        f_equal. symmetry. apply final_wanted; [exact DC|]. eapply kept_wanted, SIN, N. }
      split; intros (s & A & B); exists s; [split; [exact B|rewrite <- A; apply E, B]|split; [rewrite E; auto|exact A]].
    - rewrite <- (kfold_iff shuffle). unfold split. rewrite EC, SS. destruct (kfold _ _ _) as [fs|e]; cbn [bind]; split; intros [x X]; try discriminate X; eauto.
  Qed.
End Succeeds.

(** ** Saving and loading *)
Section Reload.
  Variables (str : cell -> string) (c : config) (m : matrix) (sp : splitter).
  Let M := homogenized c m.
  Hypothesis PM : proper M.
  Hypothesis DC : distinct_columns c.
  Hypothesis OK : construct str c m = Ok sp.
  Lemma filter_idem {A} (p : A -> bool) l : filter p (filter p l) = filter p l.
  Proof. apply filter_all. intros x X. apply filter_In in X. apply X. Qed.
  Lemma filter_none {A} (p : A -> bool) l : (forall x, In x l -> p x = false) -> filter p l = [].
  Proof. induction l as [|x l IH]; intro H; cbn; [reflexivity|]. rewrite (H x) by (left; reflexivity). apply IH. intros; apply H; right; assumption. Qed.
  (** Loaded on the rebuilt matrix, a splitter without exclusion columns that imputes medians has the
      same features, samples and values.  Missing: the other imputations and exclusion columns, which
      are not saved (see below). *)
  Theorem C49_reload_partial : exclusion_columns c = None -> impute_strategy c = "median"%string ->
    exists sp', reload str sp m = Ok sp' /\ s_X sp' = s_X sp /\ s_y sp' = s_y sp /\ s_labels sp' = s_labels sp /\ s_matrix sp' = s_matrix sp.
  Proof.
    intros XC IS. destruct (construct_spec str c m sp PM DC OK) as (fill & _ & _ & EX & EY & EL & EC & EM & IN & SIN & _). unfold reload.
    assert (WA : wanted c = features c ++ opt_list (split_columns c)) by (unfold wanted; rewrite XC, app_nil_r; reflexivity).
    set (P := fun n => Qle_bool (feature_thresh c * count (labels M)) (count (filter (fun s => there M s n) (labels M)))) in *.
    assert (KP : kept_columns c M = filter P (features c) ++ filter P (opt_list (split_columns c))) by (unfold kept_columns; fold P; rewrite WA; apply filter_app).
    assert (DJ : forall n, In n (features c) -> ~ In n (opt_list (split_columns c))) by (destruct DC as [ND _]; rewrite WA in ND; apply NoDup_app_iff in ND; apply ND).
    assert (GF : ~ In "grouping_column"%string (features c)) by (intro F; apply (proj1 (proj2 DC)); rewrite WA; apply in_or_app; left; exact F).
    assert (LS : s_labels sp = filter P (features c)).
    { rewrite EL. unfold final_columns. fold M. rewrite KP, !filter_app.
      rewrite (filter_all _ (filter P (features c))) by (intros n N; apply str_in_iff; apply filter_In in N; apply N).
      rewrite (filter_none _ (filter P (opt_list (split_columns c)))) by (intros n N; apply str_in_false; intro F; apply filter_In in N; exact (DJ n F (proj1 N))).
      rewrite (filter_none _ match split_columns c with Some _ => ["grouping_column"%string] | None => [] end); [cbn [app]; rewrite !app_nil_r; reflexivity|]. intros n N. apply str_in_false. destruct (split_columns c); [|destruct N]. destruct N as [<-|[]]. exact GF. }
    set (c' := saved_config sp).
    assert (HC : homogenized c' m = M) by (unfold homogenized, c'; cbn [saved_config homogenize]; rewrite EC; reflexivity).
    assert (W' : wanted c' = s_labels sp ++ opt_list (split_columns c)) by (unfold wanted, c'; cbn [saved_config features split_columns exclusion_columns opt_list]; rewrite EC, app_nil_r; reflexivity).
    assert (IN' : forall n, In n (targets c ++ wanted c') -> In n (m_columns M)).
    { intros n N. apply IN. rewrite W', LS in N. rewrite WA. rewrite !in_app_iff in *. rewrite filter_In in N. tauto. }
    pose proof OK as H. unfold construct in H |- *. fold (homogenized c m) in H. fold (homogenized c' m). rewrite HC. fold M in H.
    match type of H with (if ?b then _ else _) = _ => destruct b eqn:REQ; [discriminate|] end.
    fold (wanted c) in H. fold (wanted c').
    assert (REQ' : existsb (fun t => negb (str_in t (m_columns M))) (targets c' ++ wanted c') = false).
    { replace (targets c') with (targets c) by (unfold c'; cbn [saved_config targets]; rewrite EC; reflexivity).
      rewrite existsb_forallb. apply negb_false_iff, forallb_forall. intros n N. apply str_in_iff, IN', N. }
    rewrite REQ'. cbv zeta in H |- *.
    pose proof (proper_tab M PM) as TM. destruct PM as (NC & NL & _).
    assert (X0 : forall w, (forall n, In n w -> In n (m_columns M)) -> map_cells no_inf (select w M) = tab w (labels M) (cleaned M)).
    { intros w WI. rewrite TM at 1. rewrite tab_select by assumption. rewrite tab_cells. apply tab_ext. intros. symmetry. apply cleaned_value. }
    rewrite (X0 (wanted c)) in H by (intros n N; apply IN, in_or_app; right; exact N). rewrite (X0 (wanted c')) by (intros n N; apply IN', in_or_app; right; exact N).
    rewrite !count_labels, !tab_labels in H. rewrite !count_labels, !tab_labels. rewrite tab_drop_columns in H. rewrite tab_drop_columns.
    change (filter (fun n => Qle_bool (feature_thresh c * count (labels M)) (count (filter (fun s => nonnan (cleaned M s n)) (labels M)))) (wanted c)) with (filter P (wanted c)) in H.
    replace (filter (fun n => Qle_bool (feature_thresh c' * count (labels M)) (count (filter (fun s => nonnan (cleaned M s n)) (labels M)))) (wanted c')) with (filter P (wanted c)).
    2:{ replace (feature_thresh c') with (feature_thresh c) by (unfold c'; cbn [saved_config feature_thresh]; rewrite EC; reflexivity).
        change (filter (fun n => Qle_bool (feature_thresh c * count (labels M)) (count (filter (fun s => nonnan (cleaned M s n)) (labels M)))) (wanted c')) with (filter P (wanted c')).
        rewrite W', LS, WA, !filter_app, filter_idem. reflexivity. }
    assert (FIN : filter (fun l => str_in l (features c')) (final_columns c m) = s_labels sp).
    { change (features c') with (s_labels sp). rewrite EL. apply filter_ext_in. intros n N. destruct (str_in n (features c)) eqn:F.
      - apply str_in_iff, filter_In. auto.
      - apply str_in_false. intro K. apply filter_In in K. destruct K as [_ K]. congruence. }
    revert FIN. unfold c'. cbn [saved_config features sample_thresh exclusion_columns impute_strategy split_columns drop_nan_targets targets drop_split_threshold]. rewrite EC. intro FIN.
    rewrite XC, IS in H.
    cbn [bind] in H |- *.
    destruct (impute _ _) as [Xi|]; cbn [bind] in H |- *; [|discriminate].
    match type of H with (let! _ := ?e in _) = _ => destruct e as [Xg|] end; cbn [bind] in H |- *; [|discriminate].
    match type of H with (if ?b then _ else _) = _ => destruct b; [discriminate|] end.
    match type of H with (let! _ := ?e in _) = _ => destruct e as [Xy|] end; cbn [bind] in H |- *; [|discriminate].
    match type of H with (if ?b then _ else _) = _ => destruct b; [discriminate|] end.
    injection H as H. eexists. split; [reflexivity|]. cbn [s_X s_y s_labels s_matrix].
    rewrite EM. rewrite <- H at 1 2. cbn [s_X s_y]. repeat split.
    transitivity (filter (fun l => str_in l (s_labels sp)) (final_columns c m)); [|exact FIN]. f_equal. transitivity (m_columns (s_X sp)); [rewrite <- H|rewrite EX]; reflexivity.
  Qed.
End Reload.

(** ** C80: homogenised features *)
(** A heading is stripped to the feature's name and the featurizer's class. *)
Theorem C80_names a b h : no_colon a -> no_colon b -> strip_to_class (a ++ "::" ++ b ++ "::" ++ h)%string = (a ++ "::" ++ b)%string.
Proof.
  intros A B. unfold strip_to_class, delimiter.
  assert (FA : forall x y, no_colon x -> first_at x "::" y).
  { intros x y X p q H. apply (char_first ":" x (":" ++ y)%string X p (":" ++ q)%string). exact H. }
  rewrite str_split_first by (try discriminate; apply FA, A). rewrite str_split_first by (try discriminate; apply FA, B). reflexivity.
Qed.
(** Stripping again changes nothing, so further splitters may be built on the same matrix. *)
Theorem C80_idempotent n : strip_to_class (strip_to_class n) = strip_to_class n.
Proof.
  unfold strip_to_class. assert (NE : delimiter <> ""%string) by discriminate. destruct (contains delimiter n) eqn:C.
  - destruct (first_exists _ _ C) as (a & b & -> & F). rewrite (str_split_first _ _ _ NE F). destruct (contains delimiter b) eqn:CB.
    + destruct (first_exists _ _ CB) as (b0 & r & -> & FB). rewrite (str_split_first _ _ _ NE FB). cbn [firstn join].
      assert (F' : first_at a delimiter b0).
      { intros p q H. apply (F p (q ++ delimiter ++ r)%string). pose proof (f_equal (fun z => z ++ delimiter ++ r)%string H) as K. cbv beta in K. rewrite !app_assoc_s in K. exact K. }
      rewrite (str_split_first _ _ _ NE F'). rewrite (str_split_none _ _ (first_at_no _ _ _ NE FB)). reflexivity.
    + rewrite (str_split_none _ _ CB). cbn [firstn join]. rewrite (str_split_first _ _ _ NE F), (str_split_none _ _ CB). reflexivity.
  - rewrite (str_split_none _ _ C). cbn [firstn join]. rewrite (str_split_none _ _ C). reflexivity.
Qed.
Theorem C80_again str c m : homogenize c = true -> construct str c (homogenized c m) = construct str c m.
Proof.
  intro H. unfold construct, homogenized. rewrite H.
  assert (E : rename strip_to_class (rename strip_to_class m) = rename strip_to_class m) by (unfold rename; cbn; f_equal; rewrite map_map; apply map_ext; apply C80_idempotent).
  rewrite E. reflexivity.
Qed.
(** As long as no two columns get the same heading, every value is found under the stripped heading. *)
Theorem C80_values_partial m s n : NoDup (map strip_to_class (m_columns m)) -> In n (m_columns m) -> entry (rename strip_to_class m) s (strip_to_class n) = entry m s n.
Proof.
  intros ND I. unfold entry, rename. cbn [m_columns m_rows]. destruct (sget (m_rows m) s) as [r|]; [|reflexivity].
  assert (E : position String.eqb (strip_to_class n) (map strip_to_class (m_columns m)) = position String.eqb n (m_columns m)); [|rewrite E; reflexivity].
  revert ND I. induction (m_columns m) as [|x l IH]; intros ND I; [destruct I|]. cbn [map] in ND. inversion ND as [|? ? N ND']; subst. cbn [map position].
  destruct (String.eqb_spec n x) as [->|NE]; [rewrite String.eqb_refl; reflexivity|]. destruct I as [E|I]; [congruence|].
  destruct (String.eqb_spec (strip_to_class n) (strip_to_class x)) as [E|_]; [exfalso; apply N; rewrite <- E; apply in_map, I|]. rewrite IH by assumption. reflexivity.
Qed.

(** ** Examples and findings *)
Definition toy_show (c : cell) : string :=
  match c with Number x => if Qeq_bool x 1 then "1" else if Qeq_bool x 2 then "2" else "3" | NaN => "nan" | Inf _ => "inf" | Flag true => "True" | Flag false => "False" | Text s => s end%string.
Definition toy_row (s : string) (l : list cell) : string * list cell := (s, l).
Definition toy_matrix : matrix :=
  {| m_columns := ["a::F::h1"; "b::F::h1"; "t::T::h2"; "protocol::P::h3"; "is_good::E::h4"]%string;
     m_rows := [("s1"%string, [Number 1; Number 5; Number 10; Text "fast"; Flag true]); ("s2"%string, [Number 2; NaN; Number 11; Text "fast"; Flag true]);
                ("s3"%string, [Number 7; Number 6; Number 12; Text "slow"; Flag true]); ("s4"%string, [Inf true; Number 8; Number 13; Text "slow"; Flag true]);
                ("s5"%string, [Number 6; Number 7; NaN; Text "mild"; Flag true]); ("s6"%string, [Number 6; Number 7; Number 15; Text "mild"; Flag false]);
                ("s7"%string, [Number 6; Number 7; Number 15; Text "mild"; Flag true])] |}.
Definition toy_config : config :=
  {| features := ["a::F"; "b::F"]%string; targets := ["t::T"%string]; feature_thresh := 3 # 4; sample_thresh := 1 # 2; drop_nan_targets := true; impute_strategy := "median"; n_splits := 2;
     homogenize := true; split_columns := None; exclusion_columns := Some ["is_good::E"%string]; drop_split_threshold := 1 # 2 |}.
Definition toy_identity (n : nat) : list nat := rev (seq 0 n).
Definition toy_built (c : config) (m : matrix) : option splitter := match construct toy_show c m with Ok sp => Some sp | Err _ => None end.
Definition toy_folds (o : option splitter) : option (list (list string * list string)) :=
  match o with Some sp => match split toy_identity sp with Ok ds => Some (map (fun d => (labels (train_X d), labels (test_X d))) ds) | Err _ => None end | None => None end.
Definition with_columns (c : config) (ss es : option (list string)) (imp : string) : config :=
  {| features := features c; targets := targets c; feature_thresh := feature_thresh c; sample_thresh := sample_thresh c; drop_nan_targets := drop_nan_targets c; impute_strategy := imp;
     n_splits := n_splits c; homogenize := homogenize c; split_columns := ss; exclusion_columns := es; drop_split_threshold := drop_split_threshold c |}.

Example toy_proper : proper (homogenized toy_config toy_matrix).
Proof. split; [|split]; [| |repeat constructor]; apply all_distinct_iff; vm_compute; reflexivity. Qed.
Example toy_distinct : distinct_columns toy_config.
Proof. split; [|split]; [apply all_distinct_iff; vm_compute; reflexivity|apply str_in_false; vm_compute; reflexivity|apply all_distinct_iff; vm_compute; reflexivity]. Qed.
Example toy_shuffle n : Permutation (toy_identity n) (seq 0 n).
Proof. symmetry. apply Permutation_rev. Qed.
(** s5 lacks its target and s6 is excluded. *)
Example toy_samples : option_map (fun sp => (labels (s_X sp), s_labels sp)) (toy_built toy_config toy_matrix) = Some (["s1"; "s2"; "s3"; "s4"; "s7"]%string, ["a::F"; "b::F"]%string).
Proof. vm_compute. reflexivity. Qed.
Example toy_split : toy_folds (toy_built toy_config toy_matrix) = Some [(["s1"; "s2"]%string, ["s3"; "s4"; "s7"]%string); (["s3"; "s4"; "s7"]%string, ["s1"; "s2"]%string)].
Proof. vm_compute. reflexivity. Qed.
Example toy_values : option_map (fun sp => (entry (s_X sp) "s4" "a::F", entry (s_X sp) "s2" "b::F")) (toy_built toy_config toy_matrix) = Some (Some (Number (12 # 2)), Some (Number (14 # 2))).
Proof. vm_compute. reflexivity. Qed.
(** With both kinds of columns: 2/3 of the group "mild" is included. *)
Definition toy_grouped : config := with_columns toy_config (Some ["protocol::P"%string]) (Some ["is_good::E"%string]) "none".
Example toy_groups : toy_folds (toy_built toy_grouped toy_matrix) = Some [(["s1"; "s2"]%string, ["s3"; "s4"; "s7"]%string); (["s3"; "s4"; "s7"]%string, ["s1"; "s2"]%string)].
Proof. vm_compute. reflexivity. Qed.
Example toy_grouped_distinct : distinct_columns toy_grouped.
Proof. split; [|split]; [apply all_distinct_iff; vm_compute; reflexivity|apply str_in_false; vm_compute; reflexivity|apply all_distinct_iff; vm_compute; reflexivity]. Qed.
Example toy_heading : strip_to_class "a::F::h1" = "a::F"%string.
Proof. vm_compute. reflexivity. Qed.

Definition proper_b (m : matrix) : bool :=
  all_distinct (m_columns m) && all_distinct (labels m) && forallb (fun r => Nat.eqb (length (snd r)) (length (m_columns m))) (m_rows m).
Lemma proper_b_ok m : proper_b m = true -> proper m.
Proof.
  intro H. apply andb_true_iff in H. destruct H as [H F]. apply andb_true_iff in H. destruct H as [A B]. split; [apply all_distinct_iff, A|]. split; [apply all_distinct_iff, B|].
  apply Forall_forall. intros r R. rewrite forallb_forall in F. apply Nat.eqb_eq, F, R.
Qed.
Definition distinct_b (c : config) : bool := all_distinct (wanted c) && negb (str_in "grouping_column" (wanted c)) && all_distinct (targets c).
Lemma distinct_b_ok c : distinct_b c = true -> distinct_columns c.
Proof.
  intro H. apply andb_true_iff in H. destruct H as [H A]. apply andb_true_iff in H. destruct H as [B C]. split; [apply all_distinct_iff, B|]. split; [apply str_in_false, negb_true_iff, C|apply all_distinct_iff, A].
Qed.

(** Finding: exclusion columns are not saved, so a loaded splitter readmits excluded samples. *)
Theorem C49_reload_excluded_refuted : ~ (forall str c m sp sp', proper (homogenized c m) -> distinct_columns c -> construct str c m = Ok sp -> reload str sp m = Ok sp' ->
  forall s, In s (labels (s_X sp')) -> In s (labels (s_X sp))).
Proof.
  intro H. destruct (construct toy_show toy_config toy_matrix) as [sp|] eqn:E; [|vm_compute in E; discriminate]. destruct (reload toy_show sp toy_matrix) as [sp'|] eqn:R.
  - specialize (H toy_show toy_config toy_matrix sp sp' ltac:(apply proper_b_ok; vm_compute; reflexivity) ltac:(apply distinct_b_ok; vm_compute; reflexivity) E R "s6"%string). vm_compute in E. injection E as <-. vm_compute in R. injection R as <-.
    assert (K : str_in "s6" ["s1"; "s2"; "s3"; "s4"; "s7"]%string = true) by (apply str_in_iff; apply H; cbn; tauto). vm_compute in K. discriminate.
  - vm_compute in E. injection E as <-. vm_compute in R. discriminate.
Qed.
(** Finding: neither is the imputation, so a loaded splitter may hold other values. *)
Theorem C49_reload_imputation_refuted : ~ (forall str c m sp sp', proper (homogenized c m) -> distinct_columns c -> exclusion_columns c = None -> construct str c m = Ok sp -> reload str sp m = Ok sp' -> s_X sp' = s_X sp).
Proof.
  intro H. set (c := with_columns toy_config None None "mean"). destruct (construct toy_show c toy_matrix) as [sp|] eqn:E; [|vm_compute in E; discriminate].
  destruct (reload toy_show sp toy_matrix) as [sp'|] eqn:R.
  - specialize (H toy_show c toy_matrix sp sp' ltac:(apply proper_b_ok; vm_compute; reflexivity) ltac:(apply distinct_b_ok; vm_compute; reflexivity) eq_refl E R). vm_compute in E. injection E as <-. vm_compute in R. injection R as <-. vm_compute in H. discriminate.
  - vm_compute in E. injection E as <-. vm_compute in R. discriminate.
Qed.
(** Finding: the check for at least one feature counts split and exclusion columns, so a splitter may
    have no feature left. *)
Definition toy_sparse : matrix :=
  {| m_columns := ["a::F::h1"; "t::T::h2"; "protocol::P::h3"]%string;
     m_rows := [("s1"%string, [NaN; Number 10; Text "fast"]); ("s2"%string, [NaN; Number 11; Text "slow"]); ("s3"%string, [Number 7; Number 12; Text "slow"])] |}.
Theorem C49_some_feature_refuted : ~ (forall str c m sp, proper (homogenized c m) -> distinct_columns c -> construct str c m = Ok sp -> features c <> [] -> s_labels sp <> []).
Proof.
  intro H. set (c := {| features := ["a::F"%string]; targets := ["t::T"%string]; feature_thresh := 3 # 4; sample_thresh := 1 # 2; drop_nan_targets := true; impute_strategy := "none"; n_splits := 2;
     homogenize := true; split_columns := Some ["protocol::P"%string]; exclusion_columns := None; drop_split_threshold := 1 # 2 |}).
  destruct (construct toy_show c toy_sparse) as [sp|] eqn:E; [|vm_compute in E; discriminate].
  apply (H toy_show c toy_sparse sp ltac:(apply proper_b_ok; vm_compute; reflexivity) ltac:(apply distinct_b_ok; vm_compute; reflexivity) E); [discriminate|]. vm_compute in E. injection E as <-. vm_compute. reflexivity.
Qed.
(** Finding: a split value that is missing is imputed first, so a sample of unknown group is put in with
    the samples that have the median value. *)
Definition toy_channels : matrix :=
  {| m_columns := ["a::F::h1"; "t::T::h2"; "channel::P::h3"]%string;
     m_rows := [("s1"%string, [Number 1; Number 10; Number 1]); ("s2"%string, [Number 2; Number 11; Number 2]); ("s3"%string, [Number 7; Number 12; Number 3]); ("s4"%string, [Number 7; Number 12; NaN])] |}.
Theorem C48_unknown_group_refuted : ~ (forall str c m sp s t n, proper (homogenized c m) -> distinct_columns c -> construct str c m = Ok sp -> In n (opt_list (split_columns c)) ->
  there (homogenized c m) s n = false -> there (homogenized c m) t n = true -> In s (labels (s_X sp)) -> In t (labels (s_X sp)) ->
  option_map str (entry (s_X sp) s n) <> option_map str (entry (s_X sp) t n)).
Proof.
  intro H. set (c := {| features := ["a::F"%string]; targets := ["t::T"%string]; feature_thresh := 3 # 4; sample_thresh := 1 # 2; drop_nan_targets := true; impute_strategy := "median"; n_splits := 2;
     homogenize := true; split_columns := Some ["channel::P"%string]; exclusion_columns := None; drop_split_threshold := 1 # 2 |}).
  destruct (construct toy_show c toy_channels) as [sp|] eqn:E; [|vm_compute in E; discriminate].
  refine (H toy_show c toy_channels sp "s4"%string "s2"%string "channel::P"%string ltac:(apply proper_b_ok; vm_compute; reflexivity) ltac:(apply distinct_b_ok; vm_compute; reflexivity) E _ _ _ _ _ _); vm_compute in E; injection E as <-; try (vm_compute; tauto); vm_compute; reflexivity.
Qed.
(** Finding: an exclusion column with too many missing flags is dropped like a feature, and the splitter
    fails on the missing column instead of excluding the samples. *)
Theorem C49_sparse_exclusion_refuted : ~ (forall str c m e, proper (homogenized c m) -> distinct_columns c ->
  (forall n, In n (targets c ++ wanted c) -> In n (m_columns (homogenized c m))) -> construct str c m = Err e -> e = BEEPDataSplitterError).
Proof.
  intro H. set (m := {| m_columns := ["b::F::h1"; "t::T::h2"; "is_good::E::h4"]%string;
     m_rows := [("s1"%string, [Number 1; Number 10; Flag true]); ("s2"%string, [Number 1; Number 11; NaN]); ("s3"%string, [Number 1; Number 12; NaN]); ("s4"%string, [Number 1; Number 12; Flag true])] |}).
  set (d := {| features := ["b::F"%string]; targets := ["t::T"%string]; feature_thresh := 3 # 4; sample_thresh := 1 # 2; drop_nan_targets := true; impute_strategy := "median"; n_splits := 2;
     homogenize := true; split_columns := None; exclusion_columns := Some ["is_good::E"%string]; drop_split_threshold := 1 # 2 |}).
  assert (K : KeyError = BEEPDataSplitterError); [|discriminate K].
  apply (H toy_show d m KeyError ltac:(apply proper_b_ok; vm_compute; reflexivity) ltac:(apply distinct_b_ok; vm_compute; reflexivity)); [|vm_compute; reflexivity].
  intros n N. apply str_in_iff. cbn in N. decompose [or] N; subst; try tauto; vm_compute; reflexivity.
Qed.
(** Finding: features made with different hyperparameters are not coalesced: both columns stay, under one
    heading, and each lacks the samples of the other, so that a feature every sample has is dropped. *)
Definition toy_two : matrix :=
  {| m_columns := ["a::F::h1"; "a::F::h2"; "t::T::h2"]%string;
     m_rows := [("s1"%string, [Number 1; NaN; Number 10]); ("s2"%string, [Number 2; NaN; Number 11]); ("s3"%string, [NaN; Number 7; Number 12]); ("s4"%string, [NaN; Number 7; Number 12])] |}.
Theorem C80_coalesced_refuted : ~ (forall str c m n, homogenize c = true -> In n (features c) -> NoDup (labels m) -> (2 <= length (labels m))%nat -> feature_thresh c <= 1 ->
  (forall s, In s (labels m) -> exists h, strip_to_class h = n /\ exists x, entry m s h = Some (Number x)) ->
  (forall s t, In s (labels m) -> In t (targets c) -> exists h, strip_to_class h = t /\ exists x, entry m s h = Some (Number x)) -> split_columns c = None -> exclusion_columns c = None -> features c = [n] ->
  exists sp, construct str c m = Ok sp).
Proof.
  intro H. set (c := {| features := ["a::F"%string]; targets := ["t::T"%string]; feature_thresh := 3 # 4; sample_thresh := 1 # 2; drop_nan_targets := true; impute_strategy := "median"; n_splits := 2;
     homogenize := true; split_columns := None; exclusion_columns := None; drop_split_threshold := 1 # 2 |}).
  destruct (H toy_show c toy_two "a::F"%string) as [sp S]; try reflexivity.
  - left. reflexivity.
  - apply all_distinct_iff. vm_compute. reflexivity.
  - cbn. lia.
  - vm_compute. discriminate.
  - intros s I. cbn in I. destruct I as [<-|[<-|[<-|[<-|[]]]]]; [exists "a::F::h1"%string|exists "a::F::h1"%string|exists "a::F::h2"%string|exists "a::F::h2"%string]; (split; [vm_compute; reflexivity|eexists; vm_compute; reflexivity]).
  - intros s t I [<-|[]]. exists "t::T::h2"%string. split; [vm_compute; reflexivity|]. cbn in I. destruct I as [<-|[<-|[<-|[<-|[]]]]]; eexists; vm_compute; reflexivity.
  - vm_compute in S. discriminate.
Qed.

Print Assumptions C49_same_samples.
Print Assumptions C49_samples.
Print Assumptions C49_excluded_never_used.
Print Assumptions C49_features.
Print Assumptions C49_values.
Print Assumptions C49_imputed.
Print Assumptions C48_partition.
Print Assumptions C48_disjoint.
Print Assumptions C48_contents.
Print Assumptions C48_groups.
Print Assumptions C48_succeeds.
Print Assumptions C48_succeeds_groups.
Print Assumptions C49_reload_partial.
Print Assumptions C80_names.
Print Assumptions C80_idempotent.
Print Assumptions C80_again.
Print Assumptions C80_values_partial.
Print Assumptions C49_reload_excluded_refuted.
Print Assumptions C49_reload_imputation_refuted.
Print Assumptions C49_some_feature_refuted.
Print Assumptions C48_unknown_group_refuted.
Print Assumptions C49_sparse_exclusion_refuted.
Print Assumptions C80_coalesced_refuted.
